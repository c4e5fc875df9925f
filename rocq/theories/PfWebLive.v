(** * What is bound to succeed over HTTP: the tools (proofs) *)

From Verif Require Export SpecWebLive PfWeb5 PfLive2.
From Verif Require PfTok PfTok2.
From Coq Require Import Lia.

(** ** Assertions *)

Definition timed_good (w : world) (bound : N) (c : call) (a : answer) : Prop :=
  reliable w c a /\ match c, a with CNow, ATime t => (unix t <= bound)%N | _, _ => True end.

Lemma history_timed E w xs i c a : no_faults xs -> In (EvCall i c a) (history E w xs) ->
  timed_good w (unix (clock w (history E w xs))) c a.
Proof.
  intros Hf Hin. split; [eapply history_reliable; eauto|].
  destruct c; auto; destruct a; auto.
  apply in_split in Hin as (l1 & l2 & Hl).
  pose proof (history_ftrace E w xs Hf) as Ht. rewrite Hl in Ht.
  destruct (ftrace_at _ _ _ _ _ _ _ _ Ht) as (wm & oo & w1 & T1 & T2 & T3 & T4). apply ftrace_wtrace in T1.
  apply read_now in T2 as [-> _]. rewrite (wtrace_now _ _ _ _ T1). fold (clock w l1).
  apply unix_mono. rewrite Hl. apply clock_app.
Qed.

Lemma find_key_some ok keys k : In k keys -> k_use k <> "enc"%string -> ok k = true -> find_key ok keys <> None.
Proof.
  induction keys as [|k0 keys IH]; cbn; [tauto|]. intros [->|Hin] Hu Hk.
  - apply String.eqb_neq in Hu. rewrite Hu, Hk. discriminate.
  - destruct (String.eqb _ _); auto. destruct (ok k0); [discriminate|auto].
Qed.

Lemma assertion_ends E w raw c bound until : assertion_by E w raw c until -> (bound <= until)%N ->
  ends (timed_good w bound) (fun o => o = Done (aok (Some c)))
    (private_key_jwt E (Some (mkAuthn (Some assertion_bearer) (Some raw)))).
Proof.
  intros (Hne & Hp & cl & keys & k & H1 & H2 & H3 & H4 & H5 & H6 & H7 & H8 & H9 & H10 & H11 & H12 & H13) Hb.
  unfold private_key_jwt, assertion_of. cbn [aq_type aq_assertion]. rewrite String.eqb_refl. cbn [negb].
  apply is_empty_false in Hne. rewrite Hne, Hp, H1. cbn [negb]. rewrite H3, String.eqb_refl.
  apply is_empty_false in H2. apply is_empty_false in H4. apply is_empty_false in H5. rewrite H2, H4, H5.
  replace (c_exp cl =? 0)%N with false by (symmetry; apply N.eqb_neq; lia). cbn [orb negb].
  intros a [[Ha1 Ha2] Ha3]; destruct a; cbn in Ha1; try destruct Ha1.
  replace (c_exp cl <? unix t)%N with false by (symmetry; apply N.ltb_ge; lia). clear Ha2 Ha3.
  intros a [[Ha1 Ha2] Ha3]; destruct a; cbn in Ha1; try destruct Ha1. cbn in Ha2. rewrite Ha2, H8.
  apply is_empty_false in H9. rewrite H9, H10. unfold validate_signature.
  pose proof (find_key_some (fun k => x_verify E k raw) keys k H11 H12 H13) as Hk.
  destruct keys as [|k0 keys]; [destruct H11|].
  destruct (find_key _ _); [reflexivity|congruence].
Qed.

Lemma assertion_live E w xs j raw c o : no_faults xs ->
  In (EvStart j (RAssertion (Some (mkAuthn (Some assertion_bearer) (Some raw))))) (history E w xs) ->
  In (EvDone j o) (history E w xs) -> assertion_by E w raw c (unix (clock w (history E w xs))) ->
  o = Done (PAuthn (aok (Some c))).
Proof.
  intros Hf H1 H2 Ha.
  pose (Pz := fun o : outcome response => o = Done (PAuthn (aok (Some c)))). change (Pz o).
  eapply (ends_history E w xs j _ o Pz (timed_good w (unix (clock w (history E w xs)))) H1 H2).
  - intros c0 a Hin. eapply history_timed; eauto.
  - cbn [serve]. unfold pmap. apply ends_bind. eapply ends_weaken; [|eapply assertion_ends; eauto; lia].
    intros ? ->. reflexivity.
Qed.

(** ** Attestations *)

Lemma split_tilde_join a : forall b, ~ In "~"%char (list_ascii_of_string a) -> split_tilde (a ++ "~" ++ b) = Some (a, b).
Proof.
  induction a as [|x a IH]; intros b Hn; [reflexivity|].
  change (split_tilde (String x (a ++ "~" ++ b)) = Some (String x a, b)). cbn [split_tilde].
  destruct (Ascii.eqb_spec x "~") as [->|_]; [exfalso; apply Hn; left; reflexivity|].
  rewrite IH; [reflexivity|]. intros H. apply Hn. right; exact H.
Qed.

(** Fault-free answers, of a clock that shows a time between two seconds. *)
Definition between_good (w : world) (lo hi : N) (c : call) (a : answer) : Prop :=
  reliable w c a /\ match c, a with CNow, ATime t => (lo <= unix t <= hi)%N | _, _ => True end.

Lemma attestation_ends E w raw c lo hi : attested_by E w raw c lo hi ->
  ends (between_good w lo hi) (fun o => o = Done (aok (Some c)))
    (client_attestation E (Some (mkAuthn (Some assertion_attestation) (Some raw)))).
Proof.
  intros (att & pop & ca & cp & attester & keys & k & key & -> & Hn & A1 & A2 & A3 & A4 & A5 & A6 & A7 & A8 & A9 & A10 & A11 & A12 & A13
    & A14 & P1 & P2 & P3 & P4 & P5 & P6 & P7 & P8 & P9 & P10).
  unfold client_attestation, assertion_of. cbn [aq_type aq_assertion]. rewrite String.eqb_refl. cbn [negb].
  replace (is_empty (att ++ "~" ++ pop)) with false by (destruct att; reflexivity).
  rewrite (split_tilde_join _ _ Hn). unfold validate_attestation. rewrite A1, A2, A14. cbn [negb].
  apply is_empty_false in A3, A4. rewrite A3, A4.
  replace (c_exp ca =? 0)%N with false by (symmetry; apply N.eqb_neq; lia). cbn [orb negb].
  unfold now, client_get. cbn [bind].
  intros a [[Ha1 Ha2] Ha3]; destruct a; cbn in Ha1; try destruct Ha1.
  replace (c_exp ca <? unix t)%N with false by (symmetry; apply N.ltb_ge; lia). clear Ha2 Ha3. cbn [bind].
  intros a [[Ha1 Ha2] Ha3]; destruct a; cbn in Ha1; try destruct Ha1.
  replace (unix t0 <? c_nbf ca)%N with false by (symmetry; apply N.ltb_ge; lia). clear Ha2 Ha3. cbn [bind].
  intros a [[Ha1 Ha2] Ha3]; destruct a; cbn in Ha1; try destruct Ha1. cbn in Ha2. rewrite Ha2, A8.
  apply is_empty_false in A9. rewrite A9, A10.
  replace (validate_signature E keys att) with true.
  2: { unfold validate_signature. pose proof (find_key_some (fun k => x_verify E k att) keys k A11 A12 A13) as Hk.
       destruct keys as [|k0 keys]; [destruct A11|]. destruct (find_key _ _); [reflexivity|congruence]. }
  cbn [bind]. rewrite P1. cbn [negb]. unfold token_claims, token_decode. rewrite P2, P3.
  apply is_empty_false in P4, P5, P6. rewrite P4, P5, P6.
  replace (c_exp cp =? 0)%N with false by (symmetry; apply N.eqb_neq; lia). cbn [orb negb]. clear Ha2 Ha3.
  intros a [[Ha1 Ha2] Ha3]; destruct a; cbn in Ha1; try destruct Ha1.
  replace (c_exp cp <? unix t1)%N with false by (symmetry; apply N.ltb_ge; lia). clear Ha2 Ha3.
  intros a [[Ha1 Ha2] Ha3]; destruct a; cbn in Ha1; try destruct Ha1.
  replace (unix t2 <? c_nbf cp)%N with false by (symmetry; apply N.ltb_ge; lia). clear Ha2 Ha3.
  intros a [[Ha1 Ha2] Ha3]; destruct a; cbn in Ha1; try destruct Ha1. cbn in Ha2. rewrite Ha2, P10. reflexivity.
Qed.

Lemma attestation_live E w xs h0 h1 j raw c o : no_faults xs -> history E w xs = (h0 ++ h1)%list ->
  In (EvStart j (RAttestation (Some (mkAuthn (Some assertion_attestation) (Some raw))))) h1 ->
  In (EvDone j o) (history E w xs) ->
  attested_by E w raw c (unix (clock w h0)) (unix (clock w (history E w xs))) ->
  o = Done (PAuthn (aok (Some c))).
Proof.
  intros Hf Hh H1 H2 Ha.
  assert (H0 : In (EvStart j (RAttestation (Some (mkAuthn (Some assertion_attestation) (Some raw))))) (history E w xs))
    by (rewrite Hh; apply in_or_app; auto).
  pose (Pz := fun o : outcome response => o = Done (PAuthn (aok (Some c)))). change (Pz o).
  eapply (ends_history E w xs j _ o Pz (between_good w (unix (clock w h0)) (unix (clock w (history E w xs)))) H0 H2).
  - intros c0 a Hin. destruct (history_timed _ _ _ _ _ _ Hf Hin) as [X Y]. split; [exact X|].
    destruct c0; auto; destruct a; auto. split; [|exact Y].
    apply in_split in Hin as (l1 & l2 & Hl).
    pose proof (history_ftrace E w xs Hf) as Ht. rewrite Hl in Ht.
    destruct (ftrace_at _ _ _ _ _ _ _ _ Ht) as (wm & oo & w1 & T1 & T2 & T3 & T4). apply ftrace_wtrace in T1.
    apply read_now in T2 as [-> _]. rewrite (wtrace_now _ _ _ _ T1). fold (clock w l1).
    apply unix_mono. destruct (later_prefix _ _ _ _ _ _ _ _ _ _ _ Hh H1 Hl) as (u & ->). apply clock_app.
  - cbn [serve]. unfold pmap. apply ends_bind. eapply ends_weaken; [|eapply attestation_ends; eauto].
    intros ? ->. reflexivity.
Qed.

Lemma clients_read S w xs : forall s, hno_faults xs -> w_clients (hs_world s) = w_clients w ->
  forall i id a, In (HvCall i (CClientGet id) (AClient a)) (fst (hrun S s xs)) ->
  a = match w_clients w id with Some c => SOk c | None => SNotFound end.
Proof.
  induction xs as [|x xs IH]; intros s Hf Hw i id a Hin; [destruct Hin|].
  inversion Hf as [|? ? Hx Hf']; subst. cbn in Hin. destruct (hstep S s x) as [[e s1]|] eqn:Hs; [|eauto].
  destruct (hrun S s1 xs) as [h s2] eqn:Hr. cbn in Hin.
  destruct x as [e' r'|j o|dt]; cbn in Hs.
  - injection Hs as <- <-. destruct Hin as [Hin|Hin]; [discriminate|].
    eapply (IH _ Hf'); [|rewrite Hr; exact Hin]. exact Hw.
  - destruct (nth_error (hs_threads s) j) as [[[b| | |c' k]|]|]; try discriminate.
    + injection Hs as <- <-. destruct Hin as [Hin|Hin]; [discriminate|].
      eapply (IH _ Hf'); [|rewrite Hr; exact Hin]. exact Hw.
    + injection Hs as <- <-. destruct Hin as [Hin|Hin]; [discriminate|].
      eapply (IH _ Hf'); [|rewrite Hr; exact Hin]. exact Hw.
    + destruct (exec (sv_ext S) (hs_world s) o c') as [a' w'] eqn:He. injection Hs as <- <-.
      destruct Hin as [[= -> -> ->]|Hin].
      * cbn in He. rewrite Hx in He. cbn in He. injection He as He _. rewrite Hw in He. symmetry in He. exact He.
      * apply exec_const in He as (_ & He & _). rewrite Hw in He.
        eapply (IH _ Hf'); [|rewrite Hr; exact Hin]. exact He.
  - injection Hs as <- <-. destruct Hin as [Hin|Hin]; [discriminate|].
    eapply (IH _ Hf'); [|rewrite Hr; exact Hin]. exact Hw.
Qed.

(** ** Proofs *)

Lemma proof_ends E raw htm htu jti made th lo hi : proof_by E raw htm htu jti made th ->
  (unix (hi - 15 * second) <= made)%N -> (made <= unix (lo + 15 * second))%N ->
  ends (PfTok2.fresh_good (b64url (x_blake E "" jti)) lo hi)
    (fun o => o = Done (Some (b64url th))) (dpop_verify E htm htu raw None None).
Proof.
  intros (H1 & H2 & H3 & H4 & H5 & H6 & t & k & cl & P1 & P2 & P3 & P4 & P5 & P6 & P7 & P8 & P9 & P10) Hhi Hlo.
  unfold dpop_verify. apply is_empty_false in H1, H4, H5, H6. rewrite H1, H2, H5, H6. cbn [orb negb].
  replace (existsb (String.eqb (x_upper E htm)) http_methods) with true.
  2: { symmetry. apply existsb_exists. eexists. split; [exact H3|apply String.eqb_refl]. }
  cbn [negb]. rewrite P1, P2, P3. change (String.eqb "dpop+jwt" dpop_type) with true. cbn [negb].
  unfold token_claims, token_decode. rewrite P4, P5, H4, P6, P7, !String.eqb_refl. cbn [negb].
  intros a [Ha1 Ha2]; destruct a; cbn in Ha1; try destruct Ha1. cbn in Ha2. rewrite P8.
  destruct (N.ltb_spec made (unix (t0 - dpop_threshold))) as [B|_].
  { exfalso. assert (unix (t0 - dpop_threshold) <= unix (hi - 15 * second))%N by (apply unix_mono; unfold dpop_threshold; lia). lia. }
  clear Ha2. intros a [Ha1 Ha2]; destruct a; cbn in Ha1; try destruct Ha1. cbn in Ha2.
  destruct (N.ltb_spec (unix (t1 + dpop_threshold)) made) as [B|_].
  { exfalso. assert (unix (lo + 15 * second) <= unix (t1 + dpop_threshold))%N by (apply unix_mono; unfold dpop_threshold; lia). lia. }
  clear Ha2. rewrite P9. intros a [Ha1 Ha2]; destruct a; cbn in Ha1; try destruct Ha1. cbn in Ha2. rewrite (Ha2 eq_refl).
  clear Ha2. intros a [Ha1 Ha2]; destruct a; cbn in Ha1; try destruct Ha1. cbn in Ha2. rewrite Ha2. cbn [ends]. f_equal.
  unfold dpop_finish, thumbprint. rewrite P10. reflexivity.
Qed.

Lemma proof_live E w ys h0 h1 i raw htm htu jti made th o : proof_by E raw htm htu jti made th ->
  history E w ys = (h0 ++ h1)%list -> no_faults ys -> w_proof w (b64url (x_blake E "" jti)) = None ->
  (made <= unix (clock w h0 + 15 * second))%N -> (unix (clock w (history E w ys) - 15 * second) <= made)%N ->
  (forall j a, In (EvCall j (CProofReg (b64url (x_blake E "" jti))) a) (history E w ys) -> j = i) ->
  In (EvStart i (RDpop htm htu raw None None)) h1 -> In (EvDone i o) (history E w ys) ->
  o = Done (PDpop (Some (b64url th))).
Proof.
  intros Hp Hh Hf Hb Hlo Hhi Hone Hi0 Hi2.
  assert (Hi1 : In (EvStart i (RDpop htm htu raw None None)) (history E w ys)) by (rewrite Hh; apply in_or_app; auto). set (id := b64url (x_blake E "" jti)) in *.
  pose (Pz := fun o : outcome response => o = Done (PDpop (Some (b64url th)))). change (Pz o).
  apply (ends_history E w ys i (RDpop htm htu raw None None) o Pz (PfTok2.fresh_good id (clock w h0) (clock w (history E w ys))) Hi1 Hi2).
  - intros c a Hin. split; [eapply history_typed; exact Hin|].
    pose proof Hin as Hin'. apply in_split in Hin' as (l1 & l2 & Hl12).
    pose proof (history_ftrace E w ys Hf) as Ht. rewrite Hl12 in Ht.
    destruct (ftrace_at _ _ _ _ _ _ _ _ Ht) as (wm & oo & w1 & T1 & T2 & T3 & T4). apply ftrace_wtrace in T1.
    destruct c; auto; destruct a; auto.
    + apply read_now in T2 as [-> _]. rewrite (wtrace_now _ _ _ _ T1). fold (clock w l1). split.
      * destruct (later_prefix _ _ _ _ _ _ _ _ _ _ _ Hh Hi0 Hl12) as (u & ->). apply clock_app.
      * rewrite Hl12. apply clock_app.
    + intros ->. cbn in T2. rewrite T3 in T2. cbn in T2. injection T2 as <- _.
      unfold cache_get. rewrite (PfTok2.proof_fresh _ _ _ _ T1 id); [reflexivity|exact Hb|].
      intros j a Hj'. assert (j = i) as ->.
      { apply (Hone j a). rewrite Hl12. apply in_or_app; auto. }
      exact (PfTok2.proof_order E w ys i htm htu raw None None l1 id _ l2 id a Hi1 Hl12 Hj').
    + apply full_write in T2; auto. destruct T2 as [T2|(x & y & T2 & _)]; [exact T2|discriminate].
  - cbn [serve]. unfold pmap. apply ends_bind. eapply ends_weaken; [|eapply proof_ends; eauto].
    intros ? ->. reflexivity.
Qed.

(** The requests of the middleware that authenticates clients. *)
Definition login (r : http_request) (x : request) : Prop :=
  x = RAssertion (credentials r) \/ x = RAttestation (credentials r).

Section Live.
Context (S : http_server) (w : world) (xs : list hsched) (ys : list sched) (own : list nat).
Context (R : refined S w xs ys own) (Hf : hno_faults xs).
Notation E := (sv_ext S).
Notation hh := (http_history S w xs).
Notation h := (history E w ys).

Lemma same_clock : clock w h = (w_now w + time_in hh)%N.
Proof. unfold clock. rewrite (same_time own hh h); auto. apply (ex_effects _ _ _ _ (rf_explained _ _ _ _ _ R)). Qed.

Lemma saw_client i id a : In (HvCall i (CClientGet id) (AClient a)) hh ->
  a = match w_clients w id with Some c => SOk c | None => SNotFound end.
Proof.
  intros Hin. apply (clients_read S w xs (mkHsys w [])) in Hin; auto.
Qed.

Lemma attested_served i e r c hh0 hh1 j o : hh = (hh0 ++ hh1)%list -> In (HvStart i e r) hh1 ->
  post_value r "client_assertion_type" = assertion_attestation ->
  attested_by E w (post_value r "client_assertion") c (unix (w_now w + time_in hh0)) (unix (w_now w + time_in hh)) ->
  nth_error own j = Some i -> In (EvStart j (RAttestation (credentials r))) h -> In (EvDone j o) h ->
  o = Done (PAuthn (aok (Some c))).
Proof.
  intros Hh Hs Q2 Q3 O H1 H2. pose proof (rf_faults _ _ _ _ _ R Hf) as Hf'.
  destruct (rf_points _ _ _ _ _ R hh0 hh1 []) as (h0 & h1 & h2 & Hy & X0 & _); [rewrite app_nil_r; exact Hh|].
  assert (T0 : clock w h0 = (w_now w + time_in hh0)%N)
    by (unfold clock; rewrite <- (same_time own hh0 h0) by apply (ex_effects _ _ _ _ X0); reflexivity).
  rewrite <- same_clock, <- T0 in Q3. 
  assert (H3 : In (EvStart j (RAttestation (credentials r))) (h1 ++ h2)).
  { rewrite Hy in H1. eapply made_later; eauto. }
  unfold credentials in H3. rewrite Q2 in H3.
  exact (attestation_live _ _ _ _ _ _ _ _ _ Hf' Hy H3 H2 Q3).
Qed.

(** The middleware lets the request pass, for this client. *)
Lemma passes i r c d : comes_from S w hh i r c -> past own hh h i d ->
  ~ locked_out r d /\ forall c', logged_in r d c' -> c' = Some c.
Proof.
  intros Hc P. pose proof (rf_faults _ _ _ _ _ R Hf) as Hf'.
  destruct Hc as [(Q1 & Q2 & Q3)|[(Q1 & Q2 & Q3)|(Q1 & Q2 & e & hh0 & hh1 & Hh & Hs0 & Q3)]].
  - assert (L : forall c', logged_in r d c' -> c' = Some c).
    { intros c' [(c0 & -> & _ & Hs & _)|(Hq & _)]; [|contradiction].
      pose proof (P _ Hs) as H. cbn in H. apply saw_client in H. rewrite Q2 in H. congruence. }
    split; auto. intros [Hl|[(_ & a & Hs & Ha)|(Hq & _)]]; [apply L in Hl; discriminate| |contradiction].
    pose proof (P _ Hs) as H. cbn in H. apply saw_client in H. rewrite Q2 in H. exact (Ha _ H Q3).
  - change (post_value r "client_assertion_type" = assertion_bearer) in Q2.
    assert (A : forall res, served d (RAssertion (credentials r)) (PAuthn res) -> res = aok (Some c)).
    { intros res Hs. destruct (past_served _ _ _ _ _ _ _ _ _ P Hs) as (j & O & A1 & A2).
      rewrite <- same_clock in Q3. unfold credentials in A1. rewrite Q2 in A1.
      pose proof (assertion_live _ _ _ _ _ _ _ Hf' A1 A2 Q3). congruence. }
    assert (L : forall c', logged_in r d c' -> c' = Some c).
    { intros c' [(c0 & _ & Hq & _)|(_ & res & _ & Hr & [[Hs _]|[_ Hs]])]; [contradiction| |].
      - apply A in Hs. subst res. rewrite <- Hr. reflexivity.
      - rewrite Q2 in Hs. discriminate. }
    split; auto. intros [Hl|[(Hq & _)|(_ & [[Hn _]|(res & He & [[Hs _]|[_ Hs]])])]]; [apply L in Hl; discriminate|contradiction|contradiction| |].
    + apply A in Hs. subst res. discriminate.
    + rewrite Q2 in Hs. discriminate.
  - change (post_value r "client_assertion_type" = assertion_attestation) in Q2.
    assert (A : forall res, served d (RAttestation (credentials r)) (PAuthn res) -> res = aok (Some c)).
    { intros res Hs. destruct (past_served _ _ _ _ _ _ _ _ _ P Hs) as (j & O & A1 & A2).
      pose proof (attested_served _ _ _ _ _ _ _ _ Hh Hs0 Q2 Q3 O A1 A2). congruence. }
    assert (L : forall c', logged_in r d c' -> c' = Some c).
    { intros c' [(c0 & _ & Hq & _)|(_ & res & _ & Hr & [[_ Hs]|[Hs _]])]; [contradiction| |].
      - rewrite Q2 in Hs. discriminate.
      - apply A in Hs. subst res. rewrite <- Hr. reflexivity. }
    split; auto. intros [Hl|[(Hq & _)|(_ & [[_ Hn]|(res & He & [[_ Hs]|[Hs _]])])]]; [apply L in Hl; discriminate|contradiction|contradiction| |].
    + rewrite Q2 in Hs. discriminate.
    + apply A in Hs. subst res. discriminate.
Qed.

(** Whatever authenticates the request ends well. *)
Lemma login_served i e r c j x o : comes_from S w hh i r c -> In (HvStart i e r) hh -> nth_error own j = Some i ->
  login r x -> In (EvStart j x) h -> In (EvDone j o) h -> o = Done (PAuthn (aok (Some c))).
Proof.
  intros Hc Hs O Hx H1 H2. pose proof (rf_faults _ _ _ _ _ R Hf) as Hf'.
  destruct (made_by _ _ _ _ _ R _ _ _ _ _ Hs O H1) as (d & _ & St).
  destruct Hx as [-> | ->]; cbn [stage] in St; destruct St as (_ & _ & _ & X & Y);
    (destruct Hc as [(Q1 & _)|[(Q1 & Q2 & Q3)|(Q1 & Q2 & e' & hh0 & hh1 & Hh & Hs0 & Q3)]]; [contradiction| |]);
    try (rewrite Q2 in Y; discriminate).
  - rewrite <- same_clock in Q3. unfold credentials in H1. rewrite Y in H1.
    exact (assertion_live _ _ _ _ _ _ _ Hf' H1 H2 Q3).
  - exact (attested_served _ _ _ _ _ _ _ _ Hh Hs0 Y Q3 O H1 H2).
Qed.

(** The check of a good proof gives its thumbprint. *)
Lemma proof_served i r th e j o : has_proof S w hh i r th -> In (HvStart i e r) hh -> nth_error own j = Some i ->
  In (EvStart j (proof_check r)) h -> In (EvDone j o) h -> o = Done (PDpop (Some (b64url th))).
Proof.
  intros (jti & made & e' & hh0 & hh1 & Hp & Hh & Hs' & Hlo & Hhi & Hb & Hone) Hs O H1 H2. pose proof (rf_faults _ _ _ _ _ R Hf) as Hf'.
  destruct (rf_points _ _ _ _ _ R hh0 hh1 []) as (h0 & h1 & h2 & Hy & X0 & _); [rewrite app_nil_r; exact Hh|].
  eapply (proof_live E w ys h0 (h1 ++ h2) j _ _ _ jti made th o Hp Hy Hf' Hb);
    [unfold clock; rewrite <- (same_time own hh0 h0) by apply (ex_effects _ _ _ _ X0); exact Hlo|rewrite same_clock; exact Hhi| | |exact H2].
  2: { rewrite Hy in H1. eapply made_later; eauto. }
  intros j' a Hin. pose proof Hin as Hin'.
  destruct (http_call _ _ _ _ _ R j' (CProofReg (b64url (x_blake E "" jti))) a eq_refl Hin) as (i' & O' & Hcall). apply Hone in Hcall. subst i'.
  apply in_split in Hin' as (l1 & l2 & Hl).
  destruct (write_reason _ _ _ _ _ _ _ _ Hl) as (x & Hx & htm & htu & pf & tv & tc & cl & -> & _).
  assert (Hx' : In (EvStart j' (RDpop htm htu pf tv tc)) h) by (rewrite Hl; apply in_or_app; auto).
  eapply (ex_once _ _ _ _ (rf_explained _ _ _ _ _ R) j' _ j); eauto.
Qed.

(** What serves a request of the token endpoint. *)
Lemma token_stages i r c cnf j x : comes_from S w hh i r c -> holds S w hh i r c cnf -> In (HvStart i EToken r) hh ->
  nth_error own j = Some i -> In (EvStart j x) h ->
  login r x \/ (x = proof_check r /\ hq_header r "DPoP" <> ""%string) \/
  x = RToken (Some (token_message (sv_issuer S) r c cnf)).
Proof.
  intros Hc Hb Hs O Hx.
  destruct (made_by _ _ _ _ _ R _ _ _ _ _ Hs O Hx) as (d & P & St).
  destruct x; cbn [stage] in St.
  - destruct St as (_ & _ & c' & cnf' & L & -> & D). right; right.
    destruct (passes _ _ _ _ Hc P) as [_ L']. apply L' in L. injection L as ->.
    assert (cnf' = cnf) as ->; [|reflexivity].
    destruct D as [(D1 & -> & _)|(jkt & -> & D)].
    + destruct Hb as [(_ & ->)|(_ & th & (jti & made & ? & ? & ? & (Hne & _) & _) & _)]; [reflexivity|contradiction].
    + destruct (past_served _ _ _ _ _ _ _ _ _ P D) as (j' & O' & A1 & A2).
      destruct Hb as [((_ & B2 & _) & _)|(_ & th & Hp & ->)].
      * exfalso. destruct (made_by _ _ _ _ _ R _ _ _ _ _ Hs O' A1) as (d' & _ & St). unfold proof_check in St. cbn [stage] in St.
        destruct St as (_ & _ & _ & Hn & _). exact (Hn eq_refl B2).
      * pose proof (proof_served _ _ _ _ _ _ Hp Hs O' A1 A2). congruence.
  - destruct St as (X & _); discriminate.
  - destruct St as (X & _); discriminate.
  - destruct St as (X & _); discriminate.
  - destruct St as (X & _); discriminate.
  - destruct St as (X & _); discriminate.
  - destruct St as (X & _); discriminate.
  - destruct St as (_ & _ & -> & _). left; left; reflexivity.
  - destruct St as (_ & _ & -> & _). left; right; reflexivity.
  - destruct St as (_ & _ & -> & Hn & _). auto.
Qed.

Lemma token_live i r c cnf o : comes_from S w hh i r c -> holds S w hh i r c cnf ->
  In (HvStart i EToken r) hh -> In (HvDone i o) hh ->
  (forall j o', nth_error own j = Some i -> In (EvStart j (RToken (Some (token_message (sv_issuer S) r c cnf)))) h ->
     In (EvDone j o') h -> exists res, o' = Done (PToken res) /\ tr_err res = false /\ tr_at res <> None) ->
  exists j res at_ m t, nth_error own j = Some i /\
    token_ok h j (token_message (sv_issuer S) r c cnf) res /\ tr_at res = Some at_ /\ t_meta at_ = Some m /\
    In (HvCall i CNow (ATime t)) hh /\
    o = Done (HToken (t_value at_) (sub64 (m_expires_at m) (unix t)) (type_sent cnf)
               (match tr_rt res with Some rt => t_value rt | None => ""%string end) (m_scope m)).
Proof.
  intros Hc Hb Hs Hd Hok. pose proof (rf_faults _ _ _ _ _ R Hf) as Hf'.
  pose proof (rf_explained _ _ _ _ _ R) as X. pose proof (one_start_all S w xs) as U.
  assert (Tok : forall j q y d, past own hh h i d -> In (Served j (RToken q) y) d ->
    exists res, y = PToken res /\ tr_err res = false /\ tr_at res <> None /\
      token_ok h j (token_message (sv_issuer S) r c cnf) res /\ nth_error own j = Some i).
  { intros j q y d P Hin. destruct (P _ Hin) as (O & P1 & P2).
    destruct (token_stages _ _ _ _ _ _ Hc Hb Hs O P1) as [[Q|Q]|[[Q _]|Q]]; [discriminate|discriminate|discriminate|]. injection Q as ->.
    destruct (Hok _ _ O P1 P2) as (res & Q & Q1 & Q2). injection Q as ->. exists res.
    split; auto. split; auto. split; auto. split; [split; [split|]|]; auto. }
  assert (Oth : forall j x y d, past own hh h i d -> In (Served j x y) d ->
    match x with RToken _ | RAssertion _ | RAttestation _ | RDpop _ _ _ _ _ => True | _ => False end).
  { intros j x y d P Hin. destruct (P _ Hin) as (O & P1 & P2).
    destruct (token_stages _ _ _ _ _ _ Hc Hb Hs O P1) as [[-> | ->]|[[-> _]| ->]]; exact I. }
  assert (Dp : forall j o', nth_error own j = Some i -> In (EvStart j (proof_check r)) h -> In (EvDone j o') h ->
    hq_header r "DPoP" <> ""%string -> exists th, o' = Done (PDpop (Some th))).
  { intros j o' O P1 P2 Hne. destruct Hb as [((_ & B2 & _) & _)|(_ & th & Hp & _)]; [contradiction|].
    pose proof (proof_served _ _ _ _ _ _ Hp Hs O P1 P2) as ->. eauto. }
  assert (Meta : forall j res at_, token_ok h j (token_message (sv_issuer S) r c cnf) res -> tr_at res = Some at_ ->
    exists m, t_meta at_ = Some m).
  { intros j res at_ T Hat. destruct (response_created _ _ _ _ _ _ at_ T) as (iss & m & rr & _ & _ & Hm & _); eauto.
    unfold tokens_of. rewrite Hat. cbn; auto. }
  assert (Post : hq_method r = "POST"%string) by (destruct Hb as [((B & _) & _)|(B & _)]; exact B).
  destruct o as [resp|].
  - destruct (ex_done _ _ _ _ X _ _ Hd) as (e0 & r0 & d & A & P & B).
    destruct (U _ _ _ _ _ Hs A) as [-> ->].
    destruct resp; cbn [ending] in B.
    + exfalso. destruct B as [B|[B|[B|[B|[B|[B|[B|B]]]]]]].
      { destruct B as (q & res & (j & Hj) & He & _). destruct (Tok _ _ _ _ P Hj) as (res' & [= <-] & He' & _). congruence. }
      1-6: destruct B as (q & res & (j & Hj) & _); exact (Oth _ _ _ _ P Hj).
      destruct B as [_ B]. destruct (passes _ _ _ _ Hc P) as [Hl Hl'].
      inversion B; subst.
      * contradiction.
      * contradiction.
      * match goal with Q : logged_in _ _ (Some ?c0) |- _ => apply Hl' in Q; injection Q as -> end.
        destruct Hb as [((_ & _ & B3) & _)|(_ & th & (jti & made & ? & ? & ? & (Hne & _) & _) & _)]; [congruence|contradiction].
      * match goal with Q : served _ _ _ |- _ => destruct Q as (j & Q); destruct (P _ Q) as (O & P1 & P2) end.
        destruct (token_stages _ _ _ _ _ _ Hc Hb Hs O P1) as [[Q|Q]|[[_ Q]|Q]]; [discriminate|discriminate| |discriminate].
        destruct (Dp _ _ O P1 P2 Q) as (th & Q'). discriminate.
    + exfalso. destruct B as [[B _]|[[B|B] _]]; discriminate.
    + destruct B as (_ & q & res & at_ & m & t & (j & Hj) & B1 & B2 & B3 & B4 & -> & -> & -> & -> & ->).
      destruct (Tok _ _ _ _ P Hj) as (res' & [= <-] & _ & _ & T & O).
      exists j, res, at_, m, t. split; auto. split; auto. split; auto. split; auto. split; [exact (P _ B4)|].
      destruct Hb as [((_ & -> & _) & ->)|(_ & th & (jti & made & ? & ? & ? & (Hne & _) & _) & ->)]; [reflexivity|].
      unfold type_sent. apply is_empty_false in Hne. rewrite Hne. reflexivity.
    + destruct B as (B & _); discriminate.
    + destruct B as [(B & _)|(B & _)]; discriminate.
    + destruct B as (B & _); discriminate.
    + destruct B as (B & _); discriminate.
    + destruct B as (B & _); discriminate.
    + destruct B as (B & _); discriminate.
    + destruct B as (B & _); discriminate.
    + destruct B as (B & _); discriminate.
    + destruct B as (B & _); discriminate.
  - exfalso. destruct (ex_crash _ _ _ _ X _ Hd) as [(j & O & Hj)|(e & r0 & d & A & P & B)].
    + destruct (trace_history E w ys) as (sy & Ht & _). destruct (done_started _ _ _ _ _ _ Ht Hj) as (x & Hx).
      destruct (token_stages _ _ _ _ _ _ Hc Hb Hs O Hx) as [Hx' | [[-> Hne] | ->]].
      * pose proof (login_served _ _ _ _ _ _ _ Hc Hs O Hx' Hx Hj). discriminate.
      * destruct (Dp _ _ O Hx Hj Hne) as (th & Q). discriminate.
      * destruct (Hok _ _ O Hx Hj) as (res & Q & _). discriminate.
    + destruct (U _ _ _ _ _ Hs A) as [-> ->]. cbn [ending] in B.
      destruct B as [(id & B)|[B|[B|[B|[B|[B|[B|B]]]]]]].
      2: { destruct B as (q & res & (j & Hj) & [[He _]|[He Hm]]); destruct (Tok _ _ _ _ P Hj) as (res' & [= <-] & He' & Hat & T & _);
             [congruence|]. destruct (tr_at res) as [at_|] eqn:Hat'; [|congruence].
           destruct (Meta _ _ _ T Hat') as (m & Q). rewrite (Hm _ eq_refl) in Q. discriminate. }
      * pose proof (P _ B) as B'. cbn in B'. apply saw_client in B'. destruct (w_clients w id); discriminate.
      * destruct B as (q & res & (j & Hj) & _); exact (Oth _ _ _ _ P Hj).
      * destruct B as (q & res & (j & Hj) & _); exact (Oth _ _ _ _ P Hj).
      * destruct B as (q & res & (j & Hj) & _); exact (Oth _ _ _ _ P Hj).
      * destruct B as (q & res & (j & Hj) & _); exact (Oth _ _ _ _ P Hj).
      * destruct B as (q & res & (j & Hj) & _); exact (Oth _ _ _ _ P Hj).
      * destruct B as (q & res & (j & Hj) & _); exact (Oth _ _ _ _ P Hj).
Qed.

(** The generators. *)
Lemma same_generators i j : web_generators_work hh i -> nth_error own j = Some i -> generators_work h j.
Proof.
  intros Hg O t a Hin. apply (Hg t).
  assert (Q : forall c, calm c = false -> In (EvCall j c a) h -> In (HvCall i c a) hh).
  { intros c Hc H. destruct (http_call _ _ _ _ _ R _ _ _ Hc H) as (i' & O' & H'). congruence. }
  destruct Hin as [Hin|Hin]; [left|right]; apply Q; auto.
Qed.
End Live.
