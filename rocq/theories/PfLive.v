(** * What is bound to succeed: codes (proofs) *)

From Verif Require Export SpecLive PfAuthz PfDev2.

(** ** C82: redemption of a fresh code *)

(** A token request reads a code before it deletes one. *)
Definition reads_first (tr : list (call * answer)) (c : call) : Prop :=
  match c with CSessGet _ _ => forall i s a, ~ In (CSessDel i s, a) tr | _ => True end.

Ltac wany := repeat match goal with
  | |- wp _ _ _ (Ret _) => exact I
  | |- wp _ _ _ Panic => exact I
  | |- wp _ _ _ (bind _ _) => apply (wp_bind _ _ (fun _ _ => True)); [|intros ? ? _]
  | |- wp _ _ _ (let _ := _ in _) => cbv zeta
  | |- wp _ _ _ (if ?b then _ else _) => destruct b
  | |- wp _ _ _ (match ?x with _ => _ end) => destruct x
  | |- wp _ _ _ _ => let x := fresh "x" in wcall x
  end.

Lemma reads_first_at tr cid meta cnf : wp reads_first (fun _ _ => True) tr (generate_access_token cid meta cnf).
Proof. unfold generate_access_token. wany. Qed.
Lemma reads_first_rt tr cid meta cnf : wp reads_first (fun _ _ => True) tr (generate_refresh_token cid meta cnf).
Proof. unfold generate_refresh_token. wany. Qed.

Lemma reads_first_wp E r : wp reads_first (fun _ _ => True) [] (token_svc E r).
Proof.
  unfold token_svc, dispatch, authorization_code, redeem_session, client_credentials, refresh_token, device_code,
    token_exchange, prologue.
  wany; try apply reads_first_at; try apply reads_first_rt.
  all: intros i' s' a' [X|[]]; discriminate X.
Qed.

(** A redemption whose storage works. *)
Definition redeem_good (auth : string) (cl : client) (issuer code : string) (s : acsession)
    (c : call) (a : answer) : Prop :=
  typed c a /\
  match c, a with
  | CClientGet id, AClient r => id = auth -> r = SOk cl
  | CSessGet i' c', ASess r => i' = issuer -> c' = code -> r = SOk s
  | (CGenAT _ | CGenRT _), AGen r => exists v, r = Some v /\ v <> ""%string
  | CTokCreate _ _, AUnit r | CSessDel _ _, AUnit r => is_ok r = true
  | _, _ => True
  end.

Lemma redeem_ends E auth cl code redirect verifier s ar req :
  tq_client req = Some auth -> tq_grant req = GAuthorizationCode code redirect verifier ->
  tq_grant_type req = gt_code -> tq_issuer req <> ""%string -> code <> ""%string -> redirect <> ""%string ->
  x_request_uri E (tq_issuer req) = true -> (rune_count code <= 1024)%nat ->
  (43 <= String.length verifier <= 128)%nat ->
  listed E (cl_grant_types cl) gt_code -> listed E (cl_redirect_uris cl) redirect ->
  as_request s = Some ar -> ar_redirect_uri ar = redirect -> ar_code_challenge_method ar = s256 ->
  b64url (x_sha256 E verifier) = ar_code_challenge ar -> asks E (ar_scope ar) scope_openid ->
  ends (redeem_good (cl_id auth) cl (tq_issuer req) code s)
    (fun o => match o with
              | Done res => tr_err res = false /\ tr_at res <> None /\
                  (asks E (ar_scope ar) scope_offline <-> tr_rt res <> None)
              | Crashed => False end)
    (token_svc E (Some req)).
Proof.
  intros H1 H2 H3 H4 H5 H6 H7 H8 H9 H10 H11 H12 H13 H14 H15 H16. apply is_empty_false in H4, H5, H6.
  assert (Hv : validate_request req = None).
  { unfold validate_request. rewrite H1, H2, H3, H4. reflexivity. }
  unfold token_svc. rewrite Hv, H1.
  intros a [Ha1 Ha2]; destruct a; cbn in Ha1; try destruct Ha1. cbn in Ha2. rewrite (Ha2 eq_refl).
  unfold dispatch. rewrite H3. change (String.eqb gt_code gt_cc) with false.
  change (String.eqb gt_code gt_code) with true. cbv iota zeta.
  unfold authorization_code. rewrite H2. unfold prologue. rewrite H4, H7. cbn [negb].
  apply has_iff in H10, H11. rewrite H10. cbn [negb]. rewrite H5, H6.
  assert (Hve : is_empty verifier = false) by (destruct verifier; [cbn in H9; lia|reflexivity]). rewrite Hve. cbn [orb].
  assert (L1 : Nat.ltb max_code_length (rune_count code) = false) by (apply Nat.ltb_ge; exact H8). rewrite L1.
  assert (L2 : Nat.ltb (String.length verifier) min_verifier_length = false) by (apply Nat.ltb_ge; unfold min_verifier_length; lia). rewrite L2.
  assert (L3 : Nat.ltb max_verifier_length (String.length verifier) = false) by (apply Nat.ltb_ge; unfold max_verifier_length; lia). rewrite L3.
  clear Ha2. intros a [Ha1 Ha2]; destruct a; cbn in Ha1; try destruct Ha1. cbn in Ha2.
  rewrite (Ha2 eq_refl eq_refl), H12. clear Ha2.
  intros a [Ha1 Ha2]; destruct a; cbn in Ha1; try destruct Ha1. cbn in Ha2. rewrite Ha2. clear Ha2.
  unfold redeem_session. rewrite H13, String.eqb_refl, H11, H14, H15, !String.eqb_refl. cbn [negb]. cbv zeta.
  apply has_iff in H16. rewrite H16.
  apply ends_bind. unfold generate_access_token.
  intros a [Ha1 Ha2]; destruct a; cbn in Ha1; try destruct Ha1. clear Ha2.
  intros a [Ha1 Ha2]; destruct a; cbn in Ha1; try destruct Ha1. clear Ha2.
  intros a [Ha1 Ha2]; destruct a; cbn in Ha1; try destruct Ha1. cbn in Ha2. destruct Ha2 as (v & -> & Hv1).
  apply is_empty_false in Hv1. rewrite Hv1.
  intros a [Ha1 Ha2]; destruct a; cbn in Ha1; try destruct Ha1. cbn in Ha2. rewrite Ha2. cbn [ends]. clear Ha2.
  destruct (has E (fields (ar_scope ar)) scope_offline) eqn:Hoff.
  2: { cbn. apply has_false_iff in Hoff. split; [reflexivity|]. split; [discriminate|]. unfold asks. tauto. }
  apply ends_bind. unfold generate_refresh_token.
  intros a [Ha1 Ha2]; destruct a; cbn in Ha1; try destruct Ha1. clear Ha2.
  intros a [Ha1 Ha2]; destruct a; cbn in Ha1; try destruct Ha1. clear Ha2.
  intros a [Ha1 Ha2]; destruct a; cbn in Ha1; try destruct Ha1. cbn in Ha2. destruct Ha2 as (v2 & -> & Hv2).
  apply is_empty_false in Hv2. rewrite Hv2.
  intros a [Ha1 Ha2]; destruct a; cbn in Ha1; try destruct Ha1. cbn in Ha2. rewrite Ha2. cbn [ends].
  apply has_iff in Hoff. split; [reflexivity|]. split; [discriminate|]. split; [discriminate|]. intros _. exact Hoff.
Qed.

Lemma effective_unique E w xs k q res eff eff' :
  authorize_ok_at (history E w xs) k q res ->
  effective (history E w xs) k q eff -> effective (history E w xs) k q eff' -> eff = eff'.
Proof.
  intros Hok (r0 & R1 & R2) (r1 & S1 & S2). assert (r1 = r0) as -> by congruence.
  destruct R2 as [[X ->]|(uri & X & R2)], S2 as [[Y ->]|(uri' & Y & S2)]; try congruence.
  assert (uri' = uri) as -> by congruence.
  destruct (authorize_facts _ _ _ _ _ _ Hok) as (e & ar & c & code & n & _ & _ & _ & _ & _ & _ & _ & _ & _ & _ & F).
  destruct (F _ _ R1 X) as (d & Hc & _). apply in_calls_of in R2, S2. rewrite Hc in R2, S2.
  repeat (destruct R2 as [R2|R2]; [try discriminate|]); [|destruct R2].
  repeat (destruct S2 as [S2|S2]; [try discriminate|]); [|destruct S2]. congruence.
Qed.

Lemma C82_fresh_code_is_redeemed_proof :
  forall E w xs h0 h1 h2 k q zres eff i req verifier o,
  no_faults xs ->
  history E w xs = (h0 ++ h1 ++ h2)%list -> (elapsed (h1 ++ h2) <= 60 * second)%N ->
  (* a user authorizes a client to act for them, for a scope with openid *)
  authorize_ok_at h1 k q zres -> effective h1 k q eff -> asks E (ar_scope eff) "openid" ->
  (* within a minute that client redeems the code *)
  In (EvStart i (RToken (Some req))) h2 -> In (EvDone i o) h2 ->
  by_client req (zr_client_id zres) -> tq_issuer req = zq_issuer q -> x_request_uri E (tq_issuer req) = true ->
  tq_grant_type req = "authorization_code"%string ->
  tq_grant req = GAuthorizationCode (zr_code zres) (zr_redirect_uri zres) verifier ->
  (43 <= String.length verifier <= 128)%nat -> b64url (x_sha256 E verifier) = ar_code_challenge eff ->
  zr_code zres <> ""%string -> (rune_count (zr_code zres) <= 1024)%nat ->
  generators_work (history E w xs) i ->
  (* nobody else has that code *)
  (forall k' iss' code' s a, In (EvCall k' (CSessReg iss' code' s) a) (h1 ++ h2) ->
     sess_key E iss' code' = sess_key E (zq_issuer q) (zr_code zres) -> k' = k) ->
  (forall j req' code', asked (history E w xs) j (RToken (Some req')) -> presents_code req' (tq_issuer req') code' ->
     sess_key E (tq_issuer req') code' = sess_key E (zq_issuer q) (zr_code zres) -> j = i) ->
  exists res, o = Done (PToken res) /\ tr_err res = false /\ tr_at res <> None /\
    (asks E (ar_scope eff) "offline_access" -> ar_prompt eff = Some "consent"%string -> tr_rt res <> None).
Proof.
  intros E w xs h0 h1 h2 k q zres eff i req verifier o Hf Hh Hsh Hz Heff Hopen Hi1 Hi2 (auth & Hc1 & Hc2)
    Hiss Huri Hgt Hg Hlen Hch Hne Hrc Hgen Honce Honly.
  assert (Hz' : authorize_ok_at (history E w xs) k q zres).
  { destruct Hz as [[Z1 Z2] Z3]. split; auto. split; rewrite Hh, !in_app_iff; auto. }
  assert (Heff' : effective (history E w xs) k q eff).
  { destruct Heff as (r0 & R1 & [R2|(uri & R2 & R3)]); exists r0; split; auto.
    right. exists uri. split; auto. rewrite Hh, !in_app_iff; auto. }
  destruct (authorize_facts _ _ _ _ _ _ Hz') as (eff2 & ar & c & code & n & F1 & F2 & F3 & F4 & F5 & F6 & F7 & F8 & F9 & Hres & _).
  assert (eff2 = eff) as -> by (eapply effective_unique; eauto). clear F1.
  pose proof (facts_normalized _ _ _ F2) as Hn. destruct Hn as (Hp & _ & Hsc1 & Hsc2 & Hsc3).
  destruct Hp as (P1 & P2 & P3 & P4 & P5 & P6 & P7 & P8 & P9 & P10 & _).
  rewrite Hres in *. cbn [zr_code zr_client_id zr_redirect_uri] in *.
  set (s := mkSess (zq_issuer q) (zq_subject q) (Some ar)) in *.
  assert (Hi1' : In (EvStart i (RToken (Some req))) (history E w xs)) by (rewrite Hh; rewrite !in_app_iff; auto).
  assert (Hi2' : In (EvDone i o) (history E w xs)) by (rewrite Hh; rewrite !in_app_iff; auto).
  assert (Hh3 : history E w xs = ((h0 ++ h1) ++ h2)%list) by (rewrite Hh; list_eq).
  (* the registration is in h1 *)
  apply in_split in F7 as (A & B & HA).
  assert (HAp : exists u', A = (h0 ++ u')%list).
  { eapply (later_prefix E w xs h0 (h1 ++ h2)); [exact Hh| |exact HA]. apply in_or_app; left; apply Hz. }
  destruct HAp as (u' & ->).
  destruct (call_in_done E w xs (h0 ++ h1)%list h2 k _ _ _ _ _ Hh3 (in_or_app _ _ _ (or_intror (proj2 (proj1 Hz)))) HA)
    as (u & Hu1 & ->).
  assert (Hu2 : h1 = (u' ++ EvCall k (CSessReg (zq_issuer q) code s) (ANum n) :: u)%list).
  { rewrite <- app_assoc in Hu1. apply app_inv_head in Hu1. exact Hu1. }
  (* what the redemption reads *)
  assert (Hread : forall rd, In (EvCall i (CSessGet (tq_issuer req) code) (ASess rd)) (history E w xs) -> rd = SOk s).
  { intros rd Hrd. destruct (call_in_later _ _ _ _ _ _ _ _ _ Hh3 Hi1 Hrd) as (l1 & l2 & ->).
    assert (HB : history E w xs = ((h0 ++ u') ++ EvCall k (CSessReg (zq_issuer q) code s) (ANum n) ::
        (u ++ l1) ++ EvCall i (CSessGet (tq_issuer req) code) (ASess rd) :: l2)%list).
    { rewrite HA. list_eq. }
    eapply (C07_codes_retrievable_proof E w xs _ _ _ _ s n (u ++ l1)%list i (tq_issuer req) code rd l2 Hf HB); [congruence| |].
    - intros (j & cc & a & J1 & J2 & [(i2 & c2 & s2 & -> & J3)|(i2 & c2 & -> & J3)]).
      + rewrite Hiss in J3.
        assert (j = k) as ->.
        { eapply Honce; [|exact J3]. rewrite Hu2. apply in_app_or in J1. rewrite !in_app_iff. cbn [In].
          destruct J1 as [J1|J1]; [left; right; right|right; left]; exact J1. }
        (* k registers once *)
        assert (Hk1 : In (EvCall k (CSessReg i2 c2 s2) a) u).
        { apply in_app_or in J1 as [J1|J1]; auto. exfalso.
          destruct (trace_history E w xs) as (sy & Ht & _). rewrite Hh3 in Ht.
          assert (Hd : In (EvDone k (Done (PAuthorize zres))) (h0 ++ h1)%list).
          { apply in_or_app; right; rewrite Hres; apply Hz. }
          pose proof (done_earlier _ _ _ _ _ _ _ Ht Hd) as Hnone.
          assert (X : In (CSessReg i2 c2 s2, a) (calls_of k (l1 ++ EvCall i (CSessGet (tq_issuer req) code) (ASess rd) :: l2)%list)).
          { apply in_calls_of. apply in_or_app; auto. }
          rewrite Hnone in X. destruct X. }
        clear J1.
        pose proof (answered_runs _ _ _ _ _ _ (proj1 Hz')) as Hr. cbn in Hr.
        apply reach_pmap_ret in Hr as (res' & X & Hr). injection X as <-.
        assert (Hcount : (2 <= List.length (filter (fun p : call * answer => match fst p with CSessReg _ _ _ => true | _ => false end)
            (calls_of k (history E w xs))))%nat).
        { rewrite HA, (calls_of_app k (h0 ++ u')). cbn [calls_of]. rewrite Nat.eqb_refl.
          apply in_calls_of in Hk1. apply in_split in Hk1 as (x1 & x2 & X1).
          rewrite (calls_of_app k u), X1, !filter_app. cbn [filter fst]. rewrite !filter_app. cbn [filter fst].
          rewrite !app_length. cbn [List.length]. rewrite !app_length. cbn [List.length]. lia. }
        destruct (authorize_ok _ _ _ _ Hr eq_refl) as (_ & _ & r0 & _ & [[_ Z]|(uri & pushed & d & tr' & _ & _ & _ & Z0 & Z)]).
        * apply authorize_with_ok in Z as (? & ? & ? & ? & ? & _ & _ & _ & _ & Z & _); auto.
          rewrite Z in Hcount. cbn in Hcount. lia.
        * apply authorize_with_ok in Z as (? & ? & ? & ? & ? & _ & _ & _ & _ & Z & _); auto.
          rewrite Z0, Z in Hcount. cbn in Hcount. lia.
      + rewrite Hiss in J3.
        (* only i may delete, and it reads first *)
        assert (Hin : In (EvCall j (CSessDel i2 c2) a) (history E w xs)).
        { rewrite HB. apply in_or_app. right. right. apply in_or_app. left. exact J1. }
        pose proof Hin as Hin2. apply in_split in Hin2 as (b1 & b2 & Hb12).
        destruct (write_reason _ _ _ _ _ _ _ _ Hb12) as (r & W1 & req' & red' & ver' & -> & W2 & W3).
        assert (j = i) as ->.
        { apply (Honly j req' c2).
          - unfold asked. rewrite Hb12. apply in_or_app; left; exact W1.
          - split; auto. eauto.
          - rewrite W2. exact J3. }
        destruct (trace_history E w xs) as (sy & Ht & _).
        destruct (started_reach _ _ _ _ _ _ Ht Hi1') as (pq & Hpq). cbn [serve] in Hpq.
        rewrite HB in Hpq. rewrite (calls_of_app i (h0 ++ u')) in Hpq. cbn [calls_of] in Hpq.
        assert (Hki : Nat.eqb k i = false).
        { apply Nat.eqb_neq. intros ->. pose proof (start_unique _ _ _ _ _ _ _ Ht Hi1' (proj1 (proj1 Hz'))). discriminate. }
        rewrite Hki in Hpq. rewrite (calls_of_app i (u ++ l1)) in Hpq. cbn [calls_of] in Hpq. rewrite Nat.eqb_refl in Hpq.
        rewrite app_assoc in Hpq.
        pose proof (wp_call reads_first _ _ _ _ _ _ _ (pmap_wp _ _ _ _ (reads_first_wp E (Some req))) Hpq) as Hw. cbn in Hw.
        apply (Hw i2 c2 a). apply in_or_app; right. apply in_calls_of. exact J1.
    - rewrite Hu2 in Hsh. revert Hsh. rewrite !elapsed_app. cbn [elapsed]. lia. }
  (* the program *)
  pose (Pz := fun o : outcome response => match o with
     | Done (PToken res) => tr_err res = false /\ tr_at res <> None /\ (asks E (ar_scope ar) scope_offline <-> tr_rt res <> None)
     | _ => False end).
  assert (Hfin : Pz o).
  { eapply (ends_history E w xs i (RToken (Some req)) o Pz (redeem_good (cl_id auth) c (tq_issuer req) code s) Hi1' Hi2').
    - intros c0 a Hin. split; [eapply history_typed; exact Hin|].
      pose proof Hin as Hin'. apply in_split in Hin' as (l1 & l2 & Hl12).
      pose proof (history_ftrace E w xs Hf) as Ht. rewrite Hl12 in Ht.
      destruct (ftrace_at _ _ _ _ _ _ _ _ Ht) as (wm & oo & w1 & T1 & T2 & T3 & T4). apply ftrace_wtrace in T1.
      destruct c0; auto; destruct a; auto.
      + destruct (Hgen _ _ (or_introl Hin)) as (v & X & Hv). injection X as ->. eauto.
      + destruct (Hgen _ _ (or_intror Hin)) as (v & X & Hv). injection X as ->. eauto.
      + intros ->. cbn in T2. rewrite T3 in T2. cbn in T2. injection T2 as <- _.
        apply wtrace_const in T1 as (X & _). rewrite X, Hc2, F4. reflexivity.
      + intros -> ->. apply Hread. exact Hin.
      + pose proof (full_write _ _ _ _ T3 _ _ T2) as Hok. cbn in Hok.
        destruct Hok as [Hok|(x & y & X & _)]; [exact Hok|discriminate].
      + pose proof (full_write _ _ _ _ T3 _ _ T2) as Hok. cbn in Hok.
        destruct Hok as [Hok|(x & y & X & _)]; [exact Hok|discriminate].
    - cbn [serve]. unfold pmap. apply ends_bind. eapply ends_weaken.
      2: { eapply (redeem_ends E auth c code _ verifier s ar req); try eassumption; try congruence; auto.
           - apply (rf_nonempty _ _ _ F2).
           - apply F3.
           - rewrite <- P3. apply F3.
           - rewrite P10. apply F2.
           - apply Hsc1; auto. intros X. apply (f_equal (@List.length N)) in X. rewrite !map_length in X. discriminate X. }
      intros [o'|]; cbn; auto. }
  destruct o as [[res| | | | | | | |]|]; try (destruct Hfin; fail). destruct Hfin as (G1 & G2 & G3).
  exists res. split; auto. split; auto. split; auto. intros G4 G5. apply G3. apply Hsc3; auto.
Qed.

(** ** C83: a live refresh token works *)

Lemma same_creation E h i iss t a j iss' t' a' :
  no_reuse E h -> In (EvCall i (CTokCreate iss t) a) h -> In (EvCall j (CTokCreate iss' t') a') h ->
  t_id t = t_id t' -> EvCall i (CTokCreate iss t) a = EvCall j (CTokCreate iss' t') a'.
Proof.
  intros Hu H1 H2 Hid. apply in_split in H1 as (h1 & h2 & ->).
  apply in_app_or in H2 as [H2|[H2|H2]]; [|exact H2|].
  - exfalso. apply in_split in H2 as (g1 & g2 & ->). rewrite <- app_assoc in Hu. cbn in Hu.
    destruct (Hu _ _ _ _ _ _ _ _ _ _ _ eq_refl). congruence.
  - exfalso. apply in_split in H2 as (g1 & g2 & ->).
    destruct (Hu _ _ _ _ _ _ _ _ _ _ _ eq_refl). congruence.
Qed.

(** Who revokes a token has presented it. *)
Lemma revokes_presented E w xs j iss id a i iss0 t a0 :
  no_tokens w -> no_reuse E (history E w xs) ->
  In (EvCall j (CTokRevoke iss id) a) (history E w xs) -> In (EvCall i (CTokCreate iss0 t) a0) (history E w xs) ->
  t_id t = id ->
  exists r, In (EvStart j r) (history E w xs) /\ uses_up E r (tok_key E iss0 (t_value t)).
Proof.
  intros Hn Hu Hr Hc Hid. apply in_split in Hr as (h1 & h2 & Hh).
  destruct (write_reason _ _ _ _ _ _ _ _ Hh) as (r & R1 & R2). exists r.
  split; [rewrite Hh; apply in_or_app; auto|].
  assert (Hgo : forall iss1 v t1, did (calls_of j h1) (CTokGet iss1 v) (ATok (SOk t1)) -> id = t_id t1 ->
    tok_key E iss1 v = tok_key E iss0 (t_value t)).
  { intros iss1 v t1 D Ht1. apply did_event in D. apply in_split in D as (g1 & g2 & ->).
    pose proof Hh as Hh'. rewrite <- app_assoc in Hh'. cbn in Hh'.
    destruct (tok_origin _ _ _ _ _ _ _ _ _ Hn Hh') as (t0 & iss' & (k & iss2 & a2 & S1 & S2) & S3).
    assert (Hid0 : t_id t1 = t_id t0) by (destruct S3 as [->| ->]; reflexivity).
    assert (Hin : In (EvCall k (CTokCreate iss2 t0) a2) (history E w xs)).
    { rewrite Hh'. apply in_or_app; auto. }
    pose proof (same_creation _ _ _ _ _ _ _ _ _ _ Hu Hin Hc ltac:(congruence)) as X. injection X as _ -> -> _.
    congruence. }
  cbn in R2. destruct R2 as [(req & t1 & -> & -> & H1 & H2 & _)|(req & v & t1 & -> & Hg & -> & H1 & H2 & H3 & _)].
  - cbn. eapply Hgo; eauto.
  - cbn. exists v. split; auto. eapply Hgo; eauto.
Qed.

(** A token request reads tokens before it revokes one. *)
Definition gets_first (tr : list (call * answer)) (c : call) : Prop :=
  match c with CTokGet _ _ => forall i s a, ~ In (CTokRevoke i s, a) tr | _ => True end.

Lemma gets_first_at tr cid meta cnf : wp gets_first (fun _ _ => True) tr (generate_access_token cid meta cnf).
Proof. unfold generate_access_token. wany. Qed.
Lemma gets_first_rt tr cid meta cnf : wp gets_first (fun _ _ => True) tr (generate_refresh_token cid meta cnf).
Proof. unfold generate_refresh_token. wany. Qed.

Lemma gets_first_wp E r : wp gets_first (fun _ _ => True) [] (token_svc E r).
Proof.
  unfold token_svc, dispatch, authorization_code, redeem_session, client_credentials, refresh_token, device_code,
    token_exchange, prologue.
  wany; try apply gets_first_at; try apply gets_first_rt.
  all: intros i' s' a'; cbn [app In]; intuition discriminate.
Qed.

Definition refresh_good (auth : string) (cl : client) (issuer value id : string) (m : token_meta) (bound : N)
    (c : call) (a : answer) : Prop :=
  typed c a /\
  match c, a with
  | CClientGet cid, AClient r => cid = auth -> r = SOk cl
  | CTokGet i' c', ATok r => i' = issuer -> c' = value ->
      exists rt, r = SOk rt /\ t_status rt = TsActive /\ t_type rt = TtRefresh /\ t_meta rt = Some m /\ t_id rt = id
  | CNow, ATime tm => (unix tm <= bound)%N
  | (CGenAT _ | CGenRT _), AGen r => exists v, r = Some v /\ v <> ""%string
  | CTokCreate _ _, AUnit r => is_ok r = true
  | CTokRevoke _ id', AUnit r => id' = id -> is_ok r = true
  | _, _ => True
  end.

Lemma refresh_ends E auth cl value id m bound req :
  tq_client req = Some auth -> tq_grant req = GRefreshToken value ->
  tq_grant_type req = gt_refresh -> tq_issuer req <> ""%string -> value <> ""%string ->
  x_request_uri E (tq_issuer req) = true -> listed E (cl_grant_types cl) gt_refresh ->
  (bound <= m_expires_at m)%N -> m_client_id m = cl_id cl ->
  ends (refresh_good (cl_id auth) cl (tq_issuer req) value id m bound)
    (fun o => match o with
              | Done res => tr_err res = false /\ tr_at res <> None
              | Crashed => False end)
    (token_svc E (Some req)).
Proof.
  intros H1 H2 H3 H4 H5 H6 H7 H11 H12. apply is_empty_false in H4, H5.
  assert (Hv : validate_request req = None).
  { unfold validate_request. rewrite H1, H2, H3, H4. reflexivity. }
  unfold token_svc. rewrite Hv, H1.
  intros a [Ha1 Ha2]; destruct a; cbn in Ha1; try destruct Ha1. cbn in Ha2. rewrite (Ha2 eq_refl). clear Ha2.
  unfold dispatch. rewrite H3. change (String.eqb gt_refresh gt_cc) with false.
  change (String.eqb gt_refresh gt_code) with false. change (String.eqb gt_refresh gt_device) with false.
  change (String.eqb gt_refresh gt_refresh) with true. cbv iota zeta.
  unfold refresh_token. rewrite H2. unfold prologue. rewrite H4, H6. cbn [negb].
  apply has_iff in H7. rewrite H5, H7. cbn [negb].
  intros a [Ha1 Ha2]; destruct a; cbn in Ha1; try destruct Ha1. cbn in Ha2.
  destruct (Ha2 eq_refl eq_refl) as (rt & -> & H8 & H9 & H10 & H13). rewrite H8, H9, H10. clear Ha2.
  intros a [Ha1 Ha2]; destruct a; cbn in Ha1; try destruct Ha1. cbn in Ha2.
  pose proof (N.le_trans _ _ _ Ha2 H11) as Hb. apply N.ltb_ge in Hb. rewrite Hb. clear Ha2.
  rewrite H12, String.eqb_refl. cbn [negb].
  apply ends_bind. unfold generate_access_token.
  intros a [Ha1 Ha2]; destruct a; cbn in Ha1; try destruct Ha1. clear Ha2.
  intros a [Ha1 Ha2]; destruct a; cbn in Ha1; try destruct Ha1. clear Ha2.
  intros a [Ha1 Ha2]; destruct a; cbn in Ha1; try destruct Ha1. cbn in Ha2. destruct Ha2 as (v & -> & Hv1).
  apply is_empty_false in Hv1. rewrite Hv1.
  intros a [Ha1 Ha2]; destruct a; cbn in Ha1; try destruct Ha1. cbn in Ha2. rewrite Ha2. cbn [ends]. clear Ha2. cbv zeta.
  match goal with |- context[if ?b then _ else _] => destruct b end; [|cbn; split; [reflexivity|discriminate]].
  apply ends_bind. unfold generate_refresh_token.
  intros a [Ha1 Ha2]; destruct a; cbn in Ha1; try destruct Ha1. clear Ha2.
  intros a [Ha1 Ha2]; destruct a; cbn in Ha1; try destruct Ha1. clear Ha2.
  intros a [Ha1 Ha2]; destruct a; cbn in Ha1; try destruct Ha1. cbn in Ha2. destruct Ha2 as (v2 & -> & Hv2).
  apply is_empty_false in Hv2. rewrite Hv2.
  intros a [Ha1 Ha2]; destruct a; cbn in Ha1; try destruct Ha1. cbn in Ha2. rewrite Ha2. cbn [ends]. clear Ha2.
  intros a [Ha1 Ha2]; destruct a; cbn in Ha1; try destruct Ha1. cbn in Ha2. rewrite (Ha2 H13). cbn.
  split; [reflexivity|discriminate].
Qed.

Lemma refresh_issuer E req tr iss t m : justified E req tr iss t -> t_type t = TtRefresh -> t_meta t = Some m ->
  m_issuer m = iss.
Proof.
  intros (auth & c & m' & tm & _ & _ & _ & _ & _ & _ & _ & _ & _ & H10) Hty Hm.
  unfold grant_just in H10. destruct (tq_grant req) as [|code redirect verif| |code|value|value ty].
  - destruct H10.
  - destruct H10 as (s & ar & rd & _ & _ & _ & _ & _ & -> & [X|[_ X]]); rewrite X in Hm; cbn in Hm; injection Hm as <-; reflexivity.
  - destruct H10 as (_ & _ & X & _). rewrite X in Hty. discriminate.
  - destruct H10 as (s & dr & dc & sub & t0 & _ & _ & _ & _ & _ & _ & _ & _ & -> & _ & [X|[_ X]]);
      rewrite X in Hm; cbn in Hm; injection Hm as <-; reflexivity.
  - destruct H10 as (rt & m0 & t0 & _ & _ & _ & _ & _ & _ & _ & -> & _ & [X|X]);
      rewrite X in Hm; cbn in Hm; injection Hm as <-; reflexivity.
  - destruct H10 as (st & m0 & t0 & sc & aud & _ & _ & _ & _ & _ & _ & _ & _ & _ & X). rewrite X in Hty. discriminate.
Qed.

Lemma C83_live_refresh_token_works_proof :
  forall E w xs h1 h2 k req0 res0 t m i req c o,
  no_tokens w -> no_faults xs -> no_reuse E (history E w xs) -> history E w xs = (h1 ++ h2)%list ->
  (* a refresh token was handed out *)
  token_ok h1 k req0 res0 -> In t (tokens_of res0) -> t_type t = TtRefresh -> t_meta t = Some m ->
  (* later its client presents it, where it was issued and before it expires *)
  In (EvStart i (RToken (Some req))) h2 -> In (EvDone i o) h2 ->
  tq_grant_type req = "refresh_token"%string -> tq_grant req = GRefreshToken (t_value t) ->
  tq_issuer req = m_issuer m -> tq_issuer req <> ""%string -> x_request_uri E (tq_issuer req) = true ->
  client_of w req c -> cl_id c = m_client_id m -> listed E (cl_grant_types c) "refresh_token" ->
  (unix (clock w (history E w xs)) <= m_expires_at m)%N -> generators_work (history E w xs) i ->
  (* nobody else uses it up *)
  (forall j r, asked (history E w xs) j r -> uses_up E r (tok_key E (m_issuer m) (t_value t)) -> j = i) ->
  exists res, o = Done (PToken res) /\ tr_err res = false /\ tr_at res <> None.
Proof.
  intros E w xs h1 h2 k req0 res0 t m i req c o Hn Hf Hu Hh Hok0 Ht Hty Hm Hi1 Hi2 Hgt Hg Hiss Hie Huri (auth & Hc1 & Hc2) Hcid Hl
    Hexp Hgen Honly.
  assert (Hok : token_ok (history E w xs) k req0 res0).
  { destruct Hok0 as [[Z1 Z2] Z3]. split; auto. split; rewrite Hh, in_app_iff; auto. }
  assert (Hi1' : In (EvStart i (RToken (Some req))) (history E w xs)) by (rewrite Hh; rewrite in_app_iff; auto).
  assert (Hi2' : In (EvDone i o) (history E w xs)) by (rewrite Hh; rewrite in_app_iff; auto).
  destruct (response_created _ _ _ _ _ _ _ Hok Ht) as (iss & m' & r & R1 & R2 & R3 & R4 & _ & _ & _ & _).
  assert (m' = m) as -> by congruence. clear R3.
  pose proof R1 as R1'. apply in_split in R1' as (A & B & HA).
  destruct (write_reason _ _ _ _ _ _ _ _ HA) as (rq & _ & req1 & _ & J).
  pose proof (refresh_issuer _ _ _ _ _ _ J Hty Hm) as <-. clear J.
  pose proof (created_active _ _ _ _ _ _ _ _ _ HA) as Hact.
  destruct (call_in_done E w xs h1 h2 k _ _ _ _ _ Hh (proj2 (proj1 Hok0)) HA) as (u & Hu1 & ->).
  assert (Hrev : forall j is2 a2, In (EvCall j (CTokRevoke is2 (t_id t)) a2) (history E w xs) -> j = i).
  { intros j is2 a2 Hin. destruct (revokes_presented _ _ _ _ _ _ _ _ _ _ _ Hn Hu Hin R1 eq_refl) as (rr & X1 & X2).
    eapply Honly; eauto. }
  (* what i reads *)
  assert (Hread : forall rd, In (EvCall i (CTokGet (tq_issuer req) (t_value t)) (ATok rd)) (history E w xs) ->
    exists t', rd = SOk t' /\ copy_of t t' /\ t_status t' = TsActive).
  { intros rd Hrd. destruct (call_in_later _ _ _ _ _ _ _ _ _ Hh Hi1 Hrd) as (l1 & l2 & ->).
    assert (HB : history E w xs = ((A ++ EvCall k (CTokCreate (m_issuer m) t) (AUnit r) :: (u ++ l1)) ++
       EvCall i (CTokGet (tq_issuer req) (t_value t)) (ATok rd) :: l2)%list) by (rewrite HA; list_eq).
    pose proof (history_ftrace E w xs Hf) as Tf. rewrite HB in Tf.
    destruct (ftrace_at _ _ _ _ _ _ _ _ Tf) as (wm & oo & w1 & T1 & T2 & T3 & T4).
    destruct (full_tok _ _ _ _ T3 _ _ _ T2) as (_ & Hrt). rewrite HB in Hu. apply no_reuse_app in Hu.
    destruct (created_stays _ _ _ _ _ _ _ _ _ Hn Hu (ftrace_wtrace _ _ _ _ T1)) as (t' & S1 & S2 & S3); auto.
    rewrite Hiss, S1 in Hrt. exists t'. split; auto. split; auto. destruct S3 as [S3|(_ & j & is2 & a2 & S3)]; auto. exfalso.
    assert (j = i) as ->.
    { eapply Hrev. rewrite HB. apply in_or_app; left. apply in_or_app; right; right. exact S3. }
    destruct (trace_history E w xs) as (sy & Htr & _).
    destruct (started_reach _ _ _ _ _ _ Htr Hi1') as (pq & Hpq). cbn [serve] in Hpq.
    rewrite HB in Hpq. rewrite calls_of_app in Hpq. cbn [calls_of] in Hpq. rewrite Nat.eqb_refl in Hpq.
    pose proof (wp_call gets_first _ _ _ _ _ _ _ (pmap_wp _ _ _ _ (gets_first_wp E (Some req))) Hpq) as Hw. cbn in Hw.
    apply (Hw is2 (t_id t) a2). apply in_calls_of. apply in_or_app; right; right. exact S3. }
  pose (Pz := fun o : outcome response => match o with
     | Done (PToken res) => tr_err res = false /\ tr_at res <> None
     | _ => False end).
  assert (Hfin : Pz o).
  { eapply (ends_history E w xs i (RToken (Some req)) o Pz
       (refresh_good (cl_id auth) c (tq_issuer req) (t_value t) (t_id t) m (unix (clock w (history E w xs)))) Hi1' Hi2').
    - intros c0 a Hin. split; [eapply history_typed; exact Hin|].
      pose proof Hin as Hin'. apply in_split in Hin' as (l1 & l2 & Hl12).
      pose proof (history_ftrace E w xs Hf) as Tf. rewrite Hl12 in Tf.
      destruct (ftrace_at _ _ _ _ _ _ _ _ Tf) as (wm & oo & w1 & T1 & T2 & T3 & T4). apply ftrace_wtrace in T1.
      destruct c0; auto; destruct a; auto.
      + apply read_now in T2 as [-> _]. rewrite (wtrace_now _ _ _ _ T1). fold (clock w l1).
        apply unix_mono. rewrite Hl12. apply clock_app.
      + destruct (Hgen _ _ (or_introl Hin)) as (v & X & Hv). injection X as ->. eauto.
      + destruct (Hgen _ _ (or_intror Hin)) as (v & X & Hv). injection X as ->. eauto.
      + intros ->. cbn in T2. rewrite T3 in T2. cbn in T2. injection T2 as <- _.
        apply wtrace_const in T1 as (X & _). rewrite X, Hc2. reflexivity.
      + intros -> ->. destruct (Hread _ Hin) as (t' & -> & (C1 & C2 & C3 & C4) & Hs). exists t'. repeat split; congruence.
      + pose proof (full_write _ _ _ _ T3 _ _ T2) as Hwk. cbn in Hwk.
        destruct Hwk as [Hwk|(x & y & X & _)]; [exact Hwk|discriminate].
      + intros ->. pose proof (history_ftrace E w xs Hf) as Tf'. rewrite HA in Tf'.
        change (ans_ok (AUnit r0) = true). eapply (revoke_succeeds _ _ _ _ _ _ _ _ _ _ _ _ Tf').
        destruct (call_in_later _ _ _ _ _ _ _ _ _ Hh Hi1 Hin) as (e1 & e2 & ->).
        apply in_or_app; right. apply in_or_app; right; left. reflexivity.
    - cbn [serve]. unfold pmap. apply ends_bind. eapply ends_weaken.
      2: { eapply (refresh_ends E auth c (t_value t) (t_id t) m _ req); try eassumption; try congruence; auto. }
      intros [o'|]; cbn; auto. }
  destruct o as [[res| | | | | | | |]|]; try (destruct Hfin; fail). destruct Hfin as (G1 & G2). eauto.
Qed.
