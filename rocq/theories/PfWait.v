(** * Proofs: every request ends after a bounded number of its own steps *)

From Verif Require Export SpecWait Ends PfWeb5.
From Coq Require Import Lia.

(** [p] ends within [n] calls; [P] gets the number of calls left. *)
Fixpoint bounded {A} (n : nat) (P : nat -> A -> Prop) (p : prog A) {struct p} : Prop :=
  match p with
  | Ret a => P n a
  | Panic => True
  | Stuck => False
  | Do c k => match n with O => False | S m => forall a, typed c a -> bounded m P (k a) end
  end.

Lemma bounded_bind {A B} n (P : nat -> B -> Prop) (p : prog A) (f : A -> prog B) :
  bounded n (fun m a => bounded m P (f a)) p -> bounded n P (bind p f).
Proof. revert n. induction p as [a| | |c k IH]; intros n; cbn; auto. destruct n; [auto|]. intros H x T. apply IH. exact (H x T). Qed.

Section Rules.
Context {A : Type} (n : nat) (P : nat -> A -> Prop).
Ltac rule := let a := fresh "a" in let T := fresh in
  intros Hx a T; destruct a; cbn in T; try destruct T; auto.
Lemma b_now k : (forall t, bounded n P (k t)) -> bounded (S n) P (now k).
Proof. rule. Qed.
Lemma b_rand m k : (forall t, bounded n P (k t)) -> bounded (S n) P (rand m k).
Proof. rule. Qed.
Lemma b_gen c k : (forall a, typed c a -> exists r, a = AGen r) -> (forall t, bounded n P (k t)) -> bounded (S n) P (gen c k).
Proof. intros Hc Hx a G. destruct (Hc a) as (r & ->); auto. Qed.
Lemma b_client_get c k : (forall t, bounded n P (k t)) -> bounded (S n) P (client_get c k).
Proof. rule. Qed.
Lemma b_res_get c k : (forall t, bounded n P (k t)) -> bounded (S n) P (res_get c k).
Proof. rule. Qed.
Lemma b_sess_get i c k : (forall t, bounded n P (k t)) -> bounded (S n) P (sess_get i c k).
Proof. rule. Qed.
Lemma b_req_get i c k : (forall t, bounded n P (k t)) -> bounded (S n) P (req_get i c k).
Proof. rule. Qed.
Lemma b_dev_get c k : (forall a, typed c a -> exists r, a = ADev r) -> (forall t, bounded n P (k t)) -> bounded (S n) P (dev_get c k).
Proof. intros Hc Hx a G. destruct (Hc a) as (r & ->); auto. Qed.
Lemma b_tok_get i c k : (forall t, bounded n P (k t)) -> bounded (S n) P (tok_get i c k).
Proof. rule. Qed.
Lemma b_proof_exists c k : (forall t, bounded n P (k t)) -> bounded (S n) P (proof_exists c k).
Proof. rule. Qed.
Lemma b_reg c k : (forall a, typed c a -> exists r, a = ANum r) -> (forall t, bounded n P (k t)) -> bounded (S n) P (reg c k).
Proof. intros Hc Hx a G. destruct (Hc a) as (r & ->); auto. Qed.
Lemma b_write c k : (forall a, typed c a -> exists r, a = AUnit r) -> (forall t, bounded n P (k t)) -> bounded (S n) P (write c k).
Proof. intros Hc Hx a G. destruct (Hc a) as (r & ->); auto. Qed.
End Rules.

Ltac bstep :=
  lazymatch goal with
  | |- bounded _ _ (Ret _) => cbn [bounded]; try exact I
  | |- bounded _ _ Panic => exact I
  | |- bounded _ _ (bind _ _) => apply bounded_bind
  | |- bounded _ _ (pmap _ _) => apply bounded_bind
  | |- bounded _ _ (now _) => apply b_now; intros ?
  | |- bounded _ _ (rand _ _) => apply b_rand; intros ?
  | |- bounded _ _ (gen _ _) => apply b_gen; [kind|intros ?]
  | |- bounded _ _ (client_get _ _) => apply b_client_get; intros ?
  | |- bounded _ _ (res_get _ _) => apply b_res_get; intros ?
  | |- bounded _ _ (sess_get _ _ _) => apply b_sess_get; intros ?
  | |- bounded _ _ (req_get _ _ _) => apply b_req_get; intros ?
  | |- bounded _ _ (dev_get _ _) => apply b_dev_get; [kind|intros ?]
  | |- bounded _ _ (tok_get _ _ _) => apply b_tok_get; intros ?
  | |- bounded _ _ (proof_exists _ _) => apply b_proof_exists; intros ?
  | |- bounded _ _ (reg _ _) => apply b_reg; [kind|intros ?]
  | |- bounded _ _ (write _ _) => apply b_write; [kind|intros ?]
  | |- bounded _ _ (if ?b then _ else _) => destruct b
  | |- bounded _ _ (match ?x with _ => _ end) => destruct x
  | |- bounded _ _ (let _ := _ in _) => cbv zeta
  end.

Definition any {A} (n : nat) (a : A) : Prop := True.
Ltac opened := progress unfold token_svc, dispatch, client_credentials, authorization_code, refresh_token, device_code, token_exchange,
    prologue, redeem_session, exchange_access_token, exchange_issue, generate_access_token, generate_refresh_token,
    introspect_svc, revoke_svc, authorize_svc, authorize_with, validate, register_svc, dev_authorize_svc, dev_validate_svc,
    private_key_jwt, client_attestation, validate_attestation, dpop_verify, with_error.
Ltac go := repeat (first [bstep | exact I | opened]; cbn beta iota).

Lemma serve_bounded E r : bounded 12 any (serve E r).
Proof. destruct r; cbn [serve]; unfold pmap; apply bounded_bind; unfold any; go. Qed.

Lemma set_same {A} (l : list A) i x y : nth_error l i = Some y -> nth_error (set_nth l i x) i = Some x.
Proof. revert i. induction l as [|z l IH]; intros [|i] H; try discriminate; cbn in *; auto. Qed.
Lemma set_other {A} (l : list A) i j x : i <> j -> nth_error (set_nth l j x) i = nth_error l i.
Proof. revert i j. induction l as [|z l IH]; intros [|i] [|j] H; cbn; auto; try (destruct H; reflexivity). Qed.
Lemma nth_app {A} (l : list A) i x y : nth_error l i = Some y -> nth_error (l ++ [x]) i = Some y.
Proof. intros H. rewrite nth_error_app1; auto. apply nth_error_Some. congruence. Qed.

Lemma bounded_run E i xs : forall s p n, nth_error (s_threads s) i = Some (Running p) -> bounded n any p ->
  (S n <= turns i xs)%nat -> exists o, In (EvDone i o) (fst (run E s xs)).
Proof.
  induction xs as [|x xs IH]; intros s p n Hi Hp Hn; [cbn in Hn; lia|].
  cbn [run]. destruct x as [r|j o|d]; cbn [sstep turns] in *.
  - destruct (IH (mkSys (s_world s) (s_threads s ++ [Running (serve E r)])%list) p n) as (o & Ho); auto.
    { cbn. apply nth_app. exact Hi. }
    destruct (run E _ xs) as [h s2]. exists o. right. exact Ho.
  - destruct (Nat.eqb_spec j i) as [->|Hji].
    + rewrite Hi. destruct p as [a| | |c k]; cbn in Hp.
      * exists (Done a). destruct (run E _ xs). left; reflexivity.
      * exists Crashed. destruct (run E _ xs). left; reflexivity.
      * destruct Hp.
      * destruct n as [|m]; [destruct Hp|].
        pose proof (exec_typed E (s_world s) o c) as T. destruct (exec E (s_world s) o c) as [a w'] eqn:Hx. cbn in T.
        destruct (IH (mkSys w' (set_nth (s_threads s) i (Running (k a)))) (k a) m) as (o' & Ho); auto; [|lia|].
        { cbn. eapply set_same; eauto. }
        destruct (run E _ xs) as [h s2]. exists o'. right. exact Ho.
    + destruct (nth_error (s_threads s) j) as [[q|]|] eqn:Hj; [|eauto|eauto].
      destruct q as [a| | |c k]; [| |eauto|].
      * destruct (IH (mkSys (s_world s) (set_nth (s_threads s) j Finished)) p n) as (o' & Ho); auto.
        { cbn. rewrite set_other; auto. }
        destruct (run E _ xs) as [h s2]. exists o'. right. exact Ho.
      * destruct (IH (mkSys (s_world s) (set_nth (s_threads s) j Finished)) p n) as (o' & Ho); auto.
        { cbn. rewrite set_other; auto. }
        destruct (run E _ xs) as [h s2]. exists o'. right. exact Ho.
      * destruct (exec E (s_world s) o c) as [a w'] eqn:Hx.
        destruct (IH (mkSys w' (set_nth (s_threads s) j (Running (k a)))) p n) as (o' & Ho); auto.
        { cbn. rewrite set_other; auto. }
        destruct (run E _ xs) as [h s2]. exists o'. right. exact Ho.
  - destruct (IH (mkSys (with_now (s_world s) (w_now (s_world s) + d)) (s_threads s)) p n) as (o & Ho); auto.
    destruct (run E _ xs) as [h s2]. exists o. right. exact Ho.
Qed.

Lemma set_length {A} (l : list A) i x : List.length (set_nth l i x) = List.length l.
Proof. revert i. induction l as [|z l IH]; intros [|i]; cbn; auto. Qed.
Lemma run_arrivals E xs : forall s, List.length (s_threads (snd (run E s xs))) = (List.length (s_threads s) + arrivals xs)%nat.
Proof.
  induction xs as [|x xs IH]; intros s; [cbn; lia|]. cbn [run].
  destruct (sstep E s x) as [[e s1]|] eqn:Hs.
  - specialize (IH s1). destruct (run E s1 xs) as [h s2]. cbn [snd] in *. rewrite IH.
    destruct x as [r|j o|d]; cbn in Hs; cbn [arrivals].
    + injection Hs as _ <-. cbn. rewrite app_length. cbn. lia.
    + destruct (nth_error (s_threads s) j) as [[[a| | |c k]|]|]; try discriminate.
      * injection Hs as _ <-. cbn. rewrite set_length. reflexivity.
      * injection Hs as _ <-. cbn. rewrite set_length. reflexivity.
      * destruct (exec E (s_world s) o c). injection Hs as _ <-. cbn. rewrite set_length. reflexivity.
    + injection Hs as _ <-. reflexivity.
  - rewrite IH. destruct x; cbn in Hs |- *; try discriminate. reflexivity.
Qed.
Lemma run_app E xs ys : forall s, run E s (xs ++ ys) =
  (let '(h1, s1) := run E s xs in let '(h2, s2) := run E s1 ys in ((h1 ++ h2)%list, s2)).
Proof.
  induction xs as [|x xs IH]; intros s; cbn [app run].
  - destruct (run E s ys). reflexivity.
  - destruct (sstep E s x) as [[e s1]|]; [|apply IH]. rewrite IH.
    destruct (run E s1 xs) as [h s2]. destruct (run E s2 ys). reflexivity.
Qed.

Lemma C81_requests_never_wait_proof : forall E w before r after,
  (* a request arrives and, whatever else happens, is let run 13 times *)
  (13 <= turns (arrivals before) after)%nat ->
  In (EvStart (arrivals before) r) (history E w (before ++ SNew r :: after)) /\
  exists o, In (EvDone (arrivals before) o) (history E w (before ++ SNew r :: after)).
Proof.
  intros E w before r after Hn. unfold history. rewrite run_app.
  pose proof (run_arrivals E before (start w)) as Ha. destruct (run E (start w) before) as [h1 s1]. cbn [snd] in Ha. cbn in Ha.
  cbn [run sstep]. set (s2 := mkSys _ _).
  destruct (bounded_run E (arrivals before) after s2 (serve E r) 12) as (o & Ho); auto.
  { cbn. rewrite <- Ha. rewrite nth_error_app2 by lia. rewrite Nat.sub_diag. reflexivity. }
  { apply serve_bounded. }
  destruct (run E s2 after) as [h3 s3]. cbn [fst] in *. rewrite Ha. split.
  - apply in_or_app; right; left; reflexivity.
  - exists o. apply in_or_app; right; right; exact Ho.
Qed.

(** The same for HTTP requests. *)
Lemma b_seq {A B} n m (P : nat -> B -> Prop) (p : prog A) (f : A -> prog B) :
  bounded n any p -> (forall k a, (m <= k)%nat -> bounded k P (f a)) -> bounded (n + m) P (bind p f).
Proof.
  intros Hp Hf. apply bounded_bind. revert n Hp. induction p as [a| | |c k IH]; intros n Hp; cbn in *; auto.
  - apply Hf. lia.
  - destruct n; [destruct Hp|]. cbn. intros a T. apply IH. auto.
Qed.
Lemma b_mono {A} n m (p : prog A) : (n <= m)%nat -> bounded n any p -> bounded m any p.
Proof.
  revert n m. induction p as [a| | |c k IH]; intros n m Hle H; cbn in *; auto.
  destruct n; [destruct H|]. destruct m; [lia|]. intros a T. apply (IH a n); auto. lia.
Qed.

Lemma auth_bounded E n next r : (forall c, bounded n any (next c)) -> bounded (6 + n) any (client_authentication E next r).
Proof.
  intros Hn. unfold client_authentication.
  destruct (negb (is_empty (query_get r "client_id"))).
  - apply (b_mono (S n)); [lia|]. apply b_client_get. intros [c| | |]; try exact I. destruct (cl_type c); try exact I. apply Hn.
  - cbv zeta. destruct (String.eqb _ _); [|destruct (String.eqb _ _); [|exact I]].
    + apply b_seq; [unfold any; go|]. intros k a Hk. destruct (aa_err a); [exact I|]. eapply b_mono; [exact Hk|apply Hn].
    + apply b_seq; [unfold any; go|]. intros k a Hk. destruct (aa_err a); [exact I|]. eapply b_mono; [exact Hk|apply Hn].
Qed.

Lemma http_bounded S e r : bounded 23 any (answer_http S e r).
Proof.
  unfold answer_http. destruct e; cbn [serve_http].
  - apply (auth_bounded _ 17). intros c. unfold token_handler.
    destruct (negb _); [exact I|]. destruct c as [c|]; [|exact I]. cbv zeta. destruct (is_empty (hq_header r "DPoP")).
    + destruct (cl_dpop_bound c); [exact I|]. apply (b_seq 12 5); [unfold any; go|].
      intros k a Hk. apply (b_mono 1); [lia|]. unfold any, Http.token_answer. go.
    + apply (b_seq 4 13); [unfold any; go|]. intros k v Hk. destruct v as [j|]; [|exact I].
      apply (b_mono 13 k); [exact Hk|]. apply (b_seq 12 1); [unfold any; go|].
      intros k' a Hk'. apply (b_mono 1); [lia|]. unfold any, Http.token_answer. go.
  - apply (auth_bounded _ 17). intros c. unfold introspection_handler, any. go.
  - apply (auth_bounded _ 17). intros c. unfold revocation_handler, any. go.
  - apply (auth_bounded _ 17). intros c. unfold par_handler. destruct (negb _); [exact I|]. destruct c as [c|]; [|exact I].
    apply (b_seq 4 13); [unfold any; go|]. intros k v Hk. apply (b_mono 13 k); [exact Hk|]. unfold any. go.
  - unfold basic_authentication. repeat match goal with |- bounded _ _ (match ?x with _ => _ end) => destruct x; try exact I end.
    unfold authorization_handler, respond_in_mode, respond_jwt, respond_code, any. go.
  - apply (auth_bounded _ 17). intros c. unfold device_authorization_handler, any. go.
  - unfold basic_authentication. repeat match goal with |- bounded _ _ (match ?x with _ => _ end) => destruct x; try exact I end.
    unfold device_handler, any. go.
Qed.

Lemma bounded_hrun S0 i xs : forall s p n, nth_error (hs_threads s) i = Some (Some p) -> bounded n any p ->
  (S n <= http_turns i xs)%nat -> exists o, In (HvDone i o) (fst (hrun S0 s xs)).
Proof.
  induction xs as [|x xs IH]; intros s p n Hi Hp Hn; [cbn in Hn; lia|].
  cbn [hrun]. destruct x as [e r|j o|d]; cbn [hstep http_turns] in *.
  - destruct (IH (mkHsys (hs_world s) (hs_threads s ++ [Some (answer_http S0 e r)])%list) p n) as (o & Ho); auto.
    { cbn. apply nth_app. exact Hi. }
    destruct (hrun S0 _ xs) as [h s2]. exists o. right. exact Ho.
  - destruct (Nat.eqb_spec j i) as [->|Hji].
    + rewrite Hi. destruct p as [a| | |c k]; cbn in Hp.
      * exists (Done a). destruct (hrun S0 _ xs). left; reflexivity.
      * exists Crashed. destruct (hrun S0 _ xs). left; reflexivity.
      * destruct Hp.
      * destruct n as [|m]; [destruct Hp|].
        pose proof (exec_typed (sv_ext S0) (hs_world s) o c) as T. destruct (exec (sv_ext S0) (hs_world s) o c) as [a w'] eqn:Hx. cbn in T.
        destruct (IH (mkHsys w' (set_nth (hs_threads s) i (Some (k a)))) (k a) m) as (o' & Ho); auto; [|lia|].
        { cbn. eapply set_same; eauto. }
        destruct (hrun S0 _ xs) as [h s2]. exists o'. right. exact Ho.
    + destruct (nth_error (hs_threads s) j) as [[q|]|] eqn:Hj; [|eauto|eauto].
      destruct q as [a| | |c k]; [| |eauto|].
      * destruct (IH (mkHsys (hs_world s) (set_nth (hs_threads s) j None)) p n) as (o' & Ho); auto.
        { cbn. rewrite set_other; auto. }
        destruct (hrun S0 _ xs) as [h s2]. exists o'. right. exact Ho.
      * destruct (IH (mkHsys (hs_world s) (set_nth (hs_threads s) j None)) p n) as (o' & Ho); auto.
        { cbn. rewrite set_other; auto. }
        destruct (hrun S0 _ xs) as [h s2]. exists o'. right. exact Ho.
      * destruct (exec (sv_ext S0) (hs_world s) o c) as [a w'] eqn:Hx.
        destruct (IH (mkHsys w' (set_nth (hs_threads s) j (Some (k a)))) p n) as (o' & Ho); auto.
        { cbn. rewrite set_other; auto. }
        destruct (hrun S0 _ xs) as [h s2]. exists o'. right. exact Ho.
  - destruct (IH (mkHsys (with_now (hs_world s) (w_now (hs_world s) + d)) (hs_threads s)) p n) as (o & Ho); auto.
    destruct (hrun S0 _ xs) as [h s2]. exists o. right. exact Ho.
Qed.
Lemma hrun_arrivals S0 xs : forall s, List.length (hs_threads (snd (hrun S0 s xs))) = (List.length (hs_threads s) + http_arrivals xs)%nat.
Proof.
  induction xs as [|x xs IH]; intros s; [cbn; lia|]. cbn [hrun].
  destruct (hstep S0 s x) as [[e s1]|] eqn:Hs.
  - specialize (IH s1). destruct (hrun S0 s1 xs) as [h s2]. cbn [snd] in *. rewrite IH.
    destruct x as [e' r|j o|d]; cbn in Hs; cbn [http_arrivals].
    + injection Hs as _ <-. cbn. rewrite app_length. cbn. lia.
    + destruct (nth_error (hs_threads s) j) as [[[a| | |c k]|]|]; try discriminate.
      * injection Hs as _ <-. cbn. rewrite set_length. reflexivity.
      * injection Hs as _ <-. cbn. rewrite set_length. reflexivity.
      * destruct (exec (sv_ext S0) (hs_world s) o c). injection Hs as _ <-. cbn. rewrite set_length. reflexivity.
    + injection Hs as _ <-. reflexivity.
  - rewrite IH. destruct x; cbn in Hs |- *; try discriminate. reflexivity.
Qed.
Lemma hrun_app S0 xs ys : forall s, hrun S0 s (xs ++ ys) =
  (let '(h1, s1) := hrun S0 s xs in let '(h2, s2) := hrun S0 s1 ys in ((h1 ++ h2)%list, s2)).
Proof.
  induction xs as [|x xs IH]; intros s; cbn [app hrun].
  - destruct (hrun S0 s ys). reflexivity.
  - destruct (hstep S0 s x) as [[e s1]|]; [|apply IH]. rewrite IH.
    destruct (hrun S0 s1 xs) as [h s2]. destruct (hrun S0 s2 ys). reflexivity.
Qed.

Lemma C81_http_requests_never_wait_proof : forall S w before e r after,
  (24 <= http_turns (http_arrivals before) after)%nat ->
  In (HvStart (http_arrivals before) e r) (http_history S w (before ++ HNew e r :: after)) /\
  exists o, In (HvDone (http_arrivals before) o) (http_history S w (before ++ HNew e r :: after)).
Proof.
  intros S w before e r after Hn. unfold http_history. rewrite hrun_app.
  pose proof (hrun_arrivals S before (mkHsys w [])) as Ha. destruct (hrun S (mkHsys w []) before) as [h1 s1]. cbn [snd] in Ha. cbn in Ha.
  cbn [hrun hstep]. set (s2 := mkHsys _ _).
  destruct (bounded_hrun S (http_arrivals before) after s2 (answer_http S e r) 23) as (o & Ho); auto.
  { cbn. rewrite <- Ha. rewrite nth_error_app2 by lia. rewrite Nat.sub_diag. reflexivity. }
  { apply http_bounded. }
  destruct (hrun S s2 after) as [h3 s3]. cbn [fst] in *. rewrite Ha. split.
  - apply in_or_app; right; left; reflexivity.
  - exists o. apply in_or_app; right; right; exact Ho.
Qed.
