(** * From answers in a history to calls and storage (proofs only) *)

From Verif Require Export CallFacts TokStore.

Section Hist.
Context (E : ext) (w : world) (xs : list sched).
Notation h := (history E w xs).

Lemma answered_runs i r p : answered h i r p -> reach (serve E r) (calls_of i h) (Ret p).
Proof.
  intros [H1 H2]. destruct (trace_history E w xs) as (s & Ht & _).
  exact (done_runs _ _ _ _ _ _ _ Ht H1 H2).
Qed.

Lemma token_ok_reach i req res : token_ok h i req res ->
  reach (token_svc E (Some req)) (calls_of i h) (Ret res) /\ tr_err res = false.
Proof.
  intros [H1 H2]. apply answered_runs in H1. cbn in H1.
  apply reach_pmap_ret in H1 as (a & X & H1). injection X as ->. auto.
Qed.

Lemma event_at i c a : In (EvCall i c a) h ->
  exists h1 h2 wm o w1, h = (h1 ++ EvCall i c a :: h2)%list /\ wtrace E w h1 wm /\ exec E wm o c = (a, w1)
    /\ wtrace E w1 h2 (final E w xs).
Proof.
  intros Hin. apply in_split in Hin as (h1 & h2 & Hh).
  pose proof (history_wtrace E w xs) as Ht. rewrite Hh in Ht.
  destruct (wtrace_at _ _ _ _ _ _ _ _ Ht) as (wm & o & w1 & A & B & C).
  exists h1, h2, wm, o, w1. auto.
Qed.

Lemma split_at h1 i c a h2 : h = (h1 ++ EvCall i c a :: h2)%list ->
  exists wm o w1, wtrace E w h1 wm /\ exec E wm o c = (a, w1) /\ wtrace E w1 h2 (final E w xs).
Proof.
  intros Hh. pose proof (history_wtrace E w xs) as Ht. rewrite Hh in Ht.
  destruct (wtrace_at _ _ _ _ _ _ _ _ Ht) as (wm & o & w1 & A & B & C). eauto 6.
Qed.

Lemma client_read i id c : In (EvCall i (CClientGet id) (AClient (SOk c))) h -> w_clients w id = Some c.
Proof.
  intros Hin. apply event_at in Hin as (h1 & h2 & wm & o & w1 & _ & A & B & _).
  apply read_client in B. apply wtrace_const in A as (A & _). congruence.
Qed.

(** A prefix of a history is one too, as far as writes are concerned. *)
Lemma write_reason_prefix h1 h2 k1 i c a k2 :
  h = (h1 ++ h2)%list -> h1 = (k1 ++ EvCall i c a :: k2)%list ->
  exists r, In (EvStart i r) k1 /\ may_write E r (calls_of i k1) c.
Proof.
  intros H1 ->. rewrite <- app_assoc in H1. cbn in H1. eapply write_reason; eauto.
Qed.

Lemma sess_origin h1 i iss code s h2 :
  blank w -> h = (h1 ++ EvCall i (CSessGet iss code) (ASess (SOk s)) :: h2)%list ->
  exists k1 k iss' code' a k2, h1 = (k1 ++ EvCall k (CSessReg iss' code' s) a :: k2)%list /\
    sess_key E iss' code' = sess_key E iss code /\ (elapsed k2 <= session_ttl)%N /\
    ~ code_rewritten E k2 iss code.
Proof.
  intros (_ & Hb & _) Hh. destruct (split_at _ _ _ _ _ Hh) as (wm & o & w1 & A & B & _).
  apply read_sess in B as (-> & e & B & Hle).
  destruct (sess_last E _ _ _ _ _ A B) as [X|(k1 & k & c & a & k2 & wk & -> & K1 & K2 & K3)];
    [rewrite Hb in X; discriminate|].
  destruct c; cbn in K2; try discriminate. injection K2 as Hkey <- He.
  exists k1, k, issuer, code0, a, k2. repeat split; auto.
  - pose proof (wtrace_now _ _ _ _ A) as HN. pose proof (wtrace_now _ _ _ _ K1) as HN1.
    rewrite elapsed_app in HN. cbn [elapsed] in HN. lia.
  - intros (j & c & a' & I1 & I2 & [(x & y & z & -> & I3)|(x & y & -> & I3)]);
      rewrite (K3 _ _ _ I1) in I2; try discriminate; cbn; congruence.
Qed.

Lemma sess_authorized h1 i iss code s h2 :
  blank w -> h = (h1 ++ EvCall i (CSessGet iss code) (ASess (SOk s)) :: h2)%list ->
  exists ar, as_request s = Some ar /\ authorized E h1 iss code (as_subject s) ar.
Proof.
  intros Hb Hh. destruct (sess_origin _ _ _ _ _ _ Hb Hh) as (k1 & k & iss' & code' & a & k2 & Hh1 & Hkey & He & Hr).
  destruct (write_reason_prefix h1 _ k1 k _ a k2 Hh Hh1) as (r & R1 & R2).
  cbn in R2. destruct R2 as (q & r0 & r1 & c & -> & <- & _ & -> & _).
  exists r1. split; auto. exists k1, k, q, code', a, k2. auto 10.
Qed.

Lemma tok_origin h1 i iss v t h2 :
  no_tokens w -> h = (h1 ++ EvCall i (CTokGet iss v) (ATok (SOk t)) :: h2)%list ->
  exists t0 iss', stored_as E h1 iss v t0 /\ (t = hashed E iss' t0 \/ t = set_status (hashed E iss' t0) TsRevoked).
Proof.
  intros Hn Hh. destruct (split_at _ _ _ _ _ Hh) as (wm & o & w1 & A & B & _).
  apply read_tok in B as (-> & B). destruct (tok_inv _ _ _ _ Hn A) as [_ I2].
  destruct (I2 _ _ B) as (Hk & k1 & k & iss' & t0 & a & k2 & -> & D).
  exists t0, iss'. split.
  - exists k, iss', a. split; [apply in_or_app; right; left; auto|].
    rewrite <- Hk. destruct D as [->|[-> _]]; reflexivity.
  - destruct D as [->|[-> _]]; auto.
Qed.

Lemma tok_live h1 i iss v t h2 :
  no_tokens w -> no_reuse E h -> h = (h1 ++ EvCall i (CTokGet iss v) (ATok (SOk t)) :: h2)%list ->
  t_status t = TsActive -> exists t0 iss', live_as E h1 iss v t0 /\ t = hashed E iss' t0.
Proof.
  intros Hn Hu Hh Hs. destruct (split_at _ _ _ _ _ Hh) as (wm & o & w1 & A & B & _).
  apply read_tok in B as (-> & B). rewrite Hh in Hu. apply no_reuse_app in Hu.
  destruct (tok_current _ _ _ _ _ _ Hn A Hu B) as (k1 & k & iss' & t0 & a & k2 & -> & Hk & [[-> Hd]|[-> _]]);
    [|discriminate].
  exists t0, iss'. split; auto. exists k1, k, iss', a, k2. auto.
Qed.

End Hist.

(** Writes are only made by requests with a reason; all other facts about a successful
    token request, in one place. *)
Lemma token_ok_client E w xs i req res : token_ok (history E w xs) i req res ->
  exists auth c tr', tq_client req = Some auth /\ w_clients w (cl_id auth) = Some c /\
    calls_of i (history E w xs) = (CClientGet (cl_id auth), AClient (SOk c)) :: tr' /\
    tq_issuer req <> ""%string /\ grant_matches (tq_grant_type req) (tq_grant req) = true /\
    reach (dispatch E (Some c) req) tr' (Ret res) /\ tr_err res = false.
Proof.
  intros H. apply token_ok_reach in H as [H He].
  destruct (token_svc_ok _ _ _ _ H He) as (auth & c & tr' & H1 & H2 & H3 & H4 & H5).
  exists auth, c, tr'. repeat (split; [solve [auto]|]).
  assert (Hc : w_clients w (cl_id auth) = Some c).
  { eapply client_read. apply in_calls_of. rewrite H2. left; reflexivity. }
  auto 10.
Qed.
