(** * Proofs about whole HTTP histories: the tools *)

From Verif Require Export SpecWeb PfRef2 PfAuthn PfCode PfToken PfToken2 PfDev PfDev2 PfStore PfAuthz.
From Coq Require Import Lia.

(** ** Effects *)

Lemma in_heffects hh i c a : calm c = false -> In (HvCall i c a) hh <-> In (Effect (Some i) c a) (heffects hh).
Proof.
  intros Hc. unfold heffects. rewrite in_flat_map. split.
  - intros H. eexists. split; [exact H|]. cbn. rewrite Hc. cbn; auto.
  - intros ([j e r|j c' a'|j o|d] & H1 & H2); cbn in H2; try contradiction.
    + destruct (calm c'); cbn in H2; [contradiction|]. destruct H2 as [H2|[]]. injection H2 as -> -> ->. exact H1.
    + destruct H2 as [H2|[]]; discriminate.
Qed.
Lemma in_effects own h x c a : calm c = false ->
  In (Effect x c a) (effects own h) <-> exists j, nth_error own j = x /\ In (EvCall j c a) h.
Proof.
  intros Hc. unfold effects. rewrite in_flat_map. split.
  - intros ([j r|j c' a'|j o|d] & H1 & H2); cbn in H2; try contradiction.
    + destruct (calm c'); cbn in H2; [contradiction|]. destruct H2 as [H2|[]]. injection H2 as <- -> ->. eauto.
    + destruct H2 as [H2|[]]; discriminate.
  - intros (j & <- & H). eexists. split; [exact H|]. cbn. rewrite Hc. cbn; auto.
Qed.

Lemma hsplit hh : forall l1 i c a l2, heffects hh = (l1 ++ Effect i c a :: l2)%list ->
  exists k b1 b2, i = Some k /\ hh = (b1 ++ HvCall k c a :: b2)%list /\ heffects b1 = l1 /\ heffects b2 = l2.
Proof.
  induction hh as [|e hh IH]; intros l1 i c a l2 H; [destruct l1; discriminate|].
  assert (Skip : forall e, heffects [e] = [] -> heffects hh = (l1 ++ Effect i c a :: l2)%list ->
    exists k b1 b2, i = Some k /\ (e :: hh)%list = (b1 ++ HvCall k c a :: b2)%list /\ heffects b1 = l1 /\ heffects b2 = l2).
  { intros e' He' H'. destruct (IH _ _ _ _ _ H') as (k & b1 & b2 & -> & -> & A & B). exists k, (e' :: b1), b2.
    repeat split; auto. change (e' :: b1)%list with ([e'] ++ b1)%list. rewrite heffects_app, He'. exact A. }
  change (e :: hh)%list with ([e] ++ hh)%list in H. rewrite heffects_app in H.
  destruct e as [j e r|j c' a'|j o|d]; cbn in H; try (apply Skip; [reflexivity|exact H]).
  - destruct (calm c') eqn:Hc; [apply Skip; [cbn; rewrite Hc; reflexivity|exact H]|].
    destruct l1 as [|x l1]; cbn in H.
    + injection H as <- -> -> <-. exists j, [], hh. auto.
    + injection H as H1 H'. destruct (IH _ _ _ _ _ H') as (k & b1 & b2 & -> & -> & A & B). exists k, (HvCall j c' a' :: b1), b2.
      repeat split; auto. cbn. rewrite Hc. cbn. f_equal; auto.
  - destruct l1 as [|x l1]; cbn in H; [discriminate|]. injection H as H1 H'.
    destruct (IH _ _ _ _ _ H') as (k & b1 & b2 & -> & -> & A & B). exists k, (HvTick d :: b1), b2.
    repeat split; auto. cbn. f_equal; auto.
Qed.

Fixpoint etime (l : list effect) : N :=
  match l with [] => 0 | Passed d :: l => d + etime l | _ :: l => etime l end.
Lemma time_effects hh : time_in hh = etime (heffects hh).
Proof.
  induction hh as [|e hh IH]; [reflexivity|]. cbn [time_in].
  change (e :: hh)%list with ([e] ++ hh)%list. rewrite heffects_app.
  destruct e as [j e r|j c' a'|j o|d]; cbn; auto; [destruct (calm c'); auto|rewrite IH; reflexivity].
Qed.
Lemma elapsed_effects own h : elapsed h = etime (effects own h).
Proof.
  induction h as [|e h IH]; [reflexivity|]. cbn [elapsed].
  change (e :: h)%list with ([e] ++ h)%list. rewrite effects_app.
  destruct e as [j r|j c' a'|j o|d]; cbn; auto; [destruct (calm c'); auto|rewrite IH; reflexivity].
Qed.
Lemma same_time own hh h : heffects hh = effects own h -> time_in hh = elapsed h.
Proof. intros H. rewrite time_effects, (elapsed_effects own), H. reflexivity. Qed.

(** ** Prefixes of histories *)

Lemma http_prefix S w xs h1 h2 : http_history S w xs = (h1 ++ h2)%list -> exists xs', http_history S w xs' = h1.
Proof.
  unfold http_history. generalize (mkHsys w []). revert h1. induction xs as [|x xs IH]; intros h1 s H.
  - cbn in H. symmetry in H. apply app_eq_nil in H as [-> ->]. exists []. reflexivity.
  - cbn in H. destruct (hstep S s x) as [[e s1]|] eqn:Hx.
    + destruct (hrun S s1 xs) as [h s2] eqn:Hr. cbn in H. destruct h1 as [|e' h1]; [exists []; reflexivity|].
      injection H as <- H. specialize (IH h1 s1). rewrite Hr in IH. destruct (IH H) as (xs' & H').
      exists (x :: xs'). cbn. rewrite Hx. destruct (hrun S s1 xs'). cbn in *. congruence.
    + exact (IH _ _ H).
Qed.

Lemma start_before S w xs h1 i e h2 ep r : http_history S w xs = (h1 ++ e :: h2)%list -> about i e ->
  (forall ep r, e <> HvStart i ep r) -> In (HvStart i ep r) (http_history S w xs) -> In (HvStart i ep r) h1.
Proof.
  intros H Ha Hn Hs. destruct (http_prefix S w xs (h1 ++ [e])%list h2) as (xs' & H').
  { rewrite H, <- app_assoc. reflexivity. }
  destruct (http_has_start S w xs' i e) as (ep' & r' & Hin); [rewrite H'; apply in_or_app; cbn; auto|auto|].
  assert (Hin2 : In (HvStart i ep' r') (http_history S w xs)).
  { rewrite H. rewrite H' in Hin. apply in_app_or in Hin. apply in_or_app. destruct Hin as [Hin|[Hin|[]]]; cbn; auto. }
  destruct (http_started _ _ _ _ _ _ Hs) as (_ & _ & Hu). destruct (Hu _ _ Hin2) as [-> ->].
  rewrite H' in Hin. apply in_app_or in Hin as [Hin|[Hin|[]]]; [auto|]. exfalso; eapply Hn; eauto.
Qed.

Section Lift.
Context (S : http_server) (w : world) (xs : list hsched) (ys : list sched) (own : list nat).
Context (R : refined S w xs ys own).
Notation E := (sv_ext S).
Notation hh := (http_history S w xs).
Notation h := (history E w ys).

Lemma started_one i e r e' r' : In (HvStart i e r) hh -> In (HvStart i e' r') hh -> e' = e /\ r' = r.
Proof. intros H1 H2. destruct (http_started _ _ _ _ _ _ H1) as (_ & _ & H). auto. Qed.

(** What a service request is made for. *)
Lemma made_for j x : In (EvStart j x) h ->
  exists i e r d, nth_error own j = Some i /\ In (HvStart i e r) hh /\ past own hh h i d /\ stage S e r d x.
Proof. apply (rf_explained _ _ _ _ _ R). Qed.
Lemma made_by i e r j x : In (HvStart i e r) hh -> nth_error own j = Some i -> In (EvStart j x) h ->
  exists d, past own hh h i d /\ stage S e r d x.
Proof.
  intros Hs Hj Hx. destruct (made_for _ _ Hx) as (i' & e' & r' & d & A & B & C & D).
  rewrite Hj in A. injection A as <-. destruct (started_one _ _ _ _ _ Hs B) as [-> ->]. eauto.
Qed.

Lemma past_served i d x y : past own hh h i d -> served d x y ->
  exists j, nth_error own j = Some i /\ answered h j x y.
Proof. intros P [j Hj]. destruct (P _ Hj) as (A & B & C). exists j. split; auto. split; auto. Qed.
Lemma past_saw i d c a : past own hh h i d -> saw d c a -> In (HvCall i c a) hh.
Proof. intros P H. exact (P _ H). Qed.

(** The HTTP event behind a storage operation. *)
Lemma http_call j c a : calm c = false -> In (EvCall j c a) h -> exists i, nth_error own j = Some i /\ In (HvCall i c a) hh.
Proof.
  intros Hc H.
  assert (X : In (Effect (nth_error own j) c a) (heffects hh)).
  { rewrite (ex_effects _ _ _ _ (rf_explained _ _ _ _ _ R)). apply in_effects; eauto. }
  apply in_split in X as (l1 & l2 & X). destruct (hsplit _ _ _ _ _ _ X) as (k & b1 & b2 & -> & -> & _).
  exists k. split; auto. apply in_or_app; cbn; auto.
Qed.

(** A split of the service history is a split of the HTTP history. *)
Lemma http_split g1 j c a g2 : calm c = false -> h = (g1 ++ EvCall j c a :: g2)%list ->
  exists i b1 b2, nth_error own j = Some i /\ hh = (b1 ++ HvCall i c a :: b2)%list /\
    heffects b1 = effects own g1 /\ heffects b2 = effects own g2 /\
    (forall k x, In (EvStart k x) g1 -> exists i' e r, nth_error own k = Some i' /\ In (HvStart i' e r) hh).
Proof.
  intros Hc Hg. pose proof (ex_effects _ _ _ _ (rf_explained _ _ _ _ _ R)) as X.
  rewrite Hg, effects_app in X. change (EvCall j c a :: g2)%list with ([EvCall j c a] ++ g2)%list in X.
  rewrite effects_app in X. cbn in X. rewrite Hc in X. cbn in X.
  destruct (hsplit _ _ _ _ _ _ X) as (k & b1 & b2 & A & B & C & D). exists k, b1, b2.
  repeat split; auto. intros k' x Hx. destruct (made_for k' x) as (i & e & r & d & Y1 & Y2 & _); [rewrite Hg; apply in_or_app; auto|].
  eauto.
Qed.

Lemma http_times g1 g2 : h = (g1 ++ g2)%list -> exists b1 b2, hh = (b1 ++ b2)%list /\ aligned own b1 g1 /\
  time_in b1 = elapsed g1 /\ heffects b2 = effects own g2.
Proof.
  intros Hg. destruct (rf_aligned _ _ _ _ _ R _ _ Hg) as (b1 & b2 & A & B). exists b1, b2. split; auto. split; auto.
  pose proof (ex_effects _ _ _ _ (rf_explained _ _ _ _ _ R)) as X. destruct B as [_ B].
  split; [eapply same_time; eauto|].
  rewrite A, Hg, heffects_app, effects_app, B in X. eapply app_inv_head; eauto.
Qed.
End Lift.
