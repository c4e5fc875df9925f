(** * Concrete cases for PropsAlways *)

From Verif Require Export MeetLive PfAlways.

Fixpoint clear_before (f g : event -> bool) (h : list event) : bool :=
  match h with
  | [] => true
  | e :: r => (if g e then negb (existsb f r) else true) && clear_before f g r
  end.
Lemma clear_before_ok f g h : clear_before f g h = true ->
  forall l1 x l2 y, h = (l1 ++ x :: l2)%list -> f x = true -> In y l1 -> g y = false.
Proof.
  intros H l1 x l2 y -> Hf Hy. induction l1 as [|e l1 IH]; [destruct Hy|].
  cbn in H. apply andb_true_iff in H as [H1 H2]. destruct Hy as [->|Hy]; [|auto].
  destruct (g y); [|reflexivity]. exfalso. rewrite existsb_app in H1. cbn in H1. rewrite Hf, orb_true_r in H1. discriminate.
Qed.
Definition looks_code (i : nat) (e : event) : bool := match e with EvCall j (CSessGet _ _) _ => Nat.eqb i j | _ => false end.
Definition deletes_code (e : event) : bool := match e with EvCall _ (CSessDel _ _) _ => true | _ => false end.
Definition looks_token (i : nat) (e : event) : bool := match e with EvCall j (CTokGet _ _) _ => Nat.eqb i j | _ => false end.
Definition revokes_token (id : string) (e : event) : bool := match e with EvCall _ (CTokRevoke _ id') _ => String.eqb id id' | _ => false end.

Lemma no_deletion_before h i iss code : clear_before (looks_code i) deletes_code h = true ->
  forall l1 a l2, h = (l1 ++ EvCall i (CSessGet iss code) a :: l2)%list ->
  forall j iss' code' b, ~ In (EvCall j (CSessDel iss' code') b) l1.
Proof.
  intros H l1 a l2 Hh j iss' code' b Hin. pose proof (clear_before_ok _ _ _ H _ _ _ _ Hh (Nat.eqb_refl i) Hin). discriminate.
Qed.
Lemma no_revocation_before h i iss v id : clear_before (looks_token i) (revokes_token id) h = true ->
  forall l1 a l2, h = (l1 ++ EvCall i (CTokGet iss v) a :: l2)%list ->
  forall j iss' b, ~ In (EvCall j (CTokRevoke iss' id) b) l1.
Proof.
  intros H l1 a l2 Hh j iss' b Hin. pose proof (clear_before_ok _ _ _ H _ _ _ _ Hh (Nat.eqb_refl i) Hin) as X.
  cbn in X. rewrite String.eqb_refl in X. discriminate.
Qed.
Lemma race_clear : clear_before (looks_code 2) deletes_code (history demo_ext w0 x_race) = true.
Proof. vm_compute. reflexivity. Qed.
Lemma refresh2_clear : clear_before (looks_token 3) (revokes_token "id-2") (history demo_ext w0 x_refresh2) = true.
Proof. vm_compute. reflexivity. Qed.
Lemma given_once h n : forallb (fun e => match e with EvCall k (CSessReg _ _ _) _ => Nat.eqb k n | _ => true end) h = true ->
  forall k iss' code' s a, In (EvCall k (CSessReg iss' code' s) a) h -> k = n.
Proof. intros H k i c s a Hin. rewrite forallb_forall in H. apply H in Hin. apply Nat.eqb_eq in Hin. exact Hin. Qed.
Lemma race_once : forall k iss' code' s a,
  In (EvCall k (CSessReg iss' code' s) a) (firstn 5 (skipn 0 (history demo_ext w0 x_race)) ++ skipn 5 (skipn 0 (history demo_ext w0 x_race))) -> k = 0%nat.
Proof. apply given_once. vm_compute. reflexivity. Qed.
Lemma steal_clear : clear_before (looks_code 1) deletes_code (history demo_ext w0 x_steal) = true.
Proof. vm_compute. reflexivity. Qed.
Lemma steal_once : forall k iss' code' s a,
  In (EvCall k (CSessReg iss' code' s) a) (firstn 5 (skipn 0 (history demo_ext w0 x_steal)) ++ skipn 5 (skipn 0 (history demo_ext w0 x_steal))) -> k = 0%nat.
Proof. apply given_once. vm_compute. reflexivity. Qed.
Lemma twice_clear : clear_before (looks_code 1) deletes_code (history demo_ext w0 x_twice) = true.
Proof. vm_compute. reflexivity. Qed.
Lemma twice_once : forall k iss' code' s a,
  In (EvCall k (CSessReg iss' code' s) a) (firstn 5 (skipn 0 (history demo_ext w0 x_twice)) ++ skipn 5 (skipn 0 (history demo_ext w0 x_twice))) -> k = 0%nat.
Proof. apply given_once. vm_compute. reflexivity. Qed.
Lemma dpop_times h j iat : forallb (fun e => match e with
    | EvCall k CNow (ATime t) => negb (Nat.eqb k j) || ((unix (t - 15 * second) <=? iat) && (iat <=? unix (t + 15 * second)))%N
    | _ => true end) h = true ->
  forall t, In (EvCall j CNow (ATime t)) h -> (unix (t - 15 * second) <= iat <= unix (t + 15 * second))%N.
Proof.
  intros H t Hin. rewrite forallb_forall in H. apply H in Hin. rewrite Nat.eqb_refl in Hin. cbn [negb orb] in Hin.
  apply andb_true_iff in Hin as [A B]. apply N.leb_le in A, B. split; assumption.
Qed.
Lemma dpop_new h j : forallb (fun e => match e with
    | EvCall k (CProofExists _) a => negb (Nat.eqb k j) || match a with ABool (SOk false) => true | _ => false end
    | _ => true end) h = true ->
  forall id a, In (EvCall j (CProofExists id) a) h -> a = ABool (SOk false).
Proof.
  intros H id a Hin. rewrite forallb_forall in H. apply H in Hin. rewrite Nat.eqb_refl in Hin. cbn [negb orb] in Hin.
  destruct a as [| | | | | | | | |[[]| | |]| |]; congruence.
Qed.
