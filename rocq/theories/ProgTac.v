(** * Tactics to read a finished execution of a service backwards (proofs only) *)

From Verif Require Export SysLemmas.

Section Calls.
Context {A : Type}.
Implicit Types (q : A) (tr : list (call * answer)).

Lemma inv_now k tr q : reach (now k) tr (Ret q) ->
  exists t tr', tr = (CNow, ATime t) :: tr' /\ reach (k t) tr' (Ret q).
Proof. intros H. apply reach_do_inv in H as [[_ H]|(a & t' & -> & H)]; [discriminate|].
  destruct a; try (apply reach_stuck_inv in H as [_ H]; discriminate). eauto. Qed.
Lemma inv_rand n k tr q : reach (rand n k) tr (Ret q) ->
  exists t tr', tr = (CRand n, AStr t) :: tr' /\ reach (k t) tr' (Ret q).
Proof. intros H. apply reach_do_inv in H as [[_ H]|(a & t' & -> & H)]; [discriminate|].
  destruct a; try (apply reach_stuck_inv in H as [_ H]; discriminate). eauto. Qed.
Lemma inv_gen c k tr q : reach (gen c k) tr (Ret q) ->
  exists t tr', tr = (c, AGen t) :: tr' /\ reach (k t) tr' (Ret q).
Proof. intros H. apply reach_do_inv in H as [[_ H]|(a & t' & -> & H)]; [discriminate|].
  destruct a; try (apply reach_stuck_inv in H as [_ H]; discriminate). eauto. Qed.
Lemma inv_client_get c k tr q : reach (client_get c k) tr (Ret q) ->
  exists t tr', tr = (CClientGet c, AClient t) :: tr' /\ reach (k t) tr' (Ret q).
Proof. intros H. apply reach_do_inv in H as [[_ H]|(a & t' & -> & H)]; [discriminate|].
  destruct a; try (apply reach_stuck_inv in H as [_ H]; discriminate). eauto. Qed.
Lemma inv_res_get c k tr q : reach (res_get c k) tr (Ret q) ->
  exists t tr', tr = (CResGet c, ARes t) :: tr' /\ reach (k t) tr' (Ret q).
Proof. intros H. apply reach_do_inv in H as [[_ H]|(a & t' & -> & H)]; [discriminate|].
  destruct a; try (apply reach_stuck_inv in H as [_ H]; discriminate). eauto. Qed.
Lemma inv_sess_get i c k tr q : reach (sess_get i c k) tr (Ret q) ->
  exists t tr', tr = (CSessGet i c, ASess t) :: tr' /\ reach (k t) tr' (Ret q).
Proof. intros H. apply reach_do_inv in H as [[_ H]|(a & t' & -> & H)]; [discriminate|].
  destruct a; try (apply reach_stuck_inv in H as [_ H]; discriminate). eauto. Qed.
Lemma inv_req_get i c k tr q : reach (req_get i c k) tr (Ret q) ->
  exists t tr', tr = (CReqGet i c, AReq t) :: tr' /\ reach (k t) tr' (Ret q).
Proof. intros H. apply reach_do_inv in H as [[_ H]|(a & t' & -> & H)]; [discriminate|].
  destruct a; try (apply reach_stuck_inv in H as [_ H]; discriminate). eauto. Qed.
Lemma inv_dev_get c k tr q : reach (dev_get c k) tr (Ret q) ->
  exists t tr', tr = (c, ADev t) :: tr' /\ reach (k t) tr' (Ret q).
Proof. intros H. apply reach_do_inv in H as [[_ H]|(a & t' & -> & H)]; [discriminate|].
  destruct a; try (apply reach_stuck_inv in H as [_ H]; discriminate). eauto. Qed.
Lemma inv_tok_get i c k tr q : reach (tok_get i c k) tr (Ret q) ->
  exists t tr', tr = (CTokGet i c, ATok t) :: tr' /\ reach (k t) tr' (Ret q).
Proof. intros H. apply reach_do_inv in H as [[_ H]|(a & t' & -> & H)]; [discriminate|].
  destruct a; try (apply reach_stuck_inv in H as [_ H]; discriminate). eauto. Qed.
Lemma inv_proof_exists c k tr q : reach (proof_exists c k) tr (Ret q) ->
  exists t tr', tr = (CProofExists c, ABool t) :: tr' /\ reach (k t) tr' (Ret q).
Proof. intros H. apply reach_do_inv in H as [[_ H]|(a & t' & -> & H)]; [discriminate|].
  destruct a; try (apply reach_stuck_inv in H as [_ H]; discriminate). eauto. Qed.
Lemma inv_reg c k tr q : reach (reg c k) tr (Ret q) ->
  exists t tr', tr = (c, ANum t) :: tr' /\ reach (k t) tr' (Ret q).
Proof. intros H. apply reach_do_inv in H as [[_ H]|(a & t' & -> & H)]; [discriminate|].
  destruct a; try (apply reach_stuck_inv in H as [_ H]; discriminate). eauto. Qed.
Lemma inv_write c k tr q : reach (write c k) tr (Ret q) ->
  exists t tr', tr = (c, AUnit t) :: tr' /\ reach (k t) tr' (Ret q).
Proof. intros H. apply reach_do_inv in H as [[_ H]|(a & t' & -> & H)]; [discriminate|].
  destruct a; try (apply reach_stuck_inv in H as [_ H]; discriminate). eauto. Qed.
Lemma inv_ret (p q : A) tr : reach (Ret p) tr (Ret q) -> tr = [] /\ q = p.
Proof. intros H. apply reach_ret_inv in H as [-> H]. inversion H; auto. Qed.
Lemma inv_panic (q : A) tr : reach Panic tr (Ret q) -> False.
Proof. intros H. apply reach_panic_inv in H as [-> H]. inversion H; auto. Qed.
Lemma inv_stuck (q : A) tr : reach Stuck tr (Ret q) -> False.
Proof. intros H. apply reach_stuck_inv in H as [-> H]. inversion H; auto. Qed.
End Calls.

(** One step backwards through hypothesis [H : reach p tr (Ret q)].  New facts get
    the tests as equations. *)
Ltac rstep H :=
  cbn [negb] in H;
  lazymatch type of H with
  | reach (Ret _) _ (Ret _) => apply inv_ret in H; destruct H as [? H]
  | reach Panic _ _ => exfalso; exact (inv_panic _ _ H)
  | reach Stuck _ _ => exfalso; exact (inv_stuck _ _ H)
  | reach (now _) _ _ => apply inv_now in H; destruct H as (? & ? & ? & H)
  | reach (rand _ _) _ _ => apply inv_rand in H; destruct H as (? & ? & ? & H)
  | reach (gen _ _) _ _ => apply inv_gen in H; destruct H as (? & ? & ? & H)
  | reach (client_get _ _) _ _ => apply inv_client_get in H; destruct H as (? & ? & ? & H)
  | reach (res_get _ _) _ _ => apply inv_res_get in H; destruct H as (? & ? & ? & H)
  | reach (sess_get _ _ _) _ _ => apply inv_sess_get in H; destruct H as (? & ? & ? & H)
  | reach (req_get _ _ _) _ _ => apply inv_req_get in H; destruct H as (? & ? & ? & H)
  | reach (dev_get _ _) _ _ => apply inv_dev_get in H; destruct H as (? & ? & ? & H)
  | reach (tok_get _ _ _) _ _ => apply inv_tok_get in H; destruct H as (? & ? & ? & H)
  | reach (proof_exists _ _) _ _ => apply inv_proof_exists in H; destruct H as (? & ? & ? & H)
  | reach (reg _ _) _ _ => apply inv_reg in H; destruct H as (? & ? & ? & H)
  | reach (write _ _) _ _ => apply inv_write in H; destruct H as (? & ? & ? & H)
  | reach (bind _ _) _ _ => apply reach_bind_ret in H; destruct H as (? & ? & ? & ? & ? & H)
  | reach (match ?x with _ => _ end) _ _ => destruct x eqn:?
  end.

(** Turn boolean tests into propositions. *)
Ltac norm_bool :=
  repeat match goal with
  | H : negb _ = true |- _ => apply negb_true_iff in H
  | H : negb _ = false |- _ => apply negb_false_iff in H
  | H : _ || _ = false |- _ => apply orb_false_iff in H; destruct H
  | H : _ && _ = true |- _ => apply andb_true_iff in H; destruct H
  | H : String.eqb _ _ = true |- _ => apply String.eqb_eq in H
  | H : String.eqb _ _ = false |- _ => apply String.eqb_neq in H
  | H : N.ltb _ _ = true |- _ => apply N.ltb_lt in H
  | H : N.ltb _ _ = false |- _ => apply N.ltb_ge in H
  | H : N.eqb _ _ = true |- _ => apply N.eqb_eq in H
  | H : N.eqb _ _ = false |- _ => apply N.eqb_neq in H
  | H : Nat.ltb _ _ = true |- _ => apply Nat.ltb_lt in H
  | H : Nat.ltb _ _ = false |- _ => apply Nat.ltb_ge in H
  | H : Nat.eqb _ _ = true |- _ => apply Nat.eqb_eq in H
  | H : Nat.eqb _ _ = false |- _ => apply Nat.eqb_neq in H
  end.

Lemma is_empty_false s : is_empty s = false <-> s <> ""%string.
Proof. destruct s; cbn; split; congruence. Qed.
Lemma is_empty_true s : is_empty s = true <-> s = ""%string.
Proof. destruct s; cbn; split; congruence. Qed.
