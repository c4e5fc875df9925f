(** * SecureCompare: proofs *)

From Verif Require Import Strs Compare.

Lemma lxor_lt n x y : (x < 2 ^ n)%N -> (y < 2 ^ n)%N -> (N.lxor x y < 2 ^ n)%N.
Proof.
  intros Hx Hy. destruct (N.eq_dec (N.lxor x y) 0) as [->|Hz].
  - apply N.neq_0_lt_0. apply N.pow_nonzero. discriminate.
  - apply N.log2_lt_pow2; [lia|].
    pose proof (N.log2_lxor x y) as Hl.
    assert (Hl2 : forall z, (z < 2 ^ n)%N -> (0 < n)%N -> (N.log2 z < n)%N).
    { intros z Hz1 Hn. destruct (N.eq_dec z 0) as [->|]; [cbn; lia|]. apply N.log2_lt_pow2; lia. }
    assert (0 < n)%N.
    { destruct (N.eq_dec n 0) as [->|]; [|lia]. cbn in Hx, Hy.
      assert (x = 0%N) as -> by lia. assert (y = 0%N) as -> by lia. destruct (Hz eq_refl). }
    specialize (Hl2 x Hx H) as X1. specialize (Hl2 y Hy H) as X2. lia.
Qed.

Lemma lor_lt n x y : (x < 2 ^ n)%N -> (y < 2 ^ n)%N -> (N.lor x y < 2 ^ n)%N.
Proof.
  intros Hx Hy. destruct (N.eq_dec n 0) as [->|Hn].
  - cbn in *. assert (x = 0%N) as -> by lia. assert (y = 0%N) as -> by lia. cbn. lia.
  - destruct (N.eq_dec (N.lor x y) 0) as [->|Hz]; [apply N.neq_0_lt_0, N.pow_nonzero; discriminate|].
    apply N.log2_lt_pow2; [lia|]. rewrite N.log2_lor.
    assert (Hl2 : forall z, (z < 2 ^ n)%N -> (N.log2 z < n)%N).
    { intros z Hz1. destruct (N.eq_dec z 0) as [->|]; [cbn; lia|]. apply N.log2_lt_pow2; lia. }
    apply N.max_lub_lt; auto.
Qed.

(** (v - 1) >> (n-1) on n-bit numbers, for v < 2^(n-1). *)
Lemma borrow_bit n v : (0 < n)%N -> (v < 2 ^ (n - 1))%N ->
  (((v + 2 ^ n - 1) mod 2 ^ n) / 2 ^ (n - 1))%N = if (v =? 0)%N then 1%N else 0%N.
Proof.
  intros Hn Hv. assert (Hp : (2 ^ n = 2 * 2 ^ (n - 1))%N).
  { replace n with (N.succ (n - 1)) at 1 by lia. apply N.pow_succ_r'. }
  assert (H0 : (0 < 2 ^ (n - 1))%N) by (apply N.neq_0_lt_0, N.pow_nonzero; discriminate).
  destruct (N.eqb_spec v 0) as [->|Hz].
  - rewrite N.mod_small by lia. symmetry. apply N.div_unique with (r := (2 ^ (n - 1) - 1)%N); lia.
  - replace (v + 2 ^ n - 1)%N with ((v - 1) + 1 * 2 ^ n)%N by lia.
    rewrite N.mod_add by lia. rewrite N.mod_small by lia. apply N.div_small. lia.
Qed.

Lemma xor_fold_ok x : forall y v, (v < 2 ^ 8)%N -> String.length x = String.length y ->
  (xor_fold x y v < 2 ^ 8)%N /\ (xor_fold x y v = 0%N <-> v = 0%N /\ x = y).
Proof.
  assert (Hb : forall a, (byte a < 2 ^ 8)%N) by (intros a; unfold byte; apply N_ascii_bounded).
  induction x as [|a x IH]; intros [|b y] v Hv Hl; try discriminate; cbn [xor_fold].
  - tauto.
  - injection Hl as Hl. destruct (IH y (N.lor v (N.lxor (byte a) (byte b)))) as [H1 H2]; auto.
    { apply lor_lt; auto. apply lxor_lt; auto. }
    split; auto. rewrite H2, N.lor_eq_0_iff, N.lxor_eq_0_iff. split.
    + intros ((-> & Hab) & ->). split; auto. f_equal. unfold byte in Hab.
      rewrite <- (ascii_N_embedding a), <- (ascii_N_embedding b), Hab. reflexivity.
    + intros (-> & X). injection X as -> ->. auto.
Qed.

Lemma ct_eq_ok x y : (x < 2 ^ 32)%N -> (y < 2 ^ 32)%N ->
  constant_time_eq x y = if (x =? y)%N then 1%N else 0%N.
Proof.
  intros Hx Hy. unfold constant_time_eq. rewrite (borrow_bit 64).
  - destruct (N.eqb_spec x y) as [->|H]; [rewrite N.lxor_nilpotent; reflexivity|].
    destruct (N.eqb_spec (N.lxor x y) 0) as [X|X]; auto. rewrite N.lxor_eq_0_iff in X. destruct (H X).
  - reflexivity.
  - eapply N.lt_trans; [apply (lxor_lt 32); auto|]. reflexivity.
Qed.

Lemma ct_compare_ok x y : constant_time_compare x y = if String.eqb x y then 1%N else 0%N.
Proof.
  unfold constant_time_compare. destruct (Nat.eqb_spec (String.length x) (String.length y)) as [Hl|Hl]; cbn [negb].
  - destruct (xor_fold_ok x y 0) as [H1 H2]; auto; [reflexivity|].
    unfold constant_time_byte_eq. rewrite N.lxor_0_r, (borrow_bit 32).
    + destruct (N.eqb_spec (xor_fold x y 0) 0) as [X|X].
      * apply H2 in X as [_ ->]. rewrite String.eqb_refl. reflexivity.
      * destruct (String.eqb_spec x y) as [->|]; auto. destruct X. apply H2. auto.
    + reflexivity.
    + eapply N.lt_trans; [exact H1|reflexivity].
  - destruct (String.eqb_spec x y) as [->|]; auto. destruct Hl; auto.
Qed.

Lemma C39_secure_compare_proof : forall given actual, secure_compare given actual = true <-> given = actual.
Proof.
  intros x y. unfold secure_compare. rewrite !ct_compare_ok.
  assert (Hl : forall s, (len32 s < 2 ^ 32)%N) by (intros s; apply N.mod_lt; discriminate).
  rewrite ct_eq_ok by auto.
  destruct (N.eqb_spec (len32 x) (len32 y)) as [H|H]; cbn [N.eqb].
  - change (1 =? 1)%N with true. destruct (String.eqb_spec x y); [split; auto|]. split; [discriminate|contradiction].
  - change (0 =? 1)%N with false. rewrite String.eqb_refl. change (1 =? 1)%N with true. split; [discriminate|]. intros ->. destruct H; auto.
Qed.
