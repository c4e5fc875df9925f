(** * The codec: what is written is read back, piece by piece (proofs only) *)

From Verif Require Import Wire WireFacts WireFacts2 WireFacts3 SpecWire.
Local Open Scope Z_scope.
Local Open Scope list_scope.

(** ** Bytes *)
Lemma to_N_b8 n : Byte.to_N (b8 n) = (n mod 256)%N.
Proof.
  unfold b8. assert (H : (n mod 256 < 256)%N) by (apply N.mod_lt; discriminate).
  destruct (Byte.of_N (n mod 256)) as [b|] eqn:E.
  - apply Byte.to_of_N. exact E.
  - apply Byte.of_N_None_iff in E. lia.
Qed.

(** ** Varints *)
Lemma lor_add a x sh : (a < 2 ^ sh -> N.lor a (N.shiftl x sh) = a + x * 2 ^ sh)%N.
Proof.
  intros H. assert (Hl : (N.land a (N.shiftl x sh) = 0)%N).
  { destruct (N.eq_dec a 0) as [->|Ha]; [apply N.land_0_l|].
    apply N.bits_inj_0. intros n. rewrite N.land_spec. destruct (N.ltb_spec n sh) as [Hn|Hn].
    - rewrite N.shiftl_spec_low by exact Hn. apply andb_false_r.
    - rewrite N.bits_above_log2; [reflexivity|]. apply N.log2_lt_pow2 in H; lia. }
  rewrite <- N.lxor_lor by exact Hl. rewrite <- N.add_nocarry_lxor by exact Hl. rewrite N.shiftl_mul_pow2. reflexivity.
Qed.
Lemma lor_128 x : (x < 128 -> N.lor x 128 = x + 128)%N.
Proof. intros H. change 128%N with (N.shiftl 1 7) at 1. rewrite lor_add by exact H. reflexivity. Qed.
Lemma land_127 x : (N.land x 127 = x mod 128)%N.
Proof. change 127%N with (N.ones 7). rewrite N.land_ones. reflexivity. Qed.

Lemma varint_go_nonempty n v : (0 < n)%nat -> (0 < List.length (varint_go n v))%nat.
Proof. destruct n; [lia|]. intros _. cbn [varint_go]. destruct (128 <=? v)%N; cbn; lia. Qed.

Lemma byte_at_mid p b e : byte_at (p ++ b :: e) (blen p) = Ok b.
Proof.
  apply byte_at_ok. pose proof (blen_nonneg p). split; [lia|]. unfold blen. rewrite Nat2Z.id.
  rewrite nth_error_app2, Nat.sub_diag by lia. reflexivity.
Qed.

Lemma varint_loop_go n : forall p v e sh acc, (0 < n)%nat -> (v < 2 ^ (7 * N.of_nat n))%N ->
  (acc < 2 ^ sh)%N -> (acc + v * 2 ^ sh < 2 ^ 64)%N ->
  varint_loop n (p ++ varint_go n v ++ e) (blen p) sh acc = Ok ((acc + v * 2 ^ sh)%N, blen p + blen (varint_go n v)).
Proof.
  induction n as [|n IH]; intros p v e sh acc Hn Hv Ha Hs; [lia|]. cbn [varint_loop varint_go].
  set (b := if (128 <=? v)%N then _ else _).
  assert (Hb : exists h t, b = h :: t) by (unfold b; destruct (128 <=? v)%N; eauto). destruct Hb as (h & t & Eb).
  destruct (Z.leb_spec (blen (p ++ b ++ e)) (blen p)) as [Hl|_].
  { rewrite Eb, !blen_app, blen_cons in Hl. pose proof (blen_nonneg e). pose proof (blen_nonneg t). lia. }
  rewrite Eb. cbn [app]. rewrite byte_at_mid. cbn [rbind]. rewrite <- Eb. cbv zeta.
  assert (Hp2 : (0 < 2 ^ sh)%N) by (apply N.neq_0_lt_0, N.pow_nonzero; discriminate).
  unfold b in Eb |- *. clear b. destruct (N.leb_spec 128 v) as [Hge|Hlt]; injection Eb as <- <-.
  - rewrite (land_127 v), (lor_128 (v mod 128)) by (apply N.mod_lt; discriminate).
    rewrite to_N_b8. assert (Hm : (v mod 128 < 128)%N) by (apply N.mod_lt; discriminate).
    rewrite (N.mod_small (v mod 128 + 128) 256) by lia.
    change (N.div2 (N.div2 (N.div2 (N.div2 (N.div2 (N.div2 (N.div2 v))))))) with (N.shiftr v 7).
    rewrite (proj2 (N.ltb_ge (v mod 128 + 128) 128)) by apply N.le_add_l.
    rewrite land_127. replace ((v mod 128 + 128) mod 128)%N with (v mod 128)%N.
    2:{ replace (v mod 128 + 128)%N with (v mod 128 + 1 * 128)%N by lia. rewrite N.mod_add by discriminate.
        rewrite N.mod_mod by discriminate. reflexivity. }
    pose proof (N.div_mod v 128 ltac:(discriminate)) as Hdm.
    assert (Hle : (v mod 128 * 2 ^ sh <= v * 2 ^ sh)%N) by (apply N.mul_le_mono_r; apply N.mod_le; discriminate).
    rewrite (N.mod_small (N.shiftl (v mod 128) sh))
      by (rewrite N.shiftl_mul_pow2; clear - Hle Hs; eapply N.le_lt_trans; [exact Hle|]; eapply N.le_lt_trans; [|exact Hs]; apply N.le_add_l).
    rewrite lor_add by exact Ha.
    rewrite N.shiftr_div_pow2. change (2 ^ 7)%N with 128%N.
    assert (Hpow : (2 ^ (sh + 7) = 128 * 2 ^ sh)%N) by (rewrite N.pow_add_r; change (2 ^ 7)%N with 128%N; lia).
    assert (Hsum : (acc + v mod 128 * 2 ^ sh + v / 128 * 2 ^ (sh + 7) = acc + v * 2 ^ sh)%N).
    { rewrite Hpow. rewrite Hdm at 3. lia. }
    change (b8 (v mod 128 + 128) :: varint_go n (v / 128) ++ e)
      with ([b8 (v mod 128 + 128)%N] ++ varint_go n (v / 128) ++ e).
    rewrite app_assoc. replace (blen p + 1) with (blen (p ++ [b8 (v mod 128 + 128)%N])) by (rewrite blen_app; reflexivity).
    assert (Hv' : (v / 128 < 2 ^ (7 * N.of_nat n))%N).
    { apply N.div_lt_upper_bound; [discriminate|]. change 128%N with (2 ^ 7)%N. rewrite <- N.pow_add_r.
      replace (7 + 7 * N.of_nat n)%N with (7 * N.of_nat (S n))%N by lia. exact Hv. }
    rewrite IH.
    + rewrite Hsum. f_equal. f_equal. rewrite blen_app, blen_cons, blen_nil. rewrite blen_cons. lia.
    + destruct n; [|lia]. cbn in Hv'. assert (1 <= v / 128)%N by (apply N.div_le_lower_bound; lia). lia.
    + exact Hv'.
    + rewrite Hpow. nia.
    + rewrite Hsum. exact Hs.
  - rewrite to_N_b8, (N.mod_small v 256) by lia. destruct (N.ltb_spec v 128); [|lia].
    rewrite land_127, (N.mod_small v 128) by lia. rewrite N.mod_small by (rewrite N.shiftl_mul_pow2; lia).
    rewrite lor_add by exact Ha. rewrite blen_cons, blen_nil. reflexivity.
Qed.
Lemma read_varint_encode p v e : (v < 2 ^ 64)%N ->
  read_varint (p ++ encode_varint v ++ e) (blen p) = Ok (v, blen p + blen (encode_varint v)).
Proof.
  intros Hv. unfold read_varint, encode_varint. rewrite varint_loop_go.
  - rewrite N.mul_1_r, N.add_0_l. reflexivity.
  - lia.
  - eapply N.lt_le_trans; [exact Hv|]. apply N.pow_le_mono_r; [discriminate|]. cbn. discriminate.
  - reflexivity.
  - rewrite N.mul_1_r, N.add_0_l. exact Hv.
Qed.
Lemma read_varint_encode0 v e : (v < 2 ^ 64)%N -> read_varint (encode_varint v ++ e) 0 = Ok (v, blen (encode_varint v)).
Proof. intros Hv. apply (read_varint_encode [] v e Hv). Qed.

Lemma sov_small v : (v < 128)%N -> sov v = 1%N.
Proof.
  intros H. unfold sov. rewrite N.size_log2 by (intros E; apply N.lor_eq_0_iff in E as [_ E]; discriminate E).
  rewrite N.log2_lor. change (N.log2 1) with 0%N. rewrite N.max_0_r.
  assert (N.log2 v < 7)%N.
  { destruct (N.eq_dec v 0) as [->|Hv]; [reflexivity|]. apply N.log2_lt_pow2; [lia|]. exact H. }
  assert (E : ((N.succ (N.log2 v) + 6) / 7 = 1)%N).
  { symmetry. apply (N.div_unique _ 7 1 (N.log2 v)); lia. }
  exact E.
Qed.
Lemma sov_large v : (128 <= v)%N -> sov v = (1 + sov (N.shiftr v 7))%N.
Proof.
  intros H. unfold sov.
  rewrite (N.size_log2 (N.lor v 1)) by (intros E; apply N.lor_eq_0_iff in E as [_ E]; discriminate E).
  rewrite (N.size_log2 (N.lor (N.shiftr v 7) 1)) by (intros E; apply N.lor_eq_0_iff in E as [_ E]; discriminate E).
  rewrite !N.log2_lor. change (N.log2 1) with 0%N. rewrite !N.max_0_r. rewrite N.log2_shiftr.
  assert (7 <= N.log2 v)%N. { apply N.log2_le_pow2; [lia|]. exact H. }
  replace (N.succ (N.log2 v) + 6)%N with (N.succ (N.log2 v - 7) + 6 + 1 * 7)%N by lia.
  rewrite N.div_add by discriminate. lia.
Qed.
Lemma varint_go_length n : forall v, (0 < n)%nat -> (v < 2 ^ (7 * N.of_nat n))%N -> N.of_nat (List.length (varint_go n v)) = sov v.
Proof.
  induction n as [|n IH]; intros v Hn Hv; [lia|]. cbn [varint_go]. destruct (N.leb_spec 128 v) as [Hge|Hlt].
  - cbn [List.length]. rewrite sov_large by exact Hge.
    assert (Hv' : (N.shiftr v 7 < 2 ^ (7 * N.of_nat n))%N).
    { rewrite N.shiftr_div_pow2. apply N.div_lt_upper_bound; [discriminate|]. rewrite <- N.pow_add_r.
      replace (7 + 7 * N.of_nat n)%N with (7 * N.of_nat (S n))%N by lia. exact Hv. }
    rewrite <- IH; [lia| |exact Hv'].
    destruct n; [|lia]. change (2 ^ (7 * N.of_nat 0))%N with 1%N in Hv'. rewrite N.shiftr_div_pow2 in Hv'. change (2 ^ 7)%N with 128%N in Hv'.
    assert (1 <= v / 128)%N by (apply N.div_le_lower_bound; lia). lia.
  - rewrite sov_small by exact Hlt. reflexivity.
Qed.
Lemma encode_varint_length v : (v < 2 ^ 64)%N -> N.of_nat (List.length (encode_varint v)) = sov v.
Proof.
  intros Hv. apply varint_go_length; [lia|]. eapply N.lt_le_trans; [exact Hv|]. apply N.pow_le_mono_r; [discriminate|]. cbn. discriminate.
Qed.
Lemma blen_encode_varint v : 0 < blen (encode_varint v).
Proof. unfold blen, encode_varint. pose proof (varint_go_nonempty 10 v ltac:(lia)). lia. Qed.

(** ** Length-delimited *)
Lemma fits_app_l a b : fits (a ++ b) -> fits a.
Proof. unfold fits. rewrite blen_app. pose proof (blen_nonneg b). lia. Qed.
Lemma fits_u64 s : fits s -> (N.of_nat (List.length s) < 2 ^ 64)%N.
Proof. unfold fits, blen. intros H. assert (2 ^ 62 < Z.of_N (2 ^ 64)) by (cbn; lia). lia. Qed.
Lemma fits_int64 s : fits s -> int64 (Z.of_N (N.of_nat (List.length s))) = blen s.
Proof. intros H. rewrite nat_N_Z. apply int64_id. unfold fits in H. pose proof (blen_nonneg s). fold (blen s). lia. Qed.
Lemma put_bytes_fits s : fits (put_bytes s) -> fits s.
Proof. apply fits_end. Qed.
Lemma blen_put_bytes s : blen (put_bytes s) = blen (encode_varint (N.of_nat (List.length s))) + blen s.
Proof. apply blen_app. Qed.

Lemma read_span_put p s e : fits (p ++ put_bytes s ++ e) ->
  read_span (p ++ put_bytes s ++ e) (blen p) = Ok (blen p + blen (encode_varint (N.of_nat (List.length s))), blen p + blen (put_bytes s)).
Proof.
  intros Hf. pose proof (put_bytes_fits _ (fits_mid _ _ _ Hf)) as Hs. pose proof (blen_nonneg p).
  pose proof (read_varint_encode p (N.of_nat (List.length s)) (s ++ e) (fits_u64 _ Hs)) as Hr.
  rewrite (app_assoc (encode_varint _)) in Hr. fold (put_bytes s) in Hr.
  rewrite (read_span_intro _ _ _ _ Hf (blen_nonneg p) Hr).
  - rewrite fits_int64 by exact Hs. rewrite blen_put_bytes. f_equal. f_equal. lia.
  - rewrite fits_int64 by exact Hs. apply blen_nonneg.
  - rewrite fits_int64 by exact Hs. rewrite !blen_app, blen_put_bytes. pose proof (blen_nonneg e). lia.
Qed.
Lemma read_bytes_put p s e : fits (p ++ put_bytes s ++ e) ->
  read_bytes (p ++ put_bytes s ++ e) (blen p) = Ok (s, blen p + blen (put_bytes s)).
Proof.
  intros Hf. rewrite read_bytes_span, read_span_put by exact Hf. cbn [rbind].
  pose proof (slice_mid (p ++ encode_varint (N.of_nat (List.length s))) s e) as E.
  rewrite blen_app in E. rewrite blen_put_bytes. rewrite Z.add_assoc.
  replace (p ++ put_bytes s ++ e) with ((p ++ encode_varint (N.of_nat (List.length s))) ++ s ++ e)
    by (unfold put_bytes; rewrite <- !app_assoc; reflexivity).
  rewrite E. reflexivity.
Qed.
Lemma read_bytes_put0 s : fits (put_bytes s) -> read_bytes (put_bytes s) 0 = Ok (s, blen (put_bytes s)).
Proof.
  intros Hf. pose proof (read_bytes_put [] s []) as E. cbn [app] in E. rewrite app_nil_r in E.
  change (blen []) with 0 in E. rewrite !Z.add_0_l in E. exact (E Hf).
Qed.

(** ** Numbers *)
Lemma le_bytes_length n : forall v, List.length (le_bytes n v) = n.
Proof. induction n; intros v; cbn; [reflexivity|]. rewrite IHn. reflexivity. Qed.
Lemma le_value_bytes n : forall v, (v < 2 ^ (8 * N.of_nat n))%N -> le_value (le_bytes n v) = v.
Proof.
  induction n as [|n IH]; intros v Hv; cbn [le_bytes le_value].
  - change (2 ^ (8 * N.of_nat 0))%N with 1%N in Hv. lia.
  - rewrite IH.
    + rewrite to_N_b8, N.shiftr_div_pow2. change (2 ^ 8)%N with 256%N. pose proof (N.div_mod v 256 ltac:(discriminate)). lia.
    + rewrite N.shiftr_div_pow2. apply N.div_lt_upper_bound; [discriminate|]. rewrite <- N.pow_add_r.
      replace (8 + 8 * N.of_nat n)%N with (8 * N.of_nat (S n))%N by lia. exact Hv.
Qed.
Lemma le_value_bound d : (le_value d < 2 ^ (8 * N.of_nat (List.length d)))%N.
Proof.
  induction d as [|b d IH]; [reflexivity|]. cbn [le_value List.length].
  replace (8 * N.of_nat (S (List.length d)))%N with (8 + 8 * N.of_nat (List.length d))%N by lia.
  rewrite N.pow_add_r. change (2 ^ 8)%N with 256%N. pose proof (Byte.to_N_bounded b). lia.
Qed.

Lemma uint64_bound z : (uint64 z < 2 ^ 64)%N.
Proof.
  unfold uint64. pose proof (Z.mod_pos_bound z (2 ^ 64) ltac:(lia)).
  assert (Z.of_N (2 ^ 64) = 2 ^ 64) by reflexivity. lia.
Qed.
Lemma of_N_uint64 z : Z.of_N (uint64 z) = z mod 2 ^ 64.
Proof. unfold uint64. pose proof (Z.mod_pos_bound z (2 ^ 64) ltac:(lia)). lia. Qed.
Lemma of_to_wire k z : in_range k z -> k <> NBool -> of_wire k (to_wire k z) = z.
Proof.
  intros H Hk. destruct k; [congruence| | |]; cbn [of_wire to_wire in_range] in *; unfold to_wire; rewrite of_N_uint64.
  - unfold int32.
    assert (E : (z mod 2 ^ 64 + 2 ^ 31) mod 2 ^ 32 = z + 2 ^ 31).
    { symmetry. destruct (Z_lt_ge_dec z 0) as [Hneg|Hpos].
      - apply (Z.mod_unique_pos _ (2 ^ 32) (2 ^ 32)); [lia|].
        replace (z mod 2 ^ 64) with (z + 2 ^ 64); [lia|]. apply (Z.mod_unique_pos _ (2 ^ 64) (-1)); lia.
      - apply (Z.mod_unique_pos _ (2 ^ 32) 0); [lia|]. rewrite (Z.mod_small z) by lia. lia. }
    rewrite E. lia.
  - apply Z.mod_small. lia.
  - apply Z.mod_small. lia.
Qed.
Lemma of_wire_range k v : (v < 2 ^ 64)%N -> in_range k (of_wire k v).
Proof.
  intros H. assert (E : Z.of_N (2 ^ 64) = 2 ^ 64) by reflexivity. destruct k; cbn [of_wire in_range].
  - destruct (v =? 0)%N; auto.
  - unfold int32. pose proof (Z.mod_pos_bound (Z.of_N v + 2 ^ 31) (2 ^ 32) ltac:(lia)). lia.
  - lia.
  - lia.
Qed.
Lemma read_num_range k d i z j : fits d -> 0 <= i -> read_num k d i = Ok (z, j) -> in_range k z.
Proof.
  intros Hd Hi H. unfold read_num in H. rb H. destruct a as [v j']. injection H as <- _. apply of_wire_range.
  destruct k; try (eapply read_varint_bound; exact Hr).
  apply read_fixed64_inv in Hr as (s & -> & _ & Hs & ->); [|assumption..].
  pose proof (le_value_bound s) as Hb. apply slice_len in Hs. unfold blen in Hs.
  replace (N.of_nat (List.length s)) with 8%N in Hb by lia. exact Hb.
Qed.
Lemma read_num_put k z : in_range k z -> read_num k (put_num k z) 0 = Ok (z, blen (put_num k z)).
Proof.
  intros H. unfold read_num. destruct k; cbn [put_num].
  - destruct H as [->| ->]; reflexivity.
  - pose proof (read_varint_encode0 (to_wire NEnum z) [] (uint64_bound z)) as E. rewrite app_nil_r in E. rewrite E.
    cbn [rbind]. rewrite of_to_wire by (assumption || discriminate). reflexivity.
  - pose proof (read_varint_encode0 (to_wire NUint64 z) [] (uint64_bound z)) as E. rewrite app_nil_r in E. rewrite E.
    cbn [rbind]. rewrite of_to_wire by (assumption || discriminate). reflexivity.
  - set (s := le_bytes 8 (to_wire NFixed64 z)).
    assert (Hl : blen s = 8) by (unfold blen, s; rewrite le_bytes_length; reflexivity).
    assert (Hf : fits s) by (unfold fits; rewrite Hl; lia).
    assert (Hs : slice s 0 (0 + 8) = Ok s) by (change (0 + 8) with 8; rewrite <- Hl; apply slice_all).
    rewrite (read_fixed64_intro s 0 s Hf ltac:(lia) Hs). cbn [rbind]. rewrite Hl. unfold s.
    rewrite le_value_bytes by apply uint64_bound. rewrite of_to_wire by (assumption || discriminate). reflexivity.
Qed.

(** ** Maps *)
Definition entry_body (kv : bytes * bytes) : bytes := b8 10 :: put_bytes (fst kv) ++ b8 18 :: put_bytes (snd kv).
Lemma read_small p v e : (v < 128)%N -> read_varint (p ++ b8 v :: e) (blen p) = Ok (v, blen p + 1).
Proof.
  intros H. pose proof (read_varint_encode p v e) as E.
  assert (Ev : encode_varint v = [b8 v]).
  { unfold encode_varint. cbn [varint_go]. destruct (N.leb_spec 128 v); [lia|reflexivity]. }
  rewrite Ev in E. cbn [app] in E. rewrite E by lia. reflexivity.
Qed.
Lemma read_entry_put p kv e : fits (p ++ entry_body kv ++ e) ->
  entry (p ++ entry_body kv ++ e) (blen p) (blen p + blen (entry_body kv)) = Ok kv.
Proof.
  intros Hf. destruct kv as [k v]. set (d := p ++ entry_body (k, v) ++ e) in *.
  pose proof (blen_nonneg p) as Hp. pose proof (blen_nonneg e) as He.
  assert (Hbl : blen (entry_body (k, v)) = 1 + blen (put_bytes k) + 1 + blen (put_bytes v)).
  { unfold entry_body. cbn [fst snd]. rewrite blen_cons, blen_app, blen_cons. lia. }
  pose proof (blen_nonneg (put_bytes k)) as Hk. pose proof (blen_nonneg (put_bytes v)) as Hv.
  apply (entry_any 3).
  - exact Hf.
  - unfold d. rewrite !blen_app. lia.
  - unfold d. rewrite !blen_app. lia.
  - rewrite read_entry_S. destruct (Z.leb_spec (blen p + blen (entry_body (k, v))) (blen p)); [lia|].
    assert (E1 : d = p ++ b8 10 :: (put_bytes k ++ b8 18 :: put_bytes v ++ e)).
    { unfold d, entry_body. cbn [fst snd app]. rewrite <- app_assoc. reflexivity. }
    assert (R1 : read_varint d (blen p) = Ok (10%N, blen p + 1)) by (rewrite E1; apply read_small; reflexivity).
    rewrite R1. cbn [rbind]. cbv zeta. change (int32 (Z.of_N (10 / 8))) with 1. cbn [Z.eqb Pos.eqb].
    assert (E2 : d = (p ++ [b8 10]) ++ put_bytes k ++ (b8 18 :: put_bytes v ++ e)).
    { rewrite E1, <- app_assoc. reflexivity. }
    assert (Hl2 : blen (p ++ [b8 10]) = blen p + 1) by (rewrite blen_app; reflexivity).
    assert (R2 : read_bytes d (blen p + 1) = Ok (k, blen p + 1 + blen (put_bytes k))).
    { rewrite E2, <- Hl2. apply read_bytes_put. rewrite <- E2. exact Hf. }
    rewrite R2. cbn [rbind]. rewrite read_entry_S. rewrite Hbl.
    destruct (Z.leb_spec (blen p + (1 + blen (put_bytes k) + 1 + blen (put_bytes v))) (blen p + 1 + blen (put_bytes k))); [lia|].
    assert (E3 : d = (p ++ [b8 10] ++ put_bytes k) ++ b8 18 :: (put_bytes v ++ e)).
    { rewrite E2, <- !app_assoc. reflexivity. }
    assert (Hl3 : blen (p ++ [b8 10] ++ put_bytes k) = blen p + 1 + blen (put_bytes k)) by (rewrite !blen_app; change (blen [b8 10]) with 1; try change (blen [b8 18]) with 1; lia).
    assert (R3 : read_varint d (blen p + 1 + blen (put_bytes k)) = Ok (18%N, blen p + 1 + blen (put_bytes k) + 1)).
    { rewrite <- Hl3, E3. apply read_small. reflexivity. }
    rewrite R3. cbn [rbind]. cbv zeta. change (int32 (Z.of_N (18 / 8))) with 2. cbn [Z.eqb Pos.eqb].
    assert (E4 : d = (p ++ [b8 10] ++ put_bytes k ++ [b8 18]) ++ put_bytes v ++ e).
    { rewrite E3, <- !app_assoc. reflexivity. }
    assert (Hl4 : blen (p ++ [b8 10] ++ put_bytes k ++ [b8 18]) = blen p + 1 + blen (put_bytes k) + 1) by (rewrite !blen_app; change (blen [b8 10]) with 1; try change (blen [b8 18]) with 1; lia).
    assert (R4 : read_bytes d (blen p + 1 + blen (put_bytes k) + 1) = Ok (v, blen p + 1 + blen (put_bytes k) + 1 + blen (put_bytes v))).
    { rewrite <- Hl4, E4. apply read_bytes_put. rewrite <- E4. exact Hf. }
    rewrite R4. cbn [rbind]. rewrite read_entry_S.
    destruct (Z.leb_spec (blen p + (1 + blen (put_bytes k) + 1 + blen (put_bytes v)))
                (blen p + 1 + blen (put_bytes k) + 1 + blen (put_bytes v))); [reflexivity|lia].
Qed.
Lemma read_map_put l kv : fits (put_bytes (entry_body kv)) ->
  read_map l (put_bytes (entry_body kv)) 0 = Ok (FMap (map_put l (fst kv) (snd kv)), blen (put_bytes (entry_body kv))).
Proof.
  intros Hf. unfold read_map. pose proof (read_span_put [] (entry_body kv) []) as E. cbn [app] in E. rewrite app_nil_r in E.
  change (blen []) with 0 in E. rewrite !Z.add_0_l in E. rewrite (E Hf). cbn [rbind]. clear E.
  pose proof (read_entry_put (encode_varint (N.of_nat (List.length (entry_body kv)))) kv []) as E.
  rewrite app_nil_r in E. rewrite blen_put_bytes. unfold put_bytes in *. rewrite (E Hf). cbn [rbind].
  destruct kv; reflexivity.
Qed.
Lemma map_put_new l k v : ~ In k (map fst l) -> map_put l k v = l ++ [(k, v)].
Proof.
  induction l as [|[k' v'] l IH]; intros H; [reflexivity|]. cbn [map_put]. unfold bytes_eqb.
  destruct (list_eq_dec Byte.byte_eq_dec k' k) as [->|Hne]. { exfalso. apply H. left. reflexivity. }
  rewrite IH; [reflexivity|]. intros Hin. apply H. right. exact Hin.
Qed.
Lemma map_put_keys l k v x : In x (map fst (map_put l k v)) -> In x (map fst l) \/ x = k.
Proof.
  induction l as [|[k' v'] l IH]; cbn [map_put].
  - cbn. intros [H|[]]; auto.
  - unfold bytes_eqb. destruct (list_eq_dec Byte.byte_eq_dec k' k) as [->|Hne]; cbn; intros [H|H]; auto.
    apply IH in H as [H|H]; auto.
Qed.
Lemma map_put_nodup l k v : NoDup (map fst l) -> NoDup (map fst (map_put l k v)).
Proof.
  induction l as [|[k' v'] l IH]; cbn [map_put]; intros H.
  - repeat constructor. intros [].
  - inversion H as [|? ? Hn Hd]; subst. unfold bytes_eqb. destruct (list_eq_dec Byte.byte_eq_dec k' k) as [->|Hne]; cbn.
    + exact H.
    + constructor; [|apply IH; exact Hd]. intros Hin. apply map_put_keys in Hin as [Hin| ->]; [exact (Hn Hin)|congruence].
Qed.
