(** * The codec: readers depend on the bytes they read only (proofs only) *)

From Verif Require Import Wire.
Local Open Scope Z_scope.
Local Open Scope list_scope.

Definition fits (d : bytes) : Prop := blen d < 2 ^ 62.

Lemma blen_app d e : blen (d ++ e) = blen d + blen e.
Proof. unfold blen. rewrite app_length. lia. Qed.
Lemma blen_nonneg d : 0 <= blen d.
Proof. unfold blen. lia. Qed.
Lemma blen_nil : blen [] = 0.
Proof. reflexivity. Qed.
Lemma blen_cons b d : blen (b :: d) = 1 + blen d.
Proof. unfold blen. cbn [List.length]. lia. Qed.

Lemma rbind_ok {A B} (r : res A) (k : A -> res B) b :
  rbind r k = Ok b <-> exists a, r = Ok a /\ k a = Ok b.
Proof.
  split.
  - destruct r; cbn; intros H; try discriminate. eauto.
  - intros [a [-> H]]. exact H.
Qed.

Ltac rb H := apply rbind_ok in H; let a := fresh "a" in let H1 := fresh "Hr" in destruct H as [a [H1 H]].

Lemma int64_id z : - 2 ^ 63 <= z < 2 ^ 63 -> int64 z = z.
Proof. intros H. unfold int64. rewrite Z.mod_small; lia. Qed.
Lemma int64_range z : - 2 ^ 63 <= int64 z < 2 ^ 63.
Proof. unfold int64. pose proof (Z.mod_pos_bound (z + 2 ^ 63) (2 ^ 64)). lia. Qed.
Lemma int64_sum i n : 0 <= i < 2 ^ 63 -> 0 <= n < 2 ^ 63 -> 0 <= int64 (i + n) -> int64 (i + n) = i + n /\ i + n < 2 ^ 63.
Proof.
  intros Hi Hn H. destruct (Z_lt_ge_dec (i + n) (2 ^ 63)) as [Hl|Hg].
  - split; [apply int64_id; lia|exact Hl].
  - exfalso. unfold int64 in H.
    replace (i + n + 2 ^ 63) with ((i + n - 2 ^ 63) + 1 * 2 ^ 64) in H by lia.
    rewrite Z.mod_add in H by lia. rewrite Z.mod_small in H by lia. lia.
Qed.

(** ** Single bytes and slices in a context *)
Lemma byte_at_ok d i b : byte_at d i = Ok b <-> 0 <= i /\ nth_error d (Z.to_nat i) = Some b.
Proof.
  unfold byte_at. destruct (Z.ltb_spec i 0) as [H|H].
  - split; [discriminate|lia].
  - destruct (nth_error d (Z.to_nat i)); split.
    + intros E. injection E as ->. auto.
    + intros [_ E]. injection E as ->. reflexivity.
    + discriminate.
    + intros [_ E]. discriminate E.
Qed.
Lemma byte_at_bound d i b : byte_at d i = Ok b -> 0 <= i < blen d.
Proof.
  intros H. apply byte_at_ok in H as [H1 H2].
  assert (Hn : nth_error d (Z.to_nat i) <> None) by congruence.
  apply nth_error_Some in Hn. unfold blen. lia.
Qed.
Lemma byte_at_in p d e i : 0 <= i < blen d -> byte_at (p ++ d ++ e) (blen p + i) = byte_at d i.
Proof.
  intros H. unfold byte_at, blen in *.
  destruct (Z.ltb_spec (Z.of_nat (List.length p) + i) 0); [lia|]. destruct (Z.ltb_spec i 0); [lia|].
  rewrite nth_error_app2 by lia. replace (Z.to_nat (Z.of_nat (List.length p) + i) - List.length p)%nat with (Z.to_nat i) by lia.
  rewrite nth_error_app1 by lia. reflexivity.
Qed.
Lemma byte_at_total d i : 0 <= i < blen d -> exists b, byte_at d i = Ok b.
Proof.
  intros H. unfold byte_at. destruct (Z.ltb_spec i 0); [lia|].
  destruct (nth_error d (Z.to_nat i)) eqn:E; [eauto|].
  apply nth_error_None in E. unfold blen in H. lia.
Qed.

Lemma slice_ok d i j s : slice d i j = Ok s <->
  0 <= i /\ i <= j /\ j <= blen d /\ s = firstn (Z.to_nat (j - i)) (skipn (Z.to_nat i) d).
Proof.
  unfold slice. destruct ((0 <=? i) && (i <=? j) && (j <=? blen d)) eqn:E.
  - apply andb_prop in E as [E E3]. apply andb_prop in E as [E1 E2].
    apply Z.leb_le in E1, E2, E3. split.
    + intros H. injection H as <-. auto.
    + intros (_ & _ & _ & ->). reflexivity.
  - split; [discriminate|]. intros (H1 & H2 & H3 & _). exfalso.
    apply Z.leb_le in H1, H2, H3. rewrite H1, H2, H3 in E. discriminate E.
Qed.
Lemma slice_len d i j s : slice d i j = Ok s -> blen s = j - i.
Proof.
  intros H. apply slice_ok in H as (H1 & H2 & H3 & ->). unfold blen in *.
  rewrite firstn_length, skipn_length. lia.
Qed.
Lemma slice_in p d e i j s : slice d i j = Ok s -> slice (p ++ d ++ e) (blen p + i) (blen p + j) = Ok s.
Proof.
  intros H. apply slice_ok in H as (H1 & H2 & H3 & ->). apply slice_ok.
  pose proof (blen_nonneg p). pose proof (blen_nonneg e). rewrite !blen_app. repeat split; try lia.
  unfold blen in *. rewrite skipn_app. rewrite (skipn_all2 p) by lia. rewrite app_nil_l.
  replace (Z.to_nat (Z.of_nat (List.length p) + i) - List.length p)%nat with (Z.to_nat i) by lia.
  replace (Z.of_nat (List.length p) + j - (Z.of_nat (List.length p) + i)) with (j - i) by lia.
  rewrite skipn_app, firstn_app, skipn_length.
  replace (Z.to_nat (j - i) - (List.length d - Z.to_nat i))%nat with 0%nat by lia.
  cbn [firstn]. rewrite app_nil_r. reflexivity.
Qed.
Lemma slice_out p d i j s : 0 <= i -> slice (p ++ d) (blen p + i) j = Ok s -> slice d i (j - blen p) = Ok s.
Proof.
  intros Hi H. apply slice_ok in H as (H1 & H2 & H3 & ->). apply slice_ok.
  rewrite blen_app in H3. repeat split; try lia.
  unfold blen in *. rewrite skipn_app. rewrite (skipn_all2 p) by lia. rewrite app_nil_l.
  replace (Z.to_nat (Z.of_nat (List.length p) + i) - List.length p)%nat with (Z.to_nat i) by lia.
  f_equal. lia.
Qed.
Lemma slice_all d : slice d 0 (blen d) = Ok d.
Proof.
  apply slice_ok. pose proof (blen_nonneg d). repeat split; try lia.
  rewrite Z.sub_0_r. unfold blen. rewrite Nat2Z.id. cbn [Z.to_nat skipn]. symmetry. apply firstn_all.
Qed.
Lemma slice_mid p s e : slice (p ++ s ++ e) (blen p) (blen p + blen s) = Ok s.
Proof. pose proof (slice_in p s e 0 (blen s) s (slice_all s)) as H. rewrite Z.add_0_r in H. exact H. Qed.

(** ** Readers *)
Definition reader A := bytes -> Z -> res (A * Z).

(** Success moves forward, within the data. *)
Definition moves_on {A} (R : reader A) : Prop :=
  forall d i x j, fits d -> 0 <= i -> R d i = Ok (x, j) -> i < j <= blen d.
(** A successful read is the same inside a longer text. *)
Definition extends {A} (R : reader A) : Prop :=
  forall p d e i x j, fits (p ++ d ++ e) -> 0 <= i -> R d i = Ok (x, j) ->
    R (p ++ d ++ e) (blen p + i) = Ok (x, blen p + j).
(** And it does not look at what is before. *)
Definition retracts {A} (R : reader A) : Prop :=
  forall p d i x j, fits (p ++ d) -> 0 <= i -> R (p ++ d) (blen p + i) = Ok (x, j) ->
    R d i = Ok (x, j - blen p).

Lemma fits_mid p d e : fits (p ++ d ++ e) -> fits d.
Proof. unfold fits. rewrite !blen_app. pose proof (blen_nonneg p). pose proof (blen_nonneg e). lia. Qed.
Lemma fits_end p d : fits (p ++ d) -> fits d.
Proof. unfold fits. rewrite !blen_app. pose proof (blen_nonneg p). lia. Qed.

Lemma varint_loop_moves fuel : forall d i sh acc v j, 0 <= i ->
  varint_loop fuel d i sh acc = Ok (v, j) -> i < j <= blen d.
Proof.
  induction fuel as [|n IH]; intros d i sh acc v j Hi H; cbn [varint_loop] in H; [discriminate H|].
  destruct (Z.leb_spec (blen d) i); [discriminate H|]. rb H.
  destruct (_ <? 128)%N; [injection H as _ <-; lia|]. apply IH in H; lia.
Qed.
Lemma varint_loop_ext fuel p e : forall d i sh acc v j, 0 <= i ->
  varint_loop fuel d i sh acc = Ok (v, j) -> varint_loop fuel (p ++ d ++ e) (blen p + i) sh acc = Ok (v, blen p + j).
Proof.
  induction fuel as [|n IH]; intros d i sh acc v j Hi H; cbn [varint_loop] in *; [discriminate H|].
  destruct (Z.leb_spec (blen d) i) as [|Hl]; [discriminate H|].
  destruct (Z.leb_spec (blen (p ++ d ++ e)) (blen p + i)) as [Hb|_].
  { rewrite !blen_app in Hb. pose proof (blen_nonneg e). lia. }
  rewrite byte_at_in by lia. rb H. rewrite Hr. cbn [rbind].
  destruct (_ <? 128)%N.
  - injection H as <- <-. f_equal. f_equal. lia.
  - apply (IH d (i + 1)) in H; [|lia]. rewrite <- H. f_equal. lia.
Qed.
Lemma varint_loop_ret fuel p : forall d i sh acc v j, 0 <= i ->
  varint_loop fuel (p ++ d) (blen p + i) sh acc = Ok (v, j) -> varint_loop fuel d i sh acc = Ok (v, j - blen p).
Proof.
  induction fuel as [|n IH]; intros d i sh acc v j Hi H; cbn [varint_loop] in *; [discriminate H|].
  destruct (Z.leb_spec (blen (p ++ d)) (blen p + i)) as [|Hl]; [discriminate H|]. rewrite blen_app in Hl.
  destruct (Z.leb_spec (blen d) i) as [Hb|_]; [lia|].
  rewrite <- (app_nil_r d) in H at 1. rewrite byte_at_in in H by lia. rb H. rewrite Hr. cbn [rbind].
  destruct (_ <? 128)%N.
  - injection H as <- <-. f_equal. f_equal. lia.
  - apply IH; [lia|]. rewrite <- H. f_equal. lia.
Qed.

Lemma lor_bound a b n : (a < 2 ^ n -> b < 2 ^ n -> N.lor a b < 2 ^ n)%N.
Proof.
  intros Ha Hb. destruct (N.eq_dec (N.lor a b) 0) as [->|Hne].
  - apply N.neq_0_lt_0. apply N.pow_nonzero. discriminate.
  - apply N.log2_lt_pow2; [lia|]. rewrite N.log2_lor.
    destruct (N.eq_dec a 0) as [->|Ha0]; destruct (N.eq_dec b 0) as [->|Hb0].
    + exfalso. apply Hne. reflexivity.
    + rewrite N.max_r by (cbn; lia). apply N.log2_lt_pow2; lia.
    + rewrite N.max_l by (cbn; lia). apply N.log2_lt_pow2; lia.
    + apply N.max_lub_lt; apply N.log2_lt_pow2; lia.
Qed.
Lemma varint_loop_bound fuel : forall d i sh acc v j, (acc < 2 ^ 64)%N ->
  varint_loop fuel d i sh acc = Ok (v, j) -> (v < 2 ^ 64)%N.
Proof.
  induction fuel as [|n IH]; intros d i sh acc v j Ha H; cbn [varint_loop] in H; [discriminate H|].
  destruct (blen d <=? i); [discriminate H|]. rb H.
  assert (Hb : (N.lor acc (N.shiftl (N.land (Byte.to_N a) 127) sh mod 2 ^ 64) < 2 ^ 64)%N).
  { apply lor_bound; [exact Ha|]. apply N.mod_lt. discriminate. }
  destruct (_ <? 128)%N; [injection H as <- _; exact Hb|]. eapply IH; [exact Hb|exact H].
Qed.
Lemma varint_loop_total fuel : forall d i sh acc, 0 <= i ->
  match varint_loop fuel d i sh acc with Panics | Hangs => False | _ => True end.
Proof.
  induction fuel as [|n IH]; intros d i sh acc Hi; cbn [varint_loop]; [exact I|].
  destruct (Z.leb_spec (blen d) i); [exact I|].
  destruct (byte_at_total d i) as [b ->]; [lia|]. cbn [rbind]. destruct (_ <? 128)%N; [exact I|]. apply IH. lia.
Qed.

Lemma read_varint_moves : moves_on read_varint.
Proof. intros d i v j _ Hi H. eapply varint_loop_moves; [exact Hi|exact H]. Qed.
Lemma read_varint_ext : extends read_varint.
Proof. intros p d e i v j _ Hi H. apply varint_loop_ext; assumption. Qed.
Lemma read_varint_ret : retracts read_varint.
Proof. intros p d i v j _ Hi H. apply varint_loop_ret; assumption. Qed.
Lemma read_varint_bound d i v j : read_varint d i = Ok (v, j) -> (v < 2 ^ 64)%N.
Proof. apply varint_loop_bound. reflexivity. Qed.

(** A length and the end it leads to, as in [read_bytes] and maps. *)
Definition read_span (d : bytes) (i : Z) : res (Z * Z) :=
  let! '(v, i) := read_varint d i in
  let n := int64 (Z.of_N v) in
  if n <? 0 then Err EInvalidLength
  else
    let post := int64 (i + n) in
    if post <? 0 then Err EInvalidLength
    else if blen d <? post then Err EUnexpectedEOF
    else Ok (i, post).

Lemma read_span_inv d i a b : fits d -> 0 <= i -> read_span d i = Ok (a, b) ->
  exists v, read_varint d i = Ok (v, a) /\ i < a /\ b = a + int64 (Z.of_N v) /\ 0 <= int64 (Z.of_N v) /\ a <= b <= blen d.
Proof.
  intros Hd Hi H. unfold read_span in H. rb H. destruct a0 as [v k].
  pose proof (read_varint_moves _ _ _ _ Hd Hi Hr) as Hk.
  destruct (Z.ltb_spec (int64 (Z.of_N v)) 0) as [|Hn]; [discriminate H|].
  destruct (Z.ltb_spec (int64 (k + int64 (Z.of_N v))) 0) as [|Hp]; [discriminate H|].
  destruct (Z.ltb_spec (blen d) (int64 (k + int64 (Z.of_N v)))) as [|Hl]; [discriminate H|].
  injection H as <- <-. pose proof (int64_range (Z.of_N v)). unfold fits in Hd.
  destruct (int64_sum k (int64 (Z.of_N v))) as [E _]; [lia|lia|lia|]. rewrite E in *.
  exists v. repeat split; try lia. exact Hr.
Qed.
Lemma read_span_intro d i v a : fits d -> 0 <= i -> read_varint d i = Ok (v, a) -> 0 <= int64 (Z.of_N v) ->
  a + int64 (Z.of_N v) <= blen d -> read_span d i = Ok (a, a + int64 (Z.of_N v)).
Proof.
  intros Hd Hi Hr Hn Hl. unfold read_span. rewrite Hr. cbn [rbind].
  pose proof (read_varint_moves _ _ _ _ Hd Hi Hr) as Hk. unfold fits in Hd.
  rewrite (int64_id (a + int64 (Z.of_N v))) by lia.
  destruct (Z.ltb_spec (int64 (Z.of_N v)) 0); [lia|].
  destruct (Z.ltb_spec (a + int64 (Z.of_N v)) 0); [lia|].
  destruct (Z.ltb_spec (blen d) (a + int64 (Z.of_N v))); [lia|]. reflexivity.
Qed.
Lemma read_span_ext p d e i a b : fits (p ++ d ++ e) -> 0 <= i -> read_span d i = Ok (a, b) ->
  read_span (p ++ d ++ e) (blen p + i) = Ok (blen p + a, blen p + b).
Proof.
  intros Hf Hi H. destruct (read_span_inv _ _ _ _ (fits_mid _ _ _ Hf) Hi H) as (v & Hr & Ha & -> & Hn & Hl).
  rewrite Z.add_assoc. apply read_span_intro; [exact Hf| | |exact Hn|].
  - pose proof (blen_nonneg p). lia.
  - apply read_varint_ext; assumption.
  - rewrite !blen_app. pose proof (blen_nonneg e). lia.
Qed.
Lemma read_span_ret p d i a b : fits (p ++ d) -> 0 <= i -> read_span (p ++ d) (blen p + i) = Ok (a, b) ->
  read_span d i = Ok (a - blen p, b - blen p).
Proof.
  intros Hf Hi H. pose proof (blen_nonneg p) as Hp.
  assert (Hpi : 0 <= blen p + i) by lia.
  destruct (read_span_inv _ _ _ _ Hf Hpi H) as (v & Hr & Ha & -> & Hn & Hl).
  apply read_varint_ret in Hr; [|exact Hf|exact Hi].
  replace (a + int64 (Z.of_N v) - blen p) with (a - blen p + int64 (Z.of_N v)) by lia.
  apply read_span_intro; [eapply fits_end; exact Hf|exact Hi|exact Hr|exact Hn|].
  rewrite blen_app in Hl. lia.
Qed.

Lemma read_bytes_span d i : read_bytes d i = let! '(a, b) := read_span d i in let! s := slice d a b in Ok (s, b).
Proof.
  unfold read_bytes, read_span. destruct (read_varint d i) as [[v k]| | |]; try reflexivity. cbn [rbind].
  destruct (_ <? 0); [reflexivity|]. destruct (_ <? 0); [reflexivity|]. destruct (_ <? _); reflexivity.
Qed.
Lemma read_bytes_inv d i s j : fits d -> 0 <= i -> read_bytes d i = Ok (s, j) ->
  exists a, read_span d i = Ok (a, j) /\ slice d a j = Ok s /\ i < a <= j /\ j <= blen d.
Proof.
  intros Hd Hi H. rewrite read_bytes_span in H. rb H. destruct a as [a b]. rb H. injection H as <- <-.
  exists a. destruct (read_span_inv _ _ _ _ Hd Hi Hr) as (v & _ & Ha & Hb & Hn & Hl). auto with zarith.
Qed.
Lemma read_bytes_moves : moves_on read_bytes.
Proof. intros d i s j Hd Hi H. apply read_bytes_inv in H as (a & _ & _ & H1 & H2); [|assumption..]. lia. Qed.
Lemma read_bytes_short d i s j : fits d -> 0 <= i -> read_bytes d i = Ok (s, j) -> blen s < blen d - i.
Proof.
  intros Hd Hi H. apply read_bytes_inv in H as (a & _ & H & H1 & H2); [|assumption..].
  apply slice_len in H. lia.
Qed.
Lemma read_bytes_ext : extends read_bytes.
Proof.
  intros p d e i s j Hf Hi H. pose proof (fits_mid _ _ _ Hf) as Hd.
  apply read_bytes_inv in H as (a & H1 & H2 & _); [|assumption..]. rewrite read_bytes_span.
  rewrite (read_span_ext _ _ _ _ _ _ Hf Hi H1). cbn [rbind]. rewrite (slice_in _ _ _ _ _ _ H2). reflexivity.
Qed.
Lemma read_bytes_ret : retracts read_bytes.
Proof.
  intros p d i s j Hf Hi H. pose proof (blen_nonneg p) as Hp.
  apply read_bytes_inv in H as (a & H1 & H2 & H3 & _); [|assumption|lia]. rewrite read_bytes_span.
  pose proof (read_span_ret _ _ _ _ _ Hf Hi H1) as H1'. rewrite H1'. cbn [rbind].
  destruct (read_span_inv _ _ _ _ (fits_end _ _ Hf) Hi H1') as (v & _ & Ha & _).
  replace a with (blen p + (a - blen p)) in H2 by lia. apply slice_out in H2; [|lia]. rewrite H2. reflexivity.
Qed.

(** ** Totality: no panic, no endless loop *)
Definition safe {A} (r : res A) : Prop := match r with Panics | Hangs => False | _ => True end.
Lemma safe_bind {A B} (r : res A) (k : A -> res B) : safe r -> (forall a, r = Ok a -> safe (k a)) -> safe (rbind r k).
Proof. destruct r; cbn; intros H Hk; auto. Qed.

Lemma read_varint_safe d i : 0 <= i -> safe (read_varint d i).
Proof. apply varint_loop_total. Qed.
Lemma read_span_safe d i : 0 <= i -> safe (read_span d i).
Proof.
  intros Hi. apply safe_bind; [apply read_varint_safe; exact Hi|]. intros [v k] _. cbn beta iota zeta.
  destruct (_ <? 0); [exact I|]. destruct (_ <? 0); [exact I|]. destruct (_ <? _); exact I.
Qed.
Lemma read_bytes_safe d i : fits d -> 0 <= i -> safe (read_bytes d i).
Proof.
  intros Hd Hi. rewrite read_bytes_span. apply safe_bind; [apply read_span_safe; exact Hi|].
  intros [a b] H. destruct (read_span_inv _ _ _ _ Hd Hi H) as (v & _ & Ha & Hb & Hn & Hl).
  assert (Hs : exists s, slice d a b = Ok s).
  { eexists. apply slice_ok. repeat split; lia. }
  destruct Hs as [s ->]. exact I.
Qed.
