(** * The codec: unknown fields, numbers, map entries (proofs only) *)

From Verif Require Import Wire WireFacts.
Local Open Scope Z_scope.
Local Open Scope list_scope.

(** ** skip *)
Lemma skip_varint_moves fuel : forall d i j, 0 <= i -> skip_varint fuel d i = Ok j -> i < j <= blen d.
Proof.
  induction fuel as [|n IH]; intros d i j Hi H; cbn [skip_varint] in H; [discriminate H|].
  destruct (Z.leb_spec (blen d) i); [discriminate H|]. rb H.
  destruct (_ <? 128)%N; [injection H as <-; lia|]. apply IH in H; lia.
Qed.
Lemma byte_at_app d e i : 0 <= i < blen d -> byte_at (d ++ e) i = byte_at d i.
Proof. intros H. pose proof (byte_at_in [] d e i H) as E. exact E. Qed.
Lemma skip_varint_ext fuel e : forall d i j, 0 <= i -> skip_varint fuel d i = Ok j -> skip_varint fuel (d ++ e) i = Ok j.
Proof.
  induction fuel as [|n IH]; intros d i j Hi H; cbn [skip_varint] in *; [discriminate H|].
  destruct (Z.leb_spec (blen d) i) as [|Hl]; [discriminate H|].
  destruct (Z.leb_spec (blen (d ++ e)) i) as [Hb|_].
  { rewrite blen_app in Hb. pose proof (blen_nonneg e). lia. }
  rewrite byte_at_app by lia. rb H. rewrite Hr. cbn [rbind].
  destruct (_ <? 128)%N; [exact H|]. apply IH; [lia|exact H].
Qed.
Lemma skip_varint_safe fuel : forall d i, 0 <= i -> safe (skip_varint fuel d i).
Proof.
  induction fuel as [|n IH]; intros d i Hi; cbn [skip_varint]; [exact I|].
  destruct (Z.leb_spec (blen d) i); [exact I|].
  destruct (byte_at_total d i) as [b ->]; [lia|]. cbn [rbind]. destruct (_ <? 128)%N; [exact I|]. apply IH. lia.
Qed.

(** The body of one field in [skip_loop]. *)
Definition skip_one (wire : N) (d : bytes) (i : Z) (depth : nat) : res (Z * nat) :=
  match (wire mod 8)%N with
  | 0%N => let! i := skip_varint 10 d i in Ok (i, depth)
  | 1%N => Ok (int64 (i + 8), depth)
  | 2%N =>
      let! '(v, i) := read_varint d i in
      let len := int64 (Z.of_N v) in
      if len <? 0 then Err EInvalidLength else Ok (int64 (i + len), depth)
  | 3%N => Ok (i, S depth)
  | 4%N => match depth with O => Err EEndOfGroup | S depth => Ok (i, depth) end
  | 5%N => Ok (int64 (i + 4), depth)
  | _ => Err EWireType
  end.
Lemma skip_loop_S n d i depth : skip_loop (S n) d i depth =
  if blen d <=? i then Err EUnexpectedEOF
  else
    let! '(wire, i) := read_varint d i in
    let! '(i, depth) := skip_one wire d i depth in
    if i <? 0 then Err EInvalidLength
    else match depth with O => Ok i | _ => skip_loop n d i depth end.
Proof. reflexivity. Qed.

Lemma skip_one_ext wire d e i depth x : fits (d ++ e) -> 0 <= i ->
  skip_one wire d i depth = Ok x -> skip_one wire (d ++ e) i depth = Ok x.
Proof.
  intros Hf Hi H. unfold skip_one in *.
  destruct (wire mod 8)%N as [|p]; [|do 3 (try destruct p as [p|p|]); try exact H; try discriminate H].
  - rb H. rewrite (skip_varint_ext _ _ _ _ _ Hi Hr). exact H.
  - rb H. destruct a as [v k]. pose proof (read_varint_ext [] d e i v k Hf Hi Hr) as E. cbn [app] in E.
    change (blen []) with 0 in E. rewrite !Z.add_0_l in E. rewrite E. exact H.
Qed.
Lemma skip_one_moves wire d i depth j depth' : fits d -> 0 <= i <= blen d ->
  skip_one wire d i depth = Ok (j, depth') -> j < 2 ^ 63 /\ (j < 0 \/ i <= j).
Proof.
  intros Hd Hi H. unfold fits in Hd. unfold skip_one in *.
  assert (Hadd : forall n, 0 <= n < 2 ^ 63 -> int64 (i + n) < 2 ^ 63 /\ (int64 (i + n) < 0 \/ i <= int64 (i + n))).
  { intros n Hn. split; [apply int64_range|]. destruct (Z_lt_ge_dec (int64 (i + n)) 0); [left; assumption|right].
    destruct (int64_sum i n) as [E _]; lia. }
  destruct (wire mod 8)%N as [|p]; [|do 3 (try destruct p as [p|p|]); try discriminate H].
  - rb H. apply skip_varint_moves in Hr; [|lia]. injection H as <- _. lia.
  - injection H as <- _. apply (Hadd 4). lia.
  - injection H as <- _. lia.
  - destruct depth; [discriminate H|]. injection H as <- _. lia.
  - rb H. destruct a as [v k]. pose proof (read_varint_moves _ _ _ _ Hd (proj1 Hi) Hr) as Hk.
    destruct (Z.ltb_spec (int64 (Z.of_N v)) 0); [discriminate H|]. injection H as <- _.
    pose proof (int64_range (Z.of_N v)). split; [apply int64_range|].
    destruct (Z_lt_ge_dec (int64 (k + int64 (Z.of_N v))) 0); [left; assumption|right].
    destruct (int64_sum k (int64 (Z.of_N v))) as [E _]; lia.
  - injection H as <- _. apply (Hadd 8). lia.
Qed.
Lemma skip_one_safe wire d i depth : 0 <= i -> safe (skip_one wire d i depth).
Proof.
  intros Hi. unfold skip_one.
  destruct (wire mod 8)%N as [|p]; [|do 3 (try destruct p as [p|p|]); try exact I].
  - apply safe_bind; [apply skip_varint_safe; exact Hi|]. intros; exact I.
  - destruct depth; exact I.
  - apply safe_bind; [apply read_varint_safe; exact Hi|]. intros [v k] _. cbn beta iota zeta. destruct (_ <? 0); exact I.
Qed.

Lemma skip_loop_moves n : forall d i depth j, fits d -> 0 <= i -> skip_loop n d i depth = Ok j -> i < j < 2 ^ 63.
Proof.
  induction n as [|n IH]; intros d i depth j Hd Hi H; [discriminate H|]. rewrite skip_loop_S in H.
  destruct (Z.leb_spec (blen d) i); [discriminate H|]. rb H. destruct a as [wire k].
  pose proof (read_varint_moves _ _ _ _ Hd Hi Hr) as Hk. rb H. destruct a as [i2 depth2].
  apply skip_one_moves in Hr0; [|exact Hd|lia].
  destruct (Z.ltb_spec i2 0); [discriminate H|]. destruct depth2; [injection H as <-; lia|].
  apply IH in H; [lia|exact Hd|lia].
Qed.
Lemma skip_loop_ext n e : forall n' d i depth j, (n <= n')%nat -> fits (d ++ e) -> 0 <= i ->
  skip_loop n d i depth = Ok j -> skip_loop n' (d ++ e) i depth = Ok j.
Proof.
  induction n as [|n IH]; intros n' d i depth j Hn Hf Hi H; [discriminate H|].
  destruct n' as [|n']; [lia|]. rewrite skip_loop_S in *.
  assert (Hd : fits d). { unfold fits in *. rewrite blen_app in Hf. pose proof (blen_nonneg e). lia. }
  destruct (Z.leb_spec (blen d) i) as [|Hl]; [discriminate H|].
  destruct (Z.leb_spec (blen (d ++ e)) i) as [Hb|_].
  { rewrite blen_app in Hb. pose proof (blen_nonneg e). lia. }
  rb H. destruct a as [wire k]. pose proof (read_varint_moves _ _ _ _ Hd Hi Hr) as Hk.
  pose proof (read_varint_ext [] d e i wire k Hf Hi Hr) as E. cbn [app] in E.
  change (blen []) with 0 in E. rewrite !Z.add_0_l in E. rewrite E. cbn [rbind]. clear E.
  rb H. destruct a as [i2 depth2]. assert (Hk0 : 0 <= k) by lia. rewrite (skip_one_ext _ _ e _ _ _ Hf Hk0 Hr0). cbn [rbind].
  destruct (Z.ltb_spec i2 0); [exact H|]. destruct depth2; [exact H|].
  eapply IH; [lia|exact Hf|lia|exact H].
Qed.
Lemma skip_loop_safe n : forall d i depth, fits d -> 0 <= i -> Z.max 0 (blen d - i) < Z.of_nat n ->
  safe (skip_loop n d i depth).
Proof.
  induction n as [|n IH]; intros d i depth Hd Hi Hn; [lia|]. rewrite skip_loop_S.
  destruct (Z.leb_spec (blen d) i); [exact I|].
  apply safe_bind; [apply read_varint_safe; exact Hi|]. intros [wire k] Hr.
  pose proof (read_varint_moves _ _ _ _ Hd Hi Hr) as Hk.
  apply safe_bind; [apply skip_one_safe; lia|]. intros [i2 depth2] H2.
  apply skip_one_moves in H2; [|exact Hd|lia].
  destruct (Z.ltb_spec i2 0); [exact I|]. destruct depth2; [exact I|]. apply IH; [exact Hd|lia|lia].
Qed.

Lemma skip_moves d j : fits d -> skip d = Ok j -> 0 < j < 2 ^ 63.
Proof. intros Hd H. eapply skip_loop_moves in H; [exact H|exact Hd|lia]. Qed.
Lemma skip_ext d e j : fits (d ++ e) -> skip d = Ok j -> skip (d ++ e) = Ok j.
Proof.
  intros Hf H. unfold skip in *. eapply skip_loop_ext; [|exact Hf|lia|exact H]. rewrite app_length. lia.
Qed.
Lemma skip_safe d : fits d -> safe (skip d).
Proof. intros Hd. apply skip_loop_safe; [exact Hd|lia|]. unfold blen. lia. Qed.

(** ** read_unknown *)
Lemma read_unknown_inv d i L u j : fits d -> 0 <= i -> L <= blen d -> read_unknown d i L = Ok (u, j) ->
  exists tl n, slice d i (blen d) = Ok tl /\ skip tl = Ok n /\ j = i + n /\ 0 < n /\ j <= L /\ slice d i j = Ok u.
Proof.
  intros Hd Hi HL H. unfold read_unknown in H. rb H. rename a into tl. rb H. rename a into n.
  pose proof (proj1 (slice_ok _ _ _ _) Hr) as (_ & Hib & _).
  assert (Hft : fits tl) by (unfold fits in *; rewrite (slice_len _ _ _ _ Hr); lia).
  pose proof (skip_moves _ _ Hft Hr0) as Hn.
  destruct (Z.ltb_spec n 0); [lia|]. cbn [orb] in H.
  destruct (Z.ltb_spec (int64 (i + n)) 0) as [|Hp]; [discriminate H|].
  destruct (Z.ltb_spec L (int64 (i + n))) as [|Hl]; [discriminate H|].
  rb H. injection H as <- <-. unfold fits in *.
  assert (E : int64 (i + n) = i + n) by (destruct (int64_sum i n) as [E _]; lia).
  rewrite E in *. exists tl, n. repeat split; try lia; assumption.
Qed.

Lemma read_unknown_ext p d e i L L' u j : fits (p ++ d ++ e) -> 0 <= i -> L <= blen d -> blen p + L <= L' ->
  read_unknown d i L = Ok (u, j) -> read_unknown (p ++ d ++ e) (blen p + i) L' = Ok (u, blen p + j).
Proof.
  intros Hf Hi HL HL' H. pose proof (fits_mid _ _ _ Hf) as Hd. pose proof (blen_nonneg p) as Hp. pose proof (blen_nonneg e) as He.
  destruct (read_unknown_inv _ _ _ _ _ Hd Hi HL H) as (tl & n & Htl & Hs & -> & Hn & Hj & Hu). clear H.
  assert (Htl' : slice (p ++ d ++ e) (blen p + i) (blen (p ++ d ++ e)) = Ok (tl ++ e)).
  { pose proof (proj1 (slice_ok _ _ _ _) Htl) as (_ & Hib & _ & Et). apply slice_ok. rewrite !blen_app.
    repeat split; try lia. unfold blen in *.
    rewrite skipn_app. rewrite (skipn_all2 p) by lia. rewrite app_nil_l.
    replace (Z.to_nat (Z.of_nat (List.length p) + i) - List.length p)%nat with (Z.to_nat i) by lia.
    rewrite skipn_app. rewrite firstn_all2 by (rewrite app_length, !skipn_length; lia).
    replace (Z.to_nat i - List.length d)%nat with 0%nat by lia. cbn [skipn]. f_equal.
    rewrite Et. apply firstn_all2. rewrite skipn_length. lia. }
  unfold read_unknown. rewrite Htl'. cbn [rbind].
  assert (Hft : fits (tl ++ e)) by (unfold fits in *; rewrite !blen_app in *; pose proof (slice_len _ _ _ _ Htl); lia).
  rewrite (skip_ext _ _ _ Hft Hs).
  cbn [rbind]. unfold fits in Hf. rewrite !blen_app in Hf.
  rewrite (int64_id (blen p + i + n)) by lia.
  destruct (Z.ltb_spec n 0); [lia|]. destruct (Z.ltb_spec (blen p + i + n) 0); [lia|]. cbn [orb].
  destruct (Z.ltb_spec L' (blen p + i + n)); [lia|]. rewrite <- Z.add_assoc.
  rewrite (slice_in _ _ _ _ _ _ Hu). reflexivity.
Qed.
Lemma read_unknown_ret p d i L u j : fits (p ++ d) -> 0 <= i -> L <= blen d ->
  read_unknown (p ++ d) (blen p + i) (blen p + L) = Ok (u, j) -> read_unknown d i L = Ok (u, j - blen p).
Proof.
  intros Hf Hi HL H. pose proof (fits_end _ _ Hf) as Hd. pose proof (blen_nonneg p) as Hp.
  assert (HL2 : blen p + L <= blen (p ++ d)) by (rewrite blen_app; lia).
  assert (Hpi : 0 <= blen p + i) by lia.
  destruct (read_unknown_inv _ _ _ _ _ Hf Hpi HL2 H) as (tl & n & Htl & Hs & -> & Hn & Hj & Hu). clear H.
  apply slice_out in Htl; [|exact Hi]. apply slice_out in Hu; [|exact Hi].
  rewrite blen_app in Htl. replace (blen p + blen d - blen p) with (blen d) in Htl by lia.
  replace (blen p + i + n - blen p) with (i + n) in * by lia.
  unfold read_unknown. rewrite Htl. cbn [rbind]. rewrite Hs. cbn [rbind]. unfold fits in Hd.
  pose proof (proj1 (slice_ok _ _ _ _) Hu) as (_ & _ & Hb & _).
  rewrite (int64_id (i + n)) by lia.
  destruct (Z.ltb_spec n 0); [lia|]. destruct (Z.ltb_spec (i + n) 0); [lia|]. cbn [orb].
  destruct (Z.ltb_spec L (i + n)); [lia|]. rewrite Hu. reflexivity.
Qed.
Lemma read_unknown_safe d i L : fits d -> 0 <= i <= blen d -> L <= blen d -> safe (read_unknown d i L).
Proof.
  intros Hd Hi HL. unfold read_unknown.
  assert (Hs : exists tl, slice d i (blen d) = Ok tl) by (eexists; apply slice_ok; repeat split; lia).
  destruct Hs as [tl Htl]. rewrite Htl. cbn [rbind].
  assert (Hft : fits tl) by (unfold fits in *; rewrite (slice_len _ _ _ _ Htl); lia).
  apply safe_bind; [apply skip_safe; exact Hft|]. intros n Hn. apply skip_moves in Hn; [|exact Hft].
  destruct (Z.ltb_spec n 0); [lia|]. cbn [orb].
  destruct (Z.ltb_spec (int64 (i + n)) 0) as [|Hp]; [exact I|].
  destruct (Z.ltb_spec L (int64 (i + n))); [exact I|]. unfold fits in Hd.
  destruct (int64_sum i n) as [E _]; [lia|lia|lia|]. rewrite E in *.
  assert (Hs : exists u, slice d i (i + n) = Ok u) by (eexists; apply slice_ok; repeat split; lia).
  destruct Hs as [u ->]. exact I.
Qed.

(** ** Numbers *)
Lemma read_fixed64_inv d i v j : fits d -> 0 <= i -> read_fixed64 d i = Ok (v, j) ->
  exists s, j = i + 8 /\ j <= blen d /\ slice d i j = Ok s /\ v = le_value s.
Proof.
  intros Hd Hi H. unfold read_fixed64 in H.
  destruct (Z.ltb_spec (blen d) (int64 (i + 8))) as [|Hl]; [discriminate H|]. rb H. injection H as <- <-.
  pose proof (proj1 (slice_ok _ _ _ _) Hr) as (_ & H1 & H2 & _). unfold fits in Hd.
  assert (E : int64 (i + 8) = i + 8) by (destruct (int64_sum i 8) as [E _]; lia).
  rewrite E in *. exists a. auto.
Qed.
Lemma read_fixed64_intro d i s : fits d -> 0 <= i -> slice d i (i + 8) = Ok s -> read_fixed64 d i = Ok (le_value s, i + 8).
Proof.
  intros Hd Hi H. pose proof (proj1 (slice_ok _ _ _ _) H) as (_ & _ & H2 & _). unfold fits in Hd.
  unfold read_fixed64. rewrite (int64_id (i + 8)) by lia.
  destruct (Z.ltb_spec (blen d) (i + 8)); [lia|]. rewrite H. reflexivity.
Qed.
Lemma read_fixed64_moves : moves_on read_fixed64.
Proof. intros d i v j Hd Hi H. apply read_fixed64_inv in H as (s & -> & H & _); [|assumption..]. lia. Qed.
Lemma read_fixed64_ext : extends read_fixed64.
Proof.
  intros p d e i v j Hf Hi H. apply read_fixed64_inv in H as (s & -> & H1 & H2 & ->); [|eapply fits_mid; exact Hf|exact Hi].
  rewrite Z.add_assoc. apply read_fixed64_intro; [exact Hf|pose proof (blen_nonneg p); lia|].
  rewrite <- Z.add_assoc. apply slice_in. exact H2.
Qed.
Lemma read_fixed64_ret : retracts read_fixed64.
Proof.
  intros p d i v j Hf Hi H. pose proof (blen_nonneg p) as Hp.
  apply read_fixed64_inv in H as (s & -> & H1 & H2 & ->); [|exact Hf|lia].
  apply slice_out in H2; [|exact Hi]. replace (blen p + i + 8 - blen p) with (i + 8) in * by lia.
  apply read_fixed64_intro; [eapply fits_end; exact Hf|exact Hi|exact H2].
Qed.
Lemma read_fixed64_safe d i : fits d -> 0 <= i <= blen d -> safe (read_fixed64 d i).
Proof.
  intros Hd Hi. unfold read_fixed64.
  destruct (Z.ltb_spec (blen d) (int64 (i + 8))) as [|Hl]; [exact I|]. unfold fits in Hd.
  rewrite (int64_id (i + 8)) in * by lia.
  assert (Hs : exists u, slice d i (i + 8) = Ok u) by (eexists; apply slice_ok; repeat split; lia).
  destruct Hs as [u ->]. exact I.
Qed.

Lemma read_num_moves k : moves_on (read_num k).
Proof.
  intros d i z j Hd Hi H. unfold read_num in H. rb H. destruct a as [v a]. injection H as _ <-.
  destruct k; first [eapply read_varint_moves in Hr | eapply read_fixed64_moves in Hr]; eassumption.
Qed.
Lemma read_num_ext k : extends (read_num k).
Proof.
  intros p d e i z j Hf Hi H. unfold read_num in *. rb H. destruct a as [v a]. injection H as <- <-.
  destruct k; first [rewrite (read_varint_ext _ _ _ _ _ _ Hf Hi Hr) | rewrite (read_fixed64_ext _ _ _ _ _ _ Hf Hi Hr)]; reflexivity.
Qed.
Lemma read_num_ret k : retracts (read_num k).
Proof.
  intros p d i z j Hf Hi H. unfold read_num in *. rb H. destruct a as [v a]. injection H as <- <-.
  destruct k; first [rewrite (read_varint_ret _ _ _ _ _ Hf Hi Hr) | rewrite (read_fixed64_ret _ _ _ _ _ Hf Hi Hr)]; reflexivity.
Qed.
Lemma read_num_safe k d i : fits d -> 0 <= i <= blen d -> safe (read_num k d i).
Proof.
  intros Hd Hi. unfold read_num. apply safe_bind; [|intros [v a] _; exact I].
  destruct k; first [apply read_varint_safe; lia | apply read_fixed64_safe; assumption].
Qed.

(** ** Map entries *)
Lemma read_entry_S n d i post k v : read_entry (S n) d i post k v =
  if post <=? i then Ok (k, v)
  else
    let! '(wire, i') := read_varint d i in
    let num := int32 (Z.of_N (wire / 8)) in
    if num =? 1 then let! '(k, i) := read_bytes d i' in read_entry n d i post k v
    else if num =? 2 then let! '(v, i) := read_bytes d i' in read_entry n d i post k v
    else let! '(_, i) := read_unknown d i post in read_entry n d i post k v.
Proof. reflexivity. Qed.

Lemma read_entry_mono n : forall n' d i post k v, (n <= n')%nat ->
  read_entry n d i post k v <> Hangs -> read_entry n' d i post k v = read_entry n d i post k v.
Proof.
  induction n as [|n IH]; intros n' d i post k v Hn H; [exfalso; apply H; reflexivity|].
  destruct n' as [|n']; [lia|]. rewrite !read_entry_S in *.
  destruct (post <=? i); [reflexivity|]. destruct (read_varint d i) as [[w i']| | |]; cbn [rbind] in *; try reflexivity.
  destruct (_ =? 1); [|destruct (_ =? 2)].
  - destruct (read_bytes d i') as [[s j]| | |]; cbn [rbind] in *; try reflexivity. apply IH; [lia|exact H].
  - destruct (read_bytes d i') as [[s j]| | |]; cbn [rbind] in *; try reflexivity. apply IH; [lia|exact H].
  - destruct (read_unknown d i post) as [[s j]| | |]; cbn [rbind] in *; try reflexivity. apply IH; [lia|exact H].
Qed.
Lemma read_entry_ext n p e : forall d i post k v r, fits (p ++ d ++ e) -> 0 <= i -> post <= blen d ->
  read_entry n d i post k v = Ok r -> read_entry n (p ++ d ++ e) (blen p + i) (blen p + post) k v = Ok r.
Proof.
  induction n as [|n IH]; intros d i post k v r Hf Hi Hp H; [discriminate H|]. rewrite read_entry_S in *.
  pose proof (fits_mid _ _ _ Hf) as Hd.
  destruct (Z.leb_spec post i); destruct (Z.leb_spec (blen p + post) (blen p + i)); try lia; [exact H|].
  rb H. destruct a as [w i']. pose proof (read_varint_moves _ _ _ _ Hd Hi Hr) as Hi'.
  rewrite (read_varint_ext _ _ _ _ _ _ Hf Hi Hr). cbn [rbind].
  assert (Hi'0 : 0 <= i') by lia. cbv zeta in H |- *.
  destruct (_ =? 1); [|destruct (_ =? 2)].
  - rb H. destruct a as [s j]. pose proof (read_bytes_moves _ _ _ _ Hd Hi'0 Hr0).
    rewrite (read_bytes_ext _ _ _ _ _ _ Hf Hi'0 Hr0). cbn [rbind]. apply IH; [exact Hf|lia|lia|exact H].
  - rb H. destruct a as [s j]. pose proof (read_bytes_moves _ _ _ _ Hd Hi'0 Hr0).
    rewrite (read_bytes_ext _ _ _ _ _ _ Hf Hi'0 Hr0). cbn [rbind]. apply IH; [exact Hf|lia|lia|exact H].
  - rb H. destruct a as [s j]. destruct (read_unknown_inv _ _ _ _ _ Hd Hi Hp Hr0) as (tl & x & _ & _ & Hj & Hx & _).
    rewrite (read_unknown_ext p d e i post (blen p + post) _ _ Hf Hi Hp (Z.le_refl _) Hr0). cbn [rbind].
    apply IH; [exact Hf|lia|lia|exact H].
Qed.
Lemma read_entry_ret n p : forall d i post k v r, fits (p ++ d) -> 0 <= i -> post <= blen d ->
  read_entry n (p ++ d) (blen p + i) (blen p + post) k v = Ok r -> read_entry n d i post k v = Ok r.
Proof.
  induction n as [|n IH]; intros d i post k v r Hf Hi Hp H; [discriminate H|]. rewrite read_entry_S in *.
  pose proof (fits_end _ _ Hf) as Hd. pose proof (blen_nonneg p) as Hp0.
  destruct (Z.leb_spec post i); destruct (Z.leb_spec (blen p + post) (blen p + i)); try lia; [exact H|].
  rb H. destruct a as [w i']. apply read_varint_ret in Hr; [|exact Hf|exact Hi].
  pose proof (read_varint_moves _ _ _ _ Hd Hi Hr) as Hi'. rewrite Hr. cbn [rbind].
  assert (Hi'0 : 0 <= i' - blen p) by lia.
  replace i' with (blen p + (i' - blen p)) in H by lia. cbv zeta in H |- *.
  destruct (_ =? 1); [|destruct (_ =? 2)].
  - rb H. destruct a as [s j]. apply read_bytes_ret in Hr0; [|exact Hf|exact Hi'0].
    pose proof (read_bytes_moves _ _ _ _ Hd Hi'0 Hr0). rewrite Hr0. cbn [rbind].
    replace j with (blen p + (j - blen p)) in H by lia. apply IH in H; [exact H|exact Hf|lia|lia].
  - rb H. destruct a as [s j]. apply read_bytes_ret in Hr0; [|exact Hf|exact Hi'0].
    pose proof (read_bytes_moves _ _ _ _ Hd Hi'0 Hr0). rewrite Hr0. cbn [rbind].
    replace j with (blen p + (j - blen p)) in H by lia. apply IH in H; [exact H|exact Hf|lia|lia].
  - rb H. destruct a as [s j]. apply read_unknown_ret in Hr0; [|exact Hf|exact Hi|exact Hp].
    destruct (read_unknown_inv _ _ _ _ _ Hd Hi Hp Hr0) as (tl & x & _ & _ & Hj & Hx & _). rewrite Hr0. cbn [rbind].
    replace j with (blen p + (j - blen p)) in H by lia. apply IH in H; [exact H|exact Hf|lia|lia].
Qed.
Lemma read_entry_safe n : forall d i post k v, fits d -> 0 <= i <= blen d -> post <= blen d ->
  blen d - i < Z.of_nat n -> safe (read_entry n d i post k v).
Proof.
  induction n as [|n IH]; intros d i post k v Hd Hi Hp Hn; [lia|]. rewrite read_entry_S.
  destruct (Z.leb_spec post i); [exact I|].
  apply safe_bind; [apply read_varint_safe; lia|]. intros [w i'] Hr.
  assert (Hi0 : 0 <= i) by lia. pose proof (read_varint_moves _ _ _ _ Hd Hi0 Hr) as Hi'. cbn beta iota zeta.
  assert (Hi'0 : 0 <= i') by lia.
  destruct (_ =? 1); [|destruct (_ =? 2)].
  - apply safe_bind; [apply read_bytes_safe; assumption|]. intros [s j] Hb.
    pose proof (read_bytes_moves _ _ _ _ Hd Hi'0 Hb). apply IH; [exact Hd|lia|lia|lia].
  - apply safe_bind; [apply read_bytes_safe; assumption|]. intros [s j] Hb.
    pose proof (read_bytes_moves _ _ _ _ Hd Hi'0 Hb). apply IH; [exact Hd|lia|lia|lia].
  - apply safe_bind; [apply read_unknown_safe; [exact Hd|lia|exact Hp]|]. intros [s j] Hb.
    destruct (read_unknown_inv _ _ _ _ _ Hd Hi0 Hp Hb) as (tl & x & _ & _ & Hj & Hx & Hjp & _).
    apply IH; [exact Hd|lia|lia|lia].
Qed.

(** With the fuel that [read_field] gives. *)
Definition entry (d : bytes) (i post : Z) : res (bytes * bytes) := read_entry (S (List.length d)) d i post [] [].
Lemma entry_safe d i post : fits d -> 0 <= i <= blen d -> post <= blen d -> safe (entry d i post).
Proof. intros Hd Hi Hp. apply read_entry_safe; [exact Hd|exact Hi|exact Hp|]. unfold blen in *. lia. Qed.
Lemma entry_any n d i post r : fits d -> 0 <= i <= blen d -> post <= blen d ->
  read_entry n d i post [] [] = Ok r -> entry d i post = Ok r.
Proof.
  intros Hd Hi Hp H. pose proof (entry_safe d i post Hd Hi Hp) as Hs. unfold entry in *.
  assert (Hnh : read_entry (S (List.length d)) d i post [] [] <> Hangs) by (intros E; rewrite E in Hs; exact Hs).
  destruct (Nat.le_ge_cases n (S (List.length d))) as [Hle|Hge].
  - rewrite (read_entry_mono n _ _ _ _ _ _ Hle); [exact H|congruence].
  - rewrite <- (read_entry_mono _ n _ _ _ _ _ Hge Hnh). exact H.
Qed.
Lemma entry_ext p d e i post r : fits (p ++ d ++ e) -> 0 <= i <= blen d -> post <= blen d -> entry d i post = Ok r ->
  entry (p ++ d ++ e) (blen p + i) (blen p + post) = Ok r.
Proof.
  intros Hf Hi Hp H. pose proof (blen_nonneg p). pose proof (blen_nonneg e).
  eapply entry_any; [exact Hf|rewrite !blen_app; lia|rewrite !blen_app; lia|].
  apply read_entry_ext; [exact Hf|lia|exact Hp|exact H].
Qed.
Lemma entry_ret p d i post r : fits (p ++ d) -> 0 <= i <= blen d -> post <= blen d ->
  entry (p ++ d) (blen p + i) (blen p + post) = Ok r -> entry d i post = Ok r.
Proof.
  intros Hf Hi Hp H. eapply entry_any; [eapply fits_end; exact Hf|exact Hi|exact Hp|].
  eapply read_entry_ret; [exact Hf|lia|exact Hp|exact H].
Qed.
