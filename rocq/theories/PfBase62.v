(** * Padded base62: proofs *)

From Verif Require Export StrFacts SpecSdk.
Local Open Scope N_scope.

Lemma byte_lt a : byte a < 256.
Proof. apply N_ascii_bounded. Qed.
Lemma byte_of_N n : n < 256 -> byte (ascii_of_N n) = n.
Proof. apply N_ascii_embedding. Qed.
Lemma of_byte a : ascii_of_N (byte a) = a.
Proof. apply ascii_N_embedding. Qed.
Lemma byte_inj a b : byte a = byte b -> a = b.
Proof. intros H. rewrite <- (of_byte a), <- (of_byte b), H. reflexivity. Qed.

Lemma slen_app a b : String.length (a ++ b) = (String.length a + String.length b)%nat.
Proof. induction a as [|x a IH]; [reflexivity|]. rewrite sapp_cons. cbn [String.length]. rewrite IH. reflexivity. Qed.

Lemma pow_S b n : b ^ N.of_nat (S n) = b * b ^ N.of_nat n.
Proof. rewrite Nat2N.inj_succ, N.pow_succ_r'. reflexivity. Qed.

(** ** Bytes *)

Lemma be_num_shift s : forall acc, be_num acc s = acc * 256 ^ N.of_nat (String.length s) + be_num 0 s.
Proof.
  induction s as [|a s IH]; intros acc; [cbn; lia|]. cbn [be_num String.length].
  rewrite IH, (IH (0 * 256 + byte a)), pow_S. ring.
Qed.

Lemma be_num_lt s : be_num 0 s < 256 ^ N.of_nat (String.length s).
Proof.
  induction s as [|a s IH]; [cbn; lia|]. cbn [be_num String.length]. rewrite be_num_shift, pow_S.
  pose proof (byte_lt a). nia.
Qed.

Lemma be_bytes_app l1 : forall l2 n acc, be_bytes (l1 + l2) n acc = be_bytes l1 (n / 256 ^ N.of_nat l2) (be_bytes l2 n acc).
Proof.
  intros l2. rewrite Nat.add_comm. induction l2 as [|l2 IH]; intros n acc; cbn [Nat.add be_bytes].
  - rewrite N.pow_0_r, N.div_1_r. reflexivity.
  - rewrite IH, pow_S, N.div_div by (try lia; apply N.pow_nonzero; lia). reflexivity.
Qed.

Lemma be_bytes_num s : forall k acc,
  be_bytes (String.length s) (k * 256 ^ N.of_nat (String.length s) + be_num 0 s) acc = (s ++ acc)%string.
Proof.
  induction s as [|a s IH]; intros k acc; [reflexivity|]. cbn [String.length be_num].
  rewrite be_num_shift, pow_S. change (S (String.length s)) with (1 + String.length s)%nat.
  rewrite be_bytes_app.
  replace (k * (256 * 256 ^ N.of_nat (String.length s)) + ((0 * 256 + byte a) * 256 ^ N.of_nat (String.length s) + be_num 0 s))
    with ((k * 256 + byte a) * 256 ^ N.of_nat (String.length s) + be_num 0 s) by ring.
  rewrite IH. rewrite N.div_add_l by (apply N.pow_nonzero; lia).
  rewrite (N.div_small (be_num 0 s)) by apply be_num_lt. rewrite N.add_0_r. cbn [be_bytes].
  rewrite N.add_comm, N.mod_add by lia. rewrite N.mod_small by apply byte_lt. rewrite of_byte, sapp_cons. reflexivity.
Qed.

Lemma be_bytes_be_num s : be_bytes (String.length s) (be_num 0 s) "" = s.
Proof. pose proof (be_bytes_num s 0 "") as H. rewrite N.mul_0_l, N.add_0_l, sapp_nil in H. exact H. Qed.

Lemma be_num_bytes l : forall n k acc,
  be_num k (be_bytes l n acc) = be_num (k * 256 ^ N.of_nat l + n mod 256 ^ N.of_nat l) acc.
Proof.
  induction l as [|l IH]; intros n k acc; cbn [be_bytes].
  - rewrite N.pow_0_r, N.mod_1_r, N.mul_1_r, N.add_0_r. reflexivity.
  - rewrite IH. cbn [be_num]. f_equal. rewrite pow_S, byte_of_N by (apply N.mod_lt; lia).
    rewrite N.mod_mul_r by (try lia; apply N.pow_nonzero; lia). ring.
Qed.

Lemma be_bytes_len l : forall n acc, String.length (be_bytes l n acc) = (l + String.length acc)%nat.
Proof. induction l as [|l IH]; intros n acc; cbn [be_bytes]; [reflexivity|]. rewrite IH. cbn. lia. Qed.

Lemma fill_bytes_ok l n b : fill_bytes l n = Done b <-> n < 256 ^ N.of_nat l /\ String.length b = l /\ be_num 0 b = n.
Proof.
  unfold fill_bytes. destruct (N.ltb_spec n (256 ^ N.of_nat l)) as [H|H].
  - split; [intros E; injection E as <-|].
    + split; auto. rewrite be_bytes_len. split; [cbn; lia|].
      rewrite be_num_bytes. cbn [be_num]. rewrite N.mul_0_l, N.add_0_l. apply N.mod_small; auto.
    + intros (_ & <- & <-). f_equal. apply be_bytes_be_num.
  - split; [discriminate|intros [H' _]; lia].
Qed.

(** ** Digits *)

Lemma digit62_val d : d < 62 -> val62 (digit62 d) = Some d.
Proof.
  intros H. unfold digit62, val62.
  destruct (N.ltb_spec d 10); [|destruct (N.ltb_spec d 36)].
  - rewrite byte_of_N by lia. unfold in_range.
    destruct (N.leb_spec 48 (48 + d)), (N.leb_spec (48 + d) 57); try lia; cbn; f_equal; lia.
  - rewrite byte_of_N by lia. unfold in_range.
    destruct (N.leb_spec 48 (87 + d)), (N.leb_spec (87 + d) 57), (N.leb_spec 97 (87 + d)), (N.leb_spec (87 + d) 122); try lia; cbn; f_equal; lia.
  - rewrite byte_of_N by lia. unfold in_range.
    destruct (N.leb_spec 48 (29 + d)), (N.leb_spec (29 + d) 57), (N.leb_spec 97 (29 + d)), (N.leb_spec (29 + d) 122),
      (N.leb_spec 65 (29 + d)), (N.leb_spec (29 + d) 90); try lia; cbn; f_equal; lia.
Qed.

Lemma range_iff b lo hi : in_range b lo hi = true <-> lo <= b <= hi.
Proof. unfold in_range. rewrite andb_true_iff, !N.leb_le. tauto. Qed.

Lemma val62_digit a d : val62 a = Some d -> d < 62 /\ digit62 d = a.
Proof.
  unfold val62. intros H.
  destruct (in_range (byte a) 48 57) eqn:R1; [|destruct (in_range (byte a) 97 122) eqn:R2; [|destruct (in_range (byte a) 65 90) eqn:R3; [|discriminate]]];
  rewrite range_iff in *; injection H as H; unfold digit62.
  - destruct (N.ltb_spec d 10); [|lia]. split; [lia|]. rewrite <- (of_byte a). f_equal. lia.
  - destruct (N.ltb_spec d 10); [lia|]. destruct (N.ltb_spec d 36); [|lia]. split; [lia|]. rewrite <- (of_byte a). f_equal. lia.
  - destruct (N.ltb_spec d 10); [lia|]. destruct (N.ltb_spec d 36); [lia|]. split; [lia|]. rewrite <- (of_byte a). f_equal. lia.
Qed.

Lemma digits_num f : forall n acc, n < 2 ^ N.of_nat f -> num62 0 (digits62 f n acc) = num62 n acc.
Proof.
  induction f as [|f IH]; intros n acc H; cbn [digits62].
  - cbn in H. assert (n = 0) as -> by lia. reflexivity.
  - destruct (N.eqb_spec n 0) as [->|Hn]; [reflexivity|].
    rewrite IH. { cbn [num62]. rewrite digit62_val by (apply N.mod_lt; lia). f_equal. rewrite (N.div_mod n 62) at 3 by lia. lia. }
    rewrite pow_S in H. apply N.div_lt_upper_bound; lia.
Qed.

Lemma digits_len L : forall f n acc, n < 62 ^ N.of_nat L -> (String.length (digits62 f n acc) <= L + String.length acc)%nat.
Proof.
  induction L as [|L IH]; intros f n acc H.
  - cbn in H. assert (n = 0) as -> by lia. destruct f; cbn [digits62]; rewrite ?N.eqb_refl; lia.
  - destruct f as [|f]; cbn [digits62]; [lia|]. destruct (N.eqb_spec n 0); [lia|].
    rewrite pow_S in H. assert (n / 62 < 62 ^ N.of_nat L) by (apply N.div_lt_upper_bound; lia).
    specialize (IH f (n / 62) (String (digit62 (n mod 62)) acc) H0). cbn [String.length] in IH. lia.
Qed.

Lemma digits_acc f : forall n acc, exists p, digits62 f n acc = (p ++ acc)%string /\ (n <> 0 -> f <> O -> p <> ""%string).
Proof.
  induction f as [|f IH]; intros n acc; cbn [digits62].
  - exists ""%string. split; [reflexivity|congruence].
  - destruct (N.eqb_spec n 0); [exists ""%string; split; [reflexivity|congruence]|].
    destruct (IH (n / 62) (String (digit62 (n mod 62)) acc)) as (p & E & _). rewrite E.
    exists (p ++ str1 (digit62 (n mod 62)))%string. rewrite sapp_assoc. split; [reflexivity|].
    intros _ _ X. destruct p; discriminate.
Qed.

Definition is_digit (a : ascii) : Prop := exists d, val62 a = Some d.
Lemma every_app P x y : every_char P (x ++ y) <-> every_char P x /\ every_char P y.
Proof. induction x as [|a x IH]; [cbn; tauto|]. rewrite sapp_cons. cbn. tauto. Qed.

Lemma digits_every f : forall n acc, every_char is_digit acc -> every_char is_digit (digits62 f n acc).
Proof.
  induction f as [|f IH]; intros n acc H; cbn [digits62]; auto. destruct (n =? 0); auto. apply IH. cbn. split; auto.
  eexists. apply digit62_val. apply N.mod_lt. lia.
Qed.

Lemma size_bound n : n < 2 ^ N.of_nat (N.size_nat n).
Proof.
  destruct n as [|p]; [cbn; lia|]. cbn [N.size_nat]. induction p as [p IH|p IH|]; cbn [Pos.size_nat].
  - rewrite pow_S. lia.
  - rewrite pow_S. lia.
  - cbn. lia.
Qed.

Lemma text62_num n : num62 0 (text62 n) = Some n.
Proof.
  unfold text62. destruct (N.eqb_spec n 0) as [->|H]; [reflexivity|]. rewrite digits_num by apply size_bound. reflexivity.
Qed.

Lemma text62_digits n : every_char is_digit (text62 n).
Proof.
  unfold text62. destruct (n =? 0); [cbn; split; auto; eexists; reflexivity|]. apply digits_every. exact I.
Qed.

Lemma text62_len n L : n < 62 ^ N.of_nat L -> (1 <= L)%nat -> (1 <= String.length (text62 n) <= L)%nat.
Proof.
  intros H HL. unfold text62. destruct (N.eqb_spec n 0); [cbn; lia|]. split.
  - destruct (digits_acc (N.size_nat n) n "") as (p & E & Hp). rewrite E, sapp_nil.
    destruct p; [exfalso; apply Hp; auto; destruct n as [|q]; [congruence|destruct q; cbn; congruence]|cbn; lia].
  - pose proof (digits_len L (N.size_nat n) n "" H). cbn in *. lia.
Qed.

Lemma zeros_len n : String.length (zeros n) = n.
Proof. induction n; cbn; auto. Qed.
Lemma zeros_num n s : num62 0 (zeros n ++ s) = num62 0 s.
Proof. induction n as [|n IH]; [reflexivity|]. cbn [zeros]. rewrite sapp_cons. cbn [num62]. exact IH. Qed.
Lemma zeros_digits n : every_char is_digit (zeros n).
Proof. induction n; cbn; auto. split; auto. eexists. reflexivity. Qed.

Lemma num62_shift s : forall k n, num62 0 s = Some n -> num62 k s = Some (k * 62 ^ N.of_nat (String.length s) + n).
Proof.
  induction s as [|a s IH]; intros k n H; cbn [num62 String.length] in *; [injection H as <-; f_equal; cbn; lia|].
  destruct (val62 a) as [d|]; [|discriminate].
  destruct (num62 0 s) as [m|] eqn:Em.
  - rewrite (IH _ m eq_refl) in H. rewrite (IH _ m eq_refl). injection H as <-. f_equal. rewrite pow_S. ring.
  - exfalso. assert (forall k, num62 k s = None) as Hn; [|rewrite Hn in H; discriminate].
    clear - Em. revert Em. generalize 0. induction s as [|b s IH]; intros j Ej k; cbn in *; [discriminate|].
    destruct (val62 b); auto. eapply IH; eauto.
Qed.

Lemma num62_lt s : forall n, num62 0 s = Some n -> n < 62 ^ N.of_nat (String.length s).
Proof.
  induction s as [|a s IH]; intros n H; cbn [num62 String.length] in *; [injection H as <-; cbn; lia|].
  destruct (val62 a) as [d|] eqn:Ed; [|discriminate]. apply val62_digit in Ed as [Hd _].
  destruct (num62 0 s) as [m|] eqn:Em.
  - rewrite (num62_shift _ _ m Em) in H. injection H as <-. specialize (IH m eq_refl). rewrite pow_S. nia.
  - exfalso. assert (forall k, num62 k s = None) as Hn; [|rewrite Hn in H; discriminate].
    clear - Em. revert Em. generalize 0. induction s as [|b s IH]; intros j Ej k; cbn in *; [discriminate|].
    destruct (val62 b); auto. eapply IH; eauto.
Qed.

Lemma num62_some s k : every_char is_digit s -> exists n, num62 k s = Some n.
Proof.
  revert k; induction s as [|a s IH]; intros k H; cbn in *; [eauto|]. destruct H as [[d ->] H]. auto.
Qed.

Lemma num62_inj s : forall s' n, String.length s = String.length s' -> num62 0 s = Some n -> num62 0 s' = Some n -> s = s'.
Proof.
  induction s as [|a s IH]; intros [|b s'] n Hl H H'; try discriminate; auto.
  cbn [num62] in H, H'. cbn in Hl. injection Hl as Hl.
  destruct (val62 a) as [d|] eqn:Ea; [|discriminate]. destruct (val62 b) as [e|] eqn:Eb; [|discriminate].
  apply val62_digit in Ea as [Hd <-]. apply val62_digit in Eb as [He <-].
  assert (forall t k, num62 k t = None \/ exists m, num62 0 t = Some m) as Hdec.
  { induction t as [|c t IHt]; intros k; cbn; [eauto|]. destruct (val62 c) as [x|]; [|auto].
    destruct (IHt (k * 62 + x)) as [|(m & Em)]; auto. right. exists (x * 62 ^ N.of_nat (String.length t) + m).
    rewrite (num62_shift _ _ m Em). f_equal; lia. }
  destruct (Hdec s (0 * 62 + d)) as [X|(m & Em)]; [congruence|].
  destruct (Hdec s' (0 * 62 + e)) as [X|(m' & Em')]; [congruence|].
  rewrite (num62_shift _ _ m Em) in H. rewrite (num62_shift _ _ m' Em') in H'.
  injection H as H. injection H' as H'. rewrite <- Hl in H'.
  pose proof (num62_lt _ _ Em). pose proof (num62_lt _ _ Em') as Hm'. rewrite <- Hl in Hm'.
  assert (d = e) as -> by nia. assert (m = m') as -> by nia. f_equal. eapply IH; eauto.
Qed.

Lemma set_string_digits s : every_char is_digit s -> s <> ""%string -> set_string62 s = num62 0 s.
Proof.
  unfold set_string62. destruct s as [|a s]; [congruence|]. intros [[d Hd] _] _.
  destruct (N.eqb_spec (byte a) 43) as [E|_]; [unfold val62 in Hd; rewrite E in Hd; discriminate|].
  destruct (N.eqb_spec (byte a) 45) as [E|_]; [unfold val62 in Hd; rewrite E in Hd; discriminate|]. reflexivity.
Qed.

(** ** Padded numbers *)

Lemma padded_digits s len : every_char is_digit (to_padded_base62 s len).
Proof. unfold to_padded_base62, pad_left. apply every_app. split; [apply zeros_digits|apply text62_digits]. Qed.

Lemma padded_num s len : num62 0 (to_padded_base62 s len) = Some (be_num 0 s).
Proof. unfold to_padded_base62, pad_left. rewrite zeros_num. apply text62_num. Qed.

Lemma padded_len s len L : be_num 0 s < 62 ^ N.of_nat L -> (1 <= L)%nat ->
  (len <= String.length (to_padded_base62 s len) <= Nat.max len L)%nat.
Proof.
  intros H HL. unfold to_padded_base62, pad_left. rewrite slen_app, zeros_len.
  pose proof (text62_len _ _ H HL). lia.
Qed.

Lemma padded_nonempty s len : to_padded_base62 s len <> ""%string.
Proof.
  intros E. pose proof (padded_num s len) as H. unfold to_padded_base62, pad_left in E.
  assert (String.length (text62 (be_num 0 s)) = 0)%nat.
  { apply (f_equal String.length) in E. rewrite slen_app in E. cbn in E. lia. }
  pose proof (text62_len (be_num 0 s) (S (N.size_nat (be_num 0 s)))) as Ht.
  rewrite H0 in Ht. destruct Ht; try lia. rewrite pow_S. pose proof (size_bound (be_num 0 s)).
  apply N.lt_le_trans with (2 ^ N.of_nat (N.size_nat (be_num 0 s))); auto.
  apply N.le_trans with (62 ^ N.of_nat (N.size_nat (be_num 0 s))); [apply N.pow_le_mono_l; lia|].
  pose proof (N.pow_nonzero 62 (N.of_nat (N.size_nat (be_num 0 s)))). lia.
Qed.

Lemma C41_round_trip_proof : forall s len, parse_padded_base62 (to_padded_base62 s len) (String.length s) = Done (Some s).
Proof.
  intros s len. unfold parse_padded_base62.
  rewrite set_string_digits; [|apply padded_digits|apply padded_nonempty]. rewrite padded_num.
  destruct (fill_bytes (String.length s) (be_num 0 s)) as [b|] eqn:E.
  - apply fill_bytes_ok in E as (_ & Hl & Hb). f_equal. f_equal.
    rewrite <- (be_bytes_be_num b), <- (be_bytes_be_num s), Hl, Hb. reflexivity.
  - unfold fill_bytes in E. pose proof (be_num_lt s). destruct (N.ltb_spec (be_num 0 s) (256 ^ N.of_nat (String.length s))); [discriminate|lia].
Qed.

Lemma C41_uuid_width_proof : forall uuid, String.length uuid = 16%nat -> String.length (to_padded_base62 uuid 22) = 22%nat.
Proof.
  intros u H. pose proof (be_num_lt u) as Hl. rewrite H in Hl.
  assert (256 ^ N.of_nat 16 < 62 ^ N.of_nat 22) by (vm_compute; reflexivity).
  destruct (padded_len u 22 22); lia.
Qed.

Lemma C41_mac_width_partial_proof : forall sig, String.length sig = 44%nat ->
  (* one more than the declared 59 *)
  (59 <= String.length (to_padded_base62 sig 59) <= 60)%nat.
Proof.
  intros u H. pose proof (be_num_lt u) as Hl. rewrite H in Hl.
  assert (256 ^ N.of_nat 44 < 62 ^ N.of_nat 60) by (vm_compute; reflexivity).
  destruct (padded_len u 59 60); lia.
Qed.

Lemma C41_mac_width_refuted_proof : exists sig, String.length sig = 44%nat /\ String.length (to_padded_base62 sig 59) = 60%nat.
Proof. exists (be_bytes 44 (256 ^ 44 - 1) ""). split; vm_compute; reflexivity. Qed.
