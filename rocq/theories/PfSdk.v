(** * base64url, PKCE, generators, pairwise subjects, string arrays and error objects *)

From Verif Require Import SpecSdk Compare PfBase62 PfCompare StrFacts Spec.
From Coq Require Import Lia.
Local Open Scope N_scope.

(** ** base64url *)

Lemma b64_val_char n : n < 64 -> b64_val (b64_char n) = Some n.
Proof.
  intros H. unfold b64_char.
  destruct (N.ltb_spec n 26); [|destruct (N.ltb_spec n 52); [|destruct (N.ltb_spec n 62); [|destruct (N.eqb_spec n 62)]]].
  - unfold b64_val. rewrite byte_of_N by lia. rewrite (proj2 (range_iff _ 65 90)) by lia. f_equal; lia.
  - unfold b64_val. rewrite byte_of_N by lia.
    destruct (in_range (71 + n) 65 90) eqn:R; [apply range_iff in R; lia|].
    rewrite (proj2 (range_iff _ 97 122)) by lia. f_equal; lia.
  - unfold b64_val. rewrite byte_of_N by lia.
    destruct (in_range (n - 4) 65 90) eqn:R; [apply range_iff in R; lia|].
    destruct (in_range (n - 4) 97 122) eqn:R2; [apply range_iff in R2; lia|].
    rewrite (proj2 (range_iff _ 48 57)) by lia. f_equal; lia.
  - subst n; reflexivity.
  - replace n with 63 by lia; reflexivity.
Qed.

Lemma b64_char_in n : is_b64url (b64_char n).
Proof.
  unfold b64_char.
  destruct (N.ltb_spec n 26); [|destruct (N.ltb_spec n 52); [|destruct (N.ltb_spec n 62); [|destruct (N.eqb_spec n 62)]]].
  - left; right; left. rewrite byte_of_N; lia.
  - left; left. rewrite byte_of_N; lia.
  - left; right; right. rewrite byte_of_N; lia.
  - right; left; reflexivity.
  - right; right; reflexivity.
Qed.

Lemma b64_not_newline a : is_b64url a -> is_newline a = false.
Proof.
  intros H. unfold is_newline. destruct (N.eqb_spec (byte a) 10); [|destruct (N.eqb_spec (byte a) 13)]; auto;
    exfalso; unfold is_b64url, is_alnum in H; lia.
Qed.

Lemma string3_ind (P : string -> Prop) :
  P EmptyString -> (forall a, P (String a EmptyString)) -> (forall a b, P (String a (String b EmptyString))) ->
  (forall a b c r, P r -> P (String a (String b (String c r)))) -> forall s, P s.
Proof.
  intros H0 H1 H2 H3 s.
  assert (K : P s /\ (forall a, P (String a s)) /\ (forall a b, P (String a (String b s)))).
  { induction s as [|a s (IH0 & IH1 & IH2)]; repeat split; auto. }
  apply K.
Qed.

Lemma b64url_every s : every_char is_b64url (b64url s).
Proof. induction s using string3_ind; cbn [b64url every_char]; repeat split; auto using b64_char_in. Qed.

Lemma strip_id s : every_char is_b64url s -> strip_newlines s = s.
Proof.
  induction s as [|a s IH]; cbn [every_char strip_newlines]; auto. intros (A & B).
  rewrite b64_not_newline by auto. rewrite IH; auto.
Qed.

Lemma pack1 x : x < 256 -> x / 4 * 4 + (x mod 4 * 16) / 16 = x.
Proof. intros H. rewrite N.div_mul by lia. pose proof (N.div_mod x 4). lia. Qed.
Lemma pack1b x y : x < 256 -> y < 256 -> x / 4 * 4 + (x mod 4 * 16 + y / 16) / 16 = x.
Proof.
  intros H K. replace ((x mod 4 * 16 + y / 16) / 16) with (x mod 4).
  - pose proof (N.div_mod x 4). lia.
  - apply N.div_unique with (y / 16); [|lia]. apply N.div_lt_upper_bound; lia.
Qed.
Lemma pack2m x y : y < 256 -> (x mod 4 * 16 + y / 16) mod 16 = y / 16.
Proof.
  intros K. symmetry. apply N.mod_unique with (x mod 4); [|lia]. apply N.div_lt_upper_bound; lia.
Qed.
Lemma pack2 y : y < 256 -> y / 16 * 16 + (y mod 16 * 4) / 4 = y.
Proof. intros H. rewrite N.div_mul by lia. pose proof (N.div_mod y 16). lia. Qed.
Lemma pack2b y z : y < 256 -> z < 256 -> y / 16 * 16 + (y mod 16 * 4 + z / 64) / 4 = y.
Proof.
  intros H K. replace ((y mod 16 * 4 + z / 64) / 4) with (y mod 16).
  - pose proof (N.div_mod y 16). lia.
  - apply N.div_unique with (z / 64); [|lia]. apply N.div_lt_upper_bound; lia.
Qed.
Lemma pack3 y z : z < 256 -> (y mod 16 * 4 + z / 64) mod 4 * 64 + z mod 64 = z.
Proof.
  intros K. replace ((y mod 16 * 4 + z / 64) mod 4) with (z / 64).
  - pose proof (N.div_mod z 64). lia.
  - apply N.mod_unique with (y mod 16); [|lia]. apply N.div_lt_upper_bound; lia.
Qed.

Lemma six1 x : x < 256 -> x / 4 < 64.
Proof. intros; apply N.div_lt_upper_bound; lia. Qed.
Lemma six2 x y : y < 256 -> x mod 4 * 16 + y / 16 < 64.
Proof. intros K. pose proof (N.mod_lt x 4). assert (y / 16 < 16) by (apply N.div_lt_upper_bound; lia). lia. Qed.
Lemma six2b x : x mod 4 * 16 < 64.
Proof. pose proof (N.mod_lt x 4). lia. Qed.
Lemma six3 y z : z < 256 -> y mod 16 * 4 + z / 64 < 64.
Proof. intros K. pose proof (N.mod_lt y 16). assert (z / 64 < 4) by (apply N.div_lt_upper_bound; lia). lia. Qed.
Lemma six3b y : y mod 16 * 4 < 64.
Proof. pose proof (N.mod_lt y 16). lia. Qed.

Lemma b64_dec_enc s : b64_dec (b64url s) = Some s.
Proof.
  induction s as [|a|a b|a b c r IH] using string3_ind; cbn [b64url b64_dec]; auto;
    repeat rewrite b64_val_char by auto using six1, six2, six2b, six3, six3b, byte_lt, N.mod_lt;
    try (rewrite b64_val_char by (apply N.mod_lt; lia)).
  - rewrite pack1 by apply byte_lt. rewrite of_byte. reflexivity.
  - rewrite pack1b, pack2m, pack2 by apply byte_lt. rewrite !of_byte. reflexivity.
  - rewrite IH, pack1b, pack2m, pack2b, pack3 by apply byte_lt. rewrite !of_byte. reflexivity.
Qed.

(** C47: decoding inverts encoding, and the encoding of n bytes has ceil(4n/3) characters, all
    from the base64url alphabet. *)
Lemma C47_round_trip_proof : forall s, b64url_decode (b64url s) = Some s.
Proof. intros s. unfold b64url_decode. rewrite strip_id by apply b64url_every. apply b64_dec_enc. Qed.

Lemma C47_length_proof : forall s,
  (3 * String.length (b64url s) >= 4 * String.length s)%nat /\
  (3 * String.length (b64url s) < 4 * String.length s + 3)%nat /\
  every_char is_b64url (b64url s).
Proof.
  intros s. split; [|split; [|apply b64url_every]];
    induction s using string3_ind; cbn [b64url String.length]; lia.
Qed.

Lemma b64url_inj x y : b64url x = b64url y -> x = y.
Proof. intros H. pose proof (C47_round_trip_proof x) as A. rewrite H, C47_round_trip_proof in A. congruence. Qed.

(** ** PKCE *)

(** C46: what the generated pair looks like; these are the conditions the authorization and
    the token endpoint put on a challenge and a verifier. *)
Lemma C46_generated_pair_proof : forall sha random verifier challenge,
  String.length random = 96%nat -> (forall s, String.length (sha s) = 32%nat) ->
  code_verifier sha (Some random) = Some (verifier, challenge) ->
  String.length verifier = 128%nat /\ every_char is_b64url verifier /\
  String.length challenge = 43%nat /\ every_char is_b64url challenge /\
  b64url (sha verifier) = challenge /\ b64url_decode verifier = Some random.
Proof.
  intros sha random verifier challenge L S H. cbn [code_verifier] in H. injection H as <- <-.
  destruct (C47_length_proof random) as (A1 & A2 & A3).
  destruct (C47_length_proof (sha (b64url random))) as (B1 & B2 & B3).
  rewrite S in B1, B2. rewrite L in A1, A2. repeat split; auto using C47_round_trip_proof; lia.
Qed.

(** C46: the SDK's own Validate refuses every generated pair... *)
Lemma C46_validate_refuses_generated_refuted_proof : forall sha random verifier challenge,
  String.length random = 96%nat -> (forall s, String.length (sha s) = 32%nat) ->
  code_verifier sha (Some random) = Some (verifier, challenge) ->
  pkce_validate challenge verifier = Some false.
Proof.
  intros sha random verifier challenge L S H.
  destruct (C46_generated_pair_proof _ _ _ _ L S H) as (A & _ & B & _ & C & D).
  unfold pkce_validate. destruct challenge; [discriminate|]. destruct verifier; [discriminate|].
  cbn [is_empty]. rewrite <- C, C47_round_trip_proof, D.
  destruct (secure_compare (sha (String a0 verifier)) random) eqn:E; auto.
  apply C39_secure_compare_proof in E. pose proof (S (String a0 verifier)) as S'. rewrite E in S'. lia.
Qed.

(** ... because it compares the decoded strings, whatever the hash function. *)
Lemma C46_validate_is_equality_partial_proof : forall challenge verifier,
  pkce_validate challenge verifier = Some true <->
  challenge <> ""%string /\ verifier <> ""%string /\
  exists raw, b64url_decode challenge = Some raw /\ b64url_decode verifier = Some raw.
Proof.
  intros challenge verifier. unfold pkce_validate.
  destruct challenge as [|c challenge]; [split; [discriminate|intros (A & _); now elim A]|].
  destruct verifier as [|v verifier]; [split; [discriminate|intros (_ & A & _); now elim A]|].
  cbn [is_empty].
  destruct (b64url_decode (String c challenge)) as [x|]; [|split; [discriminate|intros (_ & _ & r & A & _); discriminate]].
  destruct (b64url_decode (String v verifier)) as [y|]; [|split; [discriminate|intros (_ & _ & r & _ & A); discriminate]].
  split.
  - intros H. injection H as H. apply C39_secure_compare_proof in H. subst y.
    repeat split; try discriminate. exists x; auto.
  - intros (_ & _ & r & A & B). injection A as ->. injection B as ->. f_equal. apply C39_secure_compare_proof; auto.
Qed.

(** ** TrimSpace on text without white space *)

Definition plain (a : ascii) : Prop := byte a < 128 /\ is_space (byte a) = false.

Lemma alnum_plain a : is_alnum a -> plain a.
Proof.
  intros H. unfold plain, is_space, is_alnum in *. split; [lia|].
  repeat match goal with
  | |- context [in_range ?b ?l ?h] => let R := fresh "R" in destruct (in_range b l h) eqn:R; [apply range_iff in R; lia|]
  | |- context [(?b =? ?k)] => destruct (N.eqb_spec b k); [lia|]
  end. reflexivity.
Qed.

Lemma segs_plain s : every_char plain s ->
  concat_s (map snd (segs s)) = s /\ Forall (fun g => is_space (fst g) = false) (segs s).
Proof.
  split; [apply segs_concat|]. induction s as [|a s IH]; [constructor|].
  destruct H as ((A & B) & C). rewrite segs_eq. rewrite (proj2 (N.ltb_lt _ _) A). constructor; cbn [fst]; auto.
Qed.

Lemma drop_space_id l : Forall (fun g => is_space (fst g) = false) l -> drop_space l = l.
Proof. intros H; destruct H as [|(r & c) l A B]; cbn [drop_space]; auto. cbn [fst] in A. rewrite A; auto. Qed.

Lemma trim_plain s : every_char plain s -> trim_space s = s.
Proof.
  intros H. destruct (segs_plain s H) as (A & B). unfold trim_space.
  rewrite (drop_space_id _ B), (drop_space_id (rev _)) by (apply Forall_rev; auto).
  rewrite rev_involutive; auto.
Qed.

Lemma every_imp (P Q : ascii -> Prop) s : (forall a, P a -> Q a) -> every_char P s -> every_char Q s.
Proof. intros H; induction s; cbn [every_char]; intuition auto. Qed.

(** ** Generated codes *)

Lemma std_alnum a : has_char a std_chars -> is_alnum a.
Proof.
  cbn [has_char std_chars]. intros H.
  repeat (destruct H as [->|H]; [unfold is_alnum; cbn; lia|]). elim H.
Qed.

(** C51: an authorization code and a device code are 32 letters and digits, and pass the
    validation of their generator. *)
Lemma C51_codes_proof : forall draw, draws_from_charset draw ->
  (String.length (generate_authorization_code draw) = 32%nat /\
   every_char is_alnum (generate_authorization_code draw) /\
   validate_code (generate_authorization_code draw) = true) /\
  (String.length (generate_device_code draw) = 32%nat /\
   every_char is_alnum (generate_device_code draw) /\
   validate_code (generate_device_code draw) = true) /\
  (String.length (generate_client_id draw) = 16%nat /\ every_char is_alnum (generate_client_id draw)).
Proof.
  intros draw D. assert (K : forall n, String.length (draw n std_chars) = n /\ every_char is_alnum (draw n std_chars)).
  { intros n. destruct (D n std_chars) as (A & B); [discriminate|]. split; auto.
    exact (every_imp _ _ _ std_alnum B). }
  assert (V : validate_code (draw 32%nat std_chars) = true).
  { unfold validate_code. destruct (K 32%nat) as (A & B).
    rewrite trim_plain by exact (every_imp _ _ _ alnum_plain B). rewrite A; reflexivity. }
  unfold generate_authorization_code, generate_device_code, generate_client_id.
  destruct (K 32%nat), (K 16%nat). repeat split; auto.
Qed.

Lemma substring_split n : forall s, (n <= String.length s)%nat ->
  (substring 0 n s ++ substring n (String.length s - n) s = s)%string /\ String.length (substring 0 n s) = n.
Proof.
  induction n as [|n IH]; intros s H.
  - assert (F : forall t, substring 0 (String.length t) t = t) by (induction t; cbn [substring String.length]; congruence).
    replace (substring 0 0 s) with ""%string by (destruct s; reflexivity). rewrite nil_sapp, Nat.sub_0_r, F. auto.
  - destruct s as [|a s]; cbn [String.length] in H; [lia|]. cbn [substring String.length].
    destruct (IH s) as (A & B); [lia|]. rewrite sapp_cons. cbn [Nat.sub]. rewrite A, B. auto.
Qed.
Lemma substring_shift n m : forall s k, substring (n + k) m s = substring k m (substring n (String.length s - n) s).
Proof.
  induction n as [|n IH]; intros s k.
  - assert (F : forall t, substring 0 (String.length t) t = t) by (induction t; cbn [substring String.length]; congruence).
    rewrite Nat.sub_0_r, F. reflexivity.
  - destruct s as [|a s]; cbn [String.length substring Nat.add Nat.sub].
    + destruct k, m; reflexivity.
    + apply IH.
Qed.

(** C51: the validation accepts nothing else: a text without white space and control
    characters is valid exactly when it has 32 characters. *)
Lemma visible_plain a : 33 <= byte a <= 126 -> plain a.
Proof.
  intros H. unfold plain, is_space in *. split; [lia|].
  repeat match goal with
  | |- context [in_range ?b ?l ?h] => let R := fresh "R" in destruct (in_range b l h) eqn:R; [apply range_iff in R; lia|]
  | |- context [(?b =? ?k)] => destruct (N.eqb_spec b k); [lia|]
  end. reflexivity.
Qed.
Lemma C51_code_validation_proof : forall s, every_char (fun a => 33 <= byte a <= 126) s ->
  (validate_code s = true <-> String.length s = 32%nat).
Proof.
  intros s H. unfold validate_code. rewrite trim_plain; [apply Nat.eqb_eq|].
  exact (every_imp _ _ _ visible_plain H).
Qed.

(** C51: user codes are two groups of four letters without vowels, or three groups of three
    digits. *)
Lemma C51_user_codes_proof : forall draw, draws_from_charset draw ->
  (exists x y, generate_alpha_user_code draw = (x ++ "-" ++ y)%string /\
     String.length x = 4%nat /\ String.length y = 4%nat /\
     every_char (fun a => has_char a "BCDFGHJKLMNPQRSTVWXZ") (x ++ y)) /\
  (exists x y z, generate_num_user_code draw = (x ++ "-" ++ y ++ "-" ++ z)%string /\
     String.length x = 3%nat /\ String.length y = 3%nat /\ String.length z = 3%nat /\
     every_char (fun a => 48 <= byte a <= 57) (x ++ y ++ z)).
Proof.
  intros draw D. split.
  - destruct (D 8%nat alpha_charset) as (L & C); [discriminate|].
    unfold generate_alpha_user_code. set (s := draw 8%nat alpha_charset) in *.
    destruct (substring_split 4 s) as (A & B); [lia|]. rewrite L in A.
    exists (substring 0 4 s), (substring 4 4 s). repeat split; auto.
    + assert (String.length (substring 0 4 s ++ substring 4 (8 - 4) s) = 8%nat) by (rewrite A; auto).
      rewrite slen_app, B in H. cbn [Nat.sub] in H. lia.
    + cbn [Nat.sub] in A. rewrite A. exact C.
  - destruct (D 9%nat num_charset) as (L & C); [discriminate|].
    unfold generate_num_user_code. set (s := draw 9%nat num_charset) in *.
    destruct (substring_split 3 s) as (A & B); [lia|]. rewrite L in A. cbn [Nat.sub] in A.
    set (t := substring 3 6 s) in *.
    assert (Lt : String.length t = 6%nat).
    { assert (String.length (substring 0 3 s ++ t) = 9%nat) by (rewrite A; auto). rewrite slen_app, B in H. lia. }
    destruct (substring_split 3 t) as (A' & B'); [lia|]. rewrite Lt in A'. cbn [Nat.sub] in A'.
    assert (E1 : substring 3 3 s = substring 0 3 t).
    { pose proof (substring_shift 3 3 s 0) as E. rewrite L in E. exact E. }
    assert (E2 : substring 6 3 s = substring 3 3 t).
    { pose proof (substring_shift 3 3 s 3) as E. rewrite L in E. exact E. }
    exists (substring 0 3 s), (substring 3 3 s), (substring 6 3 s). repeat split; auto.
    + rewrite E1; auto.
    + assert (String.length (substring 0 3 t ++ substring 3 3 t) = 6%nat) by (rewrite A'; auto).
      rewrite slen_app, B' in H. rewrite E2. lia.
    + rewrite E1, E2, A', A. eapply every_imp; [|exact C]. cbn beta. intros a H. cbn [has_char num_charset] in H.
      repeat (destruct H as [->|H]; [cbn; lia|]). elim H.
Qed.

(** ** Request URIs *)

Lemma starts_alnum_iff n : forall s, starts_alnum n s = true <->
  exists x q, s = (x ++ q)%string /\ String.length x = n /\ every_char is_alnum x.
Proof.
  induction n as [|n IH]; intros s; cbn [starts_alnum].
  - split; auto. intros _. exists ""%string, s. cbn. auto.
  - destruct s as [|a s].
    + split; [discriminate|]. intros ([|b x] & q & A & B & _); discriminate.
    + rewrite Bool.andb_true_iff, IH. unfold alnum_char. rewrite !Bool.orb_true_iff, !range_iff. split.
      * intros (A & x & q & -> & B & C). exists (String a x), q. cbn [String.length every_char]. unfold is_alnum.
        repeat split; auto; lia.
      * intros ([|b x] & q & A & B & C); [discriminate|]. rewrite sapp_cons in A. injection A as <- ->.
        cbn [every_char] in C. destruct C as (C & C'). unfold is_alnum in C. split; [lia|].
        exists x, q. cbn [String.length] in B. repeat split; auto.
Qed.

Lemma starts_pattern_iff lit n : forall s, starts_pattern lit s n = true <->
  exists x q, s = (lit ++ x ++ q)%string /\ String.length x = n /\ every_char is_alnum x.
Proof.
  induction lit as [|a lit IH]; intros s; cbn [starts_pattern].
  - apply starts_alnum_iff.
  - destruct s as [|b s].
    + split; [discriminate|]. intros (x & q & A & _). discriminate.
    + rewrite Bool.andb_true_iff, IH, Ascii.eqb_eq. split.
      * intros (<- & x & q & -> & B & C). exists x, q. auto.
      * intros (x & q & A & B & C). rewrite sapp_cons in A. injection A as <- ->. split; eauto.
Qed.

Lemma request_uri_matches_iff s : request_uri_matches s = true <->
  exists p x q, s = (p ++ "urn:solid:" ++ x ++ q)%string /\ String.length x = 32%nat /\ every_char is_alnum x.
Proof.
  induction s as [|a s IH]; cbn [request_uri_matches]; rewrite Bool.orb_true_iff, starts_pattern_iff.
  - split.
    + intros [(x & q & A & _)|A]; [|discriminate]. discriminate.
    + intros ([|b p] & x & q & A & _); discriminate.
  - rewrite IH. split.
    + intros [(x & q & A & B)|(p & x & q & -> & B)].
      * exists ""%string, x, q. rewrite nil_sapp. split; [exact A|exact B].
      * exists (String a p), x, q. split; [reflexivity|exact B].
    + intros ([|b p] & x & q & A & B & C).
      * left. exists x, q. split; [exact A|split; [exact B|exact C]].
      * right. rewrite sapp_cons in A. injection A as <- A. exists p, x, q. auto.
Qed.

Lemma concat_len l : String.length (concat_s l) = list_sum (map String.length l).
Proof. induction l; cbn [concat_s map list_sum fold_right]; auto. rewrite slen_app, IHl. reflexivity. Qed.
Lemma drop_sum l : (list_sum (map String.length (map snd (drop_space l))) <= list_sum (map String.length (map snd l)))%nat.
Proof.
  induction l as [|(r & c) l IH]; cbn [drop_space]; auto. destruct (is_space r); auto.
  change (list_sum (map String.length (map snd ((r, c) :: l)))) with
    (String.length c + list_sum (map String.length (map snd l)))%nat. lia.
Qed.
Lemma list_sum_rev l : list_sum (rev l) = list_sum l.
Proof. induction l; cbn [rev]; auto. rewrite list_sum_app, IHl. unfold list_sum. cbn [fold_right]. fold (list_sum l). lia. Qed.
Lemma trim_len s : (String.length (trim_space s) <= String.length s)%nat.
Proof.
  unfold trim_space. rewrite concat_len, !map_rev, list_sum_rev.
  eapply Nat.le_trans; [apply drop_sum|]. rewrite !map_rev, list_sum_rev.
  eapply Nat.le_trans; [apply drop_sum|]. rewrite <- concat_len, segs_concat. lia.
Qed.

(** C30: no request_uri of the default generator passes its validation. *)
Lemma C30_generated_uri_refused_refuted_proof : forall draw, draws_from_charset draw ->
  validate_request_uri (generate_request_uri draw) = false.
Proof.
  intros draw D. destruct (validate_request_uri _) eqn:E; auto. unfold validate_request_uri in E.
  apply request_uri_matches_iff in E. destruct E as (p & x & q & A & B & _).
  pose proof (trim_len (generate_request_uri draw)) as T. rewrite A in T. unfold generate_request_uri in T.
  destruct (D 32%nat std_chars) as (L & _); [discriminate|]. rewrite L, !slen_app, B in T.
  change (String.length "urn:solid:") with 10%nat in T. lia.
Qed.

(** What it accepts: any text that has "urn:solid:" and 32 letters and digits in it. *)
Lemma C30_accepted_uris_partial_proof : forall s,
  validate_request_uri s = true <->
  exists p x q, trim_space s = (p ++ "urn:solid:" ++ x ++ q)%string /\
    String.length x = 32%nat /\ every_char is_alnum x.
Proof. intros s. apply request_uri_matches_iff. Qed.

(** ** Pairwise subjects *)

Lemma drop_space_all l : Forall (fun g => is_space (fst g) = true) l -> drop_space l = [].
Proof. induction 1 as [|(r & c) l A B IH]; cbn [drop_space]; auto. cbn [fst] in A. rewrite A; auto. Qed.

(** C50: a subject of white space only is rejected, and so are salts of fewer than 16 or more
    than 64 bytes; everything else is encoded. *)
Lemma C50_rejections_proof : forall blake salt sector subject,
  (only_space subject -> pairwise_encode blake salt sector subject = None) /\
  ((String.length salt < 16)%nat \/ (64 < String.length salt)%nat -> pairwise_encode blake salt sector subject = None) /\
  (~ only_space subject -> (16 <= String.length salt <= 64)%nat -> pairwise_encode blake salt sector subject <> None).
Proof.
  intros blake salt sector subject. unfold pairwise_encode. repeat split.
  - intros H. destruct (Nat.ltb _ _); auto. replace (trim_space subject) with ""%string; auto.
    unfold only_space, runes in H. rewrite Forall_map in H.
    unfold trim_space. rewrite (drop_space_all (segs subject)) by exact H. reflexivity.
  - intros [H|H].
    + rewrite (proj2 (Nat.ltb_lt _ _) H). auto.
    + destruct (Nat.ltb _ _); auto. destruct (Nat.eqb _ _); auto. rewrite (proj2 (Nat.ltb_lt _ _) H). auto.
  - intros H (A & B). destruct (Nat.ltb_spec (String.length salt) 16); [lia|].
    destruct (Nat.eqb_spec (String.length (trim_space subject)) 0) as [E|E].
    + elim H. unfold only_space, runes. rewrite Forall_map.
      unfold trim_space in E. rewrite concat_len, !map_rev, list_sum_rev in E.
      destruct (Forall_Exists_dec (fun g => is_space (fst g) = true)
        (fun g => Bool.bool_dec (is_space (fst g)) true) (segs subject)) as [F|F]; auto. exfalso.
      assert (K : forall l, Exists (fun g : N * string => is_space (fst g) <> true) l ->
                 exists g l', drop_space l = g :: l' /\ is_space (fst g) = false /\ In g l).
      { induction l as [|(r & c) l IH]; intros X; [inversion X|]. cbn [drop_space].
        destruct (is_space r) eqn:Er.
        - inversion X; subst; [cbn [fst] in *; congruence|]. destruct IH as (g & l' & I1 & I2 & I3); auto.
          exists g, l'. repeat split; auto. right; auto.
        - exists (r, c), l. repeat split; auto. left; auto. }
      destruct (K _ F) as (g & l' & D1 & D2 & D3). rewrite D1 in E.
      assert (F2 : Exists (fun g : N * string => is_space (fst g) <> true) (rev (g :: l'))).
      { apply Exists_exists. exists g. split; [apply in_rev; rewrite rev_involutive; left; auto|congruence]. }
      destruct (K _ F2) as (g2 & l2 & D4 & D5 & D6). rewrite D4 in E.
      apply in_rev in D6. rewrite <- D1 in D6.
      assert (In g2 (segs subject)).
      { revert D6. generalize (segs subject) as l. induction l as [|(r & c) l IH]; cbn [drop_space]; auto.
        destruct (is_space r); auto. right; auto. }
      assert (P : forall s, Forall (fun g => String.length (snd g) <> 0%nat) (segs s)).
      { clear. intros s. remember (String.length s) as n eqn:Hn. revert s Hn.
        induction n as [n IH] using (well_founded_induction Wf_nat.lt_wf). intros s Hn.
        destruct s as [|a s]; [constructor|]. cbn [String.length] in Hn.
        rewrite segs_eq.
        repeat match goal with
        | |- context [if ?b then _ else _] => destruct b
        | |- context [match ?o with None => _ | Some _ => _ end] => destruct o as [((? & ?) & ?)|]
        | |- context [match ?s with EmptyString => _ | String _ _ => _ end] => destruct s
        | |- context [match ?n with O => _ | S _ => _ end] => destruct n
        end;
        repeat (constructor; [cbn; discriminate|]); try constructor; eapply IH; try reflexivity; cbn [String.length] in *; lia. }
      specialize (P subject). rewrite Forall_forall in P. specialize (P _ H1).
      cbn [map list_sum fold_right] in E. lia.
    + destruct (Nat.ltb_spec 64 (String.length salt)); [lia|]. discriminate.
Qed.

(** C50: under one salt, if the hash has no collision then equal identifiers come from equal
    concatenations of sector and trimmed subject; with sectors of one length, from equal pairs. *)
Lemma C50_distinct_partial_proof : forall blake salt sector sector' subject subject' v,
  (forall x y, blake salt x = blake salt y -> x = y) ->
  pairwise_encode blake salt sector subject = Some v ->
  pairwise_encode blake salt sector' subject' = Some v ->
  (sector ++ trim_space subject = sector' ++ trim_space subject')%string /\
  (String.length sector = String.length sector' ->
   sector = sector' /\ trim_space subject = trim_space subject').
Proof.
  intros blake salt sector sector' subject subject' v Inj A B. unfold pairwise_encode in A, B.
  repeat match type of A with (if ?b then _ else _) = _ => destruct b; [discriminate|] end.
  repeat match type of B with (if ?b then _ else _) = _ => destruct b; [discriminate|] end.
  injection A as A. injection B as B. rewrite <- B in A. apply b64url_inj, Inj in A. split; auto.
  clear - A. revert sector' A. induction sector as [|a s IH]; intros [|b s'] A L; cbn [String.length] in L; try discriminate.
  - auto.
  - rewrite !sapp_cons in A. injection A as <- A. destruct (IH s' A) as (-> & ->); auto.
Qed.

(** C50: different sectors and subjects share an identifier, whatever the hash. *)
Lemma C50_distinct_refuted_proof : forall blake salt, (16 <= String.length salt <= 64)%nat ->
  exists sector sector' subject subject' v,
    sector <> sector' /\ subject <> subject' /\
    pairwise_encode blake salt sector subject = Some v /\
    pairwise_encode blake salt sector' subject' = Some v.
Proof.
  intros blake salt (A & B).
  exists "shop.example.com"%string, "shop.example.comalice"%string, "alice-1"%string, "-1"%string,
    (b64url (blake salt "shop.example.comalice-1"%string)).
  assert (K : forall s u, trim_space u = u -> u <> ""%string ->
    pairwise_encode blake salt s u = Some (b64url (blake salt (s ++ u)%string))).
  { intros s u T E. unfold pairwise_encode. rewrite T.
    destruct (Nat.ltb_spec (String.length salt) 16); [lia|].
    destruct u; [congruence|]. cbn [String.length Nat.eqb].
    destruct (Nat.ltb_spec 64 (String.length salt)); [lia|]. reflexivity. }
  repeat split; try discriminate; rewrite K; try reflexivity; discriminate.
Qed.

(** ** StringArray *)

Lemma list_eqb_iff a : forall b, list_eqb a b = true <-> a = b.
Proof.
  induction a as [|x a IH]; intros [|y b]; cbn [list_eqb]; try (split; congruence).
  rewrite Bool.andb_true_iff, IH, N.eqb_eq. split; [intros (-> & ->); auto|intros H; injection H; auto].
Qed.
Lemma equal_fold_iff fold s t : equal_fold fold s t = true <-> fold_eq fold s t.
Proof. apply list_eqb_iff. Qed.

Lemma C40_contains_proof : forall fold s item,
  contains fold s item = true <-> exists v, In v s /\ fold_eq fold item v.
Proof.
  intros fold s item. induction s as [|v s IH]; cbn [contains].
  - split; [discriminate|intros (v & [] & _)].
  - destruct (equal_fold fold item v) eqn:E.
    + apply equal_fold_iff in E. split; auto. intros _. exists v. split; [left|]; auto.
    + rewrite IH. split.
      * intros (w & A & B). exists w. split; [right|]; auto.
      * intros (w & [<-|A] & B); eauto. apply equal_fold_iff in B. congruence.
Qed.

Lemma C40_add_proof : forall fold s item,
  ((exists v, In v s /\ fold_eq fold item v) -> add_if_not_contains fold s item = s) /\
  (~ (exists v, In v s /\ fold_eq fold item v) -> add_if_not_contains fold s item = (s ++ [item])%list).
Proof.
  intros fold s item. unfold add_if_not_contains. rewrite <- C40_contains_proof.
  destruct (contains fold s item); split; auto; congruence.
Qed.

Lemma C40_remove_proof : forall fold s item,
  (~ (exists v, In v s /\ fold_eq fold item v) /\ remove_first fold s item = s) \/
  exists before v after, s = (before ++ v :: after)%list /\ fold_eq fold item v /\
    (forall u, In u before -> ~ fold_eq fold item u) /\
    remove_first fold s item = (before ++ after)%list.
Proof.
  intros fold s item. induction s as [|v s IH]; cbn [remove_first].
  - left. split; auto. intros (v & [] & _).
  - destruct (equal_fold fold item v) eqn:E.
    + apply equal_fold_iff in E. right. exists [], v, s. repeat split; auto.
    + assert (N : ~ fold_eq fold item v) by (rewrite <- equal_fold_iff; congruence).
      destruct IH as [(A & B)|(b & w & a & -> & A & B & C)].
      * left. split; [|congruence]. intros (w & [<-|I] & F); eauto.
      * right. exists (v :: b), w, a. repeat split; auto; [|cbn; congruence]. intros u [<-|I]; auto.
Qed.

Lemma C40_has_one_of_proof : forall fold s items,
  has_one_of fold s items = true <-> exists i v, In i items /\ In v s /\ fold_eq fold i v.
Proof.
  intros fold s items. induction items as [|i items IH]; cbn [has_one_of].
  - split; [discriminate|intros (i & v & [] & _)].
  - destruct (contains fold s i) eqn:E.
    + apply C40_contains_proof in E. destruct E as (v & A & B). split; auto. intros _. exists i, v.
      repeat split; auto. left; auto.
    + rewrite IH. split.
      * intros (j & v & A & B). exists j, v. split; [right|]; auto.
      * intros (j & v & [<-|A] & B & C); eauto.
        assert (contains fold s i = true) by (apply C40_contains_proof; eauto). congruence.
Qed.

Lemma C40_has_all_proof : forall fold s items,
  has_all fold s items = true <->
  items <> [] /\ forall i, In i items -> exists v, In v s /\ fold_eq fold i v.
Proof.
  intros fold s items. unfold has_all.
  assert (K : forall l b, has_all_loop fold s l b = true <->
    (l = [] -> b = true) /\ forall i, In i l -> exists v, In v s /\ fold_eq fold i v).
  { induction l as [|i l IH]; intros b; cbn [has_all_loop].
    - split; [intros ->; split; [auto|intros i []]|intros (A & _); auto].
    - destruct (contains fold s i) eqn:E; cbn [negb].
      + rewrite IH. apply C40_contains_proof in E. split.
        * intros (_ & A). split; [discriminate|]. intros j [<-|I]; auto.
        * intros (_ & A). split; auto. intros j I. apply A. right; auto.
      + split; [discriminate|]. intros (_ & A).
        assert (contains fold s i = true) by (apply C40_contains_proof, A; left; auto). congruence. }
  rewrite K. split; intros (A & B); split; auto.
  intros ->. specialize (A eq_refl). discriminate.
Qed.

(** ** Error objects *)

Lemma run_build b calls : forall e, In e (run_builder b calls) <->
  exists before after, calls = (before ++ CallBuild :: after)%list /\
   e = mkBuilt (b_err b) (last_description before (b_description b)) (non_empty (b_uri b))
         (non_empty (last_state before (b_state b))) (non_empty (b_resource b)).
Proof.
  revert b. induction calls as [|c calls IH]; intros b e; cbn [run_builder].
  - split; [intros []|intros ([|? ?] & ? & A & _); discriminate].
  - destruct c as [v|v|].
    + rewrite IH. split; intros (x & y & A & B).
      * exists (CallState v :: x), y. subst. auto.
      * destruct x as [|c x]; cbn [List.app] in A; [discriminate|]. injection A as <- ->. exists x, y. auto.
    + rewrite IH. split; intros (x & y & A & B).
      * exists (CallDescription v :: x), y. subst. auto.
      * destruct x as [|c x]; cbn [List.app] in A; [discriminate|]. injection A as <- ->. exists x, y. auto.
    + cbn [In]. rewrite IH. split.
      * intros [<-|(x & y & -> & ->)].
        -- exists [], calls. auto.
        -- exists (CallBuild :: x), y. auto.
      * intros ([|c x] & y & A & B); cbn [List.app] in A.
        -- left. symmetry; exact B.
        -- injection A as <- ->. right. exists x, y. auto.
Qed.

(** C59: every object a builder returns, at whatever point of whatever sequence of calls, has
    the code of its condition (RFC 8628's expired_token apart), the state last given if that is
    not empty and none otherwise, the description last given, and nothing else. *)
Lemma C59_built_errors_partial_proof : forall c before after e,
  c <> TokenExpired ->
  nth_error (run_builder (new_builder c) (before ++ CallBuild :: after))
    (List.length (filter (fun x => match x with CallBuild => true | _ => false end) before)) = Some e ->
  bt_code e = registered_code c /\
  (bt_state e = None <-> last_state before "" = ""%string) /\
  (forall s, bt_state e = Some s -> s = last_state before "") /\
  bt_description e = last_description before (bt_description (build (new_builder c))) /\
  bt_uri e = None /\ bt_resource e = None.
Proof.
  intros c before after e NT H.
  assert (K : forall l b, nth_error (run_builder b (l ++ CallBuild :: after))
      (List.length (filter (fun x => match x with CallBuild => true | _ => false end) l)) =
      Some (mkBuilt (b_err b) (last_description l (b_description b)) (non_empty (b_uri b))
         (non_empty (last_state l (b_state b))) (non_empty (b_resource b)))).
  { induction l as [|x l IH]; intros b; [reflexivity|]. destruct x; cbn [List.app run_builder filter].
    - rewrite IH. reflexivity.
    - rewrite IH. reflexivity.
    - cbn [List.length nth_error]. rewrite IH. reflexivity. }
  rewrite K in H. injection H as <-. cbn [bt_code bt_state bt_description bt_uri bt_resource build].
  assert (S : b_state (new_builder c) = ""%string) by (destruct c; reflexivity).
  rewrite S. repeat split.
  - destruct c; try reflexivity. congruence.
  - unfold non_empty. destruct (last_state before ""); auto. discriminate.
  - intros ->; reflexivity.
  - intros s. unfold non_empty. destruct (last_state before ""); cbn [is_empty]; congruence.
  - destruct c; reflexivity.
  - destruct c; reflexivity.
Qed.

(** C59: an expired device code is reported with a code that is not the registered one. *)
Lemma C59_expired_device_code_refuted_proof : forall e calls,
  In e (run_builder (new_builder TokenExpired) calls) -> bt_code e <> registered_code TokenExpired.
Proof. intros e calls H. apply run_build in H. destruct H as (x & y & _ & ->). discriminate. Qed.

(** C59: conditions are told apart by their codes. *)
Lemma C59_codes_distinct_proof : forall c c' calls calls' e e',
  In e (run_builder (new_builder c) calls) -> In e' (run_builder (new_builder c') calls') ->
  bt_code e = bt_code e' -> c = c'.
Proof.
  intros c c' calls calls' e e' A B. apply run_build in A. apply run_build in B.
  destruct A as (x & y & _ & ->). destruct B as (x' & y' & _ & ->). cbn [bt_code].
  destruct c, c'; intros H; try reflexivity; discriminate H.
Qed.
