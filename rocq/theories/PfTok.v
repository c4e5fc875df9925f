(** * Proofs: signed tokens, JARM, introspection documents *)

From Verif Require Export SpecTok ProgFacts2.
From Coq Require Import ZArith Lia.

(** ** Key selection *)

Lemma find_key_some ok keys k : find_key ok keys = Some k -> In k keys /\ k_use k <> "enc"%string /\ ok k = true.
Proof.
  induction keys as [|x r IH]; cbn [find_key]; [discriminate|].
  destruct (String.eqb (k_use x) "enc") eqn:Hu.
  - intros H. apply IH in H as (A & B & C). repeat split; auto. right; auto.
  - destruct (ok x) eqn:Ho.
    + intros [= <-]. apply String.eqb_neq in Hu. repeat split; auto. left; auto.
    + intros H. apply IH in H as (A & B & C). repeat split; auto. right; auto.
Qed.

Lemma find_key_none ok keys : find_key ok keys = None ->
  forall k, In k keys -> k_use k <> "enc"%string -> ok k = false.
Proof.
  induction keys as [|x r IH]; cbn [find_key]; [intros _ k []|].
  destruct (String.eqb (k_use x) "enc") eqn:Hu.
  - intros H k [<-|Hin] Hk; [apply String.eqb_eq in Hu; contradiction|eauto].
  - destruct (ok x) eqn:Ho; [discriminate|]. intros H k [<-|Hin] Hk; eauto.
Qed.

Lemma keys_by_id_in keys kid k : In k (keys_by_id keys kid) <-> In k keys /\ k_id k = kid.
Proof. unfold keys_by_id. rewrite filter_In, String.eqb_eq. reflexivity. Qed.

Lemma is_some_iff {A} (o : option A) : is_some o = true <-> exists a, o = Some a.
Proof. destruct o; cbn; split; try discriminate; eauto. intros (? & [=]). Qed.

Lemma token_decode_some {A} E (dec : string -> option A) k raw c :
  token_decode E dec k raw = Some c <-> x_verify E k raw = true /\ dec raw = Some c.
Proof. unfold token_decode. destruct (x_verify E k raw); split; try tauto; intuition discriminate. Qed.

Lemma verifier_claims_iff {A} E (dec : string -> option A) ks raw c :
  verifier_claims E dec (Some ks) raw = Some c <-> verified_with E ks raw /\ dec raw = Some c.
Proof.
  unfold verifier_claims, verified_with. split.
  - destruct (x_parse E raw) as [t|] eqn:Hp; [|discriminate].
    cbv zeta. match goal with |- context[find_key ?f ?l] => destruct (find_key f l) as [k|] eqn:Hf end; [|discriminate].
    intros Hd. apply find_key_some in Hf as (Hin & Hu & Hs). apply token_decode_some in Hd as (Hv & Hd).
    split; auto. exists t, k. repeat split; auto.
    + destruct (is_empty (j_kid t)); [exact Hin|]. apply keys_by_id_in in Hin. tauto.
    + destruct (is_empty (j_kid t)) eqn:He; [left; apply is_empty_true; exact He|].
      apply keys_by_id_in in Hin. right; tauto.
  - intros ((t & k & Hp & Hin & Hu & Hk & Hv) & Hd). rewrite Hp. cbv zeta.
    assert (Hin' : In k (if is_empty (j_kid t) then ks else keys_by_id ks (j_kid t))).
    { destruct (is_empty (j_kid t)) eqn:He; [exact Hin|]. apply keys_by_id_in. split; auto.
      destruct Hk as [Hk|Hk]; [|exact Hk]. rewrite Hk in He. discriminate. }
    match goal with |- context[find_key ?f ?l] => destruct (find_key f l) as [k'|] eqn:Hf end.
    + apply find_key_some in Hf as (_ & _ & Hs). apply is_some_iff in Hs as (c' & Hs).
      rewrite Hs. apply token_decode_some in Hs as (_ & Hs). congruence.
    + apply (find_key_none _ _ Hf) in Hin'; auto. cbn beta in Hin'.
      rewrite (proj2 (token_decode_some E dec k raw c)) in Hin'; [discriminate|auto].
Qed.

Lemma C54_verifier_proof : forall A E (dec : string -> option A) keys raw c,
  verifier_claims E dec (Some keys) raw = Some c <-> verified_with E keys raw /\ dec raw = Some c.
Proof. exact @verifier_claims_iff. Qed.

Lemma C54_provider_failure_proof : forall A E (dec : string -> option A) raw,
  verifier_claims E dec None raw = None.
Proof. intros. unfold verifier_claims. destruct (x_parse E raw); reflexivity. Qed.

Lemma C54_signature_proof : forall E keys raw,
  validate_signature E keys raw = true <->
  exists k, In k keys /\ k_use k <> "enc"%string /\ x_verify E k raw = true.
Proof.
  intros E keys raw. unfold validate_signature. split.
  - destruct keys as [|x r] eqn:Hk; [discriminate|].
    match goal with |- context[find_key ?f ?l] => destruct (find_key f l) as [k|] eqn:Hf end; [|discriminate].
    intros _. apply find_key_some in Hf. exists k. tauto.
  - intros (k & Hin & Hu & Hv). destruct keys as [|x r] eqn:Hk; [destruct Hin|].
    match goal with |- context[find_key ?f ?l] => destruct (find_key f l) as [k'|] eqn:Hf end; [reflexivity|].
    apply (find_key_none _ _ Hf) in Hin; auto. congruence.
Qed.

Lemma C54_validate_token_proof : forall A E (dec : string -> option A) keys raw c,
  validate_token E dec keys raw = Some c <->
  (exists k, In k keys /\ k_use k <> "enc"%string /\ x_verify E k raw = true) /\ dec raw = Some c.
Proof.
  intros A E dec keys raw c. unfold validate_token. split.
  - destruct keys as [|x r] eqn:Hk; [discriminate|].
    match goal with |- context[find_key ?f ?l] => destruct (find_key f l) as [k|] eqn:Hf end; [|discriminate].
    intros Hd. apply find_key_some in Hf as (Hin & Hu & _). apply token_decode_some in Hd as (Hv & Hd).
    split; auto. exists k. auto.
  - intros ((k & Hin & Hu & Hv) & Hd). destruct keys as [|x r] eqn:Hk; [destruct Hin|].
    match goal with |- context[find_key ?f ?l] => destruct (find_key f l) as [k'|] eqn:Hf end.
    + apply find_key_some in Hf as (_ & _ & Hs). apply is_some_iff in Hs as (c' & Hs).
      rewrite Hs. apply token_decode_some in Hs as (_ & Hs). congruence.
    + apply (find_key_none _ _ Hf) in Hin; auto. cbn beta in Hin.
      rewrite (proj2 (token_decode_some E dec k raw c)) in Hin; [discriminate|auto].
Qed.

(** ** JARM *)

Lemma serialize_inv {A} (sign : jose_sign A) typ embed provider c raw :
  jwt_serialize sign typ embed provider c = Some raw ->
  exists k, provider = Some (KKey k) /\ k_id k <> ""%string /\ sign typ k embed c = Some raw.
Proof.
  unfold jwt_serialize. destruct provider as [[| |k]|]; try discriminate.
  destruct (is_empty (k_id k)) eqn:H; [discriminate|]. intros. exists k.
  repeat split; auto. apply is_empty_false; auto.
Qed.

Lemma expiry_small now expires : (expires <= 9000000000)%N -> (now + 9000000000 * second < 2 ^ 64)%N ->
  expiry now expires = (unix now + expires)%N.
Proof.
  intros H1 H2. unfold expiry, int64, unix, second in *.
  assert (B : (0 <= Z.of_N expires <= 9000000000)%Z) by lia.
  replace ((Z.of_N expires + 2 ^ 63) mod 2 ^ 64)%Z with (Z.of_N expires + 2 ^ 63)%Z
    by (symmetry; apply Z.mod_small; lia).
  replace (Z.of_N expires + 2 ^ 63 - 2 ^ 63)%Z with (Z.of_N expires) by lia.
  replace ((Z.of_N expires * 1000000000 + 2 ^ 63) mod 2 ^ 64)%Z
    with (Z.of_N expires * 1000000000 + 2 ^ 63)%Z by (symmetry; apply Z.mod_small; lia).
  replace (Z.of_N expires * 1000000000 + 2 ^ 63 - 2 ^ 63)%Z with (Z.of_N expires * 1000000000)%Z by lia.
  rewrite Z.div_add by lia.
  assert (D : (0 <= Z.of_N now / 1000000000 <= Z.of_N now)%Z).
  { split; [apply Z.div_pos; lia|]. apply Z.div_le_upper_bound; lia. }
  rewrite Z.mod_small by lia.
  rewrite Z2N.inj_add by lia. rewrite N2Z.id.
  change 1000000000%Z with (Z.of_N 1000000000). rewrite <- N2Z.inj_div, N2Z.id. reflexivity.
Qed.

Lemma C48_round_trip_partial_proof : forall E dec pub sign k keys issuer r raw t1 t2,
  jose_works E dec pub sign -> In (pub k) keys -> k_use k <> "enc"%string ->
  jarm_encode (jwt_serialize sign "jarm+jwt" false (Some (KKey k))) issuer (Some r) t1 = Some raw -> raw <> ""%string ->
  jr_error r = None -> (jr_expires_in r <= 9000000000)%N -> (t1 + 9000000000 * second < 2 ^ 64)%N ->
  (unix t2 <= unix t1 + jr_expires_in r)%N ->
  jarm_decode E dec (Some keys) (jr_issuer r) (jr_client_id r) raw t2 =
  JOk (mkJarmResp None (jr_code r) (jr_state r) "" 0 (jr_issuer r)).
Proof.
  intros E dec pub sign k keys issuer r raw t1 t2 (Hpub & Hjose) Hin Huse Henc Hraw Herr Hx Hn Ht.
  unfold jarm_encode in Henc. destruct (is_empty issuer); [discriminate|]. rewrite Herr in Henc.
  destruct (is_empty (jr_client_id r)) eqn:Hc; [discriminate|].
  destruct (_ || _) eqn:Hb; [discriminate|]. clear Hb.
  apply serialize_inv in Henc as (k' & [= <-] & Hid & Hs).
  apply Hjose in Hs as (Hp & Hv & Hd). destruct (Hpub k) as (Hpi & Hpu).
  unfold jarm_decode. rewrite Hc. rewrite (proj2 (is_empty_false raw) Hraw). cbn [orb].
  rewrite Hp. cbn [j_typ]. change (String.eqb "jarm+jwt" jarm_type) with true. cbn [negb].
  assert (HC : verifier_claims E dec (Some keys) raw =
    Some (mkJarm (jr_issuer r) (jr_client_id r) (expiry t1 (jr_expires_in r)) (jr_code r) (jr_state r) "" "")).
  { apply verifier_claims_iff. split; [|exact Hd]. exists (mkJws (Some "jarm+jwt") (k_id k) None), (pub k).
    repeat split; auto; try congruence. }
  rewrite HC. cbn [jm_error jm_iss jm_aud jm_exp is_empty negb jm_code jm_state].
  rewrite !String.eqb_refl. cbn [negb]. rewrite expiry_small by auto.
  destruct (unix t1 + jr_expires_in r <? unix t2)%N eqn:Hlt; [apply N.ltb_lt in Hlt; lia|reflexivity].
Qed.

(** A lifetime of some 540 years and more overflows: the response is expired when it is made. *)
Lemma expiry_long t n : (17000000000 <= n <= 18446744000)%N -> (1500000000 * second <= t < 2 ^ 63)%N ->
  (expiry t n < unix t)%N.
Proof.
  unfold second, unix, expiry. intros Hn Ht.
  assert (Hn1 : (17000000000 <= Z.of_N n <= 18446744000)%Z) by lia.
  assert (Ht1 : (1500000000000000000 <= Z.of_N t < 9223372036854775808)%Z) by lia.
  assert (H1 : int64 (Z.of_N n) = Z.of_N n).
  { unfold int64. change (2 ^ 63)%Z with 9223372036854775808%Z. change (2 ^ 64)%Z with 18446744073709551616%Z.
    rewrite Z.mod_small; lia. }
  rewrite H1.
  assert (H2 : int64 (Z.of_N n * 1000000000) = (Z.of_N n * 1000000000 - 18446744073709551616)%Z).
  { unfold int64. change (2 ^ 63)%Z with 9223372036854775808%Z. change (2 ^ 64)%Z with 18446744073709551616%Z.
    replace (Z.of_N n * 1000000000 + 9223372036854775808)%Z
      with ((Z.of_N n * 1000000000 + 9223372036854775808 - 18446744073709551616) + 1 * 18446744073709551616)%Z by lia.
    rewrite Z_mod_plus_full, Z.mod_small; lia. }
  rewrite H2. set (z := (Z.of_N t + (Z.of_N n * 1000000000 - 18446744073709551616))%Z).
  assert (Hz : (0 <= z <= Z.of_N t - 1000000000)%Z) by (unfold z; lia).
  change (2 ^ 64)%Z with 18446744073709551616%Z.
  assert (Hq : (0 <= z / 1000000000 < 18446744073709551616)%Z).
  { split; [apply Z.div_pos; lia|]. apply Z.div_lt_upper_bound; lia. }
  rewrite Z.mod_small by exact Hq.
  assert (Hle : (z / 1000000000 <= Z.of_N t / 1000000000 - 1)%Z).
  { replace (Z.of_N t / 1000000000 - 1)%Z with ((Z.of_N t + (-1) * 1000000000) / 1000000000)%Z.
    - apply Z.div_le_mono; lia.
    - rewrite Z.div_add; lia. }
  apply N2Z.inj_lt. rewrite Z2N.id by apply Hq. rewrite ?N2Z.inj_div. change (Z.of_N 1000000000) with 1000000000%Z.
  match goal with |- (?a < ?b)%Z => change b with (Z.of_N t / 1000000000)%Z end. lia.
Qed.

Lemma C48_long_lifetime_refuted_proof : forall E dec pub sign k keys issuer r raw t1 t2,
  jose_works E dec pub sign -> In (pub k) keys -> k_use k <> "enc"%string ->
  jarm_encode (jwt_serialize sign "jarm+jwt" false (Some (KKey k))) issuer (Some r) t1 = Some raw -> raw <> ""%string ->
  jr_error r = None -> (17000000000 <= jr_expires_in r <= 18446744000)%N ->
  (* at any time from 2017 to 2262, and later *)
  (1500000000 * second <= t1 < 2 ^ 63)%N -> (t1 <= t2)%N ->
  jarm_decode E dec (Some keys) (jr_issuer r) (jr_client_id r) raw t2 = JFail (Some invalid_token_response).
Proof.
  intros E dec pub sign k keys issuer r raw t1 t2 (Hpub & Hjose) Hin Huse Henc Hraw Herr Hx Hn Ht.
  unfold jarm_encode in Henc. destruct (is_empty issuer); [discriminate|]. rewrite Herr in Henc.
  destruct (is_empty (jr_client_id r)) eqn:Hc; [discriminate|].
  destruct (_ || _) eqn:Hb; [discriminate|]. clear Hb.
  apply serialize_inv in Henc as (k' & [= <-] & Hid & Hs).
  apply Hjose in Hs as (Hp & Hv & Hd). destruct (Hpub k) as (Hpi & Hpu).
  unfold jarm_decode. rewrite Hc. rewrite (proj2 (is_empty_false raw) Hraw). cbn [orb].
  rewrite Hp. cbn [j_typ]. change (String.eqb "jarm+jwt" jarm_type) with true. cbn [negb].
  assert (HC : verifier_claims E dec (Some keys) raw =
    Some (mkJarm (jr_issuer r) (jr_client_id r) (expiry t1 (jr_expires_in r)) (jr_code r) (jr_state r) "" "")).
  { apply verifier_claims_iff. split; [|exact Hd]. exists (mkJws (Some "jarm+jwt") (k_id k) None), (pub k).
    repeat split; auto; try congruence. }
  rewrite HC. cbn [jm_error jm_iss jm_aud jm_exp is_empty negb jm_code jm_state].
  rewrite !String.eqb_refl. cbn [negb]. pose proof (expiry_long t1 _ Hx Hn) as Hl.
  assert (Hu : (unix t1 <= unix t2)%N) by (unfold unix; apply N.div_le_mono; [discriminate|exact Ht]).
  destruct (expiry t1 (jr_expires_in r) <? unix t2)%N eqn:Hlt; [reflexivity|]. apply N.ltb_ge in Hlt. lia.
Qed.

(** Shorter ones that overflow give a time before the epoch, which is written as a huge number. *)
Lemma expiry_wraps t n : (9223372037 <= n)%N -> (t + n * second < 2 ^ 64)%N -> (18000000000000000000 <= expiry t n)%N.
Proof.
  unfold second, expiry. intros Hn Ht.
  assert (Hn1 : (9223372037 <= Z.of_N n)%Z) by lia.
  assert (Ht1 : (Z.of_N t + Z.of_N n * 1000000000 < 18446744073709551616)%Z) by lia.
  assert (H0 : (0 <= Z.of_N t)%Z) by lia.
  assert (H1 : int64 (Z.of_N n) = Z.of_N n).
  { unfold int64. change (2 ^ 63)%Z with 9223372036854775808%Z. change (2 ^ 64)%Z with 18446744073709551616%Z.
    rewrite Z.mod_small; lia. }
  rewrite H1.
  assert (H2 : int64 (Z.of_N n * 1000000000) = (Z.of_N n * 1000000000 - 18446744073709551616)%Z).
  { unfold int64. change (2 ^ 63)%Z with 9223372036854775808%Z. change (2 ^ 64)%Z with 18446744073709551616%Z.
    replace (Z.of_N n * 1000000000 + 9223372036854775808)%Z
      with ((Z.of_N n * 1000000000 + 9223372036854775808 - 18446744073709551616) + 1 * 18446744073709551616)%Z by lia.
    rewrite Z_mod_plus_full, Z.mod_small; lia. }
  rewrite H2. set (z := (Z.of_N t + (Z.of_N n * 1000000000 - 18446744073709551616))%Z).
  assert (Hz : (-18446744073709551616 <= z < 0)%Z) by (unfold z; lia).
  change (2 ^ 64)%Z with 18446744073709551616%Z.
  assert (Hq : (-18446744074 <= z / 1000000000 < 0)%Z).
  { split; [apply Z.div_le_lower_bound; lia|]. apply Z.div_lt_upper_bound; lia. }
  replace (z / 1000000000)%Z with ((z / 1000000000 + 18446744073709551616) + (-1) * 18446744073709551616)%Z by lia.
  rewrite Z_mod_plus_full, Z.mod_small by lia. lia.
Qed.

Lemma C48_never_expires_refuted_proof : forall E dec pub sign k keys issuer r raw t1 t2,
  jose_works E dec pub sign -> In (pub k) keys -> k_use k <> "enc"%string ->
  jarm_encode (jwt_serialize sign "jarm+jwt" false (Some (KKey k))) issuer (Some r) t1 = Some raw -> raw <> ""%string ->
  jr_error r = None -> (9223372037 <= jr_expires_in r)%N -> (t1 + jr_expires_in r * second < 2 ^ 64)%N ->
  (* however long after its lifetime *)
  (unix t2 <= 18000000000000000000)%N ->
  jarm_decode E dec (Some keys) (jr_issuer r) (jr_client_id r) raw t2 =
  JOk (mkJarmResp None (jr_code r) (jr_state r) "" 0 (jr_issuer r)).
Proof.
  intros E dec pub sign k keys issuer r raw t1 t2 (Hpub & Hjose) Hin Huse Henc Hraw Herr Hx Hn Ht.
  unfold jarm_encode in Henc. destruct (is_empty issuer); [discriminate|]. rewrite Herr in Henc.
  destruct (is_empty (jr_client_id r)) eqn:Hc; [discriminate|].
  destruct (_ || _) eqn:Hb; [discriminate|]. clear Hb.
  apply serialize_inv in Henc as (k' & [= <-] & Hid & Hs).
  apply Hjose in Hs as (Hp & Hv & Hd). destruct (Hpub k) as (Hpi & Hpu).
  unfold jarm_decode. rewrite Hc. rewrite (proj2 (is_empty_false raw) Hraw). cbn [orb].
  rewrite Hp. cbn [j_typ]. change (String.eqb "jarm+jwt" jarm_type) with true. cbn [negb].
  assert (HC : verifier_claims E dec (Some keys) raw =
    Some (mkJarm (jr_issuer r) (jr_client_id r) (expiry t1 (jr_expires_in r)) (jr_code r) (jr_state r) "" "")).
  { apply verifier_claims_iff. split; [|exact Hd]. exists (mkJws (Some "jarm+jwt") (k_id k) None), (pub k).
    repeat split; auto; try congruence. }
  rewrite HC. cbn [jm_error jm_iss jm_aud jm_exp is_empty negb jm_code jm_state].
  rewrite !String.eqb_refl. cbn [negb]. pose proof (expiry_wraps t1 _ Hx Hn) as Hl.
  destruct (expiry t1 (jr_expires_in r) <? unix t2)%N eqn:Hlt; [|reflexivity]. apply N.ltb_lt in Hlt. lia.
Qed.

Lemma C48_error_round_trip_partial_proof : forall E dec pub sign k keys issuer issuer' r raw t1 t2 audience code desc,
  jose_works E dec pub sign -> In (pub k) keys -> k_use k <> "enc"%string ->
  jarm_encode (jwt_serialize sign "jarm+jwt" false (Some (KKey k))) issuer (Some r) t1 = Some raw -> raw <> ""%string ->
  jr_error r = Some (code, desc) -> code <> ""%string -> audience <> ""%string ->
  jarm_decode E dec (Some keys) issuer' audience raw t2 = JOk (mkJarmResp (Some (code, desc)) "" "" "" 0 "").
Proof.
  intros E dec pub sign k keys issuer issuer' r raw t1 t2 audience code desc (Hpub & Hjose) Hin Huse Henc Hraw Herr Hc Ha.
  unfold jarm_encode in Henc. destruct (is_empty issuer); [discriminate|]. rewrite Herr in Henc.
  apply serialize_inv in Henc as (k' & [= <-] & Hid & Hs).
  apply Hjose in Hs as (Hp & Hv & Hd). destruct (Hpub k) as (Hpi & Hpu).
  unfold jarm_decode. rewrite (proj2 (is_empty_false audience) Ha), (proj2 (is_empty_false raw) Hraw). cbn [orb].
  rewrite Hp. cbn [j_typ]. change (String.eqb "jarm+jwt" jarm_type) with true. cbn [negb].
  assert (HC : verifier_claims E dec (Some keys) raw = Some (mkJarm "" "" 0 "" (jr_state r) code desc)).
  { apply verifier_claims_iff. split; [|exact Hd]. exists (mkJws (Some "jarm+jwt") (k_id k) None), (pub k).
    repeat split; auto; try congruence. }
  rewrite HC. cbn [jm_error]. rewrite (proj2 (is_empty_false code) Hc). reflexivity.
Qed.

Lemma C48_sdk_signer_refuted_proof : forall E dec pub sign provider keys issuer issuer' r raw t1 t2 audience,
  jose_works E dec pub sign ->
  jarm_encode (jarm_signer sign provider) issuer r t1 = Some raw ->
  jarm_decode E dec keys issuer' audience raw t2 = JFail None.
Proof.
  intros E dec pub sign provider keys issuer issuer' r raw t1 t2 audience (Hpub & Hjose) Henc.
  assert (Hs : exists c, jarm_signer sign provider c = Some raw).
  { unfold jarm_encode in Henc. destruct (is_empty issuer); [discriminate|]. destruct r as [r|]; [|discriminate].
    destruct (jr_error r) as [[x y]|]; [eauto|]. destruct (_ || _); [discriminate|eauto]. }
  destruct Hs as (c & Hs). destruct (serialize_inv sign type_jarm false provider c raw Hs) as (k & _ & _ & Hs'); clear Hs; rename Hs' into Hs. apply Hjose in Hs as (Hp & _).
  unfold jarm_decode. destruct (is_empty audience || is_empty raw); [reflexivity|]. rewrite Hp. reflexivity.
Qed.

Lemma C49_accepted_responses_proof : forall E dec keys issuer audience raw now r,
  jarm_decode E dec keys issuer audience raw now = JOk r -> jr_error r = None ->
  exists ks t c, keys = Some ks /\ x_parse E raw = Some t /\ j_typ t = Some "jarm+jwt"%string /\
    verified_with E ks raw /\ dec raw = Some c /\
    jm_iss c = issuer /\ jm_aud c = audience /\ audience <> ""%string /\ (unix now <= jm_exp c)%N /\
    jr_code r = jm_code c /\ jr_state r = jm_state c /\ jr_issuer r = issuer.
Proof.
  intros E dec keys issuer audience raw now r H He. unfold jarm_decode in H.
  destruct (is_empty audience) eqn:Ha; [discriminate|]. destruct (is_empty raw); [discriminate|]. cbn [orb] in H.
  destruct (x_parse E raw) as [t|] eqn:Hp; [|discriminate].
  destruct (j_typ t) as [typ|] eqn:Hty; [|discriminate].
  destruct (String.eqb typ jarm_type) eqn:Hj; [|discriminate]. apply String.eqb_eq in Hj. subst typ. cbn [negb] in H.
  destruct (verifier_claims E dec keys raw) as [c|] eqn:Hv; [|discriminate].
  destruct keys as [ks|]; [|rewrite C54_provider_failure_proof in Hv; discriminate].
  apply verifier_claims_iff in Hv as (Hv & Hd).
  destruct (is_empty (jm_error c)); cbn [negb] in H; [|injection H as <-; discriminate].
  destruct (String.eqb (jm_iss c) issuer) eqn:H1; [|discriminate].
  destruct (String.eqb (jm_aud c) audience) eqn:H2; [|discriminate]. cbn [negb] in H.
  destruct (jm_exp c <? unix now)%N eqn:H3; [discriminate|]. injection H as <-.
  apply String.eqb_eq in H1, H2. apply N.ltb_ge in H3. apply is_empty_false in Ha.
  exists ks, t, c. cbn. repeat split; auto.
Qed.

Lemma C49_error_responses_partial_proof : forall E dec keys issuer audience raw now r e,
  jarm_decode E dec keys issuer audience raw now = JOk r -> jr_error r = Some e ->
  exists ks t c, keys = Some ks /\ x_parse E raw = Some t /\ j_typ t = Some "jarm+jwt"%string /\
    verified_with E ks raw /\ dec raw = Some c /\ e = (jm_error c, jm_description c) /\ jm_error c <> ""%string /\
    jr_code r = ""%string.
Proof.
  intros E dec keys issuer audience raw now r e H He. unfold jarm_decode in H.
  destruct (is_empty audience) eqn:Ha; [discriminate|]. destruct (is_empty raw); [discriminate|]. cbn [orb] in H.
  destruct (x_parse E raw) as [t|] eqn:Hp; [|discriminate].
  destruct (j_typ t) as [typ|] eqn:Hty; [|discriminate].
  destruct (String.eqb typ jarm_type) eqn:Hj; [|discriminate]. apply String.eqb_eq in Hj. subst typ. cbn [negb] in H.
  destruct (verifier_claims E dec keys raw) as [c|] eqn:Hv; [|discriminate].
  destruct keys as [ks|]; [|rewrite C54_provider_failure_proof in Hv; discriminate].
  apply verifier_claims_iff in Hv as (Hv & Hd).
  destruct (is_empty (jm_error c)) eqn:Hem; cbn [negb] in H.
  - destruct (negb _); [discriminate|]. destruct (negb _); [discriminate|].
    destruct (_ <? _)%N; [discriminate|]. injection H as <-. discriminate.
  - injection H as <-. cbn in He. injection He as <-. apply is_empty_false in Hem.
    exists ks, t, c. cbn. repeat split; auto.
Qed.

(** Whatever issuer, audience and time the error response is for, it is accepted. *)
Lemma C49_error_responses_refuted_proof : forall E dec keys raw t c issuer audience now,
  x_parse E raw = Some t -> j_typ t = Some "jarm+jwt"%string -> raw <> ""%string -> audience <> ""%string ->
  verified_with E keys raw -> dec raw = Some c -> jm_error c <> ""%string ->
  exists r, jarm_decode E dec (Some keys) issuer audience raw now = JOk r.
Proof.
  intros E dec keys raw t c issuer audience now Hp Ht Hr Ha Hv Hd He. unfold jarm_decode.
  rewrite (proj2 (is_empty_false audience) Ha), (proj2 (is_empty_false raw) Hr), Hp, Ht. cbn [orb].
  change (String.eqb "jarm+jwt" jarm_type) with true. cbn [negb].
  rewrite (proj2 (verifier_claims_iff E dec keys raw c)) by auto.
  rewrite (proj2 (is_empty_false _) He). eexists. reflexivity.
Qed.

(** ** Introspection documents *)

Lemma usable_iff t now : is_active (t_status t) && is_usable (Some t) now = true <-> usable_at t now.
Proof.
  unfold usable_at, is_usable. destruct (t_status t); cbn [is_active andb]; split; try discriminate;
    try solve [intros (H & _); discriminate H].
  - destruct (t_meta t) as [m|]; [|discriminate].
    destruct (m_expires_at m <? now)%N eqn:H1; [discriminate|].
    destruct (now <? m_not_before m)%N eqn:H2; [discriminate|].
    apply N.ltb_ge in H1, H2. intros _. split; [reflexivity|]. exists m. split; [reflexivity|]. split; assumption.
  - intros (_ & m & -> & H).
    destruct (m_expires_at m <? now)%N eqn:H1; [apply N.ltb_lt in H1; lia|].
    destruct (now <? m_not_before m)%N eqn:H2; [apply N.ltb_lt in H2; lia|]. reflexivity.
Qed.

Lemma C52_introspection_document_proof : forall t m now1 now2, t_meta t = Some m ->
  exists d body,
    (forall ser, introspection_generate (Some ser) (Some t) now1 now2 = ser d) /\
    member "token_introspection" d = Some (JObj body) /\
    member "iss" d = Some (JStr (m_issuer m)) /\ member "iat" d = Some (JNum now2) /\
    ((usable_at t now1 /\ member "active" body = Some (JBool true) /\
      member "iss" body = Some (JStr (m_issuer m)) /\ member "sub" body = Some (JStr (m_subject m)) /\
      member "aud" body = Some (JStr (m_audience m)) /\ member "client_id" body = Some (JStr (m_client_id m)) /\
      member "scope" body = Some (JStr (m_scope m)) /\ member "iat" body = Some (JNum (m_issued_at m)) /\
      member "exp" body = Some (JNum (m_expires_at m)) /\ member "jti" body = Some (JStr (t_id t))) \/
     (~ usable_at t now1 /\ body = [("active", JBool false)])).
Proof.
  intros t m now1 now2 Hm. eexists. exists (introspection_body t m now1).
  split; [intros ser; unfold introspection_generate; rewrite Hm; reflexivity|].
  split; [reflexivity|]. split; [reflexivity|]. split; [reflexivity|].
  unfold introspection_body. destruct (is_active (t_status t) && is_usable (Some t) now1) eqn:Ha.
  - left. apply usable_iff in Ha. split; [exact Ha|]. repeat split.
  - right. split; [|reflexivity]. intros H. apply usable_iff in H. congruence.
Qed.

(** ** Issued claims *)

Lemma str_ok_nonempty rule s : str_ok rule s = true -> s <> ""%string.
Proof. unfold str_ok. intros H. apply andb_true_iff in H as [H _]. apply negb_true_iff in H. apply is_empty_false; auto. Qed.
Lemma num_ok_iff lo hi x : num_ok lo hi x = true <-> (x <> 0 /\ lo <= x <= hi)%N.
Proof.
  unfold num_ok. rewrite !andb_true_iff, negb_true_iff, N.eqb_neq, !N.leb_le. tauto.
Qed.

Lemma meta_valid_inv K max now m id cnf : meta_valid K max now m = true -> id <> ""%string ->
  well_formed max now (claims_literal id m cnf).
Proof.
  unfold meta_valid. rewrite !andb_true_iff, !num_ok_iff.
  intros [[[[[[[A B] C] D] E] F] G] H] Hid.
  apply str_ok_nonempty in A, B, C, D, E. unfold well_formed, claims_literal. cbn.
  repeat split; auto; lia.
Qed.

Lemma C53_access_token_claims_proof : forall K t now,
  (forall ser, access_token_generate K ser t now = None) \/
  exists tk c, t = Some tk /\ (forall ser, access_token_generate K (Some ser) t now = ser c) /\
    well_formed 7200 now c /\ describes tk c /\ jc_cnf c = t_cnf tk.
Proof.
  intros K t now. unfold access_token_generate.
  destruct t as [t|]; [|left; intros [ser|]; auto].
  destruct (is_empty (t_id t)) eqn:Hid; [left; intros [ser|]; auto|]. apply is_empty_false in Hid.
  destruct (t_meta t) as [m|] eqn:Hm; [|left; intros [ser|]; auto].
  destruct (meta_valid K two_hours now m) eqn:Hv; [|left; intros [ser|]; auto].
  right. exists t, (claims_literal (t_id t) m (t_cnf t)). split; [reflexivity|]. split; [reflexivity|].
  split; [apply (meta_valid_inv K); auto|]. split; [|reflexivity].
  exists m. repeat split; auto.
Qed.

Lemma C53_refresh_token_claims_partial_proof : forall K t now,
  (forall ser, refresh_token_generate K ser t now = None) \/
  exists tk c, t = Some tk /\ (forall ser, refresh_token_generate K (Some ser) t now = ser c) /\
    well_formed 1209600 now c /\ describes tk c.
Proof.
  intros K t now. unfold refresh_token_generate.
  destruct t as [t|]; [|left; intros [ser|]; auto].
  destruct (is_empty (t_id t)) eqn:Hid; [left; intros [ser|]; auto|]. apply is_empty_false in Hid.
  destruct (t_meta t) as [m|] eqn:Hm; [|left; intros [ser|]; auto].
  destruct (meta_valid K two_weeks now m) eqn:Hv; [|left; intros [ser|]; auto].
  right. exists t, (claims_literal (t_id t) m None). split; [reflexivity|]. split; [reflexivity|].
  split; [apply (meta_valid_inv K); auto|].
  exists m. repeat split; auto.
Qed.

(** The key confirmation never reaches the refresh token. *)
Lemma C53_refresh_confirmation_refuted_proof : forall K t now c,
  (forall ser, refresh_token_generate K (Some ser) (Some t) now = ser c) -> jc_cnf c = None.
Proof.
  intros K t now c H.
  pose proof (H (fun _ => Some ""%string)) as H1.
  pose proof (H (fun c => match jc_cnf c with None => None | Some _ => Some ""%string end)) as H2.
  unfold refresh_token_generate in H1, H2.
  destruct (is_empty (t_id t)); [discriminate|]. destruct (t_meta t) as [m|]; [|discriminate].
  destruct (negb (meta_valid K two_weeks now m)); [discriminate|]. cbn in H2.
  destruct (jc_cnf c); [discriminate|reflexivity].
Qed.
