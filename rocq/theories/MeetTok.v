(** * Concrete cases for the examples beside the theorems on signed tokens *)

From Verif Require Export MeetSdk PfTok PfTok2.

(** A library that signs four JARM payloads with one key: two responses, each with the type
    of the standard and with the type of the SDK's builder, and an error. *)
Definition srv_key := mkJwk "srv-1" "sig" "srv-key".
Definition other_key := mkJwk "srv-2" "sig" "other-key".
Definition public (k : jwk) : jwk := mkJwk (k_id k) (k_use k) ("public-" ++ k_mat k)%string.

Definition jarm_good : jarm_claims := mkJarm "https://as.example" "app" 1060 "code-1" "state-1" "" "".
Definition jarm_bad : jarm_claims := mkJarm "" "" 0 "" "state-1" "access_denied" "no".

Definition jarm_eqb (a b : jarm_claims) : bool :=
  String.eqb (jm_iss a) (jm_iss b) && String.eqb (jm_aud a) (jm_aud b) && N.eqb (jm_exp a) (jm_exp b) &&
  String.eqb (jm_code a) (jm_code b) && String.eqb (jm_state a) (jm_state b) &&
  String.eqb (jm_error a) (jm_error b) && String.eqb (jm_description a) (jm_description b).
Lemma jarm_eqb_eq a b : jarm_eqb a b = true -> a = b.
Proof.
  unfold jarm_eqb. rewrite !andb_true_iff, !String.eqb_eq, N.eqb_eq.
  destruct a, b; cbn. intros [[[[[[-> ->] ->] ->] ->] ->] ->]. reflexivity.
Qed.
Definition jwk_eqb (a b : jwk) : bool :=
  String.eqb (k_id a) (k_id b) && String.eqb (k_use a) (k_use b) && String.eqb (k_mat a) (k_mat b).
Lemma jwk_eqb_eq a b : jwk_eqb a b = true -> a = b.
Proof.
  unfold jwk_eqb. rewrite !andb_true_iff, !String.eqb_eq. destruct a, b; cbn. intros [[-> ->] ->]. reflexivity.
Qed.

Definition jarm_sign : jose_sign jarm_claims := fun typ k embed c =>
  if negb (jwk_eqb k srv_key) || embed then None
  else if negb (jarm_eqb c jarm_good || jarm_eqb c jarm_bad) then None
  else if String.eqb typ "jarm+jwt" then Some (if jarm_eqb c jarm_good then "good" else "bad")%string
  else if String.eqb typ "jarm" then Some (if jarm_eqb c jarm_good then "sdk-good" else "sdk-bad")%string
  else None.
Definition jarm_parse (s : string) : option jws :=
  if String.eqb s "good" || String.eqb s "bad" then Some (mkJws (Some "jarm+jwt"%string) "srv-1" None)
  else if String.eqb s "sdk-good" || String.eqb s "sdk-bad" then Some (mkJws (Some "jarm"%string) "srv-1" None)
  else None.
Definition jarm_dec (s : string) : option jarm_claims :=
  if String.eqb s "good" || String.eqb s "sdk-good" then Some jarm_good
  else if String.eqb s "bad" || String.eqb s "sdk-bad" then Some jarm_bad
  else None.
Definition jarm_ext : ext :=
  mkExt (x_fold demo_ext) (x_sha256 demo_ext) (x_blake demo_ext) (x_request_uri demo_ext) (x_url_string demo_ext)
    (x_uri_valid demo_ext) (x_upper demo_ext) jarm_parse (x_parse_jose demo_ext) (x_parse_pop demo_ext)
    (fun k s => String.eqb (k_mat k) "public-srv-key" && is_some (jarm_parse s))
    (x_payload demo_ext) (x_jwks demo_ext) (x_thumb demo_ext).

Lemma jarm_works : jose_works jarm_ext jarm_dec public jarm_sign.
Proof.
  split; [intros k; split; reflexivity|]. intros typ k embed c raw H. unfold jarm_sign in H.
  destruct (jwk_eqb k srv_key) eqn:Hk; [|discriminate]. apply jwk_eqb_eq in Hk. subst k.
  destruct embed; [discriminate|]. cbn [negb orb] in H.
  destruct (jarm_eqb c jarm_good) eqn:H1.
  - apply jarm_eqb_eq in H1. subst c. cbn [negb orb] in H.
    destruct (String.eqb_spec typ "jarm+jwt") as [->|]; [injection H as <-; vm_compute; auto|].
    destruct (String.eqb_spec typ "jarm") as [->|]; [injection H as <-; vm_compute; auto|discriminate].
  - destruct (jarm_eqb c jarm_bad) eqn:H2; [|discriminate]. apply jarm_eqb_eq in H2. subst c. cbn [negb orb] in H.
    destruct (String.eqb_spec typ "jarm+jwt") as [->|]; [injection H as <-; vm_compute; auto|].
    destruct (String.eqb_spec typ "jarm") as [->|]; [injection H as <-; vm_compute; auto|discriminate].
Qed.

Definition jarm_resp : jarm_response := mkJarmResp None "code-1" "state-1" "app" 60 "https://as.example".
Definition jarm_err : jarm_response := mkJarmResp (Some ("access_denied", "no")%string) "" "state-1" "app" 0 "".

(** A response that is to be good for 570 years. *)
Definition long_resp : jarm_response := mkJarmResp None "code-1" "state-1" "app" 18000000000 "https://as.example".
Definition long_claims : jarm_claims := mkJarm "https://as.example" "app" 1253255926 "code-1" "state-1" "" "".
(** One that is to be good for 317 years. *)
Definition wrap_resp : jarm_response := mkJarmResp None "code-1" "state-1" "app" 10000000000 "https://as.example".
Definition wrap_claims : jarm_claims := mkJarm "https://as.example" "app" 18446744066962807542 "code-1" "state-1" "" "".
Definition one_sign (only : jarm_claims) : jose_sign jarm_claims := fun typ k embed c =>
  if negb (jwk_eqb k srv_key) || embed || negb (jarm_eqb c only) || negb (String.eqb typ "jarm+jwt") then None
  else Some "good"%string.
Definition one_dec (only : jarm_claims) (s : string) : option jarm_claims := if String.eqb s "good" then Some only else None.
Lemma one_works only : jose_works jarm_ext (one_dec only) public (one_sign only).
Proof.
  split; [intros k; split; reflexivity|]. intros typ k embed c raw H. unfold one_sign in H.
  destruct (jwk_eqb k srv_key) eqn:Hk; [|discriminate]. apply jwk_eqb_eq in Hk. subst k.
  destruct embed; [discriminate|]. destruct (jarm_eqb c only) eqn:H1; [|discriminate].
  apply jarm_eqb_eq in H1. subst c. cbn [negb orb] in H.
  destruct (String.eqb_spec typ "jarm+jwt") as [->|]; [injection H as <-; vm_compute; auto|discriminate].
Qed.

Definition all_checks : checks := mkChecks (fun _ => true) (fun _ => true).
Definition a_meta : token_meta := mkMeta "https://as.example" "alice" 1000 1001 4600 "app" "openid" "https://api.example".
Definition a_token : token := mkToken "https://as.example" TtAccess "id-1" (Some a_meta) TsActive "at-1" (Some "thumb"%string).

Lemma bad_verified : verified_with jarm_ext [public srv_key] "bad".
Proof.
  exists (mkJws (Some "jarm+jwt"%string) "srv-1" None), (public srv_key). repeat split; auto; [left; reflexivity|discriminate].
Qed.

(** A library that signs one DPoP proof, with the type of the standard and with the type of
    the SDK's builder. *)
Definition holder_key := mkJwk "dev-1" "sig" "dev-key".
Definition tok_url := "https://as.example/token".
Definition proof_claims : claims := mkClaims "" "" "" "jti-1" 0 0 1005 None "POST" tok_url None.
Definition claims_eqb (a b : claims) : bool :=
  String.eqb (c_iss a) (c_iss b) && String.eqb (c_sub a) (c_sub b) && String.eqb (c_aud a) (c_aud b) &&
  String.eqb (c_jti a) (c_jti b) && N.eqb (c_exp a) (c_exp b) && N.eqb (c_nbf a) (c_nbf b) && N.eqb (c_iat a) (c_iat b) &&
  String.eqb (c_htm a) (c_htm b) && String.eqb (c_htu a) (c_htu b) &&
  negb (is_some (c_cnf_jwk a)) && negb (is_some (c_ath a)).
Lemma claims_eqb_eq a : claims_eqb a proof_claims = true -> a = proof_claims.
Proof.
  unfold claims_eqb. rewrite !andb_true_iff, !String.eqb_eq, !N.eqb_eq.
  destruct a as [a1 a2 a3 a4 a5 a6 a7 [a8|] a9 a10 [a11|]]; cbn;
    intros [[[[[[[[[[-> ->] ->] ->] ->] ->] ->] ->] ->] H1] H2]; try discriminate. reflexivity.
Qed.
Definition dpop_sign : jose_sign claims := fun typ k embed c =>
  if negb (jwk_eqb k holder_key) || negb embed || negb (claims_eqb c proof_claims) then None
  else if String.eqb typ "dpop+jwt" then Some "good"%string
  else if String.eqb typ "dpop" then Some "sdk"%string
  else None.
Definition dpop_parse (s : string) : option jws :=
  if String.eqb s "good" then Some (mkJws (Some "dpop+jwt"%string) "dev-1" (Some (public holder_key)))
  else if String.eqb s "sdk" then Some (mkJws (Some "dpop"%string) "dev-1" (Some (public holder_key)))
  else None.
Definition dpop_ext : ext :=
  mkExt (x_fold demo_ext) (x_sha256 demo_ext) (x_blake demo_ext) (x_request_uri demo_ext) (x_url_string demo_ext)
    (x_uri_valid demo_ext) (x_upper demo_ext) dpop_parse (x_parse_jose demo_ext) (x_parse_pop demo_ext)
    (fun k s => String.eqb (k_mat k) "public-dev-key" && is_some (dpop_parse s))
    (fun _ s => if is_some (dpop_parse s) then Some proof_claims else None) (x_jwks demo_ext) (x_thumb demo_ext).
Lemma dpop_works : jose_works dpop_ext (x_payload dpop_ext KDpop) public dpop_sign.
Proof.
  split; [intros k; split; reflexivity|]. intros typ k embed c raw H. unfold dpop_sign in H.
  destruct (jwk_eqb k holder_key) eqn:Hk; [|discriminate]. apply jwk_eqb_eq in Hk. subst k.
  destruct embed; [|discriminate]. destruct (claims_eqb c proof_claims) eqn:Hc; [|discriminate].
  apply claims_eqb_eq in Hc. subst c. cbn [negb orb] in H.
  destruct (String.eqb_spec typ "dpop+jwt") as [->|]; [injection H as <-; vm_compute; auto|].
  destruct (String.eqb_spec typ "dpop") as [->|]; [injection H as <-; vm_compute; auto|discriminate].
Qed.
Definition provedreq : request := RDpop "POST" tok_url "good" None None.
Definition x_proved : list sched := full 0 provedreq [ok; ok; ok; ok].
Lemma x_proved_alone : forall (j : nat) a, In (EvCall j (CProofReg (b64url (x_blake dpop_ext "" "jti-1"))) a) (history dpop_ext w0 x_proved) -> j = 0%nat.
Proof.
  intros j a Hin.
  assert (H : forallb (fun e => match e with EvCall k _ _ => Nat.eqb k 0 | _ => true end) (history dpop_ext w0 x_proved) = true) by (vm_compute; reflexivity).
  rewrite forallb_forall in H. apply H in Hin. cbn in Hin. apply Nat.eqb_eq in Hin. exact Hin.
Qed.

Ltac meet_tok :=
  first [ exact jarm_works | apply one_works | exact dpop_works | exact x_proved_alone | apply bad_verified | progress cbn [In]; tauto
        | meet1
        | discriminate | vm_compute; reflexivity | vm_compute; discriminate | vm_compute; congruence ].
