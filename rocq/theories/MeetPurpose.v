(** * Concrete cases for the examples of [PropsPurpose] *)

From Verif Require Export MeetTok PfPurpose.

Definition json_eqb (a b : json) : bool :=
  match a, b with
  | JsStr x, JsStr y | JsNum x, JsNum y => String.eqb x y
  | _, _ => false
  end.
Fixpoint doc_eqb (a b : jdoc) : bool :=
  match a, b with
  | [], [] => true
  | (n, v) :: a, (m, w) :: b => String.eqb n m && json_eqb v w && doc_eqb a b
  | _, _ => false
  end.
Lemma doc_eqb_eq a b : doc_eqb a b = true -> a = b.
Proof.
  revert b. induction a as [|[n v] a IH]; intros [|[m w] b]; cbn; try discriminate; [reflexivity|].
  rewrite !andb_true_iff, String.eqb_eq. intros [[-> H1] H2]. rewrite (IH _ H2). f_equal. f_equal.
  destruct v, w; cbn in H1; try discriminate; apply String.eqb_eq in H1; subst; reflexivity.
Qed.

(** A library that signs one proof, and one access token of the server for itself. *)
Definition self_meta : token_meta :=
  mkMeta "https://as.example" "https://as.example" 1000 1001 4600 "app" "openid" "https://api.example".
Definition self_token : token := mkToken "https://as.example" TtAccess "id-1" (Some self_meta) TsActive "at-1" None.
Definition self_doc : jdoc := token_doc (claims_literal "id-1" self_meta None).
Definition doc_sign : jose_sign jdoc := fun typ k embed d =>
  if jwk_eqb k holder_key && embed && doc_eqb d (proof_doc proof_claims) && String.eqb typ "dpop+jwt" then Some "good"%string
  else if jwk_eqb k srv_key && negb embed && doc_eqb d self_doc && String.eqb typ "at" then Some "token"%string
  else None.
Definition doc_payload (s : string) : option jdoc :=
  if String.eqb s "good" then Some (proof_doc proof_claims) else if String.eqb s "token" then Some self_doc else None.
Definition doc_parse (s : string) : option jws :=
  if String.eqb s "good" then Some (mkJws (Some "dpop+jwt"%string) "dev-1" (Some (public holder_key)))
  else if String.eqb s "token" then Some (mkJws (Some "at"%string) "srv-1" None)
  else None.
Definition self_claims : claims :=
  mkClaims "https://as.example" "https://as.example" "https://api.example" "id-1" 4600 1001 1000 None "" "" None.
Definition doc_ext : ext :=
  mkExt (x_fold demo_ext) (x_sha256 demo_ext) (x_blake demo_ext) (x_request_uri demo_ext) (x_url_string demo_ext)
    (x_uri_valid demo_ext) (x_upper demo_ext) doc_parse (x_parse_jose demo_ext) (x_parse_pop demo_ext)
    (fun k s => String.eqb (k_mat k) "public-dev-key" && String.eqb s "good" || String.eqb (k_mat k) "public-srv-key" && String.eqb s "token")
    (fun _ s => if String.eqb s "good" then Some proof_claims else if String.eqb s "token" then Some self_claims else None)
    (fun s => if String.eqb s "as-jwks" then Some [public srv_key] else None) (x_thumb demo_ext).

Lemma doc_signs : signs_documents doc_ext doc_sign doc_payload.
Proof.
  intros typ k embed d raw H. unfold doc_sign in H.
  destruct (_ && _ && _ && _)%bool eqn:B in H; [|destruct (_ && _ && _ && _)%bool eqn:B' in H; [rename B' into B0; clear B; rename B0 into B|discriminate]];
    injection H as <-; repeat (apply andb_prop in B as [B ?]);
    repeat match goal with X : String.eqb _ _ = true |- _ => apply String.eqb_eq in X | X : doc_eqb _ _ = true |- _ => apply doc_eqb_eq in X end; subst.
  - split; [intros t Ht; injection Ht as <-; reflexivity|]. exists (proof_doc proof_claims). split; [reflexivity|apply Permutation_refl].
  - split; [intros t Ht; injection Ht as <-; reflexivity|]. exists self_doc. split; [reflexivity|apply Permutation_refl].
Qed.
Lemma doc_decodes : decodes_members doc_ext doc_payload.
Proof.
  intros k raw d cl Hd _ Hc. unfold doc_payload in Hd. cbn in Hc.
  destruct (String.eqb raw "good") eqn:G.
  - injection Hd as <-. injection Hc as <-. vm_compute. intuition congruence.
  - destruct (String.eqb raw "token"); [|discriminate]. injection Hd as <-. injection Hc as <-. vm_compute. intuition congruence.
Qed.
Definition as_client : client := mkClient "https://as.example" CtConfidential [] [] [] [] "Server" "as-jwks" "" "" false.

(** A client signs an assertion with the key that its attestation confirms. *)
Definition own_meta : token_meta := mkMeta "app" "app" 1000 1001 1030 "" "" "https://as.example".
Definition own_token : token := mkToken "app" TtAccess "jti-9" (Some own_meta) TsActive "" None.
Definition own_claims : claims := mkClaims "app" "app" "https://as.example" "jti-9" 1030 1001 1000 None "" "" None.
Definition own_eqb (a : claims) : bool :=
  String.eqb (c_iss a) "app" && String.eqb (c_sub a) "app" && String.eqb (c_aud a) "https://as.example" && String.eqb (c_jti a) "jti-9" &&
  N.eqb (c_exp a) 1030 && N.eqb (c_nbf a) 1001 && N.eqb (c_iat a) 1000 && String.eqb (c_htm a) "" && String.eqb (c_htu a) "" &&
  negb (is_some (c_cnf_jwk a)) && negb (is_some (c_ath a)).
Lemma own_eqb_eq a : own_eqb a = true -> a = own_claims.
Proof.
  unfold own_eqb. rewrite !andb_true_iff, !String.eqb_eq, !N.eqb_eq.
  destruct a as [a1 a2 a3 a4 a5 a6 a7 [a8|] a9 a10 [a11|]]; cbn;
    intros [[[[[[[[[[-> ->] ->] ->] ->] ->] ->] ->] ->] H1] H2]; try discriminate. reflexivity.
Qed.
Definition own_sign : jose_sign claims := fun typ k embed c =>
  if jwk_eqb k holder_key && negb embed && own_eqb c && String.eqb typ "client-assertion" then Some "own"%string else None.
Definition own_ext : ext :=
  mkExt (x_fold demo_ext) (x_sha256 demo_ext) (x_blake demo_ext) (x_request_uri demo_ext) (x_url_string demo_ext)
    (x_uri_valid demo_ext) (x_upper demo_ext)
    (fun s => if String.eqb s "own" then Some (mkJws (Some "client-assertion"%string) "dev-1" None)
              else if String.eqb s "attestation" then Some (mkJws None "att-1" None) else None)
    (x_parse_jose demo_ext) (x_parse_pop demo_ext)
    (fun k s => String.eqb (k_mat k) "public-dev-key" && String.eqb s "own" || String.eqb (k_mat k) "attester-key" && String.eqb s "attestation")
    (fun k s => match k with
       | KPop | KAssertion => if String.eqb s "own" then Some own_claims else None
       | KAttestation => if String.eqb s "attestation" then Some (mkClaims "attester" "app" "" "" 2000 0 0 (Some (Some (public holder_key))) "" "" None) else None
       | _ => None
       end)
    (x_jwks demo_ext) (x_thumb demo_ext).
Lemma own_works : jose_works own_ext (x_payload own_ext KPop) public own_sign.
Proof.
  split; [intros k; split; reflexivity|]. intros typ k embed c raw H. unfold own_sign in H.
  destruct (_ && _ && _ && _)%bool eqn:B in H; [|discriminate]. injection H as <-. apply andb_prop in B as [B ?]. apply andb_prop in B as [B ?]. apply andb_prop in B as [B ?].
  apply jwk_eqb_eq in B. destruct embed; [discriminate|].
  repeat match goal with X : String.eqb _ _ = true |- _ => apply String.eqb_eq in X | X : own_eqb _ = true |- _ => apply own_eqb_eq in X end; subst.
  repeat split.
Qed.
(** The same key signs access tokens and is confirmed by an attestation. *)
Definition self_jwt : jwt_claims := claims_literal "id-1" self_meta None.
Definition self_eqb (a : jwt_claims) : bool :=
  String.eqb (jc_iss a) "https://as.example" && String.eqb (jc_sub a) "https://as.example" && String.eqb (jc_aud a) "https://api.example" &&
  N.eqb (jc_exp a) 4600 && N.eqb (jc_nbf a) 1001 && N.eqb (jc_iat a) 1000 && String.eqb (jc_jti a) "id-1" &&
  String.eqb (jc_client_id a) "app" && String.eqb (jc_scope a) "openid" && negb (is_some (jc_cnf a)).
Lemma self_eqb_eq a : self_eqb a = true -> a = self_jwt.
Proof.
  unfold self_eqb. rewrite !andb_true_iff, !String.eqb_eq, !N.eqb_eq.
  destruct a as [a1 a2 a3 a4 a5 a6 a7 a8 a9 [a10|]]; cbn; intros [[[[[[[[[-> ->] ->] ->] ->] ->] ->] ->] ->] H]; [discriminate|]. reflexivity.
Qed.
Definition self_sign : jose_sign jwt_claims := fun typ k embed c =>
  if jwk_eqb k srv_key && negb embed && self_eqb c && String.eqb typ "at" then Some "token"%string else None.
Definition self_dec (s : string) : option jwt_claims := if String.eqb s "token" then Some self_jwt else None.
Definition self_ext : ext :=
  mkExt (x_fold demo_ext) (x_sha256 demo_ext) (x_blake demo_ext) (x_request_uri demo_ext) (x_url_string demo_ext)
    (x_uri_valid demo_ext) (x_upper demo_ext)
    (fun s => if String.eqb s "token" then Some (mkJws (Some "at"%string) "srv-1" None)
              else if String.eqb s "attestation" then Some (mkJws None "att-1" None) else None)
    (x_parse_jose demo_ext) (x_parse_pop demo_ext)
    (fun k s => String.eqb (k_mat k) "public-srv-key" && String.eqb s "token" || String.eqb (k_mat k) "attester-key" && String.eqb s "attestation")
    (fun k s => match k with
       | KPop => if String.eqb s "token" then Some (mkClaims "https://as.example" "" "https://api.example" "id-1" 4600 1001 1000 None "" "" None) else None
       | KAssertion => if String.eqb s "token" then Some self_claims else None
       | KAttestation => if String.eqb s "attestation" then Some (mkClaims "attester" "app" "" "" 2000 0 0 (Some (Some (public srv_key))) "" "" None) else None
       | _ => None
       end)
    (fun s => if String.eqb s "as-jwks" then Some [public srv_key] else x_jwks demo_ext s) (x_thumb demo_ext).
Lemma self_works : jose_works self_ext self_dec public self_sign.
Proof.
  split; [intros k; split; reflexivity|]. intros typ k embed c raw H. unfold self_sign in H.
  destruct (_ && _ && _ && _)%bool eqn:B in H; [|discriminate]. injection H as <-. apply andb_prop in B as [B ?]. apply andb_prop in B as [B ?]. apply andb_prop in B as [B ?].
  apply jwk_eqb_eq in B. destruct embed; [discriminate|].
  repeat match goal with X : String.eqb _ _ = true |- _ => apply String.eqb_eq in X | X : self_eqb _ = true |- _ => apply self_eqb_eq in X end; subst.
  repeat split.
Qed.
Lemma self_pop : forall s j, self_dec s = Some j ->
  x_payload self_ext KPop s = Some (mkClaims (jc_iss j) "" (jc_aud j) (jc_jti j) (jc_exp j) (jc_nbf j) (jc_iat j) None "" "" None).
Proof. intros s j. unfold self_dec. cbn. destruct (String.eqb s "token"); [|discriminate]. intros H; injection H as <-. reflexivity. Qed.
Lemma self_assertion : forall s j, self_dec s = Some j ->
  x_payload self_ext KAssertion s = Some (mkClaims (jc_iss j) (jc_sub j) (jc_aud j) (jc_jti j) (jc_exp j) (jc_nbf j) (jc_iat j) None "" "" None).
Proof. intros s j. unfold self_dec. cbn. destruct (String.eqb s "token"); [|discriminate]. intros H; injection H as <-. reflexivity. Qed.
(** A program runs on given answers: head normal forms only. *)
Ltac steps :=
  unfold runs;
  repeat (match goal with |- reach ?p (_ :: _) _ => let p' := eval hnf in p in change p with p' end; apply reach_call; cbv beta);
  match goal with |- reach ?p [] _ => let p' := eval hnf in p in change p with p' end; vm_compute; apply reach_nil.
