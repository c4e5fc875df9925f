(** * What signed objects are made for and taken for: the theorems

    Written by tools/gen_props.py: the statements are those of the lemmas proved in
    PfPurpose.
    Below each theorem, a concrete case that meets its hypotheses. *)

From Verif Require Import MeetPurpose.

(** ** C111 An object signed for one purpose is refused for every other *)

Theorem C111_one_purpose_partial : forall E K utf8 read_u64 sign payload p u raw,
  signs_documents E sign payload -> decodes_members E payload ->
  made_for E K utf8 sign p raw -> taken_as E read_u64 payload u raw ->
  (p = MProof /\ u = UProof) \/ (p = MResponse /\ u = UResponse) \/ (p = MRequest /\ u = URequest) \/ (p = MAssertion /\ u = UAssertion) \/
  (* the code lets these pass; see the next theorems *)
  (p = MAssertion /\ u = UPossession) \/ ((p = MAccessToken \/ p = MRefreshToken) /\ (u = UAssertion \/ u = UPossession)).
Proof. exact C111_one_purpose_partial_proof. Qed.
Print Assumptions C111_one_purpose_partial.
Example C111_one_purpose_partial_met :
  signs_documents doc_ext doc_sign doc_payload /\ decodes_members doc_ext doc_payload /\
  made_for doc_ext all_checks (fun _ => true) doc_sign MProof "good" /\ taken_as doc_ext (fun _ => None) doc_payload UProof "good".
Proof.
  split; [apply doc_signs|]. split; [apply doc_decodes|]. split.
  - exists "dpop+jwt"%string, true, (Some (KKey holder_key)). split; [cbn; auto|].
    exists (fun s => s), "POST"%string, tok_url, None, "jti-1"%string, 1005%N. vm_compute. reflexivity.
  - exists "POST"%string, tok_url, None, None,
      [(CNow, ATime (1005 * second)); (CNow, ATime (1005 * second)); (CProofExists (b64url (x_blake doc_ext "" "jti-1")), ABool (SOk false));
       (CProofReg (b64url (x_blake doc_ext "" "jti-1")), AUnit (SOk tt))], (b64url "thumb:public-dev-key").
    steps.
Qed.

Theorem C111_tokens_partial : forall E K read_u64 sign payload typ embed provider t now raw u,
  signs_documents E sign payload -> decodes_members E payload ->
  let ser c := jwt_serialize sign typ embed provider (token_doc c) in
  In typ (types_of MAccessToken) /\ access_token_generate K (Some ser) (Some t) now = Some raw \/
  In typ (types_of MRefreshToken) /\ refresh_token_generate K (Some ser) (Some t) now = Some raw ->
  taken_as E read_u64 payload u raw ->
  (u = UAssertion \/ u = UPossession) /\
  (u = UAssertion -> exists m, t_meta t = Some m /\ m_subject m = m_issuer m).
Proof. exact C111_tokens_partial_proof. Qed.
Print Assumptions C111_tokens_partial.
Example C111_tokens_partial_met : let ser c := jwt_serialize doc_sign "at" false (Some (KKey srv_key)) (token_doc c) in
  signs_documents doc_ext doc_sign doc_payload /\ decodes_members doc_ext doc_payload /\
  In "at"%string (types_of MAccessToken) /\
  access_token_generate all_checks (Some ser) (Some self_token) 1002 = Some "token"%string /\
  taken_as doc_ext (fun _ => None) doc_payload UAssertion "token" /\ m_subject self_meta = m_issuer self_meta.
Proof.
  intros ser. split; [apply doc_signs|]. split; [apply doc_decodes|]. split; [cbn; auto|]. split; [vm_compute; reflexivity|]. split; [|reflexivity].
  exists (mkAuthn (Some assertion_bearer) (Some "token"%string)),
    [(CNow, ATime (1005 * second)); (CClientGet "https://as.example", AClient (SOk as_client))], (aok (Some as_client)).
  split; [reflexivity|]. split; [|reflexivity]. steps.
Qed.

Theorem C111_assertion_as_possession_refuted : forall E sign pub K k t now raw att tr m t1 t2 (c : client) read_u64 payload,
  jose_works E (x_payload E KPop) pub sign ->
  client_assertion_generate K (Some (jwt_serialize sign "client-assertion" false (Some (KKey k)))) (Some t) now = Some raw ->
  x_parse_pop E raw = true -> (forall x, In x (list_ascii_of_string att) -> x <> "~"%char) ->
  runs (validate_attestation E att) tr (Done (Some (Some (pub k)))) ->
  t_meta t = Some m -> (unix t1 <= m_expires_at m)%N -> (m_not_before m <= unix t2)%N ->
  taken_as E read_u64 payload UPossession raw /\
  runs (client_attestation E (Some (mkAuthn (Some assertion_attestation) (Some (att ++ "~" ++ raw)%string))))
    (tr ++ [(CNow, ATime t1); (CNow, ATime t2); (CClientGet (m_issuer m), AClient (SOk c))])%list (Done (aok (Some c))).
Proof. exact C111_assertion_as_possession_refuted_proof. Qed.
Print Assumptions C111_assertion_as_possession_refuted.
Example C111_assertion_as_possession_refuted_met :
  jose_works own_ext (x_payload own_ext KPop) public own_sign /\
  client_assertion_generate all_checks (Some (jwt_serialize own_sign "client-assertion" false (Some (KKey holder_key)))) (Some own_token) 1002 = Some "own"%string /\
  x_parse_pop own_ext "own" = true /\ (forall x, In x (list_ascii_of_string "attestation") -> x <> "~"%char) /\
  runs (validate_attestation own_ext "attestation")
    [(CNow, ATime (1005 * second)); (CNow, ATime (1005 * second)); (CClientGet "attester", AClient (SOk attester))] (Done (Some (Some (public holder_key)))) /\
  (unix (1005 * second) <= m_expires_at own_meta)%N /\ (m_not_before own_meta <= unix (1005 * second))%N.
Proof.
  split; [apply own_works|]. split; [vm_compute; reflexivity|]. split; [reflexivity|].
  split; [cbn; intros x H; repeat (destruct H as [<-|H]; [discriminate|]); destruct H|].
  split; [steps|]. split; vm_compute; discriminate.
Qed.

Theorem C111_token_as_possession_refuted : forall E sign dec pub K k t now raw att tr m t1 t2 (c : client) read_u64 payload,
  jose_works E dec pub sign ->
  (forall s j, dec s = Some j ->
     x_payload E KPop s = Some (mkClaims (jc_iss j) "" (jc_aud j) (jc_jti j) (jc_exp j) (jc_nbf j) (jc_iat j) None "" "" None)) ->
  access_token_generate K (Some (jwt_serialize sign "at" false (Some (KKey k)))) (Some t) now = Some raw ->
  x_parse_pop E raw = true -> (forall x, In x (list_ascii_of_string att) -> x <> "~"%char) ->
  runs (validate_attestation E att) tr (Done (Some (Some (pub k)))) ->
  t_meta t = Some m -> (unix t1 <= m_expires_at m)%N -> (m_not_before m <= unix t2)%N ->
  taken_as E read_u64 payload UPossession raw /\
  runs (client_attestation E (Some (mkAuthn (Some assertion_attestation) (Some (att ++ "~" ++ raw)%string))))
    (tr ++ [(CNow, ATime t1); (CNow, ATime t2); (CClientGet (m_issuer m), AClient (SOk c))])%list (Done (aok (Some c))).
Proof. exact C111_token_as_possession_refuted_proof. Qed.
Print Assumptions C111_token_as_possession_refuted.
Example C111_token_as_possession_refuted_met :
  jose_works self_ext self_dec public self_sign /\
  access_token_generate all_checks (Some (jwt_serialize self_sign "at" false (Some (KKey srv_key)))) (Some self_token) 1002 = Some "token"%string /\
  x_parse_pop self_ext "token" = true /\ (forall x, In x (list_ascii_of_string "attestation") -> x <> "~"%char) /\
  runs (validate_attestation self_ext "attestation")
    [(CNow, ATime (1005 * second)); (CNow, ATime (1005 * second)); (CClientGet "attester", AClient (SOk attester))] (Done (Some (Some (public srv_key)))) /\
  t_meta self_token = Some self_meta /\ (unix (1005 * second) <= m_expires_at self_meta)%N /\ (m_not_before self_meta <= unix (1005 * second))%N.
Proof.
  split; [apply self_works|]. split; [vm_compute; reflexivity|]. split; [reflexivity|].
  split; [cbn; intros x H; repeat (destruct H as [<-|H]; [discriminate|]); destruct H|].
  split; [steps|]. split; [reflexivity|]. split; vm_compute; discriminate.
Qed.
Example C111_token_as_possession_refuted_met2 : forall s j, self_dec s = Some j ->
  x_payload self_ext KPop s = Some (mkClaims (jc_iss j) "" (jc_aud j) (jc_jti j) (jc_exp j) (jc_nbf j) (jc_iat j) None "" "" None).
Proof. exact self_pop. Qed.

Theorem C111_token_as_assertion_refuted : forall E sign dec pub K k t now raw m t1 (c : client) keys read_u64 payload,
  jose_works E dec pub sign ->
  (forall s j, dec s = Some j ->
     x_payload E KAssertion s = Some (mkClaims (jc_iss j) (jc_sub j) (jc_aud j) (jc_jti j) (jc_exp j) (jc_nbf j) (jc_iat j) None "" "" None)) ->
  access_token_generate K (Some (jwt_serialize sign "at" false (Some (KKey k)))) (Some t) now = Some raw ->
  raw <> ""%string -> x_parse_jose E raw = true ->
  t_meta t = Some m -> m_subject m = m_issuer m -> (unix t1 <= m_expires_at m)%N ->
  cl_jwks c <> ""%string -> x_jwks E (cl_jwks c) = Some keys -> validate_signature E keys raw = true ->
  taken_as E read_u64 payload UAssertion raw /\
  runs (private_key_jwt E (Some (mkAuthn (Some assertion_bearer) (Some raw))))
    [(CNow, ATime t1); (CClientGet (m_issuer m), AClient (SOk c))] (Done (aok (Some c))).
Proof. exact C111_token_as_assertion_refuted_proof. Qed.
Print Assumptions C111_token_as_assertion_refuted.
Example C111_token_as_assertion_refuted_met :
  jose_works self_ext self_dec public self_sign /\
  access_token_generate all_checks (Some (jwt_serialize self_sign "at" false (Some (KKey srv_key)))) (Some self_token) 1002 = Some "token"%string /\
  x_parse_jose self_ext "token" = true /\ t_meta self_token = Some self_meta /\ m_subject self_meta = m_issuer self_meta /\
  (unix (1005 * second) <= m_expires_at self_meta)%N /\ x_jwks self_ext (cl_jwks as_client) = Some [public srv_key] /\
  validate_signature self_ext [public srv_key] "token" = true /\
  (forall s j, self_dec s = Some j ->
     x_payload self_ext KAssertion s = Some (mkClaims (jc_iss j) (jc_sub j) (jc_aud j) (jc_jti j) (jc_exp j) (jc_nbf j) (jc_iat j) None "" "" None)).
Proof.
  split; [apply self_works|]. split; [vm_compute; reflexivity|]. split; [reflexivity|]. split; [reflexivity|]. split; [reflexivity|].
  split; [vm_compute; discriminate|]. split; [reflexivity|]. split; [vm_compute; reflexivity|exact self_assertion].
Qed.
