(** * Concrete cases for the examples of [PropsAttest] *)

From Verif Require Export MeetWebLive PfAttest.

Definition att_claims : claims :=
  mkClaims "urn:solid:attestation-server" "attestation-client" "" "" 4600 999 0 (Some (Some dev_key)) "" "" None.
Definition pop_claims : claims := mkClaims "attestation-client" "" "http://localhost:8085" "jti-20" 1030 999 0 None "" "" None.
(** A proof in the name of another client. *)
Definition other_claims : claims := mkClaims "app" "" "http://localhost:8085" "jti-21" 1030 0 0 None "" "" None.
Definition att_sign (c : claims) : option string := if claims_dec c att_claims then Some "example-att"%string else None.
Definition pop_sign (c : claims) : option string :=
  if claims_dec c pop_claims then Some "example-pop"%string
  else if claims_dec c other_claims then Some "other-pop"%string else None.

Definition att_alg (s : string) : string := if String.eqb s "example-att" then "EdDSA" else "ES384".
(** [eddsa]: the server accepts that algorithm too. *)
Definition att_ext (eddsa : bool) : ext := mkExt fold_ascii demo_sha demo_blake
  (starts_with "https://") (fun s => s) (starts_with "urn:solid:") (fun s => s)
  web_parse (fun s => eddsa || negb (String.eqb (att_alg s) "EdDSA")) (fun _ => true)
  (fun k s => (String.eqb (k_mat k) "attester-key" && String.eqb s "example-att")
    || (String.eqb (k_mat k) "instance-key" && str_in s ["example-pop"; "other-pop"]) || web_verify k s)
  (fun k s => match k with
     | KAttestation => if String.eqb s "example-att" then Some att_claims else web_claims k s
     | KPop => if String.eqb s "example-pop" then Some pop_claims else if String.eqb s "other-pop" then Some other_claims else web_claims k s
     | _ => web_claims k s
     end)
  (x_jwks web_ext) (x_thumb web_ext).
Definition att_server (eddsa : bool) : http_server := mkServer (att_ext eddsa) iss web_dec (fun _ => Some "jarm"%string) web_salt.

(** The registry of inmemory/client.go. *)
Definition att_server_client : client :=
  mkClient "urn:solid:attestation-server" CtConfidential [] [] [] [] "Attester" "attester-jwks" "" "" false.
Definition att_client : client :=
  mkClient "attestation-client" CtCredentialed [] [] [] ["client_credentials"] "Client" "" "" "" false.
Definition att_world : world := init_world (1000 * second)
  (upd (upd (web_clients false) "attestation-client" (Some att_client)) "urn:solid:attestation-server" (Some att_server_client)).

Lemma registry_att : registry_ok att_world.
Proof.
  intros id c. cbn. unfold web_clients, upd, empty.
  repeat match goal with |- context[String.eqb id ?x] => destruct (String.eqb_spec id x) as [->|_] end;
    intros H; inversion H; reflexivity.
Qed.
Lemma att_signs eddsa : attester_signs (att_ext eddsa) att_key att_sign.
Proof.
  intros cl raw. unfold att_sign. destruct (claims_dec cl att_claims) as [->|]; [|discriminate]. intros H; injection H as <-.
  split; [|split; reflexivity]. intros H. cbn in H. repeat destruct H as [H|H]; try discriminate. destruct H.
Qed.
Lemma pop_signed eddsa : pop_signs (att_ext eddsa) dev_key pop_sign.
Proof.
  intros cl raw. unfold pop_sign. destruct (claims_dec cl pop_claims) as [->|]; [|destruct (claims_dec cl other_claims) as [->|]; [|discriminate]];
    intros H; injection H as <-; split; reflexivity.
Qed.
Lemma att_registered eddsa : attester_registered (att_ext eddsa) att_world att_key.
Proof. do 2 eexists. split; [reflexivity|]. split; [discriminate|]. split; [reflexivity|]. split; [left; reflexivity|discriminate]. Qed.
Lemma att_accepts : accepts_both (att_ext true) att_sign pop_sign.
Proof. split; reflexivity. Qed.

Definition att_data : attestation_data := mkAttData "attestation-client" (Some dev_key).
Definition att_r : http_request := attested_request true "as.example" "/token" "example-att" "example-pop".
Definition other_r : http_request := sdk_post true "as.example" "/token"
  [("grant_type", "client_credentials"); ("client_assertion", "example-att~other-pop"); ("client_assertion_type", assertion_attestation)].
Definition os_attested : list orc := [ok; ok; ok; ok; ok; ok].
Definition x_attested (r : http_request) : list hsched :=
  HTick (2 * second) :: hfull 0 EToken r (os_attested ++ [ok] ++ os_tok "id-1" "at-1" ++ [ok]).
