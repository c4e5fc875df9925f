(** * sdk/jarm *)

From Verif Require Export Signer.
From Coq Require Import ZArith.

(** decoder.go:33-42 responseClaims; absent members are zero. *)
Record jarm_claims := mkJarm {
  jm_iss : string; jm_aud : string; jm_exp : N;
  jm_code : string; jm_state : string;
  jm_error : string; jm_description : string
}.

(** The fields of flowv1.AuthorizeResponse that the encoder reads or the decoder
    writes; the error is its code and description. *)
Record jarm_response := mkJarmResp {
  jr_error : option (string * string);
  jr_code : string; jr_state : string;
  jr_client_id : string; jr_expires_in : N; jr_issuer : string
}.

(** api.go:29 *)
Definition jarm_type := "jarm+jwt".

(** Conversion to int64. *)
Definition int64 (z : Z) : Z := ((z + 2 ^ 63) mod 2 ^ 64 - 2 ^ 63)%Z.

(** uint64(time.Now().Add(time.Duration(expires) * time.Second).Unix()), at [now]
    nanoseconds after the epoch (encoder.go:80). *)
Definition expiry (now expires : N) : N :=
  Z.to_N (((Z.of_N now + int64 (int64 (Z.of_N expires) * 1000000000)) / 1000000000) mod 2 ^ 64).

(** encoder.go:42-91 Encode; [now] is the clock in nanoseconds. *)
Definition jarm_encode (ser : jarm_claims -> option string) (issuer : string)
    (resp : option jarm_response) (now : N) : option string :=
  if is_empty issuer then None
  else
    match resp with
    | None => None
    | Some r =>
        match jr_error r with
        | Some (code, desc) => ser (mkJarm "" "" 0 "" (jr_state r) code desc)
        | None =>
            if is_empty (jr_client_id r) || is_empty (jr_code r) || is_empty (jr_state r)
               || (jr_expires_in r <=? 0)%N
            then None
            else ser (mkJarm (jr_issuer r) (jr_client_id r) (expiry now (jr_expires_in r))
                        (jr_code r) (jr_state r) "" "")
        end
    end.

(** The two results of Decode: the Go error is nil or not. *)
Inductive jarm_result := JFail (r : option jarm_response) | JOk (r : jarm_response).

Definition error_response (code desc : string) : jarm_response :=
  mkJarmResp (Some (code, desc)) "" "" "" 0 "".
(** rfcerrors.InvalidToken().Build() (sdk/rfcerrors/errors.go:78-84) *)
Definition invalid_token_response : jarm_response :=
  error_response "invalid_token"
    "The access token provided is expired, revoked, malformed, or invalid for other reasons.".

Section Jarm.
Context (E : ext) (dec : string -> option jarm_claims).

(** decoder.go:63-130 Decode with the verifier of sdk/token/jwt/verifier.go; [keys] is
    the answer of its key set provider, [now] the clock in nanoseconds. *)
Definition jarm_decode (keys : option (list jwk)) (issuer audience response : string) (now : N)
  : jarm_result :=
  if is_empty audience || is_empty response then JFail None
  else
    match x_parse E response with
    | None => JFail None
    | Some t =>
        match j_typ t with
        | None => JFail None
        | Some typ =>
            if negb (String.eqb typ jarm_type) then JFail None
            else
              match verifier_claims E dec keys response with
              | None => JFail None
              | Some c =>
                  if negb (is_empty (jm_error c))
                  then JOk (error_response (jm_error c) (jm_description c))
                  else if negb (String.eqb (jm_iss c) issuer) then JFail (Some invalid_token_response)
                  else if negb (String.eqb (jm_aud c) audience) then JFail (Some invalid_token_response)
                  else if (jm_exp c <? unix now)%N then JFail (Some invalid_token_response)
                  else JOk (mkJarmResp None (jm_code c) (jm_state c) "" 0 (jm_iss c))
              end
        end
    end.
End Jarm.
