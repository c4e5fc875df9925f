(** * sdk/dpop/verifier.go *)

From Verif Require Export Prog Jwk Compare.

Section DPoP.
Context (E : ext).

(** sdk/dpop/api.go:25-32 *)
Definition dpop_type := "dpop+jwt".
Definition dpop_threshold : N := 15 * second.

(** verifier.go:86-91 *)
Definition http_methods : list string :=
  ["CONNECT"; "DELETE"; "GET"; "HEAD"; "OPTIONS"; "PATCH"; "POST"; "PUT"; "TRACE"].

(** sdk/token/jwt/token_adapter.go:58-71 PublicKeyThumbPrint *)
Definition thumbprint (k : jwk) : option string :=
  match x_thumb E k with None => None | Some h => Some (b64url h) end.

(** verifier.go:127-150: what follows the proof cache. *)
Definition dpop_finish (k : jwk) (cl : claims) (token_value token_cnf : option string)
  : option string :=
  match thumbprint k with
  | None => None
  | Some thumb =>
      match token_value with
      | None => Some thumb
      | Some tv =>
          match c_ath cl with
          | None => None
          | Some ath =>
              if negb (secure_compare ath (b64url (x_sha256 E tv))) then None
              else
                match token_cnf with
                | None => Some thumb
                | Some cnf => if negb (secure_compare thumb cnf) then None else Some thumb
                end
          end
      end
  end.

(** verifier.go:236-237; blake2b.Sum256 is the unkeyed hash, i.e. an empty key. *)
Definition jti_hash (jti : string) : string := b64url (x_blake E "" jti).

(** verifier.go:61-151 Verify; [None] is an error.  Whichever verifier it is
    given (sdk/token/jwt/verifier.go:47-58 or embedded_verifier.go:44-55), it only
    uses Parse, which is jwt.ParseSigned.  The clock is assumed to be past 1970-01-01T00:00:15 (the
    subtraction of 15 s does not wrap). *)
Definition dpop_verify (htm htu proof : string) (token_value token_cnf : option string)
  : prog (option string) :=
  if is_empty htm || is_empty htu || is_empty proof then Ret None
  else if negb (x_request_uri E htu) then Ret None
  else if negb (existsb (String.eqb (x_upper E htm)) http_methods) then Ret None
  else
    match x_parse E proof with
    | None => Ret None
    | Some t =>
        match j_typ t, j_jwk t with
        | Some typ, Some k =>
            if negb (String.eqb typ dpop_type) then Ret None
            else
              match token_claims E KDpop k proof with
              | None => Ret None
              | Some cl =>
                  if is_empty (x_url_string E htu) then Ret None
                  else if negb (String.eqb (c_htm cl) htm) then Ret None
                  else if negb (String.eqb (c_htu cl) (x_url_string E htu)) then Ret None
                  else
                    now (fun t1 =>
                    if (c_iat cl <? unix (t1 - dpop_threshold))%N then Ret None
                    else
                      now (fun t2 =>
                      if (unix (t2 + dpop_threshold) <? c_iat cl)%N then Ret None
                      else
                        let id := jti_hash (c_jti cl) in
                        proof_exists id (fun r =>
                        match r with
                        | SErr | SNotFound => Ret None
                        | SOk true => Ret None
                        | SOk false | SNil =>
                            write (CProofReg id) (fun r =>
                            if is_ok r then Ret (dpop_finish k cl token_value token_cnf)
                            else Ret None)
                        end)))
              end
        | _, _ => Ret None
        end
    end.

End DPoP.
