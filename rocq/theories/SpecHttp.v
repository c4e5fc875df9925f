(** * Vocabulary of the statements about the HTTP endpoints, the client and the resource server *)

From Verif Require Export SpecTok ResourceServer HttpSystem.

(** Among the calls [tr] of the request are those of an accepted check of the proof in its
    DPoP header, for its method and URL; [token] is the access token the proof must be for.
    The result is the thumbprint of the proof's key. *)
Definition proof_accepted (E : ext) (r : http_request) (token : option string)
    (tr : list (call * answer)) (thumb : string) : Prop :=
  exists tr0 tr1 tr2, tr = (tr0 ++ tr1 ++ tr2)%list /\
    runs (dpop_verify E (hq_method r) (url_of r) (hq_header r "DPoP") token None) tr1 (Done (Some thumb)).

(** The token was stored. *)
Definition stored (tr : list (call * answer)) (t : token) : Prop :=
  exists issuer r, In (CTokCreate issuer t, AUnit r) tr /\ is_ok r = true.

(** The header is the scheme, up to case, a space and the token. *)
Definition authorization (E : ext) (r : http_request) (scheme token : string) : Prop :=
  exists s, fold_eq (x_fold E) s scheme /\ hq_header r "Authorization" = (s ++ " " ++ token)%string.

(** The permissions let this client act for this subject. *)
Definition permitted (E : ext) (perms : permissions) (intent client subject : string) : Prop :=
  exists clients subjects, perms intent = Some clients /\ clients client = Some subjects /\
    listed E subjects subject.

(** The last key set fetched successfully. *)
Fixpoint last_fetched (h : list (keys_result * bool)) : option (list jwk * N) :=
  match h with
  | [] => None
  | (r, f) :: h =>
      match last_fetched h with
      | Some x => Some x
      | None => match r, f with KeysOk keys exp, true => Some (keys, exp) | _, _ => None end
      end
  end.

(** The calls of HTTP request number [i] in a history of the server. *)
Fixpoint hcalls (i : nat) (h : list hevent) : list (call * answer) :=
  match h with
  | [] => []
  | HvCall j c a :: h => if Nat.eqb j i then (c, a) :: hcalls i h else hcalls i h
  | _ :: h => hcalls i h
  end.

(** One of the client's registered keys signed the document. *)
Definition signed_by (E : ext) (c : client) (raw : string) : Prop :=
  exists keys, x_jwks E (cl_jwks c) = Some keys /\ verified_with E keys raw.

(** The name by which the client is to know the user. *)
Definition subject_for (E : ext) (salt : string) (c : client) (user subject : string) : Prop :=
  if String.eqb (cl_subject_type c) "pairwise"
  then pairwise_encode (x_blake E) salt (cl_sector c) user = Some subject else subject = user.
