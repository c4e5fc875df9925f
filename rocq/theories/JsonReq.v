(** * sdk/jwsreq: authorization requests as signed JWTs *)

From Verif Require Export Types.
From Coq Require Import DecimalString.

(** JSON values; the text of a number is kept, of an object the names of its members. *)
Inductive json := JsNull | JsBool (b : bool) | JsNum (text : string) | JsStr (s : string) | JsList (l : list json) | JsObj (names : list string).

(** api/oidc/flow/v1, message AuthorizationRequest, all its members (proto/oidc/flow/v1/flow.proto:28-189). *)
Record request := mkRequest {
  rq_scope : string; rq_response_type : string; rq_client_id : string; rq_redirect_uri : string; rq_state : string;
  rq_response_mode : option string; rq_nonce : string; rq_display : option string; rq_prompt : option string;
  rq_max_age : option N; rq_ui_locales : option string; rq_id_token_hint : option string; rq_acr_values : option string;
  rq_request : option string; rq_request_uri : option string; rq_code_challenge : string;
  rq_code_challenge_method : string; rq_audience : string; rq_dpop_proof : option string; rq_resource : list string;
  rq_iss : option string; rq_login_hint_token : option string; rq_login_hint : option string
}.

(** The members in the order of their numbers: how protobuf reflection sees the message. *)
Inductive kind := KStr | KOpt | KNum | KList.
Inductive value := VStr (s : string) | VOpt (s : option string) | VNum (n : option N) | VList (l : list string).

Definition values (r : request) : list value :=
  [VStr (rq_scope r); VStr (rq_response_type r); VStr (rq_client_id r); VStr (rq_redirect_uri r); VStr (rq_state r);
   VOpt (rq_response_mode r); VStr (rq_nonce r); VOpt (rq_display r); VOpt (rq_prompt r); VNum (rq_max_age r);
   VOpt (rq_ui_locales r); VOpt (rq_id_token_hint r); VOpt (rq_acr_values r); VOpt (rq_request r); VOpt (rq_request_uri r);
   VStr (rq_code_challenge r); VStr (rq_code_challenge_method r); VStr (rq_audience r); VOpt (rq_dpop_proof r);
   VList (rq_resource r); VOpt (rq_iss r); VOpt (rq_login_hint_token r); VOpt (rq_login_hint r)].
Definition of_values (l : list value) : option request :=
  match l with
  | [VStr a; VStr b; VStr c; VStr d; VStr e; VOpt f; VStr g; VOpt h; VOpt i; VNum j; VOpt k; VOpt l; VOpt m; VOpt n; VOpt o;
     VStr p; VStr q; VStr r; VOpt s; VList t; VOpt u; VOpt v; VOpt w] =>
      Some (mkRequest a b c d e f g h i j k l m n o p q r s t u v w)
  | _ => None
  end.

(** proto name, JSON name and kind of each member. *)
Definition fields : list (string * string * kind) :=
  [("scope", "scope", KStr); ("response_type", "responseType", KStr); ("client_id", "clientId", KStr);
   ("redirect_uri", "redirectUri", KStr); ("state", "state", KStr); ("response_mode", "responseMode", KOpt);
   ("nonce", "nonce", KStr); ("display", "display", KOpt); ("prompt", "prompt", KOpt); ("max_age", "maxAge", KNum);
   ("ui_locales", "uiLocales", KOpt); ("id_token_hint", "idTokenHint", KOpt); ("acr_values", "acrValues", KOpt);
   ("request", "request", KOpt); ("request_uri", "requestUri", KOpt); ("code_challenge", "codeChallenge", KStr);
   ("code_challenge_method", "codeChallengeMethod", KStr); ("audience", "audience", KStr); ("dpop_proof", "dpopProof", KOpt);
   ("resource", "resource", KList); ("iss", "iss", KOpt); ("login_hint_token", "loginHintToken", KOpt);
   ("login_hint", "loginHint", KOpt)]%string.
Definition zero (k : kind) : value :=
  match k with KStr => VStr "" | KOpt => VOpt None | KNum => VNum None | KList => VList [] end.

Section JsonReq.
(** [utf8]: valid UTF-8; protojson refuses other strings. *)
Context (utf8 : string -> bool).
(** How protojson reads a 64-bit number from the text of a JSON number, or from a JSON string. *)
Context (read_u64 : string -> option N).

(** protojson of one member, encoder.go:50-53: UseProtoNames, not EmitUnpopulated.  [Some None]: left
    out; [None]: an error.  64-bit numbers are written as strings. *)
Definition decimal (n : N) : string := NilEmpty.string_of_uint (N.to_uint n).
Definition write_value (v : value) : option (option json) :=
  match v with
  | VStr "" | VOpt None | VNum None | VList [] => Some None
  | VStr s | VOpt (Some s) => if utf8 s then Some (Some (JsStr s)) else None
  | VNum (Some n) => Some (Some (JsStr (decimal n)))
  | VList l => if forallb utf8 l then Some (Some (JsList (map JsStr l))) else None
  end.
Fixpoint write_values (fs : list (string * string * kind)) (vs : list value) : option (list (string * json)) :=
  match fs, vs with
  | (n, _, _) :: fs, v :: vs =>
      match write_value v, write_values fs vs with
      | Some None, Some d => Some d
      | Some (Some j), Some d => Some ((n, j) :: d)
      | _, _ => None
      end
  | _, _ => Some []
  end.

(** encoder.go:43-73 Encode; [sign] is the signer with its key.  The map that the text is decoded into
    is kept as a list of members, without repeated names. *)
Definition encode_request (sign : list (string * json) -> option string) (r : request) : option string :=
  match write_values fields (values r) with Some d => sign d | None => None end.

(** protojson of one member; null leaves it unset. *)
Fixpoint read_strings (l : list json) : option (list string) :=
  match l with
  | [] => Some []
  | JsStr s :: l => match read_strings l with Some r => Some (s :: r) | None => None end
  | _ :: _ => None
  end.
Definition read_value (k : kind) (j : json) : option value :=
  match k, j with
  | _, JsNull => Some (zero k)
  | KStr, JsStr s => Some (VStr s)
  | KOpt, JsStr s => Some (VOpt (Some s))
  | KNum, JsStr s | KNum, JsNum s => match read_u64 s with Some n => Some (VNum (Some n)) | None => None end
  | KList, JsList l => match read_strings l with Some r => Some (VList r) | None => None end
  | _, _ => None
  end.

(** Number and kind of the member with this name; protojson takes either name. *)
Fixpoint lookup (fs : list (string * string * kind)) (name : string) : option (nat * kind) :=
  match fs with
  | [] => None
  | (n, c, k) :: fs =>
      if (String.eqb n name || String.eqb c name)%bool then Some (O, k)
      else match lookup fs name with Some (i, k) => Some (S i, k) | None => None end
  end.
Fixpoint set_nth (i : nat) (v : value) (l : list value) : list value :=
  match i, l with O, _ :: l => v :: l | S i, x :: l => x :: set_nth i v l | _, [] => [] end.

(** protojson on an object, without DiscardUnknown (decoder.go:65): an unknown name is an error, and so
    is a member that comes twice. *)
Fixpoint read_members (seen : list nat) (acc : list value) (d : list (string * json)) : option (list value) :=
  match d with
  | [] => Some acc
  | (name, j) :: d =>
      match lookup fields name with
      | None => None
      | Some (i, k) =>
          if existsb (Nat.eqb i) seen then None
          else match read_value k j with
               | None => None
               | Some v => read_members (i :: seen) (set_nth i v acc) d
               end
      end
  end.

(** decoder.go:43-71 Decode; [verify] is the verifier with its keys: the claims of the token.  Through
    the map[string]any a JSON number becomes a float64: [verify] gives the text it is written with
    afterwards. *)
Definition decode_request (verify : string -> option (list (string * json))) (raw : string) : option request :=
  if String.eqb raw "" then None
  else match verify raw with
       | None => None
       | Some d => match read_members [] (map (fun f => zero (snd f)) fields) d with
                   | Some vs => of_values vs
                   | None => None
                   end
       end.
End JsonReq.
