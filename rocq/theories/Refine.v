(** * What the HTTP endpoints ask of the services

    The vocabulary of the refinement: each HTTP request is served by a few service requests
    ([request] of System.v), one after the other.  Here is which ones, with which arguments, and
    which HTTP answers may follow. *)

From Verif Require Export SpecHttp.

(** What has happened in an HTTP request so far: a service request, numbered [j] among all
    service requests, was answered; the handler itself read the clock or a client. *)
Inductive item := Served (j : nat) (x : request) (y : response) | Saw (c : call) (a : answer).

Definition served (d : list item) (x : request) (y : response) : Prop := exists j, In (Served j x y) d.
Definition saw (d : list item) (c : call) (a : answer) : Prop := In (Saw c a) d.

(** middleware/client_auth.go:80-84 *)
Definition credentials (r : http_request) : option auth_request :=
  Some (mkAuthn (Some (post_value r "client_assertion_type")) (Some (post_value r "client_assertion"))).

(** The middleware let the request pass for this client (middleware/client_auth.go:35-104). *)
Definition logged_in (r : http_request) (d : list item) (client : option client) : Prop :=
  (exists c, client = Some c /\ query_get r "client_id" <> ""%string /\
     saw d (CClientGet (query_get r "client_id")) (AClient (SOk c)) /\ cl_type c = CtPublic) \/
  (query_get r "client_id" = ""%string /\ exists res, aa_err res = false /\ aa_client res = client /\
     ((served d (RAssertion (credentials r)) (PAuthn res) /\
       post_value r "client_assertion_type" = assertion_bearer) \/
      (served d (RAttestation (credentials r)) (PAuthn res) /\
       post_value r "client_assertion_type" = assertion_attestation))).

(** middleware/basic_auth.go:41-71 *)
Definition user_logged_in (r : http_request) (user : string) : Prop :=
  hq_basic r = Some (user, "world"%string) /\ user = "hello"%string.

(** The check of the proof in the DPoP header. *)
Definition proof_check (r : http_request) : request :=
  RDpop (hq_method r) (url_of r) (hq_header r "DPoP") None None.

(** May this service request be made now? *)
Definition stage (S : http_server) (e : endpoint) (r : http_request) (d : list item) (x : request) : Prop :=
  let E := sv_ext S in
  let issuer := sv_issuer S in
  match x with
  | RAssertion q =>
      e <> EAuthorize /\ e <> EDevice /\ q = credentials r /\ query_get r "client_id" = ""%string /\
      post_value r "client_assertion_type" = assertion_bearer
  | RAttestation q =>
      e <> EAuthorize /\ e <> EDevice /\ q = credentials r /\ query_get r "client_id" = ""%string /\
      post_value r "client_assertion_type" = assertion_attestation
  | RDpop _ _ _ _ _ =>
      (e = EToken \/ e = EPar) /\ hq_method r = "POST"%string /\ x = proof_check r /\
      (e = EToken -> hq_header r "DPoP" <> ""%string) /\ exists c, logged_in r d (Some c)
  | RToken q =>
      e = EToken /\ hq_method r = "POST"%string /\
      exists c cnf, logged_in r d (Some c) /\ q = Some (token_message issuer r c cnf) /\
        ((hq_header r "DPoP" = ""%string /\ cnf = None /\ cl_dpop_bound c = false) \/
         (exists jkt, cnf = Some jkt /\ served d (proof_check r) (PDpop (Some jkt))))
  | RIntrospect q =>
      e = EIntrospect /\
      exists c, logged_in r d (Some c) /\ q = Some (mkValReq issuer (Some c) (form_value r "token"))
  | RRevoke q =>
      e = ERevoke /\
      exists c, logged_in r d (Some c) /\ q = Some (mkValReq issuer (Some c) (form_value r "token"))
  | RRegister q =>
      e = EPar /\ hq_method r = "POST"%string /\
      exists c ar jkt, logged_in r d (Some c) /\ served d (proof_check r) (PDpop (Some jkt)) /\
        request_decode E (sv_decoder S) c (query_get r "request") = Some ar /\
        q = Some (mkRegReq issuer (Some c) (Some ar))
  | RAuthorize q =>
      e = EAuthorize /\ hq_method r = "GET"%string /\
      exists c user sub ar, user_logged_in r user /\
        saw d (CClientGet (query_get r "client_id")) (AClient (SOk c)) /\
        subject_for E (sv_salt S) c user sub /\
        request_decode E (sv_decoder S) c (query_get r "request") = Some ar /\
        q = Some (mkAuthzReq issuer sub (Some ar))
  | RDevAuthorize q =>
      e = EDeviceAuthorize /\ hq_method r = "POST"%string /\ (exists client, logged_in r d client) /\
      q = Some (mkDevReq issuer (form_value r "client_id") (optional_string (form_value r "scope"))
                  (optional_string (form_value r "audience")))
  | RDevValidate q =>
      e = EDevice /\ hq_method r = "POST"%string /\
      exists user, user_logged_in r user /\ q = Some (mkDevVal issuer (post_value r "user_code") user)
  end.

(** No service is used twice for one HTTP request. *)
Definition kind (x : request) : nat :=
  match x with
  | RToken _ => 0 | RIntrospect _ => 1 | RRevoke _ => 2 | RRegister _ => 3 | RAuthorize _ => 4
  | RDevAuthorize _ => 5 | RDevValidate _ => 6 | RAssertion _ => 7 | RAttestation _ => 8 | RDpop _ _ _ _ _ => 9
  end.
Definition unrepeated (d : list item) (x : request) : Prop :=
  forall j x' y, In (Served j x' y) d -> kind x' <> kind x.
Definition may (S : http_server) (e : endpoint) (r : http_request) (d : list item) (x : request) : Prop :=
  stage S e r d x /\ unrepeated d x.

(** Errors the handlers make themselves. *)
Definition own_error (status : N) (e : oerror) : Prop :=
  In (status, e) [(400%N, err invalid_request); (400%N, err invalid_dpop_proof); (401%N, err invalid_client);
    (401%N, err invalid_request); (405%N, err invalid_request); (500%N, err server_error)].

(** The middleware did not let the request pass, or for no client. *)
Definition locked_out (r : http_request) (d : list item) : Prop :=
  logged_in r d None \/
  (query_get r "client_id" <> ""%string /\ exists a, saw d (CClientGet (query_get r "client_id")) (AClient a) /\
     forall c, a = SOk c -> cl_type c <> CtPublic) \/
  (query_get r "client_id" = ""%string /\
     ((post_value r "client_assertion_type" <> assertion_bearer /\
       post_value r "client_assertion_type" <> assertion_attestation) \/
      exists res, aa_err res = true /\
        ((served d (RAssertion (credentials r)) (PAuthn res) /\
          post_value r "client_assertion_type" = assertion_bearer) \/
         (served d (RAttestation (credentials r)) (PAuthn res) /\
          post_value r "client_assertion_type" = assertion_attestation)))).

(** Why a handler answers with an error of its own. *)
Inductive turned_away (S : http_server) (r : http_request) (d : list item) : endpoint -> Prop :=
| ta_post e : In e [EToken; EDeviceAuthorize] -> hq_method r <> "POST"%string -> turned_away S r d e
| ta_get : hq_method r <> "GET"%string -> turned_away S r d EAuthorize
| ta_either : hq_method r <> "GET"%string -> hq_method r <> "POST"%string -> turned_away S r d EDevice
| ta_client e : e <> EAuthorize -> e <> EDevice -> locked_out r d -> turned_away S r d e
| ta_bound c : logged_in r d (Some c) -> hq_header r "DPoP" = ""%string -> cl_dpop_bound c = true ->
    turned_away S r d EToken
| ta_proof e : In e [EToken; EPar] -> served d (proof_check r) (PDpop None) -> turned_away S r d e
| ta_pushed c : logged_in r d (Some c) ->
    request_decode (sv_ext S) (sv_decoder S) c (query_get r "request") = None -> turned_away S r d EPar
| ta_named a : saw d (CClientGet (query_get r "client_id")) (AClient a) -> (forall c, a <> SOk c) ->
    turned_away S r d EAuthorize
| ta_subject c user : user_logged_in r user ->
    saw d (CClientGet (query_get r "client_id")) (AClient (SOk c)) ->
    (forall sub, ~ subject_for (sv_ext S) (sv_salt S) c user sub) -> turned_away S r d EAuthorize
| ta_request c : saw d (CClientGet (query_get r "client_id")) (AClient (SOk c)) ->
    request_decode (sv_ext S) (sv_decoder S) c (query_get r "request") = None -> turned_away S r d EAuthorize
| ta_deliver q res : served d (RAuthorize q) (PAuthorize res) -> zr_err res = false ->
    x_request_uri (sv_ext S) (zr_redirect_uri res) = false \/
    (exists t, saw d CNow (ATime t) /\
       jarm_encode (sv_serializer S) (zr_issuer res) (Some (to_encode res)) t = None) ->
    turned_away S r d EAuthorize.

(** May the HTTP request end like this? *)
Definition ending (S : http_server) (e : endpoint) (r : http_request) (d : list item)
    (o : outcome http_response) : Prop :=
  match o with
  | Done (HToken access expires type refresh scope) =>
      e = EToken /\ exists q res at_ m t,
        served d (RToken q) (PToken res) /\ tr_err res = false /\ tr_at res = Some at_ /\
        t_meta at_ = Some m /\ saw d CNow (ATime t) /\ access = t_value at_ /\
        expires = sub64 (m_expires_at m) (unix t) /\
        type = (if is_empty (hq_header r "DPoP") then "Bearer" else "DPoP")%string /\
        refresh = (match tr_rt res with Some rt => t_value rt | None => ""%string end) /\ scope = m_scope m
  | Done (HDoc doc) =>
      e = EIntrospect /\ exists q res t n,
        served d (RIntrospect q) (PIntrospect res) /\ ir_err res = false /\ ir_token res = Some t /\
        saw d CNow (ATime n) /\
        doc = match t_meta t with
              | None => [("active"%string, JBool false)]
              | Some m => introspection_doc t m (unix n)
              end
  | Done HEmpty =>
      (e = ERevoke /\ exists q res, served d (RRevoke q) (PRevoke res) /\ rr_err res = false) \/
      (e = EDevice /\ exists q res, served d (RDevValidate q) (PDevValidate res) /\ vr_err res = false)
  | Done (HPushed issuer uri expires) =>
      e = EPar /\ exists q res, served d (RRegister q) (PRegister res) /\ gr_err res = false /\
        issuer = gr_issuer res /\ uri = gr_request_uri res /\ expires = gr_expires_in res
  | Done (HDevice dc uc uri expires interval) =>
      e = EDeviceAuthorize /\ exists q res, served d (RDevAuthorize q) (PDevAuthorize res) /\ dv_err res = false /\
        dc = dv_device_code res /\ uc = dv_user_code res /\ uri = (sv_issuer S ++ "/device")%string /\
        expires = dv_expires_in res /\ interval = dv_interval res
  | Done (HRedirectCode uri code issuer state) =>
      e = EAuthorize /\ exists q res, served d (RAuthorize q) (PAuthorize res) /\ zr_err res = false /\
        uri = zr_redirect_uri res /\ code = zr_code res /\ issuer = zr_issuer res /\ state = zr_state res
  | Done (HRedirectQuery uri raw) | Done (HRedirectFragment uri raw) | Done (HFormPost uri raw) =>
      e = EAuthorize /\ exists q res t, served d (RAuthorize q) (PAuthorize res) /\ zr_err res = false /\
        uri = zr_redirect_uri res /\ saw d CNow (ATime t) /\
        jarm_encode (sv_serializer S) (zr_issuer res) (Some (to_encode res)) t = Some raw
  | Done HForm => e = EDevice /\ hq_method r = "GET"%string
  | Done (HError status er) =>
      (exists q res, served d (RToken q) (PToken res) /\ tr_err res = true /\ tr_error res = Some er) \/
      (exists q res, served d (RIntrospect q) (PIntrospect res) /\ ir_err res = true /\ ir_error res = Some er) \/
      (exists q res, served d (RRevoke q) (PRevoke res) /\ rr_err res = true /\ rr_error res = Some er) \/
      (exists q res, served d (RRegister q) (PRegister res) /\ gr_err res = true /\ gr_error res = Some er) \/
      (exists q res, served d (RAuthorize q) (PAuthorize res) /\ zr_err res = true /\ zr_error res = Some er) \/
      (exists q res, served d (RDevAuthorize q) (PDevAuthorize res) /\ dv_err res = true /\ dv_error res = Some er) \/
      (exists q res, served d (RDevValidate q) (PDevValidate res) /\ vr_err res = true /\ vr_error res = Some er) \/
      (own_error status er /\ turned_away S r d e)
  | Done (HText _) =>
      (e = EPar /\ (hq_method r <> "POST"%string \/ logged_in r d None)) \/
      ((e = EAuthorize \/ e = EDevice) /\ forall user, ~ user_logged_in r user)
  | Crashed =>
      (exists id, saw d (CClientGet id) (AClient SNil)) \/
      (exists q res, served d (RToken q) (PToken res) /\
         (tr_err res = true /\ tr_error res = None \/
          tr_err res = false /\ forall t, tr_at res = Some t -> t_meta t = None)) \/
      (exists q res, served d (RIntrospect q) (PIntrospect res) /\
         (ir_err res = true /\ ir_error res = None \/ ir_err res = false /\ ir_token res = None)) \/
      (exists q res, served d (RRevoke q) (PRevoke res) /\ rr_err res = true /\ rr_error res = None) \/
      (exists q res, served d (RRegister q) (PRegister res) /\ gr_err res = true /\ gr_error res = None) \/
      (exists q res, served d (RAuthorize q) (PAuthorize res) /\ zr_err res = true /\ zr_error res = None) \/
      (exists q res, served d (RDevAuthorize q) (PDevAuthorize res) /\ dv_err res = true /\ dv_error res = None) \/
      (exists q res, served d (RDevValidate q) (PDevValidate res) /\ vr_err res = true /\ vr_error res = None)
  end.

(** ** Histories *)

(** Calls that touch nothing: the clock and the client registry. *)
Definition calm (c : call) : bool := match c with CNow | CClientGet _ => true | _ => false end.

(** The storage operations and the passing of time, with the HTTP request they are made for. *)
Inductive effect := Effect (i : option nat) (c : call) (a : answer) | Passed (ns : N).
Definition heffects (hh : list hevent) : list effect :=
  flat_map (fun e => match e with
    | HvCall i c a => if calm c then [] else [Effect (Some i) c a]
    | HvTick d => [Passed d]
    | _ => []
    end) hh.
Definition effects (own : list nat) (h : list event) : list effect :=
  flat_map (fun e => match e with
    | EvCall j c a => if calm c then [] else [Effect (nth_error own j) c a]
    | EvTick d => [Passed d]
    | _ => []
    end) h.

(** The items happened, in service requests made for HTTP request [i]. *)
Definition past (own : list nat) (hh : list hevent) (h : list event) (i : nat) (d : list item) : Prop :=
  forall x, In x d ->
    match x with
    | Served j x y => nth_error own j = Some i /\ In (EvStart j x) h /\ In (EvDone j (Done y)) h
    | Saw c a => In (HvCall i c a) hh
    end.

(** The HTTP history [hh] is explained by the service history [h]; service request number [j]
    is made for HTTP request number [own j]. *)
Record explained (S : http_server) (own : list nat) (hh : list hevent) (h : list event) : Prop := mkExplained {
  ex_start : forall j x, In (EvStart j x) h ->
    exists i e r d, nth_error own j = Some i /\ In (HvStart i e r) hh /\ past own hh h i d /\ stage S e r d x;
  ex_once : forall j x j' x' i, In (EvStart j x) h -> In (EvStart j' x') h ->
    nth_error own j = Some i -> nth_error own j' = Some i -> kind x = kind x' -> j = j';
  ex_done : forall i a, In (HvDone i (Done a)) hh ->
    exists e r d, In (HvStart i e r) hh /\ past own hh h i d /\ ending S e r d (Done a);
  ex_crash : forall i, In (HvDone i Crashed) hh ->
    (exists j, nth_error own j = Some i /\ In (EvDone j Crashed) h) \/
    exists e r d, In (HvStart i e r) hh /\ past own hh h i d /\ ending S e r d Crashed;
  ex_effects : heffects hh = effects own h
}.

(** The two histories have reached the same point. *)
Definition aligned (own : list nat) (hh : list hevent) (h : list event) : Prop :=
  (forall j x, In (EvStart j x) h -> exists i e r, nth_error own j = Some i /\ In (HvStart i e r) hh) /\
  heffects hh = effects own h.

Definition hno_faults (xs : list hsched) : Prop :=
  Forall (fun x => match x with HStep _ o => o_fault o = FNone | _ => True end) xs.

(** The HTTP history of [xs] is the service history of [ys], point by point. *)
Record refined (S : http_server) (w : world) (xs : list hsched) (ys : list sched) (own : list nat) : Prop := mkRefined {
  rf_faults : hno_faults xs -> no_faults ys;
  rf_final : final (sv_ext S) w ys = hs_world (snd (hrun S (mkHsys w []) xs));
  rf_explained : explained S own (http_history S w xs) (history (sv_ext S) w ys);
  rf_points : forall hh1 hh2 hh3, http_history S w xs = (hh1 ++ hh2 ++ hh3)%list ->
    exists h1 h2 h3, history (sv_ext S) w ys = (h1 ++ h2 ++ h3)%list /\ explained S own hh1 h1 /\
      explained S own (hh1 ++ hh2) (h1 ++ h2);
  rf_aligned : forall h1 h2, history (sv_ext S) w ys = (h1 ++ h2)%list ->
    exists hh1 hh2, http_history S w xs = (hh1 ++ hh2)%list /\ aligned own hh1 h1
}.
