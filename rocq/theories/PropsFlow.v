(** * The authorization code flow from end to end: the theorems

    Written by tools/gen_props.py: the statements are those of the lemmas proved in
    PfFlow, PfFlow2.
    Below each theorem, a concrete case that meets its hypotheses. *)

From Verif Require Import MeetFlow.

(** ** C110 The authorization code flow works from login to introspection *)

Theorem C110_code_flow : forall S w xs hh0 hh1 hh2 hh3 k q user c sub ar resp i r cnf o,
  let hh := http_history S w xs in
  let E := sv_ext S in
  let code := form_value r "code" in
  let verifier := form_value r "code_verifier" in
  registry_ok w -> blank w -> hno_faults xs -> web_no_reuse E hh ->
  hh = (hh0 ++ hh1 ++ hh2 ++ hh3)%list -> (time_in (hh1 ++ hh2) <= 60 * second)%N ->
  (* a user logs in and follows a link of a client, which carries a proper authorization request *)
  In (HvStart k EAuthorize q) hh1 -> In (HvDone k (Done resp)) hh1 ->
  hq_method q = "GET"%string -> user_logged_in q user -> w_clients w (query_get q "client_id") = Some c ->
  subject_for E (sv_salt S) c user sub -> sub <> ""%string ->
  carries S c q ar -> ar_request_uri ar = None -> ar_client_id ar = query_get q "client_id" ->
  SpecLive.well_formed E ar -> SpecLive.permitted E c ar -> asks E (ar_scope ar) "openid" ->
  sv_issuer S <> ""%string -> x_request_uri E (sv_issuer S) = true -> web_codes_work hh k -> responses_signed S ->
  (* within a minute the client redeems the code it was sent *)
  In (HvStart i EToken r) hh2 -> In (HvDone i o) hh2 -> form_value r "grant_type" = "authorization_code"%string ->
  (forall sent, sends_back S resp (ar_redirect_uri ar) sent (ar_state ar) (ar_client_id ar) -> sent = code) ->
  form_value r "redirect_uri" = ar_redirect_uri ar ->
  (43 <= String.length verifier <= 128)%nat -> b64url (x_sha256 E verifier) = ar_code_challenge ar ->
  let soon := (hh0 ++ hh1 ++ hh2)%list in
  comes_from S w soon i r c -> holds S w soon i r c cnf -> code <> ""%string -> (rune_count code <= 1024)%nat ->
  web_generators_work hh i ->
  (* nobody else has that code *)
  (forall k' iss' code' s a', In (HvCall k' (CSessReg iss' code' s) a') hh ->
     sess_key E iss' code' = sess_key E (sv_issuer S) code -> k' = k) ->
  (forall j r' code', In (HvStart j EToken r') hh -> sends_code r' code' ->
     sess_key E (sv_issuer S) code' = sess_key E (sv_issuer S) code -> j = i) ->
  (* the client is given a token *)
  exists access expires refresh scope, access <> ""%string /\ o = Done (HToken access expires (type_sent cnf) refresh scope) /\
    (forall s, asks E scope s -> asks E (ar_scope ar) s) /\
    (* and whoever asks about it, a second to an hour later, learns who the user is, for which client, audience and scope *)
    (forall hh4 hh5 j rj cj oj, hh3 = (hh4 ++ hh5)%list ->
       In (HvStart j EIntrospect rj) hh5 -> In (HvDone j oj) hh5 -> form_value rj "token" = access ->
       comes_from S w hh j rj cj -> w_clients w (cl_id cj) = Some cj ->
       (second <= time_in hh4)%N -> (time_in (hh2 ++ hh3) <= 3600 * second)%N ->
       (forall t, web_stored_as E hh (sv_issuer S) access t -> ~ web_revoked_in hh (t_id t)) ->
       exists doc, oj = Done (HDoc doc) /\ Client.get "active" doc = Some (JBool true) /\
         Client.get "sub" doc = Some (JStr sub) /\ Client.get "client_id" doc = Some (JStr (cl_id c)) /\
         Client.get "aud" doc = Some (JStr (ar_audience ar)) /\ Client.get "scope" doc = Some (JStr scope) /\
         Client.get "iss" doc = Some (JStr (sv_issuer S))).
Proof. exact C110_code_flow_proof. Qed.
Print Assumptions C110_code_flow.
Example C110_code_flow_met : exists S w xs hh0 hh1 hh2 hh4 hh5 k q user c sub ar resp i r cnf access expires type refresh scope j rj cj oj,
  registry_ok w /\ blank w /\ hno_faults xs /\ web_no_reuse (sv_ext S) (http_history S w xs) /\
  http_history S w xs = (hh0 ++ hh1 ++ hh2 ++ (hh4 ++ hh5))%list /\ (time_in (hh1 ++ hh2) <= 60 * second)%N /\
  In (HvStart k EAuthorize q) hh1 /\ In (HvDone k (Done resp)) hh1 /\
  hq_method q = "GET"%string /\ user_logged_in q user /\ w_clients w (query_get q "client_id") = Some c /\
  subject_for (sv_ext S) (sv_salt S) c user sub /\ sub <> ""%string /\
  carries S c q ar /\ ar_request_uri ar = None /\ ar_client_id ar = query_get q "client_id" /\
  SpecLive.well_formed (sv_ext S) ar /\ SpecLive.permitted (sv_ext S) c ar /\ asks (sv_ext S) (ar_scope ar) "openid" /\
  sv_issuer S <> ""%string /\ x_request_uri (sv_ext S) (sv_issuer S) = true /\ web_codes_work (http_history S w xs) k /\ responses_signed S /\
  In (HvStart i EToken r) hh2 /\ In (HvDone i (Done (HToken access expires type refresh scope))) hh2 /\
  form_value r "grant_type" = "authorization_code"%string /\
  (forall sent, sends_back S resp (ar_redirect_uri ar) sent (ar_state ar) (ar_client_id ar) -> sent = form_value r "code") /\
  form_value r "redirect_uri" = ar_redirect_uri ar /\
  (43 <= String.length (form_value r "code_verifier") <= 128)%nat /\
  b64url (x_sha256 (sv_ext S) (form_value r "code_verifier")) = ar_code_challenge ar /\
  comes_from S w (hh0 ++ hh1 ++ hh2)%list i r c /\ holds S w (hh0 ++ hh1 ++ hh2)%list i r c cnf /\
  form_value r "code" <> ""%string /\ (rune_count (form_value r "code") <= 1024)%nat /\
  web_generators_work (http_history S w xs) i /\
  (forall k' iss' code' s a', In (HvCall k' (CSessReg iss' code' s) a') (http_history S w xs) ->
     sess_key (sv_ext S) iss' code' = sess_key (sv_ext S) (sv_issuer S) (form_value r "code") -> k' = k) /\
  (forall j r' code', In (HvStart j EToken r') (http_history S w xs) -> sends_code r' code' ->
     sess_key (sv_ext S) (sv_issuer S) code' = sess_key (sv_ext S) (sv_issuer S) (form_value r "code") -> j = i) /\
  In (HvStart j EIntrospect rj) hh5 /\ In (HvDone j oj) hh5 /\ form_value rj "token" = access /\
  comes_from S w (http_history S w xs) j rj cj /\ w_clients w (cl_id cj) = Some cj /\
  (second <= time_in hh4)%N /\ (time_in (hh2 ++ (hh4 ++ hh5)) <= 3600 * second)%N /\
  (forall t, web_stored_as (sv_ext S) (http_history S w xs) (sv_issuer S) access t -> ~ web_revoked_in (http_history S w xs) (t_id t)).
Proof.
  exists flow_server, (web_world true), x_flow, [], (firstn 7 h_flow), (firstn 20 (skipn 7 h_flow)), (firstn 1 (skipn 27 h_flow)), (skipn 28 h_flow).
  exists 0%nat, (authorize_r "app" "req-app"), "hello"%string, (happ true). do 3 eexists. exists 1%nat, (redeem_r dpop1). do 6 eexists.
  exists 2%nat, ask_r, (happ true). eexists.
  split; [apply registry_web|]. split; [apply blank_web|]. split; [by_faults|]. split; [by_reuse|].
  split; [vm_compute; reflexivity|]. split; [vm_compute; discriminate|].
  split; [by_start 0%nat|]. split; [by_nth 6%nat|]. split; [reflexivity|]. split; [split; reflexivity|].
  split; [reflexivity|]. split; [vm_compute; reflexivity|]. split; [discriminate|].
  split; [split; [discriminate|]; split; [apply app_signed; reflexivity|vm_compute; reflexivity]|].
  split; [reflexivity|]. split; [reflexivity|]. split; [apply areq_good; exact true|]. split; [apply areq_good|].
  split; [apply has_iff; reflexivity|]. split; [discriminate|]. split; [reflexivity|].
  split; [apply codes_demo; vm_compute; reflexivity|]. split; [intros cl; eexists; reflexivity|].
  split; [by_start 0%nat|]. split; [by_nth 19%nat|]. split; [reflexivity|].
  split. { intros sent (_ & e & Q). cbn in Q. injection Q as ->. reflexivity. }
  split; [reflexivity|]. split; [vm_compute; repeat constructor|]. split; [vm_compute; reflexivity|].
  split; [apply (from_app true); [reflexivity|reflexivity|left; split; [reflexivity|vm_compute; discriminate]]|].
  split. { right. split; [reflexivity|]. exists "thumb:instance-key"%string. split; [|reflexivity].
    exists "jti-3"%string, 1000%N, EToken, []. eexists. split; [exact (proof_good "proof" "jti-3" "/token" (or_introl eq_refl))|].
    split; [reflexivity|]. split; [by_start 7%nat|]. split; [vm_compute; discriminate|]. split; [vm_compute; discriminate|]. split; [reflexivity|].
    intros j a H. apply Nat.eqb_eq.
    exact (proofs_demo (fun j _ => Nat.eqb j 1) ([] ++ firstn 7 h_flow ++ firstn 20 (skipn 7 h_flow)) ltac:(vm_compute; reflexivity) _ _ _ H). }
  split; [discriminate|]. split; [apply Nat.leb_le; vm_compute; reflexivity|].
  split; [apply generators_demo; vm_compute; reflexivity|].
  split. { intros k' iss' code' s a' H _. apply Nat.eqb_eq.
    exact (sessions_demo (fun j _ _ _ => Nat.eqb j 0) h_flow ltac:(vm_compute; reflexivity) _ _ _ _ _ H). }
  split. { intros j r' code' H _ _. apply Nat.eqb_eq.
    exact (starts_demo (fun j e _ => match e with EToken => Nat.eqb j 1 | _ => true end) h_flow ltac:(vm_compute; reflexivity) _ _ _ H). }
  split; [by_start 0%nat|]. split; [by_nth 6%nat|]. split; [reflexivity|].
  split; [apply (from_app true); [reflexivity|reflexivity|left; split; [reflexivity|vm_compute; discriminate]]|].
  split; [reflexivity|]. split; [vm_compute; discriminate|]. split; [vm_compute; discriminate|].
  intros t _. apply revokes_demo. vm_compute. reflexivity.
Qed.

(** ** C114 The flow with a pushed request works from the push to introspection *)

Theorem C114_pushed_flow : forall S w xs hh0 hhp hh1 hh2 hh3 p rp th op k q user c sub ar ar0 resp i r cnf o,
  let hh := http_history S w xs in
  let E := sv_ext S in
  let code := form_value r "code" in
  let verifier := form_value r "code_verifier" in
  registry_ok w -> blank w -> hno_faults xs -> web_no_reuse E hh ->
  hh = (hh0 ++ hhp ++ hh1 ++ hh2 ++ hh3)%list ->
  (time_in (hhp ++ hh1) <= 60 * second)%N -> (time_in (hh1 ++ hh2) <= 60 * second)%N ->
  sv_issuer S <> ""%string -> x_request_uri E (sv_issuer S) = true -> responses_signed S ->
  (* a client pushes a proper authorization request, with a proof of possession *)
  In (HvStart p EPar rp) hhp -> In (HvDone p op) hhp -> hq_method rp = "POST"%string ->
  comes_from S w (hh0 ++ hhp)%list p rp c -> has_proof S w (hh0 ++ hhp)%list p rp th ->
  carries S c rp ar -> ar_request_uri ar = None -> ar_client_id ar = cl_id c -> w_clients w (cl_id c) = Some c ->
  SpecLive.well_formed E ar -> SpecLive.permitted E c ar -> asks E (ar_scope ar) "openid" -> web_codes_work hh p ->
  (* it is given a request URI, and nobody else is *)
  exists uri, uri <> ""%string /\ op = Done (HPushed (sv_issuer S) uri 60) /\
  (x_uri_valid E uri = true ->
   (forall k' iss' uri' s a, In (HvCall k' (CReqReg iss' uri' s) a) hh -> req_key E iss' uri' = req_key E (sv_issuer S) uri -> k' = p) ->
   (forall j r' uri', In (HvStart j EAuthorize r') hh -> sends_request_uri S r' uri' ->
      req_key E (sv_issuer S) uri' = req_key E (sv_issuer S) uri -> j = k) ->
   (* within a minute a user logs in and follows a link of this client with that URI *)
   In (HvStart k EAuthorize q) hh1 -> In (HvDone k (Done resp)) hh1 ->
   hq_method q = "GET"%string -> user_logged_in q user -> query_get q "client_id" = cl_id c ->
   subject_for E (sv_salt S) c user sub -> sub <> ""%string ->
   carries S c q ar0 -> ar_request_uri ar0 = Some uri -> web_codes_work hh k ->
   (* the user is sent back, to the address and with the state that were pushed *)
   exists sent, sends_back S resp (ar_redirect_uri ar) sent (ar_state ar) (ar_client_id ar) /\
   (* within a minute the client redeems the code it was sent *)
   (In (HvStart i EToken r) hh2 -> In (HvDone i o) hh2 -> form_value r "grant_type" = "authorization_code"%string ->
    sent = code -> form_value r "redirect_uri" = ar_redirect_uri ar ->
    (43 <= String.length verifier <= 128)%nat -> b64url (x_sha256 E verifier) = ar_code_challenge ar ->
    let soon := (hh0 ++ hhp ++ hh1 ++ hh2)%list in
    comes_from S w soon i r c -> holds S w soon i r c cnf -> code <> ""%string -> (rune_count code <= 1024)%nat ->
    web_generators_work hh i ->
    (* nobody else has that code *)
    (forall k' iss' code' s a', In (HvCall k' (CSessReg iss' code' s) a') hh ->
       sess_key E iss' code' = sess_key E (sv_issuer S) code -> k' = k) ->
    (forall j r' code', In (HvStart j EToken r') hh -> sends_code r' code' ->
       sess_key E (sv_issuer S) code' = sess_key E (sv_issuer S) code -> j = i) ->
    (* the client is given a token *)
    exists access expires refresh scope, access <> ""%string /\ o = Done (HToken access expires (type_sent cnf) refresh scope) /\
      (forall s, asks E scope s -> asks E (ar_scope ar) s) /\
      (* and whoever asks about it, a second to an hour later, learns who the user is, for which client, audience and scope *)
      (forall hh4 hh5 j rj cj oj, hh3 = (hh4 ++ hh5)%list ->
         In (HvStart j EIntrospect rj) hh5 -> In (HvDone j oj) hh5 -> form_value rj "token" = access ->
         comes_from S w hh j rj cj -> w_clients w (cl_id cj) = Some cj ->
         (second <= time_in hh4)%N -> (time_in (hh2 ++ hh3) <= 3600 * second)%N ->
         (forall t, web_stored_as E hh (sv_issuer S) access t -> ~ web_revoked_in hh (t_id t)) ->
         exists doc, oj = Done (HDoc doc) /\ Client.get "active" doc = Some (JBool true) /\
           Client.get "sub" doc = Some (JStr sub) /\ Client.get "client_id" doc = Some (JStr (cl_id c)) /\
           Client.get "aud" doc = Some (JStr (ar_audience ar)) /\ Client.get "scope" doc = Some (JStr scope) /\
           Client.get "iss" doc = Some (JStr (sv_issuer S))))).
Proof. exact C114_pushed_flow_proof. Qed.
Print Assumptions C114_pushed_flow.
Example C114_pushed_flow_met : exists S w xs hh0 hhp hh1 hh2 hh4 hh5 p rp th uri k q user c sub ar ar0 resp i r cnf access expires type refresh scope j rj cj oj,
  registry_ok w /\ blank w /\ hno_faults xs /\ web_no_reuse (sv_ext S) (http_history S w xs) /\
  http_history S w xs = (hh0 ++ hhp ++ hh1 ++ hh2 ++ (hh4 ++ hh5))%list /\
  (time_in (hhp ++ hh1) <= 60 * second)%N /\ (time_in (hh1 ++ hh2) <= 60 * second)%N /\
  sv_issuer S <> ""%string /\ x_request_uri (sv_ext S) (sv_issuer S) = true /\ responses_signed S /\
  In (HvStart p EPar rp) hhp /\ In (HvDone p (Done (HPushed (sv_issuer S) uri 60))) hhp /\ hq_method rp = "POST"%string /\
  comes_from S w (hh0 ++ hhp)%list p rp c /\ has_proof S w (hh0 ++ hhp)%list p rp th /\
  carries S c rp ar /\ ar_request_uri ar = None /\ ar_client_id ar = cl_id c /\ w_clients w (cl_id c) = Some c /\
  SpecLive.well_formed (sv_ext S) ar /\ SpecLive.permitted (sv_ext S) c ar /\ asks (sv_ext S) (ar_scope ar) "openid" /\
  web_codes_work (http_history S w xs) p /\
  x_uri_valid (sv_ext S) uri = true /\
  (forall k' iss' uri' s a, In (HvCall k' (CReqReg iss' uri' s) a) (http_history S w xs) ->
     req_key (sv_ext S) iss' uri' = req_key (sv_ext S) (sv_issuer S) uri -> k' = p) /\
  (forall j r' uri', In (HvStart j EAuthorize r') (http_history S w xs) -> sends_request_uri S r' uri' ->
     req_key (sv_ext S) (sv_issuer S) uri' = req_key (sv_ext S) (sv_issuer S) uri -> j = k) /\
  In (HvStart k EAuthorize q) hh1 /\ In (HvDone k (Done resp)) hh1 /\
  hq_method q = "GET"%string /\ user_logged_in q user /\ query_get q "client_id" = cl_id c /\
  subject_for (sv_ext S) (sv_salt S) c user sub /\ sub <> ""%string /\
  carries S c q ar0 /\ ar_request_uri ar0 = Some uri /\ web_codes_work (http_history S w xs) k /\
  sends_back S resp (ar_redirect_uri ar) (form_value r "code") (ar_state ar) (ar_client_id ar) /\
  In (HvStart i EToken r) hh2 /\ In (HvDone i (Done (HToken access expires type refresh scope))) hh2 /\
  form_value r "grant_type" = "authorization_code"%string /\ form_value r "redirect_uri" = ar_redirect_uri ar /\
  (43 <= String.length (form_value r "code_verifier") <= 128)%nat /\
  b64url (x_sha256 (sv_ext S) (form_value r "code_verifier")) = ar_code_challenge ar /\
  comes_from S w (hh0 ++ hhp ++ hh1 ++ hh2)%list i r c /\ holds S w (hh0 ++ hhp ++ hh1 ++ hh2)%list i r c cnf /\
  form_value r "code" <> ""%string /\ (rune_count (form_value r "code") <= 1024)%nat /\
  web_generators_work (http_history S w xs) i /\
  (forall k' iss' code' s a', In (HvCall k' (CSessReg iss' code' s) a') (http_history S w xs) ->
     sess_key (sv_ext S) iss' code' = sess_key (sv_ext S) (sv_issuer S) (form_value r "code") -> k' = k) /\
  (forall j r' code', In (HvStart j EToken r') (http_history S w xs) -> sends_code r' code' ->
     sess_key (sv_ext S) (sv_issuer S) code' = sess_key (sv_ext S) (sv_issuer S) (form_value r "code") -> j = i) /\
  In (HvStart j EIntrospect rj) hh5 /\ In (HvDone j oj) hh5 /\ form_value rj "token" = access /\
  comes_from S w (http_history S w xs) j rj cj /\ w_clients w (cl_id cj) = Some cj /\
  (second <= time_in hh4)%N /\ (time_in (hh2 ++ (hh4 ++ hh5)) <= 3600 * second)%N /\
  (forall t, web_stored_as (sv_ext S) (http_history S w xs) (sv_issuer S) access t -> ~ web_revoked_in (http_history S w xs) (t_id t)).
Proof.
  exists flow_server, (web_world true), x_pushed, [], (firstn 11 h_pushed), (firstn 9 (skipn 11 h_pushed)), (firstn 20 (skipn 20 h_pushed)),
    (firstn 1 (skipn 40 h_pushed)), (skipn 41 h_pushed).
  exists 0%nat, par_r, "thumb:instance-key"%string, "urn:solid:1"%string, 1%nat, (authorize_r "app" "req-by-uri"), "hello"%string, (happ true).
  do 4 eexists. exists 2%nat, (redeem_r dpop1). do 6 eexists. exists 3%nat, ask_r, (happ true). eexists.
  split; [apply registry_web|]. split; [apply blank_web|]. split; [by_faults|]. split; [by_reuse|].
  split; [vm_compute; reflexivity|]. split; [vm_compute; discriminate|]. split; [vm_compute; discriminate|].
  split; [discriminate|]. split; [reflexivity|]. split; [intros cl; eexists; reflexivity|].
  split; [by_start 0%nat|]. split; [by_nth 10%nat|]. split; [reflexivity|].
  split; [apply (from_app true); [reflexivity|reflexivity|left; split; [reflexivity|vm_compute; discriminate]]|].
  split. { exists "jti-6"%string, 1000%N, EPar, []. eexists. split; [exact (proof_good "proof-par" "jti-6" "/par" (or_intror eq_refl))|].
    split; [reflexivity|]. split; [by_start 0%nat|]. split; [vm_compute; discriminate|]. split; [vm_compute; discriminate|]. split; [reflexivity|].
    intros j a H. apply Nat.eqb_eq. exact (proofs_demo (fun j _ => Nat.eqb j 0) ([] ++ firstn 11 h_pushed) ltac:(vm_compute; reflexivity) _ _ _ H). }
  split; [split; [discriminate|]; split; [apply app_signed; reflexivity|vm_compute; reflexivity]|].
  split; [reflexivity|]. split; [reflexivity|]. split; [reflexivity|]. split; [apply areq_good; exact true|]. split; [apply areq_good|].
  split; [apply has_iff; reflexivity|]. split; [apply codes_demo; vm_compute; reflexivity|]. split; [reflexivity|].
  split. { intros k' iss' uri' s a H _. apply Nat.eqb_eq.
    exact (requests_demo (fun j _ _ _ => Nat.eqb j 0) h_pushed ltac:(vm_compute; reflexivity) _ _ _ _ _ H). }
  split. { intros j r' uri' H _ _. apply Nat.eqb_eq.
    exact (starts_demo (fun j e _ => match e with EAuthorize => Nat.eqb j 1 | _ => true end) h_pushed ltac:(vm_compute; reflexivity) _ _ _ H). }
  split; [by_start 0%nat|]. split; [by_nth 8%nat|]. split; [reflexivity|]. split; [split; reflexivity|]. split; [reflexivity|].
  split; [vm_compute; reflexivity|]. split; [discriminate|].
  split; [split; [discriminate|]; split; [apply app_signed; reflexivity|vm_compute; reflexivity]|].
  split; [reflexivity|]. split; [apply codes_demo; vm_compute; reflexivity|].
  split; [split; [reflexivity|]; exists (1060 * second)%N; reflexivity|].
  split; [by_start 0%nat|]. split; [by_nth 19%nat|]. split; [reflexivity|].
  split; [reflexivity|]. split; [vm_compute; repeat constructor|]. split; [vm_compute; reflexivity|].
  split; [apply (from_app true); [reflexivity|reflexivity|left; split; [reflexivity|vm_compute; discriminate]]|].
  split. { right. split; [reflexivity|]. exists "thumb:instance-key"%string. split; [|reflexivity].
    exists "jti-3"%string, 1000%N, EToken, []. eexists. split; [exact (proof_good "proof" "jti-3" "/token" (or_introl eq_refl))|].
    split; [reflexivity|]. split; [by_start 20%nat|]. split; [vm_compute; discriminate|]. split; [vm_compute; discriminate|]. split; [reflexivity|].
    apply (proofs_of_id "jti-3"). vm_compute. reflexivity. }
  split; [discriminate|]. split; [apply Nat.leb_le; vm_compute; reflexivity|].
  split; [apply generators_demo; vm_compute; reflexivity|].
  split. { intros k' iss' code' s a' H _. apply Nat.eqb_eq.
    exact (sessions_demo (fun j _ _ _ => Nat.eqb j 1) h_pushed ltac:(vm_compute; reflexivity) _ _ _ _ _ H). }
  split. { intros j r' code' H _ _. apply Nat.eqb_eq.
    exact (starts_demo (fun j e _ => match e with EToken => Nat.eqb j 2 | _ => true end) h_pushed ltac:(vm_compute; reflexivity) _ _ _ H). }
  split; [by_start 0%nat|]. split; [by_nth 6%nat|]. split; [reflexivity|].
  split; [apply (from_app true); [reflexivity|reflexivity|left; split; [reflexivity|vm_compute; discriminate]]|].
  split; [reflexivity|]. split; [vm_compute; discriminate|]. split; [vm_compute; discriminate|].
  intros t _. apply revokes_demo. vm_compute. reflexivity.
Qed.
