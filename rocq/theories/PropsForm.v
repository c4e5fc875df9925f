(** * Forms, redirects and headers as they are written: the theorems

    Written by tools/gen_props.py: the statements are those of the lemmas proved in
    PfForm, PfHeaders.
    Below each theorem, a concrete case that meets its hypotheses. *)

From Verif Require Import MeetForm.

(** ** C115 Forms and redirects are read as they were written *)

Theorem C115_form_round_trip : forall vs, NoDup (map fst vs) ->
  snd (parse_query (values_encode vs)) = true /\
  forall k, form_body (fst (parse_query (values_encode vs))) k = given_values vs k.
Proof. exact C115_form_round_trip_proof. Qed.
Print Assumptions C115_form_round_trip.
Example C115_form_round_trip_met : exists vs, NoDup (map fst vs) /\ given_values vs "a b" = ["x&y=z"; "100%"]%string /\
  values_encode vs = "%23=&a+b=x%26y%3Dz&a+b=100%25"%string.
Proof.
  exists [("a b", ["x&y=z"; "100%"]); ("#", [""])]%string.
  split; [constructor; [intros [H|[]]; discriminate|constructor; [intros []|constructor]]|]. split; [reflexivity|]. vm_compute. reflexivity.
Qed.

Theorem C115_posted_form : forall tls host path params, NoDup (map fst params) ->
  let r := posted tls host path (values_encode (single params)) in
  let r' := sdk_post tls host path params in
  hq_method r = hq_method r' /\ hq_tls r = hq_tls r' /\ hq_host r = hq_host r' /\ hq_path r = hq_path r' /\ hq_basic r = hq_basic r' /\
  forall k, post_value r k = post_value r' k /\ query_get r k = query_get r' k /\ form_value r k = form_value r' k /\
    hq_header r k = hq_header r' k.
Proof. exact C115_posted_form_proof. Qed.
Print Assumptions C115_posted_form.
Example C115_posted_form_met : exists params : list (string * string), NoDup (map fst params) /\ form_body params "token" = ["at 1+2"]%string.
Proof.
  exists [("client_assertion", "a.b.c"); ("token", "at 1+2")]%string.
  split; [constructor; [intros [H|[]]; discriminate|constructor; [intros []|constructor]]|]. reflexivity.
Qed.

Theorem C115_response_read : forall S w xs i r resp text url,
  let hh := http_history S w xs in
  writes_base text -> responded hh i EAuthorize r resp -> location text resp = Some url ->
  exists uri raw, resp = HRedirectQuery uri raw /\
    client_reads url "response" = [raw] /\ (forall k, k <> "response" -> client_reads url k = []) /\
    exists query, url = (text (fst (str_cut "?" uri)) ++ "?" ++ query)%string.
Proof. exact C115_response_read_proof. Qed.
Print Assumptions C115_response_read.
Example C115_response_read_met : exists S w xs i r resp text url,
  writes_base text /\ responded (http_history S w xs) i EAuthorize r resp /\ location text resp = Some url /\
  url = "https://app.example/cb?response=jarm"%string.
Proof.
  exists tenant_server, tenant_world, tenant_steps, 0%nat, (authorize_r "app" "req-app"), (HRedirectQuery tenant_uri "jarm"), keeps. eexists.
  split; [exact keeps_base|]. split; [split; [left; reflexivity|apply nth_error_In with (n := 6%nat); vm_compute; reflexivity]|].
  split; [reflexivity|]. vm_compute. reflexivity.
Qed.

Theorem C115_code_delivered : forall S w xs i r user c sub ar o text,
  let hh := http_history S w xs in
  writes_base text ->
  hno_faults xs -> In (HvStart i EAuthorize r) hh -> In (HvDone i o) hh ->
  (* a user logs in and follows a link of a client *)
  hq_method r = "GET"%string -> user_logged_in r user -> w_clients w (query_get r "client_id") = Some c ->
  subject_for (sv_ext S) (sv_salt S) c user sub -> sub <> ""%string ->
  (* which carries a proper authorization request *)
  carries S c r ar -> ar_request_uri ar = None -> ar_client_id ar = query_get r "client_id" ->
  SpecLive.well_formed (sv_ext S) ar -> SpecLive.permitted (sv_ext S) c ar ->
  sv_issuer S <> ""%string -> web_codes_work hh i -> responses_signed S ->
  (* the user is sent to the redirect URI, with one parameter, a signed response that holds the code *)
  exists resp url query raw expires code ar' a, o = Done resp /\ location text resp = Some url /\
    url = (text (fst (str_cut "?" (ar_redirect_uri ar))) ++ "?" ++ query)%string /\ client_reads url "response" = [raw] /\
    sv_serializer S (mkJarm (sv_issuer S) (ar_client_id ar) expires code (ar_state ar) "" "") = Some raw /\
    In (HvCall i (CSessReg (sv_issuer S) code (mkSess (sv_issuer S) sub (Some ar'))) a) hh /\ normalized (sv_ext S) ar ar'.
Proof. exact C115_code_delivered_proof. Qed.
Print Assumptions C115_code_delivered.
Example C115_code_delivered_met : exists S w xs i r user c sub ar o text,
  writes_base text /\
  hno_faults xs /\ In (HvStart i EAuthorize r) (http_history S w xs) /\ In (HvDone i o) (http_history S w xs) /\
  hq_method r = "GET"%string /\ user_logged_in r user /\ w_clients w (query_get r "client_id") = Some c /\
  subject_for (sv_ext S) (sv_salt S) c user sub /\ sub <> ""%string /\
  carries S c r ar /\ ar_request_uri ar = None /\ ar_client_id ar = query_get r "client_id" /\
  SpecLive.well_formed (sv_ext S) ar /\ SpecLive.permitted (sv_ext S) c ar /\
  sv_issuer S <> ""%string /\ web_codes_work (http_history S w xs) i /\ responses_signed S.
Proof.
  exists web_server, (web_world true), x_http_code, 0%nat, (authorize_r "app" "req-app"), "hello"%string, (happ true). do 3 eexists.
  exists keeps. split; [exact keeps_base|].
  split; [by_faults|]. split; [by_start 0%nat|]. split; [by_nth 6%nat|]. split; [reflexivity|]. split; [split; reflexivity|].
  split; [reflexivity|]. split; [vm_compute; reflexivity|]. split; [discriminate|].
  split; [split; [discriminate|]; split; [apply app_signed; reflexivity|vm_compute; reflexivity]|].
  split; [reflexivity|]. split; [reflexivity|]. split; [apply areq_good; exact true|]. split; [apply areq_good|]. split; [discriminate|].
  split; [apply codes_demo; vm_compute; reflexivity|]. intros cl. eexists. reflexivity.
Qed.

Theorem C115_fragment : forall text uri raw url, writes_base text -> jwt_characters raw ->
  ~ In "#"%char (list_ascii_of_string (snd (str_cut "?" uri))) ->
  location text (HRedirectFragment uri raw) = Some url ->
  client_reads_fragment url "response" = [raw] /\ forall k, k <> "response" -> client_reads_fragment url k = [].
Proof. exact C115_fragment_proof. Qed.
Print Assumptions C115_fragment.
Example C115_fragment_met : exists text uri raw url, writes_base text /\ jwt_characters raw /\
  ~ In "#"%char (list_ascii_of_string (snd (str_cut "?" uri))) /\ location text (HRedirectFragment uri raw) = Some url /\
  url = "https://app.example/cb?tenant=7#response=eyJ.e30.s-_g"%string.
Proof.
  exists keeps, tenant_uri, "eyJ.e30.s-_g"%string. eexists. split; [exact keeps_base|].
  split; [intros c H; cbn in H; repeat destruct H as [<-|H]; try reflexivity; destruct H|].
  split; [cbn; intros H; repeat destruct H as [H|H]; try discriminate; destruct H|].
  split; [reflexivity|]. vm_compute. reflexivity.
Qed.

Theorem C115_query_lost_refuted : exists S w xs i r uri raw k v,
  let hh := http_history S w xs in
  registry_ok w /\ hno_faults xs /\ responded hh i EAuthorize r (HRedirectQuery uri raw) /\
  (exists c, w_clients w (query_get r "client_id") = Some c /\ In uri (cl_redirect_uris c)) /\
  client_reads uri k = [v] /\
  forall text url, writes_base text -> location text (HRedirectQuery uri raw) = Some url -> client_reads url k = [].
Proof. exact C115_query_lost_refuted_proof. Qed.
Print Assumptions C115_query_lost_refuted.
(* The theorem is itself a concrete case. *)

(** ** C116 Responses carry the headers that keep them safe *)

Theorem C116_every_response : forall S w xs describe text i e r resp,
  let hh := http_history S w xs in
  responded hh i e r resp ->
  exists hd, delivered S describe text hh i e r hd resp /\ forall hd', delivered S describe text hh i e r hd' resp -> hd' = hd.
Proof. exact C116_every_response_proof. Qed.
Print Assumptions C116_every_response.
Example C116_every_response_met : exists S w xs i e r resp, responded (http_history S w xs) i e r resp /\ status_of resp = 302%N.
Proof. do 7 eexists. split; [exact tenant_answer|reflexivity]. Qed.

Theorem C116_user_pages : forall S w xs describe text i e r hd resp user,
  let hh := http_history S w xs in
  delivered S describe text hh i e r hd resp -> for_users e -> user_logged_in r user ->
  header_get hd "X-Frame-Options" = "DENY" /\ header_get hd "X-Content-Type-Options" = "nosniff" /\
  header_get hd "Content-Security-Policy" = "default-src 'none'" /\ header_get hd "Referrer-Policy" = "no-referrer" /\
  header_get hd "X-XSS-Protection" = "1; mode=block" /\ header_get hd "X-Robots-Tag" = "noarchive" /\
  header_get hd "Cache-Control" = "private, no-cache, must-revalidate".
Proof. exact C116_user_pages_proof. Qed.
Print Assumptions C116_user_pages.
Example C116_user_pages_met : exists S w xs describe text i e r hd resp user,
  delivered S describe text (http_history S w xs) i e r hd resp /\ for_users e /\ user_logged_in r user.
Proof.
  destruct (with_headers _ _ _ _ _ _ _ tenant_answer) as (hd & D). do 8 eexists. exists hd. eexists. exists "hello"%string.
  split; [exact D|]. split; [left; reflexivity|split; reflexivity].
Qed.

Theorem C116_errors : forall S w xs describe text i e r hd resp,
  let hh := http_history S w xs in
  delivered S describe text hh i e r hd resp ->
  (forall status x, resp = HError status x ->
     header_get hd "Content-Type" = json_type /\ header_get hd "WWW-Authenticate" = bearer_challenge describe x) /\
  (status_of resp = 401%N -> header_get hd "WWW-Authenticate" <> "").
Proof. exact C116_errors_proof. Qed.
Print Assumptions C116_errors.
Example C116_errors_met : exists S w xs describe text i e r hd resp,
  delivered S describe text (http_history S w xs) i e r hd resp /\ status_of resp = 401%N.
Proof.
  destruct (with_headers _ _ _ _ _ _ _ wrong_answer) as (hd & D). do 8 eexists. exists hd. eexists. split; [exact D|reflexivity].
Qed.

Theorem C116_location : forall S w xs describe text i e r hd resp url,
  let hh := http_history S w xs in
  delivered S describe text hh i e r hd resp -> location text resp = Some url -> header_get hd "Location" = url.
Proof. exact C116_location_proof. Qed.
Print Assumptions C116_location.
Example C116_location_met : exists S w xs describe text i e r hd resp url,
  delivered S describe text (http_history S w xs) i e r hd resp /\ location text resp = Some url.
Proof.
  destruct (with_headers _ _ _ _ _ _ _ tenant_answer) as (hd & D). do 8 eexists. exists hd. do 2 eexists. split; [exact D|reflexivity].
Qed.

Theorem C116_token_headers : forall S w xs describe text i e r hd resp,
  let hh := http_history S w xs in
  delivered S describe text hh i e r hd resp -> carries_token resp -> hd = [("Content-Type", json_type)].
Proof. exact C116_token_headers_proof. Qed.
Print Assumptions C116_token_headers.
Example C116_token_headers_met : exists S w xs describe text i e r hd resp,
  delivered S describe text (http_history S w xs) i e r hd resp /\ carries_token resp.
Proof.
  destruct code_answer as (at_ & n & ty & rt & sc & R).
  destruct (with_headers _ _ _ _ _ _ _ R) as (hd & D). do 8 eexists. exists hd. eexists. split; [exact D|exact I].
Qed.

Theorem C116_no_store_refuted : exists S w xs, forall describe text, exists i r hd at_ n ty rt sc,
  let hh := http_history S w xs in
  registry_ok w /\ hno_faults xs /\ delivered S describe text hh i EToken r hd (HToken at_ n ty rt sc) /\
  header_get hd "Cache-Control" = "" /\ header_get hd "Pragma" = "".
Proof. exact C116_no_store_refuted_proof. Qed.
Print Assumptions C116_no_store_refuted.
(* The theorem is itself a concrete case. *)

Theorem C116_login_page_refuted : forall S w xs describe text i e r hd resp,
  let hh := http_history S w xs in
  delivered S describe text hh i e r hd resp -> for_users e -> (forall user, ~ user_logged_in r user) ->
  resp = HText 401 /\ hd = [("WWW-Authenticate", "Basic realm=Restricted")].
Proof. exact C116_login_page_refuted_proof. Qed.
Print Assumptions C116_login_page_refuted.
Example C116_login_page_refuted_met : exists S w xs describe text i e r hd resp,
  delivered S describe text (http_history S w xs) i e r hd resp /\ for_users e /\ forall user, ~ user_logged_in r user.
Proof.
  destruct (with_headers _ _ _ _ _ _ _ wrong_answer) as (hd & D). do 8 eexists. exists hd. eexists. split; [exact D|].
  split; [left; reflexivity|]. intros user [H _]. discriminate.
Qed.
