(** * Concrete cases for the examples beside the theorems on the HTTP endpoints *)

From Verif Require Export DemoHttp PfHttp5 PfHttp6.

Lemma feed_reach_eq {A} (p : prog A) tr : fst (feed p (map snd tr)) = tr -> reach p tr (snd (feed p (map snd tr))).
Proof. intros H. pose proof (feed_reach p (map snd tr)) as R. rewrite H in R. exact R. Qed.
Ltac by_reach := apply feed_reach_eq; vm_compute; reflexivity.

(** The calls of the handlers in the histories of DemoHttp, without those of the middleware. *)
Definition code_calls := skipn 2 (hcalls 1 (http_history web_server (web_world true) x_http_refresh)).
Definition refresh_calls := skipn 2 (hcalls 2 (http_history web_server (web_world true) x_http_refresh)).
Definition par_calls := skipn 2 (hcalls 0 (http_history web_server (web_world true) x_http_par)).
Definition authorize_calls := hcalls 0 (http_history web_server (web_world true) x_http_code).
Definition uri_calls := hcalls 1 (http_history web_server (web_world true) x_http_par).
Definition fragment_calls := hcalls 0 (http_history web_server (web_world true) x_http_fragment).
Definition device_calls := skipn 1 (hcalls 0 (http_history web_server (web_world true) x_http_device)).

(** A resource server, a token with an authentication time and context. *)
Definition to_lower (s : string) : string := if String.prefix "B" s then "bearer at-1" else "dpop at-1".
Definition demo_perms : permissions := fun i => if String.eqb i "read" then
  Some (fun c => if String.eqb c "app" then Some ["alice"; ""] else None) else None.
Definition rs_tok (cnf : option string) : rs_token :=
  mkRsToken true (Some (mkRsMeta iss "alice" "app" "openid" "" (Some "gold") (Some 990%N))) cnf "at-1".
Definition rs_introspect (cnf : option string) : string -> string -> outcome (option rs_token) :=
  fun a v => if String.eqb v "at-1" then Done (Some (rs_tok cnf)) else Done None.
Definition api_r (authorization : string) : http_request :=
  mkHttp "GET" (param []) (param []) (header [("Authorization", authorization); ("DPoP", "proof-3")]) None true
    "api.example" "/data".
Definition api_calls : list (call * answer) :=
  [(CNow, ATime (1000 * second)); (CNow, ATime (1000 * second));
   (CProofExists (jti_hash web_ext "jti-5"), ABool (SOk false));
   (CProofReg (jti_hash web_ext "jti-5"), AUnit (SOk tt)); (CNow, ATime (1000 * second))]%N.
