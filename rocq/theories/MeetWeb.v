(** * Concrete cases for the examples beside the theorems on HTTP histories *)

From Verif Require Export MeetHttp PfWeb5.

(** A store that, unlike the in-memory one, fills in expiry and status of device sessions. *)
Definition web_worlds : world :=
  mkWorld (1000 * second) (web_clients true) example_resources (stamping 120) empty empty empty empty empty empty empty.
Lemma blank_webs : blank web_worlds.
Proof. repeat split; reflexivity. Qed.
Lemma registry_webs : registry_ok web_worlds.
Proof. exact (registry_web true). Qed.
Lemma stamp_webs : stamp_ok web_worlds.
Proof. intros t s. exists (unix t + 120)%N, DsPending. split; [auto|]. destruct s; reflexivity. Qed.

(** ** Requests *)
Definition device_scope_r : http_request :=
  post "/device_authorization" [] (auth_params ++ [("client_id", "app"); ("scope", all_scope)])%list [].
Definition approve_r : http_request :=
  mkHttp "POST" (param []) (param [("user_code", "user-code")]) (header []) (Some ("hello", "world")) true "as.example" "/device".
Definition poll_r (dpop : list (string * string)) : http_request :=
  post "/token" [] (auth_params ++ [("grant_type", "urn:ietf:params:oauth:grant-type:device_code"); ("device_code", "device-code")])%list dpop.

Definition refresh2_r : http_request :=
  post "/token" [] [("client_assertion_type", assertion_bearer); ("client_assertion", "assertion-2");
    ("grant_type", "refresh_token"); ("refresh_token", "rt-1")] [].
Definition par2_r : http_request := post "/par" [("request", "req-app")] auth_params [("DPoP", "proof-par2")].

(** ** Histories *)
Definition os_code (id1 v1 id2 v2 : string) : list orc := (os_assertion ++ [ok; ok; ok] ++ os_tok id1 v1 ++ os_tok id2 v2 ++ [ok])%list.
Definition x_web_code : list hsched :=
  (hfull 0 EAuthorize (authorize_r "app" "req-app") (os_authorize "code-1") ++
   hfull 1 EToken (redeem_r []) (os_code "id-1" "at-1" "id-2" "rt-1"))%list.
(** The code generator returns the same code again; the code is redeemed again. *)
Definition x_web_code2 : list hsched :=
  (x_web_code ++ hfull 2 EAuthorize (authorize_r "app" "req-app") (os_authorize "code-1") ++
   hfull 3 EToken (redeem_r []) (os_code "id-3" "at-2" "id-4" "rt-2"))%list.
(** The refresh token is revoked, used, introspected. *)
Definition x_web_revoked : list hsched :=
  (x_web_code ++ HTick (2 * second) :: hfull 2 ERevoke (token_r "/revoke" "rt-1") (os_assertion ++ [ok; ok; ok]) ++
   hfull 3 EToken (refresh_r []) (os_assertion ++ [ok; ok; ok]) ++
   hfull 4 EIntrospect (token_r "/introspect" "rt-1") (os_assertion ++ [ok; ok; ok]))%list.
Definition x_web_intro : list hsched :=
  (x_web_code ++ HTick (2 * second) :: hfull 2 EIntrospect (token_r "/introspect" "at-1") (os_assertion ++ [ok; ok; ok]))%list.
Definition x_web_device : list hsched :=
  (hfull 0 EDeviceAuthorize device_scope_r (os_assertion ++ [ok; say "device-code"; say "user-code"; ok]) ++
   hfull 1 EDevice approve_r [ok; ok; ok; ok] ++
   hfull 2 EToken (poll_r dpop1) (os_assertion ++ os_proof ++ [ok; ok; ok] ++ os_tok "id-1" "at-1" ++ os_tok "id-2" "rt-1" ++ [ok]))%list.
Definition x_web_par2 : list hsched :=
  (x_http_par ++
   hfull 2 EPar par2_r (os_assertion ++ os_proof ++ [ok; say "urn:solid:1"; ok]) ++
   hfull 3 EAuthorize (authorize_r "app" "req-by-uri") [ok; ok; ok; ok; say "code-2"; ok; ok])%list.
(** Half an hour before its expiry the refresh token is replaced. *)
Definition x_web_rotate : list hsched :=
  (x_web_code ++ HTick (603000 * second) ::
   hfull 2 EToken (refresh2_r) (os_assertion ++ [ok; ok; ok] ++ os_tok "id-3" "at-2" ++ os_tok "id-4" "rt-2" ++ [ok; ok]) ++
   hfull 3 EToken (refresh2_r) (os_assertion ++ [ok; ok; ok]))%list.

(** ** Deciding the hypotheses on these histories *)
Definition web_creates (E : ext) (h : list hevent) : list (string * string) :=
  flat_map (fun e => match e with
    | HvCall _ (CTokCreate i t) _ => [(t_id t, tok_key E i (t_value t))]
    | _ => [] end) h.
Lemma web_no_reuse_demo E h : apartb (web_creates E h) = true -> web_no_reuse E h.
Proof.
  intros H h1 i iss0 t a h2 j iss' t' a' h3 ->. unfold web_creates in H. rewrite flat_map_app in H.
  cbn [flat_map] in H. rewrite flat_map_app in H. cbn in H. apply apartb_ok in H. exact H.
Qed.

Ltac by_cut := symmetry; apply firstn_skipn.
Ltac by_faults := repeat (constructor; [exact I || reflexivity|]); constructor.
Ltac by_reuse := apply web_no_reuse_demo; vm_compute; reflexivity.
Ltac by_tokens a b := do 5 eexists; split; [by_start a|by_nth b].

Definition h_code2 := http_history web_server (web_world false) x_web_code2.
Definition h_revoked := http_history web_server (web_world false) x_web_revoked.
Definition h_intro := http_history web_server (web_world false) x_web_intro.
Definition h_rotate := http_history web_server (web_world false) x_web_rotate.
Definition h_par2 := http_history web_server (web_world true) x_web_par2.
Lemma nth_split_at {A} (l : list A) n x : nth_error l n = Some x -> l = (firstn n l ++ x :: skipn (S n) l)%list.
Proof.
  revert l; induction n as [|n IH]; intros [|y l]; try discriminate; intros H.
  - injection H as ->. reflexivity.
  - cbn in H. cbn [firstn app]. change (skipn (S (S n)) (y :: l)) with (skipn (S n) l). rewrite <- IH; auto.
Qed.
