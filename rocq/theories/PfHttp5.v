(** * Proofs: what the HTTP endpoints do not guarantee *)

From Verif Require Import PfHttp4 DemoHttp.

(** Closed goals about concrete histories. *)
Ltac by_nth n := apply (nth_error_In _ n); vm_compute; reflexivity.
Ltac by_start n := apply (nth_error_In _ n); match goal with |- _ = ?x => vm_cast_no_check (@eq_refl _ x) end.
Fixpoint feed {A} (p : prog A) (xs : list answer) : list (call * answer) * prog A :=
  match p, xs with
  | Do c k, a :: xs => let '(tr, q) := feed (k a) xs in ((c, a) :: tr, q)
  | _, _ => ([], p)
  end.
Lemma feed_reach {A} (p : prog A) xs : reach p (fst (feed p xs)) (snd (feed p xs)).
Proof.
  revert p; induction xs as [|a xs IH]; intros []; cbn; try apply reach_nil.
  specialize (IH (k a)). destruct (feed (k a) xs). apply reach_call. exact IH.
Qed.
Lemma feed_runs {A} (p : prog A) tr o : feed p (map snd tr) = (tr, match o with Done a => Ret a | Crashed => Panic end) ->
  runs p tr o.
Proof. intros H. pose proof (feed_reach p (map snd tr)) as R. rewrite H in R. destruct o; exact R. Qed.
Ltac by_run := apply feed_runs; vm_compute; reflexivity.
Lemma split_at {A} (l : list A) n m : l = (firstn n l ++ firstn m (skipn n l) ++ skipn m (skipn n l))%list.
Proof. rewrite !firstn_skipn. reflexivity. Qed.
Ltac by_proof n :=
  match goal with |- proof_accepted _ _ _ ?l _ =>
    exists (firstn n l), (firstn 4 (skipn n l)), (skipn 4 (skipn n l)); split; [apply split_at|by_run]
  end.


(** A refresh made with the proof of one key gives a token bound to another key. *)
Lemma C57_refresh_proof_refuted_proof : exists S w xs i r iss t a m c thumb,
  let h := http_history S w xs in
  registry_ok w /\ blank w /\ In (HvStart i EToken r) h /\ In (HvCall i (CTokCreate iss t) a) h /\
  t_meta t = Some m /\ w_clients w (m_client_id m) = Some c /\ cl_dpop_bound c = true /\
  proof_accepted (sv_ext S) r None (hcalls i h) thumb /\ t_cnf t <> Some thumb.
Proof.
  exists web_server, (web_world true), x_http_refresh, 2%nat, (refresh_r dpop2). do 6 eexists. intros h.
  split; [apply registry_web|]. split; [apply blank_web|].
  split; [by_start 27%nat|]. split; [by_nth 40%nat|].
  split; [reflexivity|]. split; [reflexivity|]. split; [reflexivity|].
  split; [by_proof 2%nat|]. vm_compute. discriminate.
Qed.

(** The answer announces a bearer token and the token is bound to a key. *)
Lemma C62_token_type_refuted_proof : exists S w xs i access expires refresh scope iss t a,
  let h := http_history S w xs in
  registry_ok w /\ blank w /\ In (HvCall i (CTokCreate iss t) a) h /\ a = AUnit (SOk tt) /\ t_value t = access /\
  t_cnf t <> None /\ In (HvDone i (Done (HToken access expires "Bearer" refresh scope))) h.
Proof.
  exists web_server, (web_world false), x_http_bearer, 2%nat. do 7 eexists. intros h.
  split; [apply registry_web|]. split; [apply blank_web|].
  split; [by_nth 36%nat|]. split; [reflexivity|]. split; [reflexivity|]. split; [vm_compute; discriminate|].
  by_nth 38%nat.
Qed.

(** A code is issued for a client none of whose keys signed the request. *)
Lemma C64_signed_requests_refuted_proof : exists S w xs i r iss code s a granted c,
  let h := http_history S w xs in
  registry_ok w /\ blank w /\ In (HvStart i EAuthorize r) h /\ In (HvCall i (CSessReg iss code s) a) h /\
  as_request s = Some granted /\ w_clients w (ar_client_id granted) = Some c /\
  ~ signed_by (sv_ext S) c (query_get r "request").
Proof.
  exists web_server, (web_world true), x_http_evil, 0%nat, (authorize_r "evil" "req-evil"). do 6 eexists. intros h.
  split; [apply registry_web|]. split; [apply blank_web|].
  split; [by_start 0%nat|]. split; [by_nth 4%nat|]. split; [reflexivity|]. split; [reflexivity|].
  intros (keys & Hk & tok & k & _ & Hin & _ & _ & Hv). vm_compute in Hk. injection Hk as <-.
  repeat (destruct Hin as [<-|Hin]; [vm_compute in Hv; discriminate|]). destruct Hin.
Qed.

(** The device flow of a confidential client is started by someone who did not authenticate as it. *)
Lemma C67_device_client_refuted_proof : exists S w xs i r iss user_code s a c,
  let h := http_history S w xs in
  registry_ok w /\ blank w /\ In (HvStart i EDeviceAuthorize r) h /\ In (HvCall i (CDevReg iss user_code s) a) h /\
  ds_client s = Some c /\ cl_type c = CtConfidential /\ w_clients w (cl_id c) = Some c /\
  post_value r "client_assertion" = ""%string.
Proof.
  exists web_server, (web_world true), x_http_device, 0%nat, device_r. do 5 eexists. intros h.
  split; [apply registry_web|]. split; [apply blank_web|].
  split; [by_start 0%nat|]. split; [by_nth 5%nat|]. repeat (split; [reflexivity|]). reflexivity.
Qed.

(** A client registered for pairwise subjects gets the user's own name. *)
Lemma C68_pairwise_refuted_proof : exists S w xs i r user password iss code s a granted c,
  let h := http_history S w xs in
  registry_ok w /\ blank w /\ In (HvStart i EAuthorize r) h /\ hq_basic r = Some (user, password) /\
  In (HvCall i (CSessReg iss code s) a) h /\ as_request s = Some granted /\
  w_clients w (ar_client_id granted) = Some c /\ cl_subject_type c = "pairwise"%string /\
  as_subject s = user /\ ~ subject_for (sv_ext S) (sv_salt S) c user (as_subject s).
Proof.
  exists web_server, (web_world true), x_http_evil, 0%nat, (authorize_r "evil" "req-evil"). do 8 eexists. intros h.
  split; [apply registry_web|]. split; [apply blank_web|].
  split; [by_start 0%nat|]. split; [reflexivity|]. split; [by_nth 4%nat|].
  do 4 (split; [reflexivity|]). vm_compute. discriminate.
Qed.

(** Two requests that crash the server's goroutine: revoking a token that does not exist,
    redeeming a code granted without the scope openid. *)
Lemma C65_revoke_unknown_refuted_proof : exists S w xs i r, let h := http_history S w xs in
  registry_ok w /\ blank w /\ In (HvStart i ERevoke r) h /\ In (HvDone i Crashed) h.
Proof.
  exists web_server, (web_world true), x_http_revoke, 0%nat, (token_r "/revoke" "nonsense"). intros h.
  split; [apply registry_web|]. split; [apply blank_web|]. split; [by_start 0%nat|by_nth 5%nat].
Qed.
Lemma C65_no_openid_refuted_proof : exists S w xs i r j r', let h := http_history S w xs in
  registry_ok w /\ blank w /\ In (HvStart i EAuthorize r) h /\ In (HvStart j EToken r') h /\
  (exists uri jarm, In (HvDone i (Done (HRedirectQuery uri jarm))) h) /\ In (HvDone j Crashed) h.
Proof.
  exists web_server, (web_world true), x_http_plain, 0%nat, (authorize_r "app" "req-app-plain"), 1%nat, (redeem_r dpop1). intros h.
  split; [apply registry_web|]. split; [apply blank_web|]. split; [by_start 0%nat|].
  split; [by_start 7%nat|]. split; [do 2 eexists; by_nth 6%nat|by_nth 17%nat].
Qed.
