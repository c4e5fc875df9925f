(** * The device flow: the theorems

    Written by tools/gen_props.py: the statements are those of the lemmas proved in
    PfDev, PfDev2, PfDev3.
    Below each theorem, a concrete case that meets its hypotheses. *)

From Verif Require Import Meet PfDev3.

(** ** C14 Device tokens need the user's approval *)

Theorem C14_device_needs_approval : forall E w xs i req res,
  blank w -> registry_ok w -> stamp_ok w -> token_ok (history E w xs) i req res ->
  tq_grant_type req = "urn:ietf:params:oauth:grant-type:device_code"%string ->
  exists code dq subject expiry h1 h2,
    tq_grant req = GDeviceCode code /\
    history E w xs = (h1 ++ h2)%list /\ during h1 i (RToken (Some req)) /\
    device_approved E h1 (tq_issuer req) code dq subject expiry /\
    (unix (clock w h1) <= expiry)%N /\
    by_client req (dr_client_id dq) /\ tr_at res <> None /\
    (forall t, In t (tokens_of res) -> exists m, t_meta t = Some m /\ m_issuer m = tq_issuer req /\
       m_subject m = subject /\ by_client req (m_client_id m) /\ m_scope m = given (dr_scope dq) /\
       t_cnf t = tq_cnf req) /\
    (tr_rt res <> None -> asks E (given (dr_scope dq)) "offline_access").
Proof. exact C14_device_needs_approval_proof. Qed.
Print Assumptions C14_device_needs_approval.
Example C14_device_needs_approval_met : exists E w xs i req res,
  blank w /\
  registry_ok w /\
  stamp_ok w /\
  token_ok (history E w xs) i req res /\
  tq_grant_type req = "urn:ietf:params:oauth:grant-type:device_code"%string.
Proof.
  exists (demo_ext); exists (w0s); exists (x_device); exists (2%nat); exists (pollreq webapp "device-1"); eexists.
  meet.
Qed.

(** ** C15 An approved device obtains tokens *)

Theorem C15_in_memory_never_refuted : forall E w xs,
  blank w -> (forall t s, w_stamp w t s = s) ->
  (forall k q res, answered (history E w xs) k (RDevValidate (Some q)) (PDevValidate res) -> vr_err res = true) /\
  (forall i req res, token_ok (history E w xs) i req res ->
     tq_grant_type req <> "urn:ietf:params:oauth:grant-type:device_code"%string).
Proof. exact C15_in_memory_never_refuted_proof. Qed.
Print Assumptions C15_in_memory_never_refuted.
Example C15_in_memory_never_refuted_met : exists E w xs k q res i req res',
  blank w /\ (forall t s, w_stamp w t s = s) /\
  answered (history E w xs) k (RDevValidate (Some q)) (PDevValidate res) /\
  answered (history E w xs) i (RToken (Some req)) (PToken res') /\
  tq_grant_type req = "urn:ietf:params:oauth:grant-type:device_code"%string.
Proof.
  exists demo_ext, w0, x_device, 1%nat; do 2 eexists; exists 2%nat; do 2 eexists. meet. reflexivity.
Qed.

Theorem C15_device_flow_refuted : exists E w xs dres vres tres,
    blank w /\ registry_ok w /\ no_faults xs /\ (forall t s, w_stamp w t s = s) /\ elapsed (history E w xs) = 0%N /\
    answered (history E w xs) 0 devreq (PDevAuthorize dres) /\ dv_err dres = false /\
    dv_device_code dres = "device-1"%string /\ dv_user_code dres = "user-1"%string /\
    answered (history E w xs) 1 approval (PDevValidate vres) /\
    answered (history E w xs) 2 (RToken (Some (pollreq webapp "device-1"))) (PToken tres) /\ tr_err tres = true.
Proof. exact C15_device_flow_refuted_proof. Qed.
Print Assumptions C15_device_flow_refuted.
(* The theorem is itself a concrete case. *)

Theorem C15_approved_device_gets_tokens_partial : forall E w xs h0 h1 h2 d dq dres k q vres i req c code o,
  blank w -> no_faults xs ->
  (* the store marks new device sessions as pending, valid for 120 s *)
  w_stamp w = stamping 120 ->
  history E w xs = (h0 ++ h1 ++ h2)%list -> (elapsed (h1 ++ h2) <= 120 * second)%N ->
  device_codes_apart E (history E w xs) ->
  (* a device asks for codes, a user approves *)
  answered h1 d (RDevAuthorize (Some dq)) (PDevAuthorize dres) -> dv_err dres = false ->
  answered h1 k (RDevValidate (Some q)) (PDevValidate vres) -> vr_err vres = false ->
  vv_issuer q = dr_issuer dq -> vv_user_code q = dv_user_code dres ->
  (* then the device polls *)
  In (EvStart i (RToken (Some req))) h2 -> In (EvDone i o) h2 ->
  tq_grant_type req = "urn:ietf:params:oauth:grant-type:device_code"%string ->
  tq_grant req = GDeviceCode code -> code = dv_device_code dres -> code <> ""%string ->
  tq_issuer req = dr_issuer dq -> x_request_uri E (tq_issuer req) = true ->
  client_of w req c -> cl_id c = dr_client_id dq -> listed E (cl_grant_types c) "urn:ietf:params:oauth:grant-type:device_code" ->
  generators_work (history E w xs) i ->
  exists res, o = Done (PToken res) /\ tr_err res = false /\ tr_at res <> None.
Proof. exact C15_approved_device_gets_tokens_partial_proof. Qed.
Print Assumptions C15_approved_device_gets_tokens_partial.
Example C15_approved_device_gets_tokens_partial_met : exists E w xs h0 h1 h2 d dq dres k q vres i req c code o,
  blank w /\
  no_faults xs /\
  w_stamp w = stamping 120 /\
  history E w xs = (h0 ++ h1 ++ h2)%list /\
  (elapsed (h1 ++ h2) <= 120 * second)%N /\
  device_codes_apart E (history E w xs) /\
  answered h1 d (RDevAuthorize (Some dq)) (PDevAuthorize dres) /\
  dv_err dres = false /\
  answered h1 k (RDevValidate (Some q)) (PDevValidate vres) /\
  vr_err vres = false /\
  vv_issuer q = dr_issuer dq /\
  vv_user_code q = dv_user_code dres /\
  In (EvStart i (RToken (Some req))) h2 /\
  In (EvDone i o) h2 /\
  tq_grant_type req = "urn:ietf:params:oauth:grant-type:device_code"%string /\
  tq_grant req = GDeviceCode code /\
  code = dv_device_code dres /\
  code <> ""%string /\
  tq_issuer req = dr_issuer dq /\
  x_request_uri E (tq_issuer req) = true /\
  client_of w req c /\
  cl_id c = dr_client_id dq /\
  listed E (cl_grant_types c) "urn:ietf:params:oauth:grant-type:device_code" /\
  generators_work (history E w xs) i.
Proof.
  exists (demo_ext); exists (w0s); exists (x_device); exists (firstn 0 (history demo_ext w0s x_device)); exists (firstn 12 (skipn 0 (history demo_ext w0s x_device))); exists (skipn 12 (skipn 0 (history demo_ext w0s x_device))); exists (0%nat); eexists; eexists; exists (1%nat); eexists; eexists; exists (2%nat); exists (pollreq webapp "device-1"); exists (webapp); exists ("device-1"%string); eexists.
  meet.
  - eexists. split; reflexivity.
  - eexists. split; [right; right; right; left; reflexivity|reflexivity].
Qed.

(** ** C16 A device code yields tokens at most once *)

Theorem C16_device_code_once_refuted : exists E w xs req res1 res2 t1 t2 code,
    blank w /\ registry_ok w /\ no_faults xs /\ stamp_ok w /\
    tq_grant req = GDeviceCode code /\
    token_ok (history E w xs) 2 req res1 /\ token_ok (history E w xs) 3 req res2 /\
    tr_at res1 = Some t1 /\ tr_at res2 = Some t2 /\ t_value t1 <> t_value t2.
Proof. exact C16_device_code_once_refuted_proof. Qed.
Print Assumptions C16_device_code_once_refuted.
(* The theorem is itself a concrete case. *)

(** ** C78 A client only gets tokens through grant types it registered *)

Theorem C78_success_needs_registered_grant : forall E w xs i req res,
  registry_ok w -> token_ok (history E w xs) i req res ->
  exists c, client_of w req c /\ by_client req (cl_id c) /\ listed E (cl_grant_types c) (tq_grant_type req).
Proof. exact C78_success_needs_registered_grant_proof. Qed.
Print Assumptions C78_success_needs_registered_grant.
Example C78_success_needs_registered_grant_met : exists E w xs i req res,
  registry_ok w /\
  token_ok (history E w xs) i req res.
Proof.
  exists (demo_ext); exists (w0); exists (x_code); exists (1%nat); exists (redeem webapp "code-1"); eexists.
  meet.
Qed.

Theorem C78_tokens_need_registered_grant : forall E w xs i iss t a,
  registry_ok w -> In (EvCall i (CTokCreate iss t) a) (history E w xs) ->
  exists req c m, In (EvStart i (RToken (Some req))) (history E w xs) /\ client_of w req c /\ by_client req (cl_id c) /\
    listed E (cl_grant_types c) (tq_grant_type req) /\ t_meta t = Some m /\ m_client_id m = cl_id c.
Proof. exact C78_tokens_need_registered_grant_proof. Qed.
Print Assumptions C78_tokens_need_registered_grant.
Example C78_tokens_need_registered_grant_met : exists E w xs i iss t a,
  registry_ok w /\
  In (EvCall i (CTokCreate iss t) a) (history E w xs).
Proof.
  exists (demo_ext); exists (w0); exists (x_code); exists (1%nat); exists (iss); eexists; eexists.
  meet.
Qed.

(** ** C79 Polling before approval answers authorization_pending *)

Theorem C79_poll_pending_partial : forall E w xs h0 h1 h2 d dq dres i req c code o,
  blank w -> no_faults xs ->
  (* the store marks new device sessions as pending, valid for 120 s *)
  w_stamp w = stamping 120 ->
  history E w xs = (h0 ++ h1 ++ h2)%list -> (elapsed (h1 ++ h2) <= 120 * second)%N ->
  device_codes_apart E (history E w xs) ->
  (* a device asks for codes; nobody sends the user code *)
  answered h1 d (RDevAuthorize (Some dq)) (PDevAuthorize dres) -> dv_err dres = false ->
  (forall k q, In (EvStart k (RDevValidate (Some q))) (history E w xs) ->
     user_key E (vv_issuer q) (vv_user_code q) <> user_key E (dr_issuer dq) (dv_user_code dres)) ->
  (* then the device polls *)
  In (EvStart i (RToken (Some req))) h2 -> In (EvDone i o) h2 ->
  tq_grant_type req = "urn:ietf:params:oauth:grant-type:device_code"%string ->
  tq_grant req = GDeviceCode code -> code = dv_device_code dres -> code <> ""%string ->
  tq_issuer req = dr_issuer dq -> x_request_uri E (tq_issuer req) = true ->
  client_of w req c -> cl_id c = dr_client_id dq -> listed E (cl_grant_types c) "urn:ietf:params:oauth:grant-type:device_code" ->
  exists res, o = Done (PToken res) /\ tr_err res = true /\
    tr_error res = Some (mkErr "authorization_pending" None) /\ tokens_of res = [].
Proof. exact C79_poll_pending_partial_proof. Qed.
Print Assumptions C79_poll_pending_partial.
Example C79_poll_pending_partial_met : exists E w xs h0 h1 h2 d dq dres i req c code o,
  blank w /\
  no_faults xs /\
  w_stamp w = stamping 120 /\
  history E w xs = (h0 ++ h1 ++ h2)%list /\
  (elapsed (h1 ++ h2) <= 120 * second)%N /\
  device_codes_apart E (history E w xs) /\
  answered h1 d (RDevAuthorize (Some dq)) (PDevAuthorize dres) /\
  dv_err dres = false /\
  (forall k q, In (EvStart k (RDevValidate (Some q))) (history E w xs) -> user_key E (vv_issuer q) (vv_user_code q) <> user_key E (dr_issuer dq) (dv_user_code dres)) /\
  In (EvStart i (RToken (Some req))) h2 /\
  In (EvDone i o) h2 /\
  tq_grant_type req = "urn:ietf:params:oauth:grant-type:device_code"%string /\
  tq_grant req = GDeviceCode code /\
  code = dv_device_code dres /\
  code <> ""%string /\
  tq_issuer req = dr_issuer dq /\
  x_request_uri E (tq_issuer req) = true /\
  client_of w req c /\
  cl_id c = dr_client_id dq /\
  listed E (cl_grant_types c) "urn:ietf:params:oauth:grant-type:device_code".
Proof.
  exists (demo_ext); exists (w0s); exists (x_poll0); exists (firstn 0 (history demo_ext w0s x_poll0)); exists (firstn 6 (skipn 0 (history demo_ext w0s x_poll0))); exists (skipn 6 (skipn 0 (history demo_ext w0s x_poll0))); exists (0%nat); eexists; eexists; exists (1%nat); exists (pollreq webapp "device-1"); exists (webapp); exists ("device-1"%string); eexists.
  meet.
  - intros k q Hin. vm_compute in Hin. repeat (destruct Hin as [Hin|Hin]; [discriminate Hin|]). destruct Hin.
  - eexists. split; reflexivity.
  - eexists. split; [right; right; right; left; reflexivity|reflexivity].
Qed.

Theorem C79_in_memory_refuted : exists E w xs dres tres,
  blank w /\ registry_ok w /\ no_faults xs /\ (forall t s, w_stamp w t s = s) /\ elapsed (history E w xs) = 0%N /\
  answered (history E w xs) 0 devreq (PDevAuthorize dres) /\ dv_err dres = false /\
  dv_device_code dres = "device-1"%string /\
  answered (history E w xs) 1 (RToken (Some (pollreq webapp "device-1"))) (PToken tres) /\
  tr_error tres <> Some (mkErr "authorization_pending" None).
Proof. exact C79_in_memory_refuted_proof. Qed.
Print Assumptions C79_in_memory_refuted.
