(** * Who may introspect, revoke and approve: the theorems

    Written by tools/gen_props.py: the statements are those of the lemmas proved in
    PfGate.
    Below each theorem, a concrete case that meets its hypotheses. *)

From Verif Require Import MeetLive.

(** ** C88 Introspection and revocation need a registered client *)

Theorem C88_introspection_needs_client : forall E w xs i req res,
  answered (history E w xs) i (RIntrospect (Some req)) (PIntrospect res) -> ir_err res = false ->
  (forall c a, In (EvCall i c a) (history E w xs) -> nil_read a = false) ->
  exists auth c, vq_client req = Some auth /\ w_clients w (cl_id auth) = Some c /\
    vq_token req <> ""%string /\ vq_issuer req <> ""%string /\ x_request_uri E (vq_issuer req) = true.
Proof. exact C88_introspection_needs_client_proof. Qed.
Print Assumptions C88_introspection_needs_client.
Example C88_introspection_needs_client_met : exists E w xs i req res,
  answered (history E w xs) i (RIntrospect (Some req)) (PIntrospect res) /\
  ir_err res = false /\
  (forall c a, In (EvCall i c a) (history E w xs) -> nil_read a = false).
Proof.
  exists (demo_ext); exists (w0); exists (x_intro); exists (2%nat); eexists; eexists.
  meet.
  all: meet_live.
Qed.

Theorem C88_revocation_needs_client : forall E w xs i req res,
  answered (history E w xs) i (RRevoke (Some req)) (PRevoke res) -> rr_err res = false ->
  (forall c a, In (EvCall i c a) (history E w xs) -> nil_read a = false) ->
  exists auth c, vq_client req = Some auth /\ w_clients w (cl_id auth) = Some c /\
    vq_token req <> ""%string /\ vq_issuer req <> ""%string /\ x_request_uri E (vq_issuer req) = true.
Proof. exact C88_revocation_needs_client_proof. Qed.
Print Assumptions C88_revocation_needs_client.
Example C88_revocation_needs_client_met : exists E w xs i req res,
  answered (history E w xs) i (RRevoke (Some req)) (PRevoke res) /\
  rr_err res = false /\
  (forall c a, In (EvCall i c a) (history E w xs) -> nil_read a = false).
Proof.
  exists (demo_ext); exists (w0); exists (x_revoked); exists (2%nat); eexists; eexists.
  meet.
  all: meet_live.
Qed.

Theorem C88_revoked_for_client : forall E w xs h1 i iss id a h2,
  history E w xs = (h1 ++ EvCall i (CTokRevoke iss id) a :: h2)%list ->
  (forall c a, In (EvCall i c a) h1 -> nil_read a = false) ->
  exists auth c, w_clients w (cl_id auth) = Some c /\
    ((exists req, asked h1 i (RRevoke (Some req)) /\ vq_client req = Some auth) \/
     (exists req value, asked h1 i (RToken (Some req)) /\ tq_client req = Some auth /\
        tq_grant req = GRefreshToken value)).
Proof. exact C88_revoked_for_client_proof. Qed.
Print Assumptions C88_revoked_for_client.
Example C88_revoked_for_client_met : exists E w xs h1 i iss id a h2,
  history E w xs = (h1 ++ EvCall i (CTokRevoke iss id) a :: h2)%list /\
  (forall c a, In (EvCall i c a) h1 -> nil_read a = false).
Proof.
  exists (demo_ext); exists (w0); exists (x_revoked); exists (firstn 21 (history demo_ext w0 x_revoked)); exists (2%nat); eexists; eexists; eexists; exists (skipn 22 (history demo_ext w0 x_revoked)).
  meet.
  all: meet_live.
Qed.

(** ** C89 A device authorization answer is backed by the store *)

Theorem C89_device_response : forall E w xs i dq res,
  answered (history E w xs) i (RDevAuthorize (Some dq)) (PDevAuthorize res) -> dv_err res = false ->
  exists c s a,
    (* a registered client that has the device grant *)
    w_clients w (dr_client_id dq) = Some c /\ dr_client_id dq <> ""%string /\ dr_issuer dq <> ""%string /\
    listed E (cl_grant_types c) "urn:ietf:params:oauth:grant-type:device_code" /\
    (* the codes come from the generators, in this request *)
    In (EvCall i (CGenDev (dr_issuer dq)) (AGen (Some (dv_device_code res)))) (history E w xs) /\
    In (EvCall i (CGenUser (dr_issuer dq)) (AGen (Some (dv_user_code res)))) (history E w xs) /\
    (* and were stored with what the client asked for *)
    In (EvCall i (CDevReg (dr_issuer dq) (dv_user_code res) s) a) (history E w xs) /\ ans_ok a = true /\
    ds_client s = Some c /\ ds_request s = Some dq /\ ds_issuer s = dr_issuer dq /\
    ds_device_code s = dv_device_code res /\ ds_subject s = None /\ ds_status s <> DsValidated /\
    ds_scope s = dr_scope dq /\ ds_audience s = dr_audience dq /\
    (* the rest of the answer *)
    dv_error res = None /\ dv_issuer res = dr_issuer dq /\ dv_interval res = 5%N /\
    (no_faults xs -> dv_expires_in res = 120%N).
Proof. exact C89_device_response_proof. Qed.
Print Assumptions C89_device_response.
Example C89_device_response_met : exists E w xs i dq res,
  answered (history E w xs) i (RDevAuthorize (Some dq)) (PDevAuthorize res) /\
  dv_err res = false.
Proof.
  exists (demo_ext); exists (w0); exists (x_device); exists (0%nat); eexists; eexists.
  meet.
  all: meet_live.
Qed.

(** ** C90 A user code is approved once, by the subject that entered it *)

Theorem C90_approval_gate : forall E w xs i q res,
  blank w -> stamp_ok w ->
  answered (history E w xs) i (RDevValidate (Some q)) (PDevValidate res) -> vr_err res = false ->
  exists d dq uc s0 a0 h1 h2 s,
    (* the form is complete *)
    vv_issuer q <> ""%string /\ vv_user_code q <> ""%string /\ vv_subject q <> ""%string /\
    (* a device authorization registered this user code before; its session is still pending ... *)
    history E w xs = (h1 ++ EvCall i (CDevGetUser (vv_issuer q) (vv_user_code q)) (ADev (SOk s)) :: h2)%list /\
    asked h1 d (RDevAuthorize (Some dq)) /\ In (EvCall d (CDevReg (dr_issuer dq) uc s0) a0) h1 /\
    user_key E (dr_issuer dq) uc = user_key E (vv_issuer q) (vv_user_code q) /\
    ds_request s = Some dq /\ ds_device_code s = ds_device_code s0 /\ ds_status s = DsPending /\
    (* ... and not over *)
    (exists t, In (EvCall i CNow (ATime t)) h2 /\ (unix t <= ds_expires_at s)%N) /\
    (* it is stored as approved by this very subject, all else unchanged, and the code is withdrawn *)
    (exists a1, In (EvCall i (CDevVal (vv_issuer q) (vv_user_code q)
        (mkDev (ds_client s) (ds_issuer s) (ds_expires_at s) (ds_request s) DsValidated (ds_device_code s)
               (Some (vv_subject q)) (ds_scope s) (ds_audience s))) a1) h2 /\ ans_ok a1 = true) /\
    (exists a2, In (EvCall i (CDevDel (vv_issuer q) (vv_user_code q)) a2) h2 /\ ans_ok a2 = true).
Proof. exact C90_approval_gate_proof. Qed.
Print Assumptions C90_approval_gate.
Example C90_approval_gate_met : exists E w xs i q res,
  blank w /\
  stamp_ok w /\
  answered (history E w xs) i (RDevValidate (Some q)) (PDevValidate res) /\
  vr_err res = false.
Proof.
  exists (demo_ext); exists (w0s); exists (x_device); exists (1%nat); eexists; eexists.
  meet.
  all: meet_live.
Qed.

Theorem C90_approved_once : forall E w xs h1 h2 i j q q' res res',
  blank w -> stamp_ok w ->
  history E w xs = (h1 ++ h2)%list ->
  In (EvStart i (RDevValidate (Some q))) h1 -> In (EvDone i (Done (PDevValidate res))) h1 -> vr_err res = false ->
  In (EvStart j (RDevValidate (Some q'))) h2 -> In (EvDone j (Done (PDevValidate res'))) h2 -> vr_err res' = false ->
  user_key E (vv_issuer q') (vv_user_code q') = user_key E (vv_issuer q) (vv_user_code q) ->
  exists g1 g2 d dq uc s a,
    history E w xs = (g1 ++ EvCall d (CDevReg (dr_issuer dq) uc s) a :: g2)%list /\
    asked g1 d (RDevAuthorize (Some dq)) /\
    user_key E (dr_issuer dq) uc = user_key E (vv_issuer q) (vv_user_code q) /\
    In (EvStart i (RDevValidate (Some q))) g1 /\ In (EvDone j (Done (PDevValidate res'))) g2.
Proof. exact C90_approved_once_proof. Qed.
Print Assumptions C90_approved_once.
Example C90_approved_once_met : exists E w xs h1 h2 i j q q' res res',
  blank w /\
  stamp_ok w /\
  history E w xs = (h1 ++ h2)%list /\
  In (EvStart i (RDevValidate (Some q))) h1 /\
  In (EvDone i (Done (PDevValidate res))) h1 /\
  vr_err res = false /\
  In (EvStart j (RDevValidate (Some q'))) h2 /\
  In (EvDone j (Done (PDevValidate res'))) h2 /\
  vr_err res' = false /\
  user_key E (vv_issuer q') (vv_user_code q') = user_key E (vv_issuer q) (vv_user_code q).
Proof.
  exists (demo_ext); exists (w0s); exists (x_reapprove); exists (firstn 12 (history demo_ext w0s x_reapprove)); exists (skipn 12 (history demo_ext w0s x_reapprove)); exists (1%nat); exists (3%nat); eexists; eexists; eexists; eexists.
  meet.
  all: meet_live.
Qed.

Theorem C90_approved_once_refuted : exists E w xs ra rb tres t m,
    blank w /\ registry_ok w /\ no_faults xs /\ stamp_ok w /\
    answered (history E w xs) 0 devreq (PDevAuthorize (mkDevRes false None "device-1" "user-1" 120 5 iss)) /\
    answered (history E w xs) 1 (approval_by "alice") (PDevValidate ra) /\ vr_err ra = false /\
    answered (history E w xs) 2 (approval_by "bob") (PDevValidate rb) /\ vr_err rb = false /\
    answered (history E w xs) 3 (RToken (Some (pollreq webapp "device-1"))) (PToken tres) /\
    tr_at tres = Some t /\ t_meta t = Some m /\ m_subject m = "bob"%string /\
    (* and there were no other requests *)
    List.length (filter (fun e => match e with EvStart _ _ => true | _ => false end) (history E w xs)) = 4.
Proof. exact C90_approved_once_refuted_proof. Qed.
Print Assumptions C90_approved_once_refuted.
(* The theorem is itself a concrete case. *)

(** ** C91 The token store holds keyed hashes only *)

Theorem C91_store_holds_hashes : forall E w xs k t,
  no_tokens w ->
  (w_tid (final E w xs) k = Some t \/ w_tval (final E w xs) k = Some t) ->
  exists i iss t0 a, In (EvCall i (CTokCreate iss t0) a) (history E w xs) /\
    t_value t = tok_key E iss (t_value t0) /\ t_id t = t_id t0 /\ t_meta t = t_meta t0.
Proof. exact C91_store_holds_hashes_proof. Qed.
Print Assumptions C91_store_holds_hashes.
Example C91_store_holds_hashes_met : exists E w xs k t,
  no_tokens w /\ w_tval (final E w xs) k = Some t /\ t_type t = TtRefresh /\ t_value t <> "rt-1"%string.
Proof. exists demo_ext, w0, x_code, (tok_key demo_ext iss "rt-1"). eexists. split; [apply blank_w0|]. split; [vm_compute; reflexivity|]. split; [reflexivity|]. vm_compute. discriminate. Qed.
