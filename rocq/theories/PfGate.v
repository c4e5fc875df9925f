(** * Who may introspect, revoke, start and approve a device flow; what the token store holds *)

From Verif Require Export PfDev2 PfStore.

Lemma client_registered E w xs i id rc :
  In (EvCall i (CClientGet id) (AClient rc)) (history E w xs) -> is_ok rc = true ->
  nil_read (AClient rc) = false -> exists c, w_clients w id = Some c.
Proof.
  intros Hin Hok Hn. destruct rc as [c| | |]; try discriminate. exists c. eapply client_read; eauto.
Qed.

(** ** C88 *)

Lemma C88_introspection_needs_client_proof : forall E w xs i req res,
  answered (history E w xs) i (RIntrospect (Some req)) (PIntrospect res) -> ir_err res = false ->
  (forall c a, In (EvCall i c a) (history E w xs) -> nil_read a = false) ->
  exists auth c, vq_client req = Some auth /\ w_clients w (cl_id auth) = Some c /\
    vq_token req <> ""%string /\ vq_issuer req <> ""%string /\ x_request_uri E (vq_issuer req) = true.
Proof.
  intros E w xs i req res Ha He Hnil.
  apply answered_runs in Ha. cbn in Ha. apply reach_pmap_ret in Ha as (res' & X & Ha). injection X as <-.
  destruct (introspect_ok _ _ _ _ Ha He) as (auth & rc & rt & R1 & R2 & R3 & R4 & R5 & Htr & _).
  assert (Hin : In (EvCall i (CClientGet (cl_id auth)) (AClient rc)) (history E w xs)).
  { apply in_calls_of. rewrite Htr. left; auto. }
  destruct (client_registered _ _ _ _ _ _ Hin R5 (Hnil _ _ Hin)) as (c & Hc).
  exists auth, c. repeat (split; [solve [auto]|]). exact R4.
Qed.

Lemma C88_revocation_needs_client_proof : forall E w xs i req res,
  answered (history E w xs) i (RRevoke (Some req)) (PRevoke res) -> rr_err res = false ->
  (forall c a, In (EvCall i c a) (history E w xs) -> nil_read a = false) ->
  exists auth c, vq_client req = Some auth /\ w_clients w (cl_id auth) = Some c /\
    vq_token req <> ""%string /\ vq_issuer req <> ""%string /\ x_request_uri E (vq_issuer req) = true.
Proof.
  intros E w xs i req res Ha He Hnil.
  apply answered_runs in Ha. cbn in Ha. apply reach_pmap_ret in Ha as (res' & X & Ha). injection X as <-.
  destruct (revoke_ok _ _ _ _ Ha He) as (auth & rc & t & r & R1 & R2 & R3 & R4 & R5 & _ & Htr & _).
  assert (Hin : In (EvCall i (CClientGet (cl_id auth)) (AClient rc)) (history E w xs)).
  { apply in_calls_of. rewrite Htr. left; auto. }
  destruct (client_registered _ _ _ _ _ _ Hin R5 (Hnil _ _ Hin)) as (c & Hc).
  exists auth, c. repeat (split; [solve [auto]|]). exact R4.
Qed.

(** Whatever becomes of the request: the store is asked to revoke a token only on behalf of
    a registered client which revokes it or exchanges it for a new refresh token. *)
Lemma C88_revoked_for_client_proof : forall E w xs h1 i iss id a h2,
  history E w xs = (h1 ++ EvCall i (CTokRevoke iss id) a :: h2)%list ->
  (forall c a, In (EvCall i c a) h1 -> nil_read a = false) ->
  exists auth c, w_clients w (cl_id auth) = Some c /\
    ((exists req, asked h1 i (RRevoke (Some req)) /\ vq_client req = Some auth) \/
     (exists req value, asked h1 i (RToken (Some req)) /\ tq_client req = Some auth /\
        tq_grant req = GRefreshToken value)).
Proof.
  intros E w xs h1 i iss id a h2 Hh Hnil.
  destruct (write_reason _ _ _ _ _ _ _ _ Hh) as (r & R1 & R2). cbn in R2.
  assert (Hcl : forall o, read_client_ok (calls_of i h1) o -> exists auth c, o = Some auth /\ w_clients w (cl_id auth) = Some c).
  { intros o (auth & rc & -> & D & Hok). apply did_event in D.
    destruct (client_registered E w xs i (cl_id auth) rc) as (c & Hc).
    - rewrite Hh. apply in_or_app; auto.
    - exact Hok.
    - exact (Hnil _ _ D).
    - exists auth, c. auto. }
  destruct R2 as [(req & t & -> & _ & _ & _ & B)|(req & v & t & -> & Hg & _ & _ & _ & _ & B)];
    destruct (Hcl _ B) as (auth & c & H1 & H2); exists auth, c; (split; [exact H2|]).
  - left. exists req. auto.
  - right. exists req, v. auto.
Qed.

(** ** C89 *)

Lemma C89_device_response_proof : forall E w xs i dq res,
  answered (history E w xs) i (RDevAuthorize (Some dq)) (PDevAuthorize res) -> dv_err res = false ->
  exists c s a,
    (* a registered client that has the device grant *)
    w_clients w (dr_client_id dq) = Some c /\ dr_client_id dq <> ""%string /\ dr_issuer dq <> ""%string /\
    listed E (cl_grant_types c) "urn:ietf:params:oauth:grant-type:device_code" /\
    (* the codes come from the generators, in this request *)
    In (EvCall i (CGenDev (dr_issuer dq)) (AGen (Some (dv_device_code res)))) (history E w xs) /\
    In (EvCall i (CGenUser (dr_issuer dq)) (AGen (Some (dv_user_code res)))) (history E w xs) /\
    (* and were stored with what the client asked for *)
    In (EvCall i (CDevReg (dr_issuer dq) (dv_user_code res) s) a) (history E w xs) /\ ans_ok a = true /\
    ds_client s = Some c /\ ds_request s = Some dq /\ ds_issuer s = dr_issuer dq /\
    ds_device_code s = dv_device_code res /\ ds_subject s = None /\ ds_status s <> DsValidated /\
    ds_scope s = dr_scope dq /\ ds_audience s = dr_audience dq /\
    (* the rest of the answer *)
    dv_error res = None /\ dv_issuer res = dr_issuer dq /\ dv_interval res = 5%N /\
    (no_faults xs -> dv_expires_in res = 120%N).
Proof.
  intros E w xs i dq res Ha He.
  apply answered_runs in Ha. cbn in Ha. apply reach_pmap_ret in Ha as (res' & X & Ha). injection X as <-.
  destruct (dev_authorize_ok _ _ _ _ Ha He) as (c & dc & uc & n & R1 & R2 & R3 & R4 & Htr & ->). cbn.
  assert (Hin : forall c' a', In (c', a') (calls_of i (history E w xs)) -> In (EvCall i c' a') (history E w xs))
    by (intros; apply in_calls_of; auto).
  rewrite Htr in Hin.
  do 3 eexists. split; [eapply client_read; apply Hin; left; reflexivity|].
  do 2 (split; [assumption|]). split; [exact R3|].
  split; [apply Hin; right; left; reflexivity|]. split; [apply Hin; right; right; left; reflexivity|].
  split; [apply Hin; do 3 right; left; reflexivity|]. split; [destruct n; try discriminate; reflexivity|].
  do 9 (split; [solve [reflexivity|discriminate]|]). do 2 (split; [reflexivity|]).
  intros Hf. pose proof (Hin _ _ (or_intror (or_intror (or_intror (or_introl eq_refl))))) as Hc.
  apply in_split in Hc as (h1 & h2 & Hh).
  destruct (split_at _ _ _ _ _ _ _ _ Hh) as (wm & o & w1 & _ & B & _). cbn in B.
  destruct (o_fault o); cbn in B; injection B as <- _; cbn in R4; try discriminate; reflexivity.
Qed.

(** ** C90 *)

Lemma C90_approval_gate_proof : forall E w xs i q res,
  blank w -> stamp_ok w ->
  answered (history E w xs) i (RDevValidate (Some q)) (PDevValidate res) -> vr_err res = false ->
  exists d dq uc s0 a0 h1 h2 s,
    (* the form is complete *)
    vv_issuer q <> ""%string /\ vv_user_code q <> ""%string /\ vv_subject q <> ""%string /\
    (* a device authorization registered this user code before; its session is still pending ... *)
    history E w xs = (h1 ++ EvCall i (CDevGetUser (vv_issuer q) (vv_user_code q)) (ADev (SOk s)) :: h2)%list /\
    asked h1 d (RDevAuthorize (Some dq)) /\ In (EvCall d (CDevReg (dr_issuer dq) uc s0) a0) h1 /\
    user_key E (dr_issuer dq) uc = user_key E (vv_issuer q) (vv_user_code q) /\
    ds_request s = Some dq /\ ds_device_code s = ds_device_code s0 /\ ds_status s = DsPending /\
    (* ... and not over *)
    (exists t, In (EvCall i CNow (ATime t)) h2 /\ (unix t <= ds_expires_at s)%N) /\
    (* it is stored as approved by this very subject, all else unchanged, and the code is withdrawn *)
    (exists a1, In (EvCall i (CDevVal (vv_issuer q) (vv_user_code q)
        (mkDev (ds_client s) (ds_issuer s) (ds_expires_at s) (ds_request s) DsValidated (ds_device_code s)
               (Some (vv_subject q)) (ds_scope s) (ds_audience s))) a1) h2 /\ ans_ok a1 = true) /\
    (exists a2, In (EvCall i (CDevDel (vv_issuer q) (vv_user_code q)) a2) h2 /\ ans_ok a2 = true).
Proof.
  intros E w xs i q res Hb Hst Ha He.
  apply answered_runs in Ha. cbn in Ha. apply reach_pmap_ret in Ha as (res' & X & Ha). injection X as <-.
  destruct (dev_validate_ok _ _ _ Ha He) as (s & dr & dc & t & r1 & r2 & V1 & V2 & V3 & V4 & V5 & V6 & V7 & V8 & V9 & Htr & _).
  change (calls_of i (history E w xs) = ([] ++ (CDevGetUser (vv_issuer q) (vv_user_code q), ADev (SOk s)) ::
     [(CNow, ATime t); (CDevVal (vv_issuer q) (vv_user_code q) (approve s (vv_subject q)), AUnit r1);
      (CDevDel (vv_issuer q) (vv_user_code q), AUnit r2)])%list) in Htr.
  destruct (calls_of_split _ _ _ _ _ _ Htr) as (h1 & h2 & Hh & _ & Htr2).
  destruct (pending_origin _ _ _ _ _ _ _ _ _ Hb Hh V7) as (d & dq & uc & s0 & a0 & t0 & c & P1 & P2 & _ & P3 & P4 & P5).
  destruct (Hst t0 s0) as (exp & st & _ & Hs). rewrite Hs in P3.
  exists d, dq, uc, s0, a0, h1, h2, s.
  do 3 (split; [assumption|]). split; [exact Hh|]. split; [exact P1|]. split; [exact P2|].
  split; [rewrite <- P4, P3, P5; reflexivity|].
  split; [rewrite P3, P5; reflexivity|]. split; [rewrite P3; reflexivity|]. split; [exact V7|].
  assert (Hin : forall c' a', In (c', a') (calls_of i h2) -> In (EvCall i c' a') h2) by (intros; apply in_calls_of; auto).
  rewrite Htr2 in Hin.
  split; [exists t; split; [apply Hin; left; reflexivity|exact V6]|].
  split; eexists; (split; [apply Hin|]).
  - right; left; reflexivity.
  - exact V8.
  - right; right; left; reflexivity.
  - exact V9.
Qed.

(** Approving a code once more takes another device authorization that got the same code
    in the meantime. *)
Lemma C90_approved_once_proof : forall E w xs h1 h2 i j q q' res res',
  blank w -> stamp_ok w ->
  history E w xs = (h1 ++ h2)%list ->
  In (EvStart i (RDevValidate (Some q))) h1 -> In (EvDone i (Done (PDevValidate res))) h1 -> vr_err res = false ->
  In (EvStart j (RDevValidate (Some q'))) h2 -> In (EvDone j (Done (PDevValidate res'))) h2 -> vr_err res' = false ->
  user_key E (vv_issuer q') (vv_user_code q') = user_key E (vv_issuer q) (vv_user_code q) ->
  exists g1 g2 d dq uc s a,
    history E w xs = (g1 ++ EvCall d (CDevReg (dr_issuer dq) uc s) a :: g2)%list /\
    asked g1 d (RDevAuthorize (Some dq)) /\
    user_key E (dr_issuer dq) uc = user_key E (vv_issuer q) (vv_user_code q) /\
    In (EvStart i (RDevValidate (Some q))) g1 /\ In (EvDone j (Done (PDevValidate res'))) g2.
Proof.
  intros E w xs h1 h2 i j q q' res res' Hb Hst Hh Hi1 Hi2 Hi3 Hj1 Hj2 Hj3 Hk.
  assert (Hai : answered (history E w xs) i (RDevValidate (Some q)) (PDevValidate res))
    by (split; rewrite Hh; apply in_or_app; auto).
  assert (Haj : answered (history E w xs) j (RDevValidate (Some q')) (PDevValidate res'))
    by (split; rewrite Hh; apply in_or_app; auto).
  apply answered_runs in Hai. cbn in Hai. apply reach_pmap_ret in Hai as (x1 & X & Hai). injection X as <-.
  apply answered_runs in Haj. cbn in Haj. apply reach_pmap_ret in Haj as (x2 & X & Haj). injection X as <-.
  destruct (dev_validate_ok _ _ _ Hai Hi3) as (si & dri & dci & ti & r1 & r2 & _ & _ & _ & _ & _ & _ & _ & _ & I9 & Itr & _).
  destruct (dev_validate_ok _ _ _ Haj Hj3) as (sj & drj & dcj & tj & u1 & u2 & _ & _ & _ & _ & _ & _ & J7 & _ & _ & Jtr & _).
  assert (Hdel : In (EvCall i (CDevDel (vv_issuer q) (vv_user_code q)) (AUnit r2)) (history E w xs)).
  { apply in_calls_of. rewrite Itr. do 3 right. left. reflexivity. }
  apply in_split in Hdel as (e1 & e2 & He).
  destruct (call_in_done _ _ _ _ _ _ _ _ _ _ _ Hh Hi2 He) as (u & Hu1 & Hu2).
  change (calls_of j (history E w xs) = ([] ++ (CDevGetUser (vv_issuer q') (vv_user_code q'), ADev (SOk sj)) ::
     [(CNow, ATime tj); (CDevVal (vv_issuer q') (vv_user_code q') (approve sj (vv_subject q')), AUnit u1);
      (CDevDel (vv_issuer q') (vv_user_code q'), AUnit u2)])%list) in Jtr.
  destruct (calls_of_split _ _ _ _ _ _ Jtr) as (f1 & f2 & Hf & _ & Jtr2).
  destruct (later_prefix _ _ _ _ _ _ _ _ _ _ _ Hh Hj1 Hf) as (v & Hv).
  assert (Hf' : history E w xs = (e1 ++ EvCall i (CDevDel (vv_issuer q) (vv_user_code q)) (AUnit r2) :: (u ++ v) ++
     EvCall j (CDevGetUser (vv_issuer q') (vv_user_code q')) (ADev (SOk sj)) :: f2)%list).
  { rewrite Hf, Hv, Hu1. list_eq. }
  destruct (split_at _ _ _ _ _ _ _ _ Hf') as (wm & o & w1 & A & B & C).
  pose proof (devu_written E _ _ _ _ _ _ _ B eq_refl I9) as Hnone.
  destruct (wtrace_at _ _ _ _ _ _ _ _ C) as (wr & o' & w1' & A' & B' & C').
  apply read_devu in B' as (-> & ex & B' & _). rewrite Hk in B'.
  destruct (devu_prov E _ _ _ _ _ A' B') as [X|(k1 & k & c & a & k2 & wk & Huv & K1 & K2)];
    [cbn in Hnone; congruence|].
  assert (Hg : history E w xs = ((e1 ++ EvCall i (CDevDel (vv_issuer q) (vv_user_code q)) (AUnit r2) :: k1) ++
     EvCall k c a :: (k2 ++ EvCall j (CDevGetUser (vv_issuer q') (vv_user_code q')) (ADev (SOk sj)) :: f2))%list).
  { rewrite Hf', Huv. list_eq. }
  assert (Hstamp : w_stamp wk = w_stamp w).
  { apply wtrace_const in A as (_ & _ & A). apply exec_const in B as (_ & _ & _ & B).
    apply wtrace_const in K1 as (_ & _ & K1). congruence. }
  destruct (write_reason _ _ _ _ _ _ _ _ Hg) as (r & R1 & R2).
  destruct c as [| | | | | | | | | | | | | | | | | | ir user_code sr|iv uv sv| | | | | |]; cbn in K2; try discriminate.
  - injection K2 as K2 K3 _. destruct R2 as (dq & c & dc & -> & <- & _ & _ & Hsr).
    eexists _, _, k, dq, user_code, sr, a. split; [exact Hg|]. split; [exact R1|].
    split.
    { rewrite <- K2, Hstamp. destruct (Hst (w_now wk) sr) as (exp & st & _ & Hs). rewrite Hs, Hsr. reflexivity. }
    split.
    + destruct (trace_history E w xs) as (sy & Ht & _). rewrite He in Ht.
      destruct (call_started _ _ _ _ _ _ _ _ Ht) as (r' & q0 & S1 & _).
      assert (r' = RDevValidate (Some q)) as ->.
      { destruct (trace_history E w xs) as (sy' & Ht' & _).
        eapply start_unique; [exact Ht'| |].
        - rewrite He. apply in_or_app; left; exact S1.
        - rewrite Hh. apply in_or_app; left; exact Hi1. }
      apply in_or_app; left; exact S1.
    + destruct (trace_history E w xs) as (sy & Ht & _).
      assert (Hd : In (EvDone j (Done (PDevValidate res'))) (history E w xs)) by (rewrite Hh; apply in_or_app; auto).
      rewrite Hf' in Hd. apply in_or_app; right.
      assert (Hnot : ~ In (EvDone j (Done (PDevValidate res'))) f1).
      { intros X. rewrite Hf in Ht. pose proof (done_earlier _ _ _ _ _ _ _ Ht X) as Hn.
        cbn in Hn. rewrite Nat.eqb_refl in Hn. discriminate. }
      apply in_app_or in Hd as [Hd|[Hd|Hd]]; [|discriminate|].
      { exfalso. apply Hnot. rewrite Hv, Hu1. apply in_or_app; left. apply in_or_app; left; exact Hd. }
      apply in_app_or in Hd as [Hd|Hd].
      { exfalso. apply Hnot. rewrite Hv, Hu1. apply in_app_or in Hd as [Hd|Hd].
        - apply in_or_app; left. apply in_or_app; right. right. exact Hd.
        - apply in_or_app; right; exact Hd. }
      exact Hd.
  - injection K2 as _ K3 _. destruct R2 as (q0 & s2 & t & _ & _ & _ & _ & _ & _ & _ & Hsv & _).
    rewrite Hsv in K3. rewrite <- K3 in J7. discriminate.
Qed.

(** Two approvals at the same time can both succeed, for different subjects: the device
    gets a token for the one that was stored last. *)
Definition approval_by (sub : string) : request := RDevValidate (Some (mkDevVal iss "user-1" sub)).
Definition x_approve2 : list sched :=
  (full 0 devreq [ok; say "device-1"; say "user-1"; ok] ++
   [SNew (approval_by "alice"); SNew (approval_by "bob"); SStep 1 ok; SStep 2 ok] ++
   [SStep 1 ok; SStep 1 ok; SStep 1 ok; SStep 1 ok; SStep 2 ok; SStep 2 ok; SStep 2 ok; SStep 2 ok] ++
   full 3 (RToken (Some (pollreq webapp "device-1"))) ([ok; ok; ok] ++ os_tok "id-1" "at-1" ++ os_tok "id-2" "rt-1"))%list.

Lemma C90_approved_once_refuted_proof :
  exists E w xs ra rb tres t m,
    blank w /\ registry_ok w /\ no_faults xs /\ stamp_ok w /\
    answered (history E w xs) 0 devreq (PDevAuthorize (mkDevRes false None "device-1" "user-1" 120 5 iss)) /\
    answered (history E w xs) 1 (approval_by "alice") (PDevValidate ra) /\ vr_err ra = false /\
    answered (history E w xs) 2 (approval_by "bob") (PDevValidate rb) /\ vr_err rb = false /\
    answered (history E w xs) 3 (RToken (Some (pollreq webapp "device-1"))) (PToken tres) /\
    tr_at tres = Some t /\ t_meta t = Some m /\ m_subject m = "bob"%string /\
    (* and there were no other requests *)
    List.length (filter (fun e => match e with EvStart _ _ => true | _ => false end) (history E w xs)) = 4.
Proof.
  exists demo_ext, w0s, x_approve2. do 5 eexists.
  split; [apply blank_w0s|]. split; [exact registry_demo|].
  split; [repeat (constructor; [exact I || reflexivity|]); constructor|]. split; [apply stamp_w0s|].
  split; [demo_ans|].
  split; [demo_ans|]. split; [reflexivity|]. split; [demo_ans|]. split; [reflexivity|].
  split; [demo_ans|]. do 3 (split; [reflexivity|]).
  vm_compute. reflexivity.
Qed.

(** ** C91 *)

Lemma C91_store_holds_hashes_proof : forall E w xs k t,
  no_tokens w ->
  (w_tid (final E w xs) k = Some t \/ w_tval (final E w xs) k = Some t) ->
  exists i iss t0 a, In (EvCall i (CTokCreate iss t0) a) (history E w xs) /\
    t_value t = tok_key E iss (t_value t0) /\ t_id t = t_id t0 /\ t_meta t = t_meta t0.
Proof.
  intros E w xs k t Hn Hk.
  pose proof (tok_inv E _ _ _ Hn (history_wtrace E w xs)) as [I1 I2].
  assert (D : tdesc E (history E w xs) t) by (destruct Hk as [Hk|Hk]; [apply (I1 _ _ Hk)|apply (I2 _ _ Hk)]).
  destruct D as (h1 & i & iss & t0 & a & h2 & Hh & D).
  exists i, iss, t0, a. split; [rewrite Hh; apply in_or_app; right; left; reflexivity|].
  destruct D as [->|[-> _]]; repeat split; reflexivity.
Qed.
