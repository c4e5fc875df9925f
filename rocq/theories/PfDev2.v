(** * Device grant: what approval leads to *)

From Verif Require Export PfDev.

(** ** C15 *)

(** With the in-memory store no device session can ever be approved. *)
Lemma C15_in_memory_never_refuted_proof : forall E w xs,
  blank w -> (forall t s, w_stamp w t s = s) ->
  (forall k q res, answered (history E w xs) k (RDevValidate (Some q)) (PDevValidate res) -> vr_err res = true) /\
  (forall i req res, token_ok (history E w xs) i req res ->
     tq_grant_type req <> "urn:ietf:params:oauth:grant-type:device_code"%string).
Proof.
  intros E w xs Hb Hst. split.
  - intros k q res Ha. destruct (vr_err res) eqn:He; auto. exfalso.
    apply answered_runs in Ha. cbn in Ha. apply reach_pmap_ret in Ha as (res' & X & Ha). injection X as <-.
    destruct (dev_validate_ok _ _ _ Ha He) as (s & dr & dc & t & r1 & r2 & _ & _ & _ & _ & _ & _ & Hp & _ & _ & Htr & _).
    assert (Hin : In (EvCall k (CDevGetUser (vv_issuer q) (vv_user_code q)) (ADev (SOk s))) (history E w xs)).
    { apply in_calls_of. rewrite Htr. left; auto. }
    apply in_split in Hin as (h1 & h2 & Hh).
    destruct (pending_origin _ _ _ _ _ _ _ _ _ Hb Hh Hp) as (d & dq & uc & s1 & a1 & t1 & c & _ & _ & _ & P3 & _ & P5).
    rewrite Hst in P3. subst s1. rewrite P5 in Hp. discriminate.
  - intros i req res Hok Hgt.
    destruct (device_facts _ _ _ _ _ _ Hok Hgt) as (code & c & s & dr & sub & h1 & h2 &
      F1 & F2 & F3 & F4 & F5 & F6 & F7 & _).
    assert (Hs : stamp_ok w).
    { intros t s'. exists (ds_expires_at s'), (ds_status s'). split; auto. rewrite Hst. destruct s'; reflexivity. }
    destruct (validated_origin _ _ _ _ _ _ _ _ _ Hb Hs F3 F7) as (dq & subject & c' & _ & _ & _ & _ & _ & _ & t & s0 & X & Y).
    rewrite Hst in X. congruence.
Qed.

(** A device asks for codes, alice approves at once, the device polls. *)
Definition devreq : request := RDevAuthorize (Some (mkDevReq iss "app" (Some all_scope) None)).
Definition approval : request := RDevValidate (Some (mkDevVal iss "user-1" "alice")).
Definition x_device : list sched :=
  (full 0 devreq [ok; say "device-1"; say "user-1"; ok] ++
   full 1 approval [ok; ok; ok; ok] ++
   full 2 (RToken (Some (pollreq webapp "device-1"))) ([ok; ok; ok] ++ os_tok "id-1" "at-1" ++ os_tok "id-2" "rt-1"))%list.

Lemma C15_device_flow_refuted_proof :
  exists E w xs dres vres tres,
    blank w /\ registry_ok w /\ no_faults xs /\ (forall t s, w_stamp w t s = s) /\ elapsed (history E w xs) = 0%N /\
    answered (history E w xs) 0 devreq (PDevAuthorize dres) /\ dv_err dres = false /\
    dv_device_code dres = "device-1"%string /\ dv_user_code dres = "user-1"%string /\
    answered (history E w xs) 1 approval (PDevValidate vres) /\
    answered (history E w xs) 2 (RToken (Some (pollreq webapp "device-1"))) (PToken tres) /\ tr_err tres = true.
Proof.
  exists demo_ext, w0, x_device. do 3 eexists.
  split; [apply blank_w0|]. split; [apply registry_demo|].
  split; [repeat (constructor; [exact I || reflexivity|]); constructor|]. split; [reflexivity|].
  split; [vm_compute; reflexivity|].
  split; [demo_ans|]. do 3 (split; [reflexivity|]). split; [demo_ans|]. split; [demo_ans|]. reflexivity.
Qed.

(** ** C16 *)

Definition x_poll2 : list sched :=
  (x_device ++
   full 3 (RToken (Some (pollreq webapp "device-1"))) ([ok; ok; ok] ++ os_tok "id-3" "at-2" ++ os_tok "id-4" "rt-2"))%list.

Lemma C16_device_code_once_refuted_proof :
  exists E w xs req res1 res2 t1 t2 code,
    blank w /\ registry_ok w /\ no_faults xs /\ stamp_ok w /\
    tq_grant req = GDeviceCode code /\
    token_ok (history E w xs) 2 req res1 /\ token_ok (history E w xs) 3 req res2 /\
    tr_at res1 = Some t1 /\ tr_at res2 = Some t2 /\ t_value t1 <> t_value t2.
Proof.
  exists demo_ext, w0s, x_poll2, (pollreq webapp "device-1"). do 4 eexists. exists "device-1"%string.
  split; [apply blank_w0s|]. split; [exact registry_demo|].
  split; [repeat (constructor; [exact I || reflexivity|]); constructor|]. split; [apply stamp_w0s|].
  split; [reflexivity|]. split; [demo_ok|]. split; [demo_ok|]. split; [reflexivity|]. split; [reflexivity|].
  discriminate.
Qed.

(** ** C15, for a store that fills in status and expiry *)

Lemma devd_present E w h w' k : wtrace E w h w' -> w_devd w k <> None -> w_devd w' k <> None.
Proof.
  intros Ht H0 Hn. revert H0.
  induction Ht as [|w i r h w' Ht IH|w i o h w' Ht IH|w d h w' Ht IH|w i c a o w1 h w' Hx Ht IH]; intros H0; auto.
  apply IH; auto. pose proof (devd_exec E _ _ _ _ _ Hx) as Hm.
  destruct (wr_devd E w c) as [[k' v']|] eqn:Hw; [|rewrite Hm; auto].
  destruct Hm as [->|[-> _]]; auto.
  destruct (upd_cases (w_devd w) k' v' k) as [[-> ->]|[_ ->]]; auto.
  destruct c; cbn in Hw; try discriminate; injection Hw as _ <-; discriminate.
Qed.

(** The calls of a request that starts in [h1] come after [h0]. *)
Lemma later_prefix E w xs h0 h1 d r e1 c a e2 :
  history E w xs = (h0 ++ h1)%list -> In (EvStart d r) h1 ->
  history E w xs = (e1 ++ EvCall d c a :: e2)%list -> exists u, e1 = (h0 ++ u)%list.
Proof.
  intros Hh Hst Hs. destruct (trace_history E w xs) as (sy & Ht & _). rewrite Hh in Ht.
  pose proof (started_later _ _ _ _ _ _ _ Ht Hst) as Hl.
  pose proof Hs as Hs'. rewrite Hh in Hs'. apply app_eq_app in Hs' as (u & [[X Y]|[X Y]]).
  - destruct u as [|z u].
    + rewrite app_nil_r in X. exists []. rewrite app_nil_r. auto.
    + exfalso. cbn in Y. injection Y as <- _.
      assert (Hin : In (EvCall d c a) h0) by (rewrite X; apply in_or_app; right; left; auto).
      apply in_calls_of in Hin. rewrite Hl in Hin. destruct Hin.
  - exists u. exact X.
Qed.

Section Live.
Context (E : ext) (w : world) (xs : list sched) (h0 h1 : list event) (d : nat) (dq : dev_request) (dres : dev_response).
Notation h := (history E w xs).
Context (Hf : no_faults xs) (Hb : blank w) (Hst : w_stamp w = stamping 120).
Context (Hh : h = (h0 ++ h1)%list) (Hd0 : In (EvStart d (RDevAuthorize (Some dq))) h1).
Context (Hap : device_codes_apart E h) (He : dv_err dres = false).
Context (Hshort : (elapsed h1 <= 120 * second)%N).
Context (Hdd : In (EvDone d (Done (PDevAuthorize dres))) h).

Local Definition sd (c : client) : devsession :=
  mkDev (Some c) (dr_issuer dq) 0 (Some dq) DsUnspecified (dv_device_code dres) None (dr_scope dq) (dr_audience dq).

Lemma d_calls : exists c n, calls_of d h =
  [(CClientGet (dr_client_id dq), AClient (SOk c)); (CGenDev (dr_issuer dq), AGen (Some (dv_device_code dres)));
   (CGenUser (dr_issuer dq), AGen (Some (dv_user_code dres)));
   (CDevReg (dr_issuer dq) (dv_user_code dres) (sd c), ANum n)].
Proof using Hh Hd0 He Hdd.
  assert (Ha : answered h d (RDevAuthorize (Some dq)) (PDevAuthorize dres)).
  { split; auto. rewrite Hh. apply in_or_app; auto. }
  apply answered_runs in Ha. cbn in Ha. apply reach_pmap_ret in Ha as (res' & X & Ha). injection X as <-.
  destruct (dev_authorize_ok _ _ _ _ Ha He) as (c & dc & uc & n & _ & _ & _ & _ & Htr & Hres).
  exists c, n. rewrite Htr, Hres. unfold sd. rewrite Hres. reflexivity.
Qed.

Lemma d_issuer : dr_issuer dq <> ""%string.
Proof using Hh Hd0 He Hdd.
  assert (Ha : answered h d (RDevAuthorize (Some dq)) (PDevAuthorize dres)).
  { split; auto. rewrite Hh. apply in_or_app; auto. }
  apply answered_runs in Ha. cbn in Ha. apply reach_pmap_ret in Ha as (res' & X & Ha). injection X as <-.
  destruct (dev_authorize_ok _ _ _ _ Ha He) as (c & dc & uc & n & X & _). exact X.
Qed.

(** Any session approved in d's slot is d's. *)
Lemma val_shape A k iv uv s a B :
  h = (A ++ EvCall k (CDevVal iv uv s) a :: B)%list ->
  device_key E (ds_issuer s) (ds_device_code s) = device_key E (dr_issuer dq) (dv_device_code dres) ->
  exists c t sub, s = approve (stamping 120 t (sd c)) sub /\ (clock w h0 <= t)%N.
Proof using Hh Hd0 He Hap Hb Hst Hdd.
  intros HA Hk. destruct (write_reason _ _ _ _ _ _ _ _ HA) as (r & R1 & R2).
  destruct R2 as (q & s0 & t & -> & <- & <- & D1 & D2 & Hle & Hp & -> & Hsub).
  apply did_event in D1. apply in_split in D1 as (g1 & g2 & ->).
  rewrite <- app_assoc in HA. cbn in HA.
  destruct (pending_origin _ _ _ _ _ _ _ _ _ Hb HA Hp) as (d2 & dq2 & uc & s1 & a1 & t1 & c & P1 & P2 & (e1 & e2 & P6 & P7) & P3 & P4 & P5).
  destruct d_calls as (c' & n & Hc).
  assert (Hreg : In (EvCall d (CDevReg (dr_issuer dq) (dv_user_code dres) (sd c')) (ANum n)) h).
  { apply in_calls_of. rewrite Hc. cbn. auto. }
  assert (Hreg2 : In (EvCall d2 (CDevReg (dr_issuer dq2) uc s1) a1) h).
  { rewrite HA. apply in_or_app; left; exact P2. }
  assert (d2 = d) as ->.
  { eapply (Hap _ _ _ _ _ _ _ _ _ _ Hreg2 Hreg). right. rewrite P3, Hst in Hk. exact Hk. }
  pose proof Hreg2 as Hreg3. apply in_calls_of in Hreg3. rewrite Hc in Hreg3.
  destruct Hreg3 as [X|[X|[X|[X|[]]]]]; try discriminate. injection X as _ _ <- _.
  exists c', t1, (vv_subject q). rewrite P3, Hst. split; [reflexivity|].
  (* the registration happens in h1 *)
  assert (Hsp : h = (e1 ++ EvCall d (CDevReg (dr_issuer dq2) uc (sd c')) a1 ::
     (e2 ++ EvCall k (CDevGetUser (vv_issuer q) (vv_user_code q)) (ADev (SOk s0)) ::
      (g2 ++ EvCall k (CDevVal (vv_issuer q) (vv_user_code q) (approve s0 (vv_subject q))) a :: B)))%list).
  { rewrite HA, P6. list_eq. }
  rewrite P7.
  destruct (later_prefix _ _ _ _ _ _ _ _ _ _ _ Hh Hd0 Hsp) as (u & ->). apply clock_app.
Qed.

(** The session as read by a poll after the approval. *)
Lemma poll_read A k iv uv s rv B i r C :
  h = (A ++ EvCall k (CDevVal iv uv s) (AUnit rv) :: B ++
       EvCall i (CDevGetDev (dr_issuer dq) (dv_device_code dres)) (ADev r) :: C)%list ->
  device_key E (ds_issuer s) (ds_device_code s) = device_key E (dr_issuer dq) (dv_device_code dres) ->
  (forall i u s a, ~ In (EvCall d (CDevReg i u s) a) B) -> (exists u, A = (h0 ++ u)%list) ->
  exists c t sub, r = SOk (approve (stamping 120 t (sd c)) sub) /\ (clock w h0 <= t)%N.
Proof using Hh Hd0 He Hap Hb Hst Hdd Hf Hshort.
  intros HA Hk HnB (u & Hu).
  pose proof (history_ftrace E w xs Hf) as Ht. rewrite HA in Ht.
  destruct (ftrace_at _ _ _ _ _ _ _ _ Ht) as (wm & o & w1 & T1 & T2 & T3 & T4).
  pose proof (full_write _ _ _ _ T3 _ _ T2) as Hok. cbn in Hok.
  destruct Hok as [Hok|(x & y & X & _)]; [|discriminate].
  pose proof (devd_written E _ _ _ _ _ _ _ T2 eq_refl Hok) as Hw.
  destruct (ftrace_at _ _ _ _ _ _ _ _ T4) as (wm2 & o2 & w2 & T5 & T6 & T7 & T8).
  apply ftrace_wtrace in T1, T5.
  cbn in T6. rewrite T7 in T6. cbn [answer_read] in T6. injection T6 as Hr _.
  assert (Hnow2 : w_now wm2 = clock w (A ++ EvCall k (CDevVal iv uv s) (AUnit rv) :: B)%list).
  { apply (wtrace_now E w). eapply wtrace_join; [exact T1|]. econstructor; [exact T2|exact T5]. }
  assert (Hlate : (w_now wm2 <= clock w h0 + 120 * second)%N).
  { rewrite Hnow2. etransitivity; [apply (clock_app w _ (EvCall i (CDevGetDev (dr_issuer dq) (dv_device_code dres)) (ADev r) :: C)%list)|].
    replace ((A ++ EvCall k (CDevVal iv uv s) (AUnit rv) :: B) ++
       EvCall i (CDevGetDev (dr_issuer dq) (dv_device_code dres)) (ADev r) :: C)%list with (h0 ++ h1)%list.
    - unfold clock. rewrite elapsed_app. lia.
    - rewrite <- Hh, HA. list_eq. }
  pose proof (devd_present _ _ _ _ (device_key E (dr_issuer dq) (dv_device_code dres)) T5) as Hpr.
  rewrite <- Hk in Hpr at 1. rewrite Hw in Hpr. specialize (Hpr ltac:(discriminate)).
  destruct (w_devd wm2 (device_key E (dr_issuer dq) (dv_device_code dres))) as [[s' e']|] eqn:Hv; [|congruence].
  assert (Hgoal : (clock w h0 + 120 * second <= e')%N /\
    exists c t sub, s' = approve (stamping 120 t (sd c)) sub /\ (clock w h0 <= t)%N).
  { destruct (devd_prov E _ _ _ _ _ T5 Hv) as [X|(b1 & j & c & a & b2 & wk & -> & K1 & K2)].
    - rewrite <- Hk, Hw in X. injection X as <- <-. split.
      + rewrite (wtrace_now _ _ _ _ T1). fold (clock w A). rewrite Hu.
        pose proof (clock_app w h0 u). unfold device_ttl. lia.
      + eapply val_shape; [|exact Hk]. rewrite HA. reflexivity.
    - destruct c as [| | | | | | | | | | | | | | | | | | ir user_code sr|iv2 uv2 sv| | | | | |]; cbn in K2; try discriminate.
      + exfalso. injection K2 as K3 K4 _.
        assert (Hsp : h = ((A ++ EvCall k (CDevVal iv uv s) (AUnit rv) :: b1) ++ EvCall j (CDevReg ir user_code sr) a ::
            (b2 ++ EvCall i (CDevGetDev (dr_issuer dq) (dv_device_code dres)) (ADev r) :: C))%list)
          by (rewrite HA; list_eq).
        assert (Hstw : w_stamp wk = stamping 120).
        { rewrite <- Hst. apply (stamp_at E w (A ++ EvCall k (CDevVal iv uv s) (AUnit rv) :: b1)%list). eapply wtrace_join; [exact T1|]. econstructor; [exact T2|exact K1]. }
        rewrite Hstw in K3. destruct d_calls as (c' & n & Hc).
        assert (j = d) as ->.
        { eapply (Hap j ir user_code sr a d).
          - rewrite Hsp. apply in_or_app; right; left; reflexivity.
          - apply in_calls_of. rewrite Hc. cbn. auto.
          - right. exact K3. }
        eapply HnB. apply in_or_app; right; left; reflexivity.
      + injection K2 as K3 <- <-.
        assert (Hsp : h = ((A ++ EvCall k (CDevVal iv uv s) (AUnit rv) :: b1) ++ EvCall j (CDevVal iv2 uv2 sv) a ::
            (b2 ++ EvCall i (CDevGetDev (dr_issuer dq) (dv_device_code dres)) (ADev r) :: C))%list)
          by (rewrite HA; list_eq).
        split.
        * assert (Hnk : w_now wk = clock w (A ++ EvCall k (CDevVal iv uv s) (AUnit rv) :: b1)%list).
          { apply (wtrace_now E w). eapply wtrace_join; [exact T1|]. econstructor; [exact T2|exact K1]. }
          rewrite Hnk, Hu, <- app_assoc. pose proof (clock_app w h0 (u ++ EvCall k (CDevVal iv uv s) (AUnit rv) :: b1)%list).
          unfold device_ttl. lia.
        * eapply val_shape; [exact Hsp|exact K3]. }
  destruct Hgoal as (G1 & c & t & sub & -> & G2). exists c, t, sub. split; [|exact G2].
  rewrite <- Hr. unfold cache_get. rewrite Hv.
  destruct (N.ltb_spec e' (w_now wm2)); [lia|reflexivity].
Qed.

(** The approval of d's user code writes in d's slot. *)
Lemma approval_writes k q vres :
  In (EvStart k (RDevValidate (Some q))) h -> In (EvDone k (Done (PDevValidate vres))) h -> vr_err vres = false ->
  user_key E (vv_issuer q) (vv_user_code q) = user_key E (dr_issuer dq) (dv_user_code dres) ->
  exists c t rv A B,
    h = (A ++ EvCall k (CDevVal (vv_issuer q) (vv_user_code q) (approve (stamping 120 t (sd c)) (vv_subject q))) (AUnit rv) :: B)%list /\
    (forall i u s a, ~ In (EvCall d (CDevReg i u s) a) B).
Proof using Hh Hd0 He Hap Hb Hst Hdd.
  intros K1 K2 Hev Hu. assert (Ha : answered h k (RDevValidate (Some q)) (PDevValidate vres)) by (split; auto).
  apply answered_runs in Ha. cbn in Ha. apply reach_pmap_ret in Ha as (res' & X & Ha). injection X as <-.
  destruct (dev_validate_ok _ _ _ Ha Hev) as (s & dr & dc & t & r1 & r2 & _ & _ & _ & _ & _ & _ & Hp & _ & _ & Htr & _).
  destruct (calls_of_split k h [] _ _ _ Htr) as (a1 & a2 & HA & _ & Htr2).
  destruct (calls_of_split k a2 [_] _ _ _ Htr2) as (a3 & a4 & -> & _ & _).
  destruct (pending_origin _ _ _ _ _ _ _ _ _ Hb HA Hp) as (d2 & dq2 & uc & s1 & b1 & t1 & c & P1 & P2 & _ & P3 & P4 & P5).
  destruct d_calls as (c' & n & Hc).
  assert (Hreg2 : In (EvCall d2 (CDevReg (dr_issuer dq2) uc s1) b1) h).
  { rewrite HA. apply in_or_app; left; exact P2. }
  assert (d2 = d) as ->.
  { eapply (Hap d2 (dr_issuer dq2) uc s1 b1 d (dr_issuer dq) (dv_user_code dres) (sd c') (ANum n)).
    - exact Hreg2.
    - apply in_calls_of. rewrite Hc. cbn. auto.
    - left. rewrite P3, Hst in P4. cbn in P4. rewrite P4. exact Hu. }
  apply in_calls_of in Hreg2. rewrite Hc in Hreg2.
  destruct Hreg2 as [X|[X|[X|[X|[]]]]]; try discriminate. injection X as _ _ <- _.
  exists c', t1, r1, (a1 ++ EvCall k (CDevGetUser (vv_issuer q) (vv_user_code q)) (ADev (SOk s)) :: a3)%list, a4.
  rewrite <- Hst, <- P3. split; [rewrite HA; list_eq|].
  intros i2 u2 s2 b2 Hin. apply in_calls_of in P2, Hin.
  assert (Hc2 : (calls_of d a1 ++ calls_of d [EvCall k (CDevGetUser (vv_issuer q) (vv_user_code q)) (ADev (SOk s))] ++
     calls_of d a3 ++ calls_of d [EvCall k (CDevVal (vv_issuer q) (vv_user_code q) (approve s (vv_subject q))) (AUnit r1)] ++
     calls_of d a4)%list = calls_of d h).
  { rewrite HA. rewrite <- !calls_of_app. f_equal. }
  rewrite Hc in Hc2. apply in_split in P2 as (x1 & x2 & X1). apply in_split in Hin as (x3 & x4 & X2).
  rewrite X1, X2 in Hc2.
  assert (Hcnt := f_equal (fun l => List.length (filter (fun p : call * answer => match fst p with CDevReg _ _ _ => true | _ => false end) l)) Hc2).
  cbn beta in Hcnt. repeat (rewrite ?filter_app, ?app_length in Hcnt; cbn [filter fst List.length] in Hcnt). clear -Hcnt. lia.
Qed.
End Live.

(** An approved session of [dq], valid until [bound]. *)
Definition good_session (dq : dev_request) (bound : N) (s : devsession) : Prop :=
  ds_request s = Some dq /\ (exists dc, ds_client s = Some dc) /\ ds_status s = DsValidated /\
  (exists sub, ds_subject s = Some sub) /\ (bound <= ds_expires_at s)%N.

(** A poll whose storage reads succeed. *)
Definition poll_good (auth : string) (cl : client) (issuer code : string) (dq : dev_request) (bound : N)
    (c : call) (a : answer) : Prop :=
  typed c a /\
  match c, a with
  | CClientGet id, AClient r => id = auth -> r = SOk cl
  | CDevGetDev i' c', ADev r => i' = issuer -> c' = code -> exists s, r = SOk s /\ good_session dq bound s
  | CNow, ATime t => (unix t <= bound)%N
  | (CGenAT _ | CGenRT _), AGen r => exists v, r = Some v /\ v <> ""%string
  | CTokCreate _ _, AUnit r => is_ok r = true
  | _, _ => True
  end.

Lemma poll_ends E auth cl code dq bound req :
  tq_client req = Some auth -> tq_grant req = GDeviceCode code ->
  tq_grant_type req = gt_device -> tq_issuer req <> ""%string -> code <> ""%string -> x_request_uri E (tq_issuer req) = true ->
  listed E (cl_grant_types cl) gt_device -> dr_client_id dq = cl_id cl ->
  ends (poll_good (cl_id auth) cl (tq_issuer req) code dq bound)
    (fun o => match o with Done res => tr_err res = false /\ tr_at res <> None | Crashed => False end)
    (token_svc E (Some req)).
Proof.
  intros H1 H2 H3 H4 H5 H6 H7 H10. apply is_empty_false in H4, H5.
  assert (Hv : validate_request req = None).
  { unfold validate_request. rewrite H1, H2, H3, H4. reflexivity. }
  unfold token_svc. rewrite Hv, H1.
  intros a [Ha1 Ha2]; destruct a; cbn in Ha1; try destruct Ha1. cbn in Ha2. rewrite (Ha2 eq_refl).
  unfold dispatch. rewrite H3. change (String.eqb gt_device gt_cc) with false.
  change (String.eqb gt_device gt_code) with false. change (String.eqb gt_device gt_device) with true. cbv iota zeta.
  unfold device_code. rewrite H2. unfold prologue. rewrite H4, H6. cbn [negb].
  apply has_iff in H7. rewrite H7. cbn [negb]. rewrite H5. clear Ha2.
  intros a [Ha1 Ha2]; destruct a; cbn in Ha1; try destruct Ha1. cbn in Ha2.
  destruct (Ha2 eq_refl eq_refl) as (s & -> & H8 & (dc & H9) & H11 & (sub & H12) & H13).
  rewrite H8, H9, H10, String.eqb_refl. cbn [negb]. clear Ha2.
  intros a [Ha1 Ha2]; destruct a; cbn in Ha1; try destruct Ha1. cbn in Ha2.
  pose proof (N.le_trans _ _ _ Ha2 H13) as Hb. apply N.ltb_ge in Hb. rewrite Hb. rewrite H11, H12. cbv zeta. clear Ha2.
  apply ends_bind. unfold generate_access_token.
  intros a [Ha1 Ha2]; destruct a; cbn in Ha1; try destruct Ha1. clear Ha2.
  intros a [Ha1 Ha2]; destruct a; cbn in Ha1; try destruct Ha1. clear Ha2.
  intros a [Ha1 Ha2]; destruct a; cbn in Ha1; try destruct Ha1. cbn in Ha2. destruct Ha2 as (v & -> & Hv1).
  apply is_empty_false in Hv1. rewrite Hv1.
  intros a [Ha1 Ha2]; destruct a; cbn in Ha1; try destruct Ha1. cbn in Ha2. rewrite Ha2. cbn [ends]. clear Ha2.
  assert (Hdone : forall x y, tr_err (tok (Some x) y) = false /\ tr_at (tok (Some x) y) <> None) by (split; [reflexivity|discriminate]).
  destruct (ds_scope s) as [sc|]; [|apply Hdone].
  destruct (has E (fields sc) scope_offline); [|apply Hdone].
  apply ends_bind. unfold generate_refresh_token.
  intros a [Ha1 Ha2]; destruct a; cbn in Ha1; try destruct Ha1. clear Ha2.
  intros a [Ha1 Ha2]; destruct a; cbn in Ha1; try destruct Ha1. clear Ha2.
  intros a [Ha1 Ha2]; destruct a; cbn in Ha1; try destruct Ha1. cbn in Ha2. destruct Ha2 as (v2 & -> & Hv2).
  apply is_empty_false in Hv2. rewrite Hv2.
  intros a [Ha1 Ha2]; destruct a; cbn in Ha1; try destruct Ha1. cbn in Ha2. rewrite Ha2. cbn [ends].
  apply Hdone.
Qed.

Lemma C15_approved_device_gets_tokens_partial_proof :
  forall E w xs h0 h1 h2 d dq dres k q vres i req c code o,
  blank w -> no_faults xs ->
  (* the store marks new device sessions as pending, valid for 120 s *)
  w_stamp w = stamping 120 ->
  history E w xs = (h0 ++ h1 ++ h2)%list -> (elapsed (h1 ++ h2) <= 120 * second)%N ->
  device_codes_apart E (history E w xs) ->
  (* a device asks for codes, a user approves *)
  answered h1 d (RDevAuthorize (Some dq)) (PDevAuthorize dres) -> dv_err dres = false ->
  answered h1 k (RDevValidate (Some q)) (PDevValidate vres) -> vr_err vres = false ->
  vv_issuer q = dr_issuer dq -> vv_user_code q = dv_user_code dres ->
  (* then the device polls *)
  In (EvStart i (RToken (Some req))) h2 -> In (EvDone i o) h2 ->
  tq_grant_type req = "urn:ietf:params:oauth:grant-type:device_code"%string ->
  tq_grant req = GDeviceCode code -> code = dv_device_code dres -> code <> ""%string ->
  tq_issuer req = dr_issuer dq -> x_request_uri E (tq_issuer req) = true ->
  client_of w req c -> cl_id c = dr_client_id dq -> listed E (cl_grant_types c) "urn:ietf:params:oauth:grant-type:device_code" ->
  generators_work (history E w xs) i ->
  exists res, o = Done (PToken res) /\ tr_err res = false /\ tr_at res <> None.
Proof.
  intros E w xs h0 h1 h2 d dq dres k q vres i req c code o Hb Hf Hst Hh Hsh Hap
    [Hd1 Hd2] Hde [Hk1 Hk2] Hke Hqi Hqu Hi1 Hi2 Hgt Hg -> Hne Hiss Huri (auth & Hc1 & Hc2) Hcid Hl Hgen.
  assert (Hh' : history E w xs = (h0 ++ (h1 ++ h2))%list) by exact Hh.
  assert (Hd1' : In (EvStart d (RDevAuthorize (Some dq))) (h1 ++ h2)%list) by (apply in_or_app; auto).
  assert (Hd2' : In (EvDone d (Done (PDevAuthorize dres))) (history E w xs)) by (rewrite Hh; rewrite !in_app_iff; auto).
  assert (Hk1' : In (EvStart k (RDevValidate (Some q))) (history E w xs)) by (rewrite Hh; rewrite !in_app_iff; auto).
  assert (Hk2' : In (EvDone k (Done (PDevValidate vres))) (history E w xs)) by (rewrite Hh; rewrite !in_app_iff; auto).
  assert (Hi1' : In (EvStart i (RToken (Some req))) (history E w xs)) by (rewrite Hh; rewrite !in_app_iff; auto).
  assert (Hi2' : In (EvDone i o) (history E w xs)) by (rewrite Hh; rewrite !in_app_iff; auto).
  destruct (approval_writes E w xs h0 (h1 ++ h2)%list d dq dres Hb Hst Hh' Hd1' Hap Hde Hd2' k q vres Hk1' Hk2' Hke)
    as (c1 & t1 & rv & A & B & HA & HnB); [congruence|].
  set (sv := approve (stamping 120 t1 (sd dq dres c1)) (vv_subject q)) in *.
  (* k's write is in h1 *)
  assert (Hh3 : history E w xs = ((h0 ++ h1) ++ h2)%list) by (rewrite Hh; list_eq).
  assert (Hk2'' : In (EvDone k (Done (PDevValidate vres))) (h0 ++ h1)%list) by (apply in_or_app; auto).
  destruct (call_in_done _ _ _ _ _ _ _ _ _ _ _ Hh3 Hk2'' HA) as (u & Hu1 & ->).
  assert (HAp : exists u', A = (h0 ++ u')%list).
  { eapply later_prefix; [exact Hh'| |exact HA]. apply in_or_app; left; exact Hk1. }
  (* what poll reads find *)
  assert (Hread : forall rd, In (EvCall i (CDevGetDev (tq_issuer req) (dv_device_code dres)) (ADev rd)) (history E w xs) ->
    exists c' t sub, rd = SOk (approve (stamping 120 t (sd dq dres c')) sub) /\ (clock w h0 <= t)%N).
  { intros rd Hrd. destruct (call_in_later _ _ _ _ _ _ _ _ _ Hh3 Hi1 Hrd) as (l1 & l2 & ->).
    rewrite Hiss in *.
    eapply (poll_read E w xs h0 (h1 ++ l1 ++ EvCall i (CDevGetDev (dr_issuer dq) (dv_device_code dres)) (ADev rd) :: l2)%list
       d dq dres Hf Hb Hst Hh' Hd1' Hap Hde Hsh Hd2' A k (vv_issuer q) (vv_user_code q) sv rv (u ++ l1)%list i rd l2).
    - rewrite HA. list_eq.
    - reflexivity.
    - intros i2 u2 s2 a2 Hin. eapply (HnB i2 u2 s2 a2). apply in_or_app. apply in_app_or in Hin as [Hin|Hin]; auto.
      right. apply in_or_app; auto.
    - exact HAp. }
  (* the program *)
  set (bound := (unix (clock w h0) + 120)%N).
  assert (Hend := ends_history E w xs i (RToken (Some req)) o
     (fun o => match o with Done (PToken res) => tr_err res = false /\ tr_at res <> None | _ => False end)
     (poll_good (cl_id auth) c (tq_issuer req) (dv_device_code dres) dq bound) Hi1' Hi2').
  assert (Hfin : match o with Done (PToken res) => tr_err res = false /\ tr_at res <> None | _ => False end).
  { apply Hend; clear Hend.
    - intros c0 a Hin. split; [eapply history_typed; exact Hin|].
      pose proof Hin as Hin'. apply in_split in Hin' as (l1 & l2 & Hl12).
      pose proof (history_ftrace E w xs Hf) as Ht. rewrite Hl12 in Ht.
      destruct (ftrace_at _ _ _ _ _ _ _ _ Ht) as (wm & oo & w1 & T1 & T2 & T3 & T4). apply ftrace_wtrace in T1.
      destruct c0; auto; destruct a; auto.
      + (* clock *) apply read_now in T2 as [-> _]. unfold bound.
        rewrite (wtrace_now _ _ _ _ T1). fold (clock w l1).
        assert (Hcl : (clock w l1 <= clock w h0 + 120 * second)%N).
        { etransitivity; [apply (clock_app w l1 (EvCall i CNow (ATime (w_now wm)) :: l2)%list)|].
          rewrite <- Hl12, Hh'. unfold clock. rewrite elapsed_app. lia. }
        etransitivity; [apply unix_mono; exact Hcl|]. unfold unix. rewrite N.div_add by discriminate. lia.
      + destruct (Hgen _ _ (or_introl Hin)) as (v & X & Hv). injection X as ->. eauto.
      + destruct (Hgen _ _ (or_intror Hin)) as (v & X & Hv). injection X as ->. eauto.
      + intros ->. cbn in T2. rewrite T3 in T2. cbn in T2. injection T2 as <- _.
        apply wtrace_const in T1 as (X & _). rewrite X, Hc2. reflexivity.
      + intros -> ->. destruct (Hread _ Hin) as (c' & t & sub & -> & Hle). eexists. split; [reflexivity|].
        split; [reflexivity|]. split; [eexists; reflexivity|]. split; [reflexivity|]. split; [eexists; reflexivity|].
        cbn. unfold bound. pose proof (unix_mono _ _ Hle). lia.
      + pose proof (full_write _ _ _ _ T3 _ _ T2) as Hok. cbn in Hok.
        destruct Hok as [Hok|(x & y & X & _)]; [exact Hok|discriminate].
    - cbn [serve]. unfold pmap. apply ends_bind. eapply ends_weaken.
      2: { eapply (poll_ends E auth c _ dq bound req); try eassumption; try congruence.
           rewrite Hiss. eapply (d_issuer E w xs h0 (h1 ++ h2)%list d dq dres); eauto. }
      intros [o'|]; cbn; auto. }
  destruct o as [[res| | | | | | | |]|]; try destruct Hfin. eauto.
Qed.
