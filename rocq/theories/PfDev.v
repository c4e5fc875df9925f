(** * Device grant: proofs *)

From Verif Require Export PfToken2.

Section Dev.
Context (E : ext) (w : world) (xs : list sched).
Notation h := (history E w xs).

(** A device session that was read: how it was written last. *)
Lemma devd_origin h1 i issuer code s h2 :
  blank w -> h = (h1 ++ EvCall i (CDevGetDev issuer code) (ADev (SOk s)) :: h2)%list ->
  exists k1 k c a k2 wm, h1 = (k1 ++ EvCall k c a :: k2)%list /\ wtrace E w k1 wm /\
    exists e, wr_devd E wm c = Some (device_key E issuer code, Some (s, e)).
Proof.
  intros (_ & _ & _ & _ & Hb & _) Hh. destruct (split_at _ _ _ _ _ _ _ _ Hh) as (wm & o & w1 & A & B & _).
  apply read_devd in B as (-> & e & B & Hle).
  destruct (devd_prov E _ _ _ _ _ A B) as [X|(k1 & k & c & a & k2 & wk & -> & K1 & K2)];
    [rewrite Hb in X; discriminate|].
  exists k1, k, c, a, k2, wk. eauto.
Qed.

Lemma devu_origin h1 i issuer code s h2 :
  blank w -> h = (h1 ++ EvCall i (CDevGetUser issuer code) (ADev (SOk s)) :: h2)%list ->
  exists k1 k c a k2 wm, h1 = (k1 ++ EvCall k c a :: k2)%list /\ wtrace E w k1 wm /\
    exists e, wr_devu E wm c = Some (user_key E issuer code, Some (s, e)).
Proof.
  intros (_ & _ & _ & Hb & _) Hh. destruct (split_at _ _ _ _ _ _ _ _ Hh) as (wm & o & w1 & A & B & _).
  apply read_devu in B as (-> & e & B & Hle).
  destruct (devu_prov E _ _ _ _ _ A B) as [X|(k1 & k & c & a & k2 & wk & -> & K1 & K2)];
    [rewrite Hb in X; discriminate|].
  exists k1, k, c, a, k2, wk. eauto.
Qed.

Lemma stamp_at k1 wm : wtrace E w k1 wm -> w_stamp wm = w_stamp w.
Proof. intros A. apply wtrace_const in A. tauto. Qed.

(** A pending session that is read was registered by a device authorization request. *)
Lemma pending_origin h1 i issuer code s h2 :
  blank w -> h = (h1 ++ EvCall i (CDevGetUser issuer code) (ADev (SOk s)) :: h2)%list ->
  ds_status s = DsPending ->
  exists d dq user_code s0 a t c, In (EvStart d (RDevAuthorize (Some dq))) h1 /\
    In (EvCall d (CDevReg (dr_issuer dq) user_code s0) a) h1 /\
    (exists g1 g2, h1 = (g1 ++ EvCall d (CDevReg (dr_issuer dq) user_code s0) a :: g2)%list /\ t = clock w g1) /\
    s = w_stamp w t s0 /\ user_key E (ds_issuer s) user_code = user_key E issuer code /\
    s0 = mkDev (Some c) (dr_issuer dq) 0 (Some dq) DsUnspecified (ds_device_code s0) None (dr_scope dq) (dr_audience dq).
Proof.
  intros Hb Hh Hs. destruct (devu_origin _ _ _ _ _ _ Hb Hh) as (k1 & k & c & a & k2 & wm & -> & A & e & B).
  rewrite <- app_assoc in Hh. cbn in Hh.
  destruct (write_reason _ _ _ _ _ _ _ _ Hh) as (r & R1 & R2).
  destruct c as [| | | | | | | | | | | | | | | | | | ir user_code sr|iv uv sv| | | | | |]; cbn in B; try discriminate.
  - (* registered *)
    injection B as B1 B2 _. destruct R2 as (dq & c & dc & -> & <- & _ & _ & ->).
    rewrite (stamp_at _ _ A) in B1, B2.
    exists k, dq, user_code. do 3 eexists. exists c.
    split; [apply in_or_app; left; exact R1|].
    split; [apply in_or_app; right; left; reflexivity|].
    split; [do 2 eexists; split; [reflexivity|apply (wtrace_now _ _ _ _ A)]|]. rewrite <- B2. split; [reflexivity|].
    split; [exact B1|]. reflexivity.
  - injection B as B1 <- _. destruct R2 as (q & s2 & t & -> & <- & <- & _ & _ & _ & _ & -> & _). discriminate.
Qed.

(** A validated session that is read was approved. *)
Lemma validated_origin h1 i issuer code s h2 :
  blank w -> stamp_ok w ->
  h = (h1 ++ EvCall i (CDevGetDev issuer code) (ADev (SOk s)) :: h2)%list -> ds_status s = DsValidated ->
  exists dq subject c, device_approved E h1 issuer code dq subject (ds_expires_at s) /\
    ds_subject s = Some subject /\ ds_request s = Some dq /\ ds_client s = Some c /\ ds_scope s = dr_scope dq /\
    subject <> ""%string /\
    exists t s0, ds_status (w_stamp w t s0) = DsPending /\ ds_status s0 = DsUnspecified.
Proof.
  intros Hb Hst Hh Hs. destruct (devd_origin _ _ _ _ _ _ Hb Hh) as (k1 & k & c & a & k2 & wm & -> & A & e & B).
  rewrite <- app_assoc in Hh. cbn in Hh.
  destruct (write_reason _ _ _ _ _ _ _ _ Hh) as (r & R1 & R2).
  destruct c as [| | | | | | | | | | | | | | | | | | ir user_code sr|iv uv sv| | | | | |]; cbn in B; try discriminate.
  - injection B as B1 B2 _. destruct R2 as (dq & c & dc & -> & <- & _ & _ & ->).
    rewrite (stamp_at _ _ A) in B2.
    destruct (Hst (w_now wm) (mkDev (Some c) (dr_issuer dq) 0 (Some dq) DsUnspecified dc None (dr_scope dq) (dr_audience dq)))
      as (exp & st & Hx & Hy). rewrite Hy in B2. subst s. cbn in Hs, Hx. destruct Hx; congruence.
  - injection B as B1 <- _. destruct R2 as (q & s0 & t & -> & <- & <- & D1 & D2 & Hle & Hp & -> & Hsub).
    apply did_event in D1, D2. pose proof D1 as D1'. apply in_split in D1' as (g1 & g2 & ->).
    rewrite <- app_assoc in Hh. cbn in Hh.
    destruct (pending_origin _ _ _ _ _ _ Hb Hh Hp) as (d & dq & uc & s1 & a1 & t1 & c & P1 & P2 & _ & P3 & P4 & P5).
    destruct (Hst t1 s1) as (exp & st & Hx & Hy). rewrite Hy in P3. rewrite P5 in P3. cbn in P3.
    exists dq, (vv_subject q), c. split; [|].
    + exists d, uc, s1, a1, k, q. do 3 eexists.
      split; [do 2 (apply in_or_app; left); exact P1|].
      split; [do 2 (apply in_or_app; left); exact P2|].
      split; [rewrite <- B1; rewrite P3; reflexivity|].
      split; [apply in_or_app; left; exact R1|]. split; [reflexivity|].
      split; [rewrite <- P4; rewrite P3; reflexivity|].
      split; [apply in_or_app; left; exact D2|]. split; [exact Hle|].
      split; [apply in_or_app; right; left; reflexivity|]. rewrite P3. auto.
    + rewrite P3. cbn. repeat (split; [reflexivity|]). split; [exact Hsub|].
      exists t1, s1. rewrite P5. split; [|reflexivity].
      rewrite P5 in Hy. rewrite Hy. rewrite P3 in Hp. exact Hp.
Qed.

End Dev.

(** A successful device_code request. *)
Lemma device_facts E w xs i req res :
  token_ok (history E w xs) i req res ->
  tq_grant_type req = "urn:ietf:params:oauth:grant-type:device_code"%string ->
  exists code c s dr sub h1 h2,
    tq_grant req = GDeviceCode code /\ client_of w req c /\
    history E w xs = (h1 ++ EvCall i (CDevGetDev (tq_issuer req) code) (ADev (SOk s)) :: h2)%list /\
    during h1 i (RToken (Some req)) /\
    ds_request s = Some dr /\ dr_client_id dr = cl_id c /\ ds_status s = DsValidated /\ ds_subject s = Some sub /\
    (unix (clock w h1) <= ds_expires_at s)%N /\ tr_at res <> None /\
    (forall t, In t (tokens_of res) -> exists m, t_meta t = Some m /\ m_issuer m = tq_issuer req /\
       m_subject m = sub /\ m_client_id m = cl_id c /\ m_scope m = given (ds_scope s) /\ t_cnf t = tq_cnf req) /\
    (tr_rt res <> None -> asks E (given (ds_scope s)) "offline_access").
Proof.
  intros Hok Hgt.
  destruct (token_ok_client _ _ _ _ _ _ Hok) as (auth & c & tr' & H1 & H2 & H3 & H4 & H5 & H6 & H7).
  pose proof (matches_type _ _ H5) as M. destruct (tq_grant req) eqn:Hg;
    try (exfalso; rewrite Hgt in H5; discriminate H5).
  pose proof (dispatch_grant _ _ _ _ _ H6 ltac:(rewrite Hg; exact H5)) as D. rewrite Hg in D. destruct D as [_ D].
  destruct (device_code_ok _ _ _ _ _ D H7)
    as (code & s & dr & dc & sub & t0 & t & id & v & r & tra & R1 & R2 & R3 & R4 & R5 & R6 & R7 & R8 & R9 & R10 & R11 & R12 & R13 & R14).
  rewrite R13 in H3.
  destruct (calls_two _ _ _ _ _ _ _ _ _ H3) as (h1 & h2 & h3 & Hh & Hc3).
  exists code, c, s, dr, sub, h1. eexists.
  split; [rewrite Hg in R1; exact R1|]. split; [exists auth; auto|]. split; [exact Hh|].
  split; [unfold during; eapply started_before; [exact Hh|apply Hok]|].
  do 4 (split; [assumption|]). split.
  { assert (X : t0 = clock w (h1 ++ EvCall i (CDevGetDev (tq_issuer req) code) (ADev (SOk s)) :: h2)%list).
    { eapply now_at with (h2 := h3). rewrite Hh. list_eq. }
    etransitivity; [|exact R8]. apply unix_mono. rewrite X. apply clock_app. }
  assert (Hgi : opt_str (ds_scope s) = given (ds_scope s)) by (destruct (ds_scope s); reflexivity).
  rewrite Hgi in R14. destruct R14 as [(-> & -> & Hno)|(Hoff & t2 & id2 & v2 & r2 & V1 & V2 & V3 & ->)].
  - split; [discriminate|]. split; [|intros X; exfalso; apply X; reflexivity].
    intros t' [<-|[]]. eexists. split; [reflexivity|]. auto 10.
  - split; [discriminate|]. split; [|auto].
    intros t' [<-|[<-|[]]]; eexists; (split; [reflexivity|]); auto 10.
Qed.

(** ** C14 *)

Lemma C14_device_needs_approval_proof : forall E w xs i req res,
  blank w -> registry_ok w -> stamp_ok w -> token_ok (history E w xs) i req res ->
  tq_grant_type req = "urn:ietf:params:oauth:grant-type:device_code"%string ->
  exists code dq subject expiry h1 h2,
    tq_grant req = GDeviceCode code /\
    history E w xs = (h1 ++ h2)%list /\ during h1 i (RToken (Some req)) /\
    device_approved E h1 (tq_issuer req) code dq subject expiry /\
    (unix (clock w h1) <= expiry)%N /\
    by_client req (dr_client_id dq) /\ tr_at res <> None /\
    (forall t, In t (tokens_of res) -> exists m, t_meta t = Some m /\ m_issuer m = tq_issuer req /\
       m_subject m = subject /\ by_client req (m_client_id m) /\ m_scope m = given (dr_scope dq) /\
       t_cnf t = tq_cnf req) /\
    (tr_rt res <> None -> asks E (given (dr_scope dq)) "offline_access").
Proof.
  intros E w xs i req res Hb Hreg Hst Hok Hgt.
  destruct (device_facts _ _ _ _ _ _ Hok Hgt) as (code & c & s & dr & sub & h1 & h2 &
    F1 & F2 & F3 & F4 & F5 & F6 & F7 & F8 & F9 & F10 & F11 & F12).
  destruct (validated_origin _ _ _ _ _ _ _ _ _ Hb Hst F3 F7) as (dq & subject & c' & V1 & V2 & V3 & V4 & V5 & _).
  rewrite V2 in F8. injection F8 as ->. rewrite V3 in F5. injection F5 as ->. rewrite V5 in F11, F12.
  pose proof (client_of_id _ _ _ Hreg F2) as Hby.
  exists code, dr, sub, (ds_expires_at s), h1. eexists.
  split; [exact F1|]. split; [exact F3|]. split; [exact F4|]. split; [exact V1|]. split; [exact F9|].
  split; [rewrite F6; exact Hby|]. split; [exact F10|]. split; [|exact F12].
  intros t Ht. destruct (F11 t Ht) as (m & M1 & M2 & M3 & M4 & M5 & M6). exists m. rewrite M4. auto 10.
Qed.
