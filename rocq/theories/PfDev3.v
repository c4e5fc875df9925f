(** * Device grant: polling before the approval; grants need registration *)

From Verif Require Export PfDev2.

(** ** C78 *)

Lemma grant_type_of req : grant_matches (tq_grant_type req) (tq_grant req) = true ->
  match tq_grant req with
  | GNone => False
  | GAuthorizationCode _ _ _ => tq_grant_type req = gt_code
  | GClientCredentials => tq_grant_type req = gt_cc
  | GDeviceCode _ => tq_grant_type req = gt_device
  | GRefreshToken _ => tq_grant_type req = gt_refresh
  | GTokenExchange _ _ => tq_grant_type req = gt_exchange
  end.
Proof.
  unfold grant_matches. intros H.
  repeat match goal with
  | H : context[if String.eqb (tq_grant_type req) ?g then _ else _] |- _ =>
      destruct (String.eqb_spec (tq_grant_type req) g) as [?|?]
  end; destruct (tq_grant req); try discriminate; auto.
Qed.

Lemma C78_success_needs_registered_grant_proof : forall E w xs i req res,
  registry_ok w -> token_ok (history E w xs) i req res ->
  exists c, client_of w req c /\ by_client req (cl_id c) /\ listed E (cl_grant_types c) (tq_grant_type req).
Proof.
  intros E w xs i req res Hr Hok.
  destruct (token_ok_client _ _ _ _ _ _ Hok) as (auth & c & tr' & H1 & H2 & H3 & H4 & H5 & H6 & H7).
  assert (Hc : client_of w req c) by (exists auth; auto).
  exists c. split; [exact Hc|]. split; [eapply client_of_id; eauto|].
  pose proof (dispatch_grant _ _ _ _ _ H6 H5) as D.
  destruct (tq_grant req) eqn:G; [destruct D|..]; destruct D as [-> D].
  - destruct (authorization_code_ok _ _ _ _ _ D H7) as (s & ar & co & re & ve & rd & tr2 & Hf & _).
    apply (cf_cap _ _ _ _ _ _ _ _ Hf).
  - destruct (client_credentials_ok _ _ _ _ _ D H7) as (_ & _ & Hl & _). exact Hl.
  - destruct (device_code_ok _ _ _ _ _ D H7) as (x1 & x2 & x3 & x4 & x5 & x6 & x7 & x8 & x9 & y1 & y2 & _ & _ & _ & Hl & _). exact Hl.
  - destruct (refresh_token_ok _ _ _ _ _ D H7) as (x1 & x2 & x3 & x4 & x5 & x6 & x7 & x8 & x9 & _ & _ & _ & Hl & _). exact Hl.
  - destruct (token_exchange_ok _ _ _ _ _ D H7) as (x1 & x2 & x3 & x4 & x5 & x6 & x7 & x8 & x9 & y1 & _ & _ & _ & Hl & _). exact Hl.
Qed.

Lemma C78_tokens_need_registered_grant_proof : forall E w xs i iss t a,
  registry_ok w -> In (EvCall i (CTokCreate iss t) a) (history E w xs) ->
  exists req c m, In (EvStart i (RToken (Some req))) (history E w xs) /\ client_of w req c /\ by_client req (cl_id c) /\
    listed E (cl_grant_types c) (tq_grant_type req) /\ t_meta t = Some m /\ m_client_id m = cl_id c.
Proof.
  intros E w xs i iss0 t a Hr Hin. apply in_split in Hin as (h1 & h2 & Hh).
  destruct (write_reason _ _ _ _ _ _ _ _ Hh) as (r & R1 & req & -> & auth & c & m & tm & H1 & H2 & _ & H4 & _ & _ & H7 & _ & _ & H8).
  assert (Hc : client_of w req c).
  { exists auth. split; auto. eapply client_read. rewrite Hh. apply in_or_app. left. apply in_calls_of. exact H2. }
  exists req, c, m. split; [rewrite Hh; apply in_or_app; auto|]. split; [exact Hc|]. split; [eapply client_of_id; eauto|].
  apply grant_type_of in H7. unfold grant_just in H8.
  destruct (tq_grant req) as [| | | | |] eqn:G; [destruct H7|..]; rewrite H7.
  - destruct H8 as (s & ar & rd & _ & _ & _ & Hf & _ & _ & [Ht|[_ Ht]]); rewrite Ht in H4; cbn in H4; injection H4 as <-; (split; [apply (cf_cap _ _ _ _ _ _ _ _ Hf)|split; [rewrite Ht|]; reflexivity]).
  - destruct H8 as (_ & Hl & Ht & _); rewrite Ht in H4; cbn in H4; injection H4 as <-; (split; [exact Hl|split; [rewrite Ht|]; reflexivity]).
  - destruct H8 as (s & dr & dc & sub & t0 & _ & _ & _ & _ & _ & _ & _ & _ & _ & Hl & [Ht|[_ Ht]]); rewrite Ht in H4; cbn in H4; injection H4 as <-; (split; [exact Hl|split; [rewrite Ht|]; reflexivity]).
  - destruct H8 as (rt & m0 & t0 & _ & _ & _ & _ & _ & _ & _ & _ & Hl & [Ht|Ht]); rewrite Ht in H4; cbn in H4; injection H4 as <-; (split; [exact Hl|split; [rewrite Ht|]; reflexivity]).
  - destruct H8 as (st & m0 & t0 & sc & aud & _ & _ & _ & _ & _ & _ & _ & Hl & _ & Ht); rewrite Ht in H4; cbn in H4; injection H4 as <-; (split; [exact Hl|split; [rewrite Ht|]; reflexivity]).
Qed.

(** ** C79 *)

Local Notation sd := PfDev2.sd.
Section Pending.
Context (E : ext) (w : world) (xs : list sched) (h0 h1 : list event) (d : nat) (dq : dev_request) (dres : dev_response).
Notation h := (history E w xs).
Context (Hf : no_faults xs) (Hb : blank w) (Hst : w_stamp w = stamping 120).
Context (Hh : h = (h0 ++ h1)%list) (Hd0 : In (EvStart d (RDevAuthorize (Some dq))) h1).
Context (Hap : device_codes_apart E h) (He : dv_err dres = false).
Context (Hshort : (elapsed h1 <= 120 * second)%N).
Context (Hdd : In (EvDone d (Done (PDevAuthorize dres))) h).
(** Nobody sends the user code. *)
Context (Hno : forall k q, In (EvStart k (RDevValidate (Some q))) h ->
  user_key E (vv_issuer q) (vv_user_code q) <> user_key E (dr_issuer dq) (dv_user_code dres)).

(** No session is approved in d's slot. *)
Lemma no_approval A k iv uv s a B :
  h = (A ++ EvCall k (CDevVal iv uv s) a :: B)%list ->
  device_key E (ds_issuer s) (ds_device_code s) <> device_key E (dr_issuer dq) (dv_device_code dres).
Proof using Hh Hd0 He Hap Hb Hst Hdd Hno.
  intros HA Hk. destruct (write_reason _ _ _ _ _ _ _ _ HA) as (r & R1 & R2).
  destruct R2 as (q & s0 & t & -> & <- & <- & D1 & D2 & Hle & Hp & -> & Hsub).
  apply did_event in D1. apply in_split in D1 as (g1 & g2 & ->).
  pose proof HA as HA0. rewrite <- app_assoc in HA. cbn in HA.
  destruct (pending_origin _ _ _ _ _ _ _ _ _ Hb HA Hp) as (d2 & dq2 & uc & s1 & a1 & t1 & c & P1 & P2 & _ & P3 & P4 & P5).
  destruct (d_calls E w xs h0 h1 d dq dres Hh Hd0 He Hdd) as (c' & n & Hc).
  assert (Hreg : In (EvCall d (CDevReg (dr_issuer dq) (dv_user_code dres) (sd dq dres c')) (ANum n)) h).
  { apply in_calls_of. rewrite Hc. cbn. auto. }
  assert (Hreg2 : In (EvCall d2 (CDevReg (dr_issuer dq2) uc s1) a1) h).
  { rewrite HA. apply in_or_app; left; exact P2. }
  assert (d2 = d) as ->.
  { eapply (Hap _ _ _ _ _ _ _ _ _ _ Hreg2 Hreg). right. rewrite P3, Hst in Hk. exact Hk. }
  apply in_calls_of in Hreg2. rewrite Hc in Hreg2.
  destruct Hreg2 as [X|[X|[X|[X|[]]]]]; try discriminate. injection X as X1 X2 X3 _.
  apply (Hno k q); [rewrite HA0; apply in_or_app; left; exact R1|].
  rewrite <- P4, <- X2, P3, Hst, <- X3. reflexivity.
Qed.

Lemma pending_read A s n B i r C :
  h = (A ++ EvCall d (CDevReg (dr_issuer dq) (dv_user_code dres) s) (ANum n) :: B ++
       EvCall i (CDevGetDev (dr_issuer dq) (dv_device_code dres)) (ADev r) :: C)%list ->
  (forall i u s a, ~ In (EvCall d (CDevReg i u s) a) B) ->
  exists c t, r = SOk (stamping 120 t (sd dq dres c)) /\ (clock w h0 <= t)%N.
Proof using Hh Hd0 He Hap Hb Hst Hdd Hf Hshort Hno.
  intros HA HnB.
  destruct (later_prefix _ _ _ _ _ _ _ _ _ _ _ Hh Hd0 HA) as (u & Hu).
  destruct (d_calls E w xs h0 h1 d dq dres Hh Hd0 He Hdd) as (c' & n' & Hc).
  assert (s = sd dq dres c') as ->.
  { assert (Hin : In (EvCall d (CDevReg (dr_issuer dq) (dv_user_code dres) s) (ANum n)) h) by (rewrite HA; apply in_or_app; right; left; auto).
    apply in_calls_of in Hin. rewrite Hc in Hin. destruct Hin as [X|[X|[X|[X|[]]]]]; try discriminate. congruence. }
  pose proof (history_ftrace E w xs Hf) as Ht. rewrite HA in Ht.
  destruct (ftrace_at _ _ _ _ _ _ _ _ Ht) as (wm & o & w1 & T1 & T2 & T3 & T4).
  pose proof (full_write _ _ _ _ T3 _ _ T2) as Hok. cbn in Hok.
  pose proof (devd_written E _ _ _ _ _ _ _ T2 eq_refl Hok) as Hw.
  destruct (ftrace_at _ _ _ _ _ _ _ _ T4) as (wm2 & o2 & w2 & T5 & T6 & T7 & T8).
  apply ftrace_wtrace in T1, T5.
  rewrite (stamp_at _ _ _ _ T1), Hst in Hw.
  cbn in T6. rewrite T7 in T6. cbn [answer_read] in T6. injection T6 as Hr _.
  assert (Hnow2 : w_now wm2 = clock w (A ++ EvCall d (CDevReg (dr_issuer dq) (dv_user_code dres) (sd dq dres c')) (ANum n) :: B)%list).
  { apply (wtrace_now E w). eapply wtrace_join; [exact T1|]. econstructor; [exact T2|exact T5]. }
  assert (Hlate : (w_now wm2 <= clock w h0 + 120 * second)%N).
  { rewrite Hnow2. etransitivity; [apply (clock_app w _ (EvCall i (CDevGetDev (dr_issuer dq) (dv_device_code dres)) (ADev r) :: C)%list)|].
    rewrite <- app_assoc. cbn [app]. rewrite <- HA, Hh. unfold clock. rewrite elapsed_app. lia. }
  set (key := device_key E (dr_issuer dq) (dv_device_code dres)) in *.
  assert (Hkey : device_key E (ds_issuer (stamping 120 (w_now wm) (sd dq dres c'))) (ds_device_code (stamping 120 (w_now wm) (sd dq dres c'))) = key) by reflexivity.
  rewrite Hkey in Hw.
  pose proof (devd_present _ _ _ _ key T5) as Hpr. rewrite Hw in Hpr. specialize (Hpr ltac:(discriminate)).
  destruct (w_devd wm2 key) as [[s' e']|] eqn:Hv; [|congruence].
  assert (Hgoal : (clock w h0 + 120 * second <= e')%N /\
    exists c t, s' = stamping 120 t (sd dq dres c) /\ (clock w h0 <= t)%N).
  { assert (Hcl : (clock w h0 <= w_now wm)%N).
    { rewrite (wtrace_now _ _ _ _ T1). fold (clock w A). rewrite Hu. apply clock_app. }
    destruct (devd_prov E _ _ _ _ _ T5 Hv) as [X|(b1 & j & c & a & b2 & wk & -> & K1 & K2)].
    - rewrite Hw in X. injection X as <- <-. split; [unfold device_ttl; lia|]. eauto.
    - exfalso. destruct c as [| | | | | | | | | | | | | | | | | | ir user_code sr|iv2 uv2 sv| | | | | |]; cbn in K2; try discriminate.
      + injection K2 as K3 K4 _.
        assert (Hstw : w_stamp wk = stamping 120).
        { rewrite <- Hst. apply (stamp_at E w (A ++ EvCall d (CDevReg (dr_issuer dq) (dv_user_code dres) (sd dq dres c')) (ANum n) :: b1)%list). eapply wtrace_join; [exact T1|]. econstructor; [exact T2|exact K1]. }
        rewrite Hstw in K3.
        assert (j = d) as ->.
        { apply (Hap j ir user_code sr a d (dr_issuer dq) (dv_user_code dres) (sd dq dres c') (ANum n')).
          - rewrite HA. rewrite !in_app_iff. cbn. rewrite !in_app_iff. cbn. auto 10.
          - apply in_calls_of. rewrite Hc. cbn. auto.
          - right. exact K3. }
        apply (HnB ir user_code sr a). apply in_or_app; right; left; reflexivity.
      + injection K2 as K3 _ _.
        eapply (no_approval (A ++ EvCall d (CDevReg (dr_issuer dq) (dv_user_code dres) (sd dq dres c')) (ANum n) :: b1) j iv2 uv2 sv a
          (b2 ++ EvCall i (CDevGetDev (dr_issuer dq) (dv_device_code dres)) (ADev r) :: C)%list); [|exact K3].
        rewrite HA. list_eq. }
  destruct Hgoal as (G1 & c & t & -> & G2). exists c, t. split; [|exact G2].
  rewrite <- Hr. unfold cache_get. rewrite Hv.
  destruct (N.ltb_spec e' (w_now wm2)); [lia|reflexivity].
Qed.
End Pending.

(** A poll whose reads succeed, on a pending session. *)
Definition wait_good (auth : string) (cl : client) (issuer code : string) (dq : dev_request) (bound : N)
    (c : call) (a : answer) : Prop :=
  typed c a /\
  match c, a with
  | CClientGet id, AClient r => id = auth -> r = SOk cl
  | CDevGetDev i' c', ADev r => i' = issuer -> c' = code -> exists s, r = SOk s /\
      ds_request s = Some dq /\ (exists dc, ds_client s = Some dc) /\ ds_status s = DsPending /\ (bound <= ds_expires_at s)%N
  | CNow, ATime t => (unix t <= bound)%N
  | _, _ => True
  end.

Lemma wait_ends E auth cl code dq bound req :
  tq_client req = Some auth -> tq_grant req = GDeviceCode code ->
  tq_grant_type req = gt_device -> tq_issuer req <> ""%string -> code <> ""%string -> x_request_uri E (tq_issuer req) = true ->
  listed E (cl_grant_types cl) gt_device -> dr_client_id dq = cl_id cl ->
  ends (wait_good (cl_id auth) cl (tq_issuer req) code dq bound)
    (fun o => o = Done (tfail (err authorization_pending))) (token_svc E (Some req)).
Proof.
  intros H1 H2 H3 H4 H5 H6 H7 H10. apply is_empty_false in H4, H5.
  assert (Hv : validate_request req = None).
  { unfold validate_request. rewrite H1, H2, H3, H4. reflexivity. }
  unfold token_svc. rewrite Hv, H1.
  intros a [Ha1 Ha2]; destruct a; cbn in Ha1; try destruct Ha1. cbn in Ha2. rewrite (Ha2 eq_refl).
  unfold dispatch. rewrite H3. change (String.eqb gt_device gt_cc) with false.
  change (String.eqb gt_device gt_code) with false. change (String.eqb gt_device gt_device) with true. cbv iota zeta.
  unfold device_code. rewrite H2. unfold prologue. rewrite H4, H6. cbn [negb].
  apply has_iff in H7. rewrite H7. cbn [negb]. rewrite H5. clear Ha2.
  intros a [Ha1 Ha2]; destruct a; cbn in Ha1; try destruct Ha1. cbn in Ha2.
  destruct (Ha2 eq_refl eq_refl) as (s & -> & H8 & (dc & H9) & H11 & H13).
  rewrite H8, H9, H10, String.eqb_refl. cbn [negb]. clear Ha2.
  intros a [Ha1 Ha2]; destruct a; cbn in Ha1; try destruct Ha1. cbn in Ha2.
  pose proof (N.le_trans _ _ _ Ha2 H13) as Hb. apply N.ltb_ge in Hb. rewrite Hb. rewrite H11. reflexivity.
Qed.

Lemma C79_poll_pending_partial_proof :
  forall E w xs h0 h1 h2 d dq dres i req c code o,
  blank w -> no_faults xs ->
  (* the store marks new device sessions as pending, valid for 120 s *)
  w_stamp w = stamping 120 ->
  history E w xs = (h0 ++ h1 ++ h2)%list -> (elapsed (h1 ++ h2) <= 120 * second)%N ->
  device_codes_apart E (history E w xs) ->
  (* a device asks for codes; nobody sends the user code *)
  answered h1 d (RDevAuthorize (Some dq)) (PDevAuthorize dres) -> dv_err dres = false ->
  (forall k q, In (EvStart k (RDevValidate (Some q))) (history E w xs) ->
     user_key E (vv_issuer q) (vv_user_code q) <> user_key E (dr_issuer dq) (dv_user_code dres)) ->
  (* then the device polls *)
  In (EvStart i (RToken (Some req))) h2 -> In (EvDone i o) h2 ->
  tq_grant_type req = "urn:ietf:params:oauth:grant-type:device_code"%string ->
  tq_grant req = GDeviceCode code -> code = dv_device_code dres -> code <> ""%string ->
  tq_issuer req = dr_issuer dq -> x_request_uri E (tq_issuer req) = true ->
  client_of w req c -> cl_id c = dr_client_id dq -> listed E (cl_grant_types c) "urn:ietf:params:oauth:grant-type:device_code" ->
  exists res, o = Done (PToken res) /\ tr_err res = true /\
    tr_error res = Some (mkErr "authorization_pending" None) /\ tokens_of res = [].
Proof.
  intros E w xs h0 h1 h2 d dq dres i req c code o Hb Hf Hst Hh Hsh Hap
    [Hd1 Hd2] Hde Hno Hi1 Hi2 Hgt Hg -> Hne Hiss Huri (auth & Hc1 & Hc2) Hcid Hl.
  assert (Hh' : history E w xs = (h0 ++ (h1 ++ h2))%list) by exact Hh.
  assert (Hd1' : In (EvStart d (RDevAuthorize (Some dq))) (h1 ++ h2)%list) by (apply in_or_app; auto).
  assert (Hd2' : In (EvDone d (Done (PDevAuthorize dres))) (history E w xs)) by (rewrite Hh; rewrite !in_app_iff; auto).
  assert (Hi1' : In (EvStart i (RToken (Some req))) (history E w xs)) by (rewrite Hh; rewrite !in_app_iff; auto).
  assert (Hi2' : In (EvDone i o) (history E w xs)) by (rewrite Hh; rewrite !in_app_iff; auto).
  destruct (d_calls E w xs h0 (h1 ++ h2)%list d dq dres Hh' Hd1' Hde Hd2') as (c' & n & Hc).
  change ([(CClientGet (dr_client_id dq), AClient (SOk c')); (CGenDev (dr_issuer dq), AGen (Some (dv_device_code dres)));
    (CGenUser (dr_issuer dq), AGen (Some (dv_user_code dres)));
    (CDevReg (dr_issuer dq) (dv_user_code dres) (sd dq dres c'), ANum n)]) with
    ([(CClientGet (dr_client_id dq), AClient (SOk c')); (CGenDev (dr_issuer dq), AGen (Some (dv_device_code dres)));
    (CGenUser (dr_issuer dq), AGen (Some (dv_user_code dres)))] ++
    (CDevReg (dr_issuer dq) (dv_user_code dres) (sd dq dres c'), ANum n) :: [])%list in Hc.
  destruct (calls_of_split d _ _ _ _ _ Hc) as (A & B & HA & _ & HB).
  assert (Hh3 : history E w xs = ((h0 ++ h1) ++ h2)%list) by (rewrite Hh; list_eq).
  assert (Hd2'' : In (EvDone d (Done (PDevAuthorize dres))) (h0 ++ h1)%list) by (apply in_or_app; auto).
  destruct (call_in_done _ _ _ _ _ _ _ _ _ _ _ Hh3 Hd2'' HA) as (u & Hu1 & ->).
  assert (Hread : forall rd, In (EvCall i (CDevGetDev (tq_issuer req) (dv_device_code dres)) (ADev rd)) (history E w xs) ->
    exists c' t, rd = SOk (stamping 120 t (sd dq dres c')) /\ (clock w h0 <= t)%N).
  { intros rd Hrd. destruct (call_in_later _ _ _ _ _ _ _ _ _ Hh3 Hi1 Hrd) as (l1 & l2 & ->).
    rewrite Hiss in *.
    eapply (pending_read E w xs h0 _ d dq dres Hf Hb Hst Hh' Hd1' Hap Hde Hsh Hd2' Hno A _ n (u ++ l1)%list i rd l2).
    - rewrite HA. list_eq.
    - intros i2 u2 s2 a2 Hin. 
      assert (Hin2 : In (CDevReg i2 u2 s2, a2) (calls_of d (u ++ l1 ++ EvCall i (CDevGetDev (dr_issuer dq) (dv_device_code dres)) (ADev rd) :: l2)%list)).
      { apply in_calls_of. apply in_app_or in Hin as [Hin|Hin]; apply in_or_app; auto. right. apply in_or_app; auto. }
      rewrite HB in Hin2. destruct Hin2. }
  set (bound := (unix (clock w h0) + 120)%N).
  pose (Pz := fun o : outcome response => match o with Done (PToken res) => res = tfail (err authorization_pending) | _ => False end).
  assert (Hfin : Pz o).
  { apply (ends_history E w xs i (RToken (Some req)) o Pz
       (wait_good (cl_id auth) c (tq_issuer req) (dv_device_code dres) dq bound) Hi1' Hi2').
    - intros c0 a Hin. split; [eapply history_typed; exact Hin|].
      pose proof Hin as Hin'. apply in_split in Hin' as (l1 & l2 & Hl12).
      pose proof (history_ftrace E w xs Hf) as Ht. rewrite Hl12 in Ht.
      destruct (ftrace_at _ _ _ _ _ _ _ _ Ht) as (wm & oo & w1 & T1 & T2 & T3 & T4). apply ftrace_wtrace in T1.
      destruct c0; auto; destruct a; auto.
      + (* clock *) apply read_now in T2 as [-> _]. unfold bound.
        rewrite (wtrace_now _ _ _ _ T1). fold (clock w l1).
        assert (Hcl : (clock w l1 <= clock w h0 + 120 * second)%N).
        { etransitivity; [apply (clock_app w l1 (EvCall i CNow (ATime (w_now wm)) :: l2)%list)|].
          rewrite <- Hl12, Hh'. unfold clock. rewrite elapsed_app. lia. }
        etransitivity; [apply unix_mono; exact Hcl|]. unfold unix. rewrite N.div_add by discriminate. lia.
      + intros ->. cbn in T2. rewrite T3 in T2. cbn in T2. injection T2 as <- _.
        apply wtrace_const in T1 as (X & _). rewrite X, Hc2. reflexivity.
      + intros -> ->. destruct (Hread _ Hin) as (c2 & t & -> & Hle). eexists. split; [reflexivity|].
        split; [reflexivity|]. split; [eexists; reflexivity|]. split; [reflexivity|].
        cbn. unfold bound. pose proof (unix_mono _ _ Hle). lia.
    - cbn [serve]. unfold pmap. apply ends_bind. eapply ends_weaken.
      2: { eapply (wait_ends E auth c _ dq bound req); try eassumption; try congruence.
           rewrite Hiss. eapply (d_issuer E w xs h0 (h1 ++ h2)%list d dq dres); eauto. }
      intros o' ->; cbn; auto. }
  destruct o as [[res| | | | | | | |]|]; try (destruct Hfin; fail). cbn in Hfin. subst res. eexists. split; [reflexivity|]. auto.
Qed.

(** With the in-memory store the device is told that its code has expired. *)
Definition x_poll0 : list sched :=
  (full 0 devreq [ok; say "device-1"; say "user-1"; ok] ++
   full 1 (RToken (Some (pollreq webapp "device-1"))) [ok; ok; ok])%list.
Lemma C79_in_memory_refuted_proof : exists E w xs dres tres,
  blank w /\ registry_ok w /\ no_faults xs /\ (forall t s, w_stamp w t s = s) /\ elapsed (history E w xs) = 0%N /\
  answered (history E w xs) 0 devreq (PDevAuthorize dres) /\ dv_err dres = false /\
  dv_device_code dres = "device-1"%string /\
  answered (history E w xs) 1 (RToken (Some (pollreq webapp "device-1"))) (PToken tres) /\
  tr_error tres <> Some (mkErr "authorization_pending" None).
Proof.
  exists demo_ext, w0, x_poll0. do 2 eexists.
  split; [apply blank_w0|]. split; [apply registry_demo|].
  split; [repeat (constructor; [exact I || reflexivity|]); constructor|]. split; [reflexivity|].
  split; [vm_compute; reflexivity|].
  split; [demo_ans|]. do 2 (split; [reflexivity|]). split; [demo_ans|]. discriminate.
Qed.
