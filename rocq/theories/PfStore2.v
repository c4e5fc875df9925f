(** * Introspection, success means stored: proofs *)

From Verif Require Export PfStore.

Lemma tid_present E w h w' k : wtrace E w h w' -> w_tid w k <> None -> w_tid w' k <> None.
Proof.
  intros Ht H0 Hn. revert H0.
  induction Ht as [|w i r h w' Ht IH|w i o h w' Ht IH|w d h w' Ht IH|w i c a o w1 h w' Hx Ht IH]; intros H0; auto.
  apply IH; auto. destruct (store_both _ _ _ _ _ _ Hx) as [[-> _]|[(iss & t & _ & -> & _)|(iss & id & t & _ & _ & -> & _)]]; auto;
    match goal with |- upd ?m ?k' ?v' ?k <> None => destruct (upd_cases m k' v' k) as [[_ ->]|[_ ->]]; auto; discriminate end.
Qed.

(** Without storage failures every revocation of a created token succeeds. *)
Lemma revoke_succeeds E w h1 i iss t a h2 w' j iss' a' :
  ftrace E w (h1 ++ EvCall i (CTokCreate iss t) a :: h2)%list w' ->
  In (EvCall j (CTokRevoke iss' (t_id t)) a') h2 -> ans_ok a' = true.
Proof.
  intros Ht Hin. destruct (ftrace_at _ _ _ _ _ _ _ _ Ht) as (wm & o & w1 & T1 & T2 & T3 & T4).
  assert (Hp : w_tid w1 (t_id t) <> None).
  { cbn in T2. rewrite T3 in T2. cbn in T2. injection T2 as _ <-. cbn. rewrite upd_same. discriminate. }
  apply in_split in Hin as (g1 & g2 & ->).
  destruct (ftrace_at _ _ _ _ _ _ _ _ T4) as (wm2 & o2 & w2 & T5 & T6 & T7 & T8).
  apply ftrace_wtrace in T5. pose proof (tid_present _ _ _ _ _ T5 Hp) as Hp2.
  cbn in T6. destruct (w_tid wm2 (t_id t)); [|congruence]. rewrite T7 in T6. cbn in T6. injection T6 as <- _. reflexivity.
Qed.

Lemma no_tokens_tok E w h1 wm iss v t : no_tokens w -> wtrace E w h1 wm -> w_tval wm (tok_key E iss v) = Some t ->
  exists t0 iss', stored_as E h1 iss v t0 /\ (t = hashed E iss' t0 \/ t = set_status (hashed E iss' t0) TsRevoked).
Proof.
  intros Hn A B. destruct (tok_inv _ _ _ _ Hn A) as [_ I2].
  destruct (I2 _ _ B) as (Hk & k1 & k & iss' & t0 & a & k2 & -> & D).
  exists t0, iss'. split.
  - exists k, iss', a. split; [apply in_or_app; right; left; auto|].
    rewrite <- Hk. destruct D as [->|[-> _]]; reflexivity.
  - destruct D as [->|[-> _]]; auto.
Qed.

(** Created tokens are active. *)
Lemma created_active E w xs h1 i iss t a h2 :
  history E w xs = (h1 ++ EvCall i (CTokCreate iss t) a :: h2)%list -> t_status t = TsActive.
Proof.
  intros Hh. destruct (write_reason _ _ _ _ _ _ _ _ Hh) as (r & _ & req & _ & J).
  apply just_times in J as (m & tm & _ & _ & _ & J & _). exact J.
Qed.

(** ** C17 *)

Lemma C17_introspection_proof : forall E w xs i req res,
  no_tokens w -> no_faults xs -> no_reuse E (history E w xs) ->
  answered (history E w xs) i (RIntrospect (Some req)) (PIntrospect res) -> ir_err res = false ->
  exists h1 h2 t, history E w xs = (h1 ++ h2)%list /\ during h1 i (RIntrospect (Some req)) /\ ir_token res = Some t /\
    (t_status t = TsActive <-> exists t0, live_as E h1 (vq_issuer req) (vq_token req) t0) /\
    (forall t0, stored_as E h1 (vq_issuer req) (vq_token req) t0 ->
       t_id t = t_id t0 /\ t_type t = t_type t0 /\ t_meta t = t_meta t0 /\ t_cnf t = t_cnf t0 /\
       (t_status t = TsActive \/ t_status t = TsRevoked)) /\
    ((forall t0, ~ stored_as E h1 (vq_issuer req) (vq_token req) t0) -> t_status t = TsUnknown /\ t_meta t = None).
Proof.
  intros E w xs i req res Hn Hf Hu Ha He.
  destruct (introspect_facts _ _ _ _ _ _ Ha) as [[X _]|(rt & _ & Hin & Hres)]; [congruence|].
  apply in_split in Hin as (h1 & h2 & Hh).
  pose proof (history_ftrace E w xs Hf) as Ht. rewrite Hh in Ht.
  destruct (ftrace_at _ _ _ _ _ _ _ _ Ht) as (wm & o & w1 & T1 & T2 & T3 & T4).
  destruct (full_tok _ _ _ _ T3 _ _ _ T2) as (_ & Hrt). clear T2 T4 Ht.
  assert (Hu1 : no_reuse E h1) by (rewrite Hh in Hu; eapply no_reuse_app; exact Hu).
  pose proof (ftrace_wtrace _ _ _ _ T1) as Tw.
  (* tokens stored in this slot are still there *)
  assert (Hstored : forall g1 k iss' t0 a g2, h1 = (g1 ++ EvCall k (CTokCreate iss' t0) a :: g2)%list ->
    tok_key E iss' (t_value t0) = tok_key E (vq_issuer req) (vq_token req) ->
    rt = SOk (hashed E iss' t0) \/ rt = SOk (set_status (hashed E iss' t0) TsRevoked) /\ revoked_in g2 (t_id t0)).
  { intros g1 k iss' t0 a g2 G1 G2. subst h1.
    destruct (ftrace_at _ _ _ _ _ _ _ _ T1) as (wa & oa & wb & A1 & A2 & A3 & A4).
    assert (Hw : w_tval wb (tok_key E (vq_issuer req) (vq_token req)) = Some (hashed E iss' t0)).
    { rewrite <- G2. cbn in A2. rewrite A3 in A2. cbn in A2. injection A2 as _ <-. cbn. rewrite upd_same. reflexivity. }
    assert (A5 : wtrace E w (g1 ++ [EvCall k (CTokCreate iss' t0) a])%list wb).
    { eapply wtrace_join; [apply ftrace_wtrace; exact A1|econstructor; [exact A2|constructor]]. }
    assert (Hu2 : no_reuse E ((g1 ++ [EvCall k (CTokCreate iss' t0) a]) ++ g2)%list).
    { rewrite <- app_assoc. exact Hu1. }
    destruct (tval_evolves E w _ wb g2 wm _ _ Hn A5 (ftrace_wtrace _ _ _ _ A4) Hu2 Hw) as [X|(X & j & is2 & a2 & J)];
      rewrite X in Hrt; [left; exact Hrt|right]. split; [exact Hrt|].
    exists j, is2, a2. split; [exact J|]. eapply revoke_succeeds; [exact T1|exact J]. }
  assert (Hact : forall g1 k iss' t0 a g2, h1 = (g1 ++ EvCall k (CTokCreate iss' t0) a :: g2)%list -> t_status t0 = TsActive).
  { intros g1 k iss' t0 a g2 ->. eapply (created_active E w xs g1 k iss' t0 a). rewrite Hh, <- app_assoc. reflexivity. }
  assert (Hst : In (EvStart i (RIntrospect (Some req))) h1).
  { eapply started_before; [exact Hh|apply Ha]. }
  destruct (w_tval wm (tok_key E (vq_issuer req) (vq_token req))) as [t|] eqn:Hv; subst rt.
  - exists h1. eexists. exists t. split; [exact Hh|]. split; [exact Hst|]. split; [exact Hres|]. split; [|split].
    + split.
      * intros Hs. destruct (tok_current E w h1 wm _ _ Hn Tw Hu1 Hv) as (g1 & k & iss' & t0 & a & g2 & G1 & G2 & [[-> G3]|[-> _]]); [|discriminate].
        exists t0, g1, k, iss', a, g2. auto.
      * intros (t0 & g1 & k & iss' & a & g2 & G1 & G2 & G3).
        destruct (Hstored _ _ _ _ _ _ G1 G2) as [X|[_ X]]; [|contradiction].
        injection X as ->. cbn. eapply Hact; eauto.
    + intros t0 (k & iss' & a & G1 & G2). apply in_split in G1 as (g1 & g2 & G1).
      pose proof (Hact _ _ _ _ _ _ G1) as Hac.
      destruct (Hstored _ _ _ _ _ _ G1 G2) as [X|[X _]]; injection X as ->; cbn; auto 10.
    + intros Hno. exfalso.
      destruct (no_tokens_tok _ _ _ _ _ _ _ Hn Tw Hv) as (t0 & iss' & S & _). eapply Hno; eauto.
  - exists h1. do 2 eexists. split; [exact Hh|]. split; [exact Hst|]. split; [exact Hres|].
    assert (Hnone : forall t0, ~ stored_as E h1 (vq_issuer req) (vq_token req) t0).
    { intros t0 (k & iss' & a & G1 & G2). apply in_split in G1 as (g1 & g2 & G1).
      destruct (Hstored _ _ _ _ _ _ G1 G2) as [X|[X _]]; discriminate. }
    split; [|split].
    + split; [discriminate|]. intros (t0 & g1 & k & iss' & a & g2 & G1 & G2 & G3). exfalso.
      apply (Hnone t0). exists k, iss', a. split; auto. rewrite G1. apply in_or_app; right; left; auto.
    + intros t0 X. destruct (Hnone _ X).
    + auto.
Qed.

(** ** C24 *)

Lemma created_stays E w g1 i iss t a g2 wm :
  no_tokens w -> no_reuse E (g1 ++ EvCall i (CTokCreate iss t) a :: g2)%list ->
  wtrace E w (g1 ++ EvCall i (CTokCreate iss t) a :: g2)%list wm -> ans_ok a = true -> t_status t = TsActive ->
  exists t', w_tval wm (tok_key E iss (t_value t)) = Some t' /\ copy_of t t' /\
    (t_status t' = TsActive \/ t_status t' = TsRevoked /\ exists j iss' a', In (EvCall j (CTokRevoke iss' (t_id t)) a') g2).
Proof.
  intros Hn Hu Hh Ha Hac. apply wtrace_app in Hh as (wa & A & B). inversion B; subst.
  assert (Hw : w_tval w1 (tok_key E iss (t_value t)) = Some (hashed E iss t)).
  { eapply (tval_written E); [eassumption|reflexivity|exact Ha]. }
  assert (A5 : wtrace E w (g1 ++ [EvCall i (CTokCreate iss t) a])%list w1).
  { eapply wtrace_join; [exact A|econstructor; [eassumption|constructor]]. }
  assert (Hu2 : no_reuse E ((g1 ++ [EvCall i (CTokCreate iss t) a]) ++ g2)%list).
  { rewrite <- app_assoc. exact Hu. }
  destruct (tval_evolves E w _ w1 g2 wm _ _ Hn A5 ltac:(eassumption) Hu2 Hw) as [X|(X & J)]; rewrite X; eexists; (split; [reflexivity|]);
    (split; [repeat split|]); auto.
Qed.

(** Every token of a successful response was created with success. *)
Ltac give_created Hgt :=
  do 3 eexists; split; [cbn; rewrite ?in_app_iff; cbn; eauto 20|]; split; [eassumption|];
  split; [reflexivity|]; split; [assumption|];
  split; [rewrite Hgt; intros X; try reflexivity; destruct (X eq_refl)|];
  split; [rewrite Hgt; intros X; try reflexivity; discriminate X|]; assumption.

Lemma response_created E w xs i req res t :
  token_ok (history E w xs) i req res -> In t (tokens_of res) ->
  exists iss m r, In (EvCall i (CTokCreate iss t) (AUnit r)) (history E w xs) /\ is_ok r = true /\
    t_meta t = Some m /\ t_value t <> ""%string /\
    (tq_grant_type req <> "refresh_token"%string -> iss = tq_issuer req) /\
    (tq_grant_type req = "refresh_token"%string -> iss = m_issuer m) /\
    tq_issuer req <> ""%string /\ x_request_uri E (tq_issuer req) = true.
Proof.
  intros Hok Ht.
  destruct (token_ok_client _ _ _ _ _ _ Hok) as (auth & c & tr' & H1 & H2 & H3 & H4 & H5 & H6 & H7).
  pose proof (dispatch_grant _ _ _ _ _ H6 H5) as D.
  assert (D' : exists iss m r, In (CTokCreate iss t, AUnit r) tr' /\ is_ok r = true /\
    t_meta t = Some m /\ t_value t <> ""%string /\
    (tq_grant_type req <> "refresh_token"%string -> iss = tq_issuer req) /\
    (tq_grant_type req = "refresh_token"%string -> iss = m_issuer m) /\ x_request_uri E (tq_issuer req) = true).
  { destruct (tq_grant req) as [|code redirect verif| |code|value|value ty] eqn:Hg.
    - destruct D.
    - destruct D as [Hgt D].
      destruct (authorization_code_ok _ _ _ _ _ D H7) as (s & ar & code' & redirect' & verifier & rd & tr2 & CF & _ & -> & D2).
      pose proof (cf_issuer _ _ _ _ _ _ _ _ CF) as U.
      destruct D2 as [(_ & -> & ->)|(_ & t1 & id & v & r & V1 & V2 & [(_ & -> & ->)|(_ & t2 & id2 & v2 & r2 & V3 & V4 & -> & ->)])];
        cbn in Ht; [destruct Ht| |].
      + destruct Ht as [<-|[]]. give_created Hgt.
      + destruct Ht as [<-|[<-|[]]]; give_created Hgt.
    - destruct D as [Hgt D].
      destruct (client_credentials_ok _ _ _ _ _ D H7) as (U & _ & _ & t1 & id & v & r & V1 & V2 & -> & ->).
      destruct Ht as [<-|[]]. give_created Hgt.
    - destruct D as [Hgt D].
      destruct (device_code_ok _ _ _ _ _ D H7) as (code' & s & dr & dc & sub & t0 & t1 & id & v & r & tr2 & _ & _ & U & _ & _ & _ & _ & _ & _ & _ & V1 & V2 & -> & D2).
      destruct D2 as [(-> & -> & _)|(_ & t2 & id2 & v2 & r2 & V3 & V4 & -> & ->)]; cbn in Ht.
      + destruct Ht as [<-|[]]. give_created Hgt.
      + destruct Ht as [<-|[<-|[]]]; give_created Hgt.
    - destruct D as [Hgt D].
      destruct (refresh_token_ok _ _ _ _ _ D H7) as (val & rt & m & t0 & t1 & id & v & r & tr2 & _ & _ & U & _ & _ & _ & _ & _ & _ & V1 & V2 & -> & D2).
      destruct D2 as [(_ & -> & ->)|(_ & t2 & id2 & v2 & r2 & r3 & V3 & V4 & _ & -> & ->)]; cbn in Ht.
      + destruct Ht as [<-|[]]. give_created Hgt.
      + destruct Ht as [<-|[<-|[]]]; give_created Hgt.
    - destruct D as [Hgt D].
      destruct (token_exchange_ok _ _ _ _ _ D H7) as (val & st & m & t0 & t1 & id & v & r & aud & tra & _ & _ & U & _ & _ & _ & _ & _ & V1 & V2 & _ & -> & ->).
      destruct Ht as [<-|[]]. give_created Hgt. }
  destruct D' as (iss & m & r & X1 & X2 & X3 & X4 & X5 & X6 & X7). exists iss, m, r.
  split; [|auto 10]. apply in_calls_of. rewrite H3. right. exact X1.
Qed.

(** Histories of composed schedules. *)
Lemma run_app E s xs ys :
  fst (run E s (xs ++ ys)%list) = (fst (run E s xs) ++ fst (run E (snd (run E s xs)) ys))%list /\
  snd (run E s (xs ++ ys)%list) = snd (run E (snd (run E s xs)) ys).
Proof.
  revert s; induction xs as [|x xs IH]; cbn [run app]; intros s; [auto|].
  destruct (sstep E s x) as [[e s1]|]; [|apply IH].
  destruct (IH s1) as [A B]. destruct (run E s1 (xs ++ ys)%list) as [h' s']; destruct (run E s1 xs) as [h s2]; cbn [fst snd] in *.
  subst. auto.
Qed.

Lemma history_app E w xs ys : exists h2, history E w (xs ++ ys)%list = (history E w xs ++ h2)%list /\
  (no_faults ys -> ftrace E (final E w xs) h2 (final E w (xs ++ ys)%list)).
Proof.
  destruct (run_app E (start w) xs ys) as [A B].
  exists (fst (run E (snd (run E (start w) xs)) ys)). split; [exact A|].
  intros Hn. unfold final at 2. rewrite B. exact (run_ftrace E (snd (run E (start w) xs)) ys Hn).
Qed.

Lemma introspect_works E req tr res c : vq_client req = Some c ->
  vq_issuer req <> ""%string -> x_request_uri E (vq_issuer req) = true -> vq_token req <> ""%string ->
  reach (introspect_svc E (Some req)) tr (Ret res) ->
  exists rc tr', tr = (CClientGet (cl_id c), AClient rc) :: tr' /\
    (is_ok rc = true -> exists rt, tr' = [(CTokGet (vq_issuer req) (vq_token req), ATok rt)] /\
       (forall t, rt = SOk t -> res = mkIntro false None (Some t))).
Proof.
  intros Hc Hi Hu Ht H. unfold introspect_svc in H. rewrite Hc, Hu in H.
  apply is_empty_false in Hi, Ht. rewrite Hi, Ht in H. cbn [negb] in H.
  rstep H. subst tr. exists x, x0. split; [reflexivity|]. intros Hk.
  destruct x as [c'| | |]; try discriminate; rstep H; subst x0; exists x;
    (split; [f_equal; destruct x; rstep H; assumption|]); intros t ->; rstep H; assumption.
Qed.

Lemma C24_success_means_stored_proof : forall E w xs ys i req res t j q ires c,
  no_tokens w -> no_faults ys -> no_reuse E (history E w (xs ++ ys)%list) ->
  token_ok (history E w xs) i req res -> In t (tokens_of res) ->
  (tq_grant_type req = "refresh_token"%string -> forall m, t_meta t = Some m -> m_issuer m = tq_issuer req) ->
  (forall r, ~ asked (history E w xs) j r) ->
  answered (history E w (xs ++ ys)%list) j (RIntrospect (Some q)) (PIntrospect ires) ->
  vq_issuer q = tq_issuer req -> vq_token q = t_value t ->
  vq_client q = Some c -> w_clients w (cl_id c) <> None ->
  ir_err ires = false /\
  exists t', ir_token ires = Some t' /\ t_id t' = t_id t /\ t_type t' = t_type t /\ t_meta t' = t_meta t /\ t_cnf t' = t_cnf t /\
    (t_status t' = TsActive \/
     t_status t' = TsRevoked /\ exists k iss a, In (EvCall k (CTokRevoke iss (t_id t)) a) (history E w (xs ++ ys)%list)).
Proof.
  intros E w xs ys i req res t j q ires c Hn Hf Hu Hok Ht Hre Hj Ha Hi Hv Hc Hcl.
  destruct (response_created _ _ _ _ _ _ _ Hok Ht) as (iss & m & r & R1 & R2 & R3 & R4 & R5 & R6 & R7 & R8).
  assert (Hiss : iss = tq_issuer req).
  { destruct (string_dec (tq_grant_type req) "refresh_token") as [X|X]; auto. rewrite R6; auto. }
  subst iss. clear R5 R6.
  destruct (history_app E w xs ys) as (h2 & Hh & Hft). specialize (Hft Hf).
  pose proof (answered_runs _ _ _ _ _ _ Ha) as Hr. cbn [serve] in Hr.
  apply reach_pmap_ret in Hr as (ires' & E1 & Hr). injection E1 as <-.
  rewrite <- Hi in R7, R8.
  destruct (introspect_works _ _ _ _ _ Hc R7 R8 ltac:(congruence) Hr) as (rc & tr' & Htr & Hk).
  (* the calls of the introspection happen after [xs] *)
  assert (Hlate : forall c' a', In (c', a') (calls_of j (history E w (xs ++ ys)%list)) ->
    exists g1 g2, h2 = (g1 ++ EvCall j c' a' :: g2)%list).
  { intros c' a' X. apply in_calls_of in X. rewrite Hh in X. apply in_app_or in X as [X|X]; [|apply in_split in X; exact X].
    exfalso. apply in_split in X as (e1 & e2 & X).
    destruct (trace_history E w xs) as (s & Htr' & _). rewrite X in Htr'.
    destruct (call_started _ _ _ _ _ _ _ _ Htr') as (r' & q' & Y & _).
    apply (Hj r'). unfold asked. rewrite X. apply in_or_app; auto. }
  assert (Hrc : is_ok rc = true).
  { destruct (Hlate (CClientGet (cl_id c)) (AClient rc)) as (g1 & g2 & ->); [rewrite Htr; left; auto|].
    destruct (ftrace_at _ _ _ _ _ _ _ _ Hft) as (wm & o & w1 & T1 & T2 & T3 & T4).
    apply ftrace_wtrace, wtrace_const in T1 as (T1 & _).
    destruct (wtrace_const _ _ _ _ (history_wtrace E w xs)) as (T5 & _).
    cbn in T2. rewrite T3, T1, T5 in T2. destruct (w_clients w (cl_id c)); [|congruence].
    injection T2 as <- _. reflexivity. }
  destruct (Hk Hrc) as (rt & -> & Hres). clear Hk.
  destruct (Hlate (CTokGet (vq_issuer q) (vq_token q)) (ATok rt)) as (g1 & g2 & ->); [rewrite Htr; right; left; auto|].
  destruct (ftrace_at _ _ _ _ _ _ _ _ Hft) as (wm & o & w1 & T1 & T2 & T3 & T4).
  destruct (full_tok _ _ _ _ T3 _ _ _ T2) as (_ & Hrt).
  pose proof (wtrace_join _ _ _ _ _ _ (history_wtrace E w xs) (ftrace_wtrace _ _ _ _ T1)) as Tw.
  apply in_split in R1 as (e1 & e2 & R1).
  pose proof (created_active _ _ _ _ _ _ _ _ _ R1) as Hact.
  destruct (created_stays E w e1 i (tq_issuer req) t (AUnit r) (e2 ++ g1)%list wm) as (t' & S1 & S2 & S3); auto.
  - rewrite app_comm_cons, app_assoc, <- R1. eapply no_reuse_app.
    instantiate (1 := (EvCall j (CTokGet (vq_issuer q) (vq_token q)) (ATok rt) :: g2)%list).
    rewrite <- app_assoc, <- Hh. exact Hu.
  - rewrite app_comm_cons, app_assoc, <- R1. exact Tw.
  - rewrite Hi, Hv, S1 in Hrt. rewrite (Hres _ Hrt). split; [reflexivity|]. exists t'. split; [reflexivity|].
    destruct S2 as (C1 & C2 & C3 & C4). repeat (split; [congruence|]).
    destruct S3 as [S3|(S3 & k & iss' & a' & S4)]; auto. right; split; auto.
    exists k, iss', a'. rewrite Hh, R1. rewrite !in_app_iff in *. cbn. tauto.
Qed.
