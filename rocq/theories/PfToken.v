(** * Refresh, exchange, device, revocation: proofs *)

From Verif Require Export PfCode2.

Ltac list_eq := repeat (rewrite <- app_assoc || (progress (cbn [Datatypes.app]))); reflexivity.

Section Gen.
Context (E : ext) (w : world) (xs : list sched).
Notation h := (history E w xs).

Lemma now_at h1 i t h2 : h = (h1 ++ EvCall i CNow (ATime t) :: h2)%list -> t = clock w h1.
Proof.
  intros Hh. destruct (split_at _ _ _ _ _ _ _ _ Hh) as (wm & o & w1 & A & B & _).
  apply read_now in B as [-> _]. apply wtrace_now in A. exact A.
Qed.

Lemma clock_app h1 h2 : (clock w h1 <= clock w (h1 ++ h2)%list)%N.
Proof. unfold clock. rewrite elapsed_app. lia. Qed.

Lemma unix_mono a b : (a <= b)%N -> (unix a <= unix b)%N.
Proof. intros H. unfold unix. apply N.div_le_mono; [discriminate|auto]. Qed.

(** Once revoked, always read as revoked. *)
Lemma revoked_reads g1 i iss v t g2 i' iss' r g3 j iss2 v2 t' g4 :
  no_tokens w -> no_reuse E h ->
  h = (g1 ++ EvCall i (CTokGet iss v) (ATok (SOk t)) :: g2 ++
       EvCall i' (CTokRevoke iss' (t_id t)) (AUnit r) :: g3 ++
       EvCall j (CTokGet iss2 v2) (ATok (SOk t')) :: g4)%list ->
  is_ok r = true -> tok_key E iss2 v2 = tok_key E iss v -> t_status t' = TsRevoked.
Proof.
  intros Hn Hu Hh Hr Hk.
  pose proof (history_wtrace E w xs) as Ht. rewrite Hh in Ht.
  destruct (wtrace_at _ _ _ _ _ _ _ _ Ht) as (wm & o & w1 & A & B & C).
  apply read_tok in B as (-> & B).
  destruct (wtrace_at _ _ _ _ _ _ _ _ C) as (wm2 & o2 & w2 & A2 & B2 & C2).
  destruct (wtrace_at _ _ _ _ _ _ _ _ C2) as (wm3 & o3 & w3 & A3 & B3 & C3).
  apply read_tok in B3 as (-> & B3). rewrite Hk in B3.
  assert (T0 : wtrace E w (g1 ++ EvCall i (CTokGet iss v) (ATok (SOk t)) :: g2)%list wm2).
  { replace (g1 ++ EvCall i (CTokGet iss v) (ATok (SOk t)) :: g2)%list
      with ((g1 ++ [EvCall i (CTokGet iss v) (ATok (SOk t))]) ++ g2)%list by (rewrite <- app_assoc; reflexivity).
    eapply wtrace_join; [|exact A2]. eapply wtrace_join; [exact A|].
    econstructor; [|constructor]. instantiate (1 := ok). cbn. rewrite B. reflexivity. }
  assert (U0 : no_reuse E (g1 ++ EvCall i (CTokGet iss v) (ATok (SOk t)) :: g2)%list).
  { rewrite Hh in Hu.
    replace (g1 ++ EvCall i (CTokGet iss v) (ATok (SOk t)) :: g2 ++
       EvCall i' (CTokRevoke iss' (t_id t)) (AUnit r) :: g3 ++
       EvCall j (CTokGet iss2 v2) (ATok (SOk t')) :: g4)%list with
      ((g1 ++ EvCall i (CTokGet iss v) (ATok (SOk t)) :: g2) ++
       EvCall i' (CTokRevoke iss' (t_id t)) (AUnit r) :: g3 ++
       EvCall j (CTokGet iss2 v2) (ATok (SOk t')) :: g4)%list in Hu by (rewrite <- app_assoc; reflexivity).
    eapply no_reuse_app; eauto. }
  assert (V2 : exists t2, w_tval wm2 (tok_key E iss v) = Some t2 /\ t_id t2 = t_id t).
  { assert (A' : wtrace E w (g1 ++ [EvCall i (CTokGet iss v) (ATok (SOk t))])%list wm).
    { eapply wtrace_join; [exact A|]. econstructor; [|constructor]. instantiate (1 := ok). cbn. rewrite B. reflexivity. }
    assert (U1 : no_reuse E ((g1 ++ [EvCall i (CTokGet iss v) (ATok (SOk t))]) ++ g2)%list)
      by (rewrite <- app_assoc; exact U0).
    destruct (tval_evolves _ _ _ _ _ _ _ _ Hn A' A2 U1 B) as [X|[X _]]; eauto. }
  destruct V2 as (t2 & V2 & Vid).
  pose proof (revoke_marks _ _ _ _ _ _ _ _ _ _ _ Hn T0 U0 B2 Hr V2 Vid) as V3.
  destruct (revoked_stays E w2 g3 wm3 _ _ A3 V3) as (t3 & V4 & V5); [reflexivity| |congruence].
  intros k issk tk ak Hin Hkk.
  destruct (tok_current _ _ _ _ _ _ Hn T0 U0 V2) as (k1 & kk & iss0 & t0 & a0 & k2 & Hs & Hkey & _).
  apply in_split in Hin as (l1 & l2 & ->).
  rewrite Hh in Hu.
  replace (g1 ++ EvCall i (CTokGet iss v) (ATok (SOk t)) :: g2 ++
       EvCall i' (CTokRevoke iss' (t_id t)) (AUnit r) :: (l1 ++ EvCall k (CTokCreate issk tk) ak :: l2) ++
       EvCall j (CTokGet iss2 v2) (ATok (SOk t')) :: g4)%list with
      ((g1 ++ EvCall i (CTokGet iss v) (ATok (SOk t)) :: g2) ++
       EvCall i' (CTokRevoke iss' (t_id t)) (AUnit r) :: l1 ++ EvCall k (CTokCreate issk tk) ak :: l2 ++
       EvCall j (CTokGet iss2 v2) (ATok (SOk t')) :: g4)%list in Hu
    by list_eq.
  rewrite Hs in Hu. rewrite <- app_assoc in Hu. cbn in Hu.
  specialize (Hu k1 kk iss0 t0 a0 (k2 ++ EvCall i' (CTokRevoke iss' (t_id t)) (AUnit r) :: l1)%list k issk tk ak
     (l2 ++ EvCall j (CTokGet iss2 v2) (ATok (SOk t')) :: g4)%list).
  destruct Hu as [_ X]; [rewrite <- !app_assoc; reflexivity|]. congruence.
Qed.
End Gen.

Lemma calls_two i h c0 a0 c a c2 a2 tr :
  calls_of i h = ((c0, a0) :: (c, a) :: (c2, a2) :: tr)%list ->
  exists h1 h2 h3, h = (h1 ++ EvCall i c a :: h2 ++ EvCall i c2 a2 :: h3)%list /\ calls_of i h3 = tr.
Proof.
  intros H. change ((c0, a0) :: (c, a) :: (c2, a2) :: tr)%list with ([(c0, a0)] ++ (c, a) :: (c2, a2) :: tr)%list in H.
  destruct (calls_of_split i _ _ _ _ _ H) as (h1 & h' & -> & _ & H').
  destruct (calls_of_split i _ [] _ _ _ H') as (h2 & h3 & -> & _ & H3).
  exists h1, h2, h3. auto.
Qed.

(** ** C08 *)

(** The read at the start of a refresh or an exchange. *)
Lemma subject_read E w xs i req res issuer v rt t0 c0 a0 tr m :
  token_ok (history E w xs) i req res ->
  calls_of i (history E w xs) =
    ((c0, a0) :: (CTokGet issuer v, ATok (SOk rt)) :: (CNow, ATime t0) :: tr)%list ->
  (unix t0 <= m_expires_at m)%N ->
  exists h1 h2, history E w xs = (h1 ++ EvCall i (CTokGet issuer v) (ATok (SOk rt)) :: h2)%list /\
    during h1 i (RToken (Some req)) /\ (unix (clock w h1) <= m_expires_at m)%N /\
    (forall c a, In (c, a) tr -> In (EvCall i c a) h2).
Proof.
  intros Hok H Hle. destruct (calls_two _ _ _ _ _ _ _ _ _ H) as (h1 & h2 & h3 & Hh & H3).
  exists h1. eexists. split; [exact Hh|]. split; [|split].
  - unfold during. eapply started_before; [exact Hh|apply Hok].
  - assert (X : t0 = clock w (h1 ++ EvCall i (CTokGet issuer v) (ATok (SOk rt)) :: h2)%list).
    { eapply now_at with (h2 := h3). rewrite Hh. list_eq. }
    etransitivity; [|exact Hle]. apply unix_mono. rewrite X. apply clock_app.
  - intros c a Hin. apply in_or_app. right. right. apply in_calls_of. rewrite H3. exact Hin.
Qed.

Lemma refresh_facts E w xs i req res :
  token_ok (history E w xs) i req res -> tq_grant_type req = "refresh_token"%string ->
  exists value c rt m h1 h2,
    tq_grant req = GRefreshToken value /\ client_of w req c /\ listed E (cl_grant_types c) "refresh_token" /\
    history E w xs = (h1 ++ EvCall i (CTokGet (tq_issuer req) value) (ATok (SOk rt)) :: h2)%list /\
    during h1 i (RToken (Some req)) /\ (unix (clock w h1) <= m_expires_at m)%N /\
    t_status rt = TsActive /\ t_type rt = TtRefresh /\ t_meta rt = Some m /\ m_client_id m = cl_id c /\
    (forall t, In t (tokens_of res) -> exists mt r, t_meta t = Some mt /\ t_status t = TsActive /\
       m_issuer mt = m_issuer m /\ m_subject mt = m_subject m /\ m_scope mt = m_scope m /\
       m_audience mt = m_audience m /\ m_client_id mt = cl_id c /\ t_cnf t = t_cnf rt /\
       In (EvCall i (CTokCreate (m_issuer m) t) (AUnit r)) h2 /\ is_ok r = true) /\
    tr_at res <> None /\ tr_idt res = None /\
    (forall t, tr_at res = Some t -> t_type t = TtAccess) /\
    (forall t, tr_rt res = Some t -> t_type t = TtRefresh) /\
    (tr_rt res <> None -> exists r, In (EvCall i (CTokRevoke (tq_issuer req) (t_id rt)) (AUnit r)) h2 /\ is_ok r = true).
Proof.
  intros Hok Hgt.
  destruct (token_ok_client _ _ _ _ _ _ Hok) as (auth & c & tr' & H1 & H2 & H3 & H4 & H5 & H6 & H7).
  destruct (matches_type _ _ H5) as (_ & _ & _ & M & _). destruct (M Hgt) as (value & Mg).
  pose proof (dispatch_grant _ _ _ _ _ H6 H5) as D. rewrite Mg in D. destruct D as [_ D].
  destruct (refresh_token_ok _ _ _ _ _ D H7)
    as (value' & rt & m & t0 & t & id & v & r & tr2 & R1 & R2 & R3 & R4 & R5 & R6 & R7 & R8 & R9 & R10 & R11 & R12 & R13).
  rewrite Mg in R1. injection R1 as <-. cbv zeta in R12. rewrite R12 in H3.
  destruct (subject_read _ _ _ _ _ _ _ _ _ _ _ _ _ _ Hok H3 R8) as (h1 & h2 & Hh & Hd & Hle & Hin).
  exists value, c, rt, m, h1, h2.
  split; [exact Mg|]. split; [exists auth; auto|]. split; [exact R4|]. split; [exact Hh|]. split; [exact Hd|].
  split; [exact Hle|]. do 4 (split; [assumption|]).
  destruct R13 as [(_ & -> & ->)|(_ & t2 & id2 & v2 & r2 & r3 & Q1 & Q2 & Q3 & -> & ->)].
  - cbn. split; [|repeat split; try discriminate; intros; congruence || (injection H as <-; reflexivity)].
    intros x [<-|[]]. eexists. exists r. repeat split; auto. apply Hin. right; right; right. left; auto.
  - cbn. split; [|repeat split; try discriminate; try (intros; injection H as <-; reflexivity)].
    + intros x [<-|[<-|[]]]; eexists; [exists r|exists r2]; repeat split; auto; apply Hin; cbn; tauto.
    + intros _. exists r3. split; auto. apply Hin. cbn. tauto.
Qed.

Lemma C08_refresh_gate_proof : forall E w xs i req res,
  registry_ok w -> no_tokens w -> no_reuse E (history E w xs) ->
  token_ok (history E w xs) i req res -> tq_grant_type req = "refresh_token"%string ->
  exists value rt m h1 h2,
    presents_refresh req (tq_issuer req) value /\
    history E w xs = (h1 ++ h2)%list /\ during h1 i (RToken (Some req)) /\
    live_as E h1 (tq_issuer req) value rt /\
    t_type rt = TtRefresh /\ t_status rt = TsActive /\ t_meta rt = Some m /\
    (unix (clock w h1) <= m_expires_at m)%N /\ by_client req (m_client_id m) /\
    tr_at res <> None /\ tr_idt res = None /\
    (forall t, tr_at res = Some t -> t_type t = TtAccess) /\
    (forall t, tr_rt res = Some t -> t_type t = TtRefresh) /\
    (forall t, In t (tokens_of res) -> exists mt, t_meta t = Some mt /\
       m_issuer mt = m_issuer m /\ m_subject mt = m_subject m /\ m_scope mt = m_scope m /\
       m_audience mt = m_audience m /\ by_client req (m_client_id mt) /\ t_cnf t = t_cnf rt).
Proof.
  intros E w xs i req res Hreg Hn Hu Hok Hgt.
  destruct (refresh_facts _ _ _ _ _ _ Hok Hgt) as (value & c & rt & m & h1 & h2 &
    F1 & F2 & F3 & F4 & F5 & F6 & F7 & F8 & F9 & F10 & F11 & F12 & F13 & F14 & F15 & _).
  destruct (tok_live _ _ _ _ _ _ _ _ _ Hn Hu F4 F7) as (t0 & iss' & L1 & ->).
  pose proof (client_of_id _ _ _ Hreg F2) as Hid.
  exists value, t0, m, h1. eexists. split; [split; auto|]. split; [exact F4|]. split; [exact F5|].
  split; [exact L1|]. do 3 (split; [assumption|]). split; [exact F6|]. split; [rewrite F10; auto|].
  do 4 (split; [assumption|]).
  intros t Hin. destruct (F11 t Hin) as (mt & r & G1 & G2 & G3 & G4 & G5 & G6 & G7 & G8 & _).
  exists mt. rewrite G7. auto 10.
Qed.

(** ** C09 *)

Lemma C09_refresh_rotation_partial_proof : forall E w xs h1 h2 i j req1 req2 res1 issuer value,
  no_tokens w -> no_reuse E (history E w xs) ->
  history E w xs = (h1 ++ h2)%list ->
  token_ok h1 i req1 res1 -> presents_refresh req1 issuer value ->
  (* the response of the first refresh carries a new refresh token *)
  tr_rt res1 <> None ->
  In (EvStart j (RToken (Some req2))) h2 -> presents_refresh req2 issuer value ->
  (forall res2, ~ token_ok (history E w xs) j req2 res2) /\
  (forall iss t a, ~ In (EvCall j (CTokCreate iss t) a) (history E w xs)).
Proof.
  intros E w xs h1 h2 i j req1 req2 res1 issuer value Hn Hu Hh Hok1 [Hi1 Hg1] Hrt Hst2 [Hi2 Hg2].
  assert (Hno : forall iss t a, ~ In (EvCall j (CTokCreate iss t) a) (history E w xs)).
  { intros iss' t a Hin.
    pose proof (token_ok_prefix _ h2 _ _ _ Hok1) as Hok1'. rewrite <- Hh in Hok1'.
    assert (Hgt : tq_grant_type req1 = "refresh_token"%string).
    { pose proof (grant_type_of _ _ _ _ _ _ Hok1') as X. rewrite Hg1 in X. exact X. }
    destruct (refresh_facts _ _ _ _ _ _ Hok1' Hgt) as (value1 & c & rt & m & g1 & g2 &
      F1 & F2 & F3 & F4 & F5 & F6 & F7 & F8 & F9 & F10 & F11 & F12 & F13 & F14 & F15 & F16).
    rewrite Hg1 in F1. injection F1 as <-. destruct (F16 Hrt) as (r & Hrev & Hr).
    (* everything i did is in h1 *)
    destruct (trace_history E w xs) as (sy & Ht & _). pose proof Ht as Ht'. rewrite Hh in Ht'.
    pose proof (done_earlier _ _ _ _ _ _ _ Ht' (proj2 (proj1 Hok1))) as Hnone.
    apply in_split in Hrev as (g3 & g4 & ->).
    (* the create of j is preceded by its read *)
    apply in_split in Hin as (k1 & k2 & Hk).
    destruct (write_reason _ _ _ _ _ _ _ _ Hk) as (r0 & R1 & R2).
    assert (r0 = RToken (Some req2)) as ->.
    { eapply start_unique; [exact Ht| |rewrite Hh; apply in_or_app; right; exact Hst2]. rewrite Hk. apply in_or_app; auto. }
    destruct R2 as (rq & X & auth & c' & m' & tm & J1 & J2 & J3 & J4 & J5 & J6 & J7 & J8 & J9 & J10).
    injection X as <-. unfold grant_just in J10. rewrite Hg2 in J10.
    destruct J10 as (rt2 & m2 & t2 & D1 & _ & D3 & _). apply did_event in D1.
    assert (Hrd : In (EvCall j (CTokGet (tq_issuer req2) value) (ATok (SOk rt2))) (history E w xs)).
    { rewrite Hk. apply in_or_app; auto. }
    pose proof (started_later _ _ _ _ _ _ _ Ht' Hst2) as Hlater.
    (* position of the revocation in h1 *)
    rewrite Hh in Hrd. apply in_app_or in Hrd as [Hrd|Hrd].
    { apply in_calls_of in Hrd. rewrite Hlater in Hrd. destruct Hrd. }
    assert (Hpos : exists u, h1 = (g1 ++ EvCall i (CTokGet (tq_issuer req1) value) (ATok (SOk rt)) :: g3 ++
        EvCall i (CTokRevoke (tq_issuer req1) (t_id rt)) (AUnit r) :: u)%list /\ g4 = (u ++ h2)%list).
    { assert (Heq : ((g1 ++ EvCall i (CTokGet (tq_issuer req1) value) (ATok (SOk rt)) :: g3 ++
        [EvCall i (CTokRevoke (tq_issuer req1) (t_id rt)) (AUnit r)]) ++ g4)%list = (h1 ++ h2)%list).
      { rewrite <- Hh, F4. list_eq. }
      apply app_eq_app in Heq as (u & [[X Y]|[X Y]]).
      - destruct u as [|z u].
        + rewrite app_nil_r in X. exists []. split; [rewrite <- X; list_eq|auto].
        + exfalso. assert (In (EvCall i (CTokRevoke (tq_issuer req1) (t_id rt)) (AUnit r)) h2).
          { rewrite Y. apply in_or_app. left.
            assert (Hl : exists u', z :: u = (u' ++ [EvCall i (CTokRevoke (tq_issuer req1) (t_id rt)) (AUnit r)])%list).
            { destruct (exists_last (l := z :: u)) as (u' & y & Hu'); [discriminate|]. rewrite Hu' in X.
              change (?a ++ ?x :: ?b ++ ?c)%list with (a ++ (x :: b) ++ c)%list in X.
              rewrite !app_assoc in X. apply app_inj_tail in X as [_ <-]. eauto. }
            destruct Hl as (u' & ->). apply in_or_app; right; left; auto. }
          apply in_calls_of in H. rewrite Hnone in H. destruct H.
      - exists u. split; [rewrite X; list_eq|auto]. }
    destruct Hpos as (u & -> & ->).
    apply in_split in Hrd as (l1 & l2 & ->).
    assert (t_status rt2 = TsRevoked); [|congruence].
    eapply (revoked_reads E w xs g1 i (tq_issuer req1) value rt g3 i (tq_issuer req1) r (u ++ l1)%list j
              (tq_issuer req2) value rt2 l2); auto; [|congruence].
    rewrite Hh. list_eq. }
  split; [|exact Hno].
  intros res2 Hok2.
  assert (Hgt : tq_grant_type req2 = "refresh_token"%string).
  { pose proof (grant_type_of _ _ _ _ _ _ Hok2) as X. rewrite Hg2 in X. exact X. }
  destruct (refresh_facts _ _ _ _ _ _ Hok2 Hgt) as (value2 & c & rt & m & g1 & g2 &
      F1 & F2 & F3 & F4 & F5 & F6 & F7 & F8 & F9 & F10 & F11 & F12 & _).
  destruct (tr_at res2) as [t|] eqn:Hat; [|congruence].
  destruct (F11 t) as (mt & r & _ & _ & _ & _ & _ & _ & _ & _ & Hc & _).
  { unfold tokens_of. rewrite Hat. left; auto. }
  eapply Hno. rewrite F4. apply in_or_app. right. right. exact Hc.
Qed.
