(** * Revocation, exchange, device grant: proofs *)

From Verif Require Export PfErr.

Lemma introspect_facts E w xs i req res :
  answered (history E w xs) i (RIntrospect (Some req)) (PIntrospect res) ->
  (ir_err res = true /\ ir_token res = None) \/
  exists rt, ir_err res = false /\
    In (EvCall i (CTokGet (vq_issuer req) (vq_token req)) (ATok rt)) (history E w xs) /\
    ir_token res = match rt with
      | SOk t => Some t
      | SNotFound => Some (mkToken (vq_issuer req) TtUnspecified "" None TsUnknown (vq_token req) None)
      | _ => None end.
Proof.
  intros Ha. destruct (ir_err res) eqn:He.
  - left. split; auto. destruct Ha as [H1 H2].
    apply (ends_history E w xs i _ _ (fun o => match o with Done (PIntrospect res) =>
       ir_err res = true -> ir_token res = None | _ => True end) typed H1 H2 (history_typed E w xs i)); auto.
    cbn [serve]. unfold pmap. apply ends_bind.
    eapply ends_weaken; [|apply introspect_ends; auto]. intros [o|]; cbn; auto. tauto.
  - right. apply answered_runs in Ha. cbn in Ha. apply reach_pmap_ret in Ha as (res' & X & Ha). injection X as <-.
    destruct (introspect_ok _ _ _ _ Ha He) as (auth & rc & rt & _ & _ & _ & _ & _ & Htr & Hres & _).
    exists rt. split; auto. split; [apply in_calls_of; rewrite Htr; cbn; auto|]. rewrite Hres. reflexivity.
Qed.

(** Calls of a request that has answered within [h1] are in [h1]. *)
Lemma call_in_done E w xs h1 h2 i o g1 c a g2 :
  history E w xs = (h1 ++ h2)%list -> In (EvDone i o) h1 ->
  history E w xs = (g1 ++ EvCall i c a :: g2)%list ->
  exists u, h1 = (g1 ++ EvCall i c a :: u)%list /\ g2 = (u ++ h2)%list.
Proof.
  intros Hh Hd Hg. destruct (trace_history E w xs) as (sy & Ht & _). pose proof Ht as Ht'. rewrite Hh in Ht'.
  pose proof (done_earlier _ _ _ _ _ _ _ Ht' Hd) as Hnone.
  assert (Heq : ((g1 ++ [EvCall i c a]) ++ g2)%list = (h1 ++ h2)%list).
  { rewrite <- Hh, Hg. list_eq. }
  apply app_eq_app in Heq as (u & [[X Y]|[X Y]]).
  - destruct u as [|z u].
    + rewrite app_nil_r in X. exists []. split; [rewrite <- X; list_eq|auto].
    + exfalso. assert (In (EvCall i c a) h2).
      { rewrite Y. apply in_or_app. left.
        destruct (exists_last (l := z :: u)) as (u' & y & Hu'); [discriminate|]. rewrite Hu' in X |- *.
        rewrite app_assoc in X. apply app_inj_tail in X as [_ <-]. apply in_or_app; right; left; auto. }
      apply in_calls_of in H. rewrite Hnone in H. destruct H.
  - exists u. split; [rewrite X; list_eq|auto].
Qed.

(** Calls of a request that starts in [h2] are in [h2]. *)
Lemma call_in_later E w xs h1 h2 j r c a :
  history E w xs = (h1 ++ h2)%list -> In (EvStart j r) h2 ->
  In (EvCall j c a) (history E w xs) -> exists l1 l2, h2 = (l1 ++ EvCall j c a :: l2)%list.
Proof.
  intros Hh Hst Hin. destruct (trace_history E w xs) as (sy & Ht & _). rewrite Hh in Ht.
  pose proof (started_later _ _ _ _ _ _ _ Ht Hst) as Hlater.
  rewrite Hh in Hin. apply in_app_or in Hin as [Hin|Hin]; [|apply in_split; exact Hin].
  apply in_calls_of in Hin. rewrite Hlater in Hin. destruct Hin.
Qed.

(** Tokens created on the strength of a token need it to be read as active. *)
Lemma create_needs_active E w xs j req issuer value iss t a :
  asked (history E w xs) j (RToken (Some req)) ->
  presents_refresh req issuer value \/ presents_subject req issuer value ->
  In (EvCall j (CTokCreate iss t) a) (history E w xs) ->
  exists rt, In (EvCall j (CTokGet issuer value) (ATok (SOk rt))) (history E w xs) /\ t_status rt = TsActive.
Proof.
  intros Hst Hp Hin. apply in_split in Hin as (k1 & k2 & Hk).
  destruct (write_reason _ _ _ _ _ _ _ _ Hk) as (r0 & R1 & R2).
  assert (r0 = RToken (Some req)) as ->.
  { destruct (trace_history E w xs) as (sy & Ht & _).
    eapply start_unique; [exact Ht| |exact Hst]. rewrite Hk. apply in_or_app; auto. }
  destruct R2 as (rq & X & auth & c' & m' & tm & J1 & J2 & J3 & J4 & J5 & J6 & J7 & J8 & J9 & J10).
  injection X as <-. unfold grant_just in J10.
  destruct Hp as [[<- Hg]|[<- (ty & Hg)]]; rewrite Hg in J10.
  - destruct J10 as (rt2 & m2 & t2 & D1 & _ & D3 & _). apply did_event in D1.
    exists rt2. split; auto. rewrite Hk. apply in_or_app; auto.
  - destruct J10 as (rt2 & m2 & t2 & s2 & aud & D1 & _ & D3 & _). apply did_event in D1.
    exists rt2. split; auto. rewrite Hk. apply in_or_app; auto.
Qed.

(** A successful exchange. *)
Lemma exchange_facts E w xs i req res :
  token_ok (history E w xs) i req res ->
  tq_grant_type req = "urn:ietf:params:oauth:grant-type:token-exchange"%string ->
  exists value c st m h1 h2 nt r mt,
    presents_subject req (tq_issuer req) value /\ client_of w req c /\
    listed E (cl_grant_types c) "urn:ietf:params:oauth:grant-type:token-exchange" /\
    history E w xs = (h1 ++ EvCall i (CTokGet (tq_issuer req) value) (ATok (SOk st)) :: h2)%list /\
    during h1 i (RToken (Some req)) /\ (unix (clock w h1) <= m_expires_at m)%N /\
    t_status st = TsActive /\ t_type st = TtAccess /\ t_meta st = Some m /\
    tr_at res = Some nt /\ tokens_of res = [nt] /\ t_type nt = TtAccess /\ t_status nt = TsActive /\
    t_meta nt = Some mt /\ m_issuer mt = m_issuer m /\ m_subject mt = m_subject m /\
    m_client_id mt = cl_id c /\ t_cnf nt = t_cnf st /\ m_expires_at mt = (m_issued_at mt + 60)%N /\
    m_scope mt = match tq_scope req with Some s => s | None => m_scope m end /\
    In (EvCall i (CTokCreate (tq_issuer req) nt) (AUnit r)) h2 /\ is_ok r = true.
Proof.
  intros Hok Hgt.
  destruct (token_ok_client _ _ _ _ _ _ Hok) as (auth & c & tr' & H1 & H2 & H3 & H4 & H5 & H6 & H7).
  destruct (matches_type _ _ H5) as (_ & _ & _ & _ & M). destruct (M Hgt) as (value & ty & Mg).
  pose proof (dispatch_grant _ _ _ _ _ H6 H5) as D. rewrite Mg in D. destruct D as [_ D].
  destruct (token_exchange_ok _ _ _ _ _ D H7)
    as (value' & st & m & t0 & t & id & v & r & aud & tra & R1 & R2 & R3 & R4 & R5 & R6 & R7 & R8 & R9 & R10 & R11 & R12 & R13).
  rewrite Mg in R1. injection R1 as <- ->. rewrite R12 in H3.
  destruct (subject_read _ _ _ _ _ _ _ _ _ _ _ _ _ _ Hok H3 R8) as (h1 & h2 & Hh & Hd & Hle & Hin).
  exists value, c, st, m, h1, h2. do 3 eexists.
  split; [split; eauto|]. split; [exists auth; auto|]. split; [exact R4|]. split; [exact Hh|]. split; [exact Hd|].
  split; [exact Hle|]. do 3 (split; [assumption|]). rewrite R13.
  split; [reflexivity|]. split; [reflexivity|]. do 5 (split; [reflexivity|]).
  split; [reflexivity|]. split; [reflexivity|]. split; [|].
  { cbn. unfold unix, minute. rewrite N.add_comm. change (60 * second)%N with (60 * 1000000000)%N.
    unfold second. rewrite N.div_add_l by discriminate. lia. }
  split; [reflexivity|]. split; [|exact R10].
  apply Hin. right. right. apply in_or_app. right. right. left. reflexivity.
Qed.

(** ** C10 *)

Lemma revoke_facts E w xs i req res :
  answered (history E w xs) i (RRevoke (Some req)) (PRevoke res) -> rr_err res = false ->
  exists t r h1 h2 h3,
    history E w xs = (h1 ++ EvCall i (CTokGet (vq_issuer req) (vq_token req)) (ATok (SOk t)) :: h2 ++
                      EvCall i (CTokRevoke (vq_issuer req) (t_id t)) (AUnit r) :: h3)%list /\ is_ok r = true.
Proof.
  intros Ha He. apply answered_runs in Ha. cbn in Ha. apply reach_pmap_ret in Ha as (res' & X & Ha).
  injection X as <-.
  destruct (revoke_ok _ _ _ _ Ha He) as (auth & rc & t & r & _ & _ & _ & _ & _ & Hr & Htr & _).
  destruct (calls_two _ _ _ _ _ _ _ _ _ Htr) as (h1 & h2 & h3 & Hh & _).
  exists t, r, h1, h2, h3. auto.
Qed.

Lemma C10_revocation_permanent_proof : forall E w xs h1 h2 i req res,
  no_tokens w -> no_reuse E (history E w xs) -> history E w xs = (h1 ++ h2)%list ->
  answered h1 i (RRevoke (Some req)) (PRevoke res) -> rr_err res = false ->
  (forall j req2, In (EvStart j (RToken (Some req2))) h2 ->
     presents_refresh req2 (vq_issuer req) (vq_token req) \/ presents_subject req2 (vq_issuer req) (vq_token req) ->
     (forall res2, ~ token_ok (history E w xs) j req2 res2) /\
     (forall iss t a, ~ In (EvCall j (CTokCreate iss t) a) (history E w xs))) /\
  (forall j req2 res2 t, In (EvStart j (RIntrospect (Some req2))) h2 ->
     vq_issuer req2 = vq_issuer req -> vq_token req2 = vq_token req ->
     answered (history E w xs) j (RIntrospect (Some req2)) (PIntrospect res2) -> ir_token res2 = Some t ->
     t_status t <> TsActive) /\
  (forall j req2 res2, no_faults xs -> In (EvStart j (RIntrospect (Some req2))) h2 ->
     vq_issuer req2 = vq_issuer req -> vq_token req2 = vq_token req ->
     answered (history E w xs) j (RIntrospect (Some req2)) (PIntrospect res2) -> ir_err res2 = false ->
     exists t, ir_token res2 = Some t /\ t_status t = TsRevoked).
Proof.
  intros E w xs h1 h2 i req res Hn Hu Hh Hans He.
  assert (Hans' : answered (history E w xs) i (RRevoke (Some req)) (PRevoke res)).
  { rewrite Hh. destruct Hans. split; apply in_or_app; auto. }
  destruct (revoke_facts _ _ _ _ _ _ Hans' He) as (t & r & g1 & g2 & g3 & Hg & Hr).
  assert (Hg' : history E w xs = ((g1 ++ EvCall i (CTokGet (vq_issuer req) (vq_token req)) (ATok (SOk t)) :: g2) ++
                      EvCall i (CTokRevoke (vq_issuer req) (t_id t)) (AUnit r) :: g3)%list)
    by (rewrite Hg; list_eq).
  destruct (call_in_done _ _ _ _ _ _ _ _ _ _ _ Hh (proj2 Hans) Hg') as (u & -> & ->).
  assert (Hread : forall j rq t', In (EvStart j rq) h2 ->
     In (EvCall j (CTokGet (vq_issuer req) (vq_token req)) (ATok (SOk t'))) (history E w xs) ->
     t_status t' = TsRevoked).
  { intros j rq t' Hst Hin.
    destruct (call_in_later _ _ _ _ _ _ _ _ _ Hh Hst Hin) as (l1 & l2 & ->).
    eapply (revoked_reads E w xs g1 i _ _ t g2 i (vq_issuer req) r (u ++ l1)%list j _ _ t' l2); auto.
    rewrite Hg. list_eq. }
  split; [|split].
  - intros j req2 Hst Hp.
    assert (Hno : forall iss t a, ~ In (EvCall j (CTokCreate iss t) a) (history E w xs)).
    { intros iss' t' a Hin.
      assert (Hask : asked (history E w xs) j (RToken (Some req2))) by (rewrite Hh; apply in_or_app; auto).
      destruct (create_needs_active _ _ _ _ _ _ _ _ _ _ Hask Hp Hin) as (rt & Hrd & Hact).
      rewrite (Hread _ _ _ Hst Hrd) in Hact. discriminate. }
    split; [|exact Hno]. intros res2 Hok2.
    destruct Hp as [[Hi Hgr]|[Hi (ty & Hgr)]].
    + assert (Hgt : tq_grant_type req2 = "refresh_token"%string).
      { pose proof (grant_type_of _ _ _ _ _ _ Hok2) as X. rewrite Hgr in X. exact X. }
      destruct (refresh_facts _ _ _ _ _ _ Hok2 Hgt) as (value2 & c & rt & m & k1 & k2 &
        F1 & F2 & F3 & F4 & F5 & F6 & F7 & F8 & F9 & F10 & F11 & F12 & _).
      destruct (tr_at res2) as [t2|] eqn:Hat; [|congruence].
      destruct (F11 t2) as (mt & r2 & _ & _ & _ & _ & _ & _ & _ & _ & Hc & _).
      { unfold tokens_of. rewrite Hat. left; auto. }
      eapply Hno. rewrite F4. apply in_or_app. right. right. exact Hc.
    + assert (Hgt : tq_grant_type req2 = "urn:ietf:params:oauth:grant-type:token-exchange"%string).
      { pose proof (grant_type_of _ _ _ _ _ _ Hok2) as X. rewrite Hgr in X. exact X. }
      destruct (exchange_facts _ _ _ _ _ _ Hok2 Hgt) as (value2 & c & st & m & k1 & k2 & nt & r2 & mt & F).
      eapply Hno. destruct F as (_ & _ & _ & F4 & _ & _ & _ & _ & _ & _ & _ & _ & _ & _ & _ & _ & _ & _ & _ & _ & Hc & _).
      rewrite F4. apply in_or_app. right. right. exact Hc.
  - intros j req2 res2 t' Hst Hi Hv Ha2 Ht'.
    destruct (introspect_facts _ _ _ _ _ _ Ha2) as [[_ X]|(rt & X & Hin & Hres)]; [congruence|].
    rewrite Hi, Hv in Hin. rewrite Hres in Ht'.
    destruct rt as [t2| | |]; try discriminate; injection Ht' as <-; [|discriminate].
    rewrite (Hread _ _ _ Hst Hin). discriminate.
  - intros j req2 res2 Hnf Hst Hi Hv Ha2 He2.
    destruct (introspect_facts _ _ _ _ _ _ Ha2) as [[X _]|(rt & _ & Hin & Hres)]; [congruence|].
    rewrite Hi, Hv in Hin.
    assert (Hrt : exists t', rt = SOk t').
    { destruct (call_in_later _ _ _ _ _ _ _ _ _ Hh Hst Hin) as (l1 & l2 & ->).
      pose proof (history_ftrace E w xs Hnf) as Hft.
      assert (Heq : history E w xs = (g1 ++ EvCall i (CTokGet (vq_issuer req) (vq_token req)) (ATok (SOk t)) :: (g2 ++
          EvCall i (CTokRevoke (vq_issuer req) (t_id t)) (AUnit r) :: u ++ l1) ++
          EvCall j (CTokGet (vq_issuer req) (vq_token req)) (ATok rt) :: l2)%list) by (rewrite Hg; list_eq).
      rewrite Heq in Hft.
      destruct (ftrace_at _ _ _ _ _ _ _ _ Hft) as (wa & oa & wb & A1 & A2 & A3 & A4).
      apply read_tok in A2 as (-> & A2).
      destruct (ftrace_at _ _ _ _ _ _ _ _ A4) as (wc & oc & wd & B1 & B2 & B3 & B4).
      destruct (full_tok _ _ _ _ B3 _ _ _ B2) as (_ & Hrt).
      assert (A1' : wtrace E w (g1 ++ [EvCall i (CTokGet (vq_issuer req) (vq_token req)) (ATok (SOk t))])%list wa).
      { eapply wtrace_join; [apply ftrace_wtrace; exact A1|]. econstructor; [|constructor].
        instantiate (1 := ok). cbn. rewrite A2. reflexivity. }
      assert (Hu' : no_reuse E ((g1 ++ [EvCall i (CTokGet (vq_issuer req) (vq_token req)) (ATok (SOk t))]) ++
         (g2 ++ EvCall i (CTokRevoke (vq_issuer req) (t_id t)) (AUnit r) :: u ++ l1))%list).
      { rewrite Heq in Hu.
        apply (no_reuse_app _ _ (EvCall j (CTokGet (vq_issuer req) (vq_token req)) (ATok rt) :: l2)%list).
        eapply eq_ind; [exact Hu|]. list_eq. }
      destruct (tval_evolves E w _ wa _ wc _ _ Hn A1' (ftrace_wtrace _ _ _ _ B1) Hu' A2) as [X|[X _]];
        rewrite X in Hrt; eauto. }
    destruct Hrt as (t' & ->). exists t'. rewrite Hres. split; auto. eapply Hread; eauto.
Qed.

(** ** C12, C13 *)

Lemma C12_exchange_gate_proof : forall E w xs i req res,
  registry_ok w -> no_tokens w -> no_reuse E (history E w xs) ->
  token_ok (history E w xs) i req res ->
  tq_grant_type req = "urn:ietf:params:oauth:grant-type:token-exchange"%string ->
  exists value st m nt mt h1 h2,
    presents_subject req (tq_issuer req) value /\
    history E w xs = (h1 ++ h2)%list /\ during h1 i (RToken (Some req)) /\
    live_as E h1 (tq_issuer req) value st /\
    t_type st = TtAccess /\ t_status st = TsActive /\ t_meta st = Some m /\
    (unix (clock w h1) <= m_expires_at m)%N /\
    tr_at res = Some nt /\ tokens_of res = [nt] /\ t_type nt = TtAccess /\ t_meta nt = Some mt /\
    m_issuer mt = m_issuer m /\ m_subject mt = m_subject m /\ t_cnf nt = t_cnf st /\
    by_client req (m_client_id mt) /\ m_expires_at mt = (m_issued_at mt + 60)%N.
Proof.
  intros E w xs i req res Hreg Hn Hu Hok Hgt.
  destruct (exchange_facts _ _ _ _ _ _ Hok Hgt) as (value & c & st & m & h1 & h2 & nt & r & mt &
    F1 & F2 & F3 & F4 & F5 & F6 & F7 & F8 & F9 & F10 & F11 & F12 & F13 & F14 & F15 & F16 & F17 & F18 & F19 & F20 & _).
  destruct (tok_live _ _ _ _ _ _ _ _ _ Hn Hu F4 F7) as (t0 & iss' & L1 & ->).
  exists value, t0, m, nt, mt, h1. eexists.
  split; [exact F1|]. split; [exact F4|]. split; [exact F5|]. split; [exact L1|].
  repeat (split; [assumption|]). split; auto. rewrite F17. eapply client_of_id; eauto.
Qed.

(** app exchanges its token for one with a scope nobody authorized. *)
Definition x_widen : list sched :=
  (x_code ++ full 2 (RToken (Some (exchangereq webapp "at-1" (Some "admin"))))
     [ok; ok; ok; ok; say "id-3"; ok; say "at-2"; ok])%list.

Lemma C13_exchange_scope_refuted_proof :
  exists E w xs i req res value st m nt mt s,
    blank w /\ registry_ok w /\ no_faults xs /\ token_ok (history E w xs) i req res /\
    presents_subject req (tq_issuer req) value /\ stored_as E (history E w xs) (tq_issuer req) value st /\
    t_meta st = Some m /\ tr_at res = Some nt /\ t_meta nt = Some mt /\
    asks E (m_scope mt) s /\ ~ asks E (m_scope m) s.
Proof.
  assert (Hres : exists res nt mt, token_ok (history demo_ext w0 x_widen) 2 (exchangereq webapp "at-1" (Some "admin")) res /\
    tr_at res = Some nt /\ t_meta nt = Some mt /\ m_scope mt = "admin"%string).
  { do 3 eexists. split; [demo_ok|]. split; [vm_compute; reflexivity|]. split; [vm_compute; reflexivity|]. vm_compute. reflexivity. }
  destruct Hres as (res & nt & mt & R1 & R2 & R3 & R4).
  exists demo_ext, w0, x_widen, 2%nat, (exchangereq webapp "at-1" (Some "admin")), res, "at-1"%string.
  assert (Hst : exists st m, stored_as demo_ext (history demo_ext w0 x_widen) iss "at-1" st /\ t_meta st = Some m /\
    m_scope m = all_scope).
  { do 2 eexists. split; [exists 1%nat; do 2 eexists; split; [vm_compute; repeat (first [left; reflexivity|right])|]|].
    - reflexivity.
    - split; reflexivity. }
  destruct Hst as (st & m & S1 & S2 & S3). exists st, m, nt, mt, "admin"%string.
  split; [apply blank_w0|]. split; [apply registry_demo|].
  split; [repeat (constructor; [exact I || reflexivity|]); constructor|].
  split; [exact R1|]. split; [split; [reflexivity|eexists; reflexivity]|]. split; [exact S1|].
  split; [exact S2|]. split; [exact R2|]. split; [exact R3|]. rewrite R4, S3. split.
  - apply has_iff. vm_compute. reflexivity.
  - unfold asks. rewrite <- has_iff. vm_compute. discriminate.
Qed.

(** Without a requested scope, or with one inside the subject token's, nothing is added. *)
Lemma C13_exchange_scope_partial_proof : forall E w xs i req res,
  no_tokens w -> token_ok (history E w xs) i req res ->
  tq_grant_type req = "urn:ietf:params:oauth:grant-type:token-exchange"%string ->
  (* no scope is requested *)
  tq_scope req = None ->
  exists value st m nt mt,
    presents_subject req (tq_issuer req) value /\ stored_as E (history E w xs) (tq_issuer req) value st /\
    t_meta st = Some m /\ tr_at res = Some nt /\ tokens_of res = [nt] /\ t_meta nt = Some mt /\
    m_scope mt = m_scope m.
Proof.
  intros E w xs i req res Hn Hok Hgt Hsc.
  destruct (exchange_facts _ _ _ _ _ _ Hok Hgt) as (value & c & st & m & h1 & h2 & nt & r & mt &
    F1 & F2 & F3 & F4 & F5 & F6 & F7 & F8 & F9 & F10 & F11 & F12 & F13 & F14 & F15 & F16 & F17 & F18 & F19 & F20 & _).
  destruct (tok_origin _ _ _ _ _ _ _ _ _ Hn F4) as (t0 & iss' & (k & i' & a & S1 & S2) & Ht).
  exists value, t0, m, nt, mt. split; [exact F1|].
  split; [exists k, i', a; split; auto; rewrite F4; apply in_or_app; auto|].
  split; [destruct Ht as [->| ->]; exact F9|]. split; [exact F10|]. split; [exact F11|]. split; [exact F14|].
  rewrite F20, Hsc. reflexivity.
Qed.

(** ** C11 *)

Definition introq (v : string) : request := RIntrospect (Some (mkValReq iss (Some webapp) v)).
(** evil revokes app's access token *)
Definition x_revoke : list sched :=
  (x_code ++ full 2 (introq "at-1") [ok; ok] ++
   full 3 (RRevoke (Some (mkValReq iss (Some evil) "at-1"))) [ok; ok; ok] ++
   full 4 (introq "at-1") [ok; ok])%list.

Lemma answered_demo h i r p l :
  nth_error (starts h) i = Some (EvStart i r) -> answers i h = (Done p :: l)%list -> answered h i r p.
Proof. intros H1 H2. split; [eapply started_demo; eauto|eapply answers_in; eauto]. Qed.
Ltac demo_ans := eapply answered_demo; vm_compute; reflexivity.

Lemma C11_owner_revokes_refuted_proof :
  exists E w xs req res owner other r1 r2 t1 t2 m,
    blank w /\ registry_ok w /\ no_faults xs /\
    (* a token of app is active, ... *)
    answered (history E w xs) 2 owner (PIntrospect r1) /\ ir_token r1 = Some t1 /\
    t_status t1 = TsActive /\ t_meta t1 = Some m /\ m_client_id m = "app"%string /\
    (* ... another client revokes it ... *)
    answered (history E w xs) 3 (RRevoke (Some req)) (PRevoke res) /\ rr_err res = false /\
    vq_client req = Some other /\ cl_id other = "evil"%string /\
    (* ... and it is revoked. *)
    answered (history E w xs) 4 owner (PIntrospect r2) /\ ir_token r2 = Some t2 /\
    t_status t2 = TsRevoked /\ t_meta t2 = Some m.
Proof.
  exists demo_ext, w0, x_revoke. do 9 eexists.
  split; [apply blank_w0|]. split; [apply registry_demo|].
  split; [repeat (constructor; [exact I || reflexivity|]); constructor|].
  split; [demo_ans|]. do 4 (split; [cbn; reflexivity|]).
  split; [demo_ans|]. do 3 (split; [cbn; reflexivity|]).
  split; [demo_ans|]. do 2 (split; [cbn; reflexivity|]). reflexivity.
Qed.

Lemma C11_revokes_what_is_presented_partial_proof : forall E w xs h1 i iss' id a h2 req,
  no_tokens w -> history E w xs = (h1 ++ EvCall i (CTokRevoke iss' id) a :: h2)%list ->
  asked (history E w xs) i (RRevoke (Some req)) ->
  exists t, stored_as E h1 (vq_issuer req) (vq_token req) t /\ t_id t = id.
Proof.
  intros E w xs h1 i iss' id a h2 req Hn Hh Hst.
  destruct (write_reason _ _ _ _ _ _ _ _ Hh) as (r & R1 & R2).
  assert (r = RRevoke (Some req)) as ->.
  { destruct (trace_history E w xs) as (sy & Ht & _).
    eapply start_unique; [exact Ht| |exact Hst]. rewrite Hh. apply in_or_app; auto. }
  destruct R2 as [(rq & t & X & -> & -> & D & _)|(rq & value & t & X & _)]; [|discriminate].
  injection X as <-. apply did_event in D. apply in_split in D as (k1 & k2 & ->).
  rewrite <- app_assoc in Hh. cbn in Hh.
  destruct (tok_origin _ _ _ _ _ _ _ _ _ Hn Hh) as (t0 & i' & (k & i2 & a2 & S1 & S2) & Ht).
  exists t0. split; [exists k, i2, a2; split; auto; apply in_or_app; auto|].
  destruct Ht as [->| ->]; reflexivity.
Qed.


(** ** C09 *)

(** app refreshes twice with "rt-1" right after it was issued. *)
Definition x_refresh2 : list sched :=
  (x_code ++ full 2 (RToken (Some (refreshreq webapp "rt-1"))) ([ok; ok; ok] ++ os_tok "id-3" "at-2") ++
   full 3 (RToken (Some (refreshreq webapp "rt-1"))) ([ok; ok; ok] ++ os_tok "id-4" "at-3"))%list.

Lemma C09_refresh_reuse_refuted_proof :
  exists E w xs h1 h2 i j req1 req2 res1 res2 issuer value,
    blank w /\ registry_ok w /\ no_faults xs /\ history E w xs = (h1 ++ h2)%list /\
    token_ok h1 i req1 res1 /\ presents_refresh req1 issuer value /\
    In (EvStart j (RToken (Some req2))) h2 /\ presents_refresh req2 issuer value /\
    token_ok (history E w xs) j req2 res2.
Proof.
  set (n := 27%nat).
  exists demo_ext, w0, x_refresh2, (firstn n (history demo_ext w0 x_refresh2)),
    (skipn n (history demo_ext w0 x_refresh2)), 2%nat, 3%nat,
    (refreshreq webapp "rt-1"), (refreshreq webapp "rt-1").
  do 2 eexists. exists iss, "rt-1"%string.
  split; [apply blank_w0|]. split; [apply registry_demo|].
  split; [repeat (constructor; [exact I || reflexivity|]); constructor|].
  split; [symmetry; apply firstn_skipn|].
  split; [demo_ok|]. split; [split; reflexivity|].
  split; [vm_compute; repeat (first [left; reflexivity|right])|].
  split; [split; reflexivity|]. demo_ok.
Qed.
