(** * What is bound to succeed over HTTP: the SDK client (proofs) *)

From Verif Require Export PfWebLive2 PfIssuer PfHttp PfDev3.
From Coq Require Import Lia.

(** ** One issuer *)

Lemma created_home E w xs I : no_tokens w ->
  (forall j req, asked (history E w xs) j (RToken (Some req)) -> tq_issuer req = I) ->
  forall h1 i iss t a h2, history E w xs = (h1 ++ EvCall i (CTokCreate iss t) a :: h2)%list ->
  iss = I /\ exists m, t_meta t = Some m /\ m_issuer m = I.
Proof.
  intros Hn Ha h1. induction h1 as [h1 IH] using (induction_ltof1 _ (@List.length event)).
  unfold ltof in IH. intros i iss t a h2 Hh.
  destruct (write_reason _ _ _ _ _ _ _ _ Hh) as (r & R1 & R2). destruct R2 as (req & -> & J).
  assert (Hq : tq_issuer req = I). { apply (Ha i). unfold asked. rewrite Hh. apply in_or_app; auto. }
  assert (Hread : forall v st, did (calls_of i h1) (CTokGet (tq_issuer req) v) (ATok (SOk st)) ->
    exists m, t_meta st = Some m /\ m_issuer m = I).
  { intros v st Hin. apply did_event in Hin. apply in_split in Hin as (g1 & g2 & ->).
    assert (Hsp : history E w xs = (g1 ++ EvCall i (CTokGet (tq_issuer req) v) (ATok (SOk st)) ::
     (g2 ++ EvCall i (CTokCreate iss t) a :: h2))%list) by (rewrite Hh; list_eq).
    destruct (tok_origin _ _ _ _ _ _ _ _ _ Hn Hsp) as (t0 & iss' & (k & i' & a' & S1 & S2) & Ht).
    apply in_split in S1 as (e1 & e2 & ->).
    destruct (IH e1) with (i := k) (iss := i') (t := t0) (a := a') (h2 := (e2 ++ EvCall i (CTokGet (tq_issuer req) v) (ATok (SOk st)) ::
     (g2 ++ EvCall i (CTokCreate iss t) a :: h2))%list) as (_ & m & Q3 & Q4).
    { rewrite !app_length. cbn. rewrite ?app_length. lia. }
    { rewrite Hsp. list_eq. }
    exists m. split; [|exact Q4]. destruct Ht as [->| ->]; exact Q3. }
  destruct J as (auth & c & m & tm & H1 & H2 & H3 & H4 & H5 & H6 & H7 & H8 & H9 & H10).
  unfold grant_just in H10. destruct (tq_grant req) as [|code redirect verif| |code|value|value ty] eqn:Hg.
  - destruct H10.
  - destruct H10 as (s & ar & rd & _ & _ & _ & _ & _ & -> & [X|[_ X]]); rewrite X in H4 |- *; cbn in H4; injection H4 as <-;
      (split; [exact Hq|]); eexists; (split; [reflexivity|]); exact Hq.
  - destruct H10 as (_ & _ & X & ->). rewrite X in H4 |- *; cbn in H4; injection H4 as <-;
      (split; [exact Hq|]); eexists; (split; [reflexivity|]); exact Hq.
  - destruct H10 as (s & dr & dc & sub & t0 & _ & _ & _ & _ & _ & _ & _ & _ & -> & _ & [X|[_ X]]);
      rewrite X in H4 |- *; cbn in H4; injection H4 as <-; (split; [exact Hq|]); eexists; (split; [reflexivity|]); exact Hq.
  - destruct H10 as (rt & m0 & t0 & G1 & _ & _ & _ & G2 & _ & _ & -> & _ & X).
    destruct (Hread _ _ G1) as (m' & M1 & M2). assert (m0 = m') as -> by congruence.
    destruct X as [X|X]; rewrite X in H4 |- *; cbn in H4; injection H4 as <-; (split; [exact M2|]); eexists; (split; [reflexivity|]); exact M2.
  - destruct H10 as (st & m0 & t0 & sc & aud & G1 & _ & _ & _ & G2 & _ & -> & _ & _ & X).
    destruct (Hread _ _ G1) as (m' & M1 & M2). assert (m0 = m') as -> by congruence.
    rewrite X in H4 |- *; cbn in H4; injection H4 as <-; (split; [exact Hq|]); eexists; (split; [reflexivity|]); exact M2.
Qed.

Lemma just_begins E req tr iss t m : justified E req tr iss t -> t_meta t = Some m ->
  tq_grant_type req <> "urn:ietf:params:oauth:grant-type:token-exchange"%string ->
  m_not_before m = (m_issued_at m + 1)%N.
Proof.
  intros (auth & c & m' & tm & H1 & H2 & H3 & H4 & H5 & H6 & H7 & H8 & H9 & H10) Hm Hx.
  rewrite Hm in H4. injection H4 as <-.
  unfold grant_just in H10. pose proof (grant_type_of _ H7) as Hty. destruct (tq_grant req) as [|code redirect verif| |code|value|value ty] eqn:Hg.
  - destruct H10.
  - destruct H10 as (s & ar & rd & _ & _ & _ & _ & _ & -> & [X|[_ X]]); rewrite X in Hm; cbn in Hm; injection Hm as <-; cbn; lia.
  - destruct H10 as (_ & _ & X & ->). rewrite X in Hm; cbn in Hm; injection Hm as <-; cbn; lia.
  - destruct H10 as (s & dr & dc & sub & t0 & _ & _ & _ & _ & _ & _ & _ & _ & -> & _ & [X|[_ X]]);
      rewrite X in Hm; cbn in Hm; injection Hm as <-; cbn; lia.
  - destruct H10 as (rt & m0 & t0 & G1 & _ & _ & _ & G2 & _ & _ & -> & _ & [X|X]);
      rewrite X in Hm; cbn in Hm; injection Hm as <-; cbn; lia.
  - destruct H10 as (st & m0 & t0 & sc & aud & G1 & _ & _ & _ & G2 & _ & -> & _ & _ & X).
    exfalso. apply Hx. exact Hty.
Qed.

Section Home.
Context (S : http_server) (w : world) (xs : list hsched) (ys : list sched) (own : list nat).
Context (R : refined S w xs ys own) (Hn : no_tokens w).
Notation E := (sv_ext S).
Notation hh := (http_history S w xs).
Notation h := (history E w ys).

Lemma home_requests j req : asked h j (RToken (Some req)) -> tq_issuer req = sv_issuer S.
Proof.
  intros H. destruct (made_for _ _ _ _ _ R _ _ H) as (i & e & r & d & _ & _ & _ & St). cbn [stage] in St.
  destruct St as (_ & _ & c & cnf & _ & Q & _). injection Q as ->. reflexivity.
Qed.
Lemma home_tokens j iss t a : In (EvCall j (CTokCreate iss t) a) h ->
  iss = sv_issuer S /\ exists m, t_meta t = Some m /\ m_issuer m = sv_issuer S.
Proof.
  intros H. apply in_split in H as (h1 & h2 & H). eapply (created_home E w ys); eauto. apply home_requests.
Qed.

(** When a service request made for an HTTP request that comes in later reads the clock. *)
Lemma reads_later hh0 hh1 h0 h1 i e r j x g1 t g2 : hh = (hh0 ++ hh1)%list -> h = (h0 ++ h1)%list ->
  explained S own hh0 h0 -> In (HvStart i e r) hh1 -> nth_error own j = Some i -> In (EvStart j x) h ->
  h = (g1 ++ EvCall j CNow (ATime t) :: g2)%list -> (w_now w + time_in hh0 <= t)%N.
Proof.
  intros Hh Hy X0 Hs O Hx Hg.
  assert (Hx1 : In (EvStart j x) h1) by (rewrite Hy in Hx; eapply made_later; eauto).
  destruct (later_prefix _ _ _ _ _ _ _ _ _ _ _ Hy Hx1 Hg) as (u & ->).
  rewrite (now_at _ _ _ _ _ _ _ Hg). unfold clock. rewrite elapsed_app, (same_time own hh0 h0); [lia|apply X0].
Qed.

(** What is behind an answer of the token endpoint, and behind each token in it. *)
Lemma behind hh0 hh1 hh2 i r access expires type refresh scope : registry_ok w ->
  hh = (hh0 ++ hh1 ++ hh2)%list -> In (HvStart i EToken r) hh1 ->
  In (HvDone i (Done (HToken access expires type refresh scope))) hh1 ->
  exists h0 h1 h2 n c cnf res at_ m, h = (h0 ++ h1 ++ h2)%list /\ explained S own hh0 h0 /\
    explained S own (hh0 ++ hh1) (h0 ++ h1) /\ nth_error own n = Some i /\
    token_ok (h0 ++ h1) n (token_message (sv_issuer S) r c cnf) res /\
    tr_at res = Some at_ /\ t_meta at_ = Some m /\ access = t_value at_ /\ scope = m_scope m /\
    refresh = (match tr_rt res with Some rt => t_value rt | None => ""%string end) /\
    authenticated S w hh i r c /\ sv_issuer S <> ""%string /\ x_request_uri E (sv_issuer S) = true /\
    forall t, In t (tokens_of res) -> exists mt a,
      In (HvCall i (CTokCreate (sv_issuer S) t) a) (hh0 ++ hh1) /\ ans_ok a = true /\ t_value t <> ""%string /\
      t_meta t = Some mt /\ m_client_id mt = cl_id c /\ m_issuer mt = sv_issuer S /\
      (unix (w_now w + time_in hh0) <= m_issued_at mt <= unix (w_now w + time_in (hh0 ++ hh1)))%N /\
      m_not_before mt = (m_issued_at mt + 1)%N /\
      m_expires_at mt = (m_issued_at mt + match t_type t with TtRefresh => 604800 | _ => 3600 end)%N.
Proof.
  intros Hreg Hh Hi1 Hi2.
  assert (Hs : In (HvStart i EToken r) hh) by (rewrite Hh, !in_app_iff; auto).
  destruct (rf_points _ _ _ _ _ R hh0 hh1 hh2 Hh) as (h0 & h1 & h2 & Hy & X0 & X1).
  assert (Hh01 : hh = ((hh0 ++ hh1) ++ hh2)%list) by (rewrite Hh; list_eq).
  assert (Hy01 : h = ((h0 ++ h1) ++ h2)%list) by (rewrite Hy; list_eq).
  destruct (token_served S own (hh0 ++ hh1) (h0 ++ h1) i r access expires type refresh scope X1)
    as (n & c1 & cnf & res & at_ & m & t0 & d & O & T & Hat & Hm & _ & Eacc & _ & _ & Erf & Esc & P & L & _).
  { eapply one_start_history; eauto. }
  { split; rewrite in_app_iff; auto. }
  assert (T' : token_ok h n (token_message (sv_issuer S) r c1 cnf) res).
  { destruct T as [[T1 T2] T3]. split; auto. split; rewrite Hy01, in_app_iff; auto. }
  assert (P' : past own hh h i d).
  { intros x Hx. specialize (P x Hx). destruct x; [|rewrite Hh01, in_app_iff; auto].
    destruct P as (Q1 & Q2 & Q3). split; [exact Q1|]. rewrite Hy01. split; apply in_or_app; auto. }
  assert (Hau : authenticated S w hh i r c1) by (eapply logged_authenticated; eauto).
  assert (Hinat : In at_ (tokens_of res)) by (unfold tokens_of; rewrite Hat; cbn; auto).
  exists h0, h1, h2, n, c1, cnf, res, at_, m.
  destruct (response_created _ _ _ _ _ _ at_ T' Hinat) as (iss & m' & rr & _ & _ & _ & _ & _ & _ & I1 & I2).
  cbn [token_message tq_issuer] in I1, I2.
  do 13 (split; [assumption|]). clear iss m' rr. intros t Hin.
  destruct (response_created _ _ _ _ _ _ t T' Hin) as (iss & mt & rr & K1 & K2 & K3 & K5 & _).
  destruct (home_tokens _ _ _ _ K1) as (-> & m'' & K3' & K4). rewrite K3 in K3'. injection K3' as <-.
  pose proof K1 as K1'. apply in_split in K1' as (g1 & g2 & Hg).
  destruct (call_in_done _ _ _ _ _ _ _ _ _ _ _ Hy01 (proj2 (proj1 T)) Hg) as (u & Hu1 & ->).
  destruct (write_reason _ _ _ _ _ _ _ _ Hg) as (rq & W1 & req1 & -> & J).
  destruct (just_times _ _ _ _ _ J) as (m1 & tm & J1 & J2 & J3 & J4 & J5). rewrite K3 in J1. injection J1 as <-.
  destruct (trace_history E w ys) as (sy & Htr & _).
  assert (Hreq : tq_grant_type req1 <> "urn:ietf:params:oauth:grant-type:token-exchange"%string).
  { intros Q. assert (Hst : In (EvStart n (RToken (Some req1))) h) by (rewrite Hg; apply in_or_app; auto).
    pose proof (start_unique _ _ _ _ _ _ _ Htr Hst (proj1 (proj1 T'))) as Q1. injection Q1 as ->.
    destruct J as (au & cc & mm & tt & _ & _ & _ & _ & _ & _ & H7 & _). pose proof (grant_type_of _ H7) as Q2.
    destruct (tq_grant (token_message (sv_issuer S) r c1 cnf)) eqn:Hgr; rewrite ?Q2 in Q; try discriminate; [destruct Q2|].
    eapply message_never; eauto. }
  pose proof (just_begins _ _ _ _ _ _ J K3 Hreq) as J6.
  assert (Hexp : m_expires_at mt = (m_issued_at mt + match t_type t with TtRefresh => 604800 | _ => 3600 end)%N).
  { destruct J5 as [[-> ->]|[-> ->]]; [reflexivity|]. apply String.eqb_neq in Hreq. rewrite Hreq. reflexivity. }
  apply did_event in J2. apply in_split in J2 as (e1 & e2 & ->).
  assert (Hnow : h = (e1 ++ EvCall n CNow (ATime tm) :: (e2 ++ EvCall n (CTokCreate (sv_issuer S) t) (AUnit rr) :: u ++ h2))%list)
    by (rewrite Hg; list_eq).
  assert (Lo : (w_now w + time_in hh0 <= tm)%N).
  { eapply (reads_later hh0 (hh1 ++ hh2) h0 (h1 ++ h2) i EToken r n _ e1 tm _ Hh Hy X0); eauto.
    - rewrite !in_app_iff; auto.
    - apply T'. }
  assert (Hi : (tm <= w_now w + time_in (hh0 ++ hh1))%N).
  { rewrite (now_at _ _ _ _ _ _ _ Hnow). rewrite (same_time own (hh0 ++ hh1) (h0 ++ h1)) by apply X1.
    change (clock w e1 <= clock w (h0 ++ h1))%N. rewrite Hu1. rewrite <- !app_assoc. apply clock_app. }
  exists mt, (AUnit rr). split.
  { apply in_heffects; [reflexivity|]. rewrite (ex_effects _ _ _ _ X1). apply in_effects; [reflexivity|].
    exists n. split; auto. rewrite Hu1. apply in_or_app; cbn; auto. }
  split; [exact K2|]. split; [exact K5|]. split; [exact K3|]. split.
  { destruct (C78_tokens_need_registered_grant_proof _ _ _ _ _ _ _ Hreg K1) as (rq & c' & m2 & Q1 & (au & Q2 & Q3) & _ & _ & Q4 & Q5).
    pose proof (start_unique _ _ _ _ _ _ _ Htr Q1 (proj1 (proj1 T'))) as Q6. injection Q6 as ->.
    cbn in Q2. injection Q2 as <-. rewrite (registered_client _ _ _ _ _ _ Hreg Hau) in Q3. congruence. }
  split; [exact K4|]. split; [rewrite J3; split; apply unix_mono; auto|]. auto.
Qed.

Lemma issued hh0 hh1 hh2 i r access expires type refresh scope : registry_ok w ->
  hh = (hh0 ++ hh1 ++ hh2)%list -> In (HvStart i EToken r) hh1 ->
  In (HvDone i (Done (HToken access expires type refresh scope))) hh1 ->
  exists at_ m owner a, In (HvCall i (CTokCreate (sv_issuer S) at_) a) (hh0 ++ hh1) /\ ans_ok a = true /\
    access = t_value at_ /\ access <> ""%string /\ t_meta at_ = Some m /\ scope = m_scope m /\
    authenticated S w hh i r owner /\ m_client_id m = cl_id owner /\
    (unix (w_now w + time_in hh0) <= m_issued_at m <= unix (w_now w + time_in (hh0 ++ hh1)))%N /\
    m_not_before m = (m_issued_at m + 1)%N /\ (m_issued_at m + 3600 <= m_expires_at m)%N /\
    sv_issuer S <> ""%string /\ x_request_uri E (sv_issuer S) = true.
Proof.
  intros Hreg Hh Hi1 Hi2.
  destruct (behind _ _ _ _ _ _ _ _ _ _ Hreg Hh Hi1 Hi2)
    as (h0 & h1 & h2 & n & c & cnf & res & at_ & m & _ & _ & _ & _ & _ & B1 & B2 & B3 & B4 & _ & B5 & B6 & B7 & B8).
  destruct (B8 at_) as (mt & a & C1 & C2 & C3 & C4 & C5 & C6 & C7 & C8 & C9); [unfold tokens_of; rewrite B1; cbn; auto|].
  rewrite B2 in C4. injection C4 as <-. exists at_, m, c, a. rewrite B3.
  do 10 (split; [assumption || reflexivity|]). split; [rewrite C9; destruct (t_type at_); lia|auto].
Qed.
End Home.

(** One slot, one token. *)
Lemma one_per_slot E hh issuer v t t' : web_no_reuse E hh -> web_stored_as E hh issuer v t -> web_stored_as E hh issuer v t' -> t = t'.
Proof.
  intros Hu (k & iss & a & H1 & H2) (k' & iss' & a' & H1' & H2').
  apply in_split in H1 as (l1 & l2 & ->). apply in_app_or in H1' as [Hin|[Hin|Hin]]; [|congruence|].
  - exfalso. apply in_split in Hin as (v1 & v2 & ->). destruct (Hu v1 k' iss' t' a' v2 k iss t a l2); [list_eq|]. congruence.
  - exfalso. apply in_split in Hin as (v1 & v2 & ->). destruct (Hu l1 k iss t a v1 k' iss' t' a' v2); [reflexivity|]. congruence.
Qed.
Lemma web_live_stored E hh issuer v t : web_live_as E hh issuer v t -> web_stored_as E hh issuer v t.
Proof. intros (h1 & k & iss' & a & h2 & -> & H & _). exists k, iss', a. split; auto. apply in_or_app; cbn; auto. Qed.
Lemma stored_more E hh hh' issuer v t : web_stored_as E hh issuer v t -> web_stored_as E (hh ++ hh') issuer v t.
Proof. intros (k & iss' & a & H1 & H2). exists k, iss', a. split; auto. apply in_or_app; auto. Qed.

(** A prefix with a request that comes in later. *)
Lemma beyond S w xs g1 g2 i e r b b' : http_history S w xs = (g1 ++ g2)%list -> In (HvStart i e r) g2 ->
  http_history S w xs = (b ++ b')%list -> In (HvStart i e r) b -> exists b'', b = (g1 ++ b'')%list.
Proof.
  intros Hg Hi Hb Hi'. pose proof Hb as Hb'. rewrite Hg in Hb'. apply app_eq_app in Hb' as (l & [[Q1 Q2]|[Q1 Q2]]); [|eauto].
  exfalso. eapply (not_again _ _ _ _ _ _ _ _ _ _ Hg); [|exact Hi]. rewrite Q1. apply in_or_app; eauto.
Qed.


(** ** C98: the SDK client *)

Lemma C98_sdk_assertion_accepted_proof : forall S w c sign raw made until,
  uses_sdk S w c sign -> sdk_assertion c sign raw made -> (until <= unix (made + 30 * second))%N ->
  assertion_by (sv_ext S) w raw c until.
Proof.
  intros S w c sign raw made until (H1 & H2 & H3 & keys & k & H4 & H5 & H6 & H7) (aud & jti & now2 & A1 & A2 & A3) Hu.
  unfold client_assertion in A3. destruct (H7 _ _ A3) as (B1 & B2 & B3 & B4).
  split; auto. split; auto. eexists _, keys, k. split; [exact B3|]. cbn [c_iss c_sub c_aud c_jti c_exp].
  repeat (split; auto). rewrite plus_seconds. lia.
Qed.

Lemma C98_sdk_gets_token_proof : forall S w xs i c sign raw made tls host path o,
  let hh := http_history S w xs in
  hno_faults xs -> uses_sdk S w c sign -> sdk_assertion c sign raw made ->
  In (HvStart i EToken (credentials_request tls host path raw)) hh -> In (HvDone i o) hh ->
  (unix (w_now w + time_in hh) <= unix (made + 30 * second))%N ->
  (cl_type c = CtConfidential \/ cl_type c = CtCredentialed) -> cl_dpop_bound c = false ->
  listed (sv_ext S) (cl_grant_types c) "client_credentials" ->
  sv_issuer S <> ""%string -> x_request_uri (sv_ext S) (sv_issuer S) = true -> web_generators_work hh i ->
  exists resp access, o = Done resp /\ credentials_result resp = Some (access, "Bearer", "")%string /\ access <> ""%string.
Proof.
  intros S w xs i c sign raw made tls host path o hh Hf Hc Ha Hs Hd Ht Hty Hb Hl Hi Hu Hg. subst hh.
  destruct (C98_credentials_accepted_proof S w xs i (credentials_request tls host path raw) c None o Hf Hs Hd) as (access & expires & scope & X & ->); auto.
  - right; left. split; [reflexivity|]. split; [reflexivity|]. eapply C98_sdk_assertion_accepted_proof; eauto.
  - left. split; [|reflexivity]. split; [reflexivity|]. split; [reflexivity|auto].
  - apply Hc.
  - do 2 eexists. split; [reflexivity|]. cbn. eauto.
Qed.

Lemma C98_introspection_partial_proof : forall S w xs hh0 hh1 hh2 hh3 i r access expires type refresh scope
    j c sign raw made tls host path o,
  let hh := http_history S w xs in
  registry_ok w -> no_tokens w -> hno_faults xs -> web_no_reuse (sv_ext S) hh -> hh = (hh0 ++ hh1 ++ hh2 ++ hh3)%list ->
  (* an access token is issued *)
  In (HvStart i EToken r) hh1 -> In (HvDone i (Done (HToken access expires type refresh scope))) hh1 ->
  (* it is introspected with the SDK, at least one second and at most an hour later *)
  uses_sdk S w c sign -> sdk_assertion c sign raw made -> (unix (w_now w + time_in hh) <= unix (made + 30 * second))%N ->
  In (HvStart j EIntrospect (introspection_request tls host path raw access)) hh3 -> In (HvDone j o) hh3 ->
  (second <= time_in hh2)%N -> (time_in (hh1 ++ hh2 ++ hh3) <= 3600 * second)%N ->
  (* nobody revoked it *)
  (forall t, web_stored_as (sv_ext S) hh (sv_issuer S) access t -> ~ web_revoked_in hh (t_id t)) ->
  exists doc owner, o = Done (HDoc doc) /\ Client.get "active" doc = Some (JBool true) /\ Client.get "scope" doc = Some (JStr scope) /\
    authenticated S w hh i r owner /\ Client.get "client_id" doc = Some (JStr (cl_id owner)).
Proof.
  intros S w xs hh0 hh1 hh2 hh3 i r access expires type refresh scope j c sign raw made tls host path o hh
    Hreg Hn Hf Hu Hh Hi1 Hi2 Hc Ha Hmade Hj1 Hj2 Hmin Hmax Hrev. subst hh.
  destruct (http_refines S w xs) as (ys & own & R).
  assert (Hjs : In (HvStart j EIntrospect (introspection_request tls host path raw access)) (http_history S w xs)) by (rewrite Hh, !in_app_iff; auto 6).
  assert (Hjd : In (HvDone j o) (http_history S w xs)) by (rewrite Hh, !in_app_iff; auto 6).
  destruct (issued S w xs ys own R Hn hh0 hh1 (hh2 ++ hh3) i r access expires type refresh scope Hreg Hh Hi1 Hi2)
    as (at_ & m & owner & a & A1 & A2 & A3 & A4 & A5 & A6 & A7 & A8 & A9 & A10 & A11 & A12 & A13).
  assert (Hcf : comes_from S w (http_history S w xs) j (introspection_request tls host path raw access) c).
  { right; left. split; [reflexivity|]. split; [reflexivity|]. eapply C98_sdk_assertion_accepted_proof; eauto. }
  destruct (introspect_live S w xs ys own R Hf j _ c o Hcf Hjs Hjd) as (doc & ->); auto.
  { apply Hc. }
  destruct (C72_web_introspection_proof S w xs j (introspection_request tls host path raw access) doc Hn Hf Hu (conj Hjs Hjd))
    as (cj & b1 & b2 & k1 & k2 & _ & B1 & B2 & B3 & B4 & B5).
  change (form_value (introspection_request tls host path raw access) "token") with access in B5.
  assert (Hh' : http_history S w xs = ((hh0 ++ hh1 ++ hh2) ++ hh3)%list) by (rewrite Hh; list_eq).
  destruct (beyond _ _ _ _ _ _ _ _ _ _ Hh' Hj1 B1 B2) as (b'' & ->). destruct (beyond _ _ _ _ _ _ _ _ _ _ Hh' Hj1 B3 B4) as (k'' & ->).
  assert (Hstored : web_stored_as (sv_ext S) (http_history S w xs) (sv_issuer S) access at_).
  { exists i, (sv_issuer S), a. split; [|rewrite A3; reflexivity]. rewrite Hh', !in_app_iff. apply in_app_or in A1. tauto. }
  assert (Hlive : web_live_as (sv_ext S) ((hh0 ++ hh1 ++ hh2) ++ b'') (sv_issuer S) access at_).
  { apply in_split in A1 as (q1 & q2 & Q).
    exists q1, i, (sv_issuer S), a, (q2 ++ hh2 ++ b'')%list. split.
    { rewrite <- !app_assoc. rewrite app_assoc, Q. list_eq. }
    split; [rewrite A3; reflexivity|].
    intros (jr & issr & ar & Q1 & Q2). apply (Hrev at_ Hstored). exists jr, issr, ar. split; auto.
    rewrite B1. rewrite !in_app_iff. apply in_app_or in Q1 as [Q1|Q1].
    - assert (In (HvCall jr (CTokRevoke issr (t_id at_)) ar) (hh0 ++ hh1)) as Q3 by (rewrite Q; apply in_or_app; cbn; auto).
      apply in_app_or in Q3. tauto.
    - apply in_app_or in Q1. tauto. }
  assert (Hw : within m (unix (w_now w + time_in ((hh0 ++ hh1 ++ hh2) ++ k'')))).
  { unfold within. rewrite Hh in B3.
    assert (Ek : (time_in (hh0 ++ hh1 ++ hh2 ++ hh3) = time_in ((hh0 ++ hh1 ++ hh2) ++ k'') + time_in k2)%N) by (rewrite B3, time_app; reflexivity).
    rewrite !time_app in *. rewrite A10. split.
    - assert (Q : (unix ((w_now w + (time_in hh0 + time_in hh1)) + 1 * second) <= unix (w_now w + (time_in hh0 + (time_in hh1 + time_in hh2) + time_in k'')))%N)
        by (apply unix_mono; lia). rewrite plus_seconds in Q. lia.
    - assert (Q : (unix (w_now w + (time_in hh0 + (time_in hh1 + time_in hh2) + time_in k'')) <= unix ((w_now w + time_in hh0) + 3600 * second))%N)
        by (apply unix_mono; lia). rewrite plus_seconds in Q. lia. }
  assert (Hdoc : doc = token_document at_ m).
  { destruct B5 as [(t & mt & Hl & Ht & _ & ->)|(Hno & _)]; [|exfalso; eapply Hno; eauto].
    assert (t = at_) as ->; [|congruence].
    eapply (one_per_slot (sv_ext S) (http_history S w xs)); eauto. rewrite B1. apply stored_more, web_live_stored, Hl. }
  rewrite Hdoc. exists (token_document at_ m), owner. split; [reflexivity|]. split; [reflexivity|].
  split; [rewrite A6; reflexivity|]. split; [assumption|].
  match goal with H : m_client_id m = cl_id owner |- _ => rewrite <- H end. reflexivity.
Qed.

(** Told so, the SDK panics. *)
Lemma C98_sdk_introspects_refuted_proof : forall S w xs hh0 hh1 hh2 hh3 i r access expires type refresh scope
    j c sign raw made tls host path o,
  let hh := http_history S w xs in
  registry_ok w -> no_tokens w -> hno_faults xs -> web_no_reuse (sv_ext S) hh -> hh = (hh0 ++ hh1 ++ hh2 ++ hh3)%list ->
  In (HvStart i EToken r) hh1 -> In (HvDone i (Done (HToken access expires type refresh scope))) hh1 ->
  uses_sdk S w c sign -> sdk_assertion c sign raw made -> (unix (w_now w + time_in hh) <= unix (made + 30 * second))%N ->
  In (HvStart j EIntrospect (introspection_request tls host path raw access)) hh3 -> In (HvDone j o) hh3 ->
  (second <= time_in hh2)%N -> (time_in (hh1 ++ hh2 ++ hh3) <= 3600 * second)%N ->
  (forall t, web_stored_as (sv_ext S) hh (sv_issuer S) access t -> ~ web_revoked_in hh (t_id t)) ->
  exists resp, o = Done resp /\ introspection_result access resp = Crashed.
Proof.
  intros S w xs hh0 hh1 hh2 hh3 i r access expires type refresh scope j c sign raw made tls host path o hh
    Hreg Hn Hf Hu Hh Hi1 Hi2 Hc Ha Hmade Hj1 Hj2 Hmin Hmax Hrev. subst hh.
  destruct (C98_introspection_partial_proof S w xs hh0 hh1 hh2 hh3 i r access expires type refresh scope j c sign raw made tls host path o)
    as (doc & owner & -> & _); auto.
  exists (HDoc doc). split; [reflexivity|]. apply C61_client_crashes_refuted_proof.
Qed.

(** A token is not active in the second in which it is issued. *)
Lemma C98_new_token_is_active_refuted_proof : forall S w xs hh0 hh1 hh2 i r access expires type refresh scope j q doc,
  let hh := http_history S w xs in
  registry_ok w -> no_tokens w -> hno_faults xs -> web_no_reuse (sv_ext S) hh -> hh = (hh0 ++ hh1 ++ hh2)%list ->
  In (HvStart i EToken r) hh1 -> In (HvDone i (Done (HToken access expires type refresh scope))) hh1 ->
  responded hh j EIntrospect q (HDoc doc) -> form_value q "token" = access ->
  unix (w_now w + time_in hh) = unix (w_now w + time_in hh0) ->
  doc = [("active"%string, JBool false)].
Proof.
  intros S w xs hh0 hh1 hh2 i r access expires type refresh scope j q doc hh Hreg Hn Hf Hu Hh Hi1 Hi2 Hj Hq Ht. subst hh.
  destruct (http_refines S w xs) as (ys & own & R).
  destruct (issued S w xs ys own R Hn hh0 hh1 hh2 i r access expires type refresh scope Hreg Hh Hi1 Hi2)
    as (at_ & m & owner & a & A1 & A2 & A3 & A4 & A5 & A6 & A7 & A8 & A9 & A10 & A11 & A12 & A13).
  destruct (C72_web_introspection_proof S w xs j q doc Hn Hf Hu Hj)
    as (cj & b1 & b2 & k1 & k2 & _ & B1 & B2 & B3 & B4 & [(t & mt & Hl & Hm & Hw & _)|(_ & ->)]); [|reflexivity]. exfalso.
  rewrite Hq in Hl. assert (t = at_) as ->.
  { eapply (one_per_slot (sv_ext S) (http_history S w xs)); eauto.
    - rewrite B1. apply stored_more, web_live_stored, Hl.
    - exists i, (sv_issuer S), a. split; [|rewrite A3; reflexivity]. rewrite Hh, !in_app_iff. apply in_app_or in A1. tauto. }
  rewrite A5 in Hm. injection Hm as <-. unfold within in Hw.
  assert (Q : (unix (w_now w + time_in k1) <= unix (w_now w + time_in (http_history S w xs)))%N).
  { apply unix_mono. rewrite B3, time_app. lia. }
  lia.
Qed.

(** A client that must prove possession gets no token with the SDK. *)
Lemma C98_bound_client_refuted_proof : forall S w xs i c sign raw made tls host path resp,
  let hh := http_history S w xs in
  hno_faults xs -> uses_sdk S w c sign -> sdk_assertion c sign raw made -> cl_dpop_bound c = true ->
  In (HvStart i EToken (credentials_request tls host path raw)) hh -> In (HvDone i (Done resp)) hh ->
  (unix (w_now w + time_in hh) <= unix (made + 30 * second))%N -> credentials_result resp = None.
Proof.
  intros S w xs i c sign raw made tls host path resp hh Hf Hc Ha Hb Hs Hd Ht. subst hh.
  destruct resp; try reflexivity. exfalso.
  destruct (http_refines S w xs) as (ys & own & R).
  destruct (token_served S own _ _ _ _ _ _ _ _ _ (rf_explained _ _ _ _ _ R) (one_start_all S w xs) (conj Hs Hd))
    as (n & c1 & cnf & res & at_ & m & t0 & d & O & T & Hat & Hm & _ & Eacc & _ & _ & _ & Esc & P & L & _ & D).
  assert (Hcf : comes_from S w (http_history S w xs) i (credentials_request tls host path raw) c).
  { right; left. split; [reflexivity|]. split; [reflexivity|]. eapply C98_sdk_assertion_accepted_proof; eauto. }
  destruct (passes S w xs ys own R Hf i _ c d Hcf P) as [_ L']. apply L' in L. injection L as ->.
  destruct D as [(_ & _ & D)|(jkt & _ & D)]; [congruence|].
  destruct (past_served _ _ _ _ _ _ _ _ _ P D) as (j' & O' & A1 & _).
  destruct (made_by _ _ _ _ _ R _ _ _ _ _ Hs O' A1) as (d' & _ & St). unfold proof_check in St. cbn [stage] in St.
  destruct St as (_ & _ & _ & Hn & _). exact (Hn eq_refl eq_refl).
Qed.
