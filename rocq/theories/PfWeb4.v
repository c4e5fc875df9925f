(** * Proofs about whole HTTP histories: devices, pushed requests, refreshing, consent *)

From Verif Require Export PfWeb3.
From Coq Require Import Lia.

Lemma aligned_call own b g j c a : heffects b = effects own g -> In (EvCall j c a) g -> calm c = false ->
  exists i, nth_error own j = Some i /\ In (HvCall i c a) b.
Proof.
  intros Al H Hc.
  assert (X : In (Effect (nth_error own j) c a) (heffects b)) by (rewrite Al; apply in_effects; eauto).
  apply in_split in X as (l1 & l2 & X). destruct (hsplit _ _ _ _ _ _ X) as (k & b1 & b2 & -> & -> & _).
  exists k. split; auto. apply in_or_app; cbn; auto.
Qed.

(** The HTTP request behind a service request of a prefix. *)
Lemma aligned_made S w xs ys own (R : refined S w xs ys own) g1 g2 b1 b2 j x :
  history (sv_ext S) w ys = (g1 ++ g2)%list -> http_history S w xs = (b1 ++ b2)%list -> aligned own b1 g1 ->
  In (EvStart j x) g1 ->
  exists i e r d, nth_error own j = Some i /\ In (HvStart i e r) b1 /\
    past own (http_history S w xs) (history (sv_ext S) w ys) i d /\ stage S e r d x.
Proof.
  intros Hg Hb B Hj. destruct (made_for _ _ _ _ _ R j x) as (i & e & r & d & O & Hs & P & St).
  { rewrite Hg. apply in_or_app; auto. }
  exists i, e, r, d. split; auto. split; auto. eapply aligned_started; eauto.
Qed.

Lemma time_app a b : time_in (a ++ b) = (time_in a + time_in b)%N.
Proof. induction a as [|[] a IH]; cbn; auto. rewrite IH. lia. Qed.
Lemma unix_le a b : (a <= b)%N -> (unix a <= unix b)%N.
Proof. intros H. unfold unix. apply N.div_le_mono; [discriminate|exact H]. Qed.

(** Being in time does not depend on what happens later. *)
Lemma valid_sooner w b1 b2 k e r expiry : In (HvStart k e r) b1 ->
  valid_during w (b1 ++ b2) k expiry -> valid_during w b1 k expiry.
Proof.
  intros Hk (p & q & H & (e' & r' & Hp) & Ht). apply app_eq_app in H as (l & [[-> ->]|[-> ->]]).
  - exists p, l. eauto 10.
  - exists b1, []. rewrite app_nil_r. split; auto. split; [eauto|]. etransitivity; [|exact Ht].
    apply unix_le. rewrite time_app. lia.
Qed.

Lemma given_optional s : given (optional_string s) = s.
Proof. destruct s; reflexivity. Qed.

Section Devices.
Context (S : http_server) (w : world) (xs : list hsched) (ys : list sched) (own : list nat) (R : refined S w xs ys own).

Lemma web_device_of g1 g2 b1 b2 code dq subject expiry :
  history (sv_ext S) w ys = (g1 ++ g2)%list -> http_history S w xs = (b1 ++ b2)%list -> aligned own b1 g1 ->
  device_approved (sv_ext S) g1 (sv_issuer S) code dq subject expiry ->
  web_device_approved S w b1 code (dr_client_id dq) (given (dr_scope dq)) subject expiry.
Proof.
  intros Hg Hb B (d & uc & s0 & a & k & q & s & a' & t & D1 & D2 & D3 & D4 & D5 & D6 & D7 & D8 & D9 & D10 & D11 & D12 & D13).
  destruct (aligned_made _ _ _ _ _ R _ _ _ _ _ _ Hg Hb B D1) as (i1 & e1 & r1 & p1 & O1 & H1 & P1 & St1).
  destruct (aligned_made _ _ _ _ _ R _ _ _ _ _ _ Hg Hb B D4) as (i2 & e2 & r2 & p2 & O2 & H2 & P2 & St2).
  cbn [stage] in St1, St2. destruct St1 as (-> & M1 & _ & Q1). injection Q1 as ->.
  destruct St2 as (-> & M2 & user & [L2 _] & Q2). injection Q2 as ->. cbn in D2, D3, D5, D6, D9, D11. subst user.
  destruct (aligned_call _ _ _ _ _ _ (proj2 B) D2 eq_refl) as (i1' & O1' & C1). rewrite O1 in O1'. injection O1' as <-.
  destruct (aligned_call _ _ _ _ _ _ (proj2 B) D9 eq_refl) as (i2' & O2' & C2). rewrite O2 in O2'. injection O2' as <-.
  exists i1, r1, uc, s0, a, i2, r2, s, a'. cbn [dr_client_id dr_scope]. rewrite given_optional.
  split; auto. split; auto. split; auto. split; auto. split; auto. split; auto. split; auto. split; auto.
  split; [eexists; eauto|]. split; auto. split; auto. split; auto. split; auto. split; auto.
  eapply valid_sooner; [exact H2|]. rewrite <- Hb.
  apply in_split in D7 as (u & v & ->).
  assert (Hu : history (sv_ext S) w ys = (u ++ EvCall k CNow (ATime t) :: v ++ g2)%list) by (rewrite Hg, <- app_assoc; reflexivity).
  eapply (valid_then _ _ _ _ _ R); [exact Hu| |exact O2|].
  - eapply started_before; [exact Hu|]. rewrite Hg. apply in_or_app; left. exact D4.
  - rewrite <- (now_at _ _ _ _ _ _ _ Hu). exact D8.
Qed.
End Devices.

(** ** C73 *)
Lemma C73_web_device_grant_proof : forall S w xs i r access expires type refresh scope,
  let hh := http_history S w xs in
  registry_ok w -> blank w -> stamp_ok w ->
  responded hh i EToken r (HToken access expires type refresh scope) ->
  form_value r "grant_type" = "urn:ietf:params:oauth:grant-type:device_code"%string ->
  exists c user expiry t m h1 h2 iss a,
    hq_method r = "POST"%string /\ authenticated S w hh i r c /\
    (* a user approved this device for this client and this scope; the approval is still valid *)
    hh = (h1 ++ h2)%list /\ In (HvStart i EToken r) h1 /\
    web_device_approved S w h1 (form_value r "device_code") (cl_id c) scope user expiry /\
    (unix (w_now w + time_in h1) <= expiry)%N /\
    (* the token is for this user *)
    In (HvCall i (CTokCreate iss t) a) hh /\ ans_ok a = true /\ t_value t = access /\
    t_meta t = Some m /\ m_subject m = user /\ m_client_id m = cl_id c /\ m_issuer m = sv_issuer S /\
    m_scope m = scope /\ (refresh <> ""%string -> asks (sv_ext S) scope "offline_access").
Proof.
  intros S w xs i r access expires type refresh scope hh Hreg Hbl Hst G Hgt. subst hh.
  destruct (http_refines S w xs) as (ys & own & R). pose proof (one_start_all S w xs) as U.
  destruct (token_served _ _ _ _ _ _ _ _ _ _ _ (rf_explained _ _ _ _ _ R) U G)
    as (j & c & cnf & res & at_ & m & t & d & O & T & Hat & Hm & _ & -> & _ & _ & -> & -> & P & L & Hpost & _).
  destruct (C14_device_needs_approval_proof _ _ _ _ _ _ Hbl Hreg Hst T Hgt)
    as (code & dq & subject & expiry & g1 & g2 & D1 & D2 & D3 & D4 & D5 & D6 & D7 & D8 & D9).
  unfold token_message in D1. rewrite Hgt in D1. cbn [tq_grant] in D1.
  replace (String.eqb _ gt_code) with false in D1 by reflexivity.
  replace (String.eqb _ gt_cc) with false in D1 by reflexivity.
  replace (String.eqb _ gt_device) with true in D1 by reflexivity. injection D1 as <-.
  destruct D6 as (c' & X & D6). cbn in X. injection X as <-.
  destruct (D8 at_) as (m' & M1 & M2 & M3 & (c'' & Y & M4) & M5 & _); [unfold tokens_of; rewrite Hat; cbn; auto|].
  cbn in Y. injection Y as <-. rewrite Hm in M1. injection M1 as <-.
  destruct (response_created _ _ _ _ _ _ at_ T) as (iss & m' & rr & K1 & K2 & _); [unfold tokens_of; rewrite Hat; cbn; auto|].
  destruct (http_call _ _ _ _ _ R j (CTokCreate iss at_) (AUnit rr) eq_refl K1) as (i' & O' & Hcall).
  rewrite O in O'. injection O' as <-.
  destruct (http_times _ _ _ _ _ R _ _ D2) as (b1 & b2 & B1 & B2 & B3 & _).
  exists c, subject, expiry, at_, m, b1, b2, iss, (AUnit rr).
  split; auto. split; [eapply logged_authenticated; eauto|]. split; auto.
  split; [eapply aligned_started; eauto; apply G|].
  split. { rewrite M5, D6. eapply web_device_of; eauto. }
  split; [rewrite B3; exact D5|].
  split; auto. split; auto. split; auto. split; auto. split; auto. split; auto. split; [exact M2|]. split; [exact eq_refl|].
  intros Hr. rewrite M5. apply D9. intros Hno. rewrite Hno in Hr. auto.
Qed.

(** ** C74 *)
Lemma authorize_served S own hh h i r :
  explained S own hh h -> one_start hh -> got_code hh i r ->
  exists j c user sub ar res d, nth_error own j = Some i /\
    authorize_ok_at h j (mkAuthzReq (sv_issuer S) sub (Some ar)) res /\ past own hh h i d /\
    user_logged_in r user /\ saw d (CClientGet (query_get r "client_id")) (AClient (SOk c)) /\
    subject_for (sv_ext S) (sv_salt S) c user sub /\
    request_decode (sv_ext S) (sv_decoder S) c (query_get r "request") = Some ar.
Proof.
  intros X U (resp & [Hs Hd] & Hresp). destruct (ex_done _ _ _ _ X _ _ Hd) as (e0 & r0 & d0 & A & P & B).
  destruct (U _ _ _ _ _ Hs A) as [-> ->].
  assert (Y : exists q res, served d0 (RAuthorize q) (PAuthorize res) /\ zr_err res = false).
  { destruct resp; try contradiction; cbn [ending] in B; decompose [ex and] B; eauto. }
  destruct Y as (q & res & (j & Hj) & Herr). destruct (P _ Hj) as (O & P1 & P2).
  destruct (ex_start _ _ _ _ X _ _ P1) as (i' & e' & r' & d & O' & A' & Pd & St).
  rewrite O in O'. injection O' as <-. destruct (U _ _ _ _ _ Hs A') as [-> ->]. cbn [stage] in St.
  destruct St as (_ & Hm & c & user & sub & ar & L & S1 & S2 & S3 & ->).
  exists j, c, user, sub, ar, res, d. split; auto. split; [split; [split; auto|auto]|]. auto 10.
Qed.

Lemma C74_web_request_uri_once_proof : forall S w xs hh1 hh2 i j r1 r2 uri,
  http_history S w xs = (hh1 ++ hh2)%list ->
  got_code hh1 i r1 -> sends_request_uri S r1 uri ->
  In (HvStart j EAuthorize r2) hh2 -> sends_request_uri S r2 uri -> got_code (http_history S w xs) j r2 ->
  exists g1 g2, http_history S w xs = (g1 ++ g2)%list /\ In (HvStart i EAuthorize r1) g1 /\
    web_uri_handed_out (sv_ext S) g2 (sv_issuer S) uri.
Proof.
  intros S w xs hh1 hh2 i j r1 r2 uri Hh G1 (ar1 & Hd1 & Hu1) Hj (ar2 & Hd2 & Hu2) G2.
  destruct (http_refines S w xs) as (ys & own & R).
  destruct (rf_prefix _ _ _ _ _ R _ _ Hh) as (h1 & h2 & Hy & X1).
  destruct (authorize_served _ _ _ _ _ _ X1 (one_start_history _ _ _ _ _ Hh) G1)
    as (j1 & c1 & u1 & s1 & a1 & res1 & d1 & O1 & T1 & _ & _ & _ & _ & Q1).
  destruct (authorize_served _ _ _ _ _ _ (rf_explained _ _ _ _ _ R) (one_start_all S w xs) G2)
    as (j2 & c2 & u2 & s2 & a2 & res2 & d2 & O2 & T2 & _ & _ & _ & _ & Q2).
  destruct (request_decode_some _ _ _ _ _ Q1) as [_ Q1']. destruct (request_decode_some _ _ _ _ _ Q2) as [_ Q2'].
  rewrite Hd1 in Q1'. injection Q1' as <-. rewrite Hd2 in Q2'. injection Q2' as <-.
  assert (Hin : In (EvStart j2 (RAuthorize (Some (mkAuthzReq (sv_issuer S) s2 (Some ar2))))) h2).
  { destruct T2 as [[T2 _] _]. rewrite Hy in T2. eapply made_later; eauto. }
  destruct (C28_request_uri_once_proof _ _ _ _ _ _ _ _ _ ar1 ar2 _ _ (sv_issuer S) uri Hy T1 Hin
    eq_refl eq_refl Hu1 eq_refl eq_refl Hu2 T2) as (g1 & g2 & Hg & Hd & Hho).
  destruct (http_times _ _ _ _ _ R _ _ Hg) as (b1 & b2 & B1 & B2 & _ & B4).
  exists b1, b2. split; auto. split.
  { eapply aligned_started; eauto. destruct G1 as (resp & [G1 _] & _). rewrite Hh. apply in_or_app; auto. }
  destruct Hho as (k & iss' & uri' & s & a & K1 & K2).
  destruct (aligned_call _ _ _ _ _ _ B4 K1 eq_refl) as (k' & _ & K'). exists k', iss', uri', s, a. auto.
Qed.

(** ** C75 *)
Lemma C75_web_refresh_grant_proof : forall S w xs i r access expires type refresh scope,
  let hh := http_history S w xs in
  let value := form_value r "refresh_token" in
  registry_ok w -> no_tokens w -> web_no_reuse (sv_ext S) hh ->
  responded hh i EToken r (HToken access expires type refresh scope) ->
  form_value r "grant_type" = "refresh_token"%string ->
  exists c rt m t mt h1 h2 iss a,
    hq_method r = "POST"%string /\ authenticated S w hh i r c /\
    (* the refresh token is of this client and neither revoked nor expired *)
    hh = (h1 ++ h2)%list /\ In (HvStart i EToken r) h1 /\
    web_live_as (sv_ext S) h1 (sv_issuer S) value rt /\ t_type rt = TtRefresh /\ t_meta rt = Some m /\
    (unix (w_now w + time_in h1) <= m_expires_at m)%N /\ m_client_id m = cl_id c /\
    (* the new token gives what the refresh token stands for *)
    In (HvCall i (CTokCreate iss t) a) hh /\ ans_ok a = true /\ t_value t = access /\ t_type t = TtAccess /\
    t_meta t = Some mt /\ m_subject mt = m_subject m /\ m_client_id mt = cl_id c /\ m_issuer mt = m_issuer m /\
    m_audience mt = m_audience m /\ m_scope mt = m_scope m /\ scope = m_scope m /\ t_cnf t = t_cnf rt.
Proof.
  intros S w xs i r access expires type refresh scope hh value Hreg Hn Hu G Hgt. subst hh value.
  destruct (http_refines S w xs) as (ys & own & R). pose proof (one_start_all S w xs) as U.
  pose proof (rf_explained _ _ _ _ _ R) as X.
  destruct (token_served _ _ _ _ _ _ _ _ _ _ _ X U G)
    as (j & c & cnf & res & at_ & mt & t & d & O & T & Hat & Hm & _ & -> & _ & _ & -> & -> & P & L & Hpost & _).
  assert (Hu' : no_reuse (sv_ext S) (history (sv_ext S) w ys)) by (eapply same_reuse; [apply (ex_effects _ _ _ _ X)|exact Hu]).
  destruct (C08_refresh_gate_proof _ _ _ _ _ _ Hreg Hn Hu' T Hgt)
    as (value & rt & m & g1 & g2 & [_ D1] & D2 & D3 & D4 & D5 & D6 & D7 & D8 & (c' & Y & D9) & _ & _ & D10 & _ & D11).
  rewrite (message_refresh _ _ _ _ (form_value r "refresh_token")) in D1 by (split; auto). injection D1 as <-.
  cbn in Y. injection Y as <-.
  destruct (D11 at_) as (mt' & M1 & M2 & M3 & M4 & M5 & (c'' & Y & M6) & M7); [unfold tokens_of; rewrite Hat; cbn; auto|].
  cbn in Y. injection Y as <-. rewrite Hm in M1. injection M1 as <-.
  destruct (response_created _ _ _ _ _ _ at_ T) as (iss & m' & rr & K1 & K2 & _); [unfold tokens_of; rewrite Hat; cbn; auto|].
  destruct (http_call _ _ _ _ _ R j (CTokCreate iss at_) (AUnit rr) eq_refl K1) as (i' & O' & Hcall).
  rewrite O in O'. injection O' as <-.
  destruct (http_times _ _ _ _ _ R _ _ D2) as (b1 & b2 & B1 & B2 & B3 & _).
  exists c, rt, m, at_, mt, b1, b2, iss, (AUnit rr).
  split; auto. split; [eapply logged_authenticated; eauto|]. split; auto.
  split; [eapply aligned_started; eauto; apply G|].
  split; [eapply same_live; [apply B2|exact D4]|]. split; auto. split; auto. split; [rewrite B3; exact D8|].
  split; auto. split; auto. split; auto. split; auto. split; [apply D10; auto|]. split; auto. split; auto. split; auto.
Qed.

Lemma C77_web_refresh_rotation_partial_proof : forall S w xs hh1 hh2 i j r1 r2 value access expires type refresh scope,
  let hh := http_history S w xs in
  no_tokens w -> web_no_reuse (sv_ext S) hh -> hh = (hh1 ++ hh2)%list ->
  responded hh1 i EToken r1 (HToken access expires type refresh scope) -> sends_refresh r1 value ->
  (* the answer carries a new refresh token *)
  refresh <> ""%string ->
  In (HvStart j EToken r2) hh2 -> sends_refresh r2 value ->
  ~ got_tokens hh j r2 /\ forall iss t a, ~ In (HvCall j (CTokCreate iss t) a) hh.
Proof.
  intros S w xs hh1 hh2 i j r1 r2 value access expires type refresh scope hh Hn Hu Hh G Hv Hr Hj Hv2. subst hh.
  destruct (http_refines S w xs) as (ys & own & R). pose proof (one_start_all S w xs) as U.
  destruct (rf_prefix _ _ _ _ _ R _ _ Hh) as (h1 & h2 & Hy & X1). pose proof (rf_explained _ _ _ _ _ R) as X.
  assert (Hu' : no_reuse (sv_ext S) (history (sv_ext S) w ys)) by (eapply same_reuse; [apply (ex_effects _ _ _ _ X)|exact Hu]).
  destruct (token_served _ _ _ _ _ _ _ _ _ _ _ X1 (one_start_history _ _ _ _ _ Hh) G)
    as (j1 & c1 & cnf1 & res1 & at1 & m1 & t1 & d1 & O1 & T1 & _ & _ & _ & _ & _ & _ & Hrt & _).
  assert (K : forall j' c cnf, nth_error own j' = Some j ->
    In (EvStart j' (RToken (Some (token_message (sv_issuer S) r2 c cnf)))) (history (sv_ext S) w ys) ->
    (forall res2, ~ token_ok (history (sv_ext S) w ys) j' (token_message (sv_issuer S) r2 c cnf) res2) /\
    (forall iss t a, ~ In (EvCall j' (CTokCreate iss t) a) (history (sv_ext S) w ys))).
  { intros j' c cnf O Hs. rewrite Hy in Hs.
    eapply (C09_refresh_rotation_partial_proof (sv_ext S) w ys h1 h2 j1 j' _ (token_message (sv_issuer S) r2 c cnf) res1 (sv_issuer S) value);
      auto; [exact T1| | | |].
    - split; [reflexivity|apply message_refresh; auto].
    - intros Hno. rewrite Hno in Hrt. auto.
    - eapply made_later; eauto.
    - split; [reflexivity|apply message_refresh; auto]. }
  split.
  - intros (a2 & x2 & t2 & f2 & s2 & G2).
    destruct (token_served _ _ _ _ _ _ _ _ _ _ _ X U G2) as (j2 & c2 & cnf2 & res2 & _ & _ & _ & _ & O2 & T2 & _).
    destruct (K j2 c2 cnf2 O2) as [K1 _]; [apply T2|]. exact (K1 _ T2).
  - intros iss t a Hin. destruct (creation_served _ _ _ _ _ R _ _ _ _ Hin) as (r' & j' & c & cnf & S1 & S2 & S3 & S4).
    destruct (U j EToken r2 EToken r') as [_ ->]; [rewrite Hh; apply in_or_app; auto|exact S1|].
    destruct (K _ _ _ S2 S3) as [_ K2]. exact (K2 _ _ _ S4).
Qed.

(** ** C76 *)
Lemma C76_web_consent_proof : forall S w xs h1 i iss t a h2 m,
  blank w -> stamp_ok w -> http_history S w xs = (h1 ++ HvCall i (CTokCreate iss t) a :: h2)%list ->
  t_meta t = Some m -> m_subject m <> ""%string -> web_consented S w h1 (m_subject m).
Proof.
  intros S w xs h1 i iss t a h2 m Hb Hst Hh Hm Hs.
  destruct (http_refines S w xs) as (ys & own & R). pose proof (rf_explained _ _ _ _ _ R) as X.
  pose proof (ex_effects _ _ _ _ X) as Al. rewrite Hh, heffects_app in Al. cbn in Al. symmetry in Al.
  destruct (esplit _ _ _ _ _ _ _ Al) as (j & g1 & g2 & O & Hg & E1 & E2). symmetry in E1.
  assert (Mk : forall k x c a, In (EvStart k x) g1 -> In (EvCall k c a) g1 -> calm c = false ->
    exists i' e r d, In (HvStart i' e r) h1 /\ In (HvCall i' c a) h1 /\
      past own (http_history S w xs) (history (sv_ext S) w ys) i' d /\ stage S e r d x).
  { intros k x c0 a0 Hk Hin Hc. destruct (made_for _ _ _ _ _ R k x) as (i' & e & r & d & O' & Hs' & P & St).
    { rewrite Hg. apply in_or_app; auto. }
    destruct (aligned_call _ _ _ _ _ _ E1 Hin Hc) as (i2 & O2 & Hin2). rewrite O' in O2. injection O2 as <-.
    exists i', e, r, d. split; auto. pose proof Hin2 as Hin3. apply in_split in Hin3 as (u & v & ->).
    apply in_or_app; left. eapply (start_before S w xs u i' _ (v ++ _)); [rewrite Hh, <- app_assoc; reflexivity|reflexivity|discriminate|exact Hs']. }
  destruct (created_consented _ _ _ _ _ _ _ _ _ Hb Hst Hg _ Hm Hs) as [(k & q & code & s & a' & C1 & C2 & C3 & C4)|(k & q & s & a' & C1 & C2 & C3 & C4)].
  - destruct (Mk _ _ _ _ C1 C3 eq_refl) as (i' & e & r & d & M1 & M2 & P & St). cbn [stage] in St.
    destruct St as (-> & M3 & c & user & sub & ar & [L _] & Sa & Su & Sd & Q). injection Q as ->. cbn in C2, C3, M2. subst sub.
    left. exists i', r, user, c, code, s, a'. split; auto. split; auto. split; [eexists; eauto|].
    split; [eapply http_client; exact (P _ Sa)|]. split; [apply (request_decode_some _ _ _ _ _ Sd)|]. auto.
  - destruct (Mk _ _ _ _ C1 C3 eq_refl) as (i' & e & r & d & M1 & M2 & P & St). cbn [stage] in St.
    destruct St as (-> & M3 & user & [L _] & Q). injection Q as ->. cbn in C2, C3, M2. subst user.
    right. exists i', r, s, a'. split; auto. split; auto. split; [eexists; eauto|]. auto.
Qed.
