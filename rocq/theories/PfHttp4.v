(** * Proofs: answers of the endpoints, signed requests *)

From Verif Require Export PfHttp3.
From Coq Require Import ZArith Lia.

(** ** The token endpoint's answer *)

Lemma token_handler_done E issuer r c tr access expires type refresh scope :
  runs (token_handler E issuer r (Some c)) tr (Done (HToken access expires type refresh scope)) ->
  exists cnf tr1 tr2 tr3 res at_ m tm, tr = (tr1 ++ tr2 ++ tr3)%list /\
    (cnf = None /\ tr1 = [] /\ hq_header r "DPoP" = ""%string \/
     exists thumb, cnf = Some thumb /\ hq_header r "DPoP" <> ""%string /\
       runs (dpop_verify E (hq_method r) (url_of r) (hq_header r "DPoP") None None) tr1 (Done (Some thumb))) /\
    reach (token_svc E (Some (token_message issuer r c cnf))) tr2 (Ret res) /\ tr_err res = false /\
    tr_at res = Some at_ /\ t_meta at_ = Some m /\ tr3 = [(CNow, ATime tm)] /\
    access = t_value at_ /\ expires = sub64 (m_expires_at m) (unix tm) /\
    type = (if is_empty (hq_header r "DPoP") then "Bearer" else "DPoP")%string /\
    refresh = match tr_rt res with Some rt => t_value rt | None => ""%string end /\ scope = m_scope m.
Proof.
  intros H. cbn [runs] in H. unfold token_handler in H.
  assert (A : forall tr' res, reach (token_answer r res) tr' (Ret (HToken access expires type refresh scope)) ->
    tr_err res = false /\ exists at_ m tm, tr_at res = Some at_ /\ t_meta at_ = Some m /\ tr' = [(CNow, ATime tm)] /\
    access = t_value at_ /\ expires = sub64 (m_expires_at m) (unix tm) /\
    type = (if is_empty (hq_header r "DPoP") then "Bearer" else "DPoP")%string /\
    refresh = match tr_rt res with Some rt => t_value rt | None => ""%string end /\ scope = m_scope m).
  { intros tr' res A. unfold token_answer in A. destruct (tr_err res).
    { apply with_error_ret in A as (_ & e & _ & A). discriminate. }
    split; [reflexivity|]. destruct (tr_at res) as [at_|]; [|rstep A]. rstep A. subst tr'.
    destruct (t_meta at_) as [m|] eqn:Hm; [|rstep A]. rstep A. subst.
    injection A as -> -> -> -> ->. exists at_, m, x. auto 12. }
  destruct (String.eqb_spec (hq_method r) "POST") as [Hm|Hm]; cbn [negb] in H;
    [|apply with_error_ret in H as (_ & e & _ & H); discriminate].
  destruct (is_empty (hq_header r "DPoP")) eqn:Hp.
  - destruct (cl_dpop_bound c); [apply with_error_ret in H as (_ & e & _ & H); discriminate|].
    apply reach_bind_ret in H as (res & t1 & t2 & -> & H1 & H2).
    destruct (A _ _ H2) as (He & at_ & m & tm & D). apply is_empty_true in Hp.
    exists None, [], t1, t2, res, at_, m, tm. split; [reflexivity|]. split; [auto|]. split; [exact H1|]. split; [exact He|exact D].
  - apply reach_bind_ret in H as (v & t0 & t1' & -> & H0 & H).
    destruct v as [thumb|]; [|apply with_error_ret in H as (_ & e & _ & H); discriminate].
    apply reach_bind_ret in H as (res & t1 & t2 & -> & H1 & H2).
    destruct (A _ _ H2) as (He & at_ & m & tm & D). apply is_empty_false in Hp.
    exists (Some thumb), t0, t1, t2, res, at_, m, tm. split; [reflexivity|]. split; [right; eauto|]. split; [exact H1|]. split; [exact He|exact D].
Qed.

Lemma stored_in tr1 tr tr2 t : stored tr t -> stored (tr1 ++ tr ++ tr2) t.
Proof. intros (i & r & H & Hr). exists i, r. split; [apply in_or_app; right; apply in_or_app; auto|auto]. Qed.

Lemma stored_justified E req tr q t : reach (token_svc E (Some req)) tr q -> stored tr t ->
  exists u v i a, tr = (u ++ (CTokCreate i t, a) :: v)%list /\ justified E req u i t.
Proof.
  intros Hr (i & rr & Hin & _). destruct (wp_in _ _ _ _ _ _ _ (token_wp E _) Hr Hin) as (u & v & -> & req' & [= <-] & Hj).
  exists u, v, i, (AUnit rr). auto.
Qed.

Lemma C62_token_response_partial_proof : forall E issuer r c tr access expires type refresh scope,
  runs (token_handler E issuer r (Some c)) tr (Done (HToken access expires type refresh scope)) ->
  exists t m now registered,
    stored tr t /\ t_type t = TtAccess /\ t_value t = access /\ access <> ""%string /\
    t_meta t = Some m /\ m_scope m = scope /\
    In (CClientGet (cl_id c), AClient (SOk registered)) tr /\ m_client_id m = cl_id registered /\
    In (CNow, ATime now) tr /\ ((unix now <= m_expires_at m)%N -> unix now + expires = m_expires_at m)%N /\
    (refresh <> ""%string -> exists t2, stored tr t2 /\ t_type t2 = TtRefresh /\ t_value t2 = refresh) /\
    (type = "DPoP"%string \/ type = "Bearer"%string) /\
    (form_value r "grant_type" <> "refresh_token"%string -> type = "DPoP"%string <-> t_cnf t <> None).
Proof.
  intros E issuer r c tr access expires type refresh scope H.
  destruct (token_handler_done _ _ _ _ _ _ _ _ _ _ H) as
    (cnf & t1 & t2 & t3 & res & at_ & m & tm & -> & Hcnf & Hr & He & Hat & Hm & -> & -> & -> & -> & -> & ->).
  destruct (response_stored _ _ _ _ Hr He) as (S1 & S2).
  destruct (S1 _ Hat) as (Hst & Hty).
  destruct (stored_justified _ _ _ _ _ Hr Hst) as (u & v & i & a & Hu & Hj).
  destruct (justified_client _ _ _ _ _ Hj) as (auth & reg & m' & [= <-] & Hdid & Hm' & Hmc).
  rewrite Hm in Hm'. injection Hm' as <-.
  exists at_, m, tm, reg.
  split; [apply stored_in; exact Hst|]. split; [exact Hty|]. split; [reflexivity|].
  split; [destruct Hj as (? & ? & ? & ? & _ & _ & _ & _ & _ & Hv & _); exact Hv|].
  split; [exact Hm|]. split; [reflexivity|].
  split; [apply in_or_app; right; apply in_or_app; left; rewrite Hu; apply in_or_app; left; exact Hdid|].
  split; [exact Hmc|]. split; [apply in_or_app; right; apply in_or_app; right; left; reflexivity|].
  split; [intros Hle; unfold sub64; rewrite (proj2 (N.leb_le _ _) Hle); lia|].
  split.
  { intros Hne. destruct (tr_rt res) as [rt|]; [|congruence]. destruct (S2 _ eq_refl) as (Sr & Tr).
    exists rt. split; [apply stored_in; exact Sr|auto]. }
  split; [destruct (is_empty (hq_header r "DPoP")); auto|].
  intros Hgt.
  assert (Hc : t_cnf at_ = cnf).
  { destruct Hj as (au & c' & mm & tmm & _ & _ & _ & _ & _ & _ & _ & _ & _ & Hj). unfold grant_just in Hj.
    pose proof (message_grant issuer r c cnf) as [Hg|[Hg|[Hg|[[Hf Hg]|Hg]]]]; rewrite Hg in Hj.
    - destruct Hj as (s & ar & rd & _ & _ & _ & _ & _ & _ & [->|[_ ->]]); reflexivity.
    - destruct Hj as (_ & _ & -> & _). reflexivity.
    - destruct Hj as (s & dr & dc & sub & t0 & _ & _ & _ & _ & _ & _ & _ & _ & _ & _ & [->|[_ ->]]); reflexivity.
    - contradiction.
    - destruct Hj. }
  rewrite Hc. destruct Hcnf as [(-> & _ & Hh)|(thumb & -> & Hh & _)].
  - rewrite Hh. cbn. split; [discriminate|congruence].
  - apply is_empty_false in Hh. rewrite Hh. split; [discriminate|reflexivity].
Qed.

(** ** Pushed requests *)

Lemma never_client_req {A} E rq i u x (p : prog A) Pr : wp (may_write E rq) Pr [] p -> (forall x, rq <> RRegister x) -> never (CReqReg i u x) p.
Proof.
  intros Hw Hn tr q a Hr Hin. destruct (wp_in _ _ _ _ _ _ _ Hw Hr Hin) as (v & v' & _ & req & c0 & r0 & c & H & _). apply (Hn _ H).
Qed.

Lemma request_decode_some E dec c raw ar : request_decode E dec c raw = Some ar -> signed_by E c raw /\ dec raw = Some ar.
Proof.
  unfold request_decode. destruct (is_empty raw); [discriminate|].
  destruct (x_jwks E (cl_jwks c)) as [keys|] eqn:Hk.
  - intros H. apply verifier_claims_iff in H as (H & Hd). split; [exists keys; auto|exact Hd].
  - unfold verifier_claims. destruct (x_parse E raw); discriminate.
Qed.

Lemma C63_pushed_requests_proof : forall E issuer dec r client tr q i uri stored_request a,
  reach (par_handler E issuer dec r client) tr q -> In (CReqReg i uri stored_request, a) tr ->
  exists c thumb pushed, client = Some c /\ proof_accepted E r None tr thumb /\
    signed_by E c (query_get r "request") /\ dec (query_get r "request") = Some pushed /\
    i = issuer /\ ar_client_id pushed = cl_id c /\
    ar_client_id stored_request = cl_id c /\ ar_redirect_uri stored_request = ar_redirect_uri pushed /\
    ar_state stored_request = ar_state pushed /\ ar_nonce stored_request = ar_nonce pushed /\
    ar_code_challenge stored_request = ar_code_challenge pushed /\ ar_request_uri stored_request = None.
Proof.
  intros E issuer dec r client tr q i uri sr a H Hin. unfold par_handler in H.
  destruct (negb (String.eqb (hq_method r) "POST")); [inversion H; subst; destruct Hin|].
  destruct client as [c|]; [|inversion H; subst; destruct Hin].
  destruct (bind_call _ _ _ _ _ _ H Hin) as [(t1 & t2 & p' & -> & Hr & Hi)|(x & t1 & t2 & -> & Hr & Hr2 & Hi)].
  { exfalso. refine ((_ : never (CReqReg i uri sr) _) _ _ _ Hr Hi). eapply never_client_req; [apply dpop_wp|discriminate]. }
  destruct x as [thumb|]; [|exfalso; exact (never_error _ _ _ _ _ _ Hr2 Hi)].
  destruct (request_decode E dec c (query_get r "request")) as [ar|] eqn:Hd; [|exfalso; exact (never_error _ _ _ _ _ _ Hr2 Hi)].
  destruct (bind_call _ _ _ _ _ _ Hr2 Hi) as [(s1 & s2 & p' & -> & Hs & Hsi)|(y & s1 & s2 & -> & Hs & Hs2 & Hsi)].
  2:{ exfalso. destruct (gr_err y); [exact (never_error _ _ _ _ _ _ Hs2 Hsi)|inversion Hs2; subst; destruct Hsi]. }
  destruct (wp_in _ _ _ _ _ _ _ (register_wp E _) Hs Hsi) as (u & v & -> & Hw).
  destruct Hw as (req & c0 & r0 & c1 & [= <-] & Hiss & [= <-] & [= <-] & Huri & Hcid & Hf & _).
  apply request_decode_some in Hd as (Hsg & Hdec).
  pose proof (rf_result _ _ _ Hf) as ->.
  exists c, thumb, ar. split; [reflexivity|]. split; [exists [], t1; eexists; split; [reflexivity|exact Hr]|].
  cbn in *. auto 12.
Qed.

(** ** Authorization requests *)

Lemma C64_signed_requests_partial_proof : forall E issuer dec ser salt r user tr q i code s a,
  reach (authorization_handler E issuer dec ser salt r user) tr q -> In (CSessReg i code s, a) tr ->
  exists c asked sub granted,
    In (CClientGet (query_get r "client_id"), AClient (SOk c)) tr /\
    signed_by E c (query_get r "request") /\ dec (query_get r "request") = Some asked /\
    i = issuer /\ s = mkSess issuer sub (Some granted) /\ subject_for E salt c user sub /\
    (ar_request_uri asked = None -> ar_client_id granted = ar_client_id asked /\
       ar_redirect_uri granted = ar_redirect_uri asked /\ ar_code_challenge granted = ar_code_challenge asked) /\
    (forall uri, ar_request_uri asked = Some uri -> exists pushed,
       In (CReqGet issuer uri, AReq (SOk pushed)) tr /\ ar_client_id granted = ar_client_id pushed /\
       ar_redirect_uri granted = ar_redirect_uri pushed /\ ar_code_challenge granted = ar_code_challenge pushed).
Proof.
  intros E issuer dec ser salt r user tr q i code s a H Hin. unfold authorization_handler in H.
  destruct (negb (String.eqb (hq_method r) "GET")); [exfalso; exact (never_error _ _ _ _ _ _ H Hin)|].
  destruct (is_empty user); [exfalso; exact (never_error _ _ _ _ _ _ H Hin)|].
  apply reach_do_inv in H as [[-> ->]|(an & t' & -> & H)]; [destruct Hin|].
  destruct Hin as [[=]|Hin].
  destruct an as [| | |x| | | | | | | |]; try (inversion H; subst; destruct Hin; fail).
  destruct x as [c| | |]; try (exfalso; exact (never_error _ _ _ _ _ _ H Hin)); [|inversion H; subst; destruct Hin].
  cbv zeta in H.
  assert (Hsub : forall sub, (if String.eqb (cl_subject_type c) "pairwise"
       then pairwise_encode (x_blake E) salt (cl_sector c) user else Some user) = Some sub -> subject_for E salt c user sub).
  { intros sub. unfold subject_for. destruct (String.eqb (cl_subject_type c) "pairwise"); [auto|congruence]. }
  match type of H with context[match ?x with None => _ | Some _ => _ end] => destruct x as [sub|] eqn:Hs end;
    [|exfalso; exact (never_error _ _ _ _ _ _ H Hin)].
  specialize (Hsub _ eq_refl).
  destruct (request_decode E dec c (query_get r "request")) as [ar|] eqn:Hd; [|exfalso; exact (never_error _ _ _ _ _ _ H Hin)].
  destruct (bind_call _ _ _ _ _ _ H Hin) as [(s1 & s2 & p' & -> & Hr & Hi)|(y & s1 & s2 & -> & Hr & Hr2 & Hi)].
  2:{ exfalso. refine ((_ : never (CSessReg i code s) _) _ _ _ Hr2 Hi).
      unfold respond_in_mode, respond_jwt, respond_code. cbv zeta. never_tac. }
  destruct (wp_in _ _ _ _ _ _ _ (authorize_wp E _) Hr Hi) as (u & v & -> & Hw).
  destruct Hw as (req & r0 & r1 & c1 & [= <-] & <- & [= <-] & -> & _ & _ & Hw). cbn [zq_issuer zq_subject] in *.
  apply request_decode_some in Hd as (Hsg & Hdec).
  exists c, ar, sub, r1. split; [left; reflexivity|]. split; [exact Hsg|]. split; [exact Hdec|].
  split; [reflexivity|]. split; [reflexivity|]. split; [exact Hsub|]. split.
  - intros Hn. destruct Hw as [(_ & Hf)|(uri & p & d & Hu & _)]; [|congruence].
    pose proof (rf_result _ _ _ Hf) as ->. cbn. auto.
  - intros uri Hu. destruct Hw as [(Hn & _)|(uri' & p & d & Hu' & _ & _ & Hdid & _ & Hf)]; [congruence|].
    rewrite Hu in Hu'. injection Hu' as <-. pose proof (rf_result _ _ _ Hf) as ->. exists p.
    split; [right; apply in_or_app; left; apply in_or_app; left; exact Hdid|]. cbn. auto.
Qed.

(** ** The response mode *)

Lemma C66_response_mode_refuted_proof : forall E issuer dec ser salt r user tr resp,
  runs (authorization_handler E issuer dec ser salt r user) tr (Done resp) ->
  (exists status e, resp = HError status e) \/ exists uri jarm, resp = HRedirectQuery uri jarm.
Proof.
  intros E issuer dec ser salt r user tr resp H. cbn [runs] in H. unfold authorization_handler in H.
  assert (W : forall st e t, reach (with_error st e) t (Ret resp) -> exists status e, resp = HError status e).
  { intros st e t X. apply with_error_ret in X as (_ & e' & _ & ->). eauto. }
  destruct (negb (String.eqb (hq_method r) "GET")); [left; eauto|].
  destruct (is_empty user); [left; eauto|].
  rstep H. subst. destruct x as [c| | |]; try (left; eauto; fail); [|rstep H]. cbv zeta in H.
  match type of H with context[match ?x with None => _ | Some _ => _ end] => destruct x as [sub|] end; [|left; eauto].
  destruct (request_decode E dec c (query_get r "request")) as [ar|]; [|left; eauto].
  apply reach_bind_ret in H as (res & t1 & t2 & -> & H1 & H2).
  destruct (zr_err res) eqn:He; [left; eauto|].
  assert (Hm : zr_response_mode res = ""%string).
  { destruct (authorize_ok _ _ _ _ H1 He) as (_ & _ & r0 & _ & D).
    destruct D as [(_ & D)|(uri & p & d & t' & _ & _ & _ & _ & D)];
      apply authorize_with_ok in D as (? & ? & ? & ? & ? & _ & _ & _ & _ & _ & ->); auto. }
  replace (respond_in_mode E ser res) with (respond_jwt E ser res HRedirectQuery) in H2
    by (unfold respond_in_mode; rewrite Hm; reflexivity).
  unfold respond_jwt in H2.
  destruct (negb (x_request_uri E (zr_redirect_uri res))); [left; eauto|].
  rstep H2. subst. destruct (jarm_encode _ _ _ _); [|left; eauto]. rstep H2. right. eauto.
Qed.

(** ** Device authorization *)

Lemma C67_device_client_partial_proof : forall E issuer r client tr q i user_code s a,
  reach (device_authorization_handler E issuer r client) tr q -> In (CDevReg i user_code s, a) tr ->
  exists c, In (CClientGet (form_value r "client_id"), AClient (SOk c)) tr /\ ds_client s = Some c /\
    listed E (cl_grant_types c) "urn:ietf:params:oauth:grant-type:device_code" /\ i = issuer /\ ds_issuer s = issuer /\
    ds_subject s = None.
Proof.
  intros E issuer r client tr q i user_code s a H Hin. unfold device_authorization_handler in H.
  destruct (negb (String.eqb (hq_method r) "POST")); [exfalso; exact (never_error _ _ _ _ _ _ H Hin)|].
  destruct (bind_call _ _ _ _ _ _ H Hin) as [(s1 & s2 & p' & -> & Hr & Hi)|(y & s1 & s2 & -> & Hr & Hr2 & Hi)].
  2:{ exfalso. destruct (dv_err y); [exact (never_error _ _ _ _ _ _ Hr2 Hi)|inversion Hr2; subst; destruct Hi]. }
  destruct (wp_in _ _ _ _ _ _ _ (dev_authorize_wp E _) Hr Hi) as (u & v & -> & Hw).
  destruct Hw as (req & c & dc & [= <-] & <- & Hdid & Hl & ->). cbn in *.
  exists c. split; [apply in_or_app; left; apply in_or_app; left; exact Hdid|]. auto 8.
Qed.
