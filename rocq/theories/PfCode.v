(** * Authorization codes and client credentials: proofs *)

From Verif Require Export HistFacts Demo.

Lemma client_of_id w req c : registry_ok w -> client_of w req c -> by_client req (cl_id c).
Proof. intros Hr (auth & H1 & H2). exists auth. split; auto. symmetry. apply Hr. auto. Qed.

Lemma started_before E w xs h1 i c a h2 r :
  history E w xs = (h1 ++ EvCall i c a :: h2)%list -> In (EvStart i r) (history E w xs) -> In (EvStart i r) h1.
Proof.
  intros Hh Hin. destruct (trace_history E w xs) as (s & Ht & _).
  pose proof Ht as Ht'. rewrite Hh in Ht'.
  destruct (call_started _ _ _ _ _ _ _ _ Ht') as (r' & q & H1 & _).
  assert (r = r') as ->; auto. eapply start_unique; [exact Ht|exact Hin|rewrite Hh; apply in_or_app; auto].
Qed.

(** ** C01 *)

Lemma C01_client_credentials_gate_proof : forall E w xs i req res,
  registry_ok w -> token_ok (history E w xs) i req res ->
  tq_grant_type req = "client_credentials"%string ->
  exists c at_ m,
    client_of w req c /\ by_client req (cl_id c) /\
    (cl_type c = CtConfidential \/ cl_type c = CtCredentialed) /\
    listed E (cl_grant_types c) "client_credentials" /\
    tr_at res = Some at_ /\ tokens_of res = [at_] /\ t_type at_ = TtAccess /\ t_cnf at_ = tq_cnf req /\
    t_meta at_ = Some m /\ m_client_id m = cl_id c /\ m_issuer m = tq_issuer req /\
    m_scope m = given (tq_scope req) /\ m_audience m = given (tq_audience req) /\ m_subject m = ""%string.
Proof.
  intros E w xs i req res Hr Hok Hgt.
  destruct (token_ok_client _ _ _ _ _ _ Hok) as (auth & c & tr' & H1 & H2 & H3 & H4 & H5 & H6 & H7).
  destruct (matches_type _ _ H5) as (_ & M & _). specialize (M Hgt).
  pose proof (dispatch_grant _ _ _ _ _ H6 H5) as D. rewrite M in D. destruct D as [_ D].
  destruct (client_credentials_ok _ _ _ _ _ D H7) as (_ & Hty & Hl & t & id & v & r & _ & _ & -> & _).
  assert (Hc : client_of w req c) by (exists auth; auto).
  exists c. eexists. eexists. split; [exact Hc|]. split; [eapply client_of_id; eauto|].
  repeat split; auto.
Qed.

(** ** Redemption of a code: everything at once *)

Lemma code_redeemed E w xs i req res :
  token_ok (history E w xs) i req res -> tq_grant_type req = "authorization_code"%string ->
  exists code redirect verifier c s ar rd h1 h2 h3,
    client_of w req c /\ code_facts E c req s ar code redirect verifier /\
    history E w xs = (h1 ++ EvCall i (CSessGet (tq_issuer req) code) (ASess (SOk s)) ::
                      h2 ++ EvCall i (CSessDel (tq_issuer req) code) (AUnit rd) :: h3)%list /\
    is_ok rd = true /\ In (EvStart i (RToken (Some req))) h1 /\
    (forall t, In t (tokens_of res) ->
       exists m r, t_meta t = Some m /\ m_issuer m = tq_issuer req /\ m_subject m = as_subject s /\
         m_scope m = ar_scope ar /\ m_audience m = ar_audience ar /\ m_client_id m = cl_id c /\
         t_cnf t = tq_cnf req /\ t_status t = TsActive /\
         In (EvCall i (CTokCreate (tq_issuer req) t) (AUnit r)) h3 /\ is_ok r = true) /\
    ((tr_at res <> None <-> asks E (ar_scope ar) "openid") /\
     (tr_rt res <> None <-> asks E (ar_scope ar) "openid" /\ asks E (ar_scope ar) "offline_access") /\
     tr_idt res = None) /\
    (forall t, tr_at res = Some t -> t_type t = TtAccess) /\
    (forall t, tr_rt res = Some t -> t_type t = TtRefresh).
Proof.
  intros Hok Hgt.
  destruct (token_ok_client _ _ _ _ _ _ Hok) as (auth & c & tr' & H1 & H2 & H3 & H4 & H5 & H6 & H7).
  destruct (matches_type _ _ H5) as (M & _). destruct (M Hgt) as (code & redirect & verif & Mg).
  pose proof (dispatch_grant _ _ _ _ _ H6 H5) as D. rewrite Mg in D. destruct D as [_ D].
  destruct (authorization_code_ok _ _ _ _ _ D H7)
    as (s & ar & code' & red' & ver' & rd & tr2 & Hf & Hrd & -> & Hcases).
  pose proof (cf_grant _ _ _ _ _ _ _ _ Hf) as Hg. rewrite Mg in Hg. injection Hg as <- <- <-.
  change ((?x :: ?y :: ?l)) with ([x] ++ y :: l)%list in H3.
  destruct (calls_of_split i _ _ _ _ _ H3) as (h1 & h' & Hh & _ & Hc2).
  destruct (calls_of_split i _ [] _ _ _ Hc2) as (h2 & h3 & -> & _ & Hc3).
  exists code, redirect, verif, c, s, ar, rd, h1, h2, h3.
  split; [exists auth; auto|]. split; [exact Hf|]. split; [exact Hh|]. split; [exact Hrd|].
  split; [eapply started_before; [exact Hh|apply Hok]|].
  destruct Hcases as [(N1 & -> & ->)|(N1 & t & id & v & r & Hv & Hr & Hcases)].
  - split; [intros t []|]. cbn. repeat split; try congruence; try discriminate.
    + intros X. destruct (N1 X).
    + intros [X _]. destruct (N1 X).
  - cbv zeta in Hcases. destruct Hcases as [(N2 & -> & ->)|(N2 & t2 & id2 & v2 & r2 & Hv2 & Hr2 & -> & ->)].
    + split; [|cbn; repeat split; try congruence; try discriminate; intros; try tauto; injection H as <-; reflexivity].
      intros x [<-|[]]. eexists. exists r. repeat split; auto.
      apply in_calls_of. rewrite Hc3. cbn. tauto.
    + split; [|cbn; repeat split; try congruence; try discriminate; intros; try tauto; injection H as <-; reflexivity].
      intros x [<-|[<-|[]]]; eexists; [exists r|exists r2]; repeat split; auto;
        apply in_calls_of; rewrite Hc3; cbn; tauto.
Qed.

Lemma during_authorized E w xs i req s h1 h2 code :
  blank w ->
  history E w xs = (h1 ++ EvCall i (CSessGet (tq_issuer req) code) (ASess (SOk s)) :: h2)%list ->
  exists ar, as_request s = Some ar /\ authorized E h1 (tq_issuer req) code (as_subject s) ar.
Proof. intros Hb Hh. eapply sess_authorized; eauto. Qed.

(** ** C04 *)

Lemma C04_pkce_and_redirect_gate_proof : forall E w xs i req res,
  blank w -> token_ok (history E w xs) i req res ->
  tq_grant_type req = "authorization_code"%string ->
  exists code redirect verifier c subject ar h1 h2,
    tq_grant req = GAuthorizationCode code redirect verifier /\ client_of w req c /\
    history E w xs = (h1 ++ h2)%list /\ during h1 i (RToken (Some req)) /\
    authorized E h1 (tq_issuer req) code subject ar /\
    ar_code_challenge_method ar = "S256"%string /\
    b64url (x_sha256 E verifier) = ar_code_challenge ar /\
    (43 <= String.length verifier <= 128)%nat /\
    ar_redirect_uri ar = redirect /\ listed E (cl_redirect_uris c) redirect.
Proof.
  intros E w xs i req res Hb Hok Hgt.
  destruct (code_redeemed _ _ _ _ _ _ Hok Hgt) as (code & redirect & verif & c & s & ar & rd & h1 & h2 & h3 &
    Hc & Hf & Hh & Hrd & Hst & _).
  destruct (during_authorized _ _ _ _ _ _ _ _ _ Hb Hh) as (ar' & Har & Hau).
  rewrite (cf_req _ _ _ _ _ _ _ _ Hf) in Har. injection Har as <-.
  exists code, redirect, verif, c, (as_subject s), ar, h1. eexists. destruct Hf. repeat split; eauto; tauto.
Qed.

(** ** C05 *)

Lemma C05_tokens_as_authorized_proof : forall E w xs i req res,
  registry_ok w -> blank w -> token_ok (history E w xs) i req res ->
  tq_grant_type req = "authorization_code"%string ->
  exists code redirect verifier subject ar h1 h2,
    tq_grant req = GAuthorizationCode code redirect verifier /\
    history E w xs = (h1 ++ h2)%list /\ during h1 i (RToken (Some req)) /\
    authorized E h1 (tq_issuer req) code subject ar /\
    (forall t, In t (tokens_of res) ->
       exists m, t_meta t = Some m /\ m_issuer m = tq_issuer req /\ m_subject m = subject /\
         m_scope m = ar_scope ar /\ m_audience m = ar_audience ar /\ by_client req (m_client_id m) /\
         t_cnf t = tq_cnf req) /\
    (tr_at res <> None <-> asks E (ar_scope ar) "openid") /\
    (tr_rt res <> None <-> asks E (ar_scope ar) "openid" /\ asks E (ar_scope ar) "offline_access") /\
    tr_idt res = None /\
    (forall t, tr_at res = Some t -> t_type t = TtAccess) /\
    (forall t, tr_rt res = Some t -> t_type t = TtRefresh).
Proof.
  intros E w xs i req res Hreg Hb Hok Hgt.
  destruct (code_redeemed _ _ _ _ _ _ Hok Hgt) as (code & redirect & verif & c & s & ar & rd & h1 & h2 & h3 &
    Hc & Hf & Hh & Hrd & Hst & Ht & (A1 & A2 & A3) & A4 & A5).
  destruct (during_authorized _ _ _ _ _ _ _ _ _ Hb Hh) as (ar' & Har & Hau).
  rewrite (cf_req _ _ _ _ _ _ _ _ Hf) in Har. injection Har as <-.
  exists code, redirect, verif, (as_subject s), ar, h1. eexists.
  split; [apply (cf_grant _ _ _ _ _ _ _ _ Hf)|]. split; [exact Hh|]. split; [exact Hst|]. split; [exact Hau|].
  split; [|auto].
  intros t Hin. destruct (Ht t Hin) as (m & r & B1 & B2 & B3 & B4 & B5 & B6 & B7 & _).
  exists m. rewrite B6. repeat split; auto. eapply client_of_id; eauto.
Qed.

(** ** C02, C03, C60: a code is consumed *)

Lemma consumed_absent E w xs h1 i iss code rd h2 :
  history E w xs = (h1 ++ EvCall i (CSessDel iss code) (AUnit rd) :: h2)%list -> is_ok rd = true ->
  forall h3 j code' iss' s h4, h2 = (h3 ++ EvCall j (CSessGet iss' code') (ASess (SOk s)) :: h4)%list ->
  sess_key E iss' code' = sess_key E iss code -> handed_out E h3 iss code.
Proof.
  intros Hh Hrd h3 j code' iss' s h4 -> Hkey.
  destruct (split_at _ _ _ _ _ _ _ _ Hh) as (wm & o & w1 & A & B & C).
  pose proof (sess_written E _ _ _ _ _ (sess_key E iss code) None B eq_refl Hrd) as Hw.
  destruct (wtrace_at _ _ _ _ _ _ _ _ C) as (wm2 & o2 & w2 & A2 & B2 & _).
  apply read_sess in B2 as (_ & e & B2 & _). rewrite Hkey in B2.
  destruct (sess_prov E _ _ _ _ _ A2 B2) as [X|(k1 & k & c & a & k2 & wk & -> & K1 & K2)]; [congruence|].
  destruct c; cbn in K2; try discriminate. injection K2 as Hk _ _.
  exists k, issuer, code0, s0, a. split; [apply in_or_app; right; left; auto|auto].
Qed.

Lemma C60_deleted_code_unusable_proof : forall E w xs h1 i issuer code rd h2 h3 j req res,
  history E w xs = (h1 ++ EvCall i (CSessDel issuer code) (AUnit rd) :: h2 ++ h3)%list -> is_ok rd = true ->
  In (EvStart j (RToken (Some req))) h3 -> token_ok (history E w xs) j req res ->
  presents_code req issuer code ->
  handed_out E (h2 ++ h3) issuer code.
Proof.
  intros E w xs h1 i issuer code rd h2 h3 j req res Hh Hrd Hst Hok (Hi & redirect & verif & Hg).
  assert (Hgt : tq_grant_type req = "authorization_code"%string).
  { destruct (token_ok_client _ _ _ _ _ _ Hok) as (auth & c & tr' & H1 & H2 & H3 & H4 & H5 & H6 & H7).
    pose proof (dispatch_grant _ _ _ _ _ H6 H5) as D. rewrite Hg in D. apply D. }
  destruct (code_redeemed _ _ _ _ _ _ Hok Hgt) as (code' & redirect' & verif' & c & s & ar & rd' & k1 & k2 & k3 &
    Hc & Hf & Hk & Hrd' & Hst' & _).
  pose proof (cf_grant _ _ _ _ _ _ _ _ Hf) as Hg'. rewrite Hg in Hg'. injection Hg' as <- _ _. subst issuer.
  (* the read of j is in h3 *)
  assert (Hin : exists g1 g2, h3 = (g1 ++ EvCall j (CSessGet (tq_issuer req) code) (ASess (SOk s)) :: g2)%list).
  { destruct (trace_history E w xs) as (sy & Ht & _).
    change (h1 ++ EvCall i (CSessDel (tq_issuer req) code) (AUnit rd) :: h2 ++ h3)%list
      with (h1 ++ (EvCall i (CSessDel (tq_issuer req) code) (AUnit rd) :: h2) ++ h3)%list in Hh.
    rewrite app_assoc in Hh. rewrite Hh in Ht.
    pose proof (started_later _ _ _ _ _ _ _ Ht Hst) as Hnone.
    assert (Hin : In (EvCall j (CSessGet (tq_issuer req) code) (ASess (SOk s))) (history E w xs)).
    { rewrite Hk. apply in_or_app; right; left; auto. }
    rewrite Hh in Hin. apply in_app_or in Hin as [Hin|Hin].
    - apply in_calls_of in Hin. rewrite Hnone in Hin. destruct Hin.
    - apply in_split in Hin. exact Hin. }
  destruct Hin as (g1 & g2 & ->).
  destruct (consumed_absent _ _ _ _ _ _ _ _ _ Hh Hrd (h2 ++ g1)%list j code (tq_issuer req) s g2)
    as (k & iss' & code' & s' & a & X & Y); auto.
  { rewrite <- app_assoc. reflexivity. }
  exists k, iss', code', s', a. split; auto. apply in_app_or in X. rewrite !in_app_iff. tauto.
Qed.

Lemma grant_type_of E w xs i req res : token_ok (history E w xs) i req res ->
  match tq_grant req with
  | GNone => False
  | GAuthorizationCode _ _ _ => tq_grant_type req = "authorization_code"%string
  | GClientCredentials => tq_grant_type req = "client_credentials"%string
  | GDeviceCode _ => tq_grant_type req = "urn:ietf:params:oauth:grant-type:device_code"%string
  | GRefreshToken _ => tq_grant_type req = "refresh_token"%string
  | GTokenExchange _ _ => tq_grant_type req = "urn:ietf:params:oauth:grant-type:token-exchange"%string
  end.
Proof.
  intros Hok. destruct (token_ok_client _ _ _ _ _ _ Hok) as (auth & c & tr' & H1 & H2 & H3 & H4 & H5 & H6 & H7).
  pose proof (dispatch_grant _ _ _ _ _ H6 H5) as D. destruct (tq_grant req); auto; apply D.
Qed.

Lemma token_ok_prefix h1 h2 i req res : token_ok h1 i req res -> token_ok (h1 ++ h2)%list i req res.
Proof. intros [[A B] C]. repeat split; auto; apply in_or_app; auto. Qed.

Lemma C02_code_redeemed_once_proof : forall E w xs h1 h2 i j req1 req2 res1 res2 issuer code,
  history E w xs = (h1 ++ h2)%list ->
  token_ok h1 i req1 res1 -> In (EvStart j (RToken (Some req2))) h2 ->
  presents_code req1 issuer code -> presents_code req2 issuer code ->
  token_ok (history E w xs) j req2 res2 ->
  exists g1 g2, history E w xs = (g1 ++ g2)%list /\ during g1 i (RToken (Some req1)) /\
    handed_out E g2 issuer code.
Proof.
  intros E w xs h1 h2 i j req1 req2 res1 res2 issuer code Hh Hok1 Hst2 Hp1 Hp2 Hok2.
  pose proof (token_ok_prefix _ h2 _ _ _ Hok1) as Hok1'. rewrite <- Hh in Hok1'.
  pose proof Hp1 as (Hi & redirect & verif & Hg).
  assert (Hgt : tq_grant_type req1 = "authorization_code"%string).
  { pose proof (grant_type_of _ _ _ _ _ _ Hok1') as X. rewrite Hg in X. exact X. }
  destruct (code_redeemed _ _ _ _ _ _ Hok1' Hgt) as (code' & redirect' & verif' & c & s & ar & rd' & k1 & k2 & k3 &
    Hc & Hf & Hk & Hrd' & Hst' & _).
  pose proof (cf_grant _ _ _ _ _ _ _ _ Hf) as Hg'. rewrite Hg in Hg'. injection Hg' as <- _ _. subst issuer.
  (* the delete is in h1 *)
  assert (Hin : In (EvCall i (CSessDel (tq_issuer req1) code) (AUnit rd')) h1).
  { destruct (trace_history E w xs) as (sy & Ht & _). rewrite Hh in Ht.
    destruct Hok1 as [[_ Hd] _].
    pose proof (done_earlier _ _ _ _ _ _ _ Ht Hd) as Hnone.
    assert (Hin : In (EvCall i (CSessDel (tq_issuer req1) code) (AUnit rd')) (h1 ++ h2)%list).
    { rewrite <- Hh, Hk. rewrite in_app_iff. right; right. rewrite in_app_iff. right; left; auto. }
    apply in_app_or in Hin as [Hin|Hin]; auto.
    apply in_calls_of in Hin. rewrite Hnone in Hin. destruct Hin. }
  apply in_split in Hin as (g1 & g2 & ->). rewrite <- app_assoc in Hh. cbn in Hh.
  pose proof (C60_deleted_code_unusable_proof E w xs g1 i (tq_issuer req1) code rd' g2 h2 j req2 res2 Hh Hrd' Hst2 Hok2 Hp2) as Hho.
  exists (g1 ++ [EvCall i (CSessDel (tq_issuer req1) code) (AUnit rd')])%list, (g2 ++ h2)%list.
  rewrite <- app_assoc. split; [exact Hh|]. split; [|exact Hho].
  unfold during. apply in_or_app. left. eapply started_before; [exact Hh|apply Hok1'].
Qed.
