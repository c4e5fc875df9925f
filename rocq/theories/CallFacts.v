(** * Why a request makes a storage write (proofs only)

    Holds for every execution, also one that has not finished: the facts are
    about the calls made before the write. *)

From Verif Require Export ProgFacts2 StoreFacts.

Definition did (tr : list (call * answer)) (c : call) (a : answer) : Prop := In (c, a) tr.

(** Reason for storing a token, per grant. *)
Definition grant_just (E : ext) (req : token_request) (c : client) (tr : list (call * answer))
    (issuer : string) (t : token) (m : token_meta) (tm : N) : Prop :=
  match tq_grant req with
  | GNone => False
  | GClientCredentials =>
      (cl_type c = CtConfidential \/ cl_type c = CtCredentialed) /\ listed E (cl_grant_types c) gt_cc /\
      t = at_spec (cl_id c) (mk_meta (tq_issuer req) "" (opt_str (tq_scope req)) (opt_str (tq_audience req)))
            (tq_cnf req) tm (t_id t) (t_value t) /\ issuer = tq_issuer req
  | GAuthorizationCode code redirect verifier =>
      exists s ar rd, did tr (CSessGet (tq_issuer req) code) (ASess (SOk s)) /\
        did tr (CSessDel (tq_issuer req) code) (AUnit rd) /\ is_ok rd = true /\
        code_facts E c req s ar code redirect verifier /\ asks E (ar_scope ar) scope_openid /\
        issuer = tq_issuer req /\
        (t = at_spec (cl_id c) (code_meta req s ar) (tq_cnf req) tm (t_id t) (t_value t) \/
         asks E (ar_scope ar) scope_offline /\
         t = rt_spec (cl_id c) (code_meta req s ar) (tq_cnf req) tm (t_id t) (t_value t))
  | GRefreshToken value =>
      exists rt m0 t0, did tr (CTokGet (tq_issuer req) value) (ATok (SOk rt)) /\ did tr CNow (ATime t0) /\
        t_status rt = TsActive /\ t_type rt = TtRefresh /\ t_meta rt = Some m0 /\
        (unix t0 <= m_expires_at m0)%N /\ m_client_id m0 = cl_id c /\ issuer = m_issuer m0 /\
        listed E (cl_grant_types c) gt_refresh /\
        (t = at_spec (cl_id c) m0 (t_cnf rt) tm (t_id t) (t_value t) \/
         t = rt_spec (cl_id c) m0 (t_cnf rt) tm (t_id t) (t_value t))
  | GDeviceCode code =>
      exists s dr dc sub t0, did tr (CDevGetDev (tq_issuer req) code) (ADev (SOk s)) /\ did tr CNow (ATime t0) /\
        ds_request s = Some dr /\ ds_client s = Some dc /\ dr_client_id dr = cl_id c /\
        (unix t0 <= ds_expires_at s)%N /\ ds_status s = DsValidated /\ ds_subject s = Some sub /\
        issuer = tq_issuer req /\ listed E (cl_grant_types c) gt_device /\
        (t = at_spec (cl_id c) (mk_meta (tq_issuer req) sub (opt_str (ds_scope s)) "") (tq_cnf req) tm (t_id t) (t_value t) \/
         asks E (opt_str (ds_scope s)) scope_offline /\
         t = rt_spec (cl_id c) (mk_meta (tq_issuer req) sub (opt_str (ds_scope s)) "") (tq_cnf req) tm (t_id t) (t_value t))
  | GTokenExchange value _ =>
      exists st m0 t0 scope aud, did tr (CTokGet (tq_issuer req) value) (ATok (SOk st)) /\ did tr CNow (ATime t0) /\
        t_status st = TsActive /\ t_type st = TtAccess /\ t_meta st = Some m0 /\
        (unix t0 <= m_expires_at m0)%N /\ issuer = tq_issuer req /\ listed E (cl_grant_types c) gt_exchange /\
        scope = (match tq_scope req with Some s => s | None => m_scope m0 end) /\
        t = exchange_spec (cl_id c) m0 (t_cnf st) scope aud tm (t_id t) (t_value t)
  end.

Definition justified (E : ext) (req : token_request) (tr : list (call * answer))
    (issuer : string) (t : token) : Prop :=
  exists auth c m tm, tq_client req = Some auth /\ did tr (CClientGet (cl_id auth)) (AClient (SOk c)) /\
    did tr CNow (ATime tm) /\ t_meta t = Some m /\ m_issued_at m = unix tm /\ t_value t <> ""%string /\
    grant_matches (tq_grant_type req) (tq_grant req) = true /\
    x_request_uri E (tq_issuer req) = true /\ tq_issuer req <> ""%string /\
    grant_just E req c tr issuer t m tm.

(** The client of the request was looked up, without an error. *)
Definition read_client_ok (tr : list (call * answer)) (o : option client) : Prop :=
  exists auth rc, o = Some auth /\ did tr (CClientGet (cl_id auth)) (AClient rc) /\ is_ok rc = true.

(** Which writes request [r] may make, after the calls [tr]. *)
Definition may_write (E : ext) (r : request) (tr : list (call * answer)) (c : call) : Prop :=
  match c with
  | CTokCreate issuer t => exists req, r = RToken (Some req) /\ justified E req tr issuer t
  | CTokRevoke issuer id =>
      (exists req t, r = RRevoke (Some req) /\ issuer = vq_issuer req /\ id = t_id t /\
         did tr (CTokGet (vq_issuer req) (vq_token req)) (ATok (SOk t)) /\ read_client_ok tr (vq_client req))
      \/ (exists req value t, r = RToken (Some req) /\ tq_grant req = GRefreshToken value /\
            issuer = tq_issuer req /\ id = t_id t /\ t_type t = TtRefresh /\
            did tr (CTokGet (tq_issuer req) value) (ATok (SOk t)) /\ read_client_ok tr (tq_client req))
  | CSessDel issuer code => exists req redirect verifier, r = RToken (Some req) /\ tq_issuer req = issuer /\
      tq_grant req = GAuthorizationCode code redirect verifier
  | CSessReg issuer code s =>
      exists req r0 r1 c, r = RAuthorize (Some req) /\ zq_issuer req = issuer /\ zq_request req = Some r0 /\
        s = mkSess issuer (zq_subject req) (Some r1) /\
        client_allows E c r1 /\ did tr (CClientGet (ar_client_id r1)) (AClient (SOk c)) /\
        ((ar_request_uri r0 = None /\ request_facts E r0 r1) \/
         (exists uri pushed d, ar_request_uri r0 = Some uri /\ x_uri_valid E uri = true /\ is_ok d = true /\
            did tr (CReqGet issuer uri) (AReq (SOk pushed)) /\ did tr (CReqDel issuer uri) (AUnit d) /\
            request_facts E pushed r1))
  | CReqReg issuer uri r1 =>
      exists req c0 r0 c, r = RRegister (Some req) /\ gq_issuer req = issuer /\ gq_client req = Some c0 /\
        gq_request req = Some r0 /\ ar_request_uri r0 = None /\ ar_client_id r0 = cl_id c0 /\
        request_facts E r0 r1 /\ client_allows E c r1 /\
        did tr (CClientGet (ar_client_id r1)) (AClient (SOk c))
  | CReqDel issuer uri =>
      exists req r0, r = RAuthorize (Some req) /\ zq_issuer req = issuer /\ zq_request req = Some r0 /\
        ar_request_uri r0 = Some uri
  | CDevReg issuer user_code s =>
      exists req c dc, r = RDevAuthorize (Some req) /\ dr_issuer req = issuer /\
        did tr (CClientGet (dr_client_id req)) (AClient (SOk c)) /\ listed E (cl_grant_types c) gt_device /\
        s = mkDev (Some c) issuer 0 (Some req) DsUnspecified dc None (dr_scope req) (dr_audience req)
  | CDevVal issuer user_code s =>
      exists req s0 t, r = RDevValidate (Some req) /\ vv_issuer req = issuer /\ vv_user_code req = user_code /\
        did tr (CDevGetUser issuer user_code) (ADev (SOk s0)) /\ did tr CNow (ATime t) /\
        (unix t <= ds_expires_at s0)%N /\ ds_status s0 = DsPending /\ s = approve s0 (vv_subject req) /\
        vv_subject req <> ""%string
  | CDevDel issuer user_code =>
      exists req s0 r1, r = RDevValidate (Some req) /\ vv_issuer req = issuer /\ vv_user_code req = user_code /\
        did tr (CDevVal issuer user_code (approve s0 (vv_subject req))) (AUnit r1) /\ is_ok r1 = true
  | CProofReg id => exists htm htu proof tv tc cl, r = RDpop htm htu proof tv tc /\
      x_payload E KDpop proof = Some cl /\ id = jti_hash E (c_jti cl)
  | _ => True
  end.

(** ** wp rules *)

Section Rules.
Context {A : Type} (Pc : list (call * answer) -> call -> Prop) (Pr : list (call * answer) -> A -> Prop).
Variable tr : list (call * answer).

Definition rule {B} (p : prog A) (c : call) (k : B -> prog A) (ans : B -> answer) : Prop :=
  Pc tr c -> (forall x, wp Pc Pr (tr ++ [(c, ans x)])%list (k x)) -> wp Pc Pr tr p.

Lemma wp_now k : rule (now k) CNow k ATime.
Proof. intros H1 H2. split; auto. intros []; cbn; auto. Qed.
Lemma wp_rand n k : rule (rand n k) (CRand n) k AStr.
Proof. intros H1 H2. split; auto. intros []; cbn; auto. Qed.
Lemma wp_gen c k : rule (gen c k) c k AGen.
Proof. intros H1 H2. split; auto. intros []; cbn; auto. Qed.
Lemma wp_client_get c k : rule (client_get c k) (CClientGet c) k AClient.
Proof. intros H1 H2. split; auto. intros []; cbn; auto. Qed.
Lemma wp_res_get c k : rule (res_get c k) (CResGet c) k ARes.
Proof. intros H1 H2. split; auto. intros []; cbn; auto. Qed.
Lemma wp_sess_get i c k : rule (sess_get i c k) (CSessGet i c) k ASess.
Proof. intros H1 H2. split; auto. intros []; cbn; auto. Qed.
Lemma wp_req_get i c k : rule (req_get i c k) (CReqGet i c) k AReq.
Proof. intros H1 H2. split; auto. intros []; cbn; auto. Qed.
Lemma wp_dev_get c k : rule (dev_get c k) c k ADev.
Proof. intros H1 H2. split; auto. intros []; cbn; auto. Qed.
Lemma wp_tok_get i c k : rule (tok_get i c k) (CTokGet i c) k ATok.
Proof. intros H1 H2. split; auto. intros []; cbn; auto. Qed.
Lemma wp_proof_exists c k : rule (proof_exists c k) (CProofExists c) k ABool.
Proof. intros H1 H2. split; auto. intros []; cbn; auto. Qed.
Lemma wp_reg c k : rule (reg c k) c k ANum.
Proof. intros H1 H2. split; auto. intros []; cbn; auto. Qed.
Lemma wp_write c k : rule (write c k) c k AUnit.
Proof. intros H1 H2. split; auto. intros []; cbn; auto. Qed.
End Rules.

Ltac wcall r := first
  [ apply wp_now | apply wp_rand | apply wp_gen | apply wp_client_get | apply wp_res_get
  | apply wp_sess_get | apply wp_req_get | apply wp_dev_get | apply wp_tok_get
  | apply wp_proof_exists | apply wp_reg | apply wp_write ]; [try exact I|intros r].

Ltac did_tac := unfold did; rewrite ?in_app_iff; cbn [In]; tauto.

Lemma did_incl tr tr' c a : incl tr tr' -> did tr c a -> did tr' c a.
Proof. intros H1 H2. apply H1. exact H2. Qed.
Lemma incl_snoc {A} (l : list A) x : incl l (l ++ [x])%list.
Proof. intros y Hy. apply in_or_app. auto. Qed.

(** Token generation. *)
Lemma wp_gen_at (Pc : list (call * answer) -> call -> Prop) tr cid meta cnf :
  (forall tr', Pc tr' CNow) -> (forall tr' n, Pc tr' (CRand n)) -> (forall tr' t, Pc tr' (CGenAT t)) ->
  (forall tr' tm id v, incl tr tr' -> did tr' CNow (ATime tm) -> v <> ""%string ->
     Pc tr' (CTokCreate (m_issuer meta) (at_spec cid meta cnf tm id v))) ->
  wp Pc (fun tr' r => forall at_, r = Some at_ -> incl tr tr' /\
          exists tm id v, at_ = at_spec cid meta cnf tm id v)
    tr (generate_access_token cid meta cnf).
Proof.
  intros H1 H2 H3 H4. unfold generate_access_token.
  apply wp_now; [auto|intros tm]. apply wp_rand; [auto|intros id]. cbv zeta. apply wp_gen; [auto|intros g].
  destruct g as [v|]; [|cbn; discriminate].
  destruct (is_empty v) eqn:Hv; [cbn; discriminate|]. apply is_empty_false in Hv.
  set (tr3 := (((tr ++ [_]) ++ [_]) ++ [_])%list).
  assert (Hi : incl tr tr3) by (unfold tr3; intros y Hy; rewrite !in_app_iff; auto).
  apply wp_write.
  - apply (H4 tr3 tm id v); auto. unfold tr3. did_tac.
  - intros r. destruct (is_ok r); cbn; [|discriminate].
    intros at_ X; inversion X; subst. split; [intros y Hy; apply in_or_app; auto|].
    exists tm, id, v. reflexivity.
Qed.

Lemma wp_gen_rt (Pc : list (call * answer) -> call -> Prop) tr cid meta cnf :
  (forall tr', Pc tr' CNow) -> (forall tr' n, Pc tr' (CRand n)) -> (forall tr' t, Pc tr' (CGenRT t)) ->
  (forall tr' tm id v, incl tr tr' -> did tr' CNow (ATime tm) -> v <> ""%string ->
     Pc tr' (CTokCreate (m_issuer meta) (rt_spec cid meta cnf tm id v))) ->
  wp Pc (fun tr' r => forall at_, r = Some at_ -> incl tr tr' /\
          exists tm id v, at_ = rt_spec cid meta cnf tm id v)
    tr (generate_refresh_token cid meta cnf).
Proof.
  intros H1 H2 H3 H4. unfold generate_refresh_token.
  apply wp_now; [auto|intros tm]. apply wp_rand; [auto|intros id]. cbv zeta. apply wp_gen; [auto|intros g].
  destruct g as [v|]; [|cbn; discriminate].
  destruct (is_empty v) eqn:Hv; [cbn; discriminate|]. apply is_empty_false in Hv.
  set (tr3 := (((tr ++ [_]) ++ [_]) ++ [_])%list).
  assert (Hi : incl tr tr3) by (unfold tr3; intros y Hy; rewrite !in_app_iff; auto).
  apply wp_write.
  - apply (H4 tr3 tm id v); auto. unfold tr3. did_tac.
  - intros r. destruct (is_ok r); cbn; [|discriminate].
    intros at_ X; inversion X; subst. split; [intros y Hy; apply in_or_app; auto|].
    exists tm, id, v. reflexivity.
Qed.

Section Serve.
Context (E : ext).
Notation T := (fun _ _ => True).

(** The part of [justified] known once the client was read. *)
Definition base (req : token_request) (c : client) (tr : list (call * answer)) : Prop :=
  exists auth, tq_client req = Some auth /\ did tr (CClientGet (cl_id auth)) (AClient (SOk c)) /\
    grant_matches (tq_grant_type req) (tq_grant req) = true /\
    x_request_uri E (tq_issuer req) = true /\ tq_issuer req <> ""%string.

Lemma base_just req c tr tr' issuer t m tm :
  base req c tr -> incl tr tr' -> did tr' CNow (ATime tm) -> t_meta t = Some m -> m_issued_at m = unix tm ->
  t_value t <> ""%string -> grant_just E req c tr' issuer t m tm ->
  may_write E (RToken (Some req)) tr' (CTokCreate issuer t).
Proof.
  intros (auth & H1 & H2 & H3 & H4 & H5) Hi Ht Hm Hia Hv Hg. exists req. split; auto.
  exists auth, c, m, tm. repeat (split; [solve [auto | eapply did_incl; eauto]|]). auto.
Qed.

Lemma base_incl req c tr tr' : base req c tr -> incl tr tr' -> base req c tr'.
Proof. intros (auth & H1 & H2 & H3) Hi. exists auth. repeat split; try apply H3; auto. eapply did_incl; eauto. Qed.

Lemma prologue_wp req c Pc (Pr : list (call * answer) -> token_response -> Prop) tr k :
  (forall x, Pr tr (tfail x)) ->
  (tq_issuer req <> ""%string -> x_request_uri E (tq_issuer req) = true -> wp Pc Pr tr (k c)) ->
  wp Pc Pr tr (prologue E (Some c) req k).
Proof.
  intros H1 H2. unfold prologue.
  destruct (is_empty (tq_issuer req)) eqn:Hi; [cbn; auto|]. apply is_empty_false in Hi.
  destruct (x_request_uri E (tq_issuer req)) eqn:Hu; cbn; auto.
Qed.

Lemma cc_wp req c tr auth :
  tq_client req = Some auth -> did tr (CClientGet (cl_id auth)) (AClient (SOk c)) ->
  grant_matches (tq_grant_type req) (tq_grant req) = true ->
  wp (may_write E (RToken (Some req))) T tr (client_credentials E (Some c) req).
Proof.
  intros H1 H2 H3. unfold client_credentials. destruct (tq_grant req) eqn:Hg; try exact I.
  apply prologue_wp; [intros; exact I|]. intros Hi Hu.
  assert (Hb : base req c tr) by (exists auth; rewrite Hg; auto).
  assert (Hk : cl_type c = CtConfidential \/ cl_type c = CtCredentialed ->
    wp (may_write E (RToken (Some req))) T tr
      (if negb (has E (cl_grant_types c) gt_cc) then Ret (tfail (err unsupported_grant_type))
       else
         let meta := mk_meta (tq_issuer req) "" (opt_str (tq_scope req)) (opt_str (tq_audience req)) in
         bind (generate_access_token (cl_id c) meta (tq_cnf req)) (fun r =>
         match r with
         | None => Ret (tfail (err server_error))
         | Some at_ => Ret (tok (Some at_) None)
         end))).
  { intros Ht. destruct (has E (cl_grant_types c) gt_cc) eqn:Hh; [|exact I]. cbn [negb]. cbv zeta.
    eapply wp_bind; [apply wp_gen_at; try (intros; exact I)|].
    - intros tr' tm id v Hin Hnow Hv. eapply (base_just req c tr); [exact Hb|exact Hin|exact Hnow|reflexivity|reflexivity|exact Hv|].
      unfold grant_just. rewrite Hg. repeat split; auto. apply has_iff; auto.
    - intros tr' r _. destruct r; exact I. }
  destruct (cl_type c); try exact I; apply Hk; auto.
Qed.

Lemma code_wp req c tr auth :
  tq_client req = Some auth -> did tr (CClientGet (cl_id auth)) (AClient (SOk c)) ->
  grant_matches (tq_grant_type req) (tq_grant req) = true ->
  wp (may_write E (RToken (Some req))) T tr (authorization_code E (Some c) req).
Proof.
  intros H1 H2 H3. unfold authorization_code. destruct (tq_grant req) eqn:Hg; try exact I.
  apply prologue_wp; [intros; exact I|]. intros Hi Hu.
  assert (Hb : base req c tr) by (exists auth; rewrite Hg; auto).
  destruct (has E (cl_grant_types c) gt_code) eqn:Hcap; [|exact I]. cbn [negb].
  destruct (is_empty code || is_empty code_verifier || is_empty redirect_uri) eqn:Hne; [exact I|].
  destruct (Nat.ltb max_code_length (rune_count code)) eqn:Hl; [exact I|].
  destruct (Nat.ltb (String.length code_verifier) min_verifier_length) eqn:Hmin; [exact I|].
  destruct (Nat.ltb max_verifier_length (String.length code_verifier)) eqn:Hmax; [exact I|].
  wcall r. destruct r as [s| | |]; try exact I.
  destruct (as_request s) as [ar|] eqn:Har; [|exact I].
  wcall rd. { exists req, redirect_uri, code_verifier. auto. }
  destruct (is_ok rd) eqn:Hrd; [|exact I].
  set (tr2 := ((tr ++ [_]) ++ [_])%list).
  assert (Hi2 : incl tr tr2) by (intros y Hy; unfold tr2; rewrite !in_app_iff; auto).
  unfold redeem_session.
  destruct (String.eqb (ar_redirect_uri ar) redirect_uri) eqn:Hr; [|exact I]. cbn [negb].
  destruct (has E (cl_redirect_uris c) redirect_uri) eqn:Hreg; [|exact I]. cbn [negb].
  destruct (String.eqb (ar_code_challenge_method ar) s256) eqn:Hm; [|exact I]. cbn [negb].
  destruct (String.eqb (b64url (x_sha256 E code_verifier)) (ar_code_challenge ar)) eqn:Hch; [|exact I].
  cbn [negb]. cbv zeta.
  destruct (has E (fields (ar_scope ar)) scope_openid) eqn:Ho; [|exact I].
  norm_bool.
  assert (Hcf : code_facts E c req s ar code redirect_uri code_verifier).
  { constructor; auto; try (apply has_iff; auto). apply is_empty_false; auto. }
  assert (Hd1 : did tr2 (CSessGet (tq_issuer req) code) (ASess (SOk s))) by (unfold tr2; did_tac).
  assert (Hd2 : did tr2 (CSessDel (tq_issuer req) code) (AUnit rd)) by (unfold tr2; did_tac).
  eapply wp_bind; [apply wp_gen_at; try (intros; exact I)|].
  - intros tr' tm id v Hin Hnow Hv.
    eapply (base_just req c tr2); [eapply base_incl; eauto|exact Hin|exact Hnow|reflexivity|reflexivity|exact Hv|].
    unfold grant_just. rewrite Hg. exists s, ar, rd.
    repeat (split; [solve [auto | eapply did_incl; eauto | apply has_iff; auto]|]). left. reflexivity.
  - intros tr' r Hr'. destruct r as [at_|]; [|exact I].
    destruct (Hr' _ eq_refl) as (Hin & tm1 & id1 & v1 & ->).
    destruct (has E (fields (ar_scope ar)) scope_offline) eqn:Hoff; [|exact I].
    eapply wp_bind; [apply wp_gen_rt; try (intros; exact I)|].
    + intros tr'' tm id v Hin2 Hnow Hv.
      eapply (base_just req c tr'); [exact (base_incl _ _ _ _ Hb (incl_tran Hi2 Hin))|exact Hin2|exact Hnow|reflexivity|reflexivity|exact Hv|].
      unfold grant_just. rewrite Hg. exists s, ar, rd.
      repeat (split; [solve [auto | eapply did_incl; [exact (incl_tran Hin Hin2)|eauto] | apply has_iff; auto]|]).
      right. split; [apply has_iff; auto|reflexivity].
    + intros tr'' r _. destruct r; exact I.
Qed.

Lemma refresh_wp req c tr auth :
  tq_client req = Some auth -> did tr (CClientGet (cl_id auth)) (AClient (SOk c)) ->
  grant_matches (tq_grant_type req) (tq_grant req) = true ->
  wp (may_write E (RToken (Some req))) T tr (refresh_token E (Some c) req).
Proof.
  intros H1 H2 H3. unfold refresh_token. destruct (tq_grant req) as [| | | |value|] eqn:Hg; try exact I.
  apply prologue_wp; [intros; exact I|]. intros Hi Hu.
  assert (Hb : base req c tr) by (exists auth; rewrite Hg; auto).
  destruct (is_empty value) eqn:Hne; [exact I|].
  destruct (has E (cl_grant_types c) gt_refresh) eqn:Hcap; [|exact I]. cbn [negb].
  wcall r. destruct r as [rt| | |]; try exact I.
  destruct (t_status rt) eqn:Hst; try exact I.
  destruct (t_type rt) eqn:Hty; try exact I.
  destruct (t_meta rt) as [m0|] eqn:Hm; try exact I.
  wcall t0. destruct (m_expires_at m0 <? unix t0)%N eqn:He; [exact I|].
  destruct (String.eqb (m_client_id m0) (cl_id c)) eqn:Hc; [|exact I]. cbn [negb].
  set (tr2 := ((tr ++ [_]) ++ [_])%list).
  assert (Hi2 : incl tr tr2) by (intros y Hy; unfold tr2; rewrite !in_app_iff; auto).
  assert (Hd1 : did tr2 (CTokGet (tq_issuer req) value) (ATok (SOk rt))) by (unfold tr2; did_tac).
  assert (Hd2 : did tr2 CNow (ATime t0)) by (unfold tr2; did_tac).
  norm_bool.
  eapply wp_bind; [apply wp_gen_at; try (intros; exact I)|].
  - intros tr' tm id v Hin Hnow Hv.
    eapply (base_just req c tr2); [eapply base_incl; eauto|exact Hin|exact Hnow|reflexivity|reflexivity|exact Hv|].
    unfold grant_just. rewrite Hg. exists rt, m0, t0.
    repeat (split; [solve [auto | eapply did_incl; eauto | apply has_iff; auto]|]). left. reflexivity.
  - intros tr' r Hr'. destruct r as [at_|]; [|exact I].
    destruct (Hr' _ eq_refl) as (Hin & tm1 & id1 & v1 & ->).
    cbv zeta. match goal with |- wp _ _ _ (if ?b then _ else _) => destruct b; [|exact I] end.
    eapply wp_bind; [apply wp_gen_rt; try (intros; exact I)|].
    + intros tr'' tm id v Hin2 Hnow Hv.
      eapply (base_just req c tr'); [exact (base_incl _ _ _ _ Hb (incl_tran Hi2 Hin))|exact Hin2|exact Hnow|reflexivity|reflexivity|exact Hv|].
      unfold grant_just. rewrite Hg. exists rt, m0, t0.
      repeat (split; [solve [auto | eapply did_incl; [exact (incl_tran Hin Hin2)|eauto] | apply has_iff; auto]|]).
      right. reflexivity.
    + intros tr'' r Hr''. destruct r as [nrt|]; [|exact I].
      destruct (Hr'' _ eq_refl) as (Hin2 & _).
      wcall rr.
      * right. exists req, value, rt. repeat (split; [solve [auto]|]).
        split; [eapply did_incl; [exact (incl_tran Hin Hin2)|eauto]|].
        exists auth, (SOk c). repeat (split; [solve [auto|eapply did_incl; [exact (incl_tran Hi2 (incl_tran Hin Hin2))|eauto]]|]).
        reflexivity.
      * destruct (is_ok rr); exact I.
Qed.

Lemma device_wp req c tr auth :
  tq_client req = Some auth -> did tr (CClientGet (cl_id auth)) (AClient (SOk c)) ->
  grant_matches (tq_grant_type req) (tq_grant req) = true ->
  wp (may_write E (RToken (Some req))) T tr (device_code E (Some c) req).
Proof.
  intros H1 H2 H3. unfold device_code. destruct (tq_grant req) as [| | |code| |] eqn:Hg; try exact I.
  apply prologue_wp; [intros; exact I|]. intros Hi Hu.
  assert (Hb : base req c tr) by (exists auth; rewrite Hg; auto).
  destruct (has E (cl_grant_types c) gt_device) eqn:Hcap; [|exact I]. cbn [negb].
  destruct (is_empty code) eqn:Hne; [exact I|].
  wcall r. destruct r as [s| | |]; try exact I.
  destruct (ds_request s) as [dr|] eqn:Hdr; try exact I.
  destruct (ds_client s) as [dc|] eqn:Hdc; try exact I.
  destruct (String.eqb (dr_client_id dr) (cl_id c)) eqn:Hc; [|exact I]. cbn [negb].
  wcall t0. destruct (ds_expires_at s <? unix t0)%N eqn:He; [exact I|].
  destruct (ds_status s) eqn:Hst; try exact I.
  destruct (ds_subject s) as [sub|] eqn:Hsub; try exact I. cbv zeta.
  set (tr2 := ((tr ++ [_]) ++ [_])%list).
  assert (Hi2 : incl tr tr2) by (intros y Hy; unfold tr2; rewrite !in_app_iff; auto).
  assert (Hd1 : did tr2 (CDevGetDev (tq_issuer req) code) (ADev (SOk s))) by (unfold tr2; did_tac).
  assert (Hd2 : did tr2 CNow (ATime t0)) by (unfold tr2; did_tac).
  norm_bool.
  eapply wp_bind; [apply wp_gen_at; try (intros; exact I)|].
  - intros tr' tm id v Hin Hnow Hv.
    eapply (base_just req c tr2); [eapply base_incl; eauto|exact Hin|exact Hnow|reflexivity|reflexivity|exact Hv|].
    unfold grant_just. rewrite Hg. exists s, dr, dc, sub, t0.
    repeat (split; [solve [auto | eapply did_incl; eauto | apply has_iff; auto]|]). left. reflexivity.
  - intros tr' r Hr'. destruct r as [at_|]; [|exact I].
    destruct (Hr' _ eq_refl) as (Hin & tm1 & id1 & v1 & ->).
    destruct (ds_scope s) as [scope|] eqn:Hsc; [|exact I].
    destruct (has E (fields scope) scope_offline) eqn:Hoff; [|exact I].
    eapply wp_bind; [apply wp_gen_rt; try (intros; exact I)|].
    + intros tr'' tm id v Hin2 Hnow Hv.
      eapply (base_just req c tr'); [exact (base_incl _ _ _ _ Hb (incl_tran Hi2 Hin))|exact Hin2|exact Hnow|reflexivity|reflexivity|exact Hv|].
      unfold grant_just. rewrite Hg. exists s, dr, dc, sub, t0.
      repeat (split; [solve [auto | eapply did_incl; [exact (incl_tran Hin Hin2)|eauto] | apply has_iff; auto]|]).
      right. rewrite Hsc. split; [apply has_iff; auto|reflexivity].
    + intros tr'' r _. destruct r; exact I.
Qed.

Lemma exchange_wp req c tr auth :
  tq_client req = Some auth -> did tr (CClientGet (cl_id auth)) (AClient (SOk c)) ->
  grant_matches (tq_grant_type req) (tq_grant req) = true ->
  wp (may_write E (RToken (Some req))) T tr (token_exchange E (Some c) req).
Proof.
  intros H1 H2 H3. unfold token_exchange. destruct (tq_grant req) as [| | | | |value ty] eqn:Hg; try exact I.
  apply prologue_wp; [intros; exact I|]. intros Hi Hu.
  assert (Hb : base req c tr) by (exists auth; rewrite Hg; auto).
  destruct (is_empty ty) eqn:Hne0; [exact I|].
  destruct (is_empty value) eqn:Hne; [exact I|].
  destruct (has E (cl_grant_types c) gt_exchange) eqn:Hcap; [|exact I]. cbn [negb].
  destruct (String.eqb ty at_type); [|exact I].
  unfold exchange_access_token.
  wcall r. destruct r as [st| | |]; try exact I.
  destruct (t_status st) eqn:Hst; try exact I.
  destruct (t_type st) eqn:Hty; try exact I.
  destruct (t_meta st) as [m0|] eqn:Hm; try exact I.
  wcall t0. destruct (m_expires_at m0 <? unix t0)%N eqn:He; [exact I|]. cbv zeta.
  wcall tm. wcall jti.
  set (tr4 := ((((tr ++ [_]) ++ [_]) ++ [_]) ++ [_])%list).
  assert (Hi2 : incl tr tr4) by (intros y Hy; unfold tr4; rewrite !in_app_iff; auto).
  assert (Hd1 : did tr4 (CTokGet (tq_issuer req) value) (ATok (SOk st))) by (unfold tr4; did_tac).
  assert (Hd2 : did tr4 CNow (ATime t0)) by (unfold tr4; did_tac).
  assert (Hd3 : did tr4 CNow (ATime tm)) by (unfold tr4; did_tac).
  clearbody tr4. norm_bool.
  assert (Hissue : forall tr' aud, incl tr4 tr' ->
    wp (may_write E (RToken (Some req))) T tr'
      (exchange_issue req (m_issuer m0) (m_scope m0)
         (mkToken "" TtAccess jti
           (Some (mkMeta (m_issuer m0) (m_subject m0) (unix tm) 0 (unix (tm + minute))
              (cl_id c) (match tq_scope req with Some s => s | None => m_scope m0 end) aud))
           TsActive "" (t_cnf st))
         (match tq_scope req with Some s => s | None => m_scope m0 end))).
  { intros tr' aud Hin. unfold exchange_issue. wcall g.
    destruct g as [v|]; [|exact I]. destruct (is_empty v) eqn:Hv; [exact I|]. apply is_empty_false in Hv.
    wcall rr; [|destruct (is_ok rr); exact I].
    match goal with |- may_write _ _ ?t _ => set (tr5 := t) end.
    assert (Hin5 : incl tr4 tr5) by (intros y Hy; unfold tr5; apply in_or_app; auto).
    eapply (base_just req c tr4); [eapply base_incl; eauto|exact Hin5|eapply did_incl; eauto|reflexivity|reflexivity|exact Hv|].
    unfold grant_just. rewrite Hg. exists st, m0, t0, (match tq_scope req with Some s => s | None => m_scope m0 end), aud.
    repeat (split; [solve [auto | eapply did_incl; eauto | apply has_iff; auto]|]). reflexivity. }
  destruct (tq_audience req) as [urn|].
  - wcall r. destruct r as [aud| | |]; try exact I. apply Hissue. apply incl_snoc.
  - apply Hissue. apply incl_refl.
Qed.

Lemma token_wp r : wp (may_write E (RToken r)) T [] (token_svc E r).
Proof.
  destruct r as [req|]; [|exact I]. unfold token_svc, validate_request.
  destruct (is_empty (tq_issuer req)); [exact I|].
  destruct (tq_client req) as [auth|] eqn:Hc; [|exact I].
  destruct (grant_matches _ _) eqn:Hm; [|exact I].
  wcall rc. destruct rc as [c| | |]; try exact I.
  - assert (Hd : did ([] ++ [(CClientGet (cl_id auth), AClient (SOk c))])%list (CClientGet (cl_id auth)) (AClient (SOk c)))
      by did_tac.
    unfold dispatch.
    destruct (String.eqb (tq_grant_type req) gt_cc); [eapply cc_wp; eauto|].
    destruct (String.eqb (tq_grant_type req) gt_code); [eapply code_wp; eauto|].
    destruct (String.eqb (tq_grant_type req) gt_device); [eapply device_wp; eauto|].
    destruct (String.eqb (tq_grant_type req) gt_refresh); [eapply refresh_wp; eauto|].
    destruct (String.eqb (tq_grant_type req) gt_exchange); [eapply exchange_wp; eauto|].
    exact I.
  - unfold dispatch, client_credentials, authorization_code, device_code, refresh_token, token_exchange, prologue.
    repeat match goal with |- wp _ _ _ (match ?b with _ => _ end) => destruct b; try exact I end.
Qed.

Lemma introspect_wp r : wp (may_write E (RIntrospect r)) T [] (introspect_svc E r).
Proof.
  destruct r as [req|]; [|exact I]. unfold introspect_svc.
  repeat match goal with |- wp _ _ _ (match ?b with _ => _ end) => destruct b; try exact I end.
  wcall rc. destruct rc; try exact I; wcall rt; destruct rt; exact I.
Qed.

Lemma revoke_wp r : wp (may_write E (RRevoke r)) T [] (revoke_svc E r).
Proof.
  destruct r as [req|]; [|exact I]. unfold revoke_svc.
  repeat match goal with |- wp _ _ _ (match ?b with _ => _ end) => destruct b eqn:?; try exact I end.
  wcall rc. destruct rc; try exact I; wcall rt; destruct rt as [t| | |]; try exact I;
    (wcall rr; [left; exists req, t; do 3 (split; [reflexivity|]); split; [did_tac|
       do 2 eexists; split; [eassumption|]; split; [did_tac|reflexivity]]|destruct (is_ok rr); exact I]).
Qed.

Lemma validate_wp r tr ro : wp (may_write E r)
  (fun tr' v => forall r1, v = inr r1 -> incl tr tr' /\ exists r0 c, ro = Some r0 /\ request_facts E r0 r1 /\
     client_allows E c r1 /\ did tr' (CClientGet (ar_client_id r1)) (AClient (SOk c))) tr (validate E ro).
Proof.
  unfold validate. destruct ro as [r0|]; [|cbn; discriminate].
  destruct (validate_local E r0) as [e|r'] eqn:Hv; [cbn; discriminate|].
  apply validate_local_ok in Hv.
  assert (Hid : ar_client_id r' = ar_client_id r0) by (destruct Hv as [? ? ? ? ? ? ? ? ->]; reflexivity).
  wcall rc. destruct rc as [c| | |]; try exact I; try (cbn; discriminate).
  destruct (check_client E c r') eqn:Hc; [cbn; discriminate|]. apply check_client_ok in Hc.
  cbn. intros r1 X; inversion X; subst. split; [apply incl_snoc|].
  exists r0, c. rewrite ?Hid. repeat (split; [solve [auto]|]). did_tac.
Qed.

Lemma authorize_with_wp req tr ro :
  (forall tr' r0 r1 c code, ro = Some r0 -> request_facts E r0 r1 -> client_allows E c r1 -> incl tr tr' ->
     did tr' (CClientGet (ar_client_id r1)) (AClient (SOk c)) ->
     may_write E (RAuthorize (Some req)) tr' (CSessReg (zq_issuer req) code (mkSess (zq_issuer req) (zq_subject req) (Some r1)))) ->
  wp (may_write E (RAuthorize (Some req))) T tr (authorize_with E (zq_issuer req) (zq_subject req) ro).
Proof.
  intros H. unfold authorize_with. eapply wp_bind; [apply validate_wp|].
  intros tr' v Hv. destruct v as [e|r1]; [exact I|].
  destruct (Hv _ eq_refl) as (Hin & r0 & c & -> & Hf & Hc & Hd).
  wcall g. destruct g as [code|]; [|exact I].
  wcall rr; [|destruct (is_ok rr); exact I].
  eapply H; eauto; [intros y Hy; apply in_or_app; auto|eapply did_incl; [apply incl_snoc|auto]].
Qed.

Lemma authorize_wp r : wp (may_write E (RAuthorize r)) T [] (authorize_svc E r).
Proof.
  destruct r as [req|]; [|exact I]. unfold authorize_svc.
  destruct (zq_request req) as [r0|] eqn:Hr; [|exact I].
  destruct (is_empty (zq_issuer req)); [exact I|].
  destruct (is_empty (zq_subject req)); [exact I|].
  destruct (ar_request_uri r0) as [uri|] eqn:Hu.
  - destruct (x_uri_valid E uri) eqn:Hv; [|exact I]. cbn [negb].
    wcall rr. destruct rr as [pushed| | |]; try exact I.
    + wcall d; [exists req, r0; auto|].
      assert (Hgo : is_ok d = true -> wp (may_write E (RAuthorize (Some req))) T
        (([] ++ [(CReqGet (zq_issuer req) uri, AReq (SOk pushed))]) ++ [(CReqDel (zq_issuer req) uri, AUnit d)])%list
        (authorize_with E (zq_issuer req) (zq_subject req) (Some pushed))).
      { intros Hd0. apply authorize_with_wp. intros tr' ? r1 c code X Hf Hc Hin Hd. injection X as <-.
        exists req, r0, r1, c. repeat (split; [solve [auto]|]). right. exists uri, pushed, d.
        repeat (split; [solve [auto]|]). split; [eapply did_incl; [eauto|did_tac]|].
        split; [eapply did_incl; [eauto|did_tac]|]. auto. }
      destruct d as [u| | |]; try exact I; apply Hgo; reflexivity.
    + wcall d; [exists req, r0; auto|].
      destruct d as [u| | |]; try exact I; apply authorize_with_wp; discriminate.
  - apply authorize_with_wp. intros tr' ? r1 c code X Hf Hc Hin Hd. injection X as <-.
    exists req, r0, r1, c. repeat (split; [solve [auto]|]). left. auto.
Qed.

Lemma register_wp r : wp (may_write E (RRegister r)) T [] (register_svc E r).
Proof.
  destruct r as [req|]; [|exact I]. unfold register_svc.
  destruct (is_empty (gq_issuer req)); [exact I|].
  destruct (gq_client req) as [c0|] eqn:Hc0; [|exact I].
  destruct (gq_request req) as [r0|] eqn:Hr0; [|exact I].
  destruct (ar_request_uri r0) eqn:Hu; [exact I|].
  eapply wp_bind; [apply validate_wp|]. intros tr' v Hv. destruct v as [e|r1]; [exact I|].
  destruct (Hv _ eq_refl) as (Hin & r0' & c & X & Hf & Hc & Hd). injection X as <-.
  assert (Hid : ar_client_id r1 = ar_client_id r0) by (destruct Hf as [? ? ? ? ? ? ? ? ->]; reflexivity).
  match goal with |- wp _ _ _ (if negb ?b then _ else _) => destruct b eqn:Hb; [|exact I] end.
  cbn [negb]. wcall g. destruct g as [uri|]; [|exact I].
  wcall rr; [|destruct (is_ok rr); exact I].
  norm_bool. exists req, c0, r0, c.
  repeat (split; [solve [auto | congruence]|]). eapply did_incl; [apply incl_snoc|auto].
Qed.

Lemma dev_authorize_wp r : wp (may_write E (RDevAuthorize r)) T [] (dev_authorize_svc E r).
Proof.
  destruct r as [req|]; [|exact I]. unfold dev_authorize_svc.
  destruct (is_empty (dr_issuer req)); [exact I|].
  destruct (is_empty (dr_client_id req)); [exact I|].
  wcall rc. destruct rc as [c| | |]; try exact I.
  destruct (has E (cl_grant_types c) gt_device) eqn:Hh; [|exact I]. cbn [negb].
  wcall g. destruct g as [dc|]; [|exact I]. wcall g2. destruct g2 as [uc|]; [|exact I]. cbv zeta.
  wcall rr; [|destruct (is_ok rr); exact I].
  exists req, c, dc. repeat (split; [solve [auto | did_tac | apply has_iff; auto]|]). reflexivity.
Qed.

Lemma dev_validate_wp r : wp (may_write E (RDevValidate r)) T [] (dev_validate_svc r).
Proof.
  destruct r as [req|]; [|exact I]. unfold dev_validate_svc.
  destruct (is_empty (vv_issuer req)); [exact I|].
  destruct (is_empty (vv_user_code req)); [exact I|].
  destruct (is_empty (vv_subject req)) eqn:Hs; [exact I|]. apply is_empty_false in Hs.
  wcall rs. destruct rs as [s| | |]; try exact I.
  destruct (ds_request s); [|exact I]. destruct (ds_client s); [|exact I].
  wcall t. destruct (ds_expires_at s <? unix t)%N eqn:He; [exact I|]. norm_bool.
  destruct (ds_status s) eqn:Hst; try exact I.
  wcall rr.
  - exists req, s, t. repeat (split; [solve [auto | did_tac]|]). auto.
  - destruct (is_ok rr) eqn:Hrr; [|exact I]. wcall r2; [|destruct (is_ok r2); exact I].
    exists req, s, rr. repeat (split; [solve [auto | did_tac]|]). auto.
Qed.

Lemma assertion_wp r : wp (may_write E (RAssertion r)) T [] (private_key_jwt E r).
Proof.
  destruct r as [req|]; [|exact I]. unfold private_key_jwt.
  repeat match goal with |- wp _ _ _ (match ?b with _ => _ end) => destruct b; try exact I end.
  wcall t.
  repeat match goal with |- wp _ _ _ (match ?b with _ => _ end) => destruct b; try exact I end.
  wcall rc.
  repeat match goal with |- wp _ _ _ (match ?b with _ => _ end) => destruct b; try exact I end.
Qed.

Lemma attestation_wp r : wp (may_write E (RAttestation r)) T [] (client_attestation E r).
Proof.
  destruct r as [req|]; [|exact I]. unfold client_attestation.
  repeat match goal with |- wp _ _ _ (match ?b with _ => _ end) => destruct b; try exact I end.
  eapply (wp_bind _ _ T).
  - unfold validate_attestation.
    repeat match goal with |- wp _ _ _ (match ?b with _ => _ end) => destruct b; try exact I end.
    wcall t1.
    repeat match goal with |- wp _ _ _ (match ?b with _ => _ end) => destruct b; try exact I end.
    wcall t2.
    repeat match goal with |- wp _ _ _ (match ?b with _ => _ end) => destruct b; try exact I end.
    wcall rc.
    repeat match goal with |- wp _ _ _ (match ?b with _ => _ end) => destruct b; try exact I end.
  - intros tr' v _.
    repeat match goal with |- wp _ _ _ (match ?b with _ => _ end) => destruct b; try exact I end.
    wcall t1.
    repeat match goal with |- wp _ _ _ (match ?b with _ => _ end) => destruct b; try exact I end.
    wcall t2.
    repeat match goal with |- wp _ _ _ (match ?b with _ => _ end) => destruct b; try exact I end.
    wcall rc. destruct rc; exact I.
Qed.

Lemma dpop_wp htm htu proof tv tc : wp (may_write E (RDpop htm htu proof tv tc)) T [] (dpop_verify E htm htu proof tv tc).
Proof.
  unfold dpop_verify.
  destruct (is_empty htm || is_empty htu || is_empty proof); [exact I|].
  destruct (negb (x_request_uri E htu)); [exact I|].
  match goal with |- wp _ _ _ (if ?b then _ else _) => destruct b; [exact I|] end.
  destruct (x_parse E proof) as [t|]; [|exact I].
  destruct (j_typ t); [|exact I]. destruct (j_jwk t) as [k|]; [|exact I].
  match goal with |- wp _ _ _ (if ?b then _ else _) => destruct b; [exact I|] end.
  unfold token_claims, token_decode. destruct (x_verify E k proof); [|exact I].
  destruct (x_payload E KDpop proof) as [cl|] eqn:Hp; [|exact I].
  repeat match goal with |- wp _ _ _ (if ?b then _ else _) => destruct b; [exact I|] end.
  wcall t1. match goal with |- wp _ _ _ (if ?b then _ else _) => destruct b; [exact I|] end.
  wcall t2. match goal with |- wp _ _ _ (if ?b then _ else _) => destruct b; [exact I|] end.
  cbv zeta. wcall e. destruct e as [[]| | |]; try exact I;
    (wcall r; [|destruct (is_ok r); exact I]);
    exists htm, htu, proof, tv, tc, cl; auto.
Qed.

Lemma pmap_wp {A B} Pc tr (p : prog A) (f : A -> B) : wp Pc T tr p -> wp Pc T tr (pmap f p).
Proof. intros H. eapply wp_bind; [exact H|]. intros; exact I. Qed.

Lemma serve_wp r : wp (may_write E r) T [] (serve E r).
Proof.
  destruct r; cbn [serve]; apply pmap_wp.
  - apply token_wp.
  - apply introspect_wp.
  - apply revoke_wp.
  - apply authorize_wp.
  - apply register_wp.
  - apply dev_authorize_wp.
  - apply dev_validate_wp.
  - apply assertion_wp.
  - apply attestation_wp.
  - apply dpop_wp.
Qed.

(** Every write in a history has its reason in the past of its request. *)
Lemma write_reason w xs h1 i c a h2 :
  history E w xs = (h1 ++ EvCall i c a :: h2)%list ->
  exists r, In (EvStart i r) h1 /\ may_write E r (calls_of i h1) c.
Proof.
  intros Hh. destruct (trace_history E w xs) as (s & Ht & _). rewrite Hh in Ht.
  destruct (call_started _ _ _ _ _ _ _ _ Ht) as (r & q & H1 & H2).
  exists r. split; auto.
  rewrite calls_of_app in H2. cbn [calls_of] in H2. rewrite Nat.eqb_refl in H2.
  eapply wp_call; [apply serve_wp|exact H2].
Qed.
End Serve.

(** A call in the past of a request is an event of the history. *)
Lemma did_event h i c a : did (calls_of i h) c a <-> In (EvCall i c a) h.
Proof. apply in_calls_of. Qed.
