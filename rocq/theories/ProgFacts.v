(** * What a successful service call did (proofs only) *)

From Verif Require Export ProgTac Spec.

(** ** Small facts *)

Lemma list_eqb_eq a b : list_eqb a b = true <-> a = b.
Proof.
  revert b; induction a as [|x a IH]; destruct b as [|y b]; cbn; split; try congruence.
  - intros H. apply andb_true_iff in H as [H1 H2]. apply N.eqb_eq in H1. apply IH in H2. congruence.
  - intros H; inversion H; subst. rewrite N.eqb_refl. cbn. apply IH. auto.
Qed.

Lemma equal_fold_iff fold x y : equal_fold fold x y = true <-> fold_eq fold x y.
Proof. unfold equal_fold, fold_eq. apply list_eqb_eq. Qed.

Lemma contains_iff fold l x :
  contains fold l x = true <-> exists y, In y l /\ fold_eq fold x y.
Proof.
  induction l as [|v l IH]; cbn.
  - split; [discriminate|intros (y & [] & _)].
  - destruct (equal_fold fold x v) eqn:Hv.
    + split; auto. intros _. exists v. split; auto. apply equal_fold_iff; auto.
    + rewrite IH. split.
      * intros (y & H1 & H2). exists y. auto.
      * intros (y & [<-|H1] & H2); [apply equal_fold_iff in H2; congruence|eauto].
Qed.

Lemma has_iff E l x : has E l x = true <-> listed E l x.
Proof. apply contains_iff. Qed.

Lemma has_false_iff E l x : has E l x = false <-> ~ listed E l x.
Proof. rewrite <- has_iff. destruct (has E l x); split; congruence. Qed.

(** ** Token generation *)

Definition at_spec (cid : string) (meta : token_meta) (cnf : option string) (t : N) (id v : string) : token :=
  set_value (token_spec TtAccess id cid meta cnf (unix t) (unix t + 1) (unix (t + hour))) v.
Definition rt_spec (cid : string) (meta : token_meta) (cnf : option string) (t : N) (id v : string) : token :=
  set_value (token_spec TtRefresh id cid meta cnf (unix t) (unix t + 1) (unix (t + week))) v.

Lemma gen_at_inv cid meta cnf tr at_ :
  reach (generate_access_token cid meta cnf) tr (Ret (Some at_)) ->
  exists t id v r, v <> ""%string /\ is_ok r = true /\ at_ = at_spec cid meta cnf t id v /\
    tr = [(CNow, ATime t); (CRand 8, AStr id);
          (CGenAT (set_value (at_spec cid meta cnf t id v) ""), AGen (Some v));
          (CTokCreate (m_issuer meta) (at_spec cid meta cnf t id v), AUnit r)].
Proof.
  unfold generate_access_token. intros H.
  repeat rstep H; subst; try discriminate.
  injection H as ->. norm_bool.
  match goal with X : is_empty _ = false |- _ => apply is_empty_false in X end.
  eexists _, _, _, _. repeat split; eauto.
Qed.

Lemma gen_rt_inv cid meta cnf tr at_ :
  reach (generate_refresh_token cid meta cnf) tr (Ret (Some at_)) ->
  exists t id v r, v <> ""%string /\ is_ok r = true /\ at_ = rt_spec cid meta cnf t id v /\
    tr = [(CNow, ATime t); (CRand 8, AStr id);
          (CGenRT (set_value (rt_spec cid meta cnf t id v) ""), AGen (Some v));
          (CTokCreate (m_issuer meta) (rt_spec cid meta cnf t id v), AUnit r)].
Proof.
  unfold generate_refresh_token. intros H.
  repeat rstep H; subst; try discriminate.
  injection H as ->. norm_bool.
  match goal with X : is_empty _ = false |- _ => apply is_empty_false in X end.
  eexists _, _, _, _. repeat split; eauto.
Qed.

(** ** The grants *)

Lemma token_svc_ok E req tr res :
  reach (token_svc E (Some req)) tr (Ret res) -> tr_err res = false ->
  exists auth c tr', tq_client req = Some auth /\
    tr = (CClientGet (cl_id auth), AClient (SOk c)) :: tr' /\
    tq_issuer req <> ""%string /\ grant_matches (tq_grant_type req) (tq_grant req) = true /\
    reach (dispatch E (Some c) req) tr' (Ret res).
Proof.
  unfold token_svc, validate_request. intros H Hok.
  destruct (is_empty (tq_issuer req)) eqn:Hi; [rstep H; subst; discriminate|].
  destruct (tq_client req) as [auth|] eqn:Hc; [|rstep H; subst; discriminate].
  destruct (grant_matches _ _) eqn:Hg; [|rstep H; subst; discriminate].
  apply is_empty_false in Hi.
  rstep H. subst tr. destruct x as [c| | |].
  - exists auth, c, x0. auto.
  - exfalso. unfold dispatch, client_credentials, authorization_code, device_code, refresh_token,
      token_exchange, prologue in H.
    repeat rstep H; subst; discriminate.
  - rstep H; subst; discriminate.
  - rstep H; subst; discriminate.
Qed.

Ltac clear_fail H := repeat rstep H; subst; try discriminate.

Lemma prologue_ok E c req k tr res :
  reach (prologue E (Some c) req k) tr (Ret res) -> tr_err res = false ->
  tq_issuer req <> ""%string /\ x_request_uri E (tq_issuer req) = true /\ reach (k c) tr (Ret res).
Proof.
  unfold prologue. intros H Hok.
  destruct (is_empty (tq_issuer req)) eqn:Hi; [rstep H; subst; discriminate|].
  destruct (x_request_uri E (tq_issuer req)) eqn:Hu; [|rstep H; subst; discriminate].
  apply is_empty_false in Hi. auto.
Qed.

(** Which program a successful request ran. *)
Lemma dispatch_grant E c req tr res :
  reach (dispatch E c req) tr (Ret res) -> grant_matches (tq_grant_type req) (tq_grant req) = true ->
  match tq_grant req with
  | GNone => False
  | GAuthorizationCode _ _ _ =>
      tq_grant_type req = gt_code /\ reach (authorization_code E c req) tr (Ret res)
  | GClientCredentials =>
      tq_grant_type req = gt_cc /\ reach (client_credentials E c req) tr (Ret res)
  | GDeviceCode _ => tq_grant_type req = gt_device /\ reach (device_code E c req) tr (Ret res)
  | GRefreshToken _ => tq_grant_type req = gt_refresh /\ reach (refresh_token E c req) tr (Ret res)
  | GTokenExchange _ _ => tq_grant_type req = gt_exchange /\ reach (token_exchange E c req) tr (Ret res)
  end.
Proof.
  unfold dispatch, grant_matches. intros H Hm.
  destruct (String.eqb_spec (tq_grant_type req) gt_code) as [Hg|];
    [rewrite Hg in H; destruct (tq_grant req); try discriminate; split; auto|].
  destruct (String.eqb_spec (tq_grant_type req) gt_cc) as [Hg|];
    [destruct (tq_grant req); try discriminate; split; auto|].
  destruct (String.eqb_spec (tq_grant_type req) gt_device) as [Hg|];
    [destruct (tq_grant req); try discriminate; split; auto|].
  destruct (String.eqb_spec (tq_grant_type req) gt_refresh) as [Hg|];
    [destruct (tq_grant req); try discriminate; split; auto|].
  destruct (String.eqb_spec (tq_grant_type req) gt_exchange) as [Hg|];
    [destruct (tq_grant req); try discriminate; split; auto|].
  discriminate.
Qed.

(** Conversely, the grant type alone decides the grant of a successful request. *)
Lemma matches_type gt g : grant_matches gt g = true ->
  (gt = gt_code -> exists a b c, g = GAuthorizationCode a b c) /\
  (gt = gt_cc -> g = GClientCredentials) /\
  (gt = gt_device -> exists a, g = GDeviceCode a) /\
  (gt = gt_refresh -> exists a, g = GRefreshToken a) /\
  (gt = gt_exchange -> exists a b, g = GTokenExchange a b).
Proof.
  intros H. repeat split; intros ->; cbn in H; destruct g; try discriminate; eauto.
Qed.

Lemma client_credentials_ok E c req tr res :
  reach (client_credentials E (Some c) req) tr (Ret res) -> tr_err res = false ->
  x_request_uri E (tq_issuer req) = true /\
  (cl_type c = CtConfidential \/ cl_type c = CtCredentialed) /\ listed E (cl_grant_types c) gt_cc /\
  exists t id v r,
    let at_ := at_spec (cl_id c) (mk_meta (tq_issuer req) "" (opt_str (tq_scope req)) (opt_str (tq_audience req)))
                 (tq_cnf req) t id v in
    v <> ""%string /\ is_ok r = true /\ res = tok (Some at_) None /\
    tr = [(CNow, ATime t); (CRand 8, AStr id); (CGenAT (set_value at_ ""), AGen (Some v));
          (CTokCreate (tq_issuer req) at_, AUnit r)].
Proof.
  unfold client_credentials. intros H Hok.
  destruct (tq_grant req) eqn:Hg; try (rstep H; subst; discriminate).
  apply prologue_ok in H as (Hi & Hu & H); auto. split; auto.
  assert (Ht : cl_type c = CtConfidential \/ cl_type c = CtCredentialed).
  { destruct (cl_type c); auto; rstep H; subst; discriminate. }
  split; auto.
  assert (H' : reach (if negb (has E (cl_grant_types c) gt_cc)
          then Ret (tfail (err unsupported_grant_type))
          else
           let meta := mk_meta (tq_issuer req) "" (opt_str (tq_scope req)) (opt_str (tq_audience req)) in
           bind (generate_access_token (cl_id c) meta (tq_cnf req))
             (fun r => match r with
               | Some at_ => Ret (tok (Some at_) None)
               | None => Ret (tfail (err server_error)) end)) tr (Ret res))
    by (destruct Ht as [Ht|Ht]; rewrite Ht in H; exact H).
  clear H. destruct (has E (cl_grant_types c) gt_cc) eqn:Hh; [|rstep H'; subst; discriminate].
  split; [apply has_iff; auto|]. cbn [negb] in H'. cbv zeta in H'.
  apply reach_bind_ret in H' as (a & t1 & t2 & -> & Ha & Hb).
  destruct a as [at_|]; [|rstep Hb; subst; discriminate].
  apply gen_at_inv in Ha as (t & id & v & r & Hv & Hr & -> & ->).
  rstep Hb. subst. exists t, id, v, r. cbv zeta. repeat split; auto.
Qed.

(** What the redemption of a code went through. *)
Record code_facts (E : ext) (c : client) (req : token_request) (s : acsession) (ar : authreq)
    (code redirect verifier : string) : Prop := mkCodeFacts {
  cf_grant : tq_grant req = GAuthorizationCode code redirect verifier;
  cf_issuer : x_request_uri E (tq_issuer req) = true;
  cf_cap : listed E (cl_grant_types c) gt_code;
  cf_req : as_request s = Some ar;
  cf_code : code <> ""%string;
  cf_code_len : (rune_count code <= 1024)%nat;
  cf_verifier : (43 <= String.length verifier <= 128)%nat;
  cf_redirect : ar_redirect_uri ar = redirect;
  cf_registered : listed E (cl_redirect_uris c) redirect;
  cf_method : ar_code_challenge_method ar = s256;
  cf_challenge : b64url (x_sha256 E verifier) = ar_code_challenge ar
}.

Definition code_meta (req : token_request) (s : acsession) (ar : authreq) : token_meta :=
  mk_meta (tq_issuer req) (as_subject s) (ar_scope ar) (ar_audience ar).

Lemma authorization_code_ok E c req tr res :
  reach (authorization_code E (Some c) req) tr (Ret res) -> tr_err res = false ->
  exists s ar code redirect verifier rd tr', code_facts E c req s ar code redirect verifier /\
    is_ok rd = true /\
    tr = (CSessGet (tq_issuer req) code, ASess (SOk s)) :: (CSessDel (tq_issuer req) code, AUnit rd) :: tr' /\
    ((~ asks E (ar_scope ar) scope_openid /\ tr' = [] /\ res = tok None None)
     \/ (asks E (ar_scope ar) scope_openid /\
         exists t id v r,
         let at_ := at_spec (cl_id c) (code_meta req s ar) (tq_cnf req) t id v in
         v <> ""%string /\ is_ok r = true /\
         let trA := [(CNow, ATime t); (CRand 8, AStr id); (CGenAT (set_value at_ ""), AGen (Some v));
                     (CTokCreate (tq_issuer req) at_, AUnit r)] in
         ((~ asks E (ar_scope ar) scope_offline /\ tr' = trA /\ res = tok (Some at_) None)
          \/ (asks E (ar_scope ar) scope_offline /\
              exists t2 id2 v2 r2,
              let rt := rt_spec (cl_id c) (code_meta req s ar) (tq_cnf req) t2 id2 v2 in
              v2 <> ""%string /\ is_ok r2 = true /\
              tr' = (trA ++ [(CNow, ATime t2); (CRand 8, AStr id2); (CGenRT (set_value rt ""), AGen (Some v2));
                             (CTokCreate (tq_issuer req) rt, AUnit r2)])%list /\
              res = tok (Some at_) (Some rt))))).
Proof.
  unfold authorization_code. intros H Hok.
  destruct (tq_grant req) eqn:Hg; try (rstep H; subst; discriminate).
  apply prologue_ok in H as (Hi & Hu & H); auto.
  rstep H; [rstep H; subst; discriminate|]. rename Heqb into Hcap.
  rstep H; [rstep H; subst; discriminate|]. rename Heqb into Hne.
  rstep H; [rstep H; subst; discriminate|]. rename Heqb into Hlen.
  rstep H; [rstep H; subst; discriminate|]. rename Heqb into Hmin.
  rstep H; [rstep H; subst; discriminate|]. rename Heqb into Hmax.
  rstep H. rename x into rs, x0 into tr1, H0 into Htr.
  destruct rs as [s| | |]; try (rstep H; subst; discriminate).
  destruct (as_request s) as [ar|] eqn:Har; [|rstep H; subst; discriminate].
  rstep H. rename x into rd, x0 into tr2, H0 into Htr2.
  destruct (is_ok rd) eqn:Hrd; [|rstep H; subst; discriminate].
  unfold redeem_session in H.
  rstep H; [rstep H; subst; discriminate|]. rename Heqb into Hredir.
  rstep H; [rstep H; subst; discriminate|]. rename Heqb into Hreg.
  rstep H; [rstep H; subst; discriminate|]. rename Heqb into Hmeth.
  rstep H; [rstep H; subst; discriminate|]. rename Heqb into Hchal.
  norm_bool.
  exists s, ar, code, redirect_uri, code_verifier, rd, tr2.
  split.
  { constructor; auto.
    - apply has_iff; auto.
    - apply is_empty_false; auto.
    - apply has_iff; auto. }
  split; [auto|]. split; [congruence|].
  cbv zeta in H.
  destruct (has E (fields (ar_scope ar)) scope_openid) eqn:Ho.
  - right. split; [apply has_iff; auto|].
    apply reach_bind_ret in H as (a & t1 & t2 & -> & Ha & H).
    destruct a as [at_|]; [|rstep H; subst; discriminate].
    apply gen_at_inv in Ha as (t & id & v & r & Hv & Hr & -> & ->).
    exists t, id, v, r. cbv zeta. split; auto. split; auto.
    destruct (has E (fields (ar_scope ar)) scope_offline) eqn:Hoff.
    + right. split; [apply has_iff; auto|].
      apply reach_bind_ret in H as (a & t1 & t3 & -> & Ha & H).
      destruct a as [rt|]; [|rstep H; subst; discriminate].
      apply gen_rt_inv in Ha as (t' & id' & v' & r' & Hv' & Hr' & -> & ->).
      rstep H; subst. exists t', id', v', r'. repeat split; auto.
    + left. split; [apply has_false_iff; auto|]. rstep H; subst. rewrite app_nil_r. auto.
  - left. split; [apply has_false_iff; auto|]. rstep H; subst. auto.
Qed.

Lemma refresh_token_ok E c req tr res :
  reach (refresh_token E (Some c) req) tr (Ret res) -> tr_err res = false ->
  exists value rt m t0 t id v r tr',
    tq_grant req = GRefreshToken value /\ value <> ""%string /\
    x_request_uri E (tq_issuer req) = true /\ listed E (cl_grant_types c) gt_refresh /\
    t_status rt = TsActive /\ t_type rt = TtRefresh /\ t_meta rt = Some m /\
    (unix t0 <= m_expires_at m)%N /\ m_client_id m = cl_id c /\
    v <> ""%string /\ is_ok r = true /\
    let at_ := at_spec (cl_id c) m (t_cnf rt) t id v in
    tr = (CTokGet (tq_issuer req) value, ATok (SOk rt)) :: (CNow, ATime t0) ::
         (CNow, ATime t) :: (CRand 8, AStr id) :: (CGenAT (set_value at_ ""), AGen (Some v)) ::
         (CTokCreate (m_issuer m) at_, AUnit r) :: tr' /\
    ((unix (t + hour) <= m_expires_at m)%N /\ tr' = [] /\ res = tok (Some at_) None
     \/ (m_expires_at m < unix (t + hour))%N /\
        exists t2 id2 v2 r2 r3,
        let nrt := rt_spec (cl_id c) m (t_cnf rt) t2 id2 v2 in
        v2 <> ""%string /\ is_ok r2 = true /\ is_ok r3 = true /\
        tr' = [(CNow, ATime t2); (CRand 8, AStr id2); (CGenRT (set_value nrt ""), AGen (Some v2));
               (CTokCreate (m_issuer m) nrt, AUnit r2); (CTokRevoke (tq_issuer req) (t_id rt), AUnit r3)] /\
        res = tok (Some at_) (Some nrt)).
Proof.
  unfold refresh_token. intros H Hok.
  destruct (tq_grant req) as [| | | |value|] eqn:Hg; try (rstep H; subst; discriminate).
  apply prologue_ok in H as (Hi & Hu & H); auto.
  rstep H; [rstep H; subst; discriminate|]. rename Heqb into Hne.
  rstep H; [rstep H; subst; discriminate|]. rename Heqb into Hcap.
  rstep H. rename x into rs, x0 into tr1, H0 into Htr.
  destruct rs as [rt| | |]; try (rstep H; subst; discriminate).
  destruct (t_status rt) eqn:Hst; try (rstep H; subst; discriminate).
  destruct (t_type rt) eqn:Hty; try (rstep H; subst; discriminate).
  destruct (t_meta rt) as [m|] eqn:Hm; try (rstep H; subst; discriminate).
  rstep H. rename x into t0, x0 into tr2, H0 into Htr2.
  rstep H; [rstep H; subst; discriminate|]. rename Heqb into Hexp.
  rstep H; [rstep H; subst; discriminate|]. rename Heqb into Hcl.
  apply reach_bind_ret in H as (a & t1 & t2 & -> & Ha & H).
  destruct a as [at_|]; [|rstep H; subst; discriminate].
  apply gen_at_inv in Ha as (t & id & v & r & Hv & Hr & -> & ->).
  norm_bool.
  exists value, rt, m, t0, t, id, v, r, t2. cbv zeta.
  split; [auto|]. split; [apply is_empty_false; auto|]. split; [auto|].
  split; [apply has_iff; auto|]. repeat (split; [solve [auto]|]).
  split; [subst; reflexivity|].
  cbn [at_spec token_spec set_value t_meta t_cnf m_expires_at] in H. rstep H.
  - right. norm_bool. split; auto.
    apply reach_bind_ret in H as (a & t3 & t4 & -> & Ha & H).
    destruct a as [nrt|]; [|rstep H; subst; discriminate].
    apply gen_rt_inv in Ha as (t2' & id2 & v2 & r2 & Hv2 & Hr2 & -> & ->).
    rstep H. subst t4. rstep H; [|rstep H; subst; discriminate].
    rstep H. subst. exists t2', id2, v2, r2, x. cbn. repeat split; auto.
  - left. norm_bool. split; auto. rstep H; subst. auto.
Qed.

Lemma device_code_ok E c req tr res :
  reach (device_code E (Some c) req) tr (Ret res) -> tr_err res = false ->
  exists code s dr dc sub t0 t id v r tr',
    tq_grant req = GDeviceCode code /\ code <> ""%string /\
    x_request_uri E (tq_issuer req) = true /\ listed E (cl_grant_types c) gt_device /\
    ds_request s = Some dr /\ ds_client s = Some dc /\ dr_client_id dr = cl_id c /\
    (unix t0 <= ds_expires_at s)%N /\ ds_status s = DsValidated /\ ds_subject s = Some sub /\
    v <> ""%string /\ is_ok r = true /\
    let m := mk_meta (tq_issuer req) sub (opt_str (ds_scope s)) "" in
    let at_ := at_spec (cl_id c) m (tq_cnf req) t id v in
    tr = (CDevGetDev (tq_issuer req) code, ADev (SOk s)) :: (CNow, ATime t0) ::
         (CNow, ATime t) :: (CRand 8, AStr id) :: (CGenAT (set_value at_ ""), AGen (Some v)) ::
         (CTokCreate (tq_issuer req) at_, AUnit r) :: tr' /\
    ((tr' = [] /\ res = tok (Some at_) None /\ ~ asks E (opt_str (ds_scope s)) scope_offline)
     \/ asks E (opt_str (ds_scope s)) scope_offline /\
        exists t2 id2 v2 r2,
        let nrt := rt_spec (cl_id c) m (tq_cnf req) t2 id2 v2 in
        v2 <> ""%string /\ is_ok r2 = true /\
        tr' = [(CNow, ATime t2); (CRand 8, AStr id2); (CGenRT (set_value nrt ""), AGen (Some v2));
               (CTokCreate (tq_issuer req) nrt, AUnit r2)] /\
        res = tok (Some at_) (Some nrt)).
Proof.
  unfold device_code. intros H Hok.
  destruct (tq_grant req) as [| | |code| |] eqn:Hg; try (rstep H; subst; discriminate).
  apply prologue_ok in H as (Hi & Hu & H); auto.
  rstep H; [rstep H; subst; discriminate|]. rename Heqb into Hcap.
  rstep H; [rstep H; subst; discriminate|]. rename Heqb into Hne.
  rstep H. rename x into rs, x0 into tr1, H0 into Htr.
  destruct rs as [s| | |]; try (rstep H; subst; discriminate).
  destruct (ds_request s) as [dr|] eqn:Hdr; try (rstep H; subst; discriminate).
  destruct (ds_client s) as [dc|] eqn:Hdc; try (rstep H; subst; discriminate).
  rstep H; [rstep H; subst; discriminate|]. rename Heqb into Hcl.
  rstep H. rename x into t0, x0 into tr2, H0 into Htr2.
  rstep H; [rstep H; subst; discriminate|]. rename Heqb into Hexp.
  destruct (ds_status s) eqn:Hst; try (rstep H; subst; discriminate).
  destruct (ds_subject s) as [sub|] eqn:Hsub; try (rstep H; subst; discriminate).
  cbv zeta in H.
  apply reach_bind_ret in H as (a & t1 & t2 & -> & Ha & H).
  destruct a as [at_|]; [|rstep H; subst; discriminate].
  apply gen_at_inv in Ha as (t & id & v & r & Hv & Hr & -> & ->).
  norm_bool.
  exists code, s, dr, dc, sub, t0, t, id, v, r, t2. cbv zeta.
  split; [auto|]. split; [apply is_empty_false; auto|]. split; [auto|].
  split; [apply has_iff; auto|]. repeat (split; [solve [auto]|]).
  split; [subst; reflexivity|].
  destruct (ds_scope s) as [scope|] eqn:Hsc.
  - destruct (has E (fields scope) scope_offline) eqn:Hoff.
    + right. cbn. split; [apply has_iff; auto|].
      apply reach_bind_ret in H as (a & t3 & t4 & -> & Ha & H).
      destruct a as [nrt|]; [|rstep H; subst; discriminate].
      apply gen_rt_inv in Ha as (t2' & id2 & v2 & r2 & Hv2 & Hr2 & -> & ->).
      rstep H. subst. exists t2', id2, v2, r2. cbn. repeat split; auto.
    + left. rstep H; subst. repeat split; auto. apply has_false_iff; auto.
  - left. rstep H; subst. repeat split; auto. cbn. intros (y & [] & _).
Qed.

Definition exchange_spec (cid : string) (m : token_meta) (cnf : option string) (scope aud : string)
    (t : N) (id v : string) : token :=
  mkToken "" TtAccess id
    (Some (mkMeta (m_issuer m) (m_subject m) (unix t) 0 (unix (t + minute)) cid scope aud))
    TsActive v cnf.

Lemma token_exchange_ok E c req tr res :
  reach (token_exchange E (Some c) req) tr (Ret res) -> tr_err res = false ->
  exists value st m t0 t id v r aud tra,
    tq_grant req = GTokenExchange value at_type /\ value <> ""%string /\
    x_request_uri E (tq_issuer req) = true /\ listed E (cl_grant_types c) gt_exchange /\
    t_status st = TsActive /\ t_type st = TtAccess /\ t_meta st = Some m /\
    (unix t0 <= m_expires_at m)%N /\ v <> ""%string /\ is_ok r = true /\
    let scope := match tq_scope req with Some s => s | None => m_scope m end in
    let at_ := exchange_spec (cl_id c) m (t_cnf st) scope aud t id v in
    ((tq_audience req = None /\ aud = ""%string /\ tra = [])
     \/ exists urn, tq_audience req = Some urn /\ tra = [(CResGet urn, ARes (SOk aud))]) /\
    tr = (CTokGet (tq_issuer req) value, ATok (SOk st)) :: (CNow, ATime t0) ::
         (CNow, ATime t) :: (CRand 8, AStr id) :: (tra ++
         [(CGenAT (set_value at_ ""), AGen (Some v)); (CTokCreate (tq_issuer req) at_, AUnit r)])%list /\
    res = mkTokRes false None (Some at_) None None (m_issuer m) (Some at_type)
            (if String.eqb (m_scope m) scope then None else Some scope).
Proof.
  unfold token_exchange. intros H Hok.
  destruct (tq_grant req) as [| | | | |value ty] eqn:Hg; try (rstep H; subst; discriminate).
  apply prologue_ok in H as (Hi & Hu & H); auto.
  rstep H; [rstep H; subst; discriminate|]. rename Heqb into Hty0.
  rstep H; [rstep H; subst; discriminate|]. rename Heqb into Hne.
  rstep H; [rstep H; subst; discriminate|]. rename Heqb into Hcap.
  rstep H; [|rstep H; subst; discriminate]. rename Heqb into Hat.
  unfold exchange_access_token in H.
  rstep H. rename x into rs, x0 into tr1, H0 into Htr.
  destruct rs as [st| | |]; try (rstep H; subst; discriminate).
  destruct (t_status st) eqn:Hst; try (rstep H; subst; discriminate).
  destruct (t_type st) eqn:Hty; try (rstep H; subst; discriminate).
  destruct (t_meta st) as [m|] eqn:Hm; try (rstep H; subst; discriminate).
  rstep H. rename x into t0, x0 into tr2, H0 into Htr2.
  rstep H; [rstep H; subst; discriminate|]. rename Heqb into Hexp.
  cbv zeta in H. rstep H. rename x into t, x0 into tr3, H0 into Htr3.
  rstep H. rename x into id, x0 into tr4, H0 into Htr4.
  norm_bool. subst ty.
  assert (Hrest : exists aud tra tr5,
    ((tq_audience req = None /\ aud = ""%string /\ tra = [])
     \/ exists urn, tq_audience req = Some urn /\ tra = [(CResGet urn, ARes (SOk aud))]) /\
    tr4 = (tra ++ tr5)%list /\
    reach (exchange_issue req (m_issuer m) (m_scope m)
             (exchange_spec (cl_id c) m (t_cnf st)
               (match tq_scope req with Some s => s | None => m_scope m end) aud t id "")
             (match tq_scope req with Some s => s | None => m_scope m end)) tr5 (Ret res)).
  { destruct (tq_audience req) as [urn|] eqn:Haud.
    - rstep H. destruct x as [aud| | |].
      + exists aud, [(CResGet urn, ARes (SOk aud))], x0. split; [eauto|]. split; auto.
      + rstep H.
      + rstep H; subst; discriminate.
      + rstep H.
    - exists ""%string, [], tr4. auto. }
  clear H. destruct Hrest as (aud & tra & tr5 & Haud & Htr5 & H).
  unfold exchange_issue in H. rstep H. rename x into g, x0 into tr6, H0 into Htr6.
  destruct g as [v|]; [|rstep H; subst; discriminate].
  rstep H; [rstep H; subst; discriminate|]. rename Heqb into Hv.
  rstep H. rename x into r, x0 into tr7, H0 into Htr7.
  rstep H; [|rstep H; subst; discriminate]. rename Heqb into Hr.
  rstep H. subst.
  exists value, st, m, t0, t, id, v, r, aud, tra. cbv zeta.
  split; [auto|]. split; [apply is_empty_false; auto|]. split; [auto|].
  split; [apply has_iff; auto|]. repeat (split; [solve [auto]|]).
  split; [apply is_empty_false; auto|]. repeat split; auto.
Qed.
