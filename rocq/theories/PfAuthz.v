(** * Authorization requests: proofs *)

From Verif Require Export PfStore2 StrFacts.

Lemma fold_eq_sym f x y : fold_eq f x y -> fold_eq f y x.
Proof. unfold fold_eq; congruence. Qed.
Lemma fold_eq_trans f x y z : fold_eq f x y -> fold_eq f y z -> fold_eq f x z.
Proof. unfold fold_eq; congruence. Qed.

(** ** Scopes *)

Lemma remove_first_words f l x : Forall word l -> Forall word (remove_first f l x).
Proof. induction l as [|y l IH]; cbn; auto. intros H; inversion H; subst. destruct (equal_fold f x y); auto. Qed.

Lemma remove_first_in f l x y : In y (remove_first f l x) -> In y l.
Proof. induction l as [|z l IH]; cbn; auto. destruct (equal_fold f x z); cbn; tauto. Qed.

Lemma remove_first_keeps f l x y : In y l -> ~ fold_eq f x y -> In y (remove_first f l x).
Proof.
  induction l as [|z l IH]; cbn; auto. intros H Hn. destruct (equal_fold f x z) eqn:Hz.
  - destruct H as [<-|H]; auto. apply equal_fold_iff in Hz. contradiction.
  - cbn. destruct H; auto.
Qed.

Lemma remove_first_twice f l x y : In y (remove_first f l x) -> fold_eq f x y ->
  exists l1 a l2 b l3, l = (l1 ++ a :: l2 ++ b :: l3)%list /\ fold_eq f x a /\ fold_eq f x b.
Proof.
  induction l as [|z l IH]; cbn; [tauto|]. intros H Hy. destruct (equal_fold f x z) eqn:Hz.
  - apply equal_fold_iff in Hz. apply in_split in H as (l2 & l3 & ->). exists [], z, l2, y, l3. auto.
  - destruct H as [->|H].
    + apply equal_fold_iff in Hy. congruence.
    + destruct (IH H Hy) as (l1 & a & l2 & b & l3 & -> & A & B). exists (z :: l1)%list, a, l2, b, l3. auto.
Qed.

Lemma clean_scope_fields E scope prompt :
  fields (clean_scope E scope prompt) =
    if has E (fields scope) "openid" && has E (fields scope) "offline_access" &&
       negb (match prompt with Some p => String.eqb p "consent" | None => false end)
    then remove_first (x_fold E) (fields scope) "offline_access" else fields scope.
Proof.
  unfold clean_scope. change scope_openid with "openid"%string. change scope_offline with "offline_access"%string.
  destruct (has E (fields scope) "openid"); cbn [andb]; auto.
  pose proof (fields_words scope) as Hw.
  destruct (has E (fields scope) "offline_access"); cbn [andb]; [|apply fields_join; auto].
  destruct prompt as [p|]; [change prompt_consent with "consent"%string; destruct (String.eqb p "consent"); cbn [negb]|cbn [negb]];
    apply fields_join; auto using remove_first_words.
Qed.

Lemma facts_normalized E a b : request_facts E a b -> normalized E a b.
Proof.
  intros [_ _ _ _ _ Hty _ Hmode ->]. split; [repeat split|].
  pose proof (clean_scope_fields E (ar_scope a) (ar_prompt a)) as Hs. cbn.
  split; [|split; [|split]].
  - unfold expand_mode. destruct (ar_response_mode a) as [m|]; auto.
    change rm_jwt with "jwt"%string. destruct (String.eqb m "jwt"); auto.
    change rt_code with "code"%string. change rt_token with "token"%string.
    destruct Hty as [-> | ->]; reflexivity.
  - intros s Hn. unfold asks. rewrite Hs.
    match goal with |- context[if ?b then _ else _] => destruct b; [|tauto] end.
    split; intros (y & Y1 & Y2); exists y; split; auto; [eapply remove_first_in; eauto|].
    apply remove_first_keeps; auto. intros X. apply Hn. eapply fold_eq_trans; [exact X|]. apply fold_eq_sym; auto.
  - unfold asks. rewrite Hs. match goal with |- context[if ?b then _ else _] => destruct b; [|tauto] end.
    intros (y & Y1 & Y2); exists y; split; auto. eapply remove_first_in; eauto.
  - intros Hc s. unfold asks. rewrite Hs.
    match goal with |- context[if ?b then _ else _] => destruct b eqn:Hb; [exfalso|tauto] end.
    apply andb_true_iff in Hb as [Hb H3]. apply andb_true_iff in Hb as [H1 H2].
    destruct Hc as [Hc|Hc]; [rewrite Hc in H3; discriminate|]. apply Hc. apply has_iff. exact H1.
Qed.

(** ** Authorize *)

Lemma authorize_facts E w xs i q res : authorize_ok_at (history E w xs) i q res ->
  exists eff ar c code n,
    effective (history E w xs) i q eff /\ request_facts E eff ar /\ client_allows E c ar /\
    w_clients w (ar_client_id eff) = Some c /\ zq_issuer q <> ""%string /\ zq_subject q <> ""%string /\
    In (EvCall i (CSessReg (zq_issuer q) code (mkSess (zq_issuer q) (zq_subject q) (Some ar))) (ANum n)) (history E w xs) /\
    is_ok n = true /\
    (forall iss' code' s' a', In (EvCall i (CSessReg iss' code' s') a') (history E w xs) ->
       iss' = zq_issuer q /\ code' = code /\ s' = mkSess (zq_issuer q) (zq_subject q) (Some ar)) /\
    res = mkAuthzRes false None code (ar_state eff) (ar_redirect_uri eff) (ar_client_id eff) (num n) (zq_issuer q) "" /\
    (forall r0 uri, zq_request q = Some r0 -> ar_request_uri r0 = Some uri ->
       exists d, calls_of i (history E w xs) = [(CReqGet (zq_issuer q) uri, AReq (SOk eff));
          (CReqDel (zq_issuer q) uri, AUnit d); (CClientGet (ar_client_id eff), AClient (SOk c));
          (CGenCode (zq_issuer q), AGen (Some code));
          (CSessReg (zq_issuer q) code (mkSess (zq_issuer q) (zq_subject q) (Some ar)), ANum n)] /\ is_ok d = true).
Proof.
  intros [Ha He]. pose proof (answered_runs _ _ _ _ _ _ Ha) as Hr. cbn in Hr.
  apply reach_pmap_ret in Hr as (res' & X & Hr). injection X as <-.
  destruct (authorize_ok _ _ _ _ Hr He) as (Z1 & Z2 & r0 & Z3 & Z4).
  assert (Z5 : exists tr1 tr' eff, calls_of i (history E w xs) = (tr1 ++ tr')%list /\
     (forall c a, In (c, a) tr1 -> match c with CSessReg _ _ _ => False | _ => True end) /\
     effective (history E w xs) i q eff /\
     (forall uri, ar_request_uri r0 = Some uri -> exists d, tr1 = [(CReqGet (zq_issuer q) uri, AReq (SOk eff));
          (CReqDel (zq_issuer q) uri, AUnit d)] /\ is_ok d = true) /\
     reach (authorize_with E (zq_issuer q) (zq_subject q) (Some eff)) tr' (Ret res)).
  { destruct Z4 as [[U Z4]|(uri & pushed & d & tr' & U1 & U2 & U3 & U4 & Z4)].
    - exists []. do 2 eexists. split; [reflexivity|]. split; [intros ? ? []|]. split; [|split; [|exact Z4]].
      + exists r0. auto.
      + intros uri X. congruence.
    - exists [(CReqGet (zq_issuer q) uri, AReq (SOk pushed)); (CReqDel (zq_issuer q) uri, AUnit d)], tr', pushed.
      split; [exact U4|]. split; [intros c a [X|[X|[]]]; inversion X; exact I|]. split; [|split; [|exact Z4]].
      + exists r0. split; auto. right. exists uri. split; auto. apply in_calls_of. rewrite U4. left; auto.
      + intros uri' X. assert (uri' = uri) as -> by congruence. eauto. }
  destruct Z5 as (tr1 & tr' & eff & Z5 & Z6 & Z7 & Z8 & Z9). clear Z4.
  destruct (authorize_with_ok _ _ _ _ _ _ Z9 He) as (r1 & ar & c & code & n & Y1 & Y2 & Y3 & Y4 & -> & ->).
  injection Y1 as <-.
  assert (Hsame : ar_state ar = ar_state eff /\ ar_redirect_uri ar = ar_redirect_uri eff /\ ar_client_id ar = ar_client_id eff).
  { destruct Y2 as [_ _ _ _ _ _ _ _ ->]. auto. }
  destruct Hsame as (S1 & S2 & S3).
  exists eff, ar, c, code, n. split; [exact Z7|]. split; [exact Y2|]. split; [exact Y3|]. split.
  { eapply client_read. apply in_calls_of. rewrite Z5. apply in_or_app; right; left; reflexivity. }
  split; auto. split; auto. split.
  { apply in_calls_of. rewrite Z5. apply in_or_app; right. right; right; left; reflexivity. }
  split; auto. split; [|split; [congruence|]].
  - intros iss' code' s' a' X. apply in_calls_of in X. rewrite Z5 in X. apply in_app_or in X as [X|X].
    + destruct (Z6 _ _ X).
    + destruct X as [X|[X|[X|[]]]]; inversion X; subst. auto.
  - intros r0' uri X1 X2. rewrite Z3 in X1. injection X1 as <-. destruct (Z8 _ X2) as (d & D1 & D2).
    exists d. rewrite Z5, D1. auto.
Qed.

(** ** C25, C31 *)

Lemma C25_authorize_valid_requests_proof : forall E w xs i q res,
  authorize_ok_at (history E w xs) i q res ->
  exists eff stored c a,
    effective (history E w xs) i q eff /\
    (32 <= String.length (ar_state eff))%nat /\ (8 <= String.length (ar_nonce eff))%nat /\
    ar_code_challenge_method eff = "S256"%string /\ String.length (ar_code_challenge eff) = 43%nat /\
    (ar_response_type eff = "code"%string \/ ar_response_type eff = "token"%string) /\
    x_request_uri E (ar_redirect_uri eff) = true /\ ar_scope eff <> ""%string /\ ar_audience eff <> ""%string /\
    w_clients w (ar_client_id eff) = Some c /\
    listed E (cl_grant_types c) "authorization_code" /\ listed E (cl_response_types c) (ar_response_type eff) /\
    listed E (cl_redirect_uris c) (ar_redirect_uri eff) /\
    (forall m, ar_response_mode stored = Some m -> listed E (cl_response_modes c) m) /\
    normalized E eff stored /\
    In (EvCall i (CSessReg (zq_issuer q) (zr_code res)
          (mkSess (zq_issuer q) (zq_subject q) (Some stored))) a) (history E w xs) /\ ans_ok a = true /\
    (forall iss' code' s' a', In (EvCall i (CSessReg iss' code' s') a') (history E w xs) ->
       iss' = zq_issuer q /\ code' = zr_code res /\ s' = mkSess (zq_issuer q) (zq_subject q) (Some stored)) /\
    zq_subject q <> ""%string /\ zq_issuer q <> ""%string /\
    zr_state res = ar_state eff /\ zr_redirect_uri res = ar_redirect_uri eff /\
    zr_client_id res = ar_client_id eff /\ zr_issuer res = zq_issuer q /\ zr_error res = None.
Proof.
  intros E w xs i q res H.
  destruct (authorize_facts _ _ _ _ _ _ H) as (eff & ar & c & code & n & F1 & F2 & F3 & F4 & F5 & F6 & F7 & F8 & F9 & -> & F10).
  exists eff, ar, c, (ANum n). pose proof (facts_normalized _ _ _ F2) as Hn.
  destruct (proj1 Hn) as (N1 & N2 & N3 & N4 & _).
  split; [exact F1|]. destruct (rf_nonempty _ _ _ F2) as (G7 & G8 & G9 & _).
  destruct F3 as [C1 C2 C3 C4]. rewrite N1 in C2. rewrite N3 in C3.
  split; [apply (rf_state _ _ _ F2)|]. split; [apply (rf_nonce _ _ _ F2)|]. split; [apply (rf_method _ _ _ F2)|].
  split; [apply (rf_challenge _ _ _ F2)|]. split; [apply (rf_type _ _ _ F2)|]. split; [apply (rf_uri _ _ _ F2)|].
  do 7 (split; [assumption|]).
  split; [exact Hn|]. split; [exact F7|]. split; [exact F8|].
  split; [exact F9|]. cbn. auto 10.
Qed.

Lemma C31_response_mode_proof : forall E w xs i issuer code s a,
  In (EvCall i (CSessReg issuer code s) a) (history E w xs) ->
  exists q eff ar, asked (history E w xs) i (RAuthorize (Some q)) /\ effective (history E w xs) i q eff /\
    as_request s = Some ar /\
    (ar_response_mode eff = None /\ ar_response_mode ar = None \/
     exists m, ar_response_mode eff = Some m /\
       ar_response_mode ar = Some (if String.eqb m "jwt" then
          if String.eqb (ar_response_type eff) "code" then "query.jwt"%string else "fragment.jwt"%string else m)) /\
    (ar_response_type eff = "code"%string \/ ar_response_type eff = "token"%string) /\
    (forall m, ar_response_mode ar = Some m ->
       In m ["query"; "fragment"; "form_post"; "query.jwt"; "fragment.jwt"; "form_post.jwt"]%string).
Proof.
  intros E w xs i issuer code s a Hin. apply in_split in Hin as (h1 & h2 & Hh).
  destruct (write_reason _ _ _ _ _ _ _ _ Hh) as (r & R1 & R2). cbn in R2.
  destruct R2 as (q & r0 & r1 & c & -> & <- & Hq & -> & _ & _ & Hcase).
  assert (Heff : exists eff, effective (history E w xs) i q eff /\ request_facts E eff r1).
  { destruct Hcase as [[U F]|(uri & pushed & d & U1 & _ & _ & U2 & _ & F)].
    - exists r0. split; auto. exists r0. auto.
    - exists pushed. split; auto. exists r0. split; auto. right. exists uri. split; auto.
      apply did_event in U2. rewrite Hh. apply in_or_app; auto. }
  destruct Heff as (eff & He & F). exists q, eff, r1.
  split; [unfold asked; rewrite Hh; apply in_or_app; auto|]. split; [exact He|]. split; [reflexivity|].
  pose proof (facts_normalized _ _ _ F) as (_ & Hm & _). destruct F as [_ _ _ _ _ G6 _ G8 _].
  destruct (ar_response_mode eff) as [m|] eqn:Hme.
  - split; [right; eauto|]. split; [exact G6|]. intros m' Hm'. rewrite Hm in Hm'. injection Hm' as <-.
    destruct G8 as [G8|(m0 & G8 & G9)]; [discriminate|]. injection G8 as <-.
    destruct (String.eqb_spec m "jwt") as [->|N].
    + destruct G6 as [-> | ->]; cbn; tauto.
    + cbn in G9. cbn. destruct G9 as [<-|[<-|[<-|[<-|[<-|[<-|[<-|[]]]]]]]]; tauto.
  - split; [auto|]. split; [exact G6|]. rewrite Hm. discriminate.
Qed.

(** ** C26 *)

Lemma C26_redirect_registered_partial_proof : forall E w xs i q res,
  authorize_ok_at (history E w xs) i q res ->
  exists c registered, w_clients w (zr_client_id res) = Some c /\ In registered (cl_redirect_uris c) /\
    fold_eq (x_fold E) (zr_redirect_uri res) registered.
Proof.
  intros E w xs i q res H.
  destruct (C25_authorize_valid_requests_proof _ _ _ _ _ _ H) as (eff & st & c & a & _ & _ & _ & _ & _ & _ & _ & _ & _ & F1 & _ & _ & F2 & _ & _ & _ & _ & _ & _ & _ & _ & F3 & F4 & _).
  destruct F2 as (u & U1 & U2). exists c, u. rewrite F3, F4. auto.
Qed.

Definition areq_to (uri : string) : authreq :=
  mkAuthReq "openid" "code" "app" uri state None "nonce-nonce" None None None challenge "S256" "https://api.example" "".
Definition authz_to (uri : string) : authorize_request := mkAuthzReq iss "alice" (Some (areq_to uri)).

Definition authz_answer (i : nat) (h : list event) : option authorize_response :=
  match answers i h with Done (PAuthorize r) :: _ => Some r | _ => None end.
Lemma authz_ok_demo h i q res :
  nth_error (starts h) i = Some (EvStart i (RAuthorize (Some q))) ->
  authz_answer i h = Some res -> zr_err res = false -> authorize_ok_at h i q res.
Proof.
  intros H1 H2 H3. unfold authz_answer in H2.
  destruct (answers i h) as [|[[]|] l] eqn:Ha; try discriminate. injection H2 as ->.
  split; auto. eapply answered_demo; eauto.
Qed.
Ltac demo_authz := apply authz_ok_demo; vm_compute; reflexivity.

Lemma C26_redirect_exact_refuted_proof : exists E w xs i q res c,
  blank w /\ registry_ok w /\ no_faults xs /\ authorize_ok_at (history E w xs) i q res /\
  w_clients w (zr_client_id res) = Some c /\ ~ In (zr_redirect_uri res) (cl_redirect_uris c).
Proof.
  exists demo_ext, w0, (full 0 (RAuthorize (Some (authz_to "https://APP.example/CB"))) (os_authz "code-1")), 0%nat,
    (authz_to "https://APP.example/CB"). do 2 eexists.
  split; [apply blank_w0|]. split; [apply registry_demo|].
  split; [repeat (constructor; [exact I || reflexivity|]); constructor|].
  split; [demo_authz|]. split; [reflexivity|]. cbn. intros [X|[]]; discriminate.
Qed.

(** ** C27 *)

Lemma C27_no_offline_without_consent_partial_proof : forall E w xs i req res,
  blank w -> token_ok (history E w xs) i req res -> tq_grant_type req = "authorization_code"%string ->
  tr_rt res <> None ->
  exists code redirect verifier k q eff code' s a,
    tq_grant req = GAuthorizationCode code redirect verifier /\
    (* the authorization behind the code *)
    asked (history E w xs) k (RAuthorize (Some q)) /\
    In (EvCall k (CSessReg (zq_issuer q) code' s) a) (history E w xs) /\
    sess_key E (zq_issuer q) code' = sess_key E (tq_issuer req) code /\
    effective (history E w xs) k q eff /\
    asks E (ar_scope eff) "openid" /\ asks E (ar_scope eff) "offline_access" /\
    (ar_prompt eff = Some "consent"%string \/ asks_twice E (ar_scope eff) "offline_access").
Proof.
  intros E w xs i req res Hb Hok Hgt Hrt.
  destruct (code_redeemed _ _ _ _ _ _ Hok Hgt) as (code & redirect & verif & c & s & ar & rd & h1 & h2 & h3 &
    Hc & Hf & Hh & Hrd & Hst & _ & (_ & Hoff & _) & _).
  apply Hoff in Hrt as [Ho1 Ho2].
  destruct (sess_origin _ _ _ _ _ _ _ _ _ Hb Hh) as (k1 & k & iss' & code' & a & k2 & Hh1 & Hkey & _).
  destruct (write_reason_prefix _ _ _ h1 _ k1 k _ a k2 Hh Hh1) as (r & R1 & R2). cbn in R2.
  destruct R2 as (q & r0 & r1 & c' & -> & <- & Hq & -> & _ & _ & Hcase).
  pose proof (cf_req _ _ _ _ _ _ _ _ Hf) as Har. injection Har as ->.
  assert (Heff : exists eff, effective (history E w xs) k q eff /\ request_facts E eff ar).
  { destruct Hcase as [[U F]|(uri & pushed & d & U1 & _ & _ & U2 & _ & F)].
    - exists r0. split; auto. exists r0. auto.
    - exists pushed. split; auto. exists r0. split; auto. right. exists uri. split; auto.
      apply did_event in U2. rewrite Hh, Hh1. rewrite !in_app_iff. auto. }
  destruct Heff as (eff & He & F).
  exists code, redirect, verif, k, q, eff, code'. do 2 eexists.
  split; [apply (cf_grant _ _ _ _ _ _ _ _ Hf)|]. split; [unfold asked; rewrite Hh, Hh1, !in_app_iff; auto|].
  split; [rewrite Hh, Hh1, !in_app_iff; cbn; auto|]. split; [exact Hkey|]. split; [exact He|].
  pose proof (clean_scope_fields E (ar_scope eff) (ar_prompt eff)) as Hs.
  assert (Hsc : ar_scope ar = clean_scope E (ar_scope eff) (ar_prompt eff)) by (destruct F as [_ _ _ _ _ _ _ _ ->]; reflexivity).
  rewrite Hsc in Ho1, Ho2. unfold asks in *. rewrite Hs in Ho1, Ho2.
  destruct (has E (fields (ar_scope eff)) "openid" && has E (fields (ar_scope eff)) "offline_access") eqn:Hb2; cbn [andb] in *.
  - apply andb_true_iff in Hb2 as [B1 B2]. apply has_iff in B1, B2. split; auto. split; auto.
    assert (Hp : {ar_prompt eff = Some "consent"%string} + {ar_prompt eff <> Some "consent"%string}) by (decide equality; apply string_dec).
    destruct Hp as [Hp|Hp]; [left; exact Hp|]. right.
    assert (Hn : negb (match ar_prompt eff with Some p => String.eqb p "consent" | None => false end) = true).
    { destruct (ar_prompt eff) as [pr|]; auto. destruct (String.eqb_spec pr "consent") as [X|X]; auto. subst. destruct (Hp eq_refl). }
    rewrite Hn in Ho2. destruct Ho2 as (y & Y1 & Y2). eapply remove_first_twice; eauto.
  - exfalso. apply andb_false_iff in Hb2 as [B|B]; apply has_false_iff in B; contradiction.
Qed.

Definition x_twice : list sched :=
  (full 0 (authz "openid offline_access offline_access" None) (os_authz "code-1")
   ++ full 1 (RToken (Some (redeem webapp "code-1")))
     ([ok; ok; ok] ++ os_tok "id-1" "at-1" ++ os_tok "id-2" "rt-1"))%list.

Lemma C27_no_offline_without_consent_refuted_proof : exists E w xs k q zres ar i req res,
  blank w /\ registry_ok w /\ no_faults xs /\
  authorize_ok_at (history E w xs) k q zres /\ zq_request q = Some ar /\ ar_request_uri ar = None /\
  asks E (ar_scope ar) "openid" /\ asks E (ar_scope ar) "offline_access" /\ ar_prompt ar = None /\
  token_ok (history E w xs) i req res /\ presents_code req (zq_issuer q) (zr_code zres) /\ tr_rt res <> None.
Proof.
  exists demo_ext, w0, x_twice, 0%nat, (mkAuthzReq iss "alice" (Some (areq "openid offline_access offline_access" None))).
  do 2 eexists. exists 1%nat, (redeem webapp "code-1"). eexists.
  split; [apply blank_w0|]. split; [apply registry_demo|].
  split; [repeat (constructor; [exact I || reflexivity|]); constructor|].
  split; [demo_authz|]. split; [reflexivity|]. split; [reflexivity|].
  split; [apply has_iff; vm_compute; reflexivity|]. split; [apply has_iff; vm_compute; reflexivity|].
  split; [reflexivity|]. split; [demo_ok|]. split; [split; [reflexivity|do 2 eexists; reflexivity]|].
  vm_compute. discriminate.
Qed.

(** ** C28 *)

Lemma uri_consumed_absent E w xs h1 i iss uri rd h2 :
  history E w xs = (h1 ++ EvCall i (CReqDel iss uri) (AUnit rd) :: h2)%list -> is_ok rd = true ->
  forall h3 j uri' iss' s h4, h2 = (h3 ++ EvCall j (CReqGet iss' uri') (AReq (SOk s)) :: h4)%list ->
  req_key E iss' uri' = req_key E iss uri -> uri_handed_out E h3 iss uri.
Proof.
  intros Hh Hrd h3 j uri' iss' s h4 -> Hkey.
  destruct (split_at _ _ _ _ _ _ _ _ Hh) as (wm & o & w1 & A & B & C).
  pose proof (req_written E _ _ _ _ _ (req_key E iss uri) None B eq_refl Hrd) as Hw.
  destruct (wtrace_at _ _ _ _ _ _ _ _ C) as (wm2 & o2 & w2 & A2 & B2 & _).
  apply read_req in B2 as (_ & e & B2 & _). rewrite Hkey in B2.
  destruct (req_prov E _ _ _ _ _ A2 B2) as [X|(k1 & k & c & a & k2 & wk & -> & K1 & K2)]; [congruence|].
  destruct c; cbn in K2; try discriminate. injection K2 as Hk _ _.
  exists k, issuer, uri0, r, a. split; [apply in_or_app; right; left; auto|auto].
Qed.

(** After the deletion of a pushed request, an Authorize call that starts later with the same
    request_uri fails unless it is stored again. *)
Lemma C28_deleted_request_unusable_proof : forall E w xs h1 i issuer uri rd h2 h3 j q r0 res,
  history E w xs = (h1 ++ EvCall i (CReqDel issuer uri) (AUnit rd) :: h2 ++ h3)%list -> is_ok rd = true ->
  In (EvStart j (RAuthorize (Some q))) h3 -> authorize_ok_at (history E w xs) j q res ->
  zq_issuer q = issuer -> zq_request q = Some r0 -> ar_request_uri r0 = Some uri ->
  uri_handed_out E (h2 ++ h3) issuer uri.
Proof.
  intros E w xs h1 i issuer uri rd h2 h3 j q r0 res Hh Hrd Hst Hok <- Hq Hu.
  destruct (authorize_facts _ _ _ _ _ _ Hok) as (eff & ar & c & code & n & _ & _ & _ & _ & _ & _ & _ & _ & _ & _ & F).
  destruct (F _ _ Hq Hu) as (d & Hc & _).
  assert (Hin : exists g1 g2, h3 = (g1 ++ EvCall j (CReqGet (zq_issuer q) uri) (AReq (SOk eff)) :: g2)%list).
  { destruct (trace_history E w xs) as (sy & Ht & _).
    change (h1 ++ EvCall i (CReqDel (zq_issuer q) uri) (AUnit rd) :: h2 ++ h3)%list
      with (h1 ++ (EvCall i (CReqDel (zq_issuer q) uri) (AUnit rd) :: h2) ++ h3)%list in Hh.
    rewrite app_assoc in Hh. rewrite Hh in Ht.
    pose proof (started_later _ _ _ _ _ _ _ Ht Hst) as Hnone.
    assert (Hin : In (EvCall j (CReqGet (zq_issuer q) uri) (AReq (SOk eff))) (history E w xs)).
    { apply in_calls_of. rewrite Hc. left; auto. }
    rewrite Hh in Hin. apply in_app_or in Hin as [Hin|Hin].
    - apply in_calls_of in Hin. rewrite Hnone in Hin. destruct Hin.
    - apply in_split in Hin. exact Hin. }
  destruct Hin as (g1 & g2 & ->).
  destruct (uri_consumed_absent _ _ _ _ _ _ _ _ _ Hh Hrd (h2 ++ g1)%list j uri (zq_issuer q) eff g2)
    as (k & iss' & code' & s' & a & X & Y); auto.
  { rewrite <- app_assoc. reflexivity. }
  exists k, iss', code', s', a. split; auto. apply in_app_or in X. rewrite !in_app_iff. tauto.
Qed.

Lemma C28_request_uri_once_proof : forall E w xs h1 h2 i j q1 q2 r1 r2 res1 res2 issuer uri,
  history E w xs = (h1 ++ h2)%list ->
  authorize_ok_at h1 i q1 res1 -> In (EvStart j (RAuthorize (Some q2))) h2 ->
  zq_issuer q1 = issuer -> zq_request q1 = Some r1 -> ar_request_uri r1 = Some uri ->
  zq_issuer q2 = issuer -> zq_request q2 = Some r2 -> ar_request_uri r2 = Some uri ->
  authorize_ok_at (history E w xs) j q2 res2 ->
  exists g1 g2, history E w xs = (g1 ++ g2)%list /\ during g1 i (RAuthorize (Some q1)) /\
    uri_handed_out E g2 issuer uri.
Proof.
  intros E w xs h1 h2 i j q1 q2 r1 r2 res1 res2 issuer uri Hh Hok1 Hst2 <- Hq1 Hu1 Hi2 Hq2 Hu2 Hok2.
  assert (Hok1' : authorize_ok_at (history E w xs) i q1 res1).
  { destruct Hok1 as [[A B] C]. rewrite Hh. repeat split; auto; apply in_or_app; auto. }
  destruct (authorize_facts _ _ _ _ _ _ Hok1') as (eff & ar & c & code & n & _ & _ & _ & _ & _ & _ & _ & _ & _ & _ & F).
  destruct (F _ _ Hq1 Hu1) as (d & Hc & Hd).
  assert (Hin : In (EvCall i (CReqDel (zq_issuer q1) uri) (AUnit d)) h1).
  { destruct (trace_history E w xs) as (sy & Ht & _). rewrite Hh in Ht.
    destruct Hok1 as [[_ Hdn] _].
    pose proof (done_earlier _ _ _ _ _ _ _ Ht Hdn) as Hnone.
    assert (Hin : In (EvCall i (CReqDel (zq_issuer q1) uri) (AUnit d)) (h1 ++ h2)%list).
    { rewrite <- Hh. apply in_calls_of. rewrite Hc. right; left; auto. }
    apply in_app_or in Hin as [Hin|Hin]; auto.
    apply in_calls_of in Hin. rewrite Hnone in Hin. destruct Hin. }
  apply in_split in Hin as (g1 & g2 & ->). rewrite <- app_assoc in Hh. cbn in Hh.
  pose proof (C28_deleted_request_unusable_proof E w xs g1 i (zq_issuer q1) uri d g2 h2 j q2 r2 res2 Hh Hd Hst2 Hok2 Hi2 Hq2 Hu2) as Hho.
  exists (g1 ++ [EvCall i (CReqDel (zq_issuer q1) uri) (AUnit d)])%list, (g2 ++ h2)%list.
  rewrite <- app_assoc. split; [exact Hh|]. split; [|exact Hho].
  unfold during. apply in_or_app. left. eapply started_before; [exact Hh|apply Hok1'].
Qed.

(** ** C29 *)

Lemma C29_register_own_client_proof : forall E w xs g gq res,
  answered (history E w xs) g (RRegister (Some gq)) (PRegister res) -> gr_err res = false ->
  exists c0 r0 pushed a, gq_client gq = Some c0 /\ gq_request gq = Some r0 /\ ar_client_id r0 = cl_id c0 /\
    ar_request_uri r0 = None /\ normalized E r0 pushed /\
    In (EvCall g (CReqReg (gq_issuer gq) (gr_request_uri res) pushed) a) (history E w xs) /\ ans_ok a = true /\
    (forall iss' uri' p' a', In (EvCall g (CReqReg iss' uri' p') a') (history E w xs) ->
       iss' = gq_issuer gq /\ uri' = gr_request_uri res /\ p' = pushed).
Proof.
  intros E w xs g gq res Ha He. pose proof (answered_runs _ _ _ _ _ _ Ha) as Hr. cbn in Hr.
  apply reach_pmap_ret in Hr as (res' & X & Hr). injection X as <-.
  destruct (register_ok _ _ _ _ Hr He) as (c0 & r0 & r & c & uri & n & G1 & G2 & G3 & G4 & G5 & G6 & G7 & G8 & G9 & ->).
  exists c0, r0, r, (ANum n). do 4 (split; [assumption|]). split; [apply facts_normalized; auto|].
  split; [apply in_calls_of; rewrite G9; right; right; left; reflexivity|]. split; [exact G8|].
  intros iss' uri' p' a' X. apply in_calls_of in X. rewrite G9 in X. cbn.
  destruct X as [X|[X|[X|[]]]]; inversion X; auto.
Qed.

Lemma C29_pushed_request_as_pushed_proof : forall E w xs i q res front uri,
  blank w -> authorize_ok_at (history E w xs) i q res ->
  zq_request q = Some front -> ar_request_uri front = Some uri ->
  exists g gq c0 r0 pushed stored uri' a a',
    (* what was pushed, by the client it names *)
    asked (history E w xs) g (RRegister (Some gq)) /\ gq_client gq = Some c0 /\ gq_request gq = Some r0 /\
    ar_client_id r0 = cl_id c0 /\ normalized E r0 pushed /\
    In (EvCall g (CReqReg (gq_issuer gq) uri' pushed) a) (history E w xs) /\
    req_key E (gq_issuer gq) uri' = req_key E (zq_issuer q) uri /\
    (* is what is authorized and answered, whatever [front] says *)
    normalized E pushed stored /\
    In (EvCall i (CSessReg (zq_issuer q) (zr_code res)
          (mkSess (zq_issuer q) (zq_subject q) (Some stored))) a') (history E w xs) /\
    zr_state res = ar_state r0 /\ zr_redirect_uri res = ar_redirect_uri r0 /\ zr_client_id res = cl_id c0.
Proof.
  intros E w xs i q res front uri Hb Hok Hq Hu.
  destruct (authorize_facts _ _ _ _ _ _ Hok) as (eff & ar & c & code & n & _ & F2 & _ & _ & _ & _ & F7 & _ & _ & -> & F).
  destruct (F _ _ Hq Hu) as (d & Hc & _).
  destruct (calls_of_split i _ [] _ _ _ Hc) as (k1 & k2 & Hk & _ & _).
  destruct (req_origin _ _ _ _ _ _ _ _ _ Hb Hk) as (g1 & g & iss' & uri' & a & g2 & Hk1 & Hkey & _).
  destruct (write_reason_prefix _ _ _ k1 _ g1 g _ a g2 Hk Hk1) as (r & R1 & R2). cbn in R2.
  destruct R2 as (gq & c0 & r0 & c' & -> & <- & G1 & G2 & G3 & G4 & G5 & _).
  pose proof (facts_normalized _ _ _ G5) as Hn. destruct (proj1 Hn) as (N1 & N2 & N3 & N4 & _).
  exists g, gq, c0, r0, eff, ar, uri', a. eexists.
  split; [unfold asked; rewrite Hk, Hk1, !in_app_iff; auto|]. do 3 (split; [assumption|]).
  split; [apply facts_normalized; auto|]. split; [rewrite Hk, Hk1, !in_app_iff; cbn; auto|].
  split; [exact Hkey|]. split; [apply facts_normalized; auto|]. split; [exact F7|].
  cbn. rewrite N2, N3, N4. auto.
Qed.
