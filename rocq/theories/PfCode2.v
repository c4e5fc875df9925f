(** * Authorization codes, continued: proofs *)

From Verif Require Export PfCode NoFault.

(** ** Deciding facts of concrete histories *)

Definition handed_outb (E : ext) (h : list event) (issuer code : string) : bool :=
  existsb (fun e => match e with
                    | EvCall _ (CSessReg i c _) _ => String.eqb (sess_key E i c) (sess_key E issuer code)
                    | _ => false end) h.

Lemma handed_out_dec E h issuer code : handed_out E h issuer code <-> handed_outb E h issuer code = true.
Proof.
  unfold handed_out, handed_outb. rewrite existsb_exists. split.
  - intros (k & i & c & s & a & Hin & Hk). eexists. split; [exact Hin|]. cbn. rewrite Hk. apply String.eqb_refl.
  - intros (e & Hin & He). destruct e as [|k c a| |]; try discriminate. destruct c; try discriminate.
    apply String.eqb_eq in He. eauto 8.
Qed.

(** ** C03 *)

(** A race: both requests read the session before either deletes it. *)
Definition x_race : list sched :=
  (x_authz ++ [SNew (RToken (Some (redeem webapp "code-1"))); SNew (RToken (Some (redeem webapp "code-1")))]
   ++ go 1 [ok; ok] ++ go 2 [ok; ok]
   ++ go 1 ([ok] ++ os_tok "id-1" "at-1" ++ os_tok "id-2" "rt-1" ++ [ok])
   ++ go 2 ([ok] ++ os_tok "id-3" "at-2" ++ os_tok "id-4" "rt-2" ++ [ok]))%list.

Ltac demo_ok := apply token_ok_demo; vm_compute; reflexivity.
Ltac demo_pairs := repeat split; try (vm_compute; reflexivity); try (vm_compute; discriminate).

Lemma C03_concurrent_double_redemption_refuted_proof :
  exists E w xs i j req1 req2 res1 res2 issuer code h1 h2 k c a,
    blank w /\ registry_ok w /\ no_faults xs /\ i <> j /\
    presents_code req1 issuer code /\ presents_code req2 issuer code /\
    token_ok (history E w xs) i req1 res1 /\ token_ok (history E w xs) j req2 res2 /\
    tr_rt res1 <> None /\ tr_rt res2 <> None /\ tr_rt res1 <> tr_rt res2 /\
    (* the code was handed out only once *)
    history E w xs = (h1 ++ EvCall k c a :: h2)%list /\
    ~ handed_out E h1 issuer code /\ ~ handed_out E h2 issuer code.
Proof.
  pose (h := history demo_ext w0 x_race).
  exists demo_ext, w0, x_race, 1%nat, 2%nat, (redeem webapp "code-1"), (redeem webapp "code-1").
  do 2 eexists. exists iss, "code-1"%string, (firstn 3 h).
  exists (skipn 4 h). do 3 eexists.
  split; [apply blank_w0|]. split; [apply registry_demo|].
  split; [repeat (constructor; [exact I || reflexivity|]); constructor|].
  split; [discriminate|]. split; [split; [reflexivity|do 2 eexists; reflexivity]|]. split; [split; [reflexivity|do 2 eexists; reflexivity]|].
  split; [demo_ok|]. split; [demo_ok|].
  split; [vm_compute; discriminate|]. split; [vm_compute; discriminate|]. split; [vm_compute; discriminate|].
  split; [vm_compute; reflexivity|].
  rewrite !handed_out_dec. vm_compute. split; discriminate.
Qed.

(** The property holds when the second request looks the code up after the first one
    has deleted it. *)
Lemma C03_code_redeemed_once_partial_proof : forall E w xs h1 i issuer code rd h2 j req res,
  history E w xs = (h1 ++ EvCall i (CSessDel issuer code) (AUnit rd) :: h2)%list -> is_ok rd = true ->
  token_ok (history E w xs) j req res -> presents_code req issuer code ->
  (forall a, ~ In (EvCall j (CSessGet issuer code) a) h1) ->
  handed_out E h2 issuer code.
Proof.
  intros E w xs h1 i issuer code rd h2 j req res Hh Hrd Hok (Hi & redirect & verif & Hg) Hno.
  assert (Hgt : tq_grant_type req = "authorization_code"%string).
  { pose proof (grant_type_of _ _ _ _ _ _ Hok) as X. rewrite Hg in X. exact X. }
  destruct (code_redeemed _ _ _ _ _ _ Hok Hgt) as (code' & redirect' & verif' & c & s & ar & rd' & k1 & k2 & k3 &
    Hc & Hf & Hk & Hrd' & Hst' & _).
  pose proof (cf_grant _ _ _ _ _ _ _ _ Hf) as Hg'. rewrite Hg in Hg'. injection Hg' as <- _ _. subst issuer.
  assert (Hin : In (EvCall j (CSessGet (tq_issuer req) code) (ASess (SOk s))) (history E w xs)).
  { rewrite Hk. apply in_or_app; right; left; auto. }
  rewrite Hh in Hin. apply in_app_or in Hin as [Hin|[Hin|Hin]]; [destruct (Hno _ Hin)|discriminate|].
  apply in_split in Hin as (g1 & g2 & ->).
  destruct (consumed_absent _ _ _ _ _ _ _ _ _ Hh Hrd g1 j code (tq_issuer req) s g2)
    as (k & iss' & code' & s' & a & X & Y); auto.
  exists k, iss', code', s', a. split; auto. apply in_or_app; auto.
Qed.

(** ** C60 *)

Lemma C60_no_token_before_deletion_proof : forall E w xs h1 i iss' t a h2 req code redirect verifier,
  history E w xs = (h1 ++ EvCall i (CTokCreate iss' t) a :: h2)%list ->
  In (EvStart i (RToken (Some req))) (history E w xs) ->
  tq_grant req = GAuthorizationCode code redirect verifier ->
  exists rd, In (EvCall i (CSessDel (tq_issuer req) code) (AUnit rd)) h1 /\ is_ok rd = true.
Proof.
  intros E w xs h1 i iss' t a h2 req code redirect verif Hh Hst Hg.
  destruct (write_reason _ _ _ _ _ _ _ _ Hh) as (r & R1 & R2).
  pose proof (started_before _ _ _ _ _ _ _ _ _ Hh Hst) as Hst1.
  assert (r = RToken (Some req)) as ->.
  { destruct (trace_history E w xs) as (sy & Ht & _). eapply start_unique; [exact Ht| |exact Hst].
    rewrite Hh. apply in_or_app; auto. }
  destruct R2 as (req' & X & auth & c & m & tm & J1 & J2 & J3 & J4 & J5 & J6 & J7 & J8 & J9 & J10).
  injection X as <-. unfold grant_just in J10. rewrite Hg in J10.
  destruct J10 as (s & ar & rd & D1 & D2 & D3 & _). exists rd. split; auto. apply did_event. exact D2.
Qed.

(** ** C06 *)

(** evil redeems the code that was issued for app: they share a redirect URI, and evil
    knows the verifier. *)
Definition x_steal : list sched :=
  (x_authz ++ full 1 (RToken (Some (redeem evil "code-1")))
     ([ok; ok; ok] ++ os_tok "id-1" "at-1" ++ os_tok "id-2" "rt-1"))%list.

Lemma C06_code_bound_to_client_refuted_proof :
  exists E w xs req res code subject ar h1 h2,
    blank w /\ registry_ok w /\ no_faults xs /\
    token_ok (history E w xs) 1 req res /\ presents_code req (tq_issuer req) code /\
    history E w xs = (h1 ++ h2)%list /\ during h1 1 (RToken (Some req)) /\
    authorized E h1 (tq_issuer req) code subject ar /\
    tr_at res <> None /\ ar_client_id ar = "app"%string /\ by_client req "evil".
Proof.
  pose (h := history demo_ext w0 x_steal).
  assert (Hok : exists res, token_ok h 1 (redeem evil "code-1") res /\ tr_at res <> None).
  { eexists. split; [demo_ok|]. vm_compute. discriminate. }
  destruct Hok as (res & Hok & Hne).
  exists demo_ext, w0, x_steal, (redeem evil "code-1"), res, "code-1"%string, "alice"%string.
  eexists. exists (firstn 7 h), (skipn 7 h).
  split; [apply blank_w0|]. split; [apply registry_demo|].
  split; [repeat (constructor; [exact I || reflexivity|]); constructor|].
  split; [exact Hok|]. split; [split; [reflexivity|do 2 eexists; reflexivity]|].
  split; [symmetry; apply firstn_skipn|]. split; [vm_compute; tauto|].
  split; [|split; [exact Hne|split; [|exists evil; split; reflexivity]]].
  - exists (firstn 3 h), 0%nat, (mkAuthzReq iss "alice" (Some (areq all_scope (Some "consent")))), "code-1"%string.
    eexists. exists (skipn 4 (firstn 7 h)).
    split; [vm_compute; reflexivity|]. split; [vm_compute; tauto|]. split; [reflexivity|].
    split; [vm_compute; reflexivity|]. split; [vm_compute; discriminate|].
    intros (j & c & a & Hin & Ha & Hc). vm_compute in Hin.
    repeat (destruct Hin as [Hin|Hin]; [try discriminate; injection Hin as <- <- <-|]); try destruct Hin;
      destruct Hc as [(? & ? & ? & Hc & _)|(? & ? & Hc & _)]; discriminate.
  - reflexivity.
Qed.

(** Where the redirect URI belongs to. *)
Lemma sess_allowed E w xs h1 i iss code s h2 :
  blank w -> history E w xs = (h1 ++ EvCall i (CSessGet iss code) (ASess (SOk s)) :: h2)%list ->
  exists ar c, as_request s = Some ar /\ w_clients w (ar_client_id ar) = Some c /\ client_allows E c ar.
Proof.
  intros Hb Hh. destruct (sess_origin _ _ _ _ _ _ _ _ _ Hb Hh) as (k1 & k & iss' & code' & a & k2 & Hh1 & _).
  destruct (write_reason_prefix _ _ _ h1 _ k1 k _ a k2 Hh Hh1) as (r & R1 & R2).
  cbn in R2. destruct R2 as (q & r0 & r1 & c & -> & <- & _ & -> & Hc & Hd & _).
  exists r1, c. split; auto. split; auto. eapply client_read. apply did_event in Hd.
  rewrite Hh, Hh1. apply in_or_app. left. apply in_or_app. left. exact Hd.
Qed.

(** It holds if no two clients registered the same redirect URI. *)
Lemma C06_code_bound_to_client_partial_proof : forall E w xs i req res,
  blank w -> redirects_apart E w -> token_ok (history E w xs) i req res ->
  tq_grant_type req = "authorization_code"%string ->
  exists code redirect verifier subject ar h1 h2,
    tq_grant req = GAuthorizationCode code redirect verifier /\
    history E w xs = (h1 ++ h2)%list /\ during h1 i (RToken (Some req)) /\
    authorized E h1 (tq_issuer req) code subject ar /\
    by_client req (ar_client_id ar).
Proof.
  intros E w xs i req res Hb Hap Hok Hgt.
  destruct (code_redeemed _ _ _ _ _ _ Hok Hgt) as (code & redirect & verif & c & s & ar & rd & h1 & h2 & h3 &
    Hc & Hf & Hh & Hrd & Hst & _).
  destruct (during_authorized _ _ _ _ _ _ _ _ _ Hb Hh) as (ar' & Har & Hau).
  destruct (sess_allowed _ _ _ _ _ _ _ _ _ Hb Hh) as (ar2 & c2 & Har2 & Hc2 & Hal).
  rewrite (cf_req _ _ _ _ _ _ _ _ Hf) in Har, Har2. injection Har as <-. injection Har2 as <-.
  exists code, redirect, verif, (as_subject s), ar, h1. eexists.
  split; [apply (cf_grant _ _ _ _ _ _ _ _ Hf)|]. split; [exact Hh|]. split; [exact Hst|]. split; [exact Hau|].
  destruct Hc as (auth & Ha1 & Ha2). exists auth. split; auto.
  destruct (cf_registered _ _ _ _ _ _ _ _ Hf) as (u1 & U1 & U2).
  destruct (ca_uri _ _ _ Hal) as (u2 & V1 & V2).
  rewrite (cf_redirect _ _ _ _ _ _ _ _ Hf) in V2.
  eapply Hap; [exact Ha2|exact Hc2|exact U1|exact V1|]. unfold fold_eq in *. congruence.
Qed.

(** ** C07 *)

Lemma C07_codes_expire_proof : forall E w xs i req res issuer code,
  blank w -> token_ok (history E w xs) i req res -> presents_code req issuer code ->
  exists g1 k iss' code' s a g2 g3,
    history E w xs = (g1 ++ EvCall k (CSessReg iss' code' s) a :: g2 ++
                      EvCall i (CSessGet issuer code) (ASess (SOk s)) :: g3)%list /\
    sess_key E iss' code' = sess_key E issuer code /\ (elapsed g2 <= 60 * second)%N.
Proof.
  intros E w xs i req res issuer code Hb Hok (Hi & redirect & verif & Hg).
  assert (Hgt : tq_grant_type req = "authorization_code"%string).
  { pose proof (grant_type_of _ _ _ _ _ _ Hok) as X. rewrite Hg in X. exact X. }
  destruct (code_redeemed _ _ _ _ _ _ Hok Hgt) as (code' & redirect' & verif' & c & s & ar & rd' & k1 & k2 & k3 &
    Hc & Hf & Hk & Hrd' & Hst' & _).
  pose proof (cf_grant _ _ _ _ _ _ _ _ Hf) as Hg'. rewrite Hg in Hg'. injection Hg' as <- _ _. subst issuer.
  destruct (sess_origin _ _ _ _ _ _ _ _ _ Hb Hk) as (g1 & k & iss' & code' & a & g2 & -> & Hkey & He & _).
  exists g1, k, iss', code', s, a, g2. eexists. rewrite <- app_assoc in Hk. cbn in Hk.
  split; [exact Hk|]. auto.
Qed.

Lemma C07_codes_retrievable_proof : forall E w xs g1 k iss' code' s n g2 i issuer code r g3,
  no_faults xs ->
  history E w xs = (g1 ++ EvCall k (CSessReg iss' code' s) (ANum n) :: g2 ++
                    EvCall i (CSessGet issuer code) (ASess r) :: g3)%list ->
  sess_key E iss' code' = sess_key E issuer code ->
  ~ code_rewritten E g2 issuer code ->
  ((elapsed g2 <= 60 * second)%N -> r = SOk s) /\
  ((60 * second < elapsed g2)%N -> r = SNotFound).
Proof.
  intros E w xs g1 k iss' code' s n g2 i issuer code r g3 Hf Hh Hkey Hnr.
  pose proof (history_ftrace E w xs Hf) as Ht. rewrite Hh in Ht.
  destruct (ftrace_at _ _ _ _ _ _ _ _ Ht) as (wm & o & w1 & A & B & F & C).
  pose proof (full_write _ _ _ _ F _ _ B) as Hok. cbn in Hok.
  pose proof (sess_written E _ _ _ _ _ _ _ B eq_refl Hok) as Hw.
  destruct (ftrace_at _ _ _ _ _ _ _ _ C) as (wm2 & o2 & w2 & A2 & B2 & F2 & C2).
  assert (Hsame : w_sess wm2 (sess_key E issuer code) = Some (s, (w_now wm + session_ttl)%N)).
  { rewrite <- Hkey, <- Hw. apply (sess_frame E w1 g2 wm2); [apply ftrace_wtrace; auto|].
    intros g4 j c a g5 wk v -> Hwk Hwr.
    apply ftrace_at in A2 as (wa & oa & wb & Aa & Ab & Ac & Ad).
    pose proof (full_write _ _ _ _ Ac _ _ Ab) as Hfa.
    assert (ans_ok a = true) as Hoka.
    { destruct c; cbn in Hwr; try discriminate; cbn in Ab; rewrite Ac in Ab; inversion Ab; subst; reflexivity. }
    apply Hnr. exists j, c, a. split; [apply in_or_app; right; left; auto|]. split; auto.
    destruct c; cbn in Hwr; try discriminate; injection Hwr as Hk' _; [right|left]; do 2 eexists;
      [split; [reflexivity|]|eexists; split; [reflexivity|]]; congruence. }
  apply full_sess in B2 as (_ & ->); auto.
  assert (Hnow : w_now wm2 = (w_now wm + elapsed g2)%N).
  { pose proof (exec_const _ _ _ _ _ _ B) as (N1 & _).
    rewrite (wtrace_now _ _ _ _ (ftrace_wtrace _ _ _ _ A2)). congruence. }
  unfold cache_get. rewrite Hsame. unfold session_ttl in *.
  destruct (N.ltb_spec (w_now wm + 60 * second) (w_now wm2)); split; intros; auto; lia.
Qed.

Lemma req_origin E w xs h1 i iss uri s h2 :
  blank w -> history E w xs = (h1 ++ EvCall i (CReqGet iss uri) (AReq (SOk s)) :: h2)%list ->
  exists k1 k iss' uri' a k2, h1 = (k1 ++ EvCall k (CReqReg iss' uri' s) a :: k2)%list /\
    req_key E iss' uri' = req_key E iss uri /\ (elapsed k2 <= session_ttl)%N /\
    ~ uri_rewritten E k2 iss uri.
Proof.
  intros (_ & _ & Hb & _) Hh. destruct (split_at _ _ _ _ _ _ _ _ Hh) as (wm & o & w1 & A & B & _).
  apply read_req in B as (-> & e & B & Hle).
  destruct (req_last E _ _ _ _ _ A B) as [X|(k1 & k & c & a & k2 & wk & -> & K1 & K2 & K3)];
    [rewrite Hb in X; discriminate|].
  destruct c; cbn in K2; try discriminate. injection K2 as Hkey <- He.
  exists k1, k, issuer, uri0, a, k2. repeat split; auto.
  - pose proof (wtrace_now _ _ _ _ A) as HN. pose proof (wtrace_now _ _ _ _ K1) as HN1.
    rewrite elapsed_app in HN. cbn [elapsed] in HN. lia.
  - intros (j & c & a' & I1 & I2 & [(x & y & z & -> & I3)|(x & y & -> & I3)]);
      rewrite (K3 _ _ _ I1) in I2; try discriminate; cbn; congruence.
Qed.

Lemma C07_pushed_requests_expire_proof : forall E w xs i req res r0 uri,
  blank w -> answered (history E w xs) i (RAuthorize (Some req)) (PAuthorize res) -> zr_err res = false ->
  zq_request req = Some r0 -> ar_request_uri r0 = Some uri ->
  exists g1 k iss' uri' pushed a g2 g3,
    history E w xs = (g1 ++ EvCall k (CReqReg iss' uri' pushed) a :: g2 ++
                      EvCall i (CReqGet (zq_issuer req) uri) (AReq (SOk pushed)) :: g3)%list /\
    req_key E iss' uri' = req_key E (zq_issuer req) uri /\ (elapsed g2 <= 60 * second)%N.
Proof.
  intros E w xs i req res r0 uri Hb Hans He Hr Hu.
  apply answered_runs in Hans. cbn in Hans. apply reach_pmap_ret in Hans as (res' & X & Hans). injection X as <-.
  destruct (authorize_ok _ _ _ _ Hans He) as (_ & _ & r0' & Hr' & Hcase).
  rewrite Hr in Hr'. injection Hr' as <-.
  destruct Hcase as [[Hn _]|(uri' & pushed & d & tr' & Hu' & _ & _ & Htr & _)]; [congruence|].
  rewrite Hu in Hu'. injection Hu' as <-.
  destruct (calls_of_split i _ [] _ _ _ Htr) as (k1 & k2 & Hk & _ & _).
  destruct (req_origin _ _ _ _ _ _ _ _ _ Hb Hk) as (g1 & k & iss' & uri' & a & g2 & -> & Hkey & Hel & _).
  exists g1, k, iss', uri', pushed, a, g2. eexists. rewrite <- app_assoc in Hk. cbn in Hk.
  split; [exact Hk|]. auto.
Qed.

Lemma C07_pushed_requests_retrievable_proof : forall E w xs g1 k iss' uri' s n g2 i issuer uri r g3,
  no_faults xs ->
  history E w xs = (g1 ++ EvCall k (CReqReg iss' uri' s) (ANum n) :: g2 ++
                    EvCall i (CReqGet issuer uri) (AReq r) :: g3)%list ->
  req_key E iss' uri' = req_key E issuer uri ->
  ~ uri_rewritten E g2 issuer uri ->
  ((elapsed g2 <= 60 * second)%N -> r = SOk s) /\
  ((60 * second < elapsed g2)%N -> r = SNotFound).
Proof.
  intros E w xs g1 k iss' uri' s n g2 i issuer uri r g3 Hf Hh Hkey Hnr.
  pose proof (history_ftrace E w xs Hf) as Ht. rewrite Hh in Ht.
  destruct (ftrace_at _ _ _ _ _ _ _ _ Ht) as (wm & o & w1 & A & B & F & C).
  pose proof (full_write _ _ _ _ F _ _ B) as Hok. cbn in Hok.
  pose proof (req_written E _ _ _ _ _ _ _ B eq_refl Hok) as Hw.
  destruct (ftrace_at _ _ _ _ _ _ _ _ C) as (wm2 & o2 & w2 & A2 & B2 & F2 & C2).
  assert (Hsame : w_req wm2 (req_key E issuer uri) = Some (s, (w_now wm + session_ttl)%N)).
  { rewrite <- Hkey, <- Hw. apply (req_frame E w1 g2 wm2); [apply ftrace_wtrace; auto|].
    intros g4 j c a g5 wk v -> Hwk Hwr.
    apply ftrace_at in A2 as (wa & oa & wb & Aa & Ab & Ac & Ad).
    assert (ans_ok a = true) as Hoka.
    { destruct c; cbn in Hwr; try discriminate; cbn in Ab; rewrite Ac in Ab; inversion Ab; subst; reflexivity. }
    apply Hnr. exists j, c, a. split; [apply in_or_app; right; left; auto|]. split; auto.
    destruct c; cbn in Hwr; try discriminate; injection Hwr as Hk' _; [right|left]; do 2 eexists;
      [split; [reflexivity|]|eexists; split; [reflexivity|]]; congruence. }
  apply full_req in B2 as (_ & ->); auto.
  assert (Hnow : w_now wm2 = (w_now wm + elapsed g2)%N).
  { pose proof (exec_const _ _ _ _ _ _ B) as (N1 & _).
    rewrite (wtrace_now _ _ _ _ (ftrace_wtrace _ _ _ _ A2)). congruence. }
  unfold cache_get. rewrite Hsame. unfold session_ttl in *.
  destruct (N.ltb_spec (w_now wm + 60 * second) (w_now wm2)); split; intros; auto; lia.
Qed.
