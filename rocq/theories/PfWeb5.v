(** * When the HTTP server crashes *)

From Verif Require Export PfWeb4.
From Coq Require Import Lia.

Lemma tval_present E w h w' k : wtrace E w h w' -> w_tval w k <> None -> w_tval w' k <> None.
Proof.
  intros Ht H0 Hn. revert H0.
  induction Ht as [|w i r h w' Ht IH|w i o h w' Ht IH|w d h w' Ht IH|w i c a o w1 h w' Hx Ht IH]; intros H0; auto.
  apply IH; auto. destruct (store_both _ _ _ _ _ _ Hx) as [[_ ->]|[(iss & t & _ & _ & ->)|(iss & id & t & _ & _ & _ & ->)]]; auto;
    match goal with |- upd ?m ?k' ?v' ?k <> None => destruct (upd_cases m k' v' k) as [[_ ->]|[_ ->]]; auto; discriminate end.
Qed.

(** Why a revocation fails without an error object. *)
Lemma revoke_silent E req tr res :
  reach (revoke_svc E (Some req)) tr (Ret res) -> rr_err res = true -> rr_error res = None ->
  exists r tr1 tr2, tr = (tr1 ++ (CTokGet (vq_issuer req) (vq_token req), ATok r) :: tr2)%list /\
    match r with
    | SOk t => exists r2, tr2 = [(CTokRevoke (vq_issuer req) (t_id t), AUnit r2)] /\ is_ok r2 = false
    | _ => True
    end.
Proof.
  unfold revoke_svc. intros H He Hn.
  rstep H; [rstep H; subst; discriminate|].
  rstep H; [rstep H; subst; discriminate|].
  destruct (vq_client req) as [auth|] eqn:Hc; [|rstep H; subst; discriminate].
  rstep H; [rstep H; subst; discriminate|].
  rstep H. subst tr. rename x into rc.
  assert (H' : exists r tr2, x0 = (CTokGet (vq_issuer req) (vq_token req), ATok r) :: tr2 /\
    match r with SOk t => exists r2, tr2 = [(CTokRevoke (vq_issuer req) (t_id t), AUnit r2)] /\ is_ok r2 = false | _ => True end).
  { destruct rc as [rc| | |]; try (rstep H; subst; discriminate).
    - rstep H. destruct x as [t| | |]; try (do 2 eexists; split; [eassumption|exact I]).
      rstep H. do 2 eexists. split; [subst; reflexivity|]. cbn beta iota.
      destruct (is_ok x) eqn:Hx; rstep H; subst; try discriminate. eauto.
    - rstep H. destruct x as [t| | |]; try (do 2 eexists; split; [eassumption|exact I]).
      rstep H. do 2 eexists. split; [subst; reflexivity|]. cbn beta iota.
      destruct (is_ok x) eqn:Hx; rstep H; subst; try discriminate. eauto. }
  destruct H' as (r & tr2 & -> & H'). exists r, [(CClientGet (cl_id auth), AClient rc)], tr2. auto.
Qed.

Lemma revoke_unknown E w xs i req res : no_tokens w -> no_faults xs ->
  answered (history E w xs) i (RRevoke (Some req)) (PRevoke res) -> rr_err res = true -> rr_error res = None ->
  exists h1 h2, history E w xs = (h1 ++ h2)%list /\ during h1 i (RRevoke (Some req)) /\
    forall t, ~ stored_as E h1 (vq_issuer req) (vq_token req) t.
Proof.
  intros Hn Hf Ha He Hr. pose proof (answered_runs _ _ _ _ _ _ Ha) as Hp. cbn [serve] in Hp.
  apply reach_pmap_ret in Hp as (res' & X & Hp). injection X as <-.
  destruct (revoke_silent _ _ _ _ Hp He Hr) as (r & tr1 & tr2 & Htr & Hcase).
  destruct (calls_of_split _ _ _ _ _ _ Htr) as (h1 & h2 & Hh & _ & Hc2).
  pose proof (history_ftrace E w xs Hf) as Ht. rewrite Hh in Ht.
  destruct (ftrace_at _ _ _ _ _ _ _ _ Ht) as (wm & o & w1 & T1 & T2 & T3 & T4).
  destruct (full_tok _ _ _ _ T3 _ _ _ T2) as (_ & ->).
  exists h1. eexists. split; [exact Hh|]. split; [eapply started_before; [exact Hh|apply Ha]|].
  destruct (w_tval wm (tok_key E (vq_issuer req) (vq_token req))) as [t|] eqn:Hv.
  - exfalso. destruct Hcase as (r2 & Htr2 & Hbad). rewrite Htr2 in Hc2.
    assert (Hin : In (EvCall i (CTokRevoke (vq_issuer req) (t_id t)) (AUnit r2)) h2).
    { apply in_calls_of. rewrite Hc2. left; reflexivity. }
    destruct (tok_inv E _ _ _ Hn (ftrace_wtrace _ _ _ _ T1)) as [_ I]. destruct (I _ _ Hv) as [_ (g1 & k & iss & t0 & a & g2 & -> & D)].
    assert (Hid : t_id t = t_id t0) by (destruct D as [->|[-> _]]; reflexivity).
    rewrite <- app_assoc in Ht. cbn in Ht.
    assert (X : ans_ok (AUnit r2) = true).
    { eapply revoke_succeeds; [exact Ht|]. apply in_or_app; right; right. rewrite <- Hid. exact Hin. }
    cbn in X. congruence.
  - intros t (k & iss' & a & Hin & Hkey). apply in_split in Hin as (g1 & g2 & ->).
    destruct (ftrace_at _ _ _ _ _ _ _ _ T1) as (wa & oa & wb & A1 & A2 & A3 & A4).
    apply ftrace_wtrace in A4. revert Hv. rewrite <- Hkey. apply (tval_present _ _ _ _ _ A4).
    cbn in A2. rewrite A3 in A2. cbn in A2. injection A2 as _ <-. cbn. rewrite upd_same. discriminate.
Qed.

(** What the answers of failure-free operations look like. *)
Lemma full_decent E w o c : o_fault o = FNone -> decent c (fst (exec E w o c)).
Proof.
  intros F. split; [apply exec_typed|]. destruct c; cbn; rewrite ?F; cbn; try (split; [reflexivity|discriminate]);
    match goal with |- context[match ?x with Some _ => _ | None => _ end] => destruct x end;
    cbn; split; reflexivity || discriminate.
Qed.
Lemma no_faults_decent E w xs j c a : no_faults xs -> In (EvCall j c a) (history E w xs) -> decent c a.
Proof.
  intros Hf Hin. apply in_split in Hin as (h1 & h2 & Hh). pose proof (history_ftrace E w xs Hf) as Ht. rewrite Hh in Ht.
  destruct (ftrace_at _ _ _ _ _ _ _ _ Ht) as (wm & oo & w1 & A & B & F & C).
  pose proof (full_decent E wm oo c F) as X. rewrite B in X. exact X.
Qed.
Lemma hno_faults_decent S w xs i c a : hno_faults xs -> In (HvCall i c a) (http_history S w xs) -> decent c a.
Proof.
  unfold http_history. generalize (mkHsys w []). induction xs as [|x xs IH]; intros s Hf Hin; [destruct Hin|].
  inversion Hf as [|? ? Hx Hf']; subst. cbn in Hin. destruct (hstep S s x) as [[e s1]|] eqn:Hs; [|eauto].
  destruct (hrun S s1 xs) as [h s2] eqn:Hr. cbn in Hin. destruct Hin as [->|Hin].
  - destruct x as [e' r'|j o|dt]; cbn in Hs; try discriminate.
    destruct (nth_error (hs_threads s) j) as [[[b| | |c' k]|]|]; try discriminate.
    destruct (exec (sv_ext S) (hs_world s) o c') as [a' w'] eqn:He. injection Hs as <- <- <- _.
    pose proof (full_decent (sv_ext S) (hs_world s) o c' Hx) as X. rewrite He in X. exact X.
  - apply (IH s1); auto. rewrite Hr. exact Hin.
Qed.

Ltac go4 := repeat (first
  [ match goal with
    | |- ends _ _ (validate_attestation _ _) => unfold validate_attestation
    end
  | estep decent_typed ]; cbn beta iota); cbn [ends].
Ltac bad := match goal with
  | G : decent _ _ |- _ => destruct G as (_ & G1 & G2); cbn in G1; (discriminate || congruence)
  end.

(** The other services: only an attestation with a null key crashes. *)
Definition null_key (E : ext) (r : request) : Prop :=
  exists q t att pop ca, r = RAttestation (Some q) /\ aq_type q = Some t /\ aq_assertion q = Some (att ++ "~" ++ pop)%string /\
    x_payload E KAttestation att = Some ca /\ c_cnf_jwk ca = Some None.
Lemma serve_crash E r : (forall q, r = RAttestation q -> q <> None) ->
  ends decent (fun o => o = Crashed -> null_key E r) (serve E r).
Proof.
  intros Hr.
  assert (K : oauth_service r -> ends decent (fun o => o = Crashed -> null_key E r) (serve E r)).
  { intros Hs. eapply ends_weaken; [|apply serve_fine; auto]. intros o Ho ->. destruct Ho. }
  destruct r as [r|r|r|r|r|r|r|r|r|]; try (apply K; exact I); cbn [serve]; unfold pmap; apply ends_bind.
  - unfold private_key_jwt. go4; try discriminate; bad.
  - destruct r as [q|]; [|exfalso; eapply Hr; reflexivity]. unfold client_attestation. go4; try discriminate; try bad.
    all: intros _.
    all: unfold assertion_of in *.
    all: repeat match goal with H : context[match ?x with _ => _ end] |- _ => destruct x eqn:?; try discriminate end.
    all: exists q; do 4 eexists; split; [reflexivity|]; split; [eassumption|].
    all: match goal with H : Some _ = Some _ |- _ => injection H as -> end.
    all: match goal with H : split_tilde _ = Some _ |- _ => apply split_tilde_ok in H; subst end.
    all: split; [eassumption|]; split; eauto.
  - unfold dpop_verify. go4; try discriminate; try bad.
Qed.

Lemma done_started E w h s i o : trace E (start w) h s -> In (EvDone i o) h -> exists r, In (EvStart i r) h.
Proof.
  intros Ht Hin. destruct (trace_absent _ _ _ _ i Ht) as [(_ & _ & H & _)|(g1 & r & g2 & s1 & -> & _)]; [cbn; lia|exfalso; eapply H; eauto|].
  exists r. apply in_or_app; cbn; auto.
Qed.

(** A token service answer that the handler cannot render. *)
Lemma token_at E w xs i req res : token_ok (history E w xs) i req res ->
  (forall t, tr_at res = Some t -> t_meta t = None) ->
  tq_grant_type req = "authorization_code"%string \/ exists v ty, tq_grant req = GTokenExchange v ty.
Proof.
  intros T Hno.
  assert (Some_at : tr_at res <> None -> False).
  { intros Hx. destruct (tr_at res) as [t|] eqn:Ht; [|congruence].
    destruct (response_created _ _ _ _ _ _ t T) as (iss & m & r & _ & _ & Hm & _); [unfold tokens_of; rewrite Ht; cbn; auto|].
    rewrite (Hno t eq_refl) in Hm. discriminate. }
  destruct (token_ok_client _ _ _ _ _ _ T) as (auth & c & tr' & H1 & H2 & H3 & H4 & H5 & H6 & H7).
  pose proof (dispatch_grant _ _ _ _ _ H6 H5) as D. destruct (tq_grant req) eqn:Hg.
  - destruct D.
  - left. apply D.
  - exfalso. destruct D as [_ D]. destruct (client_credentials_ok _ _ _ _ _ D H7) as (_ & _ & _ & t & id & v & r & _ & _ & -> & _).
    apply Some_at. discriminate.
  - exfalso. destruct D as [D _]. destruct (device_facts _ _ _ _ _ _ T D) as (? & ? & ? & ? & ? & ? & ? & F). apply Some_at. tauto.
  - exfalso. destruct D as [D _]. destruct (refresh_facts _ _ _ _ _ _ T D) as (? & ? & ? & ? & ? & ? & F). apply Some_at. tauto.
  - right. eauto.
Qed.

Lemma message_never issuer r c cnf v ty : tq_grant (token_message issuer r c cnf) <> GTokenExchange v ty.
Proof. unfold token_message. cbn [tq_grant]. repeat match goal with |- (if ?b then _ else _) <> _ => destruct b end; discriminate. Qed.

Lemma no_grant_fails E req : (forall v ty, tq_grant req <> GTokenExchange v ty) ->
  tq_grant_type req = "urn:ietf:params:oauth:grant-type:token-exchange"%string ->
  ends decent (fun o => match o with Done (PToken res) => tr_err res = true /\ tr_error res <> None | _ => False end)
    (serve E (RToken (Some req))).
Proof.
  intros Hg Ht. cbn [serve]. unfold pmap. apply ends_bind. unfold token_svc, validate_request. rewrite Ht.
  destruct (is_empty (tq_issuer req)); [cbn; split; [auto|discriminate]|].
  destruct (tq_client req); [|cbn; split; [auto|discriminate]].
  destruct (tq_grant req) eqn:X; try (cbn; split; [auto|discriminate]). exfalso. eapply Hg; eauto.
Qed.

Lemma C65_only_crashes_partial_proof : forall S w xs i,
  let hh := http_history S w xs in
  blank w -> hno_faults xs -> In (HvDone i Crashed) hh ->
  exists e r, In (HvStart i e r) hh /\
    ((* a token is to be revoked that is not stored *)
     (e = ERevoke /\ exists h1 h2, hh = (h1 ++ h2)%list /\ In (HvStart i e r) h1 /\
        forall t, ~ web_stored_as (sv_ext S) h1 (sv_issuer S) (form_value r "token") t) \/
     (* a code is redeemed that was authorized without the scope openid *)
     (e = EToken /\ form_value r "grant_type" = "authorization_code"%string /\
      exists user subject ar h1 h2, hh = (h1 ++ h2)%list /\ In (HvStart i e r) h1 /\
        web_authorized S w h1 (form_value r "code") user subject ar /\ ~ asks (sv_ext S) (ar_scope ar) "openid") \/
     (* the client shows an attestation whose key is null *)
     (query_get r "client_id" = ""%string /\
      exists att pop ca, post_value r "client_assertion" = (att ++ "~" ++ pop)%string /\
        x_payload (sv_ext S) KAttestation att = Some ca /\ c_cnf_jwk ca = Some None)).
Proof.
  intros S w xs i hh Hb Hf Hc. subst hh.
  destruct (http_refines S w xs) as (ys & own & R). pose proof (rf_faults _ _ _ _ _ R Hf) as Hf'.
  pose proof (rf_explained _ _ _ _ _ R) as X. pose proof (one_start_all S w xs) as U.
  assert (Pub : forall r j x y d, past own (http_history S w xs) (history (sv_ext S) w ys) i d -> In (Served j x y) d ->
    oauth_service x -> failed y = true -> public_error y = None ->
    (forall req, x <> RRevoke (Some req)) -> (forall req, x = RToken (Some req) -> exists c cnf, req = token_message (sv_issuer S) r c cnf) -> False).
  { intros r j x y d P Hin Hs Hfl Hpe H1 H2. destruct (P _ Hin) as (O & P1 & P2).
    assert (Y : fine x (Done y)).
    { eapply (ends_history (sv_ext S) w ys j x (Done y) _ decent P1 P2); [|apply serve_fine; auto].
      intros c a Ha. eapply no_faults_decent; eauto. }
    specialize (Y Hfl Hpe). destruct x as [[req|]|q|[req|]|q|q|q|q|q|q|]; try exact Y.
    - destruct (H2 _ eq_refl) as (c & cnf & ->).
      pose (Pz := fun o => match o with Done (PToken res) => tr_err res = true /\ tr_error res <> None | _ => False end).
      assert (Z : Pz (Done y)).
      { eapply (ends_history (sv_ext S) w ys j _ (Done y) Pz decent P1 P2); [|apply no_grant_fails; [intros v ty; apply message_never|exact Y]].
        intros c0 a Ha. eapply no_faults_decent; eauto. }
      unfold Pz in Z. destruct y; try exact Z. cbn in Hpe. tauto.
    - eapply H1; reflexivity. }
  destruct (ex_crash _ _ _ _ X _ Hc) as [(j & O & Hj)|(e & r & d & Hs & P & B)].
  - destruct (trace_history (sv_ext S) w ys) as (sy & Ht & _).
    assert (Hst : exists x, In (EvStart j x) (history (sv_ext S) w ys)) by (eapply done_started; eauto).
    destruct Hst as (x & Hx). destruct (made_for _ _ _ _ _ R _ _ Hx) as (i' & e & r & d & O' & Hs & P & St).
    rewrite O in O'. injection O' as <-.
    pose (Pz := fun o : outcome response => o = Crashed -> null_key (sv_ext S) x).
    assert (Y : Pz Crashed).
    { eapply (ends_history (sv_ext S) w ys j x Crashed Pz decent Hx Hj); [|apply serve_crash].
      - intros c a Ha. eapply no_faults_decent; eauto.
      - intros q ->. cbn [stage] in St. destruct St as (_ & _ & -> & _). discriminate. }
    destruct (Y eq_refl) as (q & t & att & pop & ca & -> & Q1 & Q2 & Q3 & Q4). cbn [stage] in St.
    destruct St as (_ & _ & Q & Hid & _). unfold credentials in Q. injection Q as ->. cbn in Q1, Q2. injection Q2 as Q2.
    exists e, r. split; auto. right; right. split; auto. exists att, pop, ca. auto.
  - exists e, r. split; auto. cbn [ending] in B.
    assert (Stg : forall j x y, In (Served j x y) d -> exists d', stage S e r d' x).
    { intros j x y Hin. destruct (P _ Hin) as (O & P1 & _).
      destruct (made_by _ _ _ _ _ R _ _ _ _ _ Hs O P1) as (d' & _ & St). eauto. }
    destruct B as [(id & B)|[B|[B|[B|[B|[B|[B|B]]]]]]].
    + exfalso. pose proof (P _ B) as B'. cbn in B'. destruct (hno_faults_decent _ _ _ _ _ _ Hf B') as (_ & D & _). discriminate.
    + destruct B as (q & res & (j & Hj) & Hcase). destruct (Stg _ _ _ Hj) as (d' & St). cbn [stage] in St.
      destruct St as (-> & Hm & c & cnf & L & -> & Hcnf). destruct Hcase as [[He Hn]|[He Hn]].
      * exfalso. eapply (Pub r _ _ _ _ P Hj); [exact I|exact He|exact Hn|discriminate|]. intros req [= <-]. eauto.
      * destruct (P _ Hj) as (O & P1 & P2).
        assert (T : token_ok (history (sv_ext S) w ys) j (token_message (sv_issuer S) r c cnf) res) by (split; [split|]; auto).
        destruct (token_at _ _ _ _ _ _ T Hn) as [Hgt|(v & ty & Hgt)]; [|exfalso; eapply message_never; eauto].
        right; left. split; auto. split; [exact Hgt|].
        destruct (code_redeemed _ _ _ _ _ _ T Hgt) as (code & redirect & verif & c' & s & ar & rd & g1 & g2 & g3 & Hcl & Hfc & Hh & Hrd & Hst & Ht & (A1 & A2 & A3) & A4 & _).
        destruct (during_authorized _ _ _ _ _ _ _ _ _ Hb Hh) as (ar' & Har & Hau).
        rewrite (cf_req _ _ _ _ _ _ _ _ Hfc) in Har. injection Har as <-.
        pose proof (cf_grant _ _ _ _ _ _ _ _ Hfc) as Hg. unfold token_message in Hg.
        change (form_value r "grant_type" = "authorization_code"%string) in Hgt. rewrite Hgt in Hg.
        replace (String.eqb "authorization_code" gt_code) with true in Hg by reflexivity. cbn [tq_grant] in Hg. injection Hg as <- _ _.
        destruct (http_times _ _ _ _ _ R _ _ Hh) as (b1 & b2 & B1 & B2 & _ & _).
        destruct (web_authorized_of _ _ _ _ _ R _ _ _ _ _ _ _ Hh B1 B2 Hau) as (user & Hweb).
        exists user, (as_subject s), ar, b1, b2. split; auto. split; [eapply aligned_started; eauto|]. split; auto.
        intros Ha. apply A1 in Ha. destruct (tr_at res) as [t|] eqn:Hat; [|congruence].
        destruct (Ht t) as (m & rr & D1 & _); [unfold tokens_of; rewrite Hat; cbn; auto|]. rewrite (Hn t eq_refl) in D1. discriminate.
    + exfalso. destruct B as (q & res & (j & Hj) & [[He Hn]|[He Hn]]).
      * eapply (Pub r _ _ _ _ P Hj); [exact I|exact He|exact Hn|discriminate|discriminate].
      * destruct (Stg _ _ _ Hj) as (d' & St). cbn [stage] in St. destruct St as (_ & c & _ & ->).
        destruct (P _ Hj) as (O & P1 & P2).
        destruct (introspect_facts (sv_ext S) w ys j (mkValReq (sv_issuer S) (Some c) (form_value r "token")) res) as [[Z _]|(rt & _ & Hin & Hres)]; [split; eassumption|congruence|].
        destruct (no_faults_decent _ _ _ _ _ _ Hf' Hin) as (_ & Hnil & _).
        apply in_split in Hin as (g1 & g2 & Hg). pose proof (history_ftrace (sv_ext S) w ys Hf') as Ht. rewrite Hg in Ht.
        destruct (ftrace_at _ _ _ _ _ _ _ _ Ht) as (wm & o & w1 & T1 & T2 & T3 & T4).
        destruct (full_tok _ _ _ _ T3 _ _ _ T2) as (_ & ->). rewrite Hn in Hres.
        destruct (w_tval wm _); discriminate.
    + destruct B as (q & res & (j & Hj) & He & Hn). destruct (Stg _ _ _ Hj) as (d' & St). cbn [stage] in St.
      destruct St as (-> & c & L & ->). destruct (P _ Hj) as (O & P1 & P2). left. split; auto.
      destruct (revoke_unknown (sv_ext S) w ys j (mkValReq (sv_issuer S) (Some c) (form_value r "token")) res (proj1 Hb) Hf') as (g1 & g2 & Hg & Hd & Hno); [split; eassumption|auto|auto|].
      destruct (http_times _ _ _ _ _ R _ _ Hg) as (b1 & b2 & B1 & B2 & _ & _).
      exists b1, b2. split; auto. split; [eapply aligned_started; eauto|].
      intros t Ht. apply (Hno t). eapply same_stored; [apply B2|exact Ht].
    + exfalso. destruct B as (q & res & (j & Hj) & He & Hn).
      eapply (Pub r _ _ _ _ P Hj); [exact I|exact He|exact Hn|discriminate|discriminate].
    + exfalso. destruct B as (q & res & (j & Hj) & He & Hn).
      eapply (Pub r _ _ _ _ P Hj); [exact I|exact He|exact Hn|discriminate|discriminate].
    + exfalso. destruct B as (q & res & (j & Hj) & He & Hn).
      eapply (Pub r _ _ _ _ P Hj); [exact I|exact He|exact Hn|discriminate|discriminate].
    + exfalso. destruct B as (q & res & (j & Hj) & He & Hn).
      eapply (Pub r _ _ _ _ P Hj); [exact I|exact He|exact Hn|discriminate|discriminate].
Qed.
