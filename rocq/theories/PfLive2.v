(** * What is bound to succeed: client credentials, authorization requests (proofs) *)

From Verif Require Export PfLive.

(** ** What a request is told when storage works *)

Definition reliable (w : world) (c : call) (a : answer) : Prop :=
  typed c a /\
  match c, a with
  | CClientGet id, AClient r => r = match w_clients w id with Some c => SOk c | None => SNotFound end
  | CTokRevoke _ _, _ => True
  | _, AUnit r => is_ok r = true
  | _, ANum r => is_ok r = true
  | _, _ => True
  end.

Lemma history_reliable E w xs i c a :
  no_faults xs -> In (EvCall i c a) (history E w xs) -> reliable w c a.
Proof.
  intros Hf Hin. split; [eapply history_typed; exact Hin|].
  apply in_split in Hin as (l1 & l2 & Hl).
  pose proof (history_ftrace E w xs Hf) as Ht. rewrite Hl in Ht.
  destruct (ftrace_at _ _ _ _ _ _ _ _ Ht) as (wm & oo & w1 & T1 & T2 & T3 & T4). apply ftrace_wtrace in T1.
  pose proof (full_write _ _ _ _ T3 _ _ T2) as Hw.
  destruct c; auto; destruct a; auto;
    try (destruct Hw as [Hw|(x & y & X & _)]; [exact Hw|discriminate]).
  cbn in T2. rewrite T3 in T2. cbn in T2. injection T2 as <- _.
  apply wtrace_const in T1 as (X & _). rewrite X. destruct (w_clients w id); reflexivity.
Qed.

Lemma ends_mono {A} (good good' : call -> answer -> Prop) (P : outcome A -> Prop) (p : prog A) :
  (forall c a, good' c a -> good c a) -> ends good P p -> ends good' P p.
Proof. intros H. induction p as [a| | |c k IH]; cbn; auto. Qed.

(** ** C84: client credentials *)

Definition cc_good (w : world) (c : call) (a : answer) : Prop :=
  reliable w c a /\
  match c, a with
  | (CGenAT _ | CGenRT _), AGen r => exists v, r = Some v /\ v <> ""%string
  | _, _ => True
  end.

Lemma cc_ends E w auth cl req :
  tq_client req = Some auth -> tq_grant req = GClientCredentials -> tq_grant_type req = gt_cc ->
  tq_issuer req <> ""%string -> x_request_uri E (tq_issuer req) = true ->
  w_clients w (cl_id auth) = Some cl -> listed E (cl_grant_types cl) gt_cc ->
  (cl_type cl = CtConfidential \/ cl_type cl = CtCredentialed) ->
  ends (cc_good w) (fun o => match o with
     | Done res => tr_err res = false /\ tr_at res <> None /\ tr_rt res = None | Crashed => False end)
    (token_svc E (Some req)).
Proof.
  intros H1 H2 H3 H4 H5 H6 H7 H8. apply is_empty_false in H4.
  assert (Hv : validate_request req = None).
  { unfold validate_request. rewrite H1, H2, H3, H4. reflexivity. }
  unfold token_svc. rewrite Hv, H1.
  intros a [[Ha1 Ha2] _]; destruct a; cbn in Ha1; try destruct Ha1. cbn in Ha2. rewrite Ha2, H6. clear Ha2.
  unfold dispatch. rewrite H3. change (String.eqb gt_cc gt_cc) with true. cbv iota zeta.
  unfold client_credentials. rewrite H2. unfold prologue. rewrite H4, H5. cbn [negb].
  apply has_iff in H7.
  assert (Hty : forall (X Y : prog token_response), match cl_type cl with CtConfidential | CtCredentialed => X | _ => Y end = X).
  { intros X Y. destruct H8 as [-> | ->]; reflexivity. }
  rewrite Hty, H7. cbn [negb]. cbv zeta.
  apply ends_bind. unfold generate_access_token.
  intros a [[Ha1 Ha2] Ha3]; destruct a; cbn in Ha1; try destruct Ha1. clear Ha2 Ha3.
  intros a [[Ha1 Ha2] Ha3]; destruct a; cbn in Ha1; try destruct Ha1. clear Ha2 Ha3.
  intros a [[Ha1 Ha2] Ha3]; destruct a; cbn in Ha1; try destruct Ha1. cbn in Ha3. destruct Ha3 as (v & -> & Hv1).
  apply is_empty_false in Hv1. rewrite Hv1. clear Ha2.
  intros a [[Ha1 Ha2] Ha3]; destruct a; cbn in Ha1; try destruct Ha1. cbn in Ha2. rewrite Ha2. cbn [ends].
  split; [reflexivity|]. split; [discriminate|reflexivity].
Qed.

Lemma C84_client_credentials_work_proof : forall E w xs i req c o,
  no_faults xs -> asked (history E w xs) i (RToken (Some req)) -> In (EvDone i o) (history E w xs) ->
  tq_grant_type req = "client_credentials"%string -> tq_grant req = GClientCredentials ->
  tq_issuer req <> ""%string -> x_request_uri E (tq_issuer req) = true ->
  client_of w req c -> (cl_type c = CtConfidential \/ cl_type c = CtCredentialed) ->
  listed E (cl_grant_types c) "client_credentials" -> generators_work (history E w xs) i ->
  exists res, o = Done (PToken res) /\ tr_err res = false /\ tr_at res <> None /\ tr_rt res = None.
Proof.
  intros E w xs i req c o Hf Hi1 Hi2 Hgt Hg Hie Huri (auth & Hc1 & Hc2) Hty Hl Hgen.
  pose (Pz := fun o : outcome response => match o with
     | Done (PToken res) => tr_err res = false /\ tr_at res <> None /\ tr_rt res = None
     | _ => False end).
  assert (Hfin : Pz o).
  { apply (ends_history E w xs i (RToken (Some req)) o Pz (cc_good w) Hi1 Hi2).
    - intros c0 a Hin. split; [eapply history_reliable; eauto|].
      destruct c0; auto; destruct a; auto.
      + destruct (Hgen _ _ (or_introl Hin)) as (v & X & Hv). injection X as ->. eauto.
      + destruct (Hgen _ _ (or_intror Hin)) as (v & X & Hv). injection X as ->. eauto.
    - cbn [serve]. unfold pmap. apply ends_bind. eapply ends_weaken; [|eapply cc_ends; eauto].
      intros [o'|]; cbn; auto. }
  destruct o as [[res| | | | | | | |]|]; try (destruct Hfin; fail). exists res. split; [reflexivity|exact Hfin].
Qed.

(** ** C86: well-formed authorization requests are accepted *)

Lemma validate_local_complete E r0 r : request_facts E r0 r -> validate_local E r0 = inr r.
Proof.
  intros [H1 H2 H3 H4 H5 H6 (G1 & G2 & G3 & G4) H8 ->]. unfold validate_local. cbv zeta.
  assert (X1 : is_empty (ar_state r0) = false) by (destruct (ar_state r0); [cbn in H1; lia|reflexivity]).
  assert (X2 : is_empty (ar_nonce r0) = false) by (destruct (ar_nonce r0); [cbn in H2; lia|reflexivity]).
  assert (X3 : is_empty (ar_code_challenge r0) = false) by (destruct (ar_code_challenge r0); [discriminate H4|reflexivity]).
  assert (X4 : is_empty (ar_response_type r0) = false) by (destruct H6 as [-> | ->]; reflexivity).
  apply is_empty_false in G1, G2, G3, G4.
  rewrite X1, X2, X3, X4, G1, G2, G3, G4, H3, H4, H5.
  assert (L1 : Nat.ltb (String.length (ar_state r0)) min_state = false) by (apply Nat.ltb_ge; exact H1).
  assert (L2 : Nat.ltb (String.length (ar_nonce r0)) min_nonce = false) by (apply Nat.ltb_ge; exact H2).
  rewrite L1, L2.
  assert (T : str_in (ar_response_type r0) [rt_code; rt_token] = true).
  { apply str_in_iff. destruct H6 as [-> | ->]; cbn; auto. }
  rewrite T.
  destruct H8 as [->|(m & -> & H8)]; [reflexivity|]. apply str_in_iff in H8. rewrite H8. reflexivity.
Qed.

Lemma check_client_complete E c r : client_allows E c r -> check_client E c r = None.
Proof.
  intros [H1 H2 H3 H4]. apply has_iff in H1, H2, H3. unfold check_client. rewrite H1, H2, H3. cbn [negb].
  destruct (ar_response_mode r) as [m|] eqn:Hm; auto. specialize (H4 _ eq_refl). apply has_iff in H4. rewrite H4. reflexivity.
Qed.

Definition norm (E : ext) (r : authreq) : authreq :=
  set_scope (set_response_mode r (expand_mode (ar_response_type r) (ar_response_mode r))) (clean_scope E (ar_scope r) (ar_prompt r)).

Lemma wf_facts E r : well_formed E r -> request_facts E r (norm E r).
Proof.
  intros (H1 & H2 & H3 & H4 & H5 & H6 & H7 & H8 & H9 & H10 & H11). constructor; auto.
  destruct (ar_response_mode r) as [m|]; auto. right. exists m. split; auto. specialize (H11 _ eq_refl).
  unfold response_modes, rm_query, rm_fragment, rm_form_post, rm_jwt, rm_form_post_jwt, rm_query_jwt, rm_fragment_jwt.
  cbn in *. tauto.
Qed.

Lemma meant_expand r : (ar_response_type r = "code"%string \/ ar_response_type r = "token"%string) ->
  expand_mode (ar_response_type r) (ar_response_mode r) = meant_mode r.
Proof.
  intros H. unfold expand_mode, meant_mode. destruct (ar_response_mode r) as [m|]; auto.
  change rm_jwt with "jwt"%string. destruct (String.eqb m "jwt"); auto. destruct H as [-> | ->]; reflexivity.
Qed.

Lemma permitted_allows E c r : well_formed E r -> permitted E c r -> client_allows E c (norm E r).
Proof.
  intros (_ & _ & _ & _ & H5 & _) (P1 & P2 & P3 & P4). constructor; auto.
  intros m Hm. apply P4. rewrite <- meant_expand; auto.
Qed.

Definition code_good (w : world) (c : call) (a : answer) : Prop :=
  reliable w c a /\
  match c, a with
  | (CGenCode _ | CGenURI _), AGen r => exists v, r = Some v
  | _, _ => True
  end.

Lemma history_code_good E w xs k c a :
  no_faults xs -> codes_work (history E w xs) k -> In (EvCall k c a) (history E w xs) -> code_good w c a.
Proof.
  intros Hf Hg Hin. split; [eapply history_reliable; eauto|].
  destruct c; auto; destruct a; auto.
  - destruct (Hg _ _ (or_introl Hin)) as (v & X). injection X as ->. eauto.
  - destruct (Hg _ _ (or_intror Hin)) as (v & X). injection X as ->. eauto.
Qed.

Lemma validate_ends E w (good : call -> answer -> Prop) r0 r c :
  (forall x y, good x y -> reliable w x y) ->
  request_facts E r0 r -> client_allows E c r -> w_clients w (ar_client_id r0) = Some c ->
  ends good (fun o => o = Done (inr r)) (validate E (Some r0)).
Proof.
  intros Hgood H1 H2 H3. unfold validate. rewrite (validate_local_complete _ _ _ H1).
  assert (Hid : ar_client_id r = ar_client_id r0) by (rewrite (rf_result _ _ _ H1); reflexivity).
  intros a Ha. apply Hgood in Ha as [Ha1 Ha2]. destruct a; cbn in Ha1; try destruct Ha1. cbn in Ha2.
  rewrite Hid, H3 in Ha2. subst. rewrite (check_client_complete _ _ _ H2). reflexivity.
Qed.

Lemma authorize_with_ends E w issuer subject r0 r c :
  request_facts E r0 r -> client_allows E c r -> w_clients w (ar_client_id r0) = Some c ->
  ends (code_good w) (fun o => match o with
     | Done res => zr_err res = false /\ zr_state res = ar_state r0 /\ zr_redirect_uri res = ar_redirect_uri r0 /\
         zr_client_id res = ar_client_id r0 /\ zr_issuer res = issuer
     | Crashed => False end)
    (authorize_with E issuer subject (Some r0)).
Proof.
  intros H1 H2 H3. unfold authorize_with. apply ends_bind.
  eapply ends_weaken; [|eapply (validate_ends E w); eauto; intros x y [H _]; exact H].
  intros o ->.
  intros a [[Ha1 _] Ha3]. destruct a; cbn in Ha1; try destruct Ha1. cbn in Ha3. destruct Ha3 as (v & ->).
  intros a [[Ha1 Ha2] _]. destruct a; cbn in Ha1; try destruct Ha1. cbn in Ha2. rewrite Ha2.
  cbn. rewrite (rf_result _ _ _ H1). auto.
Qed.

Lemma C86_valid_request_is_authorized_proof : forall E w xs k q r c o,
  no_faults xs -> asked (history E w xs) k (RAuthorize (Some q)) -> In (EvDone k o) (history E w xs) ->
  zq_issuer q <> ""%string -> zq_subject q <> ""%string -> zq_request q = Some r -> ar_request_uri r = None ->
  well_formed E r -> w_clients w (ar_client_id r) = Some c -> permitted E c r -> codes_work (history E w xs) k ->
  exists res, o = Done (PAuthorize res) /\ zr_err res = false /\ zr_state res = ar_state r /\
    zr_redirect_uri res = ar_redirect_uri r /\ zr_client_id res = ar_client_id r /\ zr_issuer res = zq_issuer q.
Proof.
  intros E w xs k q r c o Hf Hi1 Hi2 Hie Hse Hq Hu Hwf Hc Hp Hg.
  pose (Pz := fun o : outcome response => match o with
     | Done (PAuthorize res) => zr_err res = false /\ zr_state res = ar_state r /\
         zr_redirect_uri res = ar_redirect_uri r /\ zr_client_id res = ar_client_id r /\ zr_issuer res = zq_issuer q
     | _ => False end).
  assert (Hfin : Pz o).
  { apply (ends_history E w xs k (RAuthorize (Some q)) o Pz (code_good w) Hi1 Hi2).
    - intros c0 a Hin. eapply history_code_good; eauto.
    - cbn [serve]. unfold pmap. apply ends_bind. unfold authorize_svc.
      apply is_empty_false in Hie, Hse. rewrite Hq, Hie, Hse, Hu.
      eapply ends_weaken; [|eapply (authorize_with_ends E w _ _ r); eauto using wf_facts, permitted_allows].
      intros [o'|]; cbn; auto. }
  destruct o as [[ | | |res| | | | | ]|]; try (destruct Hfin; fail). exists res. split; [reflexivity|exact Hfin].
Qed.

Lemma C86_valid_request_is_registered_proof : forall E w xs g gq r auth c o,
  no_faults xs -> asked (history E w xs) g (RRegister (Some gq)) -> In (EvDone g o) (history E w xs) ->
  gq_issuer gq <> ""%string -> gq_request gq = Some r -> ar_request_uri r = None ->
  gq_client gq = Some auth -> ar_client_id r = cl_id auth ->
  well_formed E r -> w_clients w (ar_client_id r) = Some c -> permitted E c r -> codes_work (history E w xs) g ->
  exists res, o = Done (PRegister res) /\ gr_err res = false /\ gr_expires_in res = 60%N.
Proof.
  intros E w xs g gq r auth c o Hf Hi1 Hi2 Hie Hq Hu Ha Hid Hwf Hc Hp Hg.
  pose (Pz := fun o : outcome response => match o with
     | Done (PRegister res) => gr_err res = false /\ (exists n, gr_expires_in res = num n /\
          exists u s, In (EvCall g (CReqReg (gq_issuer gq) u s) (ANum n)) (history E w xs))
     | _ => False end).
  assert (Hfin : Pz o).
  { apply (ends_history E w xs g (RRegister (Some gq)) o Pz (fun c a => code_good w c a /\ In (EvCall g c a) (history E w xs)) Hi1 Hi2).
    - intros c0 a Hin. split; [eapply history_code_good; eauto|exact Hin].
    - cbn [serve]. unfold pmap. apply ends_bind. unfold register_svc.
      apply is_empty_false in Hie. rewrite Hie, Ha, Hq, Hu. apply ends_bind.
      eapply ends_weaken; [|eapply (validate_ends E w _ r); eauto using wf_facts, permitted_allows; intros x y [[H _] _]; exact H].
      intros oo ->. change (ar_client_id (norm E r)) with (ar_client_id r). rewrite Hid, String.eqb_refl. cbn [negb].
      intros a [[[Ha1 _] Ha3] _]. destruct a; cbn in Ha1; try destruct Ha1. cbn in Ha3. destruct Ha3 as (v & ->).
      intros a [[[Ha1 Ha2] _] Ha4]. destruct a; cbn in Ha1; try destruct Ha1. cbn in Ha2. rewrite Ha2.
      cbn. split; [reflexivity|]. eexists. split; [reflexivity|]. eauto. }
  destruct o as [[ | | | |res| | | | ]|]; try (destruct Hfin; fail). destruct Hfin as (F1 & n & F2 & u & s & F3).
  exists res. split; [reflexivity|]. split; [exact F1|]. rewrite F2.
  apply in_split in F3 as (l1 & l2 & Hl).
  pose proof (history_ftrace E w xs Hf) as Ht. rewrite Hl in Ht.
  destruct (ftrace_at _ _ _ _ _ _ _ _ Ht) as (wm & oo & w1 & T1 & T2 & T3 & T4).
  cbn in T2. rewrite T3 in T2. cbn in T2. injection T2 as <- _. reflexivity.
Qed.

(** ** C87: a pushed request is authorized *)

Definition uri_reads_first (tr : list (call * answer)) (c : call) : Prop :=
  match c with CReqGet _ _ => tr = [] | _ => True end.

Lemma uri_reads_first_wp E r : wp uri_reads_first (fun _ _ => True) [] (authorize_svc E r).
Proof. unfold authorize_svc, authorize_with, validate. wany. reflexivity. Qed.

(** The stored request is well-formed again. *)
Lemma facts_again E r0 r : request_facts E r0 r -> request_facts E r (norm E r).
Proof.
  intros F. pose proof (facts_normalized _ _ _ F) as (_ & _ & Hs & _).
  destruct F as [H1 H2 H3 H4 H5 H6 (G1 & G2 & G3 & G4) H8 Hr].
  assert (Hm : ar_response_mode r = meant_mode r0) by (rewrite Hr; cbn; apply meant_expand; auto).
  assert (Hsc : ar_scope r <> ""%string).
  { intros X. assert (Hsr : ar_scope r = clean_scope E (ar_scope r0) (ar_prompt r0)) by (rewrite Hr; reflexivity).
    unfold clean_scope in Hsr. change scope_openid with "openid"%string in Hsr.
    destruct (has E (fields (ar_scope r0)) "openid") eqn:Ho; [|congruence].
    apply has_iff in Ho.
    assert (Ha : asks E (ar_scope r) "openid").
    { apply Hs; auto. intros Y. apply (f_equal (@List.length N)) in Y. rewrite !map_length in Y. discriminate Y. }
    rewrite X in Ha. destruct Ha as (y & [] & _). }
  subst r. cbn in Hm, Hsc. constructor; cbn; auto.
  rewrite Hm. unfold meant_mode. destruct H8 as [->|(m & -> & H8)]; auto. right. eexists. split; [reflexivity|].
  destruct (String.eqb_spec m "jwt"); auto.
  destruct (String.eqb (ar_response_type r0) "code"); cbn; tauto.
Qed.

Lemma allows_again E c r0 r : request_facts E r0 r -> client_allows E c r -> client_allows E c (norm E r).
Proof.
  intros F [C1 C2 C3 C4]. constructor; auto. cbn. intros m Hm. apply C4.
  destruct F as [H1 H2 H3 H4 H5 H6 _ H8 Hr].
  assert (Hm0 : ar_response_mode r = meant_mode r0) by (rewrite Hr; cbn; apply meant_expand; auto).
  assert (Ht : ar_response_type r = ar_response_type r0) by (rewrite Hr; reflexivity).
  rewrite meant_expand in Hm by (rewrite Ht; auto). unfold meant_mode in *. rewrite Hm0 in *. rewrite Ht in *.
  destruct (ar_response_mode r0) as [m0|]; [|discriminate].
  destruct (String.eqb_spec m0 "jwt").
  - destruct (String.eqb (ar_response_type r0) "code"); exact Hm.
  - destruct (String.eqb_spec m0 "jwt"); [contradiction|exact Hm].
Qed.

Lemma C87_pushed_request_is_authorized_proof : forall E w xs h0 h1 h2 g gq r gres k q r0 o,
  no_faults xs ->
  history E w xs = (h0 ++ h1 ++ h2)%list -> (elapsed (h1 ++ h2) <= 60 * second)%N ->
  (* a client pushes a request *)
  answered h1 g (RRegister (Some gq)) (PRegister gres) -> gr_err gres = false -> gq_request gq = Some r ->
  (* within a minute a user follows the request_uri *)
  In (EvStart k (RAuthorize (Some q))) h2 -> In (EvDone k o) h2 ->
  zq_issuer q = gq_issuer gq -> zq_subject q <> ""%string ->
  zq_request q = Some r0 -> ar_request_uri r0 = Some (gr_request_uri gres) ->
  x_uri_valid E (gr_request_uri gres) = true -> codes_work (history E w xs) k ->
  (* nobody else has that request_uri *)
  (forall g' iss' uri' s a, In (EvCall g' (CReqReg iss' uri' s) a) (h1 ++ h2) ->
     req_key E iss' uri' = req_key E (gq_issuer gq) (gr_request_uri gres) -> g' = g) ->
  (forall k' q' r' uri', asked (history E w xs) k' (RAuthorize (Some q')) -> zq_request q' = Some r' ->
     ar_request_uri r' = Some uri' ->
     req_key E (zq_issuer q') uri' = req_key E (gq_issuer gq) (gr_request_uri gres) -> k' = k) ->
  (exists res, o = Done (PAuthorize res) /\ zr_err res = false /\ zr_state res = ar_state r /\
    zr_redirect_uri res = ar_redirect_uri r /\ zr_client_id res = ar_client_id r /\ zr_issuer res = gq_issuer gq) /\
  (* and the request that is authorized is the one that was pushed *)
  (forall eff, effective (history E w xs) k q eff -> normalized E r eff).
Proof.
  intros E w xs h0 h1 h2 g gq r gres k q r0 o Hf Hh Hsh [Hg1 Hg2] He Hq Hi1 Hi2 Hiss Hse Hzq Hu Hval Hgen Honce Honly.
  assert (Hga : answered (history E w xs) g (RRegister (Some gq)) (PRegister gres)).
  { split; rewrite Hh, !in_app_iff; auto. }
  pose proof (answered_runs _ _ _ _ _ _ Hga) as Hr. cbn in Hr.
  apply reach_pmap_ret in Hr as (res' & X & Hr). injection X as <-.
  destruct (register_ok _ _ _ _ Hr He) as (c0 & r1 & st & c & uri & n & G1 & G2 & G3 & G4 & G5 & G6 & G7 & G8 & G9 & G10).
  assert (r1 = r) as -> by congruence. rewrite G10 in *. cbn [gr_request_uri] in *. clear G2.
  assert (Hc : w_clients w (ar_client_id r) = Some c).
  { eapply client_read. apply in_calls_of. rewrite G9. left; reflexivity. }
  assert (Hi1' : In (EvStart k (RAuthorize (Some q))) (history E w xs)) by (rewrite Hh; rewrite !in_app_iff; auto).
  assert (Hi2' : In (EvDone k o) (history E w xs)) by (rewrite Hh; rewrite !in_app_iff; auto).
  assert (Hh3 : history E w xs = ((h0 ++ h1) ++ h2)%list) by (rewrite Hh; list_eq).
  change ([(CClientGet (ar_client_id r), AClient (SOk c)); (CGenURI (gq_issuer gq), AGen (Some uri)); (CReqReg (gq_issuer gq) uri st, ANum n)])
    with ([(CClientGet (ar_client_id r), AClient (SOk c)); (CGenURI (gq_issuer gq), AGen (Some uri))] ++ (CReqReg (gq_issuer gq) uri st, ANum n) :: [])%list in G9.
  destruct (calls_of_split g _ _ _ _ _ G9) as (A & B & HA & _ & HBn).
  assert (HAp : exists u', A = (h0 ++ u')%list).
  { eapply (later_prefix E w xs h0 (h1 ++ h2)); [exact Hh| |exact HA]. apply in_or_app; left; exact Hg1. }
  destruct HAp as (u' & ->).
  destruct (call_in_done E w xs (h0 ++ h1)%list h2 g _ _ _ _ _ Hh3 (in_or_app _ _ _ (or_intror Hg2)) HA) as (u & Hu1 & ->).
  assert (Hu2 : h1 = (u' ++ EvCall g (CReqReg (gq_issuer gq) uri st) (ANum n) :: u)%list).
  { rewrite <- app_assoc in Hu1. apply app_inv_head in Hu1. exact Hu1. }
  assert (Hread : forall rd, In (EvCall k (CReqGet (zq_issuer q) uri) (AReq rd)) (history E w xs) -> rd = SOk st).
  { intros rd Hrd. destruct (call_in_later _ _ _ _ _ _ _ _ _ Hh3 Hi1 Hrd) as (l1 & l2 & ->).
    assert (HB : history E w xs = ((h0 ++ u') ++ EvCall g (CReqReg (gq_issuer gq) uri st) (ANum n) ::
        (u ++ l1) ++ EvCall k (CReqGet (zq_issuer q) uri) (AReq rd) :: l2)%list).
    { rewrite HA. list_eq. }
    eapply (C07_pushed_requests_retrievable_proof E w xs _ _ _ _ st n (u ++ l1)%list k (zq_issuer q) uri rd l2 Hf HB); [congruence| |].
    - intros (j & cc & a & J1 & J2 & [(i2 & c2 & s2 & -> & J3)|(i2 & c2 & -> & J3)]).
      + rewrite Hiss in J3.
        assert (j = g) as ->.
        { eapply Honce; [|exact J3]. rewrite Hu2. apply in_app_or in J1. rewrite !in_app_iff. cbn [In].
          destruct J1 as [J1|J1]; [left; right; right|right; left]; exact J1. }
        assert (X : In (CReqReg i2 c2 s2, a) (calls_of g (u ++ l1 ++ EvCall k (CReqGet (zq_issuer q) uri) (AReq rd) :: l2)%list)).
        { apply in_calls_of. rewrite !in_app_iff. apply in_app_or in J1. tauto. }
        rewrite HBn in X. destruct X.
      + rewrite Hiss in J3.
        assert (Hin : In (EvCall j (CReqDel i2 c2) a) (history E w xs)).
        { rewrite HB. apply in_or_app. right. right. apply in_or_app. left. exact J1. }
        pose proof Hin as Hin2. apply in_split in Hin2 as (b1 & b2 & Hb12).
        destruct (write_reason _ _ _ _ _ _ _ _ Hb12) as (rr & W1 & req' & r' & -> & W2 & W3 & W4).
        assert (j = k) as ->.
        { apply (Honly j req' r' c2); auto.
          - unfold asked. rewrite Hb12. apply in_or_app; left; exact W1.
          - rewrite W2. exact J3. }
        destruct (trace_history E w xs) as (sy & Ht & _).
        destruct (started_reach _ _ _ _ _ _ Ht Hi1') as (pq & Hpq). cbn [serve] in Hpq.
        rewrite HB, app_comm_cons, app_assoc in Hpq.
        rewrite (calls_of_app k (((h0 ++ u') ++ EvCall g (CReqReg (gq_issuer gq) uri st) (ANum n) :: u ++ l1)%list)) in Hpq.
        cbn [calls_of] in Hpq. rewrite Nat.eqb_refl in Hpq.
        pose proof (wp_call uri_reads_first _ _ _ _ _ _ _ (pmap_wp _ _ _ _ (uri_reads_first_wp E (Some q))) Hpq) as Hw. cbn in Hw.
        assert (X : In (CReqDel i2 c2, a) (calls_of k ((h0 ++ u') ++ EvCall g (CReqReg (gq_issuer gq) uri st) (ANum n) :: u ++ l1)%list)).
        { apply in_calls_of. apply in_or_app; right; right. exact J1. }
        rewrite Hw in X. destruct X.
    - rewrite Hu2 in Hsh. revert Hsh. rewrite !elapsed_app. cbn [elapsed]. lia. }
  split; [|intros eff (r0' & Z1 & Z2); rewrite Hzq in Z1; injection Z1 as <-; destruct Z2 as [[Z2 _]|(uri' & Z2 & Z3)]; [congruence|];
    rewrite Hu in Z2; injection Z2 as <-; specialize (Hread _ Z3); injection Hread as ->; apply facts_normalized; exact G5].
  pose (Pz := fun o : outcome response => match o with
     | Done (PAuthorize res) => zr_err res = false /\ zr_state res = ar_state st /\
         zr_redirect_uri res = ar_redirect_uri st /\ zr_client_id res = ar_client_id st /\ zr_issuer res = gq_issuer gq
     | _ => False end).
  assert (Hst : ar_state st = ar_state r /\ ar_redirect_uri st = ar_redirect_uri r /\ ar_client_id st = ar_client_id r).
  { rewrite (rf_result _ _ _ G5). auto. }
  assert (Hfin : Pz o).
  { apply (ends_history E w xs k (RAuthorize (Some q)) o Pz
      (fun c a => code_good w c a /\ In (EvCall k c a) (history E w xs)) Hi1' Hi2').
    - intros c' a Hin. split; [eapply history_code_good; eauto|exact Hin].
    - cbn [serve]. unfold pmap. apply ends_bind. unfold authorize_svc.
      apply is_empty_false in G3, Hse. rewrite Hzq, Hiss, G3, Hse, Hu, Hval. cbn [negb].
      intros a [[[Ha1 _] _] Ha4]. destruct a; cbn in Ha1; try destruct Ha1. rewrite <- Hiss in Ha4. rewrite (Hread _ Ha4).
      intros a [[[Ha1 Ha2] _] _]. destruct a; cbn in Ha1; try destruct Ha1. cbn in Ha2.
      destruct r2; try discriminate Ha2;
      (eapply ends_weaken; [|eapply ends_mono; [|eapply (authorize_with_ends E w _ _ st (norm E st) c);
         [eapply facts_again; exact G5|eapply allows_again; eassumption|destruct Hst as (_ & _ & ->); exact Hc]]];
      [intros [o'|]; cbn; auto|intros c' a' [H _]; exact H]). }
  destruct Hst as (S1 & S2 & S3).
  destruct o as [[ | | |res| | | | | ]|]; try (destruct Hfin; fail). exists res. split; [reflexivity|].
  rewrite <- S1, <- S2, <- S3. exact Hfin.
Qed.

(** ** C85: approvals succeed *)

Definition user_reads_first (tr : list (call * answer)) (c : call) : Prop :=
  match c with CDevGetUser _ _ => tr = [] | _ => True end.

Lemma user_reads_first_wp r : wp user_reads_first (fun _ _ => True) [] (dev_validate_svc r).
Proof. unfold dev_validate_svc. wany. reflexivity. Qed.

Local Notation sd := PfDev2.sd.

Definition approval_good (w : world) (issuer code : string) (bound : N) (c : call) (a : answer) : Prop :=
  reliable w c a /\
  match c, a with
  | CDevGetUser i' c', ADev r => i' = issuer -> c' = code -> exists s dq dc, r = SOk s /\
      ds_request s = Some dq /\ ds_client s = Some dc /\ ds_status s = DsPending /\ (bound <= ds_expires_at s)%N
  | CNow, ATime t => (unix t <= bound)%N
  | _, _ => True
  end.

Lemma approval_ends w bound q :
  vv_issuer q <> ""%string -> vv_user_code q <> ""%string -> vv_subject q <> ""%string ->
  ends (approval_good w (vv_issuer q) (vv_user_code q) bound)
    (fun o => o = Done (mkDevValRes false None)) (dev_validate_svc (Some q)).
Proof.
  intros H1 H2 H3. apply is_empty_false in H1, H2, H3. unfold dev_validate_svc. rewrite H1, H2, H3.
  intros a [[Ha1 _] Ha2]; destruct a; cbn in Ha1; try destruct Ha1. cbn in Ha2.
  destruct (Ha2 eq_refl eq_refl) as (s & dq & dc & -> & S1 & S2 & S3 & S4). rewrite S1, S2. clear Ha2.
  intros a [[Ha1 _] Ha2]; destruct a; cbn in Ha1; try destruct Ha1. cbn in Ha2.
  pose proof (N.le_trans _ _ _ Ha2 S4) as Hb. apply N.ltb_ge in Hb. rewrite Hb, S3. clear Ha2.
  intros a [[Ha1 Ha2] _]; destruct a; cbn in Ha1; try destruct Ha1. cbn in Ha2. rewrite Ha2. clear Ha2.
  intros a [[Ha1 Ha2] _]; destruct a; cbn in Ha1; try destruct Ha1. cbn in Ha2. rewrite Ha2. reflexivity.
Qed.

Lemma C85_approval_succeeds_partial_proof : forall E w xs h0 h1 h2 d dq dres k q o,
  no_faults xs ->
  (* the store marks new device sessions as pending, valid for 120 s *)
  w_stamp w = stamping 120 ->
  history E w xs = (h0 ++ h1 ++ h2)%list -> (elapsed (h1 ++ h2) <= 120 * second)%N ->
  device_codes_apart E (history E w xs) ->
  (* a device asks for codes *)
  answered h1 d (RDevAuthorize (Some dq)) (PDevAuthorize dres) -> dv_err dres = false ->
  (* then a user sends the user code *)
  In (EvStart k (RDevValidate (Some q))) h2 -> In (EvDone k o) h2 ->
  vv_issuer q = dr_issuer dq -> vv_user_code q = dv_user_code dres -> vv_user_code q <> ""%string ->
  vv_subject q <> ""%string ->
  (* nobody else sends it, to whatever issuer *)
  (forall k' q' issuer, asked (history E w xs) k' (RDevValidate (Some q')) ->
     user_key E issuer (vv_user_code q') = user_key E (dr_issuer dq) (dv_user_code dres) -> k' = k) ->
  exists res, o = Done (PDevValidate res) /\ vr_err res = false.
Proof.
  intros E w xs h0 h1 h2 d dq dres k q o Hf Hst Hh Hsh Hap [Hd1 Hd2] Hde Hi1 Hi2 Hiss Huc Hne Hse Honly.
  assert (Hd1' : In (EvStart d (RDevAuthorize (Some dq))) (h1 ++ h2)%list) by (apply in_or_app; auto).
  assert (Hd2' : In (EvDone d (Done (PDevAuthorize dres))) (history E w xs)) by (rewrite Hh; rewrite !in_app_iff; auto).
  assert (Hi1' : In (EvStart k (RDevValidate (Some q))) (history E w xs)) by (rewrite Hh; rewrite !in_app_iff; auto).
  assert (Hi2' : In (EvDone k o) (history E w xs)) by (rewrite Hh; rewrite !in_app_iff; auto).
  assert (Hie : dr_issuer dq <> ""%string).
  { assert (Ha : answered (history E w xs) d (RDevAuthorize (Some dq)) (PDevAuthorize dres)).
    { split; auto. rewrite Hh. rewrite !in_app_iff; auto. }
    apply answered_runs in Ha. cbn in Ha. apply reach_pmap_ret in Ha as (res' & X & Ha). injection X as <-.
    destruct (dev_authorize_ok _ _ _ _ Ha Hde) as (? & ? & ? & ? & Y & _). exact Y. }
  destruct (d_calls E w xs h0 (h1 ++ h2)%list d dq dres Hh Hd1' Hde Hd2') as (c' & n & Hc).
  change ([(CClientGet (dr_client_id dq), AClient (SOk c')); (CGenDev (dr_issuer dq), AGen (Some (dv_device_code dres)));
    (CGenUser (dr_issuer dq), AGen (Some (dv_user_code dres)));
    (CDevReg (dr_issuer dq) (dv_user_code dres) (sd dq dres c'), ANum n)]) with
    ([(CClientGet (dr_client_id dq), AClient (SOk c')); (CGenDev (dr_issuer dq), AGen (Some (dv_device_code dres)));
    (CGenUser (dr_issuer dq), AGen (Some (dv_user_code dres)))] ++
    (CDevReg (dr_issuer dq) (dv_user_code dres) (sd dq dres c'), ANum n) :: [])%list in Hc.
  destruct (calls_of_split d _ _ _ _ _ Hc) as (A & B & HA & _ & HBn).
  assert (Hh3 : history E w xs = ((h0 ++ h1) ++ h2)%list) by (rewrite Hh; list_eq).
  assert (HAp : exists u', A = (h0 ++ u')%list).
  { eapply (later_prefix E w xs h0 (h1 ++ h2)); [exact Hh|exact Hd1'|exact HA]. }
  destruct HAp as (u' & ->).
  destruct (call_in_done E w xs (h0 ++ h1)%list h2 d _ _ _ _ _ Hh3 (in_or_app _ _ _ (or_intror Hd2)) HA) as (u & Hu1 & ->).
  set (reg := EvCall d (CDevReg (dr_issuer dq) (dv_user_code dres) (sd dq dres c')) (ANum n)) in *.
  assert (Hreg : In reg (history E w xs)) by (rewrite HA; apply in_or_app; right; left; reflexivity).
  set (bound := (unix (clock w h0) + 120)%N).
  assert (Hlate : forall l1 l2, history E w xs = (l1 ++ l2)%list -> (clock w l1 <= clock w h0 + 120 * second)%N).
  { intros l1 l2 Hl. etransitivity; [apply (clock_app w l1 l2)|]. rewrite <- Hl, Hh. unfold clock. rewrite elapsed_app. lia. }
  assert (Hread : forall rd, In (EvCall k (CDevGetUser (vv_issuer q) (vv_user_code q)) (ADev rd)) (history E w xs) ->
    exists t, rd = SOk (stamping 120 t (sd dq dres c')) /\ (clock w h0 <= t)%N).
  { intros rd Hrd. destruct (call_in_later _ _ _ _ _ _ _ _ _ Hh3 Hi1 Hrd) as (l1 & l2 & ->).
    set (get := EvCall k (CDevGetUser (vv_issuer q) (vv_user_code q)) (ADev rd)) in *.
    assert (HB : history E w xs = ((h0 ++ u') ++ reg :: (u ++ l1) ++ get :: l2)%list) by (rewrite HA; list_eq).
    assert (Hk0 : calls_of k ((h0 ++ u') ++ reg :: u ++ l1)%list = []).
    { destruct (trace_history E w xs) as (sy & Ht & _).
      destruct (started_reach _ _ _ _ _ _ Ht Hi1') as (pq & Hpq). cbn [serve] in Hpq.
      rewrite HB, app_comm_cons, app_assoc in Hpq.
      rewrite (calls_of_app k ((h0 ++ u') ++ reg :: u ++ l1)%list) in Hpq.
      unfold get in Hpq at 1. cbn [calls_of] in Hpq. rewrite Nat.eqb_refl in Hpq.
      exact (wp_call user_reads_first _ _ _ _ _ _ _ (pmap_wp _ _ _ _ (user_reads_first_wp (Some q))) Hpq). }
    pose proof (history_ftrace E w xs Hf) as Ht. rewrite HB in Ht.
    destruct (ftrace_at _ _ _ _ _ _ _ _ Ht) as (wm & oo & w1 & T1 & T2 & T3 & T4).
    pose proof (full_write _ _ _ _ T3 _ _ T2) as Hok. cbn in Hok.
    pose proof (devu_written E _ _ _ _ _ _ _ T2 eq_refl Hok) as Hw.
    destruct (ftrace_at _ _ _ _ _ _ _ _ T4) as (wm2 & o2 & w2 & T5 & T6 & T7 & T8).
    apply ftrace_wtrace in T1, T5.
    rewrite (stamp_at _ _ _ _ T1), Hst in Hw.
    set (key := user_key E (dr_issuer dq) (dv_user_code dres)) in *.
    change (ds_issuer (stamping 120 (w_now wm) (sd dq dres c'))) with (dr_issuer dq) in Hw. fold key in Hw.
    assert (Hsame : w_devu wm2 key = w_devu w1 key).
    { apply (map_frame E w_devu (wr_devu E) (fun _ _ => eq_refl) (devu_exec E) w1 (u ++ l1)%list wm2 key T5).
      intros b1 j c a b2 wk v Hb12 K1 K2.
      assert (Hin : In (EvCall j c a) (u ++ l1)%list) by (rewrite Hb12; apply in_or_app; right; left; reflexivity).
      assert (Hinh : In (EvCall j c a) (history E w xs)).
      { rewrite HB. apply in_or_app; right; right. apply in_or_app; left. exact Hin. }
      pose proof Hinh as Hs. apply in_split in Hs as (e1 & e2 & He12).
      assert (Hnk : j <> k).
      { intros ->. assert (X : In (c, a) (calls_of k ((h0 ++ u') ++ reg :: u ++ l1)%list)).
        { apply in_calls_of. apply in_or_app; right; right; exact Hin. }
        rewrite Hk0 in X. destruct X. }
      assert (Hask : forall q', In (EvStart j (RDevValidate (Some q'))) e1 -> asked (history E w xs) j (RDevValidate (Some q'))).
      { intros q' X. unfold asked. rewrite He12. apply in_or_app; left; exact X. }
      destruct c as [| | | | | | | | | | | | | | | | | | ir ur sr|iv uv sv|id ud| | | | |]; cbn in K2; try discriminate.
      - assert (Hstw : w_stamp wk = stamping 120).
        { rewrite <- Hst. apply (stamp_at E w ((h0 ++ u') ++ reg :: b1)%list). eapply wtrace_join; [exact T1|]. econstructor; [exact T2|exact K1]. }
        rewrite Hstw in K2. injection K2 as K3 _.
        assert (j = d) as ->.
        { apply (Hap j ir ur sr a d (dr_issuer dq) (dv_user_code dres) (sd dq dres c') (ANum n)); auto. }
        assert (X : In (CDevReg ir ur sr, a) (calls_of d (u ++ l1 ++ get :: l2)%list)).
        { apply in_calls_of. rewrite !in_app_iff. apply in_app_or in Hin. tauto. }
        rewrite HBn in X. destruct X.
      - injection K2 as K3 _. destruct (write_reason _ _ _ _ _ _ _ _ He12) as (rr & W1 & q' & s0 & t & -> & W2 & W3 & _).
        apply Hnk. apply (Honly j q' (ds_issuer sv)); auto. rewrite W3. exact K3.
      - injection K2 as K3 _. destruct (write_reason _ _ _ _ _ _ _ _ He12) as (rr & W1 & q' & s0 & t & -> & W2 & W3 & _).
        apply Hnk. apply (Honly j q' id); auto. rewrite W3. exact K3. }
    cbn in T6. rewrite T7 in T6. cbn [answer_read] in T6. injection T6 as Hr _.
    assert (Hcl : (clock w h0 <= w_now wm)%N).
    { rewrite (wtrace_now _ _ _ _ T1). fold (clock w (h0 ++ u')). apply clock_app. }
    assert (Hnow2 : (w_now wm2 <= clock w h0 + 120 * second)%N).
    { assert (X : w_now wm2 = clock w ((h0 ++ u') ++ reg :: u ++ l1)%list).
      { apply (wtrace_now E w). eapply wtrace_join; [exact T1|]. econstructor; [exact T2|exact T5]. }
      rewrite X. apply (Hlate _ (get :: l2)%list). rewrite HB. list_eq. }
    exists (w_now wm). split; [|exact Hcl].
    rewrite <- Hr, Hiss, Huc. unfold cache_get. fold key. rewrite Hsame, Hw.
    destruct (N.ltb_spec (w_now wm + device_ttl) (w_now wm2)); [unfold device_ttl in *; lia|reflexivity]. }
  pose (Pz := fun o : outcome response => match o with Done (PDevValidate res) => vr_err res = false | _ => False end).
  assert (Hfin : Pz o).
  { apply (ends_history E w xs k (RDevValidate (Some q)) o Pz (approval_good w (vv_issuer q) (vv_user_code q) bound) Hi1' Hi2').
    - intros c0 a Hin. split; [eapply history_reliable; eauto|].
      destruct c0; auto; destruct a; auto.
      + apply in_split in Hin as (l1 & l2 & Hl12).
        pose proof (history_ftrace E w xs Hf) as Ht. rewrite Hl12 in Ht.
        destruct (ftrace_at _ _ _ _ _ _ _ _ Ht) as (wm & oo & w1 & T1 & T2 & T3 & T4). apply ftrace_wtrace in T1.
        apply read_now in T2 as [-> _]. unfold bound.
        rewrite (wtrace_now _ _ _ _ T1). fold (clock w l1).
        etransitivity; [apply unix_mono; eapply Hlate; exact Hl12|]. unfold unix. rewrite N.div_add by discriminate. lia.
      + intros -> ->. destruct (Hread _ Hin) as (t & -> & Hle). do 3 eexists. split; [reflexivity|].
        split; [reflexivity|]. split; [reflexivity|]. split; [reflexivity|].
        cbn. unfold bound. pose proof (unix_mono _ _ Hle). lia.
    - cbn [serve]. unfold pmap. apply ends_bind. eapply ends_weaken; [|apply approval_ends; congruence].
      intros o' ->. reflexivity. }
  destruct o as [[ | | | | | |res| | ]|]; try (destruct Hfin; fail). exists res. split; [reflexivity|exact Hfin].
Qed.
