(** * What is bound to succeed over HTTP: authorization (proofs) *)

From Verif Require Export PfWebLive4.
From Verif Require PfTok PfTok2.
From Coq Require Import Lia.

Lemma carries_decode S c r ar : carries S c r ar <-> request_decode (sv_ext S) (sv_decoder S) c (query_get r "request") = Some ar.
Proof.
  unfold carries, request_decode, signed_by. split.
  - intros (H1 & (keys & H2 & H3) & H4). apply is_empty_false in H1. rewrite H1, H2. apply PfTok.verifier_claims_iff. auto.
  - destruct (is_empty _) eqn:He; [discriminate|]. apply is_empty_false in He. intros H.
    destruct (x_jwks (sv_ext S) (cl_jwks c)) as [keys|] eqn:Hk; [|unfold verifier_claims in H; destruct (x_parse _ _); discriminate].
    apply PfTok.verifier_claims_iff in H as [H1 H2]. eauto.
Qed.

Section Authorize.
Context (S : http_server) (w : world) (xs : list hsched) (ys : list sched) (own : list nat).
Context (R : refined S w xs ys own) (Hf : hno_faults xs).
Notation E := (sv_ext S).
Notation hh := (http_history S w xs).
Notation h := (history E w ys).
Context (i : nat) (r : http_request) (user : string) (c : client) (sub : string) (ar : authreq).
Context (Hget : hq_method r = "GET"%string) (Hu : user_logged_in r user) (Hc : w_clients w (query_get r "client_id") = Some c)
  (Hsub : subject_for E (sv_salt S) c user sub) (Hcar : carries S c r ar).
Context (Hs : In (HvStart i EAuthorize r) hh).
Notation q0 := (mkAuthzReq (sv_issuer S) sub (Some ar)).

Lemma subject_unique user' sub' c' : user_logged_in r user' -> c' = c -> subject_for E (sv_salt S) c' user' sub' -> sub' = sub.
Proof.
  intros [_ Hu'] -> H. destruct Hu as [_ Hu0]. subst user' user. unfold subject_for in *.
  destruct (String.eqb _ _); congruence.
Qed.

Lemma authorize_stages j x : nth_error own j = Some i -> In (EvStart j x) h -> x = RAuthorize (Some q0).
Proof.
  intros O Hx. destruct (made_by _ _ _ _ _ R _ _ _ _ _ Hs O Hx) as (d & P & St).
  destruct x; cbn [stage] in St; try (destruct St as (X & _); discriminate); try (destruct St as (X & Y & _); congruence).
  - destruct St as (_ & _ & c' & user' & sub' & ar' & L & A & B & C & ->).
    pose proof (P _ A) as A'. cbn in A'. apply (saw_client _ _ _ Hf) in A'. rewrite Hc in A'. injection A' as ->.
    rewrite (subject_unique _ _ _ L eq_refl B). apply carries_decode in Hcar. congruence.
Qed.

Definition delivers (res : authorize_response) (resp : http_response) : Prop :=
  match resp with
  | HRedirectCode u co iss st => u = zr_redirect_uri res /\ co = zr_code res /\ iss = zr_issuer res /\ st = zr_state res
  | HRedirectQuery u raw | HRedirectFragment u raw | HFormPost u raw =>
      u = zr_redirect_uri res /\ exists t, jarm_encode (sv_serializer S) (zr_issuer res) (Some (to_encode res)) t = Some raw
  | _ => False
  end.

Lemma authorize_live o : In (HvDone i o) hh ->
  (forall j o', nth_error own j = Some i -> In (EvStart j (RAuthorize (Some q0))) h -> In (EvDone j o') h ->
     exists res, o' = Done (PAuthorize res) /\ zr_err res = false /\ x_request_uri E (zr_redirect_uri res) = true /\
       forall t, jarm_encode (sv_serializer S) (zr_issuer res) (Some (to_encode res)) t <> None) ->
  exists j res resp, nth_error own j = Some i /\ authorize_ok_at h j q0 res /\ o = Done resp /\ delivers res resp.
Proof.
  intros Hd Hok. pose proof (rf_faults _ _ _ _ _ R Hf) as Hf'.
  pose proof (rf_explained _ _ _ _ _ R) as X. pose proof (one_start_all S w xs) as U.
  assert (Az : forall j x y d, past own hh h i d -> In (Served j x y) d ->
    x = RAuthorize (Some q0) /\ exists res, y = PAuthorize res /\ zr_err res = false /\ authorize_ok_at h j q0 res /\
      nth_error own j = Some i /\ x_request_uri E (zr_redirect_uri res) = true /\
      forall t, jarm_encode (sv_serializer S) (zr_issuer res) (Some (to_encode res)) t <> None).
  { intros j x y d P Hin. destruct (P _ Hin) as (O & P1 & P2). pose proof (authorize_stages _ _ O P1) as ->. split; auto.
    destruct (Hok _ _ O P1 P2) as (res & Q & Q1 & Q2 & Q3). injection Q as ->. exists res.
    split; auto. split; auto. split; [split; [split|]; auto|]. auto. }
  destruct o as [resp|].
  - destruct (ex_done _ _ _ _ X _ _ Hd) as (e0 & r0 & d & A & P & B).
    destruct (U _ _ _ _ _ Hs A) as [-> ->].
    destruct resp; cbn [ending] in B; try (destruct B as (B & _); discriminate).
    + exfalso. destruct B as [B|[B|[B|[B|[B|[B|[B|B]]]]]]].
      1-7: destruct B as (q & res & (j & Hj) & He & _); destruct (Az _ _ _ _ P Hj) as (Q & res' & Q' & He' & _); congruence.
      destruct B as [_ B]. inversion B; subst.
      * match goal with Q : In _ _ |- _ => destruct Q as [Q|[Q|[]]]; discriminate end.
      * contradiction.
      * congruence.
      * match goal with Q : In _ _ |- _ => destruct Q as [Q|[Q|[]]]; discriminate end.
      * match goal with Q : saw _ _ _ |- _ => pose proof (P _ Q) as A' end. cbn in A'. apply (saw_client _ _ _ Hf) in A'.
        rewrite Hc in A'. match goal with Q : forall c, _ <> SOk c |- _ => exact (Q _ A') end.
      * match goal with Q : saw _ _ _ |- _ => pose proof (P _ Q) as A' end. cbn in A'. apply (saw_client _ _ _ Hf) in A'.
        rewrite Hc in A'. injection A' as ->.
        match goal with Q : user_logged_in r ?u0, Q2 : forall sub, ~ _ |- _ => destruct Q as [_ Q]; destruct Hu as [_ Hu0]; subst; exact (Q2 _ Hsub) end.
      * match goal with Q : saw _ _ _ |- _ => pose proof (P _ Q) as A' end. cbn in A'. apply (saw_client _ _ _ Hf) in A'.
        rewrite Hc in A'. injection A' as ->. apply carries_decode in Hcar. congruence.
      * match goal with Q : served _ _ _ |- _ => destruct Q as (j & Q); destruct (Az _ _ _ _ P Q) as (_ & res' & [= <-] & _ & _ & _ & Z1 & Z2) end.
        match goal with Q : _ \/ _ |- _ => destruct Q as [Q|(t & _ & Q)]; [congruence|exact (Z2 _ Q)] end.
    + exfalso. destruct B as [[B _]|[_ B]]; [discriminate|]. exact (B _ Hu).
    + destruct B as [(B & _)|(B & _)]; discriminate.
    + destruct B as (_ & q & res & (j & Hj) & B). destruct (Az _ _ _ _ P Hj) as (_ & res' & [= <-] & _ & Z & O & _).
      exists j, res. eexists. split; auto. split; auto. split; [reflexivity|]. cbn. destruct B as (_ & -> & -> & -> & ->). auto.
    + destruct B as (_ & q & res & t & (j & Hj) & B). destruct (Az _ _ _ _ P Hj) as (_ & res' & [= <-] & _ & Z & O & _).
      exists j, res. eexists. split; auto. split; auto. split; [reflexivity|]. cbn. destruct B as (_ & -> & _ & B). eauto.
    + destruct B as (_ & q & res & t & (j & Hj) & B). destruct (Az _ _ _ _ P Hj) as (_ & res' & [= <-] & _ & Z & O & _).
      exists j, res. eexists. split; auto. split; auto. split; [reflexivity|]. cbn. destruct B as (_ & -> & _ & B). eauto.
    + destruct B as (_ & q & res & t & (j & Hj) & B). destruct (Az _ _ _ _ P Hj) as (_ & res' & [= <-] & _ & Z & O & _).
      exists j, res. eexists. split; auto. split; auto. split; [reflexivity|]. cbn. destruct B as (_ & -> & _ & B). eauto.
  - exfalso. destruct (ex_crash _ _ _ _ X _ Hd) as [(j & O & Hj)|(e & r0 & d & A & P & B)].
    + destruct (trace_history E w ys) as (sy & Ht & _). destruct (done_started _ _ _ _ _ _ Ht Hj) as (x & Hx).
      pose proof (authorize_stages _ _ O Hx) as ->. destruct (Hok _ _ O Hx Hj) as (res & Q & _). discriminate.
    + destruct (U _ _ _ _ _ Hs A) as [-> ->]. cbn [ending] in B.
      destruct B as [(id & B)|[B|[B|[B|[B|[B|[B|B]]]]]]].
      1: { pose proof (P _ B) as B'. cbn in B'. apply (saw_client _ _ _ Hf) in B'. destruct (w_clients w id); discriminate. }
      all: destruct B as (q & res & (j & Hj) & B); destruct (Az _ _ _ _ P Hj) as (Q & res' & Q' & He' & _); try discriminate.
      injection Q' as <-. destruct B; congruence.
Qed.
End Authorize.

(** The code in a successful answer: it was generated, and a session lives under it for a minute. *)
Lemma code_made E w ys j q res : no_faults ys -> authorize_ok_at (history E w ys) j q res ->
  exists eff ar, effective (history E w ys) j q eff /\ normalized E eff ar /\
    In (EvCall j (CGenCode (zq_issuer q)) (AGen (Some (zr_code res)))) (history E w ys) /\
    In (EvCall j (CSessReg (zq_issuer q) (zr_code res) (mkSess (zq_issuer q) (zq_subject q) (Some ar))) (ANum (SOk 60%N))) (history E w ys) /\
    res = mkAuthzRes false None (zr_code res) (ar_state eff) (ar_redirect_uri eff) (ar_client_id eff) 60%N (zq_issuer q) "" /\
    x_request_uri E (ar_redirect_uri eff) = true /\ ar_client_id eff <> ""%string /\ ar_state eff <> ""%string /\
    zq_issuer q <> ""%string.
Proof.
  intros Hf H. destruct (authorize_facts _ _ _ _ _ _ H) as (eff & ar & c & code & n & F1 & F2 & F3 & F4 & F5 & F6 & F7 & F8 & F9 & Hres & _).
  assert (Hn : n = SOk 60%N).
  { apply in_split in F7 as (l1 & l2 & Hl). pose proof (history_ftrace E w ys Hf) as Ht. rewrite Hl in Ht.
    destruct (ftrace_at _ _ _ _ _ _ _ _ Ht) as (wm & oo & w1 & T1 & T2 & T3 & T4).
    cbn in T2. rewrite T3 in T2. cbn in T2. injection T2 as <- _. reflexivity. }
  subst n. exists eff, ar. split; auto. split; [eapply facts_normalized; eauto|].
  assert (Hg : In (EvCall j (CGenCode (zq_issuer q)) (AGen (Some code))) (history E w ys)).
  { destruct H as [Ha He]. pose proof (answered_runs _ _ _ _ _ _ Ha) as Hr. cbn in Hr.
    apply reach_pmap_ret in Hr as (res' & X & Hr). injection X as <-.
    destruct (authorize_ok _ _ _ _ Hr He) as (Z1 & Z2 & r0 & Z3 & Z4).
    assert (Z : forall tr' x, reach (authorize_with E (zq_issuer q) (zq_subject q) (Some x)) tr' (Ret res) ->
      In (CGenCode (zq_issuer q), AGen (Some code)) tr').
    { intros tr' x Hx. destruct (authorize_with_ok _ _ _ _ _ _ Hx He) as (r1 & ar' & c' & code' & n' & _ & _ & _ & _ & -> & Y).
      rewrite Hres in Y. injection Y as -> _. cbn; auto. }
    apply in_calls_of. destruct Z4 as [[_ Z4]|(uri & pushed & d & tr' & _ & _ & _ & -> & Z4)]; [eauto|].
    right; right; eauto. }
  subst res. cbn [zr_code]. destruct F2 as [G1 _ _ _ G2 _ (_ & G3 & _) _ _].
  split; [exact Hg|]. split; [exact F7|]. split; [reflexivity|]. split; [exact G2|]. split; [exact G3|]. split; [|exact F5].
  intros Q. rewrite Q in G1. cbn in G1. lia.
Qed.

Section Delivered.
Context (S : http_server) (w : world) (xs : list hsched) (ys : list sched) (own : list nat).
Context (R : refined S w xs ys own) (Hf : hno_faults xs).
Notation E := (sv_ext S).
Notation hh := (http_history S w xs).
Notation h := (history E w ys).

Lemma code_deliverable i j q res : responses_signed S -> web_codes_work hh i -> nth_error own j = Some i ->
  authorize_ok_at h j q res ->
  x_request_uri E (zr_redirect_uri res) = true /\
  forall t, jarm_encode (sv_serializer S) (zr_issuer res) (Some (to_encode res)) t <> None.
Proof.
  intros Hser Hw O H. pose proof (rf_faults _ _ _ _ _ R Hf) as Hf'.
  destruct (code_made _ _ _ _ _ _ Hf' H) as (eff & ar & _ & _ & C1 & _ & C2 & C3 & C4 & C5 & C6).
  destruct (http_call _ _ _ _ _ R j (CGenCode (zq_issuer q)) _ eq_refl C1) as (i' & O' & Hg). rewrite O in O'. injection O' as <-.
  destruct (Hw _ _ (or_introl Hg)) as (v & Q & Hv). injection Q as Q. rewrite <- Q in Hv. clear Q v.
  rewrite C2. cbn [zr_redirect_uri zr_issuer]. split; [exact C3|]. intros t.
  unfold jarm_encode, to_encode.
  cbn [zr_error zr_code zr_state zr_client_id zr_expires_in zr_issuer jr_error jr_client_id jr_code jr_state jr_expires_in jr_issuer].
  apply is_empty_false in C4, C5, C6, Hv. rewrite C4, C5, C6, Hv. cbn [orb]. change (60 <=? 0)%N with false. cbn iota.
  destruct (Hser (mkJarm (zq_issuer q) (ar_client_id eff) (expiry t 60) (zr_code res) (ar_state eff) "" "")) as (raw & ->). discriminate.
Qed.

Lemma code_sent i j sub ar res resp : nth_error own j = Some i ->
  authorize_ok_at h j (mkAuthzReq (sv_issuer S) sub (Some ar)) res -> delivers S res resp ->
  exists eff ar' code a, effective h j (mkAuthzReq (sv_issuer S) sub (Some ar)) eff /\ normalized E eff ar' /\
    sends_back S resp (ar_redirect_uri eff) code (ar_state eff) (ar_client_id eff) /\
    In (HvCall i (CSessReg (sv_issuer S) code (mkSess (sv_issuer S) sub (Some ar'))) a) hh.
Proof.
  intros O H D. pose proof (rf_faults _ _ _ _ _ R Hf) as Hf'.
  destruct (code_made _ _ _ _ _ _ Hf' H) as (eff & ar' & C0 & C1 & _ & C2 & C3 & _).
  cbn [zq_issuer zq_subject] in *.
  destruct (http_call _ _ _ _ _ R j (CSessReg (sv_issuer S) (zr_code res) (mkSess (sv_issuer S) sub (Some ar'))) _ eq_refl C2) as (i' & O' & Hg).
  rewrite O in O'. injection O' as <-.
  exists eff, ar', (zr_code res). eexists. split; [exact C0|]. split; [exact C1|]. split; [|exact Hg].
  assert (J : forall t raw, jarm_encode (sv_serializer S) (zr_issuer res) (Some (to_encode res)) t = Some raw ->
     exists expires, sv_serializer S (mkJarm (sv_issuer S) (ar_client_id eff) expires (zr_code res) (ar_state eff) "" "") = Some raw).
  { intros t raw. rewrite C3. unfold jarm_encode, to_encode.
    cbn [zr_error zr_code zr_state zr_client_id zr_expires_in zr_issuer jr_error jr_client_id jr_code jr_state jr_expires_in jr_issuer].
    destruct (is_empty (sv_issuer S)); [discriminate|]. destruct (_ || _); [discriminate|]. intros Q. eexists; exact Q. }
  assert (F : zr_redirect_uri res = ar_redirect_uri eff /\ zr_issuer res = sv_issuer S /\ zr_state res = ar_state eff).
  { rewrite C3. auto. }
  destruct F as (F1 & F2 & F3).
  destruct resp; cbn [delivers] in D; try contradiction; cbn [sends_back].
  - destruct D as (-> & -> & -> & ->). auto.
  - destruct D as (-> & t & D). split; eauto.
  - destruct D as (-> & t & D). split; eauto.
  - destruct D as (-> & t & D). split; eauto.
Qed.

Lemma same_codes i j : web_codes_work hh i -> nth_error own j = Some i -> codes_work h j.
Proof.
  intros Hg O t a Hin.
  assert (Q : forall c, calm c = false -> In (EvCall j c a) h -> In (HvCall i c a) hh).
  { intros c Hc H. destruct (http_call _ _ _ _ _ R _ _ _ Hc H) as (i' & O' & H'). congruence. }
  destruct (Hg t a) as (v & -> & _); eauto. destruct Hin as [Hin|Hin]; [left|right]; apply Q; auto.
Qed.
End Delivered.

(** ** C101 *)
Lemma C101_web_authorized_proof : forall S w xs i r user c sub ar o,
  let hh := http_history S w xs in
  hno_faults xs -> In (HvStart i EAuthorize r) hh -> In (HvDone i o) hh ->
  (* a user logs in and follows a link of a client *)
  hq_method r = "GET"%string -> user_logged_in r user -> w_clients w (query_get r "client_id") = Some c ->
  subject_for (sv_ext S) (sv_salt S) c user sub -> sub <> ""%string ->
  (* which carries a proper authorization request *)
  carries S c r ar -> ar_request_uri ar = None -> ar_client_id ar = query_get r "client_id" ->
  SpecLive.well_formed (sv_ext S) ar -> SpecLive.permitted (sv_ext S) c ar ->
  sv_issuer S <> ""%string -> web_codes_work hh i -> responses_signed S ->
  (* the user is sent back with a code, and the code stands for this request *)
  exists resp code ar' a, o = Done resp /\ sends_back S resp (ar_redirect_uri ar) code (ar_state ar) (ar_client_id ar) /\
    In (HvCall i (CSessReg (sv_issuer S) code (mkSess (sv_issuer S) sub (Some ar'))) a) hh /\ normalized (sv_ext S) ar ar'.
Proof.
  intros S w xs i r user c sub ar o hh Hf Hs Hd Hget Hu Hc Hsub Hse Hcar Hnu Hid Hwf Hp Hiss Hgen Hser. subst hh.
  destruct (http_refines S w xs) as (ys & own & R). pose proof (rf_faults _ _ _ _ _ R Hf) as Hf'.
  destruct (authorize_live S w xs ys own R Hf i r user c sub ar Hget Hu Hc Hsub Hcar Hs o Hd)
    as (j & res & resp & O & Z & -> & D).
  { intros j o' O H1 H2.
    destruct (C86_valid_request_is_authorized_proof (sv_ext S) w ys j (mkAuthzReq (sv_issuer S) sub (Some ar)) ar c o' Hf' H1 H2) as (res & -> & E1 & _); auto.
    - rewrite Hid. exact Hc.
    - eapply same_codes; eauto.
    - exists res. split; auto. split; auto. eapply code_deliverable; eauto. split; [split; eauto|auto]. }
  destruct (code_sent S w xs ys own R Hf i j sub ar res resp O Z D) as (eff & ar' & code & a & F & N & B & C).
  assert (eff = ar) as ->.
  { destruct F as (r0 & [= <-] & [[_ F]|(uri & F & _)]); congruence. }
  exists resp, code, ar', a. auto.
Qed.
