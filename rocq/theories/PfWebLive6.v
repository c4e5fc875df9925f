(** * What is bound to succeed over HTTP: proofs of possession, pushed requests (proofs) *)

From Verif Require Export PfWebLive5.
From Coq Require Import Lia.

Section Proofs.
Context (S : http_server) (w : world) (xs : list hsched) (ys : list sched) (own : list nat).
Context (R : refined S w xs ys own) (Hf : hno_faults xs).
Notation E := (sv_ext S).
Notation hh := (http_history S w xs).
Notation h := (history E w ys).

(** What serves a request of the pushed authorization endpoint. *)
Lemma par_stages i r c th ar j x : comes_from S w hh i r c -> has_proof S w hh i r th -> carries S c r ar ->
  In (HvStart i EPar r) hh -> nth_error own j = Some i -> In (EvStart j x) h ->
  login r x \/ x = proof_check r \/ x = RRegister (Some (mkRegReq (sv_issuer S) (Some c) (Some ar))).
Proof.
  intros Hc Hp Hcar Hs O Hx. destruct (made_by _ _ _ _ _ R _ _ _ _ _ Hs O Hx) as (d & P & St).
  destruct x; cbn [stage] in St; try (destruct St as (X & _); discriminate).
  - destruct St as (_ & _ & c' & ar' & jkt & L & _ & D & ->). right; right.
    destruct (passes _ _ _ _ _ R Hf _ _ _ _ Hc P) as [_ L']. apply L' in L. injection L as ->.
    apply carries_decode in Hcar. congruence.
  - destruct St as (_ & _ & -> & _). left; left; reflexivity.
  - destruct St as (_ & _ & -> & _). left; right; reflexivity.
  - destruct St as (_ & _ & -> & _). auto.
Qed.

Lemma par_live i r c th ar o : comes_from S w hh i r c -> has_proof S w hh i r th -> carries S c r ar ->
  hq_method r = "POST"%string -> In (HvStart i EPar r) hh -> In (HvDone i o) hh ->
  (forall j o', nth_error own j = Some i ->
     In (EvStart j (RRegister (Some (mkRegReq (sv_issuer S) (Some c) (Some ar))))) h -> In (EvDone j o') h ->
     exists res, o' = Done (PRegister res) /\ gr_err res = false) ->
  exists j res, nth_error own j = Some i /\
    answered h j (RRegister (Some (mkRegReq (sv_issuer S) (Some c) (Some ar)))) (PRegister res) /\ gr_err res = false /\
    o = Done (HPushed (gr_issuer res) (gr_request_uri res) (gr_expires_in res)).
Proof.
  intros Hc Hp Hcar Hpost Hs Hd Hok. pose proof (rf_faults _ _ _ _ _ R Hf) as Hf'.
  pose proof (rf_explained _ _ _ _ _ R) as X. pose proof (one_start_all S w xs) as U.
  assert (Reg : forall j q y d, past own hh h i d -> In (Served j (RRegister q) y) d ->
    exists res, y = PRegister res /\ gr_err res = false /\ nth_error own j = Some i /\
      answered h j (RRegister (Some (mkRegReq (sv_issuer S) (Some c) (Some ar)))) (PRegister res)).
  { intros j q y d P Hin. destruct (P _ Hin) as (O & P1 & P2).
    destruct (par_stages _ _ _ _ _ _ _ Hc Hp Hcar Hs O P1) as [[Q|Q]|[Q|Q]]; [discriminate|discriminate|discriminate|]. injection Q as ->.
    destruct (Hok _ _ O P1 P2) as (res & Q & Q1). injection Q as ->. exists res.
    split; auto. split; auto. split; auto. split; auto. }
  assert (Dp : forall y d, past own hh h i d -> served d (proof_check r) y -> y = PDpop (Some (b64url th))).
  { intros y d P (j & Hin). destruct (P _ Hin) as (O & P1 & P2).
    pose proof (proof_served _ _ _ _ _ R Hf _ _ _ _ _ _ Hp Hs O P1 P2). congruence. }
  assert (Oth : forall j x y d, past own hh h i d -> In (Served j x y) d ->
    match x with RRegister _ | RAssertion _ | RAttestation _ | RDpop _ _ _ _ _ => True | _ => False end).
  { intros j x y d P Hin. destruct (P _ Hin) as (O & P1 & P2).
    destruct (par_stages _ _ _ _ _ _ _ Hc Hp Hcar Hs O P1) as [[->| ->]|[->| ->]]; exact I. }
  destruct o as [resp|].
  - destruct (ex_done _ _ _ _ X _ _ Hd) as (e0 & r0 & d & A & P & B).
    destruct (U _ _ _ _ _ Hs A) as [-> ->]. destruct (passes _ _ _ _ _ R Hf _ _ _ _ Hc P) as [Hl Hl'].
    destruct resp; cbn [ending] in B; try (destruct B as (B & _); discriminate).
    + exfalso. destruct B as [B|[B|[B|[B|[B|[B|[B|B]]]]]]].
      4: { destruct B as (q & res & (j & Hj) & He & _). destruct (Reg _ _ _ _ P Hj) as (res' & [= <-] & He' & _). congruence. }
      1-6: destruct B as (q & res & (j & Hj) & _); exact (Oth _ _ _ _ P Hj).
      destruct B as [_ B]. inversion B; subst.
      * match goal with Q : In _ _ |- _ => destruct Q as [Q|[Q|[]]]; discriminate end.
      * contradiction.
      * match goal with Q : served _ _ _ |- _ => apply (Dp _ _ P) in Q; discriminate Q end.
      * match goal with Q : logged_in _ _ (Some ?c0) |- _ => apply Hl' in Q; injection Q as -> end.
        apply carries_decode in Hcar. congruence.
    + exfalso. destruct B as [(_ & [B|B])|([B|B] & _)]; try discriminate; [congruence|]. apply Hl' in B. discriminate.
    + destruct B as [(B & _)|(B & _)]; discriminate.
    + destruct B as (_ & q & res & (j & Hj) & He & -> & -> & ->).
      destruct (Reg _ _ _ _ P Hj) as (res' & [= <-] & _ & O & T). exists j, res. auto.
  - exfalso. destruct (ex_crash _ _ _ _ X _ Hd) as [(j & O & Hj)|(e & r0 & d & A & P & B)].
    + destruct (trace_history E w ys) as (sy & Ht & _). destruct (done_started _ _ _ _ _ _ Ht Hj) as (x & Hx).
      destruct (par_stages _ _ _ _ _ _ _ Hc Hp Hcar Hs O Hx) as [Hx'|[->| ->]].
      * pose proof (login_served _ _ _ _ _ R Hf _ _ _ _ _ _ _ Hc Hs O Hx' Hx Hj). discriminate.
      * pose proof (proof_served _ _ _ _ _ R Hf _ _ _ _ _ _ Hp Hs O Hx Hj). discriminate.
      * destruct (Hok _ _ O Hx Hj) as (res & Q & _). discriminate.
    + destruct (U _ _ _ _ _ Hs A) as [-> ->]. cbn [ending] in B.
      destruct B as [(id & B)|[B|[B|[B|[B|[B|[B|B]]]]]]].
      1: { pose proof (P _ B) as B'. cbn in B'. apply (saw_client _ _ _ Hf) in B'. destruct (w_clients w id); discriminate. }
      4: { destruct B as (q & res & (j & Hj) & B); destruct (Reg _ _ _ _ P Hj) as (res' & [= <-] & He' & _).
           destruct B; congruence. }
      all: destruct B as (q & res & (j & Hj) & _); exact (Oth _ _ _ _ P Hj).
Qed.
End Proofs.

(** ** C102 *)
Lemma C102_web_pushed_proof : forall S w xs i r c th ar o,
  let hh := http_history S w xs in
  hno_faults xs -> In (HvStart i EPar r) hh -> In (HvDone i o) hh ->
  (* a client pushes a proper request, with a proof of possession *)
  hq_method r = "POST"%string -> comes_from S w hh i r c -> has_proof S w hh i r th ->
  carries S c r ar -> ar_request_uri ar = None -> ar_client_id ar = cl_id c -> w_clients w (cl_id c) = Some c ->
  SpecLive.well_formed (sv_ext S) ar -> SpecLive.permitted (sv_ext S) c ar ->
  sv_issuer S <> ""%string -> web_codes_work hh i ->
  exists uri, uri <> ""%string /\ o = Done (HPushed (sv_issuer S) uri 60).
Proof.
  intros S w xs i r c th ar o hh Hf Hs Hd Hpost Hc Hp Hcar Hnu Hid Hreg Hwf Hpm Hiss Hgen. subst hh.
  destruct (http_refines S w xs) as (ys & own & R). pose proof (rf_faults _ _ _ _ _ R Hf) as Hf'.
  assert (Go : forall j o', nth_error own j = Some i ->
     In (EvStart j (RRegister (Some (mkRegReq (sv_issuer S) (Some c) (Some ar))))) (history (sv_ext S) w ys) ->
     In (EvDone j o') (history (sv_ext S) w ys) ->
     exists res, o' = Done (PRegister res) /\ gr_err res = false /\ gr_expires_in res = 60%N).
  { intros j o' O H1 H2.
    eapply (C86_valid_request_is_registered_proof (sv_ext S) w ys j _ ar c c o' Hf' H1 H2); auto.
    - rewrite Hid. exact Hreg.
    - eapply same_codes; eauto. }
  destruct (par_live S w xs ys own R Hf i r c th ar o Hc Hp Hcar Hpost Hs Hd) as (j & res & O & T & He & ->).
  { intros j o' O H1 H2. destruct (Go j o' O H1 H2) as (res & -> & He & _). eauto. }
  destruct (Go _ _ O (proj1 T) (proj2 T)) as (res' & [= <-] & _ & Hx). rewrite Hx.
  pose proof (answered_runs _ _ _ _ _ _ T) as Hr. cbn [serve] in Hr.
  apply reach_pmap_ret in Hr as (res' & Q & Hr). injection Q as <-.
  destruct (register_ok _ _ _ _ Hr He) as (c0 & r1 & st & cc & uri & n & G1 & G2 & G3 & G4 & G5 & G6 & G7 & G8 & G9 & G10).
  rewrite G10. cbn [gr_issuer gr_request_uri gq_issuer] in *. exists uri. split; [|reflexivity].
  assert (Hg : In (EvCall j (CGenURI (sv_issuer S)) (AGen (Some uri))) (history (sv_ext S) w ys)).
  { apply in_calls_of. rewrite G9. cbn; auto. }
  destruct (http_call _ _ _ _ _ R j (CGenURI (sv_issuer S)) (AGen (Some uri)) eq_refl Hg) as (i' & O' & Hg'). rewrite O in O'. injection O' as <-.
  destruct (Hgen _ _ (or_intror Hg')) as (v & [= <-] & Hv). exact Hv.
Qed.

(** ** C103 *)
Lemma normalized_trans E a b c : normalized E a b -> normalized E b c -> normalized E a c.
Proof.
  intros (A1 & A2 & A3 & A4 & A5) (B1 & B2 & B3 & B4 & B5).
  assert (Hno : ~ fold_eq (x_fold E) "offline_access" "openid").
  { unfold fold_eq. intros Q. apply (f_equal (@List.length N)) in Q. rewrite !map_length in Q. discriminate. }
  split; [|split; [|split; [|split]]].
  - unfold same_parameters in *. intuition congruence.
  - rewrite B2, A2, (proj1 A1). destruct (ar_response_mode a) as [m|]; [|reflexivity]. f_equal.
    destruct (String.eqb m "jwt") eqn:Hm; [|rewrite Hm; reflexivity]. destruct (String.eqb (ar_response_type a) "code"); reflexivity.
  - intros s Hs. rewrite (B3 s Hs). auto.
  - auto.
  - intros H s. rewrite (B5 ltac:(destruct H as [H|H]; [left|right; rewrite (A3 _ Hno); exact H];
      destruct A1 as (_ & _ & _ & _ & _ & -> & _); exact H)). auto.
Qed.
Lemma C103_web_pushed_request_followed_proof : forall S w xs hh0 hh1 hh2 k q iss uri expires ar i r user c sub ar0 o,
  let hh := http_history S w xs in
  let E := sv_ext S in
  hno_faults xs -> hh = (hh0 ++ hh1 ++ hh2)%list -> (time_in (hh1 ++ hh2) <= 60 * second)%N ->
  (* a client pushes the request [ar] *)
  In (HvStart k EPar q) hh1 -> In (HvDone k (Done (HPushed iss uri expires))) hh1 ->
  sv_decoder S (query_get q "request") = Some ar ->
  (* within a minute a user logs in and follows a link with the request URI *)
  In (HvStart i EAuthorize r) hh2 -> In (HvDone i o) hh2 ->
  hq_method r = "GET"%string -> user_logged_in r user -> w_clients w (query_get r "client_id") = Some c ->
  subject_for E (sv_salt S) c user sub -> sub <> ""%string ->
  carries S c r ar0 -> ar_request_uri ar0 = Some uri -> x_uri_valid E uri = true ->
  web_codes_work hh i -> responses_signed S ->
  (* nobody else has that request URI *)
  (forall k' iss' uri' s a, In (HvCall k' (CReqReg iss' uri' s) a) (hh1 ++ hh2) ->
     req_key E iss' uri' = req_key E (sv_issuer S) uri -> k' = k) ->
  (forall j r' uri', In (HvStart j EAuthorize r') hh -> sends_request_uri S r' uri' ->
     req_key E (sv_issuer S) uri' = req_key E (sv_issuer S) uri -> j = i) ->
  (* the user is sent back with a code *)
  (* and the code stands for the request that was pushed *)
  exists resp code ar' a, o = Done resp /\ sends_back S resp (ar_redirect_uri ar) code (ar_state ar) (ar_client_id ar) /\
    In (HvCall i (CSessReg (sv_issuer S) code (mkSess (sv_issuer S) sub (Some ar'))) a) hh /\ normalized E ar ar'.
Proof.
  intros S w xs hh0 hh1 hh2 k q iss uri expires ar i r user c sub ar0 o hh E Hf Hh Htime Hk1 Hk2 Hdec Hi1 Hi2 Hget Hu Hc Hsub Hse
    Hcar Huri Hval Hgen Hser Honce Honly. subst hh E.
  destruct (http_refines S w xs) as (ys & own & R). pose proof (rf_faults _ _ _ _ _ R Hf) as Hf'.
  pose proof (rf_explained _ _ _ _ _ R) as X.
  destruct (rf_points _ _ _ _ _ R hh0 hh1 hh2 Hh) as (h0 & h1 & h2 & Hy & X0 & X1).
  assert (Hy01 : history (sv_ext S) w ys = ((h0 ++ h1) ++ h2)%list) by (rewrite Hy; list_eq).
  assert (Hh01 : http_history S w xs = ((hh0 ++ hh1) ++ hh2)%list) by (rewrite Hh; list_eq).
  pose proof (same_rest _ _ _ _ _ (ex_effects _ _ _ _ X0) (ex_effects _ _ _ _ X1)) as E1.
  pose proof (ex_effects _ _ _ _ X) as EX. rewrite Hh, Hy in EX.
  pose proof (same_rest _ _ _ _ _ (ex_effects _ _ _ _ X0) EX) as E12.
  assert (Hs : In (HvStart i EAuthorize r) (http_history S w xs)) by (rewrite Hh01; apply in_or_app; auto).
  assert (Hks : In (HvStart k EPar q) (hh0 ++ hh1)%list) by (apply in_or_app; auto).
  assert (Hkd : In (HvDone k (Done (HPushed iss uri expires))) (hh0 ++ hh1)%list) by (apply in_or_app; auto).
  pose proof (one_start_history _ _ _ _ _ Hh01) as U1.
  (* the service request that registered it *)
  destruct (ex_done _ _ _ _ X1 _ _ Hkd) as (e0 & r0 & d & A & P & B). destruct (U1 _ _ _ _ _ Hks A) as [-> ->]. cbn [ending] in B.
  destruct B as (_ & gq & gres & (g & Hg) & Hge & _ & -> & _). destruct (P _ Hg) as (Og & G1 & G2).
  destruct (ex_start _ _ _ _ X1 _ _ G1) as (k' & e' & q' & d' & O' & A' & P' & St). rewrite Og in O'. injection O' as <-.
  destruct (U1 _ _ _ _ _ Hks A') as [-> ->]. cbn [stage] in St.
  destruct St as (_ & _ & cg & arg & jkt & _ & _ & Dg & ->).
  assert (arg = ar) as ->.
  { apply carries_decode in Dg as (_ & _ & Dg). congruence. }
  set (gm := mkRegReq (sv_issuer S) (Some cg) (Some ar)) in *.
  assert (G1' : In (EvStart g (RRegister (Some gm))) h1).
  { eapply (made_later S w xs own hh0 (hh1 ++ hh2) h0 h1 k EPar q g _ Hh X0); [apply in_or_app; auto|exact Og|exact G1]. }
  assert (G2' : In (EvDone g (Done (PRegister gres))) h1).
  { apply in_app_or in G2 as [G2|G2]; auto. exfalso.
    destruct (trace_history (sv_ext S) w ys) as (sy & Ht & _). rewrite Hy in Ht. apply trace_app in Ht as (s1 & Ht & _).
    destruct (done_started _ _ _ _ _ _ Ht G2) as (x & Hx).
    destruct (ex_start _ _ _ _ X0 _ _ Hx) as (i' & e'' & r' & d'' & O' & A'' & _). rewrite Og in O'. injection O' as <-.
    eapply (not_again _ _ _ _ _ _ _ _ _ _ Hh A''). apply in_or_app; left; exact Hk1. }
  assert (Mine : forall k' iss' uri' s a', In (EvCall k' (CReqReg iss' uri' s) a') (history (sv_ext S) w ys) ->
     nth_error own k' = Some k -> k' = g).
  { intros k' iss' uri' s a' Hin O'. apply in_split in Hin as (l1 & l2 & Hl).
    destruct (write_reason _ _ _ _ _ _ _ _ Hl) as (rq & W1 & req & c0 & r1 & c1 & -> & _).
    assert (G1'' : In (EvStart g (RRegister (Some gm))) (history (sv_ext S) w ys)) by (rewrite Hy01; apply in_or_app; left; exact G1).
    eapply (ex_once _ _ _ _ X k' _ g _ k); [rewrite Hl; apply in_or_app; left; exact W1|exact G1''|exact O'|exact Og|reflexivity]. }
  set (qm := mkAuthzReq (sv_issuer S) sub (Some ar0)).
  assert (Go : forall j o', nth_error own j = Some i -> In (EvStart j (RAuthorize (Some qm))) (history (sv_ext S) w ys) ->
     In (EvDone j o') (history (sv_ext S) w ys) ->
     (exists res, o' = Done (PAuthorize res) /\ zr_err res = false /\ zr_state res = ar_state ar /\
       zr_redirect_uri res = ar_redirect_uri ar /\ zr_client_id res = ar_client_id ar /\ zr_issuer res = gq_issuer gm) /\
     (forall eff, effective (history (sv_ext S) w ys) j qm eff -> normalized (sv_ext S) ar eff)).
  { intros j o' Oj H1 H2.
    eapply (C87_pushed_request_is_authorized_proof (sv_ext S) w ys h0 h1 h2 g gm ar gres j qm ar0 o' Hf' Hy).
    - rewrite <- (same_time own (hh1 ++ hh2) (h1 ++ h2)); auto.
    - split; [exact G1'|exact G2'].
    - exact Hge.
    - reflexivity.
    - rewrite Hy01 in H1. eapply (made_later S w xs own (hh0 ++ hh1) hh2 (h0 ++ h1) h2 i); eauto.
    - eapply (done_later S w xs ys own R (hh0 ++ hh1) hh2 (h0 ++ h1) h2 i); eauto.
    - reflexivity.
    - exact Hse.
    - reflexivity.
    - exact Huri.
    - exact Hval.
    - eapply same_codes; eauto.
    - intros g' iss' uri' s a Hin Hkey.
      assert (Hin2 : In (EvCall g' (CReqReg iss' uri' s) a) (history (sv_ext S) w ys)) by (rewrite Hy; apply in_or_app; auto).
      destruct (aligned_call _ _ _ _ _ _ E12 Hin eq_refl) as (k2 & Ok & Hk'). apply Honce in Hk'; [|exact Hkey]. subst k2. eauto.
    - intros j' q' r' uri' Ha Hq Hr Hkey.
      destruct (made_for _ _ _ _ _ R _ _ Ha) as (i' & e' & r2 & d2 & O2 & A2 & _ & St).
      pose proof St as St'. cbn [stage] in St'. destruct St' as (-> & _ & c' & user' & sub' & ar' & _ & _ & _ & Dr & [= ->]).
      cbn in Hq. injection Hq as ->.
      assert (i' = i) as ->.
      { eapply (Honly i' r2 uri'); [exact A2| |exact Hkey]. apply carries_decode in Dr as (_ & _ & Dr). exists r'. auto. }
      eapply (ex_once _ _ _ _ X j' _ j); eauto. }
  destruct (authorize_live S w xs ys own R Hf i r user c sub ar0 Hget Hu Hc Hsub Hcar Hs o) as (j & res & resp & O & Z & -> & D).
  { rewrite Hh01. apply in_or_app; auto. }
  { intros j o' O H1 H2. destruct (Go j o' O H1 H2) as ((res & -> & E2 & _) & _).
    exists res. split; auto. split; auto. eapply code_deliverable; eauto. split; [split; eauto|auto]. }
  destruct (Go _ _ O (proj1 (proj1 Z)) (proj2 (proj1 Z))) as ((res' & [= <-] & _ & Z1 & Z2 & Z3 & _) & Zn).
  destruct (code_sent S w xs ys own R Hf i j sub ar0 res resp O Z D) as (eff & ar' & code & a & F & N & B & C).
  pose proof (code_made _ _ _ _ _ _ Hf' Z) as (eff' & ar2 & F' & _ & _ & _ & C3 & _).
  assert (eff' = eff) as -> by (eapply effective_unique; eauto).
  rewrite C3 in Z1, Z2, Z3. cbn in Z1, Z2, Z3. rewrite Z1, Z2, Z3 in B. exists resp, code, ar', a.
  split; [reflexivity|]. split; [exact B|]. split; [exact C|]. eapply normalized_trans; eauto.
Qed.
