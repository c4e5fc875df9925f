(** * What is bound to succeed over HTTP: client credentials and introspection (proofs) *)

From Verif Require Export PfWebLive.
From Coq Require Import Lia.

(** ** Client credentials *)

Lemma C98_credentials_accepted_proof : forall S w xs i r c cnf o,
  let hh := http_history S w xs in
  hno_faults xs -> In (HvStart i EToken r) hh -> In (HvDone i o) hh ->
  form_value r "grant_type" = "client_credentials"%string -> comes_from S w hh i r c -> holds S w hh i r c cnf ->
  w_clients w (cl_id c) = Some c -> (cl_type c = CtConfidential \/ cl_type c = CtCredentialed) ->
  listed (sv_ext S) (cl_grant_types c) "client_credentials" ->
  sv_issuer S <> ""%string -> x_request_uri (sv_ext S) (sv_issuer S) = true -> web_generators_work hh i ->
  exists access expires scope, access <> ""%string /\ o = Done (HToken access expires (type_sent cnf) "" scope).
Proof.
  intros S w xs i r c cnf o hh Hf Hs Hd Hgt Hc Hb Hreg Hty Hl Hiss Huri Hgen. subst hh.
  destruct (http_refines S w xs) as (ys & own & R). pose proof (rf_faults _ _ _ _ _ R Hf) as Hf'.
  assert (Hm : tq_grant (token_message (sv_issuer S) r c cnf) = GClientCredentials).
  { unfold token_message. rewrite Hgt. reflexivity. }
  assert (Go : forall j o', nth_error own j = Some i ->
     In (EvStart j (RToken (Some (token_message (sv_issuer S) r c cnf)))) (history (sv_ext S) w ys) ->
     In (EvDone j o') (history (sv_ext S) w ys) ->
     exists res, o' = Done (PToken res) /\ tr_err res = false /\ tr_at res <> None /\ tr_rt res = None).
  { intros j o' O H1 H2.
    eapply (C84_client_credentials_work_proof (sv_ext S) w ys j _ c o' Hf' H1 H2); auto.
    - exists c. split; auto.
    - eapply same_generators; eauto. }
  destruct (token_live _ _ _ _ _ R Hf i r c cnf o Hc Hb Hs Hd) as (j & res & at_ & m & t & O & T & Hat & Hme & Hn & ->).
  { intros j o' O H1 H2. destruct (Go j o' O H1 H2) as (res & A & B & C & _). eauto. }
  destruct T as [[T1 T2] T3]. destruct (Go _ _ O T1 T2) as (res' & [= <-] & _ & _ & ->).
  do 3 eexists. split; [|reflexivity].
  destruct (response_created (sv_ext S) w ys j (token_message (sv_issuer S) r c cnf) res at_) as (iss & m' & rr & _ & _ & _ & Hv & _); [split; [split; eauto|auto]| |exact Hv].
  unfold tokens_of. rewrite Hat. cbn; auto.
Qed.

(** ** Introspection *)

Section Introspect.
Context (S : http_server) (w : world) (xs : list hsched) (ys : list sched) (own : list nat).
Context (R : refined S w xs ys own) (Hf : hno_faults xs).
Notation E := (sv_ext S).
Notation hh := (http_history S w xs).
Notation h := (history E w ys).

Lemma introspect_stages i r c j x : comes_from S w hh i r c -> In (HvStart i EIntrospect r) hh ->
  nth_error own j = Some i -> In (EvStart j x) h ->
  login r x \/ x = RIntrospect (Some (mkValReq (sv_issuer S) (Some c) (form_value r "token"))).
Proof.
  intros Hc Hs O Hx.
  destruct (made_by _ _ _ _ _ R _ _ _ _ _ Hs O Hx) as (d & P & St).
  destruct x; cbn [stage] in St; try (destruct St as (X & _); discriminate).
  - destruct St as (_ & c' & L & ->). right.
    destruct (passes _ _ _ _ _ R Hf _ _ _ _ Hc P) as [_ L']. apply L' in L. injection L as ->. reflexivity.
  - destruct St as (_ & _ & -> & _). left; left; reflexivity.
  - destruct St as (_ & _ & -> & _). left; right; reflexivity.
  - destruct St as ([X|X] & _); discriminate.
Qed.

Definition told (c : call) (a : answer) : Prop :=
  reliable w c a /\ match a with ATok r => r <> SErr /\ r <> SNil | _ => True end.

Lemma history_told j c a : In (EvCall j c a) h -> told c a.
Proof.
  intros Hin. pose proof (rf_faults _ _ _ _ _ R Hf) as Hf'. split; [eapply history_reliable; eauto|].
  pose proof (history_typed _ _ _ _ _ _ Hin) as Ty. destruct a; auto. destruct c; try destruct Ty.
  apply in_split in Hin as (l1 & l2 & Hl).
  pose proof (history_ftrace E w ys Hf') as Ht. rewrite Hl in Ht.
  destruct (ftrace_at _ _ _ _ _ _ _ _ Ht) as (wm & oo & w1 & T1 & T2 & T3 & T4).
  destruct (full_tok _ _ _ _ T3 _ _ _ T2) as (_ & ->). destruct (w_tval wm _); split; discriminate.
Qed.

Lemma introspect_ends (c : client) token : w_clients w (cl_id c) = Some c ->
  token <> ""%string -> sv_issuer S <> ""%string -> x_request_uri E (sv_issuer S) = true ->
  ends told
    (fun o => match o with Done res => ir_err res = false /\ ir_token res <> None | Crashed => False end)
    (introspect_svc E (Some (mkValReq (sv_issuer S) (Some c) token))).
Proof.
  intros Hc Ht Hi Hu. unfold introspect_svc. cbn [vq_issuer vq_client vq_token].
  apply is_empty_false in Ht. apply is_empty_false in Hi. rewrite Ht, Hi, Hu. cbn [negb].
  intros a [[Ha1 Ha2] _]; destruct a; cbn in Ha1; try destruct Ha1. cbn in Ha2. rewrite Ha2, Hc. clear Ha2.
  intros a [[Ha1 _] Ha2]; destruct a; cbn in Ha1; try destruct Ha1. destruct Ha2 as [Ha2 Ha3].
  destruct r0 as [tk| | |]; try congruence; (split; [reflexivity|discriminate]).
Qed.

Lemma introspect_live i r c o : comes_from S w hh i r c -> In (HvStart i EIntrospect r) hh -> In (HvDone i o) hh ->
  w_clients w (cl_id c) = Some c -> form_value r "token" <> ""%string ->
  sv_issuer S <> ""%string -> x_request_uri E (sv_issuer S) = true -> exists d, o = Done (HDoc d).
Proof.
  intros Hc Hs Hd Hreg Htk Hiss Huri. pose proof (rf_faults _ _ _ _ _ R Hf) as Hf'.
  pose proof (rf_explained _ _ _ _ _ R) as X. pose proof (one_start_all S w xs) as U.
  set (q0 := Some (mkValReq (sv_issuer S) (Some c) (form_value r "token"))).
  assert (Hok : forall j o', nth_error own j = Some i -> In (EvStart j (RIntrospect q0)) h -> In (EvDone j o') h ->
    exists res, o' = Done (PIntrospect res) /\ ir_err res = false /\ ir_token res <> None).
  { intros j o' O H1 H2.
    pose (Pz := fun o : outcome response => exists res, o = Done (PIntrospect res) /\ ir_err res = false /\ ir_token res <> None).
    change (Pz o'). eapply (ends_history E w ys j _ o' Pz told H1 H2).
    - intros c0 a. apply history_told.
    - cbn [serve]. unfold pmap. apply ends_bind. eapply ends_weaken; [|apply introspect_ends; auto].
      intros [res|]; cbn; [|tauto]. intros Q. exists res. auto. }
  assert (Int : forall j q y d, past own hh h i d -> In (Served j (RIntrospect q) y) d ->
    exists res, y = PIntrospect res /\ ir_err res = false /\ ir_token res <> None).
  { intros j q y d P Hin. destruct (P _ Hin) as (O & P1 & P2).
    destruct (introspect_stages _ _ _ _ _ Hc Hs O P1) as [[Q|Q]|Q]; [discriminate|discriminate|]. injection Q as ->.
    destruct (Hok _ _ O P1 P2) as (res & Q & Q1 & Q2). injection Q as ->. eauto. }
  assert (Oth : forall j x y d, past own hh h i d -> In (Served j x y) d ->
    match x with RIntrospect _ | RAssertion _ | RAttestation _ => True | _ => False end).
  { intros j x y d P Hin. destruct (P _ Hin) as (O & P1 & P2).
    destruct (introspect_stages _ _ _ _ _ Hc Hs O P1) as [[-> | ->]| ->]; exact I. }
  destruct o as [resp|].
  - destruct (ex_done _ _ _ _ X _ _ Hd) as (e0 & r0 & d & A & P & B).
    destruct (U _ _ _ _ _ Hs A) as [-> ->].
    destruct resp; cbn [ending] in B; try (destruct B as (B & _); discriminate).
    + exfalso. destruct B as [B|[B|[B|[B|[B|[B|[B|B]]]]]]].
      2: { destruct B as (q & res & (j & Hj) & He & _). destruct (Int _ _ _ _ P Hj) as (res' & [= <-] & He' & _). congruence. }
      1-6: destruct B as (q & res & (j & Hj) & _); exact (Oth _ _ _ _ P Hj).
      destruct B as [_ B]. destruct (passes _ _ _ _ _ R Hf _ _ _ _ Hc P) as [Hl Hl'].
      inversion B; subst.
      * match goal with Q : In _ _ |- _ => destruct Q as [Q|[Q|[]]]; discriminate end.
      * contradiction.
      * match goal with Q : served _ _ _ |- _ => destruct Q as (j & Q); exact (Oth _ _ _ _ P Q) end.
    + exfalso. destruct B as [[B _]|[[B|B] _]]; discriminate.
    + eauto.
    + destruct B as [(B & _)|(B & _)]; discriminate.
  - exfalso. destruct (ex_crash _ _ _ _ X _ Hd) as [(j & O & Hj)|(e & r0 & d & A & P & B)].
    + destruct (trace_history E w ys) as (sy & Ht & _). destruct (done_started _ _ _ _ _ _ Ht Hj) as (x & Hx).
      destruct (introspect_stages _ _ _ _ _ Hc Hs O Hx) as [Hx'| ->].
      * pose proof (login_served _ _ _ _ _ R Hf _ _ _ _ _ _ _ Hc Hs O Hx' Hx Hj). discriminate.
      * destruct (Hok _ _ O Hx Hj) as (res & Q & _). discriminate.
    + destruct (U _ _ _ _ _ Hs A) as [-> ->]. cbn [ending] in B.
      destruct B as [(id & B)|[B|[B|[B|[B|[B|[B|B]]]]]]].
      3: { destruct B as (q & res & (j & Hj) & B); destruct (Int _ _ _ _ P Hj) as (res' & [= <-] & He' & Hat).
           destruct B as [[B _]|[_ B]]; congruence. }
      1: { pose proof (P _ B) as B'. cbn in B'. apply (saw_client _ _ _ Hf) in B'. destruct (w_clients w id); discriminate. }
      all: destruct B as (q & res & (j & Hj) & _); exact (Oth _ _ _ _ P Hj).
Qed.
End Introspect.
