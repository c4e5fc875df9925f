(** * Proofs: C114, the flow with a pushed authorization request *)

From Verif Require Export PfFlow.
From Coq Require Import Lia.

Lemma C114_pushed_flow_proof :
  forall S w xs hh0 hhp hh1 hh2 hh3 p rp th op k q user c sub ar ar0 resp i r cnf o,
  let hh := http_history S w xs in
  let E := sv_ext S in
  let code := form_value r "code" in
  let verifier := form_value r "code_verifier" in
  registry_ok w -> blank w -> hno_faults xs -> web_no_reuse E hh ->
  hh = (hh0 ++ hhp ++ hh1 ++ hh2 ++ hh3)%list ->
  (time_in (hhp ++ hh1) <= 60 * second)%N -> (time_in (hh1 ++ hh2) <= 60 * second)%N ->
  sv_issuer S <> ""%string -> x_request_uri E (sv_issuer S) = true -> responses_signed S ->
  (* a client pushes a proper authorization request, with a proof of possession *)
  In (HvStart p EPar rp) hhp -> In (HvDone p op) hhp -> hq_method rp = "POST"%string ->
  comes_from S w (hh0 ++ hhp)%list p rp c -> has_proof S w (hh0 ++ hhp)%list p rp th ->
  carries S c rp ar -> ar_request_uri ar = None -> ar_client_id ar = cl_id c -> w_clients w (cl_id c) = Some c ->
  SpecLive.well_formed E ar -> SpecLive.permitted E c ar -> asks E (ar_scope ar) "openid" -> web_codes_work hh p ->
  (* it is given a request URI, and nobody else is *)
  exists uri, uri <> ""%string /\ op = Done (HPushed (sv_issuer S) uri 60) /\
  (x_uri_valid E uri = true ->
   (forall k' iss' uri' s a, In (HvCall k' (CReqReg iss' uri' s) a) hh -> req_key E iss' uri' = req_key E (sv_issuer S) uri -> k' = p) ->
   (forall j r' uri', In (HvStart j EAuthorize r') hh -> sends_request_uri S r' uri' ->
      req_key E (sv_issuer S) uri' = req_key E (sv_issuer S) uri -> j = k) ->
   (* within a minute a user logs in and follows a link of this client with that URI *)
   In (HvStart k EAuthorize q) hh1 -> In (HvDone k (Done resp)) hh1 ->
   hq_method q = "GET"%string -> user_logged_in q user -> query_get q "client_id" = cl_id c ->
   subject_for E (sv_salt S) c user sub -> sub <> ""%string ->
   carries S c q ar0 -> ar_request_uri ar0 = Some uri -> web_codes_work hh k ->
   (* the user is sent back, to the address and with the state that were pushed *)
   exists sent, sends_back S resp (ar_redirect_uri ar) sent (ar_state ar) (ar_client_id ar) /\
   (* within a minute the client redeems the code it was sent *)
   (In (HvStart i EToken r) hh2 -> In (HvDone i o) hh2 -> form_value r "grant_type" = "authorization_code"%string ->
    sent = code -> form_value r "redirect_uri" = ar_redirect_uri ar ->
    (43 <= String.length verifier <= 128)%nat -> b64url (x_sha256 E verifier) = ar_code_challenge ar ->
    let soon := (hh0 ++ hhp ++ hh1 ++ hh2)%list in
    comes_from S w soon i r c -> holds S w soon i r c cnf -> code <> ""%string -> (rune_count code <= 1024)%nat ->
    web_generators_work hh i ->
    (* nobody else has that code *)
    (forall k' iss' code' s a', In (HvCall k' (CSessReg iss' code' s) a') hh ->
       sess_key E iss' code' = sess_key E (sv_issuer S) code -> k' = k) ->
    (forall j r' code', In (HvStart j EToken r') hh -> sends_code r' code' ->
       sess_key E (sv_issuer S) code' = sess_key E (sv_issuer S) code -> j = i) ->
    (* the client is given a token *)
    exists access expires refresh scope, access <> ""%string /\ o = Done (HToken access expires (type_sent cnf) refresh scope) /\
      (forall s, asks E scope s -> asks E (ar_scope ar) s) /\
      (* and whoever asks about it, a second to an hour later, learns who the user is, for which client, audience and scope *)
      (forall hh4 hh5 j rj cj oj, hh3 = (hh4 ++ hh5)%list ->
         In (HvStart j EIntrospect rj) hh5 -> In (HvDone j oj) hh5 -> form_value rj "token" = access ->
         comes_from S w hh j rj cj -> w_clients w (cl_id cj) = Some cj ->
         (second <= time_in hh4)%N -> (time_in (hh2 ++ hh3) <= 3600 * second)%N ->
         (forall t, web_stored_as E hh (sv_issuer S) access t -> ~ web_revoked_in hh (t_id t)) ->
         exists doc, oj = Done (HDoc doc) /\ Client.get "active" doc = Some (JBool true) /\
           Client.get "sub" doc = Some (JStr sub) /\ Client.get "client_id" doc = Some (JStr (cl_id c)) /\
           Client.get "aud" doc = Some (JStr (ar_audience ar)) /\ Client.get "scope" doc = Some (JStr scope) /\
           Client.get "iss" doc = Some (JStr (sv_issuer S))))).
Proof.
  intros S w xs hh0 hhp hh1 hh2 hh3 p rp th op k q user c sub ar ar0 resp i r cnf o hh E code verifier
    Hreg Hbl Hf Hu Hh Ht1 Ht2 Hiss Huri Hsign Hp1 Hp2 Hpost Hpc Hpp Hcar Hnu Hid Hcl Hwf Hperm Hopen Hpcodes.
  (* the push *)
  assert (Hh1 : hh = ((hh0 ++ hhp) ++ hh1 ++ hh2 ++ hh3)%list) by (rewrite Hh; list_eq).
  destruct (http_cut S w xs _ _ Hf Hh1) as (xs1 & Hf1 & H01).
  destruct (C102_web_pushed_proof S w xs1 p rp c th ar op) as (uri & Hne & ->); rewrite ?H01; auto.
  { apply in_or_app; auto. }
  { apply in_or_app; auto. }
  { intros i' a' H'. apply (Hpcodes i' a'). rewrite Hh1, !in_app_iff. rewrite !in_app_iff in H'. tauto. }
  exists uri. split; [exact Hne|]. split; [reflexivity|].
  intros Hval Honce1 Honly1 Hk1 Hk2 Hget Hlog Hqc Hsub Hse Hcar0 Hu0 Hcodes.
  (* the link *)
  assert (Hh2 : hh = ((hh0 ++ hhp ++ hh1) ++ hh2 ++ hh3)%list) by (rewrite Hh; list_eq).
  destruct (http_cut S w xs _ _ Hf Hh2) as (xs2 & Hf2 & H02).
  assert (Hin : forall e, In e (hh0 ++ hhp ++ hh1) -> In e hh).
  { intros e He. rewrite Hh2. apply in_or_app; auto. }
  destruct (C103_web_pushed_request_followed_proof S w xs2 hh0 hhp hh1 p rp (sv_issuer S) uri 60%N ar k q user c sub ar0 (Done resp))
    as (resp' & sent & ar' & a & Q & Hsb & Hreg1 & Hnorm); rewrite ?H02; auto.
  { apply Hcar. }
  { rewrite Hqc. exact Hcl. }
  { intros i' a' H'. apply (Hcodes i' a'). destruct H'; auto. }
  { intros k' iss' uri' s a H'. apply (Honce1 k' iss' uri' s a). apply Hin. apply in_or_app; auto. }
  { intros j r' uri' H'. apply (Honly1 j r' uri'). auto. }
  injection Q as <-. rewrite H02 in Hreg1. exists sent. split; [exact Hsb|].
  intros Hi1 Hi2 Hgt -> Hred Hlen Hch soon Hcf Hhold Hcne Hrc Hgen Honce Honly.
  assert (Hgot : got_code hh1 k q).
  { exists resp. split; [split; auto|]. destruct resp; try contradiction; exact I. }
  eapply (redeemed_and_introspected S w xs (hh0 ++ hhp) hh1 hh2 hh3 k q c sub ar ar' a i r cnf o); auto.
  - rewrite <- app_assoc. exact Hreg1.
  - rewrite <- app_assoc. exact Hcf.
  - rewrite <- app_assoc. exact Hhold.
Qed.
