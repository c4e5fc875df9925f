(** * Proofs: C110, the authorization code flow from login to introspection *)

From Verif Require Export PfWebLive7.
From Coq Require Import Lia.

Lemma http_cut S w xs h1 h2 : hno_faults xs -> http_history S w xs = (h1 ++ h2)%list ->
  exists xs', hno_faults xs' /\ http_history S w xs' = h1.
Proof.
  unfold http_history. generalize (mkHsys w []). revert h1. induction xs as [|x xs IH]; intros h1 s F H.
  - cbn in H. symmetry in H. apply app_eq_nil in H as [-> ->]. exists []. split; [constructor|reflexivity].
  - inversion F as [|? ? F1 F2]; subst. cbn in H. destruct (hstep S s x) as [[e s1]|] eqn:Hx.
    + destruct (hrun S s1 xs) as [h s2] eqn:Hr. cbn in H. destruct h1 as [|e' h1]; [exists []; split; [constructor|reflexivity]|].
      injection H as <- H. specialize (IH h1 s1 F2). rewrite Hr in IH. destruct (IH H) as (xs' & F' & H').
      exists (x :: xs'). split; [constructor; auto|]. cbn. rewrite Hx. destruct (hrun S s1 xs'). cbn in *. congruence.
    + exact (IH _ _ F2 H).
Qed.

(** All sessions that an authorization request stores are one. *)
Lemma one_session S w xs k q i1 c1 s1 a1 i2 c2 s2 a2 :
  let hh := http_history S w xs in
  got_code hh k q -> In (HvCall k (CSessReg i1 c1 s1) a1) hh -> In (HvCall k (CSessReg i2 c2 s2) a2) hh -> s1 = s2.
Proof.
  intros hh Hg H1 H2. subst hh. destruct (http_refines S w xs) as (ys & own & R). pose proof (rf_explained _ _ _ _ _ R) as X.
  pose proof (one_start_all S w xs) as U.
  destruct (authorize_served _ _ _ _ _ _ X U Hg) as (n & c0 & user & sub & front & zres & d & O & Z & _).
  destruct (authorize_facts _ _ _ _ _ _ Z) as (eff & ar' & cc & code' & num' & _ & _ & _ & _ & _ & _ & _ & _ & F9 & _).
  assert (Mine : forall k' iss' code'' s a', In (EvCall k' (CSessReg iss' code'' s) a') (history (sv_ext S) w ys) ->
     nth_error own k' = Some k -> k' = n).
  { intros k' iss' code'' s a' Hin O'. apply in_split in Hin as (l1 & l2 & Hl).
    destruct (write_reason _ _ _ _ _ _ _ _ Hl) as (rq & W1 & req & r0 & r1 & c9 & -> & _).
    eapply (ex_once _ _ _ _ X k' _ n); [rewrite Hl; apply in_or_app; eauto|apply Z|exact O'|exact O|reflexivity]. }
  assert (Same : forall iss' code'' s a', In (HvCall k (CSessReg iss' code'' s) a') (http_history S w xs) ->
    s = mkSess (sv_issuer S) sub (Some ar')).
  { intros iss' code'' s a' Hin. apply in_heffects in Hin; [|reflexivity]. rewrite (ex_effects _ _ _ _ X) in Hin.
    apply in_effects in Hin as (n' & On & Hin); [|reflexivity]. assert (n' = n) as -> by eauto.
    destruct (F9 _ _ _ _ Hin) as (_ & _ & ->). reflexivity. }
  apply Same in H1, H2. congruence.
Qed.

(** Introspection of an access token by anybody who authenticates (as C98, for any client). *)
Lemma introspected S w xs hh0 hh1 hh2 hh3 i r access expires type refresh scope j rj cj o :
  let hh := http_history S w xs in
  registry_ok w -> no_tokens w -> hno_faults xs -> web_no_reuse (sv_ext S) hh -> hh = (hh0 ++ hh1 ++ hh2 ++ hh3)%list ->
  In (HvStart i EToken r) hh1 -> In (HvDone i (Done (HToken access expires type refresh scope))) hh1 ->
  comes_from S w hh j rj cj -> w_clients w (cl_id cj) = Some cj -> form_value rj "token" = access ->
  In (HvStart j EIntrospect rj) hh3 -> In (HvDone j o) hh3 ->
  (second <= time_in hh2)%N -> (time_in (hh1 ++ hh2 ++ hh3) <= 3600 * second)%N ->
  (forall t, web_stored_as (sv_ext S) hh (sv_issuer S) access t -> ~ web_revoked_in hh (t_id t)) ->
  exists at_ m, o = Done (HDoc (token_document at_ m)) /\ web_stored_as (sv_ext S) hh (sv_issuer S) access at_ /\
    t_meta at_ = Some m /\ m_scope m = scope.
Proof.
  intros hh Hreg Hn Hf Hu Hh Hi1 Hi2 Hcf Hcj Htok Hj1 Hj2 Hmin Hmax Hrev. subst hh.
  destruct (http_refines S w xs) as (ys & own & R).
  assert (Hjs : In (HvStart j EIntrospect rj) (http_history S w xs)) by (rewrite Hh, !in_app_iff; auto 6).
  assert (Hjd : In (HvDone j o) (http_history S w xs)) by (rewrite Hh, !in_app_iff; auto 6).
  destruct (issued S w xs ys own R Hn hh0 hh1 (hh2 ++ hh3) i r access expires type refresh scope Hreg Hh Hi1 Hi2)
    as (at_ & m & owner & a & A1 & A2 & A3 & A4 & A5 & A6 & A7 & A8 & A9 & A10 & A11 & A12 & A13).
  destruct (introspect_live S w xs ys own R Hf j rj cj o Hcf Hjs Hjd) as (doc & ->); auto; [congruence|].
  destruct (C72_web_introspection_proof S w xs j rj doc Hn Hf Hu (conj Hjs Hjd))
    as (cj' & b1 & b2 & k1 & k2 & _ & B1 & B2 & B3 & B4 & B5).
  rewrite Htok in B5.
  assert (Hh' : http_history S w xs = ((hh0 ++ hh1 ++ hh2) ++ hh3)%list) by (rewrite Hh; list_eq).
  destruct (beyond _ _ _ _ _ _ _ _ _ _ Hh' Hj1 B1 B2) as (b'' & ->). destruct (beyond _ _ _ _ _ _ _ _ _ _ Hh' Hj1 B3 B4) as (k'' & ->).
  assert (Hstored : web_stored_as (sv_ext S) (http_history S w xs) (sv_issuer S) access at_).
  { exists i, (sv_issuer S), a. split; [|rewrite A3; reflexivity]. rewrite Hh', !in_app_iff. apply in_app_or in A1. tauto. }
  assert (Hlive : web_live_as (sv_ext S) ((hh0 ++ hh1 ++ hh2) ++ b'') (sv_issuer S) access at_).
  { apply in_split in A1 as (q1 & q2 & Q).
    exists q1, i, (sv_issuer S), a, (q2 ++ hh2 ++ b'')%list. split.
    { rewrite <- !app_assoc. rewrite app_assoc, Q. list_eq. }
    split; [rewrite A3; reflexivity|].
    intros (jr & issr & ar & Q1 & Q2). apply (Hrev at_ Hstored). exists jr, issr, ar. split; auto.
    rewrite B1. rewrite !in_app_iff. apply in_app_or in Q1 as [Q1|Q1].
    - assert (In (HvCall jr (CTokRevoke issr (t_id at_)) ar) (hh0 ++ hh1)) as Q3 by (rewrite Q; apply in_or_app; cbn; auto).
      apply in_app_or in Q3. tauto.
    - apply in_app_or in Q1. tauto. }
  assert (Hw : within m (unix (w_now w + time_in ((hh0 ++ hh1 ++ hh2) ++ k'')))).
  { unfold within. rewrite Hh in B3.
    assert (Ek : (time_in (hh0 ++ hh1 ++ hh2 ++ hh3) = time_in ((hh0 ++ hh1 ++ hh2) ++ k'') + time_in k2)%N) by (rewrite B3, time_app; reflexivity).
    rewrite !time_app in *. rewrite A10. split.
    - assert (Q : (unix ((w_now w + (time_in hh0 + time_in hh1)) + 1 * second) <= unix (w_now w + (time_in hh0 + (time_in hh1 + time_in hh2) + time_in k'')))%N)
        by (apply unix_mono; lia). rewrite plus_seconds in Q. lia.
    - assert (Q : (unix (w_now w + (time_in hh0 + (time_in hh1 + time_in hh2) + time_in k'')) <= unix ((w_now w + time_in hh0) + 3600 * second))%N)
        by (apply unix_mono; lia). rewrite plus_seconds in Q. lia. }
  assert (Hdoc : doc = token_document at_ m).
  { destruct B5 as [(t & mt & Hl & Ht & _ & ->)|(Hno & _)]; [|exfalso; eapply Hno; eauto].
    assert (t = at_) as ->; [|congruence].
    eapply (one_per_slot (sv_ext S) (http_history S w xs)); eauto. rewrite B1. apply stored_more, web_live_stored, Hl. }
  rewrite Hdoc. exists at_, m. auto.
Qed.

(** The tokens a client is given are its own. *)
Lemma own_tokens S w xs i r c cnf iss t a m :
  let hh := http_history S w xs in
  registry_ok w -> hno_faults xs -> comes_from S w hh i r c -> holds S w hh i r c cnf -> In (HvStart i EToken r) hh ->
  In (HvCall i (CTokCreate iss t) a) hh -> t_meta t = Some m -> m_client_id m = cl_id c.
Proof.
  intros hh Hreg Hf Hc Hh Hs Hin Hm. subst hh. destruct (http_refines S w xs) as (ys & own & R).
  apply in_heffects in Hin; [|reflexivity]. rewrite (ex_effects _ _ _ _ (rf_explained _ _ _ _ _ R)) in Hin.
  apply in_effects in Hin as (n & O & Hin); [|reflexivity].
  destruct (C78_tokens_need_registered_grant_proof _ _ _ _ _ _ _ Hreg Hin) as (rq & c' & m2 & Q1 & _ & (au & Q2 & Q3) & _ & Q4 & Q5).
  destruct (token_stages S w xs ys own R Hf i r c cnf n _ Hc Hh Hs O Q1) as [[Q|Q]|[[Q _]|Q]]; try discriminate.
  injection Q as ->. cbn in Q2. injection Q2 as <-. rewrite Q4 in Hm. injection Hm as <-. congruence.
Qed.

Lemma asks_openid E a b : normalized E a b -> asks E (ar_scope a) "openid" -> asks E (ar_scope b) "openid".
Proof.
  intros (_ & _ & H & _) Ha. apply H; auto. unfold fold_eq. intros Q. apply (f_equal (@List.length N)) in Q.
  rewrite !map_length in Q. discriminate.
Qed.

(** From a code to what the resource server learns. *)
Lemma redeemed_and_introspected S w xs hh0 hh1 hh2 hh3 k q c sub ar ar' a i r cnf o :
  let hh := http_history S w xs in
  let E := sv_ext S in
  let code := form_value r "code" in
  let verifier := form_value r "code_verifier" in
  registry_ok w -> blank w -> hno_faults xs -> web_no_reuse E hh ->
  hh = (hh0 ++ hh1 ++ hh2 ++ hh3)%list -> (time_in (hh1 ++ hh2) <= 60 * second)%N ->
  In (HvStart k EAuthorize q) hh1 -> got_code hh1 k q ->
  In (HvCall k (CSessReg (sv_issuer S) code (mkSess (sv_issuer S) sub (Some ar'))) a) (hh0 ++ hh1)%list ->
  normalized E ar ar' -> asks E (ar_scope ar) "openid" -> cl_id c = ar_client_id ar -> x_request_uri E (sv_issuer S) = true ->
  In (HvStart i EToken r) hh2 -> In (HvDone i o) hh2 -> form_value r "grant_type" = "authorization_code"%string ->
  form_value r "redirect_uri" = ar_redirect_uri ar ->
  (43 <= String.length verifier <= 128)%nat -> b64url (x_sha256 E verifier) = ar_code_challenge ar ->
  let soon := (hh0 ++ hh1 ++ hh2)%list in
  comes_from S w soon i r c -> holds S w soon i r c cnf -> code <> ""%string -> (rune_count code <= 1024)%nat ->
  web_generators_work hh i ->
  (forall k' iss' code' s a', In (HvCall k' (CSessReg iss' code' s) a') hh ->
     sess_key E iss' code' = sess_key E (sv_issuer S) code -> k' = k) ->
  (forall j r' code', In (HvStart j EToken r') hh -> sends_code r' code' ->
     sess_key E (sv_issuer S) code' = sess_key E (sv_issuer S) code -> j = i) ->
  (* the client is given a token *)
  exists access expires refresh scope, access <> ""%string /\ o = Done (HToken access expires (type_sent cnf) refresh scope) /\
    (forall s, asks E scope s -> asks E (ar_scope ar) s) /\
    (* and whoever asks about it, a second to an hour later, learns who the user is, for which client, audience and scope *)
    (forall hh4 hh5 j rj cj oj, hh3 = (hh4 ++ hh5)%list ->
       In (HvStart j EIntrospect rj) hh5 -> In (HvDone j oj) hh5 -> form_value rj "token" = access ->
       comes_from S w hh j rj cj -> w_clients w (cl_id cj) = Some cj ->
       (second <= time_in hh4)%N -> (time_in (hh2 ++ hh3) <= 3600 * second)%N ->
       (forall t, web_stored_as E hh (sv_issuer S) access t -> ~ web_revoked_in hh (t_id t)) ->
       exists doc, oj = Done (HDoc doc) /\ Client.get "active" doc = Some (JBool true) /\
         Client.get "sub" doc = Some (JStr sub) /\ Client.get "client_id" doc = Some (JStr (cl_id c)) /\
         Client.get "aud" doc = Some (JStr (ar_audience ar)) /\ Client.get "scope" doc = Some (JStr scope) /\
         Client.get "iss" doc = Some (JStr (sv_issuer S))).
Proof.
  intros hh E code verifier Hreg Hbl Hf Hu Hh Htime Hk1 Hgot Hreg1 Hnorm Hopen Hcid Huri
    Hi1 Hi2 Hgt Hred Hlen Hch soon Hcf Hhold Hne Hrc Hgen Honce Honly.
  assert (Hh1 : hh = ((hh0 ++ hh1) ++ hh2 ++ hh3)%list) by (rewrite Hh; list_eq).
  assert (Hgot' : got_code hh k q).
  { destruct Hgot as (resp & [G1 G2] & G3). exists resp. split; auto. split; rewrite Hh, !in_app_iff; auto. }
  assert (Hr1 : In (HvCall k (CSessReg (sv_issuer S) code (mkSess (sv_issuer S) sub (Some ar'))) a) hh1).
  { apply in_app_or in Hreg1 as [Hin|Hin]; auto. exfalso. apply in_split in Hin as (l1 & l2 & ->).
    assert (Hs : In (HvStart k EAuthorize q) l1).
    { eapply (start_before S w xs l1 k _ (l2 ++ hh1 ++ hh2 ++ hh3)).
      - fold hh. rewrite Hh. list_eq.
      - reflexivity.
      - intros; discriminate.
      - fold hh. rewrite Hh, !in_app_iff; auto 6. }
    eapply (not_again S w xs _ (hh1 ++ hh2 ++ hh3) k EAuthorize q EAuthorize q Hh).
    - apply in_or_app; left; exact Hs.
    - apply in_or_app; auto. }
  destruct (proj1 Hnorm) as (P1 & P2 & P3 & P4 & P5 & P6 & P7 & P8 & P9 & _).
  (* which it redeems *)
  destruct (http_cut S w xs soon hh3 Hf) as (xs2 & Hf2 & H02).
  { fold hh. unfold soon. rewrite Hh. list_eq. }
  assert (Hin2 : forall e, In e soon -> In e hh).
  { intros e. unfold soon. rewrite Hh, !in_app_iff. tauto. }
  destruct (C100_web_code_redeemed_proof S w xs2 hh0 hh1 hh2 k q code sub ar' a i r c cnf o) as (access & expires & refresh & scope & A1 & -> & _);
    rewrite ?H02; auto.
  { eapply asks_openid; eauto. }
  { split; auto. }
  { congruence. }
  { transitivity (ar_code_challenge ar); [exact Hch|symmetry; exact P9]. }
  { congruence. }
  { intros t a' H'. apply (Hgen t a'). destruct H'; auto. }
  { intros k' iss' code' s a' H'. apply (Honce k' iss' code' s a'). apply Hin2. unfold soon. apply in_or_app; auto. }
  { intros j r' code' H'. apply (Honly j r' code'). auto. }
  assert (Hresp : responded (http_history S w xs2) i EToken r (HToken access expires (type_sent cnf) refresh scope)).
  { rewrite H02. unfold soon. split; rewrite !in_app_iff; auto. }
  destruct (C70_web_code_grant_proof S w xs2 i r access expires (type_sent cnf) refresh scope Hreg Hbl Hresp Hgt)
    as (c' & user' & sub' & ar2 & t & m & h1 & h2 & iss & a2 & _ & Hau & Hh3 & _ & Hwa & _ & _ & _ & _ & B1 & B2 & B3 & _ & B4 & B5 & B6 & B7 & B8 & B9 & B10 & _).
  destruct Hwa as (g1 & k' & r' & code' & a' & g2 & c2 & G1 & _ & _ & _ & _ & _ & _ & Hkey & _).
  assert (Hg : In (HvCall k' (CSessReg (sv_issuer S) code' (mkSess (sv_issuer S) sub' (Some ar2))) a') hh).
  { apply Hin2. rewrite <- H02, Hh3, G1, !in_app_iff. cbn; auto. }
  pose proof (Honce _ _ _ _ _ Hg Hkey) as ->.
  assert (Hg0 : In (HvCall k (CSessReg (sv_issuer S) code (mkSess (sv_issuer S) sub (Some ar'))) a) hh).
  { rewrite Hh, !in_app_iff; auto. }
  pose proof (one_session S w xs k q _ _ _ _ _ _ _ _ Hgot' Hg Hg0) as Q. injection Q as -> ->.
  assert (Hmine : m_client_id m = cl_id c).
  { eapply (own_tokens S w xs2 i r c cnf iss t a2); rewrite ?H02; auto; [|rewrite <- H02; exact B1].
    unfold soon. rewrite !in_app_iff; auto. }
  rewrite H02 in B1. apply Hin2 in B1.
  exists access, expires, refresh, scope. split; auto. split; [reflexivity|]. split.
  { intros s. rewrite B10. apply asks_more, Hnorm. }
  intros hh4 hh5 j rj cj oj -> Hj1 Hj2 Htok Hcj Hcj' Hmin Hmax Hrev.
  destruct (introspected S w xs (hh0 ++ hh1) hh2 hh4 hh5 i r access expires (type_sent cnf) refresh scope j rj cj oj)
    as (at_ & m' & -> & C1 & C2 & C3); auto.
  { apply Hbl. }
  destruct (http_refines S w xs) as (ys & own & R).
  assert (iss = sv_issuer S) as ->.
  { unfold hh in B1. apply in_heffects in B1; [|reflexivity]. rewrite (ex_effects _ _ _ _ (rf_explained _ _ _ _ _ R)) in B1.
    apply in_effects in B1 as (n & _ & B1); [|reflexivity]. eapply home_tokens; eauto. apply Hbl. }
  assert (t = at_) as ->.
  { eapply (one_per_slot (sv_ext S) hh); eauto. exists i, (sv_issuer S), a2. split; auto. rewrite B3. reflexivity. }
  rewrite B4 in C2. injection C2 as <-. exists (token_document at_ m). split; [reflexivity|]. split; [reflexivity|].
  cbn. rewrite B5, Hmine, B7, B8, C3.
  destruct (proj1 Hnorm) as (_ & _ & _ & _ & _ & _ & _ & _ & _ & _ & -> & _). auto 10.
Qed.

Lemma C110_code_flow_proof :
  forall S w xs hh0 hh1 hh2 hh3 k q user c sub ar resp i r cnf o,
  let hh := http_history S w xs in
  let E := sv_ext S in
  let code := form_value r "code" in
  let verifier := form_value r "code_verifier" in
  registry_ok w -> blank w -> hno_faults xs -> web_no_reuse E hh ->
  hh = (hh0 ++ hh1 ++ hh2 ++ hh3)%list -> (time_in (hh1 ++ hh2) <= 60 * second)%N ->
  (* a user logs in and follows a link of a client, which carries a proper authorization request *)
  In (HvStart k EAuthorize q) hh1 -> In (HvDone k (Done resp)) hh1 ->
  hq_method q = "GET"%string -> user_logged_in q user -> w_clients w (query_get q "client_id") = Some c ->
  subject_for E (sv_salt S) c user sub -> sub <> ""%string ->
  carries S c q ar -> ar_request_uri ar = None -> ar_client_id ar = query_get q "client_id" ->
  SpecLive.well_formed E ar -> SpecLive.permitted E c ar -> asks E (ar_scope ar) "openid" ->
  sv_issuer S <> ""%string -> x_request_uri E (sv_issuer S) = true -> web_codes_work hh k -> responses_signed S ->
  (* within a minute the client redeems the code it was sent *)
  In (HvStart i EToken r) hh2 -> In (HvDone i o) hh2 -> form_value r "grant_type" = "authorization_code"%string ->
  (forall sent, sends_back S resp (ar_redirect_uri ar) sent (ar_state ar) (ar_client_id ar) -> sent = code) ->
  form_value r "redirect_uri" = ar_redirect_uri ar ->
  (43 <= String.length verifier <= 128)%nat -> b64url (x_sha256 E verifier) = ar_code_challenge ar ->
  let soon := (hh0 ++ hh1 ++ hh2)%list in
  comes_from S w soon i r c -> holds S w soon i r c cnf -> code <> ""%string -> (rune_count code <= 1024)%nat ->
  web_generators_work hh i ->
  (* nobody else has that code *)
  (forall k' iss' code' s a', In (HvCall k' (CSessReg iss' code' s) a') hh ->
     sess_key E iss' code' = sess_key E (sv_issuer S) code -> k' = k) ->
  (forall j r' code', In (HvStart j EToken r') hh -> sends_code r' code' ->
     sess_key E (sv_issuer S) code' = sess_key E (sv_issuer S) code -> j = i) ->
  (* the client is given a token *)
  exists access expires refresh scope, access <> ""%string /\ o = Done (HToken access expires (type_sent cnf) refresh scope) /\
    (forall s, asks E scope s -> asks E (ar_scope ar) s) /\
    (* and whoever asks about it, a second to an hour later, learns who the user is, for which client, audience and scope *)
    (forall hh4 hh5 j rj cj oj, hh3 = (hh4 ++ hh5)%list ->
       In (HvStart j EIntrospect rj) hh5 -> In (HvDone j oj) hh5 -> form_value rj "token" = access ->
       comes_from S w hh j rj cj -> w_clients w (cl_id cj) = Some cj ->
       (second <= time_in hh4)%N -> (time_in (hh2 ++ hh3) <= 3600 * second)%N ->
       (forall t, web_stored_as E hh (sv_issuer S) access t -> ~ web_revoked_in hh (t_id t)) ->
       exists doc, oj = Done (HDoc doc) /\ Client.get "active" doc = Some (JBool true) /\
         Client.get "sub" doc = Some (JStr sub) /\ Client.get "client_id" doc = Some (JStr (cl_id c)) /\
         Client.get "aud" doc = Some (JStr (ar_audience ar)) /\ Client.get "scope" doc = Some (JStr scope) /\
         Client.get "iss" doc = Some (JStr (sv_issuer S))).
Proof.
  intros S w xs hh0 hh1 hh2 hh3 k q user c sub ar resp i r cnf o hh E code verifier Hreg Hbl Hf Hu Hh Htime
    Hk1 Hk2 Hget Hlog Hcl Hsub Hse Hcar Hnu Hid Hwf Hperm Hopen Hiss Huri Hcodes Hsign
    Hi1 Hi2 Hgt Hsent Hred Hlen Hch soon Hcf Hhold Hne Hrc Hgen Honce Honly.
  assert (Hh1 : hh = ((hh0 ++ hh1) ++ hh2 ++ hh3)%list) by (rewrite Hh; list_eq).
  assert (Hh2 : hh = (hh0 ++ hh1 ++ (hh2 ++ hh3))%list) by (rewrite Hh; list_eq).
  (* the user is sent back with a code *)
  destruct (http_cut S w xs _ _ Hf Hh1) as (xs1 & Hf1 & H01).
  destruct (C101_web_authorized_proof S w xs1 k q user c sub ar (Done resp) Hf1) as (resp' & code0 & ar' & a & Q & Hsb & Hreg1 & Hnorm); auto.
  { rewrite H01. apply in_or_app; auto. }
  { rewrite H01. apply in_or_app; auto. }
  { intros i' a' H'. apply (Hcodes i' a'). rewrite Hh1, !in_app_iff. rewrite H01, !in_app_iff in H'. tauto. }
  injection Q as <-. rewrite H01 in Hreg1. pose proof (Hsent _ Hsb) as ->.
  assert (Hgot : got_code hh1 k q).
  { exists resp. split; [split; auto|]. destruct resp; try contradiction; exact I. }
  eapply (redeemed_and_introspected S w xs hh0 hh1 hh2 hh3 k q c sub ar ar' a i r cnf o); eauto.
  rewrite (Hreg _ _ Hcl). congruence.
Qed.
