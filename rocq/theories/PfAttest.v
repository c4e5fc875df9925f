(** * Attested clients (proofs) *)

From Verif Require Export SpecAttest PfWebLive4.
From Coq Require Import Lia.

(** ** How a request ends *)

Lemma http_runs S w xs i o : In (HvDone i o) (http_history S w xs) ->
  exists e r tr, In (HvStart i e r) (http_history S w xs) /\ runs (answer_http S e r) tr o.
Proof.
  pose (P := fun (h : list hevent) (s : hsys) => tracked S h s /\
    forall i o, In (HvDone i o) h -> exists e r tr, In (HvStart i e r) h /\ runs (answer_http S e r) tr o).
  assert (Hs : forall h s x e s', P h s -> hstep S s x = Some (e, s') -> P (h ++ [e])%list s').
  { intros h s x e s' [H1 H2] Hx. split; [eapply tracked_step; eauto|].
    intros i0 o0 Hin. apply in_app_or in Hin as [Hin|[->|[]]].
    - destruct (H2 _ _ Hin) as (e1 & r1 & tr & A & B). exists e1, r1, tr. split; [apply in_or_app; auto|exact B].
    - destruct x as [e1 r1|j o1|d]; cbn in Hx; try discriminate.
      destruct (nth_error (hs_threads s) j) as [[p|]|] eqn:Hj; try discriminate.
      destruct (proj1 H1 _ _ Hj) as (e1 & r1 & A & B).
      destruct p as [a| | |c k]; try discriminate.
      + injection Hx as <- <- _. exists e1, r1, (hcalls j h). split; [apply in_or_app; auto|exact B].
      + injection Hx as <- <- _. exists e1, r1, (hcalls j h). split; [apply in_or_app; auto|exact B].
      + destruct (exec _ _ _ _); discriminate. }
  assert (H0 : P [] (mkHsys w [])).
  { split; [split|].
    - intros j p Hj. destruct j; discriminate.
    - reflexivity.
    - intros j o0 []. }
  intros Hin. destruct (hrun_inv S P Hs xs [] (mkHsys w []) H0) as [_ H]. exact (H _ _ Hin).
Qed.

(** ** The server refuses what it cannot parse *)

Lemma unparsed_attestation S e r att pop : for_clients e -> query_get r "client_id" = ""%string ->
  post_value r "client_assertion_type" = assertion_attestation ->
  post_value r "client_assertion" = (att ++ "~" ++ pop)%string -> ~ In "~"%char (list_ascii_of_string att) ->
  x_parse_jose (sv_ext S) att = false -> answer_http S e r = Ret (HError 401 (err invalid_client)).
Proof.
  intros He Hq Ht Ha Hn Hp.
  assert (A : forall next, client_authentication (sv_ext S) next r = Ret (HError 401 (err invalid_client))).
  { intros next. unfold client_authentication. rewrite Hq, Ht, Ha.
    change (String.eqb assertion_attestation assertion_bearer) with false. rewrite String.eqb_refl. cbn [is_empty negb].
    unfold client_attestation, assertion_of. cbn [aq_type aq_assertion]. rewrite String.eqb_refl. cbn [negb].
    replace (is_empty (att ++ "~" ++ pop)) with false by (destruct att; reflexivity).
    rewrite (split_tilde_join _ _ Hn). unfold validate_attestation. rewrite Hp. reflexivity. }
  destruct e; cbn in He; try destruct He; unfold answer_http, serve_http; apply A.
Qed.

Lemma refused_ends S w xs i e r att pop o : for_clients e -> In (HvStart i e r) (http_history S w xs) ->
  query_get r "client_id" = ""%string -> post_value r "client_assertion_type" = assertion_attestation ->
  post_value r "client_assertion" = (att ++ "~" ++ pop)%string -> ~ In "~"%char (list_ascii_of_string att) ->
  x_parse_jose (sv_ext S) att = false -> In (HvDone i o) (http_history S w xs) ->
  o = Done (HError 401 (err invalid_client)).
Proof.
  intros He Hs Hq Ht Ha Hn Hp Hd. destruct (http_runs _ _ _ _ _ Hd) as (e' & r' & tr & Hs' & Hr).
  destruct (one_start_all S w xs _ _ _ _ _ Hs Hs') as [<- <-].
  rewrite (unparsed_attestation _ _ _ _ _ He Hq Ht Ha Hn Hp) in Hr.
  destruct o as [x|]; cbn in Hr.
  - inversion Hr; subst. reflexivity.
  - inversion Hr.
Qed.

(** ** Whose token it is *)
Lemma owner_of S w xs i r c access expires type refresh scope : hno_faults xs -> registry_ok w ->
  comes_from S w (http_history S w xs) i r c -> In (HvStart i EToken r) (http_history S w xs) ->
  In (HvDone i (Done (HToken access expires type refresh scope))) (http_history S w xs) ->
  token_for (http_history S w xs) i access c.
Proof.
  intros Hf Hreg Hc Hs Hd. destruct (http_refines S w xs) as (ys & own & R).
  destruct (token_served S own _ _ _ _ _ _ _ _ _ (rf_explained _ _ _ _ _ R) (one_start_all S w xs) (conj Hs Hd))
    as (n & c1 & cnf & res & at_ & m & t0 & d & O & T & Hat & Hm & _ & Eacc & _ & _ & _ & _ & P & L & _ & _).
  destruct (passes S w xs ys own R Hf i _ c d Hc P) as [_ L']. apply L' in L. injection L as ->.
  destruct (response_created _ _ _ _ _ _ at_ T) as (iss & mt & rr & K1 & K2 & K3 & _); [unfold tokens_of; rewrite Hat; cbn; auto|].
  destruct (http_call _ _ _ _ _ R n (CTokCreate iss at_) (AUnit rr) eq_refl K1) as (i' & O' & K). rewrite O in O'. injection O' as <-.
  exists iss, at_, mt, (AUnit rr). split; [exact K|]. split; [exact K2|]. split; [auto|]. split; [exact K3|].
  destruct (C78_tokens_need_registered_grant_proof _ _ _ _ _ _ _ Hreg K1) as (rq & c' & m2 & Q1 & (au & Q2 & Q3) & _ & _ & Q4 & Q5).
  destruct (trace_history (sv_ext S) w ys) as (sy & Htr & _).
  pose proof (start_unique _ _ _ _ _ _ _ Htr Q1 (proj1 (proj1 T))) as Q6. injection Q6 as ->.
  cbn in Q2. injection Q2 as <-. rewrite (comes_registered _ _ _ _ _ _ Hreg Hc) in Q3. congruence.
Qed.

(** ** C106 *)

(** What the two programs of the examples make is good for 30 seconds. *)
Lemma C106_attestation_valid_proof : forall E w public asign csign akey ckey data at_ pt att jti pop c from until,
  attester_signs E akey asign -> attester_registered E w akey -> pop_signs E (public ckey) csign -> accepts_both E asign csign ->
  (* the attestation server attests the key, and the client makes a proof with it *)
  get_attestation (sign_handler public asign (Some data) at_) = Some att -> att <> ""%string ->
  ad_public_key data = Some ckey -> ad_client_id data <> ""%string ->
  client_pop csign jti pt = Some pop -> jti <> ""%string -> w_clients w "attestation-client" = Some c ->
  (unix at_ - 1 <= from)%N -> (until <= unix at_ + 3600)%N -> (unix pt - 1 <= from)%N -> (until <= unix pt + 30)%N ->
  attested_by E w (att ++ "~" ++ pop) c from until.
Proof.
  intros E w public asign csign akey ckey data at_ pt att jti pop c from until Ha Hr Hc [Hb1 Hb2] Hatt Hne Hk Hid Hpop Hj Hcl T1 T2 T3 T4.
  unfold sign_handler in Hatt. rewrite Hk in Hatt. cbn in Hatt.
  match type of Hatt with Some (match ?x with _ => _ end) = _ => destruct x as [raw|] eqn:Hs end; [|congruence].
  injection Hatt as ->. unfold client_pop in Hpop.
  destruct (Ha _ _ Hs) as (A1 & A2 & A3). destruct (Hc _ _ Hpop) as (P1 & P2). destruct Hr as (attester & keys & R1 & R2 & R3 & R4 & R5).
  do 8 eexists. split; [reflexivity|]. split; [exact A1|]. split; [eapply Hb1; eauto|]. split; [exact A2|].
  cbn [c_iss c_sub c_exp c_nbf c_cnf_jwk].
  split; [discriminate|]. split; [exact Hid|]. split; [lia|]. split; [exact T2|]. split; [exact T1|].
  split; [exact R1|]. split; [exact R2|]. split; [exact R3|]. split; [exact R4|]. split; [exact R5|]. split; [exact A3|].
  split; [reflexivity|]. split; [eapply Hb2; eauto|]. split; [exact P2|]. split; [exact P1|].
  cbn [c_iss c_jti c_aud c_exp c_nbf].
  split; [discriminate|]. split; [exact Hj|]. split; [discriminate|]. split; [lia|]. split; [exact T4|]. split; [exact T3|]. exact Hcl.
Qed.

(** It is given a token. *)
Lemma C106_attested_token_partial_proof : forall S w xs hh0 hh1 i public asign csign akey ckey data at_ pt att jti pop c tls host path o,
  let hh := http_history S w xs in
  hno_faults xs -> hh = (hh0 ++ hh1)%list ->
  (* the server accepts the algorithms of both programs *)
  attester_signs (sv_ext S) akey asign -> attester_registered (sv_ext S) w akey ->
  pop_signs (sv_ext S) (public ckey) csign -> accepts_both (sv_ext S) asign csign ->
  (* the attestation server attests the key, and the client makes a proof with it *)
  get_attestation (sign_handler public asign (Some data) at_) = Some att -> att <> ""%string ->
  ad_public_key data = Some ckey -> ad_client_id data <> ""%string -> client_pop csign jti pt = Some pop -> jti <> ""%string ->
  (* the clocks agree up to a second, and the request is served within half a minute *)
  (unix at_ - 1 <= unix (w_now w + time_in hh0))%N -> (unix (w_now w + time_in hh) <= unix at_ + 3600)%N ->
  (unix pt - 1 <= unix (w_now w + time_in hh0))%N -> (unix (w_now w + time_in hh) <= unix pt + 30)%N ->
  In (HvStart i EToken (attested_request tls host path att pop)) hh1 -> In (HvDone i o) hh ->
  (* the client may use the grant *)
  registry_ok w -> w_clients w "attestation-client" = Some c ->
  (cl_type c = CtConfidential \/ cl_type c = CtCredentialed) -> cl_dpop_bound c = false ->
  listed (sv_ext S) (cl_grant_types c) "client_credentials" ->
  sv_issuer S <> ""%string -> x_request_uri (sv_ext S) (sv_issuer S) = true -> web_generators_work hh i ->
  exists resp access, o = Done resp /\ attested_result resp = Some access /\ access <> ""%string /\ token_for hh i access c.
Proof.
  intros S w xs hh0 hh1 i public asign csign akey ckey data at_ pt att jti pop c tls host path o hh
    Hf Hh Ha Hr Hc Hb Hatt Hne Hk Hid Hpop Hj T1 T2 T3 T4 Hs Hd Hreg Hcl Hty Hbo Hl Hi Hu Hg. subst hh.
  assert (Hs' : In (HvStart i EToken (attested_request tls host path att pop)) (http_history S w xs)) by (rewrite Hh; apply in_or_app; auto).
  assert (Hcf : comes_from S w (http_history S w xs) i (attested_request tls host path att pop) c).
  { right; right. split; [reflexivity|]. split; [reflexivity|]. exists EToken, hh0, hh1. split; [exact Hh|]. split; [exact Hs|].
    eapply C106_attestation_valid_proof; eauto. }
  destruct (C98_credentials_accepted_proof S w xs i (attested_request tls host path att pop) c None o Hf Hs' Hd)
    as (access & expires & scope & X & ->); auto.
  - left. split; [|reflexivity]. split; [reflexivity|]. split; [reflexivity|auto].
  - rewrite (Hreg _ _ Hcl). exact Hcl.
  - do 2 eexists. split; [reflexivity|]. split; [reflexivity|]. split; [exact X|]. eapply owner_of; eauto.
Qed.

(** The attestation server of the examples signs with an algorithm that the authorization server of
    the examples does not accept: whatever happens, the client is turned away. *)
Lemma C106_example_refuted_proof : forall S w xs i public asign alg data at_ att pop tls host path o,
  let hh := http_history S w xs in
  accepts_ecdsa_only (sv_ext S) alg -> signs_eddsa alg asign ->
  (forall cl raw, asign cl = Some raw -> ~ In "~"%char (list_ascii_of_string raw)) ->
  get_attestation (sign_handler public asign data at_) = Some att -> att <> ""%string ->
  In (HvStart i EToken (attested_request tls host path att pop)) hh -> In (HvDone i o) hh ->
  o = Done (HError 401 (err invalid_client)).
Proof.
  intros S w xs i public asign alg data at_ att pop tls host path o hh Hacc Hed Hn Hatt Hne Hs Hd.
  assert (Hsg : exists cl, asign cl = Some att).
  { unfold sign_handler in Hatt. destruct data as [d|]; [|discriminate]. destruct (ad_public_key d); [|discriminate].
    cbn in Hatt. match type of Hatt with Some (match ?x with _ => _ end) = _ => destruct x as [raw|] eqn:X end; [|congruence].
    injection Hatt as ->. eauto. }
  destruct Hsg as (cl & Hcl).
  eapply (refused_ends S w xs i EToken (attested_request tls host path att pop) att pop o I Hs); try reflexivity; eauto.
  destruct (x_parse_jose (sv_ext S) att) eqn:X; [|reflexivity].
  exfalso. apply Hed in Hcl. destruct (Hacc _ X); congruence.
Qed.

(** The attestation server signs whatever it is asked, and the proof need not be in the name of the
    attested client: whoever reaches both servers is taken for any registered client. *)
Lemma C106_any_client_refuted_proof : forall S w xs hh0 hh1 i public asign csign akey ckey name at_ att pop cp c r o,
  let hh := http_history S w xs in
  hno_faults xs -> hh = (hh0 ++ hh1)%list ->
  attester_signs (sv_ext S) akey asign -> attester_registered (sv_ext S) w akey ->
  pop_signs (sv_ext S) (public ckey) csign -> accepts_both (sv_ext S) asign csign ->
  (* somebody has their key attested under any name *)
  get_attestation (sign_handler public asign (Some (mkAttData name (Some ckey))) at_) = Some att -> att <> ""%string -> name <> ""%string ->
  (* and signs a proof in the name of client [c] *)
  csign cp = Some pop -> w_clients w (c_iss cp) = Some c -> c_iss cp <> ""%string -> c_jti cp <> ""%string -> c_aud cp <> ""%string ->
  (unix at_ - 1 <= unix (w_now w + time_in hh0))%N -> (unix (w_now w + time_in hh) <= unix at_ + 3600)%N ->
  (c_nbf cp <= unix (w_now w + time_in hh0))%N -> (0 < c_exp cp)%N -> (unix (w_now w + time_in hh) <= c_exp cp)%N ->
  (* they ask for a token *)
  query_get r "client_id" = ""%string ->
  post_value r "client_assertion_type" = "urn:ietf:params:oauth:client-assertion-type:jwt-client-attestation"%string ->
  post_value r "client_assertion" = (att ++ "~" ++ pop)%string -> form_value r "grant_type" = "client_credentials"%string ->
  bearer r c ->
  In (HvStart i EToken r) hh1 -> In (HvDone i o) hh ->
  registry_ok w -> (cl_type c = CtConfidential \/ cl_type c = CtCredentialed) ->
  listed (sv_ext S) (cl_grant_types c) "client_credentials" ->
  sv_issuer S <> ""%string -> x_request_uri (sv_ext S) (sv_issuer S) = true -> web_generators_work hh i ->
  (* they are given a token of [c] *)
  exists resp access, o = Done resp /\ attested_result resp = Some access /\ access <> ""%string /\ token_for hh i access c.
Proof.
  intros S w xs hh0 hh1 i public asign csign akey ckey name at_ att pop cp c r o hh
    Hf Hh Ha Hr Hc [Hb1 Hb2] Hatt Hne Hnm Hpop Hcl C1 C2 C3 T1 T2 T3 T4 T5 Hq Ht Hca Hgt Hbr Hs Hd Hreg Hty Hl Hi Hu Hg. subst hh.
  assert (Hs' : In (HvStart i EToken r) (http_history S w xs)) by (rewrite Hh; apply in_or_app; auto).
  assert (Hcf : comes_from S w (http_history S w xs) i r c).
  { right; right. split; [exact Hq|]. split; [exact Ht|]. exists EToken, hh0, hh1. split; [exact Hh|]. split; [exact Hs|]. rewrite Hca.
    unfold sign_handler in Hatt. cbn [ad_public_key] in Hatt. cbn [get_attestation] in Hatt.
    match type of Hatt with Some (match ?x with _ => _ end) = _ => destruct x as [raw|] eqn:Hsg end; [|congruence].
    injection Hatt as ->.
    destruct (Ha _ _ Hsg) as (A1 & A2 & A3). destruct (Hc _ _ Hpop) as (P1 & P2). destruct Hr as (attester & keys & R1 & R2 & R3 & R4 & R5).
    do 8 eexists. split; [reflexivity|]. split; [exact A1|]. split; [eapply Hb1; eauto|]. split; [exact A2|].
    cbn [c_iss c_sub c_exp c_nbf c_cnf_jwk ad_client_id].
    split; [discriminate|]. split; [exact Hnm|]. split; [lia|]. split; [exact T2|]. split; [exact T1|].
    split; [exact R1|]. split; [exact R2|]. split; [exact R3|]. split; [exact R4|]. split; [exact R5|]. split; [exact A3|].
    split; [reflexivity|]. split; [eapply Hb2; eauto|]. split; [exact P2|]. split; [exact P1|].
    split; [exact C1|]. split; [exact C2|]. split; [exact C3|]. split; [exact T4|]. split; [exact T5|]. split; [exact T3|]. exact Hcl. }
  destruct (C98_credentials_accepted_proof S w xs i r c None o Hf Hs' Hd Hgt) as (access & expires & scope & X & ->); auto.
  - left. split; [exact Hbr|reflexivity].
  - rewrite (Hreg _ _ Hcl). exact Hcl.
  - do 2 eexists. split; [reflexivity|]. split; [reflexivity|]. split; [exact X|]. eapply owner_of; eauto.
Qed.
