(** * Client authentication and DPoP: proofs *)

From Verif Require Export PfIssuer PfCompare.

(** ** C32, C33 *)

Lemma C32_private_key_jwt_proof : forall E w xs i req res,
  answered (history E w xs) i (RAssertion (Some req)) (PAuthn res) -> aa_err res = false ->
  exists a cl c keys k h1 h2,
    aq_type req = Some "urn:ietf:params:oauth:client-assertion-type:jwt-bearer"%string /\
    aq_assertion req = Some a /\ x_payload E KAssertion a = Some cl /\
    aa_client res = Some c /\ w_clients w (c_iss cl) = Some c /\
    (registry_ok w -> c_iss cl = cl_id c /\ c_sub cl = cl_id c) /\
    (* signed with one of the client's own keys *)
    x_jwks E (cl_jwks c) = Some keys /\ In k keys /\ k_use k <> "enc"%string /\ x_verify E k a = true /\
    c_aud cl <> ""%string /\ c_jti cl <> ""%string /\
    (* and not expired *)
    history E w xs = (h1 ++ h2)%list /\ during h1 i (RAssertion (Some req)) /\ (unix (clock w h1) <= c_exp cl)%N.
Proof.
  intros E w xs i req res Ha He. pose proof (answered_runs _ _ _ _ _ _ Ha) as Hr. cbn in Hr.
  apply reach_pmap_ret in Hr as (res' & X & Hr). injection X as <-.
  destruct (private_key_jwt_ok _ _ _ _ Hr He) as (a & cl & t & c & keys & k & F1 & F2 & F3 & F4 & F5 & F6 & F7 & F8 & F9 & F10 & F11 & F12 & F13 & F14 & ->).
  destruct (calls_of_split i _ [] _ _ _ F14) as (h1 & h2 & Hh & _ & _).
  assert (Hc : w_clients w (c_iss cl) = Some c).
  { eapply client_read. apply in_calls_of. rewrite F14. right; left; reflexivity. }
  exists a, cl, c, keys, k, h1. eexists. do 3 (split; [assumption|]). split; [reflexivity|]. split; [exact Hc|].
  split; [intros Hreg; apply Hreg in Hc; split; congruence|].
  do 6 (split; [assumption|]). split; [exact Hh|].
  split; [eapply started_before; [exact Hh|apply Ha]|]. rewrite <- (now_at _ _ _ _ _ _ _ Hh). exact F9.
Qed.

Definition assertion_req (a : string) : request :=
  RAssertion (Some (mkAuthn (Some "urn:ietf:params:oauth:client-assertion-type:jwt-bearer"%string) (Some a))).
Definition attestation_req (a : string) : request :=
  RAttestation (Some (mkAuthn (Some "urn:ietf:params:oauth:client-assertion-type:jwt-client-attestation"%string) (Some a))).

Definition with_payload (E : ext) (f : claims_kind -> string -> option claims) : ext :=
  mkExt (x_fold E) (x_sha256 E) (x_blake E) (x_request_uri E) (x_url_string E) (x_uri_valid E) (x_upper E)
    (x_parse E) (x_parse_jose E) (x_parse_pop E) (x_verify E) f (x_jwks E) (x_thumb E).
(** The assertion was made for another server. *)
Definition other_ext : ext := with_payload demo_ext (fun k s =>
  match k with
  | KAssertion => Some (mkClaims "app" "app" "https://other.example" "jti-1" 2000 0 0 None "" "" None)
  | _ => None
  end).
Definition x_assertions : list sched :=
  (full 0 (assertion_req "assertion") [ok; ok] ++ full 1 (assertion_req "assertion") [ok; ok])%list.

Lemma C33_assertion_audience_and_replay_refuted_proof : exists E w xs i j a cl c,
  blank w /\ registry_ok w /\ no_faults xs /\ i <> j /\
  x_payload E KAssertion a = Some cl /\ c_aud cl = "https://other.example"%string /\
  authenticates (history E w xs) i (assertion_req a) c /\ authenticates (history E w xs) j (assertion_req a) c.
Proof.
  exists other_ext, w0, x_assertions, 0%nat, 1%nat, "assertion"%string. do 2 eexists.
  split; [apply blank_w0|]. split; [apply registry_demo|].
  split; [repeat (constructor; [exact I || reflexivity|]); constructor|].
  split; [discriminate|]. split; [reflexivity|]. split; [reflexivity|].
  split; eexists; (split; [demo_ans|split; [reflexivity|cbn; reflexivity]]).
Qed.

(** ** C34 *)

Lemma split_tilde_ok s : forall a b, split_tilde s = Some (a, b) -> s = (a ++ "~" ++ b)%string.
Proof.
  induction s as [|x s IH]; cbn [split_tilde]; [discriminate|]. intros a b.
  destruct (Ascii.eqb_spec x "~") as [->|Hx].
  - intros H; injection H as <- <-. reflexivity.
  - destruct (split_tilde s) as [[u v]|]; [|discriminate]. intros H; injection H as <- <-.
    rewrite (IH _ _ eq_refl). reflexivity.
Qed.

Lemma C34_attestation_partial_proof : forall E w xs i req c,
  authenticates (history E w xs) i (RAttestation (Some req)) c ->
  exists att pop ca cp attester keys k key h1 h2 h3 h4,
    aq_type req = Some "urn:ietf:params:oauth:client-assertion-type:jwt-client-attestation"%string /\
    aq_assertion req = Some (att ++ "~" ++ pop)%string /\
    (* a registered client vouched for [key] with one of its registered keys *)
    x_payload E KAttestation att = Some ca /\ w_clients w (c_iss ca) = Some attester /\
    x_jwks E (cl_jwks attester) = Some keys /\ In k keys /\ k_use k <> "enc"%string /\ x_verify E k att = true /\
    c_cnf_jwk ca = Some (Some key) /\ c_sub ca <> ""%string /\
    history E w xs = (h1 ++ h2)%list /\ during h1 i (RAttestation (Some req)) /\ (unix (clock w h1) <= c_exp ca)%N /\
    (* that key signed the proof, which names the client *)
    x_payload E KPop pop = Some cp /\ x_verify E key pop = true /\ w_clients w (c_iss cp) = Some c /\
    c_jti cp <> ""%string /\ c_aud cp <> ""%string /\
    history E w xs = (h3 ++ h4)%list /\ during h3 i (RAttestation (Some req)) /\ (unix (clock w h3) <= c_exp cp)%N.
Proof.
  intros E w xs i req c (res & Ha & He & Hc). pose proof (answered_runs _ _ _ _ _ _ Ha) as Hr. cbn in Hr.
  apply reach_pmap_ret in Hr as (res' & X & Hr). injection X as <-.
  destruct (client_attestation_ok _ _ _ _ Hr He) as (a & att & pop & k & tr1 & cl & t1 & t2 & rc & F1 & F2 & F3 & F4 & F5 & F6 & F7 & F8 & F9 & F10 & F11 & F12 & F13).
  destruct (validate_attestation_ok _ _ _ _ F4) as (ca & u1 & u2 & at_ & keys & k' & G1 & G2 & G3 & G4 & G5 & G6 & G7 & G8 & G9 & G10 & G11 & ->).
  assert (rc = SOk c) as ->.
  { destruct F13 as [(c' & -> & ->)|[-> ->]]; [cbn in Hc; congruence|discriminate]. }
  destruct (calls_of_split i _ [] _ _ _ F12) as (h1 & h2 & Hh & _ & _).
  destruct (calls_of_split i _ _ _ _ _ F12) as (h3 & h4 & Hh3 & _ & _).
  apply split_tilde_ok in F3. subst a.
  exists att, pop, ca, cl, at_, keys, k', k, h1. eexists. exists h3. eexists.
  do 3 (split; [assumption|]).
  split; [eapply client_read; apply in_calls_of; rewrite F12; right; right; left; reflexivity|].
  do 6 (split; [assumption|]). split; [exact Hh|].
  split; [eapply started_before; [exact Hh|apply Ha]|]. split; [rewrite <- (now_at _ _ _ _ _ _ _ Hh); exact G6|].
  do 2 (split; [assumption|]).
  split; [eapply client_read; apply in_calls_of; rewrite F12; do 5 right; left; reflexivity|].
  do 2 (split; [assumption|]). split; [exact Hh3|].
  split; [eapply started_before; [exact Hh3|apply Ha]|]. rewrite <- (now_at _ _ _ _ _ _ _ Hh3). exact F10.
Qed.

(** The attestation is for the client "app", the proof names "evil". *)
Definition x_attest : list sched := full 0 (attestation_req "attestation~pop-evil") [ok; ok; ok; ok; ok; ok].

Lemma C34_attested_client_refuted_proof : exists E w xs i att pop ca c,
  blank w /\ registry_ok w /\ no_faults xs /\
  authenticates (history E w xs) i (attestation_req (att ++ "~" ++ pop)%string) c /\
  x_payload E KAttestation att = Some ca /\ c_sub ca <> cl_id c.
Proof.
  exists demo_ext, w0, x_attest, 0%nat, "attestation"%string, "pop-evil"%string. do 2 eexists.
  split; [apply blank_w0|]. split; [apply registry_demo|].
  split; [repeat (constructor; [exact I || reflexivity|]); constructor|].
  split; [eexists; (split; [demo_ans|split; [reflexivity|cbn; reflexivity]])|].
  split; [reflexivity|]. cbn. discriminate.
Qed.

(** ** C35, C38 *)

Lemma dpop_facts E w xs i htm htu proof tv tc thumb :
  dpop_accepts (history E w xs) i htm htu proof tv tc thumb ->
  exists t k cl h1 h2 h3 h4 r, x_parse E proof = Some t /\ j_typ t = Some dpop_type /\ j_jwk t = Some k /\
    x_verify E k proof = true /\ x_payload E KDpop proof = Some cl /\
    c_htm cl = htm /\ x_request_uri E htu = true /\ c_htu cl = x_url_string E htu /\
    history E w xs = (h1 ++ EvCall i CNow (ATime (clock w h1)) :: h2 ++
      EvCall i CNow (ATime (clock w (h1 ++ EvCall i CNow (ATime (clock w h1)) :: h2)%list)) :: h3 ++
      EvCall i (CProofExists (proof_id E cl)) (ABool (SOk false)) :: h4)%list /\
    In (EvCall i (CProofReg (proof_id E cl)) (AUnit r)) h4 /\ is_ok r = true /\
    (unix (clock w h1 - dpop_threshold) <= c_iat cl)%N /\
    (c_iat cl <= unix (clock w (h1 ++ EvCall i CNow (ATime (clock w h1)) :: h2)%list + dpop_threshold))%N /\
    dpop_finish E k cl tv tc = Some thumb.
Proof.
  intros Ha. pose proof (answered_runs _ _ _ _ _ _ Ha) as Hr. cbn in Hr.
  apply reach_pmap_ret in Hr as (res' & X & Hr). injection X as <-.
  destruct (dpop_ok _ _ _ _ _ _ _ _ Hr) as (t & k & cl & t1 & t2 & r & e & F1 & F2 & F3 & F4 & F5 & F6 & F7 & F8 & F9 & F10 & F11 & F12 & F13 & F14 & F15 & F16 & F17 & F18).
  destruct (calls_of_split i _ [] _ _ _ F17) as (h1 & g1 & Hh & _ & G1).
  destruct (calls_of_split i _ [] _ _ _ G1) as (h2 & g2 & -> & _ & G2).
  destruct (calls_of_split i _ [] _ _ _ G2) as (h3 & h4 & -> & _ & G4).
  pose proof (now_at _ _ _ _ _ _ _ Hh) as N1. subst t1.
  assert (Hh' : history E w xs = ((h1 ++ EvCall i CNow (ATime (clock w h1)) :: h2) ++ EvCall i CNow (ATime t2) ::
     h3 ++ EvCall i (CProofExists (jti_hash E (c_jti cl))) (ABool e) :: h4)%list) by (rewrite Hh; list_eq).
  pose proof (now_at _ _ _ _ _ _ _ Hh') as N2. subst t2.
  assert (e = SOk false) as ->.
  { destruct F15 as [->| ->]; auto. exfalso.
    assert (Hs : exists u1 u2, history E w xs = (u1 ++ EvCall i (CProofExists (jti_hash E (c_jti cl))) (ABool SNil) :: u2)%list).
    { eexists (h1 ++ _ :: h2 ++ _ :: h3)%list. exists h4. rewrite Hh. list_eq. }
    destruct Hs as (u1 & u2 & Hs). destruct (split_at _ _ _ _ _ _ _ _ Hs) as (wm & o & w1 & _ & B & _).
    eapply read_proof_nil; eauto. }
  exists t, k, cl, h1, h2, h3, h4, r. do 8 (split; [assumption|]). split; [rewrite Hh; reflexivity|].
  split; [apply in_calls_of; rewrite G4; left; reflexivity|]. auto.
Qed.

Lemma finish_ok E k cl tv tc thumb : dpop_finish E k cl tv tc = Some thumb ->
  (exists th, x_thumb E k = Some th /\ thumb = b64url th) /\
  (forall v, tv = Some v -> c_ath cl = Some (b64url (x_sha256 E v)) /\ forall cnf, tc = Some cnf -> thumb = cnf).
Proof.
  unfold dpop_finish, thumbprint. destruct (x_thumb E k) as [th|]; [|discriminate].
  destruct tv as [v|]; [|intros H; injection H as <-; split; [eauto|discriminate]].
  destruct (c_ath cl) as [ath|]; [|discriminate].
  destruct (secure_compare ath (b64url (x_sha256 E v))) eqn:Hs; cbn; [|discriminate].
  apply C39_secure_compare_proof in Hs. subst ath.
  destruct tc as [cnf|].
  - destruct (secure_compare (b64url th) cnf) eqn:Hs2; cbn; [|discriminate].
    apply C39_secure_compare_proof in Hs2. intros H; injection H as <-. split; [eauto|].
    intros v' X; injection X as <-. split; auto. intros cnf' X; injection X as <-. auto.
  - intros H; injection H as <-. split; [eauto|]. intros v' X; injection X as <-. split; auto. discriminate.
Qed.

(** A registered proof stays known for a minute. *)
Lemma proof_known E w h w' : wtrace E w h w' -> forall id e0 e, w_proof w id = Some (tt, e) -> (e0 <= e)%N ->
  (e0 <= w_now w + session_ttl)%N -> exists e', w_proof w' id = Some (tt, e') /\ (e0 <= e')%N.
Proof.
  induction 1 as [w|w i r h w' Ht IH|w i o h w' Ht IH|w d h w' Ht IH|w i c a o w1 h w' Hx Ht IH]; intros id e0 e H1 H2 H3; eauto.
  - eapply IH; eauto. cbn. lia.
  - pose proof (exec_const _ _ _ _ _ _ Hx) as (Hnow & _). pose proof (proof_exec E _ _ _ _ _ Hx) as Hp.
    destruct (wr_proof w c) as [[k v]|] eqn:Hw.
    + destruct c; cbn in Hw; try discriminate. injection Hw as <- <-.
      destruct Hp as [Hp|[Hp _]].
      * destruct (String.eqb_spec id id0) as [->|N].
        { eapply IH; [rewrite Hp; unfold upd; rewrite String.eqb_refl; reflexivity|lia|lia]. }
        { eapply IH; [rewrite Hp; unfold upd|exact H2|lia]. destruct (String.eqb_spec id id0); [contradiction|]. exact H1. }
      * eapply IH; [rewrite Hp; exact H1|exact H2|lia].
    + eapply IH; [rewrite Hp; exact H1|exact H2|lia].
Qed.

(** Between a registration and a later successful check that the proof is unknown, a minute passes. *)
Lemma unknown_expired E w xs h1 i id r h2 j h3 :
  history E w xs = (h1 ++ EvCall i (CProofReg id) (AUnit r) :: h2 ++ EvCall j (CProofExists id) (ABool (SOk false)) :: h3)%list ->
  is_ok r = true -> (60 * second < elapsed h2)%N.
Proof.
  intros Hh Hr. destruct (split_at _ _ _ _ _ _ _ _ Hh) as (wm & o & w1 & A & B & C).
  pose proof (proof_written E _ _ _ _ _ id _ B eq_refl Hr) as Hw.
  pose proof (exec_const _ _ _ _ _ _ B) as (Hnow & _).
  destruct (wtrace_at _ _ _ _ _ _ _ _ C) as (wm2 & o2 & w2 & A2 & B2 & _).
  destruct (proof_known _ _ _ _ A2 id (w_now wm + session_ttl)%N _ Hw) as (e' & E1 & E2); [lia|lia|].
  apply read_proof in B2 as [_ B2]. unfold cache_get in B2. rewrite E1 in B2.
  destruct (N.ltb_spec e' (w_now wm2)) as [L|L]; [|discriminate].
  pose proof (wtrace_now _ _ _ _ A2) as Hn2. change session_ttl with (60 * second)%N in *. lia.
Qed.

Lemma C35_dpop_sound_proof : forall E w xs i htm htu proof tv tc thumb,
  dpop_accepts (history E w xs) i htm htu proof tv tc thumb ->
  exists t k cl th h1 h2 h3 h4,
    x_parse E proof = Some t /\ j_typ t = Some "dpop+jwt"%string /\
    (* signed by the key embedded in it *)
    j_jwk t = Some k /\ x_verify E k proof = true /\ x_payload E KDpop proof = Some cl /\
    (* names exactly this method and URL *)
    c_htm cl = htm /\ x_request_uri E htu = true /\ c_htu cl = x_url_string E htu /\
    (* issued within 15 seconds of the clock, read during the verification *)
    history E w xs = (h1 ++ h2)%list /\ during h1 i (RDpop htm htu proof tv tc) /\
    history E w xs = (h3 ++ h4)%list /\ during h3 i (RDpop htm htu proof tv tc) /\
    (unix (clock w h1 - 15 * second) <= c_iat cl)%N /\ (c_iat cl <= unix (clock w h3 + 15 * second))%N /\
    (* no proof with that id was registered in the last minute *)
    (forall g1 k a g2 g3, history E w xs = (g1 ++ EvCall k (CProofReg (proof_id E cl)) a :: g2 ++
         EvCall i (CProofExists (proof_id E cl)) (ABool (SOk false)) :: g3)%list -> ans_ok a = true ->
       (60 * second < elapsed g2)%N) /\
    In (EvCall i (CProofExists (proof_id E cl)) (ABool (SOk false))) (history E w xs) /\
    (* and now it is registered *)
    (exists a, In (EvCall i (CProofReg (proof_id E cl)) a) (history E w xs) /\ ans_ok a = true) /\
    x_thumb E k = Some th /\ thumb = b64url th.
Proof.
  intros E w xs i htm htu proof tv tc thumb Ha.
  destruct (dpop_facts _ _ _ _ _ _ _ _ _ _ Ha) as (t & k & cl & h1 & h2 & h3 & h4 & r & F1 & F2 & F3 & F4 & F5 & F6 & F7 & F8 & F9 & F10 & F11 & F12 & F13 & F14).
  apply finish_ok in F14 as [(th & T1 & T2) _].
  exists t, k, cl, th, h1. eexists. exists (h1 ++ EvCall i CNow (ATime (clock w h1)) :: h2)%list. eexists.
  do 8 (split; [assumption|]). split; [exact F9|].
  split; [eapply started_before; [exact F9|apply Ha]|].
  match type of F9 with _ = (_ ++ ?e1 :: _ ++ ?e2 :: ?l)%list =>
    assert (F9' : history E w xs = ((h1 ++ e1 :: h2) ++ e2 :: l)%list) by (rewrite F9; list_eq) end.
  split; [exact F9'|]. split; [eapply started_before; [exact F9'|apply Ha]|].
  do 2 (split; [assumption|]). split.
  { intros g1 k0 a g2 g3 Hg Hok. destruct (split_at _ _ _ _ _ _ _ _ Hg) as (wm & o & w1 & _ & B & _).
    assert (exists r0, a = AUnit r0) as (r0 & ->).
    { cbn in B. destruct (do_write _ _ _ _). injection B as <- _. eauto. }
    eapply unknown_expired; eauto. }
  split; [rewrite F9, !in_app_iff; cbn; rewrite !in_app_iff; cbn; rewrite !in_app_iff; cbn; auto 10|].
  split; [|auto]. exists (AUnit r). split; [|exact F11].
  rewrite F9, !in_app_iff; cbn; rewrite !in_app_iff; cbn; rewrite !in_app_iff; cbn; auto 10.
Qed.

Lemma C38_dpop_binds_token_proof : forall E w xs i htm htu proof token tc thumb,
  dpop_accepts (history E w xs) i htm htu proof (Some token) tc thumb ->
  exists cl t k th, x_parse E proof = Some t /\ j_jwk t = Some k /\ x_payload E KDpop proof = Some cl /\
    c_ath cl = Some (b64url (x_sha256 E token)) /\ x_thumb E k = Some th /\
    (forall cnf, tc = Some cnf -> cnf = b64url th).
Proof.
  intros E w xs i htm htu proof token tc thumb Ha.
  destruct (dpop_facts _ _ _ _ _ _ _ _ _ _ Ha) as (t & k & cl & h1 & h2 & h3 & h4 & r & F1 & F2 & F3 & F4 & F5 & F6 & F7 & F8 & F9 & F10 & F11 & F12 & F13 & F14).
  apply finish_ok in F14 as [(th & T1 & T2) F14]. destruct (F14 _ eq_refl) as [F15 F16].
  exists cl, t, k, th. do 5 (split; [assumption|]). intros cnf X. rewrite <- (F16 _ X). exact T2.
Qed.

(** ** C36, C37 *)

Lemma elapsed_app h1 h2 : elapsed (h1 ++ h2)%list = (elapsed h1 + elapsed h2)%N.
Proof. induction h1 as [|[] h1 IH]; cbn [elapsed app]; try rewrite IH; lia. Qed.

(** Registered by one accepting verification before the other one looks: the other one is slow. *)
Lemma dpop_times b1 a1 g1 eb eg iat :
  (unix (b1 - dpop_threshold) <= iat)%N -> (iat <= unix (a1 + dpop_threshold))%N ->
  (eb <= 29 * second + 1)%N -> (60 * second < eg)%N -> (b1 + eb = g1 + eg)%N -> (a1 <= g1)%N -> False.
Proof.
  unfold unix, dpop_threshold. intros G13 F14 Hdur Hexp Hpre Hg1.
  assert (Hs : (second <> 0)%N) by discriminate. revert Hs G13 F14 Hdur Hexp. generalize second. intros s Hs G13 F14 Hdur Hexp.
  assert (Hlt : (b1 - 15 * s < (a1 + 15 * s) + s)%N).
  { pose proof (N.mul_div_le (a1 + 15 * s) s Hs).
    pose proof (N.mul_succ_div_gt (b1 - 15 * s) s Hs).
    assert (((b1 - 15 * s) / s <= (a1 + 15 * s) / s)%N) by lia. nia. }
  lia.
Qed.

Lemma dpop_slow E w xs i j htm htu tv tc thumb htm' htu' tv' tc' thumb' proof cl g1 r g2 a g3 :
  dpop_accepts (history E w xs) i htm htu proof tv tc thumb ->
  dpop_accepts (history E w xs) j htm' htu' proof tv' tc' thumb' ->
  x_payload E KDpop proof = Some cl ->
  history E w xs = (g1 ++ EvCall i (CProofReg (proof_id E cl)) r :: g2 ++
     EvCall j (CProofExists (proof_id E cl)) a :: g3)%list ->
  ~ takes_at_most (history E w xs) j (29 * second + 1).
Proof.
  intros Hi Hj Hcl Hg Hq.
  pose proof (answered_runs _ _ _ _ _ _ Hi) as Hri. cbn in Hri.
  apply reach_pmap_ret in Hri as (res' & X & Hri). injection X as <-.
  pose proof (answered_runs _ _ _ _ _ _ Hj) as Hrj. cbn in Hrj.
  apply reach_pmap_ret in Hrj as (res' & X & Hrj). injection X as <-.
  destruct (dpop_ok _ _ _ _ _ _ _ _ Hri) as (t & k & cl1 & t1 & t2 & r1 & e & _ & _ & _ & _ & F5 & _ & _ & _ & _ & _ & _ & _ & _ & F14 & _ & F16 & F17 & _).
  destruct (dpop_ok _ _ _ _ _ _ _ _ Hrj) as (t' & k' & cl2 & u1 & u2 & r2 & e2 & _ & _ & _ & _ & G5 & _ & _ & _ & _ & _ & _ & _ & G13 & _ & G15 & _ & G17 & _).
  assert (cl1 = cl) as -> by congruence. assert (cl2 = cl) as -> by congruence. clear F5 G5.
  (* the calls of i and j before these events *)
  assert (Hci : calls_of i g1 = [(CNow, ATime t1); (CNow, ATime t2); (CProofExists (jti_hash E (c_jti cl)), ABool e)] /\ r = AUnit r1).
  { rewrite Hg, calls_of_app in F17. cbn in F17. rewrite Nat.eqb_refl in F17.
    destruct (calls_of i g1) as [|c1 [|c2 [|c3 [|c4 l]]]]; cbn in F17; inversion F17; subst; auto.
    destruct l; discriminate. }
  destruct Hci as [Hci ->].
  assert (Hcj : calls_of j (g1 ++ EvCall i (CProofReg (proof_id E cl)) (AUnit r1) :: g2)%list = [(CNow, ATime u1); (CNow, ATime u2)] /\ a = ABool e2).
  { replace (history E w xs) with ((g1 ++ EvCall i (CProofReg (proof_id E cl)) (AUnit r1) :: g2) ++ EvCall j (CProofExists (proof_id E cl)) a :: g3)%list in G17 by (rewrite Hg; list_eq).
    rewrite calls_of_app in G17. cbn [calls_of] in G17.
    set (pre := calls_of j (g1 ++ EvCall i (CProofReg (proof_id E cl)) (AUnit r1) :: g2)%list) in *. clearbody pre.
    cbn in G17. rewrite Nat.eqb_refl in G17.
    destruct pre as [|c1 [|c2 [|c3 [|c4 l]]]]; cbn in G17; inversion G17; subst; auto.
    destruct l; discriminate. }
  destruct Hcj as [Hcj ->].
  assert (e2 = SOk false) as ->.
  { destruct G15 as [->| ->]; auto. exfalso.
    assert (Hs : history E w xs = ((g1 ++ EvCall i (CProofReg (proof_id E cl)) (AUnit r1) :: g2) ++ EvCall j (CProofExists (proof_id E cl)) (ABool SNil) :: g3)%list) by (rewrite Hg; list_eq).
    destruct (split_at _ _ _ _ _ _ _ _ Hs) as (wm & o & w1 & _ & B & _). eapply read_proof_nil; eauto. }
  pose proof (unknown_expired _ _ _ _ _ _ _ _ _ _ Hg F16) as Hexp.
  (* the clock readings *)
  destruct (calls_of_split i g1 [(CNow, ATime t1)] _ _ _ Hci) as (a1 & a2 & Ha & _).
  assert (Ht2 : t2 = clock w a1).
  { eapply now_at with (h2 := (a2 ++ _ :: g2 ++ _ :: g3)%list). rewrite Hg, Ha. list_eq. }
  destruct (calls_of_split j _ [] _ _ _ Hcj) as (b1 & b2 & Hb & _).
  match type of Hb with ?l = _ => set (pre := l) in * end.
  assert (Hh2 : history E w xs = (b1 ++ EvCall j CNow (ATime u1) :: b2 ++ EvCall j (CProofExists (proof_id E cl)) (ABool (SOk false)) :: g3)%list).
  { transitivity (pre ++ EvCall j (CProofExists (proof_id E cl)) (ABool (SOk false)) :: g3)%list; [rewrite Hg; unfold pre; list_eq|]. rewrite Hb. list_eq. }
  assert (Hu1 : u1 = clock w b1) by (eapply now_at; exact Hh2).
  (* the duration of j *)
  assert (Hdur : (elapsed b2 <= 29 * second + 1)%N).
  { pose proof (started_before _ _ _ _ _ _ _ _ _ Hh2 (proj1 Hj)) as Hst. apply in_split in Hst as (s1 & s2 & Hs).
    assert (Hdone : In (EvDone j (Done (PDpop (Some thumb')))) g3).
    { destruct (trace_history E w xs) as (sy & Htr & _). pose proof (proj2 Hj) as Hd. unfold answered in Hd.
      assert (Hh3 : history E w xs = ((b1 ++ EvCall j CNow (ATime u1) :: b2) ++ EvCall j (CProofExists (proof_id E cl)) (ABool (SOk false)) :: g3)%list) by (rewrite Hh2; list_eq).
      rewrite Hh3 in Hd, Htr. apply in_app_or in Hd as [Hd|[Hd|Hd]]; [|discriminate|exact Hd].
      pose proof (done_earlier _ _ _ _ _ _ _ Htr Hd) as X. cbn in X. rewrite Nat.eqb_refl in X. discriminate. }
    apply in_split in Hdone as (d1 & d2 & ->).
    specialize (Hq s1 (RDpop htm' htu' proof tv' tc') (s2 ++ EvCall j CNow (ATime u1) :: b2 ++ EvCall j (CProofExists (proof_id E cl)) (ABool (SOk false)) :: d1)%list (Done (PDpop (Some thumb'))) d2).
    assert (Hle : (elapsed (s2 ++ EvCall j CNow (ATime u1) :: b2 ++ EvCall j (CProofExists (proof_id E cl)) (ABool (SOk false)) :: d1)%list <= 29 * second + 1)%N).
    { apply Hq. rewrite Hh2, Hs. list_eq. }
    rewrite elapsed_app in Hle. cbn [elapsed] in Hle. rewrite elapsed_app in Hle. lia. }
  (* arithmetic *)
  assert (Hpre : (clock w pre = clock w b1 + elapsed b2)%N) by (unfold clock; rewrite Hb, elapsed_app; cbn [elapsed]; lia).
  assert (Hpre2 : (clock w pre = clock w g1 + elapsed g2)%N) by (unfold clock, pre; rewrite elapsed_app; cbn [elapsed]; lia).
  assert (Hg1 : (clock w a1 <= clock w g1)%N) by (unfold clock; rewrite Ha, elapsed_app; lia).
  subst t2 u1. rewrite Hpre in Hpre2.
  exact (dpop_times _ _ _ _ _ _ G13 F14 Hdur Hexp Hpre2 Hg1).
Qed.

(** In sequence. *)
Lemma C36_dpop_once_partial_proof : forall E w xs h1 h2 i j proof htm htu tv tc thumb htm' htu' tv' tc' thumb',
  history E w xs = (h1 ++ h2)%list ->
  dpop_accepts h1 i htm htu proof tv tc thumb ->
  In (EvStart j (RDpop htm' htu' proof tv' tc')) h2 ->
  takes_at_most (history E w xs) j (29 * second + 1) ->
  ~ dpop_accepts (history E w xs) j htm' htu' proof tv' tc' thumb'.
Proof.
  intros E w xs h1 h2 i j proof htm htu tv tc thumb htm' htu' tv' tc' thumb' Hh Hi Hst Hq Hj.
  assert (Hi' : dpop_accepts (history E w xs) i htm htu proof tv tc thumb).
  { destruct Hi as [A B]. rewrite Hh. split; apply in_or_app; auto. }
  destruct (dpop_facts _ _ _ _ _ _ _ _ _ _ Hi') as (t & k & cl & a1 & a2 & a3 & a4 & r & _ & _ & _ & _ & F5 & _ & _ & _ & F9 & F10 & _).
  destruct (dpop_facts _ _ _ _ _ _ _ _ _ _ Hj) as (t' & k' & cl' & b1 & b2 & b3 & b4 & r' & _ & _ & _ & _ & G5 & _ & _ & _ & G9 & _).
  assert (cl' = cl) as -> by congruence.
  destruct (trace_history E w xs) as (sy & Htr & _). rewrite Hh in Htr.
  assert (H1 : In (EvCall i (CProofReg (proof_id E cl)) (AUnit r)) h1).
  { assert (X : In (EvCall i (CProofReg (proof_id E cl)) (AUnit r)) (h1 ++ h2)%list).
    { rewrite <- Hh, F9, !in_app_iff; cbn; rewrite !in_app_iff; cbn; rewrite !in_app_iff; cbn; auto 10. }
    apply in_app_or in X as [X|X]; auto. apply in_calls_of in X.
    rewrite (done_earlier _ _ _ _ _ _ _ Htr (proj2 Hi)) in X. destruct X. }
  assert (H2 : In (EvCall j (CProofExists (proof_id E cl)) (ABool (SOk false))) h2).
  { assert (X : In (EvCall j (CProofExists (proof_id E cl)) (ABool (SOk false))) (h1 ++ h2)%list).
    { rewrite <- Hh, G9, !in_app_iff; cbn; rewrite !in_app_iff; cbn; rewrite !in_app_iff; cbn; auto 10. }
    apply in_app_or in X as [X|X]; auto. apply in_calls_of in X.
    rewrite (started_later _ _ _ _ _ _ _ Htr Hst) in X. destruct X. }
  apply in_split in H1 as (g1 & g2 & ->). apply in_split in H2 as (g3 & g4 & ->).
  refine (dpop_slow E w xs i j _ _ _ _ _ _ _ _ _ _ proof cl g1 (AUnit r) (g2 ++ g3)%list (ABool (SOk false)) g4 Hi' Hj F5 _ Hq).
  rewrite Hh. list_eq.
Qed.

(** If two verifications accept the same proof then both looked for it before either registered it. *)
Lemma C37_dpop_once_partial_proof : forall E w xs i j proof htm htu tv tc thumb htm' htu' tv' tc' thumb' cl h1 h2 a,
  dpop_accepts (history E w xs) i htm htu proof tv tc thumb ->
  dpop_accepts (history E w xs) j htm' htu' proof tv' tc' thumb' ->
  takes_at_most (history E w xs) j (29 * second + 1) ->
  x_payload E KDpop proof = Some cl ->
  history E w xs = (h1 ++ EvCall i (CProofReg (proof_id E cl)) a :: h2)%list ->
  In (EvCall j (CProofExists (proof_id E cl)) (ABool (SOk false))) h1.
Proof.
  intros E w xs i j proof htm htu tv tc thumb htm' htu' tv' tc' thumb' cl h1 h2 a Hi Hj Hq Hcl Hh.
  destruct (dpop_facts _ _ _ _ _ _ _ _ _ _ Hj) as (t' & k' & cl' & b1 & b2 & b3 & b4 & r' & _ & _ & _ & _ & G5 & _ & _ & _ & G9 & _).
  assert (cl' = cl) as -> by congruence.
  assert (X : In (EvCall j (CProofExists (proof_id E cl)) (ABool (SOk false))) (history E w xs)).
  { rewrite G9, !in_app_iff; cbn; rewrite !in_app_iff; cbn; rewrite !in_app_iff; cbn; auto 10. }
  rewrite Hh in X. apply in_app_or in X as [X|[X|X]]; [exact X|discriminate|exfalso].
  apply in_split in X as (g3 & g4 & ->).
  exact (dpop_slow E w xs i j _ _ _ _ _ _ _ _ _ _ proof cl h1 a g3 (ABool (SOk false)) g4 Hi Hj Hcl Hh Hq).
Qed.

Definition dpopreq : request := RDpop "POST" "https://as.example/token" "proof" None None.
(** Two verifications whose steps alternate. *)
Definition x_dpop_race : list sched :=
  [SNew dpopreq; SNew dpopreq; SStep 0 ok; SStep 1 ok; SStep 0 ok; SStep 1 ok; SStep 0 ok; SStep 1 ok;
   SStep 0 ok; SStep 1 ok; SStep 0 ok; SStep 1 ok].

Lemma C37_dpop_race_refuted_proof : exists E w xs i j htm htu proof thumb,
  blank w /\ no_faults xs /\ i <> j /\
  dpop_accepts (history E w xs) i htm htu proof None None thumb /\
  dpop_accepts (history E w xs) j htm htu proof None None thumb /\ elapsed (history E w xs) = 0%N.
Proof.
  exists demo_ext, w0, x_dpop_race, 0%nat, 1%nat, "POST"%string, "https://as.example/token"%string, "proof"%string.
  eexists. split; [apply blank_w0|].
  split; [repeat (constructor; [exact I || reflexivity|]); constructor|]. split; [discriminate|].
  split; [demo_ans|]. split; [demo_ans|]. vm_compute. reflexivity.
Qed.

(** Accepted for the first time when its issue date is 15 s ahead; received again
    one nanosecond before it is too old; then a pause of 29 s after the clock was read. *)
Definition w_ahead : world := init_world (985 * second) demo_clients.
Definition x_dpop_stall : list sched :=
  (full 0 dpopreq [ok; ok; ok; ok] ++
   [STick (31 * second - 1); SNew dpopreq; SStep 1 ok; SStep 1 ok; STick (29 * second + 2); SStep 1 ok; SStep 1 ok; SStep 1 ok])%list.

(** The time that passes after the start of [j]. *)
Fixpoint since (j : nat) (h : list event) : N :=
  match h with
  | [] => 0%N
  | EvStart i _ :: h' => if Nat.eqb i j then elapsed h' else since j h'
  | _ :: h' => since j h'
  end%list.
Lemma since_start j r g1 g2 : (elapsed g2 <= since j (g1 ++ EvStart j r :: g2))%N.
Proof.
  induction g1 as [|[] g1 IH]; cbn [since app]; auto.
  - rewrite Nat.eqb_refl. lia.
  - destruct (Nat.eqb _ j); [|exact IH]. rewrite elapsed_app. cbn [elapsed]. lia.
Qed.
Lemma takes_since h j d : (since j h <= d)%N -> takes_at_most h j d.
Proof.
  intros H g1 r g2 o g3 ->. pose proof (since_start j r g1 (g2 ++ EvDone j o :: g3)) as X.
  rewrite elapsed_app in X. lia.
Qed.

Lemma C36_dpop_once_refuted_proof : exists E w xs h1 h2 i j htm htu proof thumb,
  blank w /\ no_faults xs /\ history E w xs = (h1 ++ h2)%list /\
  dpop_accepts h1 i htm htu proof None None thumb /\
  In (EvStart j (RDpop htm htu proof None None)) h2 /\
  takes_at_most (history E w xs) j (29 * second + 2) /\
  dpop_accepts (history E w xs) j htm htu proof None None thumb.
Proof.
  exists demo_ext, w_ahead, x_dpop_stall.
  exists (firstn 6 (history demo_ext w_ahead x_dpop_stall)), (skipn 6 (history demo_ext w_ahead x_dpop_stall)).
  exists 0%nat, 1%nat, "POST"%string, "https://as.example/token"%string, "proof"%string.
  eexists. split; [repeat split; reflexivity|].
  split; [repeat (constructor; [exact I || reflexivity|]); constructor|].
  split; [symmetry; apply firstn_skipn|]. split; [demo_ans|].
  split; [vm_compute; repeat (first [left; reflexivity|right])|].
  split; [apply takes_since; vm_compute; discriminate|].
  demo_ans.
Qed.
