(** * The keys of the server and the profile of its clients (proofs) *)

From Verif Require Export SpecKeys PfTok PfDev3 PfAuthz Demo.

(** ** C120 *)

Lemma empty_eq s : is_empty s = true -> s = ""%string.
Proof. destruct s; [reflexivity|discriminate]. Qed.

Lemma read_doc sound k : sound (ec_crv k) (ec_x k) (ec_y k) (ec_d k) = true -> read_key sound (key_doc k) = Some k.
Proof.
  intros H. destruct k as [crv x y d kid alg use]. cbn [ec_crv ec_x ec_y ec_d] in H.
  unfold read_key, text_or, key_doc, jtext_opt, jtext. cbn [ec_crv ec_x ec_y ec_d ec_kid ec_alg ec_use].
  destruct (is_empty use) eqn:E1, (is_empty kid) eqn:E2, (is_empty crv) eqn:E3, (is_empty alg) eqn:E4;
    repeat match goal with E : is_empty ?s = true |- _ => apply empty_eq in E; subst s end;
    destruct d as [d|]; vm_compute; rewrite H; reflexivity.
Qed.

Lemma read_sound sound doc k : read_key sound doc = Some k -> sound (ec_crv k) (ec_x k) (ec_y k) (ec_d k) = true.
Proof.
  unfold read_key. destruct (negb _); [discriminate|].
  destruct (text_at "x" doc), (text_at "y" doc); try discriminate.
  destruct (sound _ _ _ _) eqn:H; [|discriminate]. intros [= <-]. exact H.
Qed.

Lemma started_inv sound doc k ks : started sound doc k ks -> read_key sound doc = Some k /\ ks = [ec_public k].
Proof.
  intros [H1 H2]. unfold key_provider in H1. unfold key_set_provider in H2.
  destruct (read_key sound doc); [|discriminate]. injection H1 as ->. injection H2 as <-. auto.
Qed.

Lemma C120_no_secret_proof : forall sound doc k ks docs d v,
  started sound doc k ks -> jwks_handler (Some (Some ks)) = KeysSent docs -> In d docs ->
  ~ In ("d"%string, v) d.
Proof.
  intros sound doc k ks docs d v Hs Hh Hd. apply started_inv in Hs as (_ & ->). injection Hh as <-.
  destruct Hd as [<-|[]]. unfold key_doc, jtext_opt, jtext. cbn [ec_d ec_public].
  rewrite !in_app_iff. cbn [In app].
  intros H. repeat match type of H with
  | _ \/ _ => destruct H as [H|H]
  | context[is_empty ?s] => destruct (is_empty s)
  end; try (injection H; discriminate); try (destruct H as [H|[]]; injection H; discriminate); try destruct H; try discriminate.
Qed.

(** The members of the document, but for the secret. *)
Lemma text_without name d : String.eqb name "d" = false -> text_at name (without "d" d) = text_at name d.
Proof.
  intros Hn. unfold without in *. induction d as [|[n v] d IH]; [reflexivity|]. cbn [filter fst text_at].
  destruct (String.eqb n "d") eqn:E; cbn [negb text_at].
  - apply String.eqb_eq in E. subst n. rewrite IH. rewrite String.eqb_sym, Hn. reflexivity.
  - rewrite IH. reflexivity.
Qed.
Lemma C120_secret_unseen_proof : forall sound doc doc' k k' ks ks',
  without "d" doc = without "d" doc' -> started sound doc k ks -> started sound doc' k' ks' ->
  jwks_handler (Some (Some ks)) = jwks_handler (Some (Some ks')).
Proof.
  intros sound doc doc' k k' ks ks' Hw H1 H2.
  apply started_inv in H1 as (R1 & ->). apply started_inv in H2 as (R2 & ->).
  assert (T : forall name, String.eqb name "d" = false -> text_at name doc = text_at name doc').
  { intros name Hn. rewrite <- (text_without name doc Hn), <- (text_without name doc' Hn), Hw. reflexivity. }
  unfold read_key, text_or in *.
  rewrite (T "kty"%string eq_refl), (T "x"%string eq_refl), (T "y"%string eq_refl), (T "crv"%string eq_refl),
    (T "kid"%string eq_refl), (T "alg"%string eq_refl), (T "use"%string eq_refl) in R1.
  destruct (negb _); [discriminate|]. destruct (text_at "x" doc'), (text_at "y" doc'); try discriminate.
  destruct (sound _ _ _ (text_at "d" doc)); [|discriminate]. destruct (sound _ _ _ (text_at "d" doc')); [|discriminate].
  injection R1 as <-. injection R2 as <-. reflexivity.
Qed.

Lemma C120_served_key_proof : forall sound of_ec doc k ks,
  point_stays sound -> started sound doc k ks ->
  exists k', public_part k k' /\
    read_response sound of_ec (jwks_handler (Some (Some ks))) = JwksDoc (Some [of_ec k']) 0.
Proof.
  intros sound of_ec doc k ks Hp Hs. exists (ec_public k). split; [repeat split|]. apply started_inv in Hs as (Hr & ->). apply read_sound in Hr.
  unfold read_response, jwks_handler. cbn [map read_keys]. rewrite read_doc; [reflexivity|].
  cbn. eapply Hp. exact Hr.
Qed.

Lemma run_served st cs keys : (cs_expiration st <= 0)%N -> keys <> [] ->
  (forall c, In c cs -> pk_answer c = JwksDoc (Some keys) 0) ->
  forall r, In r (run_keys st cs) -> r = (KeysOk keys 0, true).
Proof.
  intros He Hk. revert st He. induction cs as [|c cs IH]; intros st He Ha r Hr; [destruct Hr|].
  cbn [run_keys] in Hr.
  assert (P : public_keys st c = (mkClientState (Some keys) 0, KeysOk keys 0, true)).
  { unfold public_keys. rewrite (Ha c (or_introl eq_refl)).
    assert ((pk_now1 c <? cs_expiration st)%N = false) as ->.
    { apply N.ltb_ge. eapply N.le_trans; [exact He|]. apply N.le_0_l. }
    destruct keys; [contradiction|]. cbn [N.ltb N.compare andb]. destruct (cs_jwks st); reflexivity. }
  rewrite P in Hr. destruct Hr as [<-|Hr]; [reflexivity|].
  apply (IH (mkClientState (Some keys) 0)); auto; [apply N.le_refl|]. intros c' Hc'. apply Ha. right. exact Hc'.
Qed.

Lemma C120_always_asked_proof : forall sound of_ec doc k ks cs r,
  point_stays sound -> started sound doc k ks -> answered_by sound of_ec ks cs ->
  In r (run_keys fresh_client cs) -> exists k', public_part k k' /\ r = (KeysOk [of_ec k'] 0, true).
Proof.
  intros sound of_ec doc k ks cs r Hp Hs Ha Hr.
  destruct (C120_served_key_proof sound of_ec doc k ks Hp Hs) as (k' & Hk & Hk'). exists k'. split; [exact Hk|].
  apply (run_served fresh_client cs [of_ec k']); [apply N.le_refl|discriminate| |exact Hr].
  intros c Hc. rewrite (Ha c Hc). exact Hk'.
Qed.

Lemma C120_verifies_proof : forall A E (dec : string -> option A) pub sign sound of_ec doc k ks cs keys exp asked typ c raw,
  jose_works E dec pub sign -> keeps of_ec pub -> point_stays sound ->
  started sound doc k ks -> ec_use k <> "enc"%string ->
  answered_by sound of_ec ks cs -> In (KeysOk keys exp, asked) (run_keys fresh_client cs) ->
  jwt_serialize sign typ false (Some (KKey (of_ec k))) c = Some raw ->
  verifier_claims E dec (Some keys) raw = Some c.
Proof.
  intros A E dec pub sign sound of_ec doc k ks cs keys exp ask typ c raw (Hpub & Hjose) Hk Hp Hs Hu Ha Hr Hser.
  destruct (C120_always_asked_proof _ _ _ _ _ _ _ Hp Hs Ha Hr) as (k' & (B1 & B2 & B3 & B4 & B5 & B6 & B7) & Heq). injection Heq as -> _ _.
  apply serialize_inv in Hser as (k0 & [= <-] & Hid & Hsg). apply Hjose in Hsg as (P1 & P2 & P3).
  destruct Hk as (Hk & Hm). destruct (Hk k) as (K1 & K2). destruct (Hk k') as (K3 & K4). destruct (Hpub (of_ec k)) as (Q1 & Q2).
  specialize (Hm k k' B1 B2 B3 B4).
  assert (K : of_ec k' = pub (of_ec k)).
  { destruct (of_ec k') as [i u mt], (pub (of_ec k)) as [i' u' mt']. cbn in *. congruence. }
  apply verifier_claims_iff. split; [|exact P3].
  exists (mkJws (Some typ) (k_id (of_ec k)) None), (pub (of_ec k)). rewrite K.
  repeat split; auto; [left; reflexivity|congruence].
Qed.

Lemma C120_settings_proof : forall sound, sound "P-384"%string (text_or "x" settings_doc) (text_or "y" settings_doc) (text_at "d" settings_doc) = true ->
  exists k ks, started sound settings_doc k ks /\ ec_d k <> None /\ ec_use k <> "enc"%string /\ ec_kid k <> ""%string /\
    ec_alg k = "ES384"%string.
Proof.
  intros sound H. unfold started, key_provider, key_set_provider.
  assert (R : read_key sound settings_doc = Some (mkEc "P-384" (text_or "x" settings_doc) (text_or "y" settings_doc)
    (text_at "d" settings_doc) "123456789" "ES384" "sig")).
  { unfold read_key. vm_compute in H |- *. rewrite H. reflexivity. }
  rewrite R. do 2 eexists. split; [split; reflexivity|]. cbn. repeat split; discriminate.
Qed.

Lemma C120_failure_proof : forall sound of_ec st c,
  pk_answer c = read_response sound of_ec (jwks_handler None) ->
  jwks_handler None = KeysFailed 500 /\
  let '(st', r, asked) := public_keys st c in
  st' = st /\ (asked = true -> r = KeysErr) /\ r <> KeysPanic.
Proof.
  intros sound of_ec st c Ha. split; [reflexivity|]. unfold public_keys. rewrite Ha. cbn.
  destruct (cs_jwks st) as [keys|]; [|repeat split; discriminate].
  destruct (_ <? _)%N; repeat split; try discriminate.
Qed.

Lemma C120_nil_set_refuted_proof : forall sound of_ec c,
  pk_answer c = read_response sound of_ec (jwks_handler (Some None)) ->
  snd (fst (public_keys fresh_client c)) = KeysPanic.
Proof. intros sound of_ec c Ha. unfold public_keys. rewrite Ha. reflexivity. Qed.

Lemma C120_any_provider_refuted_proof : forall k d, ec_d k = Some d ->
  exists doc, jwks_handler (Some (Some [k])) = KeysSent [doc] /\ In ("d"%string, JsStr d) doc.
Proof.
  intros k d Hd. exists (key_doc k). split; [reflexivity|]. unfold key_doc. rewrite Hd, !in_app_iff. cbn. tauto.
Qed.

(** ** C121 *)

Lemma C121_profiles_proof : forall name p, strict_profile name = Some p ->
  In name ["web"; "native"; "device"; "service"]%string /\
  (forall g, In g (pr_grants p) -> In g announced_grant_types) /\
  (forall m, In m (pr_auth p) -> In m announced_auth_methods) /\
  pr_grants p <> [] /\ pr_auth p <> [] /\ pr_responses p <> [].
Proof.
  intros name p H. unfold strict_profile in H.
  repeat match type of H with
  | context[String.eqb name ?x] => destruct (String.eqb_spec name x) as [->|]
  end; try discriminate; injection H as <-; cbn [pr_grants pr_auth pr_responses];
  (split; [cbn; tauto|]); repeat split; try discriminate; cbn; intros g Hg; tauto.
Qed.

Lemma C121_purposes_proof : forall name p, strict_profile name = Some p ->
  (In "authorization_code" (pr_grants p) <-> name = "web" \/ name = "native")%string /\
  (In "refresh_token" (pr_grants p) <-> name = "native" \/ name = "device")%string /\
  (In "urn:ietf:params:oauth:grant-type:device_code" (pr_grants p) <-> name = "device")%string /\
  (In "client_credentials" (pr_grants p) <-> name = "service")%string.
Proof.
  intros name p H. unfold strict_profile in H.
  repeat match type of H with
  | context[String.eqb name ?x] => destruct (String.eqb_spec name x) as [->|]
  end; try discriminate; injection H as <-; cbn [pr_grants In];
  repeat split; intros; repeat match goal with K : _ \/ _ |- _ => destruct K end; try discriminate; auto; tauto.
Qed.

Lemma C121_response_types_refuted_proof :
  exists p r, strict_profile "service" = Some p /\ In r (pr_responses p) /\ ~ In r announced_response_types.
Proof.
  eexists. exists "token"%string. split; [reflexivity|]. split; [left; reflexivity|]. cbn. intros [H|[]]. discriminate.
Qed.

Lemma listed_in E l x : names_apart E -> (forall y, In y l -> In y (["code"; "token"] ++ announced_grant_types)%list) ->
  In x (["code"; "token"] ++ announced_grant_types)%list -> listed E l x -> In x l.
Proof. intros Ha Hl Hx (y & Hy & Hf). rewrite (Ha x y); auto. Qed.

Lemma strict_grants name c p : strict_profile name = Some p -> cl_grant_types c = pr_grants p ->
  forall y, In y (cl_grant_types c) -> In y (["code"; "token"] ++ announced_grant_types)%list.
Proof.
  intros Hp -> y Hy. apply in_or_app. right. apply (C121_profiles_proof _ _ Hp) in Hy. exact Hy.
Qed.

Lemma C121_grants_proof : forall E w xs i iss t a name m c p,
  registry_ok w -> names_apart E -> In (EvCall i (CTokCreate iss t) a) (history E w xs) ->
  t_meta t = Some m -> w_clients w (m_client_id m) = Some c ->
  strictly_registered name c -> strict_profile name = Some p ->
  exists req, In (EvStart i (RToken (Some req))) (history E w xs) /\ In (tq_grant_type req) (pr_grants p).
Proof.
  intros E w xs i iss t a name m c p Hr Ha Hin Hm Hc (p' & P1 & P2 & _) Hp.
  rewrite Hp in P1. injection P1 as <-.
  destruct (C78_tokens_need_registered_grant_proof _ _ _ _ _ _ _ Hr Hin) as (req & c' & m' & Q1 & (au & Q2 & Q3) & _ & Q4 & Q5 & Q6).
  rewrite Hm in Q5. injection Q5 as <-. assert (c' = c).
  { pose proof (Hr _ _ Q3) as R. rewrite <- R, <- Q6 in Q3. congruence. } subst c'.
  exists req. split; [exact Q1|]. rewrite <- P2. apply (listed_in E); auto; [eapply strict_grants; eauto|].
  pose proof Hin as Hin'. apply in_split in Hin' as (h1 & h2 & Hh).
  destruct (write_reason _ _ _ _ _ _ _ _ Hh) as (r & R1 & req' & -> & auth & c' & m' & tm & H1 & H2 & _ & H4 & _ & _ & H7 & _).
  assert (In (EvStart i (RToken (Some req'))) (history E w xs)) as R2 by (rewrite Hh; apply in_or_app; auto).
  destruct (trace_history E w xs) as (sy & Htr & _).
  pose proof (start_unique _ _ _ _ _ _ _ Htr R2 Q1) as Heq. injection Heq as ->.
  apply PfDev3.grant_type_of in H7. apply in_or_app. right.
  destruct (tq_grant req); [destruct H7|..]; rewrite H7; cbn; tauto.
Qed.

Lemma C121_codes_proof : forall E w xs i q res name c,
  names_apart E -> authorize_ok_at (history E w xs) i q res ->
  w_clients w (zr_client_id res) = Some c -> strictly_registered name c ->
  (name = "web" \/ name = "native")%string /\
  exists eff, effective (history E w xs) i q eff /\ ar_response_type eff = "code"%string.
Proof.
  intros E w xs i q res name c Ha Hok Hc (p & P1 & P2 & P3).
  destruct (C25_authorize_valid_requests_proof _ _ _ _ _ _ Hok)
    as (eff & stored & c' & a & H1 & _ & _ & _ & _ & H6 & _ & _ & _ & H10 & H11 & H12 & _ & _ & _ & _ & _ & _ & _ & _ & _ & _ & H22 & _ & _).
  rewrite H22, H10 in Hc. injection Hc as ->.
  assert (G : In "authorization_code"%string (cl_grant_types c)).
  { apply (listed_in E); auto; [eapply strict_grants; eauto|]. cbn. tauto. }
  assert (R : In (ar_response_type eff) (cl_response_types c)).
  { apply (listed_in E); auto; [|destruct H6 as [->| ->]; cbn; tauto]. rewrite P3. clear -P1.
    unfold strict_profile in P1. repeat match type of P1 with
    | context[String.eqb name ?x] => destruct (String.eqb_spec name x) as [->|]
    end; try discriminate; injection P1 as <-; cbn; intuition. }
  rewrite P2 in G. rewrite P3 in R. clear P2 P3 H12 H11. unfold strict_profile in P1.
  repeat match type of P1 with
  | context[String.eqb name ?x] => destruct (String.eqb_spec name x) as [->|]
  end; try discriminate; injection P1 as <-; cbn in G, R;
  (split; [|exists eff; split; [exact H1|]]); intuition (try discriminate; auto).
Qed.

Lemma C121_no_refresh_proof : forall E w xs i req res name c,
  registry_ok w -> names_apart E -> token_ok (history E w xs) i req res -> client_of w req c ->
  strictly_registered name c ->
  tq_grant_type req = "refresh_token"%string -> (name = "native" \/ name = "device")%string.
Proof.
  intros E w xs i req res name c Hr Ha Hok (au & U1 & U2) (p & P1 & P2 & _) Hg.
  destruct (C78_success_needs_registered_grant_proof _ _ _ _ _ _ Hr Hok) as (c' & (au' & V1 & V2) & _ & Hl).
  rewrite U1 in V1. injection V1 as <-. rewrite U2 in V2. injection V2 as <-.
  rewrite Hg in Hl. assert (G : In "refresh_token"%string (cl_grant_types c)).
  { apply (listed_in E); auto; [eapply strict_grants; eauto|]. cbn. tauto. }
  rewrite P2 in G. unfold strict_profile in P1.
  repeat match type of P1 with
  | context[String.eqb name ?x] => destruct (String.eqb_spec name x) as [->|]
  end; try discriminate; injection P1 as <-; cbn in G; intuition (try discriminate; auto).
Qed.

(** A world with one client, registered with what the profile gives to its application type. *)
Definition strict_client (name : string) : client :=
  match strict_profile name with
  | Some p => mkClient "app" CtConfidential [cb] (pr_responses p) ["query"; "query.jwt"] (pr_grants p) "App" "app-jwks" "" "" false
  | None => webapp
  end.
Definition strict_world (name : string) : world :=
  init_world (1000 * second) (upd empty "app" (Some (strict_client name))).
Lemma strict_registry : registry_ok (strict_world "web").
Proof.
  intros id c. cbn. unfold upd, empty. destruct (String.eqb_spec id "app") as [->|]; intros H; inversion H; reflexivity.
Qed.

Definition apart_b (fold : N -> N) (l : list string) : bool :=
  forallb (fun a => forallb (fun b => negb (equal_fold fold a b) || String.eqb a b) l) l.
Lemma demo_apart : names_apart demo_ext.
Proof.
  assert (H : apart_b (x_fold demo_ext) (["code"; "token"] ++ announced_grant_types)%list = true) by (vm_compute; reflexivity).
  intros a b Ha Hb Hf. unfold apart_b in H. rewrite forallb_forall in H. specialize (H a Ha).
  rewrite forallb_forall in H. specialize (H b Hb). apply equal_fold_iff in Hf. rewrite Hf in H. apply String.eqb_eq. exact H.
Qed.

Lemma C121_web_refresh_refuted_proof : exists E w xs i req res c,
  registry_ok w /\ names_apart E /\ token_ok (history E w xs) i req res /\ client_of w req c /\ strictly_registered "web" c /\
  tr_rt res <> None.
Proof.
  exists demo_ext, (strict_world "web"), x_code, 1%nat, (redeem webapp "code-1"). eexists. exists (strict_client "web").
  split; [apply strict_registry|]. split; [exact demo_apart|]. split; [demo_ok|].
  split; [exists webapp; split; reflexivity|]. split; [eexists; repeat split; reflexivity|].
  vm_compute. discriminate.
Qed.
