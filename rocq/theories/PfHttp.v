(** * Proofs: the client's key cache, the resource server *)

From Verif Require Export SpecHttp PfTok PfCompare CallFacts ClientHttp.
From Coq Require Import ZArith Lia.

(** ** The key cache *)

Lemma last_fetched_snoc h r f :
  last_fetched (h ++ [(r, f)])%list =
  match r, f with KeysOk keys exp, true => Some (keys, exp) | _, _ => last_fetched h end.
Proof.
  induction h as [|[r0 f0] h IH]; cbn [last_fetched app].
  - destruct r, f; reflexivity.
  - rewrite IH. destruct r as [k e| |]; try reflexivity. destruct f; reflexivity.
Qed.

Definition cache_is (st : client_state) (x : option (list jwk * N)) : Prop :=
  match x with
  | Some (keys, exp) => st = mkClientState (Some keys) exp
  | None => cs_jwks st = None
  end.

Lemma public_keys_step st c h r f st' : cache_is st (last_fetched h) ->
  public_keys st c = (st', r, f) ->
  cache_is st' (last_fetched (h ++ [(r, f)])%list) /\
  (f = false <-> exists keys exp, last_fetched h = Some (keys, exp) /\ (pk_now1 c < exp)%N) /\
  (f = false -> exists keys exp, last_fetched h = Some (keys, exp) /\ r = KeysOk keys exp) /\
  (f = true -> forall keys exp, r = KeysOk keys exp ->
     pk_answer c = JwksDoc (Some keys) exp /\ keys <> [] /\ (exp = 0 \/ pk_now2 c <= exp)%N).
Proof.
  intros Hc H. rewrite last_fetched_snoc. unfold public_keys in H. cbv zeta in H.
  assert (F : match pk_answer c with
      | JwksFails => (st, KeysErr, true)
      | JwksDoc None _ => (st, KeysPanic, true)
      | JwksDoc (Some []) _ => (st, KeysErr, true)
      | JwksDoc (Some ((_ :: _) as keys)) exp =>
          if (0 <? exp)%N && (exp <? pk_now2 c)%N then (st, KeysErr, true)
          else (mkClientState (Some keys) exp, KeysOk keys exp, true)
      end = (st', r, f) ->
      f = true /\
      cache_is st' (match r with KeysOk keys exp => Some (keys, exp) | _ => last_fetched h end) /\
      (forall keys exp, r = KeysOk keys exp ->
        pk_answer c = JwksDoc (Some keys) exp /\ keys <> [] /\ (exp = 0 \/ pk_now2 c <= exp)%N)).
  { clear H. destruct (pk_answer c) as [|[[|k ks]|] exp]; intros H.
    - injection H as <- <- <-. repeat split; auto; discriminate.
    - injection H as <- <- <-. repeat split; auto; discriminate.
    - destruct ((0 <? exp)%N && (exp <? pk_now2 c)%N) eqn:Hb; injection H as <- <- <-.
      + repeat split; auto; discriminate.
      + split; [reflexivity|]. split; [reflexivity|]. intros keys exp' [= <- <-].
        split; [reflexivity|]. split; [discriminate|].
        apply andb_false_iff in Hb as [Hb|Hb]; apply N.ltb_ge in Hb; lia.
    - injection H as <- <- <-. repeat split; auto; discriminate. }
  destruct (cs_jwks st) as [ks|] eqn:Hj.
  - destruct (last_fetched h) as [[keys exp]|] eqn:Hl; [|cbn [cache_is] in Hc; congruence].
    cbn [cache_is] in Hc. subst st. cbn [cs_jwks cs_expiration] in *. injection Hj as <-.
    destruct (pk_now1 c <? exp)%N eqn:Ht.
    + injection H as <- <- <-. apply N.ltb_lt in Ht. split; [reflexivity|]. split.
      * split; eauto.
      * split; [intros _; eauto|discriminate].
    + apply F in H as (-> & Hs & Hr). apply N.ltb_ge in Ht. split; [destruct r; exact Hs|].
      split; [split; [discriminate|]|split; [discriminate|auto]].
      intros (k & e & [= <- <-] & Hlt). lia.
  - destruct (last_fetched h) as [[keys exp]|] eqn:Hl; [cbn [cache_is] in Hc; subst st; discriminate|].
    apply F in H as (-> & Hs & Hr). split; [destruct r; exact Hs|].
    split; [split; [discriminate|]|split; [discriminate|auto]].
    intros (k & e & [=] & _).
Qed.

Lemma run_keys_facts cs : forall st h i c r f, cache_is st (last_fetched h) ->
  nth_error cs i = Some c -> nth_error (run_keys st cs) i = Some (r, f) ->
  let before := (h ++ firstn i (run_keys st cs))%list in
  (f = false <-> exists keys exp, last_fetched before = Some (keys, exp) /\ (pk_now1 c < exp)%N) /\
  (f = false -> exists keys exp, last_fetched before = Some (keys, exp) /\ r = KeysOk keys exp) /\
  (f = true -> forall keys exp, r = KeysOk keys exp ->
     pk_answer c = JwksDoc (Some keys) exp /\ keys <> [] /\ (exp = 0 \/ pk_now2 c <= exp)%N).
Proof.
  induction cs as [|c0 cs IH]; intros st h i c r f Hc Hi Hr; [destruct i; discriminate|].
  cbn [run_keys] in *. destruct (public_keys st c0) as [[st' r0] f0] eqn:Hp.
  pose proof (public_keys_step _ _ _ _ _ _ Hc Hp) as (Hc' & F).
  destruct i as [|i]; cbn [nth_error firstn] in *.
  - injection Hi as ->. injection Hr as -> ->. cbv zeta. rewrite app_nil_r. exact F.
  - specialize (IH _ _ _ _ _ _ Hc' Hi Hr). cbv zeta in *. rewrite <- app_assoc in IH. exact IH.
Qed.

Lemma C55_key_cache_proof : forall cs i c r f,
  nth_error cs i = Some c -> nth_error (run_keys fresh_client cs) i = Some (r, f) ->
  let before := firstn i (run_keys fresh_client cs) in
  (f = false <-> exists keys exp, last_fetched before = Some (keys, exp) /\ (pk_now1 c < exp)%N) /\
  (f = false -> exists keys exp, last_fetched before = Some (keys, exp) /\ r = KeysOk keys exp) /\
  (f = true -> forall keys exp, r = KeysOk keys exp ->
     pk_answer c = JwksDoc (Some keys) exp /\ keys <> [] /\ (exp = 0 \/ pk_now2 c <= exp)%N).
Proof.
  intros cs i c r f Hi Hr. exact (run_keys_facts cs fresh_client [] i c r f eq_refl Hi Hr).
Qed.

(** ** The resource server *)

Lemma split_space_some s x y : split_space s = (x, Some y) -> s = (x ++ " " ++ y)%string.
Proof.
  revert x; induction s as [|a s IH]; cbn [split_space]; intros x H; [discriminate|].
  destruct (Ascii.eqb a " ") eqn:Ha.
  - apply Ascii.eqb_eq in Ha. injection H as <- <-. subst a. reflexivity.
  - destruct (split_space s) as [x' y'] eqn:Hs. injection H as <- ->. rewrite (IH x' eq_refl). reflexivity.
Qed.

Lemma identity_of_ret t tr id : reach (identity_of t) tr (Ret (Some id)) ->
  tr = [] /\ exists m, rt_meta t = Some m /\
    id = mkIdentity (rm_subject m) (rm_client_id m) (rm_auth_time m) (rm_acr m).
Proof.
  unfold identity_of. intros H. destruct (rt_meta t) as [m|]; rstep H. injection H as ->. eauto.
Qed.

Definition admitted_by (E : ext) (assertion : option string) (introspect : string -> string -> outcome (option rs_token)) (r : http_request) (tr : list (call * answer)) (id : identity) : Prop :=
  exists a token (t : rs_token) m, assertion = Some a /\ introspect a token = Done (Some t) /\ rt_active t = true /\
    rt_meta t = Some m /\ id = mkIdentity (rm_subject m) (rm_client_id m) (rm_auth_time m) (rm_acr m) /\
    ((authorization E r "bearer" token /\ rt_cnf t = None) \/
     (authorization E r "dpop" token /\ exists thumb, rt_cnf t = Some thumb /\
        runs (dpop_verify E (hq_method r) (url_of r) (hq_header r "DPoP") (Some token) None) tr (Done (Some thumb)))).

Lemma bearer_inv E assertion introspect r tr id :
  reach (authenticate_bearer E assertion introspect r) tr (Ret (Some id)) ->
  admitted_by E assertion introspect r tr id.
Proof.
  unfold authenticate_bearer. intros H.
  destruct (split_space (hq_header r "Authorization")) as [s v] eqn:Hs.
  rstep H; [rstep H; discriminate|]. norm_bool.
  destruct assertion as [a|]; [|rstep H; discriminate].
  destruct v as [v|]; [|rstep H].
  destruct (introspect a v) as [[t|]|] eqn:Hi; [|rstep H; discriminate|rstep H].
  destruct (rt_active t) eqn:Ha; [|rstep H; discriminate]. cbn [negb] in H.
  destruct (rt_cnf t) eqn:Hc; [rstep H; discriminate|].
  apply identity_of_ret in H as (-> & m & Hm & ->).
  exists a, v, t, m. repeat split; auto. left. split; auto. exists s. split; [apply equal_fold_iff; auto|].
  apply split_space_some; auto.
Qed.

Lemma dpop_inv E assertion introspect r tr id :
  reach (authenticate_dpop E assertion introspect r) tr (Ret (Some id)) ->
  admitted_by E assertion introspect r tr id.
Proof.
  unfold authenticate_dpop. intros H.
  destruct (split_space (hq_header r "Authorization")) as [s v] eqn:Hs.
  rstep H; [rstep H; discriminate|]. norm_bool.
  destruct v as [v|]; [|rstep H].
  apply reach_bind_ret in H as (jkt & t1 & t2 & -> & H1 & H).
  destruct jkt as [jkt|]; [|rstep H; discriminate].
  destruct assertion as [a|]; [|rstep H; discriminate].
  destruct (introspect a v) as [[t|]|] eqn:Hi; [|rstep H; discriminate|rstep H].
  destruct (rt_active t) eqn:Ha; [|rstep H; discriminate]. cbn [negb] in H.
  destruct (rt_cnf t) as [cnf|] eqn:Hc; [|rstep H; discriminate].
  destruct (secure_compare jkt cnf) eqn:Hsc; [|rstep H; discriminate]. cbn [negb] in H.
  apply C39_secure_compare_proof in Hsc. subst cnf.
  apply identity_of_ret in H as (-> & m & Hm & ->). rewrite app_nil_r.
  exists a, v, t, m. repeat split; auto. right. split; [|eauto].
  exists s. split; [apply equal_fold_iff; auto|]. apply split_space_some; auto.
Qed.

Lemma check_acr_next E perms intent acr id : check_acr E perms intent acr id = RsNext ->
  permitted E perms intent (id_client id) (id_subject id) /\
  (forall a, id_acr id = Some a -> acr <> [] -> listed E acr a).
Proof.
  unfold check_acr. cbv zeta. intros H. split.
  - destruct (match acr with [] => _ | _ :: _ => _ end); [discriminate|].
    unfold can in H. unfold permitted.
    destruct (perms intent) as [cl|]; [|discriminate]. destruct (cl (id_client id)) as [su|] eqn:Hsu; [|discriminate].
    destruct (contains (x_fold E) su (id_subject id)) eqn:Hc; [|discriminate].
    exists cl, su. repeat split; auto. apply has_iff. exact Hc.
  - intros a Ha Hne. rewrite Ha in H. destruct acr as [|x l]; [congruence|].
    destruct (contains (x_fold E) (x :: l) a) eqn:Hc; [|discriminate]. apply has_iff. exact Hc.
Qed.

Lemma check_context_next E perms intent acr max_age id tr :
  reach (check_context E perms intent acr max_age id) tr (Ret RsNext) ->
  check_acr E perms intent acr id = RsNext /\
  (forall t0, id_auth_time id = Some t0 -> (0 < max_age)%N -> (max_age + t0 < 2 ^ 64)%N ->
     exists t1, In (CNow, ATime t1) tr /\ (t0 <= unix t1 <= t0 + max_age)%N).
Proof.
  unfold check_context. intros H. destruct (id_auth_time id) as [at_|].
  - destruct (0 <? max_age)%N eqn:Hm.
    + rstep H. rstep H; [rstep H; discriminate|]. rstep H. subst. split; [auto|].
      intros t0 [= ->] _ Hb. eexists. split; [left; reflexivity|].
      apply N.ltb_ge in Heqb. unfold sub64 in Heqb. destruct (t0 <=? unix x)%N eqn:Hl.
      * apply N.leb_le in Hl. lia.
      * apply N.leb_gt in Hl. exfalso. revert Heqb Hb Hl. generalize (unix x). generalize (2 ^ 64)%N. intros. lia.
    + rstep H. split; [auto|]. apply N.ltb_ge in Hm. intros; lia.
  - rstep H. split; [auto|]. intros; discriminate.
Qed.

Lemma C56_admission_partial_proof : forall E lower perms assertion introspect intent acr max_age r tr,
  runs (authorizer E lower perms assertion introspect intent acr max_age r) tr (Done RsNext) ->
  exists a token t m, assertion = Some a /\ introspect a token = Done (Some t) /\ rt_active t = true /\ rt_meta t = Some m /\
    ((authorization E r "bearer" token /\ rt_cnf t = None) \/
     (authorization E r "dpop" token /\ exists thumb, rt_cnf t = Some thumb /\ proof_accepted E r (Some token) tr thumb)) /\
    permitted E perms intent (rm_client_id m) (rm_subject m) /\
    (forall t0, rm_auth_time m = Some t0 -> (0 < max_age)%N -> (max_age + t0 < 2 ^ 64)%N ->
       exists t1, In (CNow, ATime t1) tr /\ (t0 <= unix t1 <= t0 + max_age)%N) /\
    (forall a0, rm_acr m = Some a0 -> acr <> [] -> listed E acr a0).
Proof.
  intros E lower perms assertion introspect intent acr max_age r tr H. cbn [runs] in H.
  unfold authorizer in H. cbv zeta in H.
  rstep H; [rstep H; discriminate|].
  assert (K : exists id t1 t2, tr = (t1 ++ t2)%list /\ admitted_by E assertion introspect r t1 id /\
     reach (check_context E perms intent acr max_age id) t2 (Ret RsNext)).
  { rstep H.
    - apply reach_bind_ret in H as (id & t1 & t2 & -> & H1 & H). destruct id as [id|]; [|rstep H; discriminate].
      exists id, t1, t2. repeat split; auto. apply bearer_inv; auto.
    - rstep H; [|rstep H; discriminate].
      apply reach_bind_ret in H as (id & t1 & t2 & -> & H1 & H). destruct id as [id|]; [|rstep H; discriminate].
      exists id, t1, t2. repeat split; auto. apply dpop_inv; auto. }
  clear H. destruct K as (id & t1 & t2 & -> & (a & token & t & m & Ha & Hi & Hact & Hm & -> & Hk) & H).
  apply check_context_next in H as (Hacr & Htime). apply check_acr_next in Hacr as (Hp & Hacr).
  cbn in *. exists a, token, t, m. repeat (split; [assumption|]). split.
  - destruct Hk as [Hk|(Hk & thumb & Hc & Hr)]; [left; exact Hk|right]. split; [exact Hk|].
    exists thumb. split; [exact Hc|]. exists [], t1, t2. split; [reflexivity|exact Hr].
  - split; [exact Hp|]. split; [|exact Hacr].
    intros t0 H0 H1 H2. destruct (Htime t0 H0 H1 H2) as (t' & Hin & Hb). exists t'.
    split; [apply in_or_app; right; exact Hin|exact Hb].
Qed.

(** The document of the introspection endpoint. *)
Lemma C61_document_partial_proof : forall t m now, t_meta t = Some m ->
  let d := introspection_doc t m now in
  (Client.get "active" d = Some (JBool true) <-> usable_at t now) /\
  (usable_at t now ->
     Client.get "client_id" d = Some (JStr (m_client_id m)) /\ Client.get "scope" d = Some (JStr (m_scope m)) /\
     Client.get "sub" d = Some (JStr (m_subject m)) /\
     Client.get "cnf" d = match t_cnf t with Some jkt => Some (JObj [("jkt"%string, JStr jkt)]) | None => None end) /\
  (~ usable_at t now -> d = [("active"%string, JBool false)]).
Proof.
  intros t m now Hm d. subst d. rewrite <- !usable_iff. unfold introspection_doc.
  destruct (is_active (t_status t) && is_usable (Some t) now); cbn [Client.get String.eqb Ascii.eqb Bool.eqb].
  - split; [tauto|]. split; [|congruence]. intros _. destruct (t_cnf t); cbn; auto.
  - split; [split; discriminate|]. split; [discriminate|reflexivity].
Qed.

(** Whatever document the server answers with, the client panics; it never returns a token. *)
Lemma C61_client_crashes_refuted_proof : forall value d, introspection_result value (HDoc d) = Crashed.
Proof. reflexivity. Qed.
Lemma no_token value resp t : introspection_result value resp <> Done (Some t).
Proof. destruct resp; discriminate. Qed.

Lemma C61_nobody_admitted_refuted_proof : forall E lower perms assertion answer intent acr max_age r tr,
  ~ runs (authorizer E lower perms assertion (fun a v => introspection_result v (answer a v)) intent acr max_age r)
      tr (Done RsNext).
Proof.
  intros E lower perms assertion answer intent acr max_age r tr H.
  apply C56_admission_partial_proof in H as (a & token & t & m & _ & H & _). exact (no_token _ _ _ H).
Qed.

Lemma split_space_word s token : split_space s = (s, None) -> split_space (s ++ " " ++ token) = (s, Some token).
Proof.
  intros Hs. induction s as [|b s IH]; [reflexivity|]. cbn [split_space] in *.
  change ((String b s ++ " " ++ token)%string) with (String b (s ++ " " ++ token)). cbn [split_space].
  destruct (Ascii.eqb b " "); [discriminate|].
  destruct (split_space s) as [x y] eqn:Hx. injection Hs as -> ->. rewrite (IH eq_refl). reflexivity.
Qed.

(** With the SDK client a request with a bearer token ends in a panic as soon as the server
    answers the introspection. *)
Lemma C61_bearer_crashes_refuted_proof : forall E lower perms answer intent acr max_age r a s token d,
  hq_header r "Authorization" = (s ++ " " ++ token)%string -> split_space s = (s, None) ->
  equal_fold (x_fold E) s "bearer" = true -> String.prefix "bearer" (lower (s ++ " " ++ token)%string) = true ->
  answer a token = HDoc d ->
  runs (authorizer E lower perms (Some a) (fun a v => introspection_result v (answer a v)) intent acr max_age r)
    [] Crashed.
Proof.
  intros E lower perms answer intent acr max_age r a s token d Hh Hs He Hl Ha.
  cbn [runs]. unfold authorizer. cbv zeta. rewrite Hh.
  assert (Hn : is_empty (s ++ " " ++ token) = false) by (destruct s; reflexivity).
  rewrite Hn, Hl. unfold authenticate_bearer. rewrite Hh.
  rewrite (split_space_word _ _ Hs), He. cbn [negb]. rewrite Ha. cbn. constructor.
Qed.

(** Whatever authentication age and context are required, a bearer token of a permitted
    client and subject passes when its introspection does not tell them. *)
Lemma C56_no_context_refuted_proof : forall E lower perms introspect intent acr max_age r a s token t m,
  introspect a token = Done (Some t) -> rt_active t = true -> rt_meta t = Some m -> rt_cnf t = None ->
  rm_auth_time m = None -> rm_acr m = None ->
  hq_header r "Authorization" = (s ++ " " ++ token)%string -> split_space s = (s, None) ->
  equal_fold (x_fold E) s "bearer" = true -> String.prefix "bearer" (lower (s ++ " " ++ token)%string) = true ->
  permitted E perms intent (rm_client_id m) (rm_subject m) ->
  runs (authorizer E lower perms (Some a) introspect intent acr max_age r) [] (Done RsNext).
Proof.
  intros E lower perms introspect intent acr max_age r a s token t m Hi Hact Hm Hc Hat Hacr Hh Hs He Hl Hp.
  cbn [runs]. unfold authorizer. cbv zeta. rewrite Hh.
  assert (Hn : is_empty (s ++ " " ++ token) = false) by (destruct s; reflexivity).
  rewrite Hn, Hl. unfold authenticate_bearer. rewrite Hh.
  rewrite (split_space_word _ _ Hs), He. cbn [negb]. rewrite Hi, Hact, Hc. unfold identity_of. rewrite Hm.
  cbn [negb bind]. unfold check_context. cbn [id_auth_time]. rewrite Hat.
  assert (Hk : check_acr E perms intent acr (mkIdentity (rm_subject m) (rm_client_id m) None (rm_acr m)) = RsNext).
  { unfold check_acr. cbv zeta. cbn [id_acr]. rewrite Hacr. destruct Hp as (cl & su & P1 & P2 & P3).
    assert (Hcan : can E perms (mkIdentity (rm_subject m) (rm_client_id m) None None) intent = true).
    { unfold can. rewrite P1. cbn [id_client]. rewrite P2. apply has_iff. exact P3. }
    rewrite Hcan. destruct acr; reflexivity. }
  rewrite Hk. constructor.
Qed.
