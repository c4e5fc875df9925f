(** * Proofs: the handlers are made of service requests *)

From Verif Require Export PfRef.
From Coq Require Import Lia.

Section Handlers.
Context (S : http_server).
Notation E := (sv_ext S).
Implicit Types (may : list item -> request -> Prop) (fin : list item -> outcome http_response -> Prop).

Lemma gl_call {X} (C : X -> response) inv may fin x (p : prog X) f d :
  serve E x = pmap C p ->
  (forall a, inv (C a) = Some a) -> (forall y a, inv y = Some a -> y = C a) ->
  may d x -> (forall j a, glued E may fin (d ++ [Served j x (C a)])%list (f a)) ->
  glued E may fin d (bind p f).
Proof.
  intros Hs H1 H2 Hm Hf. eapply gl_stage with (x := x); [exact Hm| |].
  - rewrite Hs. apply peq_pmap. exact H1.
  - intros j y. cbv beta. destruct (inv y) as [a|] eqn:Hy; [|constructor]. rewrite (H2 y a Hy). apply Hf.
Qed.

Lemma gl_token may fin q f d : may d (RToken q) ->
  (forall j a, glued E may fin (d ++ [Served j (RToken q) (PToken a)])%list (f a)) -> glued E may fin d (bind (token_svc E q) f).
Proof. apply (gl_call PToken (fun y => match y with PToken a => Some a | _ => None end)); auto; intros [] ?; congruence. Qed.
Lemma gl_introspect may fin q f d : may d (RIntrospect q) ->
  (forall j a, glued E may fin (d ++ [Served j (RIntrospect q) (PIntrospect a)])%list (f a)) -> glued E may fin d (bind (introspect_svc E q) f).
Proof. apply (gl_call PIntrospect (fun y => match y with PIntrospect a => Some a | _ => None end)); auto; intros [] ?; congruence. Qed.
Lemma gl_revoke may fin q f d : may d (RRevoke q) ->
  (forall j a, glued E may fin (d ++ [Served j (RRevoke q) (PRevoke a)])%list (f a)) -> glued E may fin d (bind (revoke_svc E q) f).
Proof. apply (gl_call PRevoke (fun y => match y with PRevoke a => Some a | _ => None end)); auto; intros [] ?; congruence. Qed.
Lemma gl_register may fin q f d : may d (RRegister q) ->
  (forall j a, glued E may fin (d ++ [Served j (RRegister q) (PRegister a)])%list (f a)) -> glued E may fin d (bind (register_svc E q) f).
Proof. apply (gl_call PRegister (fun y => match y with PRegister a => Some a | _ => None end)); auto; intros [] ?; congruence. Qed.
Lemma gl_authorize may fin q f d : may d (RAuthorize q) ->
  (forall j a, glued E may fin (d ++ [Served j (RAuthorize q) (PAuthorize a)])%list (f a)) -> glued E may fin d (bind (authorize_svc E q) f).
Proof. apply (gl_call PAuthorize (fun y => match y with PAuthorize a => Some a | _ => None end)); auto; intros [] ?; congruence. Qed.
Lemma gl_dev_authorize may fin q f d : may d (RDevAuthorize q) ->
  (forall j a, glued E may fin (d ++ [Served j (RDevAuthorize q) (PDevAuthorize a)])%list (f a)) -> glued E may fin d (bind (dev_authorize_svc E q) f).
Proof. apply (gl_call PDevAuthorize (fun y => match y with PDevAuthorize a => Some a | _ => None end)); auto; intros [] ?; congruence. Qed.
Lemma gl_dev_validate may fin q f d : may d (RDevValidate q) ->
  (forall j a, glued E may fin (d ++ [Served j (RDevValidate q) (PDevValidate a)])%list (f a)) -> glued E may fin d (bind (dev_validate_svc q) f).
Proof. apply (gl_call PDevValidate (fun y => match y with PDevValidate a => Some a | _ => None end)); auto; intros [] ?; congruence. Qed.
Lemma gl_assertion may fin q f d : may d (RAssertion q) ->
  (forall j a, glued E may fin (d ++ [Served j (RAssertion q) (PAuthn a)])%list (f a)) -> glued E may fin d (bind (private_key_jwt E q) f).
Proof. apply (gl_call PAuthn (fun y => match y with PAuthn a => Some a | _ => None end)); auto; intros [] ?; congruence. Qed.
Lemma gl_attestation may fin q f d : may d (RAttestation q) ->
  (forall j a, glued E may fin (d ++ [Served j (RAttestation q) (PAuthn a)])%list (f a)) -> glued E may fin d (bind (client_attestation E q) f).
Proof. apply (gl_call PAuthn (fun y => match y with PAuthn a => Some a | _ => None end)); auto; intros [] ?; congruence. Qed.
Lemma gl_dpop may fin m u p t k f d : may d (RDpop m u p t k) ->
  (forall j a, glued E may fin (d ++ [Served j (RDpop m u p t k) (PDpop a)])%list (f a)) -> glued E may fin d (bind (dpop_verify E m u p t k) f).
Proof. apply (gl_call PDpop (fun y => match y with PDpop a => Some a | _ => None end)); auto; intros [] ?; congruence. Qed.

Lemma gl_client_get may fin id k d :
  (forall a, glued E may fin (d ++ [Saw (CClientGet id) a])%list
     (match a with AClient r => k r | _ => Stuck end)) ->
  glued E may fin d (client_get id k).
Proof. intros H. apply gl_calm; [reflexivity|]. exact H. Qed.
Lemma gl_now may fin k d :
  (forall a, glued E may fin (d ++ [Saw CNow a])%list (match a with ATime t => k t | _ => Stuck end)) ->
  glued E may fin d (now k).
Proof. intros H. apply gl_calm; [reflexivity|]. exact H. Qed.

Lemma served_here d j x y : served (d ++ [Served j x y])%list x y.
Proof. exists j. apply in_or_app; cbn; auto. Qed.
Lemma served_later d z x y : served d x y -> served (d ++ [z])%list x y.
Proof. intros [j H]. exists j. apply in_or_app; auto. Qed.
Lemma saw_here d c a : saw (d ++ [Saw c a])%list c a.
Proof. apply in_or_app; cbn; auto. Qed.
Lemma saw_later d z c a : saw d c a -> saw (d ++ [z])%list c a.
Proof. intros H. apply in_or_app; auto. Qed.
Lemma logged_later r d z c : logged_in r d c -> logged_in r (d ++ [z])%list c.
Proof.
  intros [(c0 & H1 & H2 & H3 & H4)|(H1 & res & H2 & H3 & [[H4 H5]|[H4 H5]])]; [left|right|right].
  - exists c0. auto using saw_later.
  - split; auto. exists res. auto 6 using served_later.
  - split; auto. exists res. auto 6 using served_later.
Qed.
Hint Resolve served_here served_later saw_here saw_later logged_later : glue.

Lemma own_err d st e0 : own_error st e0 -> forall e r, turned_away S r d e -> ending S e r d (Done (HError st e0)).
Proof. intros H e r Hw. cbn. auto 12. Qed.
(** Until the service is called only the middleware has called anything. *)
Definition only_authn (d : list item) : Prop :=
  forall j x y, In (Served j x y) d -> (exists q, x = RAssertion q) \/ (exists q, x = RAttestation q).
Lemma only_nil : only_authn [].
Proof. intros ? ? ? []. Qed.
Lemma only_saw c a : only_authn [Saw c a].
Proof. intros ? ? ? [H|[]]; discriminate. Qed.
Lemma only_assertion j q y : only_authn [Served j (RAssertion q) y].
Proof. intros ? ? ? [H|[]]. inversion H. eauto. Qed.
Lemma only_attestation j q y : only_authn [Served j (RAttestation q) y].
Proof. intros ? ? ? [H|[]]. inversion H. eauto. Qed.
Hint Resolve only_nil only_saw only_assertion only_attestation : glue.
Ltac single := let H := fresh in intros ? ? ? H;
  repeat match type of H with In _ (_ ++ _) => apply in_app_or in H; destruct H as [H|H] end;
  try match goal with K : only_authn ?d |- _ => match type of H with In _ d => apply K in H; destruct H as [[? ->]|[? ->]]; discriminate end end;
  cbn in H; first [contradiction|destruct H as [H|[]]; inversion H; subst; discriminate].
Ltac own := apply gl_ret; apply own_err; [solve [cbn; auto 8]|].

Lemma glued_authn e r next : e <> EAuthorize -> e <> EDevice ->
  (forall d c, only_authn d -> logged_in r d c -> glued E (may S e r) (ending S e r) d (next c)) ->
  glued E (may S e r) (ending S e r) [] (client_authentication E next r).
Proof.
  intros N1 N2 Hn. unfold client_authentication.
  destruct (is_empty (query_get r "client_id")) eqn:Hid; cbn [negb].
  - assert (Hq : query_get r "client_id" = ""%string) by (apply is_empty_true; auto).
    destruct (String.eqb _ assertion_bearer) eqn:H1.
    { apply String.eqb_eq in H1. apply gl_assertion; [split; [cbn; auto|single]|]. intros j a. cbn [app].
      assert (Hs : served [Served j (RAssertion (credentials r)) (PAuthn a)] (RAssertion (credentials r)) (PAuthn a)) by (exists j; cbn; auto).
      destruct (aa_err a) eqn:Ha.
      { own. apply ta_client; auto. right; right. split; auto. right. exists a. auto. }
      apply Hn; [auto with glue|]. right. split; auto. exists a. split; auto. }
    destruct (String.eqb _ assertion_attestation) eqn:H2.
    2:{ own. apply ta_client; auto. right; right. split; auto. left. apply String.eqb_neq in H1, H2. auto. }
    apply String.eqb_eq in H2. apply gl_attestation; [split; [cbn; auto|single]|]. intros j a. cbn [app].
    assert (Hs : served [Served j (RAttestation (credentials r)) (PAuthn a)] (RAttestation (credentials r)) (PAuthn a)) by (exists j; cbn; auto).
    destruct (aa_err a) eqn:Ha.
    { own. apply ta_client; auto. right; right. split; auto. right. exists a. auto. }
    apply Hn; [auto with glue|]. right. split; auto. exists a. split; auto.
  - apply gl_client_get. intros a. destruct a as [| | |a| | | | | | | |]; try apply gl_stuck. assert (Hq : query_get r "client_id" <> ""%string) by (intros Hq; rewrite Hq in Hid; discriminate).
    assert (Out : forall sres, (forall c, sres = SOk c -> cl_type c <> CtPublic) ->
      turned_away S r ([] ++ [Saw (CClientGet (query_get r "client_id")) (AClient sres)]) e).
    { intros sres Hc. apply ta_client; auto. right; left. split; auto. exists sres. split; auto. cbn; auto. }
    destruct a as [c| | |].
    + destruct (cl_type c) eqn:Ht; try (own; apply Out; intros c' [= <-]; rewrite Ht; discriminate).
      apply Hn; [apply only_saw|]. left. exists c. repeat split; auto. cbn; auto.
    + apply gl_panic. left. eexists. cbn; eauto.
    + own. apply Out. discriminate.
    + own. apply Out. discriminate.
Qed.

Lemma glued_basic e r next : (e = EAuthorize \/ e = EDevice) ->
  (forall u, user_logged_in r u -> glued E (may S e r) (ending S e r) [] (next u)) ->
  glued E (may S e r) (ending S e r) [] (basic_authentication next r).
Proof.
  intros He Hn. unfold basic_authentication.
  assert (Out : (forall u, ~ user_logged_in r u) -> forall n, glued E (may S e r) (ending S e r) [] (Ret (HText n))).
  { intros Hu n. apply gl_ret. right. auto. }
  destruct (hq_basic r) as [[u p]|] eqn:Hb; [|apply Out; intros u [X _]; congruence].
  destruct (_ || _) eqn:H1.
  { apply Out. intros v [X ->]. rewrite Hb in X. injection X as -> ->. discriminate H1. }
  destruct (negb (String.eqb u "hello") || _) eqn:H2.
  { apply Out. intros v [X ->]. rewrite Hb in X. injection X as -> ->. discriminate H2. }
  apply orb_false_elim in H2 as [H2 H3]. apply negb_false_iff, String.eqb_eq in H2, H3. subst.
  apply Hn. split; auto.
Qed.

Ltac msg := unfold with_error;
  match goal with |- context [match ?e with Some _ => Ret (HError _ _) | None => Panic end] =>
    let H := fresh "Hm" in destruct e as [?|] eqn:H; [apply gl_ret|apply gl_panic] end;
  cbn [ending].
(* pick the branch about the response in view *)
Ltac pick := first [ solve [eauto 8 with glue] | left; solve [eauto 8 with glue] | right; pick ].

Lemma glued_token r d c : only_authn d -> logged_in r d c -> glued E (may S EToken r) (ending S EToken r) d (token_handler E (sv_issuer S) r c).
Proof.
  intros Ho Hl. unfold token_handler. destruct (String.eqb (hq_method r) "POST") eqn:Hm; cbn [negb].
  2:{ own. apply ta_post; [cbn; auto|]. apply String.eqb_neq; auto. }
  apply String.eqb_eq in Hm. destruct c as [c|].
  2:{ own. apply ta_client; try discriminate. left; auto. }
  assert (A : forall d q, (forall j y, glued E (may S EToken r) (ending S EToken r) (d ++ [Served j (RToken q) (PToken y)]) (Http.token_answer r y))).
  { clear. intros d q j y. unfold Http.token_answer. destruct (tr_err y) eqn:He.
    - msg; pick.
    - destruct (tr_at y) as [at_|] eqn:Ha.
      + apply gl_now. intros a. destruct a; try apply gl_stuck.
        destruct (t_meta at_) as [m|] eqn:Hm.
        * apply gl_ret. cbn [ending]. split; auto. exists q, y, at_, m, t. repeat split; auto with glue.
        * apply gl_panic. cbn [ending]. right; left. exists q, y. split; auto with glue. right. split; auto.
          intros t0 Ht0. rewrite Ha in Ht0. congruence.
      + apply gl_panic. cbn [ending]. right; left. exists q, y. split; auto with glue. right. split; auto. intros t0 Ht0; congruence. }
  destruct (is_empty (hq_header r "DPoP")) eqn:Hd.
  - destruct (cl_dpop_bound c) eqn:Hb.
    { own. eapply ta_bound; eauto. apply is_empty_true; auto. }
    apply gl_token; [|apply A].
    split; [|single]. cbn [stage]. split; auto. split; auto. exists c, None. split; auto. split; auto. left. apply is_empty_true in Hd. auto.
  - apply gl_dpop.
    { split; [|single]. cbn [stage]. split; auto. split; auto. split; auto. split; eauto. intros _ Hd0. rewrite Hd0 in Hd. discriminate. }
    intros j v. destruct v as [jkt|].
    2:{ own. apply ta_proof; [cbn; auto|]. unfold proof_check. auto with glue. }
    apply gl_token; [|apply A].
    split; [|single]. cbn [stage]. split; auto. split; auto. exists c, (Some jkt). split; auto with glue. split; auto. right.
    exists jkt. split; auto. unfold proof_check. auto with glue.
Qed.

Lemma glued_introspect r d c : only_authn d -> logged_in r d c -> glued E (may S EIntrospect r) (ending S EIntrospect r) d (introspection_handler E (sv_issuer S) r c).
Proof.
  intros Ho Hl. unfold introspection_handler. destruct c as [c|].
  2:{ own. apply ta_client; try discriminate. left; auto. }
  apply gl_introspect; [split; [cbn [stage]; eauto|single]|]. intros j y. destruct (ir_err y) eqn:He.
  - msg; pick.
  - destruct (ir_token y) as [t|] eqn:Ht.
    + apply gl_now. intros a. destruct a as [n| | | | | | | | | | |]; try apply gl_stuck.
      destruct (t_meta t) as [m|] eqn:Hm; apply gl_ret; cbn [ending]; (split; [auto|]);
        eexists _, y, t, n; (split; [auto with glue|]); rewrite Hm; auto with glue.
    + apply gl_panic. cbn [ending]. pick.
Qed.

Lemma glued_revoke r d c : only_authn d -> logged_in r d c -> glued E (may S ERevoke r) (ending S ERevoke r) d (revocation_handler E (sv_issuer S) r c).
Proof.
  intros Ho Hl. unfold revocation_handler. destruct c as [c|].
  2:{ own. apply ta_client; try discriminate. left; auto. }
  apply gl_revoke; [split; [cbn [stage]; eauto|single]|]. intros j y. destruct (rr_err y) eqn:He.
  - msg; pick.
  - apply gl_ret. cbn [ending]. pick.
Qed.

Lemma glued_par r d c : only_authn d -> logged_in r d c -> glued E (may S EPar r) (ending S EPar r) d (par_handler E (sv_issuer S) (sv_decoder S) r c).
Proof.
  intros Ho Hl. unfold par_handler. destruct (String.eqb (hq_method r) "POST") eqn:Hm; cbn [negb].
  2:{ apply gl_ret. left. split; auto. left. apply String.eqb_neq; auto. }
  apply String.eqb_eq in Hm. destruct c as [c|]; [|apply gl_ret; left; auto].
  apply gl_dpop.
  { split; [|single]. cbn [stage]. split; auto. split; auto. split; auto. split; eauto. discriminate. }
  intros j v. destruct v as [jkt|].
  2:{ own. apply ta_proof; [cbn; auto|]. unfold proof_check. auto with glue. }
  destruct (request_decode _ _ _ _) as [ar|] eqn:Hr.
  2:{ own. eapply ta_pushed; [|exact Hr]. auto with glue. }
  apply gl_register.
  { split; [|single]. cbn [stage]. split; auto. split; auto. exists c, ar, jkt. split; [auto with glue|]. split; [unfold proof_check; auto with glue|]. auto. }
  intros j' y. destruct (gr_err y) eqn:He.
  - msg; pick.
  - apply gl_ret. cbn [ending]. split; auto. eexists _, y. split; auto with glue.
Qed.

Lemma glued_dev_authorize r d c : only_authn d -> logged_in r d c ->
  glued E (may S EDeviceAuthorize r) (ending S EDeviceAuthorize r) d (device_authorization_handler E (sv_issuer S) r c).
Proof.
  intros Ho Hl. unfold device_authorization_handler.
  destruct (String.eqb (hq_method r) "POST") eqn:Hm; cbn [negb].
  2:{ own. apply ta_post; [cbn; auto|]. apply String.eqb_neq; auto. }
  apply String.eqb_eq in Hm. apply gl_dev_authorize; [split; [cbn [stage]; eauto 8|single]|]. intros j y. destruct (dv_err y) eqn:He.
  - msg; pick.
  - apply gl_ret. cbn [ending]. split; auto. eexists _, y. split; [auto with glue|]. auto 8.
Qed.

Lemma glued_device r u : user_logged_in r u ->
  glued E (may S EDevice r) (ending S EDevice r) [] (device_handler (sv_issuer S) r u).
Proof.
  intros Hl. unfold device_handler. destruct Hl as [Hl ->]. cbn [is_empty]. cbv iota.
  destruct (String.eqb (hq_method r) "GET") eqn:H1.
  { apply String.eqb_eq in H1. apply gl_ret. cbn [ending]. auto. }
  destruct (String.eqb (hq_method r) "POST") eqn:H2.
  2:{ own. apply String.eqb_neq in H1, H2. apply ta_either; auto. }
  apply String.eqb_eq in H2.
  apply gl_dev_validate; [split; [cbn [stage]; split; auto; split; auto; eexists; split; [split; eauto|reflexivity]|single]|]. intros j y. destruct (vr_err y) eqn:He.
  - msg; pick.
  - apply gl_ret. cbn [ending]. pick.
Qed.

Lemma glued_authorize r u : user_logged_in r u ->
  glued E (may S EAuthorize r) (ending S EAuthorize r) []
    (authorization_handler E (sv_issuer S) (sv_decoder S) (sv_serializer S) (sv_salt S) r u).
Proof.
  intros Hl. unfold authorization_handler.
  destruct (String.eqb (hq_method r) "GET") eqn:Hm; cbn [negb].
  2:{ own. apply ta_get. apply String.eqb_neq; auto. }
  apply String.eqb_eq in Hm.
  assert (Hu : is_empty u = false) by (destruct Hl as [_ ->]; reflexivity). rewrite Hu. apply gl_client_get. intros a.
  destruct a as [| | |a| | | | | | | |]; try apply gl_stuck. destruct a as [c| | |].
  2:{ apply gl_panic. left. eexists. cbn; eauto. }
  2,3: own; eapply ta_named; [apply saw_here|discriminate].
  assert (Hs : forall sub, (if String.eqb (cl_subject_type c) "pairwise" then pairwise_encode (x_blake E) (sv_salt S) (cl_sector c) u
      else Some u) = Some sub -> subject_for E (sv_salt S) c u sub).
  { intros sub H. unfold subject_for. destruct (String.eqb _ _) eqn:Hp; [apply String.eqb_eq in Hp|apply String.eqb_neq in Hp]; auto.
    injection H as <-. auto. }
  destruct (if String.eqb _ _ then _ else _) as [sub|] eqn:Hsub.
  2:{ own. eapply ta_subject; [exact Hl|apply saw_here|]. intros sub. unfold subject_for.
      destruct (String.eqb _ _); [congruence|discriminate]. }
  destruct (request_decode _ _ _ _) as [ar|] eqn:Hr.
  2:{ own. eapply ta_request; [apply saw_here|exact Hr]. }
  apply gl_authorize.
  { split; [|single]. cbn [stage]. split; auto. split; auto. exists c, u, sub, ar. split; auto. split; [auto with glue|]. auto. }
  intros j y. destruct (zr_err y) eqn:He.
  - msg; pick.
  - assert (R : forall dl, (forall uri raw, dl uri raw = HRedirectQuery uri raw) \/ (forall uri raw, dl uri raw = HRedirectFragment uri raw) \/
        (forall uri raw, dl uri raw = HFormPost uri raw) ->
      glued E (may S EAuthorize r) (ending S EAuthorize r)
        (([] ++ [Saw (CClientGet (query_get r "client_id")) (AClient (SOk c))]) ++
          [Served j (RAuthorize (Some (mkAuthzReq (sv_issuer S) sub (Some ar)))) (PAuthorize y)])
        (respond_jwt E (sv_serializer S) y dl)).
    { intros dl Hdl. unfold respond_jwt. destruct (x_request_uri E _) eqn:Hx; cbn [negb].
      2:{ own. eapply ta_deliver; [apply served_here|exact He|auto]. }
      apply gl_now. intros a. destruct a; try apply gl_stuck.
      destruct (jarm_encode _ _ _ _) as [raw|] eqn:Hj.
      2:{ own. eapply ta_deliver; [apply served_later, served_here|exact He|]. right. exists t. auto with glue. }
      apply gl_ret.
      destruct Hdl as [Hdl|[Hdl|Hdl]]; rewrite Hdl; cbn [ending]; (split; [auto|]);
        eexists _, y, t; (split; [auto with glue|]); auto 8 with glue. }
    unfold respond_in_mode. destruct (String.eqb _ rt_code).
    { unfold respond_code. destruct (x_request_uri E _) eqn:Hx; cbn [negb].
      2:{ own. eapply ta_deliver; [apply served_here|exact He|auto]. }
      apply gl_ret. cbn [ending].
      split; auto. eexists _, y. split; auto with glue. }
    destruct (String.eqb _ rm_query_jwt); [apply R; auto|].
    destruct (String.eqb _ rm_fragment_jwt); [apply R; auto|].
    destruct (String.eqb _ rm_form_post_jwt); apply R; auto.
Qed.

Lemma handlers e r : glued E (may S e r) (ending S e r) [] (answer_http S e r).
Proof.
  unfold answer_http, serve_http. destruct e.
  - apply glued_authn; try discriminate. intros; apply glued_token; auto.
  - apply glued_authn; try discriminate. intros; apply glued_introspect; auto.
  - apply glued_authn; try discriminate. intros; apply glued_revoke; auto.
  - apply glued_authn; try discriminate. intros; apply glued_par; auto.
  - apply glued_basic; auto. intros; apply glued_authorize; auto.
  - apply glued_authn; try discriminate. intros; apply glued_dev_authorize; auto.
  - apply glued_basic; auto. intros; apply glued_device; auto.
Qed.

End Handlers.

Lemma http_refines S w xs : exists ys own, refined S w xs ys own.
Proof. apply refines. apply handlers. Qed.
