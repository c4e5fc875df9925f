(** * How requests end: proofs *)

From Verif Require Export Ends PfToken.

Section Shapes.
Context (E : ext) (good : call -> answer -> Prop) (Hty : forall c a, good c a -> typed c a).

Ltac go := repeat (estep Hty); cbn [ends]; auto.

Lemma ends_gen_at (P : outcome (option token) -> Prop) cid meta cnf : (forall o, P (Done o)) -> ends good P (generate_access_token cid meta cnf).
Proof using Hty. intros H. unfold generate_access_token. go. Qed.
Lemma ends_gen_rt (P : outcome (option token) -> Prop) cid meta cnf : (forall o, P (Done o)) -> ends good P (generate_refresh_token cid meta cnf).
Proof using Hty. intros H. unfold generate_refresh_token. go. Qed.

Ltac go2 := repeat (first
  [ match goal with
    | |- ends _ _ (generate_access_token _ _ _) => apply ends_gen_at; intros [?|]; cbn beta iota
    | |- ends _ _ (generate_refresh_token _ _ _) => apply ends_gen_rt; intros [?|]; cbn beta iota
    | |- ends _ _ (prologue _ _ _ _) => unfold prologue
    | |- ends _ _ (redeem_session _ _ _ _ _ _ _) => unfold redeem_session
    | |- ends _ _ (exchange_access_token _ _ _) => unfold exchange_access_token
    | |- ends _ _ (exchange_issue _ _ _ _ _) => unfold exchange_issue
    | |- ends _ _ (dispatch _ _ _) => unfold dispatch
    | |- ends _ _ (client_credentials _ _ _) => unfold client_credentials
    | |- ends _ _ (authorization_code _ _ _) => unfold authorization_code
    | |- ends _ _ (device_code _ _ _) => unfold device_code
    | |- ends _ _ (refresh_token _ _ _) => unfold refresh_token
    | |- ends _ _ (token_exchange _ _ _) => unfold token_exchange
    | |- ends _ _ (authorize_with _ _ _ _) => unfold authorize_with
    | |- ends _ _ (validate _ _) => unfold validate
    end
  | estep Hty ]); cbn [ends].

(** What a token response looks like. *)
Definition token_shape (res : token_response) : Prop :=
  (tr_err res = true -> tokens_of res = [] /\ tr_issued_type res = None /\ tr_scope res = None) /\
  (tr_err res = false -> tr_error res = None).

Lemma tfail_shape e : token_shape (tfail e).
Proof. split; [auto|discriminate]. Qed.
Lemma silent_shape : token_shape tfail_silent.
Proof. split; [auto|discriminate]. Qed.
Lemma tok_shape a b : token_shape (tok a b).
Proof. split; [discriminate|auto]. Qed.

Lemma token_ends r : ends good (fun o => match o with Done res => token_shape res | Crashed => True end) (token_svc E r).
Proof using Hty.
  unfold token_svc. go2; auto using tfail_shape, silent_shape, tok_shape.
  all: try (split; (discriminate || auto)).
Qed.

(** Every answer is of a definite form: never stuck. *)
Lemma introspect_ends r : ends good (fun o => match o with Done res =>
    (ir_err res = true -> ir_token res = None /\ ir_error res <> None) /\ (ir_err res = false -> ir_error res = None)
  | Crashed => False end) (introspect_svc E r).
Proof using Hty. unfold introspect_svc. go2; split; (discriminate || (intros; split; (reflexivity || discriminate)) || reflexivity). Qed.
End Shapes.

(** ** Where panics and missing error objects can come from *)

Section Errors.
Context (E : ext).

(** No storage read answers nil; resource reads do not fail with an error. *)
Definition decent (c : call) (a : answer) : Prop :=
  typed c a /\ nil_read a = false /\ a <> ARes SErr.
Lemma decent_typed c a : decent c a -> typed c a.
Proof. intros [H _]. exact H. Qed.

Definition fine (r : request) (o : outcome response) : Prop :=
  match o with
  | Crashed => False
  | Done p => failed p = true -> public_error p = None ->
      match r with
      | RRevoke (Some _) => True
      | RToken (Some req) => tq_grant_type req = "urn:ietf:params:oauth:grant-type:token-exchange"%string
      | _ => False
      end
  end.

Ltac bad := match goal with
  | G : decent _ _ |- _ => destruct G as (_ & G1 & G2); cbn in G1; (discriminate || congruence)
  end.

Ltac go3 Hty := repeat (first
  [ match goal with
    | |- ends _ _ (generate_access_token _ _ _) => apply (ends_gen_at _ Hty); intros [?|]; cbn beta iota
    | |- ends _ _ (generate_refresh_token _ _ _) => apply (ends_gen_rt _ Hty); intros [?|]; cbn beta iota
    | |- ends _ _ (prologue _ _ _ _) => unfold prologue
    | |- ends _ _ (redeem_session _ _ _ _ _ _ _) => unfold redeem_session
    | |- ends _ _ (exchange_access_token _ _ _) => unfold exchange_access_token
    | |- ends _ _ (exchange_issue _ _ _ _ _) => unfold exchange_issue
    | |- ends _ _ (dispatch _ _ _) => unfold dispatch
    | |- ends _ _ (client_credentials _ _ _) => unfold client_credentials
    | |- ends _ _ (authorization_code _ _ _) => unfold authorization_code
    | |- ends _ _ (device_code _ _ _) => unfold device_code
    | |- ends _ _ (refresh_token _ _ _) => unfold refresh_token
    | |- ends _ _ (token_exchange _ _ _) => unfold token_exchange
    | |- ends _ _ (authorize_with _ _ _ _) => unfold authorize_with
    | |- ends _ _ (validate _ _) => unfold validate
    end
  | estep Hty ]; cbn beta iota); cbn [ends].

Ltac fin := first [ solve [ cbn; intros; discriminate ] | bad | solve [cbn; auto] |
  solve [ cbn; intros; repeat match goal with H : String.eqb _ _ = true |- _ => apply String.eqb_eq in H end; auto ] ].

Lemma serve_fine r : oauth_service r -> ends decent (fine r) (serve E r).
Proof.
  intros Hr. destruct r as [r|r|r|r|r|r|r|r|r|]; try destruct Hr; cbn [serve]; unfold pmap; apply ends_bind.
  - unfold token_svc. go3 decent_typed; try fin.
  - unfold introspect_svc. go3 decent_typed; try fin.
  - unfold revoke_svc. go3 decent_typed; try fin.
  - unfold authorize_svc. go3 decent_typed; try fin.
  - unfold register_svc. go3 decent_typed; try fin.
  - unfold dev_authorize_svc. go3 decent_typed; try fin.
  - unfold dev_validate_svc. go3 decent_typed; try fin.
Qed.

(** The same without the condition on resource reads, leaving panics aside. *)
Definition not_nil (c : call) (a : answer) : Prop := typed c a /\ nil_read a = false.
Lemma not_nil_typed c a : not_nil c a -> typed c a.
Proof. intros [H _]. exact H. Qed.

Definition clean (r : request) (o : outcome response) : Prop :=
  match o with
  | Crashed => True
  | Done p => fine r (Done p)
  end.

Lemma serve_clean r : oauth_service r -> ends not_nil (clean r) (serve E r).
Proof.
  intros Hr. destruct r as [r|r|r|r|r|r|r|r|r|]; try destruct Hr; cbn [serve]; unfold pmap; apply ends_bind.
  - unfold token_svc. go3 not_nil_typed; try fin.
  - unfold introspect_svc. go3 not_nil_typed; try fin.
  - unfold revoke_svc. go3 not_nil_typed; try fin.
  - unfold authorize_svc. go3 not_nil_typed; try fin.
  - unfold register_svc. go3 not_nil_typed; try fin.
  - unfold dev_authorize_svc. go3 not_nil_typed; try fin.
  - unfold dev_validate_svc. go3 not_nil_typed; try fin.
Qed.
End Errors.

(** ** C18 *)

Lemma C18_failure_has_no_token_proof : forall E w xs i req res,
  answered (history E w xs) i (RToken req) (PToken res) ->
  (tr_err res = true -> tr_at res = None /\ tr_rt res = None /\ tr_idt res = None /\ tr_scope res = None) /\
  (tr_err res = false -> tr_error res = None).
Proof.
  intros E w xs i req res [H1 H2].
  assert (X : token_shape res).
  { apply (ends_history E w xs i _ _ (fun o => match o with Done (PToken res) => token_shape res | _ => True end)
      typed H1 H2 (history_typed E w xs i)).
    cbn [serve]. unfold pmap. apply ends_bind.
    eapply ends_weaken; [|apply token_ends; auto]. intros [o|]; cbn; auto. }
  destruct X as [X1 X2]. split; auto. intros He. destruct (X1 He) as (T & _ & S). unfold tokens_of in T.
  destruct (tr_at res), (tr_rt res), (tr_idt res); try discriminate. auto.
Qed.

(** ** C19 *)

(** Revoking a value that was never issued fails without an error object. *)
Definition x_norevoke : list sched :=
  full 0 (RRevoke (Some (mkValReq iss (Some webapp) "nothing"))) [ok; ok].

Lemma C19_missing_error_refuted_proof :
  exists E w xs i r p, blank w /\ registry_ok w /\ no_faults xs /\ oauth_service r /\
    answered (history E w xs) i r p /\ failed p = true /\ public_error p = None.
Proof.
  exists demo_ext, w0, x_norevoke, 0%nat. do 2 eexists.
  split; [apply blank_w0|]. split; [apply registry_demo|].
  split; [repeat (constructor; [exact I || reflexivity|]); constructor|].
  split; [|split; [split; [|]|split]].
  3:{ vm_compute. right. right. right. left. reflexivity. }
  2:{ vm_compute. left. reflexivity. }
  - exact I.
  - reflexivity.
  - reflexivity.
Qed.

(** A storage error while the audience of a token exchange is looked up makes the
    service dereference nil. *)
Definition x_crash : list sched :=
  (x_code ++ SNew (RToken (Some (exchangereq webapp "at-1" None))) ::
   go 2 [ok; ok; ok; ok; say "id-3"; mkOrc FBefore None; ok])%list.

Lemma C19_panic_refuted_proof :
  exists E w xs i r, blank w /\ registry_ok w /\ oauth_service r /\
    In (EvStart i r) (history E w xs) /\ In (EvDone i Crashed) (history E w xs) /\
    (forall j c a, In (EvCall j c a) (history E w xs) -> nil_read a = false).
Proof.
  exists demo_ext, w0, x_crash, 2%nat, (RToken (Some (exchangereq webapp "at-1" None))).
  split; [apply blank_w0|]. split; [apply registry_demo|].
  split; [|split; [|split]].
  2:{ apply (started_demo _ 2). vm_compute. reflexivity. }
  - exact I.
  - eapply answers_in. vm_compute. reflexivity.
  - intros j c a Hin.
    assert (X : forallb (fun e => match e with EvCall _ _ a => negb (nil_read a) | _ => true end)
      (history demo_ext w0 x_crash) = true) by (vm_compute; reflexivity).
    rewrite forallb_forall in X. apply X in Hin. cbn in Hin. destruct (nil_read a); auto; discriminate.
Qed.

Lemma C19_no_panic_partial_proof : forall E w xs i r o,
  oauth_service r -> In (EvStart i r) (history E w xs) -> In (EvDone i o) (history E w xs) ->
  (forall c a, In (EvCall i c a) (history E w xs) -> nil_read a = false) ->
  (forall urn, ~ In (EvCall i (CResGet urn) (ARes SErr)) (history E w xs)) ->
  exists p, o = Done p.
Proof.
  intros E w xs i r o Hs H1 H2 Hnil Hres.
  assert (X : fine r o).
  { eapply (ends_history E w xs i r o _ decent H1 H2); [|apply serve_fine; auto].
    intros c a Hin. pose proof (history_typed _ _ _ _ _ _ Hin) as T.
    split; auto. split; [eapply Hnil; eauto|]. intros ->. destruct c; cbn in T; try destruct T. eapply Hres; eauto. }
  destruct o as [p|]; [eauto|destruct X].
Qed.

(** With the in-memory storage, which reports no failures, nothing panics. *)
Lemma C19_no_panic_in_memory_partial_proof : forall E w xs i r o,
  no_faults xs -> oauth_service r -> In (EvStart i r) (history E w xs) -> In (EvDone i o) (history E w xs) ->
  exists p, o = Done p.
Proof.
  intros E w xs i r o Hf Hs H1 H2.
  assert (Hall : forall j c a, In (EvCall j c a) (history E w xs) -> nil_read a = false /\ a <> ARes SErr).
  { intros j c a Hin. apply in_split in Hin as (h1 & h2 & Hh).
    pose proof (history_ftrace E w xs Hf) as Ht. rewrite Hh in Ht.
    destruct (ftrace_at _ _ _ _ _ _ _ _ Ht) as (wm & oo & w1 & A & B & F & C).
    clear - B F. assert (X : a = fst (exec E wm oo c)) by (rewrite B; reflexivity). rewrite X.
    destruct c; cbn; rewrite ?F; cbn; try (split; [reflexivity|discriminate]);
      match goal with |- context[match ?x with Some _ => _ | None => _ end] => destruct x end;
      cbn; split; reflexivity || discriminate. }
  apply (C19_no_panic_partial_proof E w xs i r o Hs H1 H2).
  - intros c a Hin. eapply Hall; eauto.
  - intros urn Hin. destruct (Hall _ _ _ Hin) as [_ X]. congruence.
Qed.

Lemma C19_public_error_partial_proof : forall E w xs i r p,
  oauth_service r -> answered (history E w xs) i r p -> failed p = true ->
  (* not a revocation and not a token exchange *)
  (forall req, r <> RRevoke (Some req)) ->
  (forall req, r = RToken (Some req) ->
     tq_grant_type req <> "urn:ietf:params:oauth:grant-type:token-exchange"%string) ->
  (forall c a, In (EvCall i c a) (history E w xs) -> nil_read a = false) ->
  exists e, public_error p = Some e.
Proof.
  intros E w xs i r p Hs [H1 H2] Hfail Hrev Hex Hnil.
  destruct (public_error p) as [e|] eqn:Hp; [eauto|]. exfalso.
  assert (X : clean r (Done p)).
  { apply (ends_history E w xs i r (Done p) _ not_nil H1 H2); [|apply serve_clean; auto].
    intros c a Hin. split; [eapply history_typed; eauto|eapply Hnil; eauto]. }
  specialize (X Hfail Hp). destruct r as [[req|]|r|[req|]|r|r|r|r|r|r|]; try exact X; [eapply Hex; eauto|eapply Hrev; eauto].
Qed.
