(** * Proofs: which failures carry no public error, and which requests panic *)

From Verif Require Export SpecErr PfErr.

Lemma ends_mono {A} (good good' : call -> answer -> Prop) (P : outcome A -> Prop) (p : prog A) :
  (forall c a, good' c a -> good c a) -> ends good P p -> ends good' P p.
Proof. intros H. induction p as [a| | |c k IH]; cbn; auto. Qed.

Section Exactly.
Context (E : ext).

Definition loud (r : request) (c : call) (a : answer) : Prop :=
  typed c a /\ nil_read a = false /\ unreported r c a = false.

Lemma exchange_loud c req : tq_grant_type req = "urn:ietf:params:oauth:grant-type:token-exchange"%string ->
  ends (loud (RToken (Some req)))
    (fun o => match o with Done res => tr_err res = true -> tr_error res <> None | Crashed => True end) (token_exchange E c req).
Proof.
  intros Hx.
  assert (Hi : forall iss sc t0 scope, ends (loud (RToken (Some req)))
     (fun o => match o with Done res => tr_err res = true -> tr_error res <> None | Crashed => True end) (exchange_issue req iss sc t0 scope)).
  { intros iss sc t0 scope. unfold exchange_issue. intros a (T & _ & U). destruct a; cbn in T; try destruct T. cbn in U. rewrite Hx in U.
    destruct r as [v|]; [|discriminate U]. destruct v as [|b v]; [discriminate U|]. cbn [is_empty].
    intros a (T' & _ & U'). destruct a; cbn in T'; try destruct T'. cbn in U'. rewrite Hx in U'.
    destruct r; try discriminate U'; cbn; discriminate. }
  unfold token_exchange, prologue. destruct (tq_grant req); try (cbn; discriminate).
  destruct c as [c|]; [|cbn; discriminate]. destruct (is_empty _); [cbn; discriminate|]. destruct (negb _); [cbn; discriminate|].
  destruct (is_empty _); [cbn; discriminate|]. destruct (is_empty _); [cbn; discriminate|]. destruct (negb _); [cbn; discriminate|].
  destruct (String.eqb _ at_type); [|cbn; discriminate]. unfold exchange_access_token.
  intros a (T & Nn & _). destruct a; cbn in T; try destruct T. destruct r as [st| | |]; try (cbn; discriminate).
  destruct (t_status st), (t_type st), (t_meta st); try (cbn; discriminate).
  intros a (T' & _). destruct a; cbn in T'; try destruct T'. destruct (_ <? _)%N; [cbn; discriminate|].
  intros a (T2 & _). destruct a; cbn in T2; try destruct T2. intros a (T3 & _). destruct a; cbn in T3; try destruct T3.
  destruct (tq_audience req); [|apply Hi].
  intros a (T4 & _ & U). destruct a; cbn in T4; try destruct T4. cbn in U. rewrite Hx in U.
  destruct r; try (cbn; exact I); [apply Hi|discriminate U].
Qed.

Lemma serve_loud r : oauth_service r ->
  ends (loud r) (fun o => match o with Done p => failed p = true -> public_error p <> None | Crashed => True end) (serve E r).
Proof.
  intros Hr.
  assert (Hd : (forall v, r <> RRevoke (Some v)) -> is_exchange r = false ->
    ends (loud r) (fun o => match o with Done p => failed p = true -> public_error p <> None | Crashed => True end) (serve E r)).
  { intros H1 H2. eapply ends_weaken; [|eapply (ends_mono not_nil); [intros c a (T & Nn & _); split; auto|apply (serve_clean E r Hr)]].
    intros [p|]; [|auto]. cbn. intros H Hf Hn. specialize (H Hf Hn).
    destruct r as [[q|]|q|[q|]|q|q|q|q|q|q|]; try exact H; [|exact (H1 _ eq_refl)].
    cbn in H2. rewrite H in H2. discriminate. }
  destruct r as [[q|]|q|[q|]|q|q|q|q|q|q|]; try destruct Hr; try (apply Hd; [discriminate|reflexivity]).
  - destruct (is_exchange (RToken (Some q))) eqn:Hx; [|apply Hd; [discriminate|reflexivity]].
    cbn in Hx. apply String.eqb_eq in Hx. cbn [serve]. unfold pmap. apply ends_bind. unfold token_svc.
    destruct (validate_request q); [cbn; discriminate|].
    assert (Hdis : forall c, ends (loud (RToken (Some q))) (fun o => match o with Done res => tr_err res = true -> tr_error res <> None | Crashed => True end)
      (dispatch E c q)).
    { intros c. unfold dispatch. rewrite Hx. cbn -[token_exchange]. apply exchange_loud. exact Hx. }
    intros a (T & Nn & _). destruct a; cbn in T; try destruct T. cbn in Nn.
    destruct r; try (cbn; discriminate); try discriminate Nn.
    eapply ends_weaken; [|apply Hdis]. intros [res|]; cbn; auto.
  - cbn [serve]. unfold pmap. apply ends_bind. unfold revoke_svc.
    destruct (is_empty _); [cbn; discriminate|]. destruct (negb _); [cbn; discriminate|]. destruct (vq_client q); [|cbn; discriminate].
    destruct (is_empty _); [cbn; discriminate|].
    intros a (T & _ & _). destruct a; cbn in T; try destruct T.
    assert (Ht : ends (loud (RRevoke (Some q))) (fun o => match o with Done p => rr_err p = true -> rr_error p <> None | Crashed => True end)
      (tok_get (vq_issuer q) (vq_token q) (fun r => match r with
        | SErr | SNotFound => Ret (mkRevoke true None) | SNil => Panic
        | SOk t => write (CTokRevoke (vq_issuer q) (t_id t)) (fun r => if is_ok r then Ret (mkRevoke false None) else Ret (mkRevoke true None)) end))).
    { intros a (T' & _ & U). destruct a; cbn in T'; try destruct T'. cbn in U. destruct r0; try discriminate U; [|exact I].
      intros b (T2 & _ & U2). destruct b; cbn in T2; try destruct T2. cbn in U2. destruct r0; try discriminate U2; cbn; discriminate. }
    destruct r; try (cbn; discriminate);
      (eapply ends_weaken; [|apply Ht]; intros [res|]; cbn; auto).
Qed.

(** The converse: what comes after such a failure. *)
Definition no_calls : list (call * answer) -> call -> Prop := fun _ _ => True.
Definition told (r : request) (tr : list (call * answer)) (e : option oerror) : Prop :=
  e = None \/ Forall (fun ca => unreported r (fst ca) (snd ca) = false) tr.

Lemma quiet_snoc r tr c a : Forall (fun ca => unreported r (fst ca) (snd ca) = false) tr -> unreported r c a = false ->
  Forall (fun ca => unreported r (fst ca) (snd ca) = false) (tr ++ [(c, a)])%list.
Proof. intros. apply Forall_app. auto. Qed.

Ltac loudly H := repeat first [exact H | apply quiet_snoc; [|first [reflexivity|assumption]] | apply Forall_cons; [reflexivity|]].
Ltac ret H := solve [cbn; first [left; reflexivity | right; loudly H]].

Lemma revoke_told q : wp no_calls (fun tr res => told (RRevoke (Some q)) tr (rr_error res)) [] (revoke_svc E (Some q)).
Proof.
  pose proof (Forall_nil (fun ca => unreported (RRevoke (Some q)) (fst ca) (snd ca) = false)) as H.
  unfold revoke_svc. destruct (is_empty _); [ret H|]. destruct (negb _); [ret H|]. destruct (vq_client q); [|ret H].
  destruct (is_empty _); [ret H|]. wcall r.
  assert (Hr : is_ok r = true \/ r = SNil \/ r = SErr \/ r = SNotFound) by (destruct r; auto).
  set (tr := ([] ++ [(CClientGet (cl_id c), AClient r)])%list).
  assert (Ht : Forall (fun ca => unreported (RRevoke (Some q)) (fst ca) (snd ca) = false) tr) by (apply quiet_snoc; auto).
  clearbody tr.
  assert (Hk : wp no_calls (fun tr res => told (RRevoke (Some q)) tr (rr_error res)) tr
      (tok_get (vq_issuer q) (vq_token q) (fun r => match r with
        | SErr | SNotFound => Ret (mkRevoke true None) | SNil => Panic
        | SOk t => write (CTokRevoke (vq_issuer q) (t_id t)) (fun r => if is_ok r then Ret (mkRevoke false None) else Ret (mkRevoke true None)) end))).
  { wcall x. destruct x as [t| | |]; try ret Ht; try exact I. wcall y. destruct (is_ok y); ret Ht. }
  destruct r; solve [exact Hk | ret Ht].
Qed.

Lemma issue_told q tr iss sc t0 scope : is_exchange (RToken (Some q)) = true ->
  Forall (fun ca => unreported (RToken (Some q)) (fst ca) (snd ca) = false) tr ->
  wp no_calls (fun tr res => told (RToken (Some q)) tr (tr_error res)) tr (exchange_issue q iss sc t0 scope).
Proof.
  intros Hx H. unfold exchange_issue. wcall v. destruct v as [v|]; [|ret H]. destruct (is_empty v) eqn:Hv; [ret H|].
  wcall r. destruct r; cbn; left; reflexivity.
Qed.
Lemma exchange_told q tr c : is_exchange (RToken (Some q)) = true ->
  Forall (fun ca => unreported (RToken (Some q)) (fst ca) (snd ca) = false) tr ->
  wp no_calls (fun tr res => told (RToken (Some q)) tr (tr_error res)) tr (token_exchange E c q).
Proof.
  intros Hx H. unfold token_exchange, prologue. destruct (tq_grant q); try ret H.
  destruct c as [c|]; [|ret H]. destruct (is_empty _); [ret H|]. destruct (negb _); [ret H|].
  destruct (is_empty _); [ret H|]. destruct (is_empty _); [ret H|]. destruct (negb _); [ret H|].
  destruct (String.eqb _ at_type); [|ret H]. unfold exchange_access_token.
  wcall r. destruct r as [st| | |]; try ret H; try exact I.
  destruct (t_status st), (t_type st), (t_meta st); try ret H.
  wcall t0. destruct (_ <? _)%N; [ret H|]. wcall t1. wcall jti.
  destruct (tq_audience q); [|apply issue_told; [exact Hx|loudly H]].
  wcall r. destruct r; try ret H; try exact I. apply issue_told; [exact Hx|loudly H].
Qed.
Lemma token_told q : is_exchange (RToken (Some q)) = true ->
  wp no_calls (fun tr res => told (RToken (Some q)) tr (tr_error res)) [] (token_svc E (Some q)).
Proof.
  intros Hx. pose proof (Forall_nil (fun ca => unreported (RToken (Some q)) (fst ca) (snd ca) = false)) as H.
  unfold token_svc. destruct (validate_request q); [ret H|]. wcall r.
  assert (Hd : forall c tr, Forall (fun ca => unreported (RToken (Some q)) (fst ca) (snd ca) = false) tr ->
     wp no_calls (fun tr res => told (RToken (Some q)) tr (tr_error res)) tr (dispatch E c q)).
  { intros c tr Ht. unfold dispatch. pose proof Hx as Hx'. cbn in Hx'. apply String.eqb_eq in Hx'. rewrite Hx'. cbn -[token_exchange].
    apply exchange_told; auto. }
  destruct r; try ret H; apply Hd; loudly H.
Qed.

(** No resource lookup of a request that returns has failed. *)
Definition res_ok (ca : call * answer) : Prop := match ca with (CResGet _, ARes SErr) => False | _ => True end.
Lemma ok_snoc tr c a : Forall res_ok tr -> res_ok (c, a) -> Forall res_ok (tr ++ [(c, a)])%list.
Proof. intros. apply Forall_app. auto. Qed.
Ltac okly H := cbn; repeat first [apply ok_snoc; [|first [exact I|cbn; exact I]] | exact H].
Lemma at_ok tr cid meta cnf : Forall res_ok tr -> wp no_calls (fun tr _ => Forall res_ok tr) tr (generate_access_token cid meta cnf).
Proof. intros H. unfold generate_access_token. wcall t. wcall j. wcall v. destruct v as [v|]; [|okly H]. destruct (is_empty v); [okly H|]. wcall x. destruct (is_ok x); okly H. Qed.
Lemma rt_ok tr cid meta cnf : Forall res_ok tr -> wp no_calls (fun tr _ => Forall res_ok tr) tr (generate_refresh_token cid meta cnf).
Proof. intros H. unfold generate_refresh_token. wcall t. wcall j. wcall v. destruct v as [v|]; [|okly H]. destruct (is_empty v); [okly H|]. wcall x. destruct (is_ok x); okly H. Qed.

Ltac wok := repeat (lazymatch goal with
  | |- wp _ _ _ (Ret _) => cbn [wp]; repeat (apply ok_snoc; [|exact I]); assumption
  | |- wp _ _ _ Panic => exact I
  | |- wp _ _ _ (bind (generate_access_token _ _ _) _) =>
      eapply wp_bind; [apply at_ok; repeat (apply ok_snoc; [|exact I]); assumption|intros ? [?|] ?; cbn beta iota]
  | |- wp _ _ _ (bind (generate_refresh_token _ _ _) _) =>
      eapply wp_bind; [apply rt_ok; repeat (apply ok_snoc; [|exact I]); assumption|intros ? [?|] ?; cbn beta iota]
  | |- wp _ _ _ (if ?b then _ else _) => destruct b
  | |- wp _ _ _ (match ?x with _ => _ end) => destruct x
  | |- wp _ _ _ (let _ := _ in _) => cbv zeta
  | |- wp _ _ _ (prologue _ _ _ _) => unfold prologue
  | |- wp _ _ _ (redeem_session _ _ _ _ _ _ _) => unfold redeem_session
  | |- wp _ _ _ (exchange_access_token _ _ _) => unfold exchange_access_token
  | |- wp _ _ _ (exchange_issue _ _ _ _ _) => unfold exchange_issue
  | |- wp _ _ _ (dispatch _ _ _) => unfold dispatch
  | |- wp _ _ _ (client_credentials _ _ _) => unfold client_credentials
  | |- wp _ _ _ (authorization_code _ _ _) => unfold authorization_code
  | |- wp _ _ _ (device_code _ _ _) => unfold device_code
  | |- wp _ _ _ (refresh_token _ _ _) => unfold refresh_token
  | |- wp _ _ _ (token_exchange _ _ _) => unfold token_exchange
  | |- wp _ _ _ (authorize_with _ _ _ _) => unfold authorize_with
  | |- wp _ _ _ (validate _ _) => unfold validate
  | |- wp _ _ _ (bind _ _) => fail
  | |- wp _ _ _ _ => let x := fresh "x" in wcall x
  end).
Lemma validate_ok tr r : Forall res_ok tr -> wp no_calls (fun tr _ => Forall res_ok tr) tr (validate E r).
Proof. intros H. unfold validate. wok. Qed.
Ltac wval := wok; (eapply wp_bind; [apply validate_ok; repeat (apply ok_snoc; [|exact I]); assumption|intros ? [?|?] ?; cbn beta iota]); wok.
Lemma token_res_ok q : wp no_calls (fun tr _ => Forall res_ok tr) [] (token_svc E q).
Proof.
  pose proof (Forall_nil res_ok) as H. unfold token_svc. wok.
Qed.

Lemma serve_res_ok r : oauth_service r -> wp no_calls (fun tr _ => Forall res_ok tr) [] (serve E r).
Proof.
  intros Hr. pose proof (Forall_nil res_ok) as H.
  destruct r as [r|r|r|r|r|r|r|r|r|]; try destruct Hr; cbn [serve]; unfold pmap;
    (eapply (wp_bind _ _ (fun tr _ => Forall res_ok tr)); [|intros tr a Ha; exact Ha]).
  - apply token_res_ok.
  - unfold introspect_svc. wok.
  - unfold revoke_svc. wok.
  - unfold authorize_svc. wval.
  - unfold register_svc. wval.
  - unfold dev_authorize_svc. wok.
  - unfold dev_validate_svc. wok.
Qed.
End Exactly.

(** ** C19 *)

(** Exactly which failures come without a public error. *)
Lemma C19_unreported_exactly_partial_proof : forall E w xs i r p,
  oauth_service r -> answered (history E w xs) i r p -> failed p = true ->
  (forall c a, In (EvCall i c a) (history E w xs) -> nil_read a = false) ->
  (public_error p = None <-> exists c a, In (EvCall i c a) (history E w xs) /\ unreported r c a = true).
Proof.
  intros E w xs i r p Hs Ha Hf Hnil. split.
  - intros Hp. destruct (existsb (fun ca => unreported r (fst ca) (snd ca)) (calls_of i (history E w xs))) eqn:X.
    + apply existsb_exists in X as ([c a] & X1 & X2). apply in_calls_of in X1. eauto.
    + exfalso. destruct Ha as [H1 H2].
      apply (ends_history E w xs i r (Done p) _ (loud r) H1 H2 (fun c a Hin => conj (history_typed _ _ _ _ _ _ Hin)
        (conj (Hnil c a Hin) (proj1 (not_true_iff_false _) (fun U =>
           eq_true_false_abs _ (proj2 (existsb_exists _ _) (ex_intro _ (c, a) (conj (proj2 (in_calls_of _ _ _ _) Hin) U))) X)))) (serve_loud E r Hs)); auto.
  - intros (c & a & Hin & U). apply in_calls_of in Hin. pose proof (answered_runs _ _ _ _ _ _ Ha) as Hr.
    assert (T : told r (calls_of i (history E w xs)) (public_error p)).
    { destruct r as [[q|]|q|[q|]|q|q|q|q|q|q|]; try discriminate U.
      - assert (Hx : is_exchange (RToken (Some q)) = true) by (destruct c, a; try discriminate U; cbn in *;
          repeat match goal with H : context[match ?x with _ => _ end] |- _ => destruct x; try discriminate H end; auto).
        cbn [serve] in Hr. apply reach_pmap_ret in Hr as (res & -> & Hr). exact (wp_ret _ _ _ _ _ (token_told E q Hx) Hr).
      - exfalso. destruct c, a; try discriminate U; cbn in U; repeat match goal with H : context[match ?x with _ => _ end] |- _ => destruct x; try discriminate H end.
      - cbn [serve] in Hr. apply reach_pmap_ret in Hr as (res & -> & Hr). exact (wp_ret _ _ _ _ _ (revoke_told E q) Hr). }
    destruct T as [T|T]; auto. rewrite Forall_forall in T. apply T in Hin. cbn [fst snd] in Hin. congruence.
Qed.

(** Exactly which requests panic. *)
Lemma C19_panics_exactly_partial_proof : forall E w xs i r o,
  oauth_service r -> In (EvStart i r) (history E w xs) -> In (EvDone i o) (history E w xs) ->
  (forall c a, In (EvCall i c a) (history E w xs) -> nil_read a = false) ->
  (o = Crashed <-> exists urn, In (EvCall i (CResGet urn) (ARes SErr)) (history E w xs)).
Proof.
  intros E w xs i r o Hs H1 H2 Hnil. split.
  - intros ->. destruct (existsb (fun ca => match ca with (CResGet _, ARes SErr) => true | _ => false end) (calls_of i (history E w xs))) eqn:X.
    + apply existsb_exists in X as ([c a] & X1 & X2). apply in_calls_of in X1.
      destruct c; try discriminate X2; destruct a; try discriminate X2; destruct r0; try discriminate X2. eauto.
    + exfalso. destruct (C19_no_panic_partial_proof E w xs i r Crashed Hs H1 H2 Hnil) as (p & Hp); [|discriminate].
      intros urn Hin. apply in_calls_of in Hin. rewrite <- not_true_iff_false in X. apply X. apply existsb_exists. eexists. split; [exact Hin|reflexivity].
  - intros (urn & Hin). destruct o as [p|]; auto. exfalso. apply in_calls_of in Hin.
    pose proof (answered_runs _ _ _ _ _ _ (conj H1 H2)) as Hr.
    pose proof (wp_ret _ _ _ _ _ (serve_res_ok E r Hs) Hr) as F. cbn beta in F. rewrite Forall_forall in F. apply (F _ Hin).
Qed.
