(** * Token values and where they come from: proofs *)

From Verif Require Export SpecMint PfVerifiable PfIssuer PfLive PfHttp6 SpecWeb.
Local Open Scope nat_scope.

(** ** The shape of a value *)

Lemma kind_prefix_ok C ty : primitives_ok C -> token_prefix C (kind_prefix ty) = kind_prefix ty.
Proof. intros [_ H]. unfold token_prefix. rewrite H. destruct ty; vm_compute; reflexivity. Qed.

Lemma kind_prefix_chars ty : all_chars prefix_char (kind_prefix ty) = true.
Proof. destruct ty; vm_compute; reflexivity. Qed.

Definition marked (ty : token_type) : Prop := ty = TtAccess \/ ty = TtRefresh \/ ty = TtPhantom.

Lemma made_shape C secret t uuid v : primitives_ok C -> String.length uuid = 16 -> marked (t_type t) ->
  made C secret t uuid v ->
  exists m, v = ((kind_prefix (t_type t) ++ "_") ++ to_padded_base62 uuid 22 ++ "_" ++ m)%string /\
    String.length (to_padded_base62 uuid 22) = 22 /\ (String.length m = 59 \/ String.length m = 60).
Proof.
  intros HC Lu Hm (nonce & Ln & H). cbn in H.
  destruct (generated_spelled _ _ _ _ _ _ Lu Ln (proj1 HC) H) as (p & S & _ & _ & Ep). cbv zeta in S.
  rewrite (kind_prefix_ok _ _ HC) in Ep.
  replace (is_empty (kind_prefix (t_type t))) with false in Ep by (destruct Hm as [->|[->| ->]]; reflexivity). subst p.
  destruct S as (-> & (A & _ & B & _) & _). eexists. split; [reflexivity|]. auto.
Qed.

Lemma sapp_len_left x : forall y x' y', String.length x = String.length x' -> (x ++ y = x' ++ y')%string -> x = x' /\ y = y'.
Proof.
  induction x as [|a x IH]; intros y [|a' x'] y' L H; try discriminate L; rewrite ?nil_sapp, ?sapp_cons in H; auto.
  injection H as <- H. injection L as L. destruct (IH _ _ _ L H) as [-> ->]. auto.
Qed.

Lemma prefix_len ty : marked ty -> String.length (kind_prefix ty ++ "_")%string = 6.
Proof. intros [->|[->| ->]]; reflexivity. Qed.
Lemma prefix_inj ty ty' : marked ty -> marked ty' -> (kind_prefix ty ++ "_" = kind_prefix ty' ++ "_")%string -> ty = ty'.
Proof. intros [->|[->| ->]] [->|[->| ->]] H; vm_compute in H; congruence. Qed.
Lemma padded_inj a b : String.length a = 16 -> String.length b = 16 -> to_padded_base62 a 22 = to_padded_base62 b 22 -> a = b.
Proof.
  intros La Lb H. pose proof (C41_round_trip_proof a 22) as A. pose proof (C41_round_trip_proof b 22) as B.
  rewrite La, H in A. rewrite Lb in B. rewrite A in B. congruence.
Qed.

Lemma made_len C secret t uuid v : primitives_ok C -> String.length uuid = 16 -> marked (t_type t) ->
  made C secret t uuid v -> String.length v = 88 \/ String.length v = 89.
Proof.
  intros HC Lu Hm H. destruct (made_shape _ _ _ _ _ HC Lu Hm H) as (m & -> & A & B).
  rewrite !slen_app, A. pose proof (prefix_len _ Hm) as P. rewrite slen_app in P. cbn in *. lia.
Qed.
Lemma made_head C secret t uuid v : primitives_ok C -> String.length uuid = 16 -> marked (t_type t) ->
  made C secret t uuid v -> exists r, v = String "s" (String "l" r).
Proof.
  intros HC Lu Hm H. destruct (made_shape _ _ _ _ _ HC Lu Hm H) as (m & -> & _).
  destruct Hm as [->|[->| ->]]; eexists; reflexivity.
Qed.

Lemma made_same C secret secret' t t' uuid uuid' v : primitives_ok C -> String.length uuid = 16 -> String.length uuid' = 16 ->
  marked (t_type t) -> marked (t_type t') -> made C secret t uuid v -> made C secret' t' uuid' v ->
  t_type t = t_type t' /\ uuid = uuid'.
Proof.
  intros HC Lu Lu' Hm Hm' H H'.
  destruct (made_shape _ _ _ _ _ HC Lu Hm H) as (m & -> & A & B).
  destruct (made_shape _ _ _ _ _ HC Lu' Hm' H') as (m' & E & A' & B').
  apply sapp_len_left in E as [E1 E2]; [|rewrite !prefix_len by auto; reflexivity].
  apply sapp_len_left in E2 as [E2 _]; [|congruence].
  split; [apply prefix_inj; auto|apply padded_inj; auto].
Qed.

(** An issuer followed by a value is read in one way only. *)
Lemma issuer_value C secret secret' t t' uuid uuid' v v' iss iss' :
  primitives_ok C -> String.length uuid = 16 -> String.length uuid' = 16 ->
  marked (t_type t) -> marked (t_type t') -> made C secret t uuid v -> made C secret' t' uuid' v' ->
  (iss ++ v = iss' ++ v')%string -> iss = iss' /\ v = v'.
Proof.
  intros HC Lu Lu' Hm Hm' H H' E.
  pose proof (made_len _ _ _ _ _ HC Lu Hm H) as L. pose proof (made_len _ _ _ _ _ HC Lu' Hm' H') as L'.
  destruct (made_head _ _ _ _ _ HC Lu Hm H) as (r & Ev). destruct (made_head _ _ _ _ _ HC Lu' Hm' H') as (r' & Ev').
  destruct (Nat.eq_dec (String.length v) (String.length v')) as [Hl|Hl]; [apply app_len_inj; auto|exfalso].
  assert (K : forall x y a b r1 r2, a = String "s" (String "l" r1) -> b = String "s" (String "l" r2) ->
              String.length a = S (String.length b) -> (x ++ a = y ++ b)%string -> False).
  { clear. intros x y a b r1 r2 -> -> L E.
    change (String "s" (String "l" r1)) with (String "s" "" ++ String "l" r1)%string in E. rewrite <- sapp_assoc in E.
    apply app_len_inj in E as [_ E]; [discriminate E|]. cbn [String.length] in *. lia. }
  assert (String.length v = S (String.length v') \/ String.length v' = S (String.length v)) as [X|X] by lia.
  - exact (K _ _ _ _ _ _ Ev Ev' X E).
  - exact (K _ _ _ _ _ _ Ev' Ev X (eq_sym E)).
Qed.

(** ** Before it stores a token a request draws its identifier and its value *)

Definition minted (tr : list (call * answer)) (t : token) : Prop :=
  exists tr1 tr2 g, tr = (tr1 ++ (CRand 8, AStr (t_id t)) :: tr2 ++ [(g, AGen (Some (t_value t)))])%list /\ (forall iss t' a, ~ In (CTokCreate iss t', a) tr2) /\ ((g = CGenAT (set_value t "") /\ t_type t = TtAccess) \/ (g = CGenRT (set_value t "") /\ t_type t = TtRefresh)).
Definition mints (tr : list (call * answer)) (c : call) : Prop :=
  match c with CTokCreate _ t => minted tr t | _ => True end.

Lemma mints_at tr cid meta cnf : wp mints (fun _ _ => True) tr (generate_access_token cid meta cnf).
Proof.
  unfold generate_access_token. wcall tm. wcall jti. cbv zeta. wcall g. destruct g as [v|]; [|exact I].
  destruct (is_empty v); [exact I|]. wcall r; [|destruct (is_ok r); exact I].
  eexists _, [], _. split; [rewrite <- app_assoc; reflexivity|]. split; [intros ? ? ? []|]. left. auto.
Qed.
Lemma mints_rt tr cid meta cnf : wp mints (fun _ _ => True) tr (generate_refresh_token cid meta cnf).
Proof.
  unfold generate_refresh_token. wcall tm. wcall jti. cbv zeta. wcall g. destruct g as [v|]; [|exact I].
  destruct (is_empty v); [exact I|]. wcall r; [|destruct (is_ok r); exact I].
  eexists _, [], _. split; [rewrite <- app_assoc; reflexivity|]. split; [intros ? ? ? []|]. right. auto.
Qed.
Lemma mints_issue tr tr1 tr2 req i s t sc : tr = (tr1 ++ (CRand 8, AStr (t_id t)) :: tr2)%list -> t_type t = TtAccess -> t_value t = ""%string ->
  (forall iss t' a, ~ In (CTokCreate iss t', a) tr2) ->
  wp mints (fun _ _ => True) tr (exchange_issue req i s t sc).
Proof.
  intros -> Ht Hv Hn. unfold exchange_issue. wcall g. destruct g as [v|]; [|exact I].
  destruct (is_empty v); [exact I|]. wcall r; [|destruct (is_ok r); exact I].
  exists tr1, tr2. eexists. split; [rewrite <- app_assoc; reflexivity|]. split; [exact Hn|]. left.
  split; [|exact Ht]. destruct t; cbn in *. subst. reflexivity.
Qed.
Lemma mints_exchange tr c req st : wp mints (fun _ _ => True) tr (exchange_access_token c req st).
Proof.
  unfold exchange_access_token. wcall r. destruct r as [t| | |]; try exact I.
  destruct (t_status t); try exact I. destruct (t_type t); try exact I. destruct (t_meta t) as [m|]; try exact I.
  wcall t0. destruct (m_expires_at m <? unix t0)%N; [exact I|]. cbv zeta. wcall t1. wcall jti.
  destruct (tq_audience req) as [urn|].
  - wcall r. destruct r as [aud| | |]; try exact I.
    eapply mints_issue; [rewrite <- app_assoc; reflexivity|reflexivity|reflexivity|]. intros ? ? ? [X|[]]; discriminate X.
  - eapply mints_issue; [reflexivity|reflexivity|reflexivity|]. intros ? ? ? [].
Qed.

Ltac wmint := repeat first
  [ match goal with
    | |- True => exact I
    | |- wp _ _ _ (generate_access_token _ _ _) => apply mints_at
    | |- wp _ _ _ (generate_refresh_token _ _ _) => apply mints_rt
    | |- wp _ _ _ (exchange_access_token _ _ _) => apply mints_exchange
    | |- wp _ _ _ (Ret _) => exact I
    | |- wp _ _ _ Panic => exact I
    | |- wp _ _ _ (bind _ _) => apply (wp_bind _ _ (fun _ _ => True)); [|intros ? ? _]
    | |- wp _ _ _ (pmap _ _) => apply (wp_bind _ _ (fun _ _ => True)); [|intros ? ? _]
    | |- wp _ _ _ (let _ := _ in _) => cbv zeta
    | |- wp _ _ _ (if ?b then _ else _) => destruct b
    | |- wp _ _ _ (match ?x with _ => _ end) => destruct x
    end
  | let x := fresh "x" in wcall x ].

Lemma mints_token tr E r : wp mints (fun _ _ => True) tr (token_svc E r).
Proof.
  unfold token_svc, dispatch, authorization_code, redeem_session, client_credentials, refresh_token, device_code,
    token_exchange, prologue. wmint.
Qed.
Lemma mints_introspect tr E r : wp mints (fun _ _ => True) tr (introspect_svc E r).
Proof. unfold introspect_svc. wmint. Qed.
Lemma mints_revoke tr E r : wp mints (fun _ _ => True) tr (revoke_svc E r).
Proof. unfold revoke_svc. wmint. Qed.
Lemma mints_validate tr E r : wp mints (fun _ _ => True) tr (validate E r).
Proof. unfold validate. wmint. Qed.
Lemma mints_authorize tr E r : wp mints (fun _ _ => True) tr (authorize_svc E r).
Proof. unfold authorize_svc, authorize_with. wmint; apply mints_validate. Qed.
Lemma mints_register tr E r : wp mints (fun _ _ => True) tr (register_svc E r).
Proof. unfold register_svc. wmint; apply mints_validate. Qed.
Lemma mints_dev_authorize tr E r : wp mints (fun _ _ => True) tr (dev_authorize_svc E r).
Proof. unfold dev_authorize_svc. wmint. Qed.
Lemma mints_dev_validate tr r : wp mints (fun _ _ => True) tr (dev_validate_svc r).
Proof. unfold dev_validate_svc. wmint. Qed.
Lemma mints_assertion tr E r : wp mints (fun _ _ => True) tr (private_key_jwt E r).
Proof. unfold private_key_jwt. wmint. Qed.
Lemma mints_attestation tr E r : wp mints (fun _ _ => True) tr (client_attestation E r).
Proof. unfold client_attestation, validate_attestation. wmint. Qed.
Lemma mints_dpop tr E htm htu proof tv tc : wp mints (fun _ _ => True) tr (dpop_verify E htm htu proof tv tc).
Proof. unfold dpop_verify, dpop_finish. wmint. Qed.

Lemma mints_serve tr E r : wp mints (fun _ _ => True) tr (serve E r).
Proof.
  unfold serve. destruct r; (apply (wp_bind _ _ (fun _ _ => True)); [|intros ? ? _; exact I]).
  - apply mints_token.
  - apply mints_introspect.
  - apply mints_revoke.
  - apply mints_authorize.
  - apply mints_register.
  - apply mints_dev_authorize.
  - apply mints_dev_validate.
  - apply mints_assertion.
  - apply mints_attestation.
  - apply mints_dpop.
Qed.

Ltac whttp := repeat first
  [ match goal with
    | |- True => exact I
    | |- wp _ _ _ (token_svc _ _) => apply mints_token
    | |- wp _ _ _ (introspect_svc _ _) => apply mints_introspect
    | |- wp _ _ _ (revoke_svc _ _) => apply mints_revoke
    | |- wp _ _ _ (authorize_svc _ _) => apply mints_authorize
    | |- wp _ _ _ (register_svc _ _) => apply mints_register
    | |- wp _ _ _ (dev_authorize_svc _ _) => apply mints_dev_authorize
    | |- wp _ _ _ (dev_validate_svc _) => apply mints_dev_validate
    | |- wp _ _ _ (private_key_jwt _ _) => apply mints_assertion
    | |- wp _ _ _ (client_attestation _ _) => apply mints_attestation
    | |- wp _ _ _ (dpop_verify _ _ _ _ _ _) => apply mints_dpop
    | |- wp _ _ _ (with_error _ ?e) => unfold with_error; destruct e; exact I
    | |- wp _ _ _ (Ret _) => exact I
    | |- wp _ _ _ Panic => exact I
    | |- wp _ _ _ (bind _ _) => apply (wp_bind _ _ (fun _ _ => True)); [|intros ? ? _]
    | |- wp _ _ _ (let _ := _ in _) => cbv zeta
    | |- wp _ _ _ (if ?b then _ else _) => destruct b
    | |- wp _ _ _ (match ?x with _ => _ end) => destruct x
    end
  | let x := fresh "x" in wcall x ].

Lemma mints_client_auth tr E next r : (forall tr' c, wp mints (fun _ _ => True) tr' (next c)) ->
  wp mints (fun _ _ => True) tr (client_authentication E next r).
Proof. intros H. unfold client_authentication. whttp; apply H. Qed.

Lemma mints_http tr S e r : wp mints (fun _ _ => True) tr (answer_http S e r).
Proof.
  unfold answer_http, serve_http. destruct e.
  - apply mints_client_auth. intros tr' c. unfold token_handler, Http.token_answer. whttp.
  - apply mints_client_auth. intros tr' c. unfold introspection_handler. whttp.
  - apply mints_client_auth. intros tr' c. unfold revocation_handler. whttp.
  - apply mints_client_auth. intros tr' c. unfold par_handler. whttp.
  - unfold basic_authentication, authorization_handler, respond_in_mode, respond_jwt, respond_code. whttp.
  - apply mints_client_auth. intros tr' c. unfold device_authorization_handler. whttp.
  - unfold basic_authentication, device_handler. whttp.
Qed.

(** ** Positions in a history *)

Section Positions.
Context {X : Type} (view : X -> option (nat * call * answer)).

Fixpoint thread (i : nat) (l : list X) : list (call * answer) :=
  match l with
  | [] => []
  | x :: l => match view x with
              | Some (j, c, a) => if Nat.eqb j i then (c, a) :: thread i l else thread i l
              | None => thread i l
              end
  end.

Lemma thread_in i l x c a : In x l -> view x = Some (i, c, a) -> In (c, a) (thread i l).
Proof.
  induction l as [|y l IH]; [intros []|]. intros [->|H] Hv.
  - cbn. rewrite Hv, Nat.eqb_refl. left. reflexivity.
  - cbn. destruct (view y) as [[[j c'] a']|]; [|auto]. destruct (Nat.eqb j i); [right|]; auto.
Qed.

Lemma thread_at i l : forall tr1 c a tr2, thread i l = (tr1 ++ (c, a) :: tr2)%list ->
  exists l1 x l2, l = (l1 ++ x :: l2)%list /\ view x = Some (i, c, a) /\ thread i l1 = tr1 /\ thread i l2 = tr2.
Proof.
  induction l as [|y l IH]; intros tr1 c a tr2 H; [destruct tr1; discriminate H|].
  cbn in H. destruct (view y) as [[[j c'] a']|] eqn:Hv.
  - destruct (Nat.eqb_spec j i) as [->|Hn].
    + destruct tr1 as [|p tr1].
      * injection H as -> -> <-. exists [], y, l. auto.
      * injection H as <- H. destruct (IH _ _ _ _ H) as (l1 & x & l2 & -> & A & B & D).
        exists (y :: l1), x, l2. repeat split; auto. cbn. rewrite Hv, Nat.eqb_refl, B. reflexivity.
    + destruct (IH _ _ _ _ H) as (l1 & x & l2 & -> & A & B & D).
      exists (y :: l1), x, l2. repeat split; auto. cbn. rewrite Hv. apply Nat.eqb_neq in Hn. rewrite Hn. exact B.
  - destruct (IH _ _ _ _ H) as (l1 & x & l2 & -> & A & B & D).
    exists (y :: l1), x, l2. repeat split; auto. cbn. rewrite Hv. exact B.
Qed.

Definition seen (l : list X) (n i : nat) (c : call) (a : answer) : Prop :=
  exists x, nth_error l n = Some x /\ view x = Some (i, c, a).

Lemma seen_app l l' n i c a : seen l n i c a -> seen (l ++ l')%list n i c a.
Proof.
  intros (x & H & Hv). exists x. split; auto. rewrite nth_error_app1; auto. apply nth_error_Some. congruence.
Qed.

Lemma drawn i l t : minted (thread i l) t ->
  exists n m g, n < m < List.length l /\ seen l n i (CRand 8) (AStr (t_id t)) /\
    seen l m i g (AGen (Some (t_value t))) /\
    ((g = CGenAT (set_value t "") /\ t_type t = TtAccess) \/ (g = CGenRT (set_value t "") /\ t_type t = TtRefresh)) /\
    (forall k iss t' a, n < k -> ~ seen l k i (CTokCreate iss t') a).
Proof.
  intros (tr1 & tr2 & g & H & Hn & Hg). destruct (thread_at _ _ _ _ _ _ H) as (l1 & x & l2 & -> & Hx & _ & H2).
  destruct (thread_at _ _ _ _ _ _ H2) as (l3 & y & l4 & -> & Hy & H3 & H4).
  exists (List.length l1), (List.length l1 + S (List.length l3)), g.
  split; [rewrite !app_length; cbn; rewrite app_length; cbn; lia|].
  split; [exists x; split; auto; rewrite nth_error_app2, Nat.sub_diag by lia; reflexivity|].
  split.
  { exists y. split; auto. rewrite nth_error_app2 by lia. replace (_ + _ - _) with (S (List.length l3)) by lia. cbn.
    rewrite nth_error_app2, Nat.sub_diag by lia. reflexivity. }
  split; [exact Hg|]. intros k iss t' a Hk (z & Hz & Hv).
  rewrite nth_error_app2 in Hz by lia. destruct (k - List.length l1) as [|k'] eqn:Ek; [lia|]. cbn in Hz.
  apply nth_error_In in Hz. apply in_app_or in Hz as [Hz|[<-|Hz]].
  - apply (Hn iss t' a). rewrite <- H3. eapply thread_in; eauto.
  - rewrite Hy in Hv. injection Hv as Hv _. destruct Hg as [[-> _]|[-> _]]; discriminate Hv.
  - pose proof (thread_in _ _ _ _ _ Hz Hv) as Q. rewrite H4 in Q. destruct Q.
Qed.

Lemma two_creates h l1 x l2 y l3 i iss t a j iss' t' a' :
  h = (l1 ++ x :: l2 ++ y :: l3)%list -> view x = Some (i, CTokCreate iss t, a) -> view y = Some (j, CTokCreate iss' t', a') ->
  minted (thread i l1) t -> minted (thread j (l1 ++ x :: l2)%list) t' ->
  exists n n' m m' g g', n <> n' /\ m <> m' /\ m < List.length h /\ m' < List.length h /\
    seen h n i (CRand 8) (AStr (t_id t)) /\ seen h n' j (CRand 8) (AStr (t_id t')) /\
    seen h m i g (AGen (Some (t_value t))) /\ seen h m' j g' (AGen (Some (t_value t'))) /\
    ((g = CGenAT (set_value t "") /\ t_type t = TtAccess) \/ (g = CGenRT (set_value t "") /\ t_type t = TtRefresh)) /\
    ((g' = CGenAT (set_value t' "") /\ t_type t' = TtAccess) \/ (g' = CGenRT (set_value t' "") /\ t_type t' = TtRefresh)).
Proof.
  intros Hh Hx Hy M M'. destruct (drawn _ _ _ M) as (n & m & g & L & S1 & S2 & G & _).
  destruct (drawn _ _ _ M') as (n' & m' & g' & L' & S1' & S2' & G' & Hno).
  set (h' := (l1 ++ x :: l2)%list) in *. assert (Eh : h = (h' ++ y :: l3)%list) by (unfold h'; rewrite <- app_assoc; exact Hh).
  assert (P1 : seen h' n i (CRand 8) (AStr (t_id t))) by (apply seen_app; auto).
  assert (P2 : seen h' m i g (AGen (Some (t_value t)))) by (apply seen_app; auto).
  assert (Px : seen h' (List.length l1) i (CTokCreate iss t) a)
    by (exists x; split; auto; unfold h'; rewrite nth_error_app2, Nat.sub_diag by lia; reflexivity).
  exists n, n', m, m', g, g'.
  split.
  { intros <-. destruct P1 as (z & Z1 & Z2), S1' as (z' & Z1' & Z2'). rewrite Z1 in Z1'. injection Z1' as <-.
    rewrite Z2 in Z2'. injection Z2' as <- _. apply (Hno (List.length l1) iss t a); [lia|exact Px]. }
  split.
  { intros <-. destruct P2 as (z & Z1 & Z2), S2' as (z' & Z1' & Z2'). rewrite Z1 in Z1'. injection Z1' as <-.
    rewrite Z2 in Z2'. injection Z2' as <- _. apply (Hno (List.length l1) iss t a); [lia|exact Px]. }
  rewrite Eh, app_length. split; [unfold h'; rewrite app_length; lia|]. split; [lia|].
  split; [apply seen_app; auto|]. split; [apply seen_app; auto|]. split; [apply seen_app; auto|]. split; [apply seen_app; auto|]. auto.
Qed.
End Positions.

Definition event_view (e : event) : option (nat * call * answer) :=
  match e with EvCall i c a => Some (i, c, a) | _ => None end.
Definition hevent_view (e : hevent) : option (nat * call * answer) :=
  match e with HvCall i c a => Some (i, c, a) | _ => None end.
Lemma thread_calls i h : thread event_view i h = calls_of i h.
Proof. induction h as [|[] h IH]; cbn; rewrite ?IH; auto. Qed.
Lemma thread_hcalls i h : thread hevent_view i h = hcalls i h.
Proof. induction h as [|[] h IH]; cbn; rewrite ?IH; auto. Qed.
Lemma event_seen h n i c a : seen event_view h n i c a <-> nth_error h n = Some (EvCall i c a).
Proof.
  split; [|intros H; exists (EvCall i c a); auto]. intros (x & H & Hv). destruct x; try discriminate Hv.
  injection Hv as -> -> ->. exact H.
Qed.
Lemma hevent_seen h n i c a : seen hevent_view h n i c a <-> nth_error h n = Some (HvCall i c a).
Proof.
  split; [|intros H; exists (HvCall i c a); auto]. intros (x & H & Hv). destruct x; try discriminate Hv.
  injection Hv as -> -> ->. exact H.
Qed.

Lemma create_minted E w xs h1 i iss t a h2 :
  history E w xs = (h1 ++ EvCall i (CTokCreate iss t) a :: h2)%list -> minted (calls_of i h1) t.
Proof.
  intros Hh. destruct (trace_history E w xs) as (s & Ht & _). rewrite Hh in Ht.
  destruct (call_started _ _ _ _ _ _ _ _ Ht) as (r & q & H1 & H2).
  rewrite calls_of_app in H2. cbn [calls_of] in H2. rewrite Nat.eqb_refl in H2.
  exact (wp_call mints _ _ _ _ _ _ _ (mints_serve [] E r) H2).
Qed.
Lemma web_create_minted S w xs h1 i iss t a h2 :
  http_history S w xs = (h1 ++ HvCall i (CTokCreate iss t) a :: h2)%list -> minted (hcalls i h1) t.
Proof.
  intros Hh. destruct (http_has_start S w xs i (HvCall i (CTokCreate iss t) a)) as (ep & r & Hs);
    [rewrite Hh; apply in_or_app; right; left; reflexivity|reflexivity|].
  destruct (http_started _ _ _ _ _ _ Hs) as ((q & Hr) & _). rewrite Hh, hcalls_app in Hr. cbn [hcalls] in Hr.
  rewrite Nat.eqb_refl in Hr. exact (wp_call mints _ _ _ _ _ _ _ (mints_http [] S ep r) Hr).
Qed.

(** ** The theorems *)

(** Two values made from different UUIDs, or for different kinds, are stored in different slots. *)
Lemma slots_differ C (E : ext) sa sr (source : nat -> string) n m t t' v v' iss iss' :
  primitives_ok C -> (forall n, String.length (source n) = 16) -> source n <> source m ->
  (t_type t = TtAccess /\ made C sa t (source n) v \/ t_type t = TtRefresh /\ made C sr t (source n) v) ->
  (t_type t' = TtAccess /\ made C sa t' (source m) v' \/ t_type t' = TtRefresh /\ made C sr t' (source m) v') ->
  (x_blake E tok_secret ("solid:token:v1" ++ iss ++ v)%string = x_blake E tok_secret ("solid:token:v1" ++ iss' ++ v')%string ->
   (iss ++ v = iss' ++ v')%string) ->
  tok_key E iss v <> tok_key E iss' v'.
Proof.
  intros HC Ls Hs H H' Hc Hk. unfold tok_key, derive in Hk. apply hex_inj, Hc in Hk.
  assert (exists s1, marked (t_type t) /\ made C s1 t (source n) v) as (s1 & M & G)
    by (destruct H as [[-> G]|[-> G]]; eexists; (split; [unfold marked; auto|exact G])).
  assert (exists s2, marked (t_type t') /\ made C s2 t' (source m) v') as (s2 & M' & G')
    by (destruct H' as [[-> G']|[-> G']]; eexists; (split; [unfold marked; auto|exact G'])).
  destruct (issuer_value _ _ _ _ _ _ _ _ _ _ _ HC (Ls n) (Ls m) M M' G G' Hk) as [_ <-].
  destruct (made_same _ _ _ _ _ _ _ _ HC (Ls n) (Ls m) M M' G G') as [_ X]. exact (Hs X).
Qed.

Lemma made_value C s t u v w : made C s (set_value t w) u v -> made C s t u v.
Proof. intros H. destruct t. exact H. Qed.

Lemma C117_no_reuse_proof : forall C sa sr source E w xs,
  let h := history E w xs in
  primitives_ok C -> package_generators C sa sr source h -> unique_uuids source (List.length h) ->
  unique_ids h -> slots_collision_free E h ->
  no_reuse E h.
Proof.
  intros C sa sr source E w xs h HC Hg [Ls Hu] Hi Hc h1 i iss t a h2 j iss' t' a' h3 Hh.
  assert (M : minted (calls_of i h1) t) by (eapply create_minted; exact Hh).
  assert (M' : minted (calls_of j (h1 ++ EvCall i (CTokCreate iss t) a :: h2)%list) t').
  { eapply (create_minted E w xs _ j iss' t' a' h3). fold h. rewrite Hh, <- app_assoc. reflexivity. }
  rewrite <- thread_calls in M, M'.
  destruct (two_creates event_view _ _ _ _ _ _ _ _ _ _ _ _ _ _ Hh eq_refl eq_refl M M')
    as (n & n' & m & m' & g & g' & Hn & Hm & Lm & Lm' & S1 & S1' & S2 & S2' & G & G').
  rewrite event_seen in S1, S1', S2, S2'. split; [intros X; rewrite X in S1; exact (Hn (Hi _ _ _ _ _ S1 S1'))|].
  apply (slots_differ C E sa sr source m m' t t'); [exact HC|exact Ls|..].
  - intros X. exact (Hm (Hu _ _ Lm Lm' X)).
  - destruct G as [[-> T]|[-> T]]; [left|right]; (split; [exact T|]); apply (made_value _ _ _ _ _ ""); eapply Hg; exact S2.
  - destruct G' as [[-> T]|[-> T]]; [left|right]; (split; [exact T|]); apply (made_value _ _ _ _ _ ""); eapply Hg; exact S2'.
  - eapply Hc; rewrite Hh; (apply in_or_app; right).
    + left. reflexivity.
    + right. apply in_or_app. right. left. reflexivity.
Qed.

Lemma C117_web_no_reuse_proof : forall C sa sr source S w xs,
  let hh := http_history S w xs in
  primitives_ok C -> web_package_generators C sa sr source hh -> unique_uuids source (List.length hh) ->
  web_unique_ids hh -> web_slots_collision_free (sv_ext S) hh ->
  web_no_reuse (sv_ext S) hh.
Proof.
  intros C sa sr source S w xs hh HC Hg [Ls Hu] Hi Hc h1 i iss t a h2 j iss' t' a' h3 Hh.
  assert (M : minted (hcalls i h1) t) by (eapply web_create_minted; exact Hh).
  assert (M' : minted (hcalls j (h1 ++ HvCall i (CTokCreate iss t) a :: h2)%list) t').
  { eapply (web_create_minted S w xs _ j iss' t' a' h3). fold hh. rewrite Hh, <- app_assoc. reflexivity. }
  rewrite <- thread_hcalls in M, M'.
  destruct (two_creates hevent_view _ _ _ _ _ _ _ _ _ _ _ _ _ _ Hh eq_refl eq_refl M M')
    as (n & n' & m & m' & g & g' & Hn & Hm & Lm & Lm' & S1 & S1' & S2 & S2' & G & G').
  rewrite hevent_seen in S1, S1', S2, S2'. split; [intros X; rewrite X in S1; exact (Hn (Hi _ _ _ _ _ S1 S1'))|].
  apply (slots_differ C (sv_ext S) sa sr source m m' t t'); [exact HC|exact Ls|..].
  - intros X. exact (Hm (Hu _ _ Lm Lm' X)).
  - destruct G as [[-> T]|[-> T]]; [left|right]; (split; [exact T|]); apply (made_value _ _ _ _ _ ""); eapply Hg; exact S2.
  - destruct G' as [[-> T]|[-> T]]; [left|right]; (split; [exact T|]); apply (made_value _ _ _ _ _ ""); eapply Hg; exact S2'.
  - eapply Hc; rewrite Hh; (apply in_or_app; right).
    + left. reflexivity.
    + right. apply in_or_app. right. left. reflexivity.
Qed.

Lemma C117_kind_proof : forall C secret t uuid v,
  primitives_ok C -> String.length uuid = 16 -> made C secret t uuid v ->
  (* the value says what kind of token it is, then which UUID; and the verifier with that key accepts it *)
  (t_type t = TtAccess -> exists m, v = ("sldat_" ++ to_padded_base62 uuid 22 ++ "_" ++ m)%string) /\
  (t_type t = TtRefresh -> exists m, v = ("sldrt_" ++ to_padded_base62 uuid 22 ++ "_" ++ m)%string) /\
  uuid_extract C secret v = Done (Some uuid).
Proof.
  intros C secret t uuid v HC Lu H. split; [|split].
  - intros T. destruct (made_shape _ _ _ _ _ HC Lu (or_introl T) H) as (m & -> & _). rewrite T. exists m. reflexivity.
  - intros T. destruct (made_shape _ _ _ _ _ HC Lu (or_intror (or_introl T)) H) as (m & -> & _). rewrite T. exists m. reflexivity.
  - destruct H as (nonce & Ln & H). exact (extract_generated _ _ _ _ _ _ Lu Ln (proj1 HC) H).
Qed.

Lemma C117_different_proof : forall C secret secret' t t' uuid uuid' v v',
  primitives_ok C -> String.length uuid = 16 -> String.length uuid' = 16 ->
  (t_type t = TtAccess \/ t_type t = TtRefresh) -> (t_type t' = TtAccess \/ t_type t' = TtRefresh) ->
  made C secret t uuid v -> made C secret' t' uuid' v' ->
  (* values of different kinds or from different UUIDs differ, whatever keys and nonces *)
  t_type t <> t_type t' \/ uuid <> uuid' -> v <> v'.
Proof.
  intros C secret secret' t t' uuid uuid' v v' HC Lu Lu' T T' H H' D <-.
  assert (M : marked (t_type t)) by (unfold marked; tauto). assert (M' : marked (t_type t')) by (unfold marked; tauto).
  destruct (made_same _ _ _ _ _ _ _ _ HC Lu Lu' M M' H H') as [A B]. tauto.
Qed.

Lemma C117_total_proof : forall C generator t uuid nonce,
  primitives_ok C ->
  (* there is a value exactly if there are a generator, a token, a UUID and a nonce *)
  token_value C generator t uuid nonce <> None <->
  generator <> None /\ t <> None /\ uuid <> None /\ nonce <> None.
Proof.
  intros C generator t uuid nonce HC. unfold token_value, uuid_generate.
  destruct generator as [s|]; [|split; [congruence|intuition congruence]].
  destruct t as [t|]; [|split; [congruence|intuition congruence]].
  destruct uuid as [u|]; [|split; [congruence|intuition congruence]].
  destruct nonce as [n|]; [|split; [congruence|intuition congruence]].
  cbv zeta. rewrite (kind_prefix_ok _ _ HC), kind_prefix_chars. split; [|intros _].
  - intros _. repeat split; discriminate.
  - destruct (is_empty _); cbn [negb]; discriminate.
Qed.

Lemma C117_other_key_proof : forall C secret secret' t uuid v uuid',
  primitives_ok C -> String.length uuid = 16 -> (t_type t = TtAccess \/ t_type t = TtRefresh) -> made C secret t uuid v ->
  uuid_extract C secret' v = Done (Some uuid') ->
  (* a verifier with another key accepts the value only for the same UUID and if both keys give
     the same code: for instance an access token shown to the verifier of refresh tokens *)
  uuid' = uuid /\ exists nonce, String.length nonce = 12 /\
  let code k := cr_hmac C (cr_hkdf C k nonce "solid-uuid-wrapper-mac-v1")
                  ("solid-uuid-protected-token-v1" ++ (kind_prefix (t_type t) ++ "_") ++ uuid)%string in
  code secret' = code secret.
Proof.
  intros C secret secret' t uuid v uuid' HC Lu T (nonce & Ln & H) Hx. cbn in H.
  assert (HM : marked (t_type t)) by (unfold marked; tauto).
  destruct (generated_spelled _ _ _ _ _ _ Lu Ln (proj1 HC) H) as (p & S & Ls & _ & Ep). cbv zeta in S.
  rewrite (kind_prefix_ok _ _ HC) in Ep.
  replace (is_empty (kind_prefix (t_type t))) with false in Ep by (destruct HM as [->|[->| ->]]; reflexivity). subst p.
  set (sig := (nonce ++ uuid_mac C secret nonce (kind_prefix (t_type t) ++ "_") uuid)%string) in *.
  apply extract_inv in Hx as (p & u & m & nonce' & mac & S2 & Lu' & Du & Ln' & Lm & Dm & Em).
  destruct S as (-> & W & _). destruct S2 as (E2 & W2 & _).
  assert (E3 : ((kind_prefix (t_type t) ++ "_") ++ to_padded_base62 uuid 22)%string = (p ++ u)%string /\ to_padded_base62 sig 59 = m).
  { apply app_sep_inj; [apply alnum_no_sep, W|apply alnum_no_sep, W2|]. rewrite sapp_assoc. rewrite (sapp_assoc p). exact E2. }
  destruct E3 as [E3 <-]. apply app_len_inj in E3; [|destruct W as [-> _], W2 as [-> _]; reflexivity].
  destruct E3 as [<- <-]. unfold denotes in Du, Dm. rewrite padded_num in Du, Dm. injection Du as Du. injection Dm as Dm.
  assert (uuid' = uuid) as -> by (rewrite <- (be_bytes_be_num uuid'), <- (be_bytes_be_num uuid), Lu, Lu', Du; reflexivity).
  split; auto. exists nonce. split; [exact Ln|]. cbv zeta.
  assert (sig = (nonce' ++ mac)%string) as Esig.
  { rewrite <- (be_bytes_be_num sig), <- (be_bytes_be_num (nonce' ++ mac)), Ls, slen_app, Ln', Lm, Dm. reflexivity. }
  unfold sig in Esig. apply app_len_inj in Esig; [|unfold uuid_mac; rewrite (proj1 HC); auto].
  destruct Esig as [<- Em2]. rewrite Em in Em2. symmetry. exact Em2.
Qed.
