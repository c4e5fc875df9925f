(** * Issuer isolation: proofs *)

From Verif Require Export PfAuthz.

(** ** Keys *)

Definition unhex_digit (a : ascii) : N := if (byte a <? 58)%N then (byte a - 48)%N else (byte a - 87)%N.

Lemma unhex_ok : forallb (fun n => (unhex_digit (hex_digit n) =? n)%N) (map N.of_nat (seq 0 16)) = true.
Proof. vm_compute. reflexivity. Qed.

Lemma unhex_digit_ok n : (n < 16)%N -> unhex_digit (hex_digit n) = n.
Proof.
  intros H. pose proof unhex_ok as X. rewrite forallb_forall in X.
  specialize (X n). apply N.eqb_eq, X. apply in_map_iff. exists (N.to_nat n). split; [lia|].
  apply in_seq. lia.
Qed.

Lemma byte_lt a : (byte a < 256)%N.
Proof. unfold byte. apply N_ascii_bounded. Qed.

Lemma byte_inj a b : byte a = byte b -> a = b.
Proof. unfold byte. intros H. rewrite <- (ascii_N_embedding a), <- (ascii_N_embedding b), H. reflexivity. Qed.

Lemma hex_inj a : forall b, hex a = hex b -> a = b.
Proof.
  induction a as [|x a IH]; intros [|y b]; cbn [hex]; try discriminate; auto.
  intros H. injection H as H1 H2 H3. f_equal; auto. apply byte_inj.
  pose proof (byte_lt x). pose proof (byte_lt y).
  apply (f_equal unhex_digit) in H1, H2.
  rewrite !unhex_digit_ok in H1 by (apply N.div_lt_upper_bound; lia).
  rewrite !unhex_digit_ok in H2 by (apply N.mod_lt; lia).
  rewrite (N.div_mod (byte x) 16), (N.div_mod (byte y) 16) by lia. congruence.
Qed.

Lemma sapp_cancel a : forall b c, (a ++ b)%string = (a ++ c)%string -> b = c.
Proof. induction a; cbn; intros b c H; auto. injection H; auto. Qed.

Lemma derive_inj E secret label i v i' v' : collision_free E ->
  derive E secret label i v = derive E secret label i' v' -> (i ++ v)%string = (i' ++ v')%string.
Proof. unfold derive. intros Hc H. apply hex_inj, Hc in H. apply sapp_cancel in H. exact H. Qed.

Lemma apart_split i : forall v i' v', (i ++ v)%string = (i' ++ v')%string ->
  ~ proper_prefix i i' -> ~ proper_prefix i' i -> i = i' /\ v = v'.
Proof.
  induction i as [|x i IH]; intros v i' v' H N1 N2.
  - destruct i' as [|y i']; auto. destruct N1. exists (String y i'). split; [discriminate|auto].
  - destruct i' as [|y i'].
    + destruct N2. exists (String x i). split; [discriminate|auto].
    + cbn in H. injection H as -> H. destruct (IH _ _ _ H) as [-> ->]; auto.
      * intros (c & C1 & C2). apply N1. exists c. split; auto. rewrite C2. auto.
      * intros (c & C1 & C2). apply N2. exists c. split; auto. rewrite C2. auto.
Qed.

Section Apart.
Context (E : ext) (w : world) (xs : list sched).
Notation h := (history E w xs).
Hypothesis Hcf : collision_free E.
Hypothesis Hap : issuers_apart h.

Lemma derive_apart secret label i v i' v' j r j' r' :
  derive E secret label i v = derive E secret label i' v' ->
  asked h j r -> issuer_of r = Some i -> asked h j' r' -> issuer_of r' = Some i' -> i = i' /\ v = v'.
Proof using Hcf Hap.
  intros H H1 H2 H3 H4. apply derive_inj in H; auto. apply apart_split; eauto.
Qed.

(** The invariant: a token is created for the issuer of the request that creates it. *)
Lemma created_issuer (Hn : no_tokens w) h1 i iss t a h2 : h = (h1 ++ EvCall i (CTokCreate iss t) a :: h2)%list ->
  exists req m, asked h1 i (RToken (Some req)) /\ tq_issuer req = iss /\ t_meta t = Some m /\ m_issuer m = iss.
Proof using Hcf Hap.
  revert i iss t a h2. induction h1 as [h1 IH] using (induction_ltof1 _ (@List.length event)).
  unfold ltof in IH. intros i iss t a h2 Hh.
  destruct (write_reason _ _ _ _ _ _ _ _ Hh) as (r & R1 & R2).
  destruct R2 as (req & -> & J).
  assert (Hread : forall v st, did (calls_of i h1) (CTokGet (tq_issuer req) v) (ATok (SOk st)) ->
    exists m, t_meta st = Some m /\ m_issuer m = tq_issuer req).
  { intros v st Hin. apply did_event in Hin. apply in_split in Hin as (g1 & g2 & ->).
    assert (Hsp : h = (g1 ++ EvCall i (CTokGet (tq_issuer req) v) (ATok (SOk st)) ::
     (g2 ++ EvCall i (CTokCreate iss t) a :: h2))%list) by (rewrite Hh; list_eq).
    destruct (tok_origin _ _ _ _ _ _ _ _ _ Hn Hsp) as (t0 & iss' & (k & i' & a' & S1 & S2) & Ht).
    apply in_split in S1 as (e1 & e2 & ->).
    destruct (IH e1) with (i := k) (iss := i') (t := t0) (a := a') (h2 := (e2 ++ EvCall i (CTokGet (tq_issuer req) v) (ATok (SOk st)) ::
     (g2 ++ EvCall i (CTokCreate iss t) a :: h2))%list) as (req0 & m & Q1 & Q2 & Q3 & Q4).
    { rewrite !app_length. cbn. rewrite ?app_length. lia. }
    { rewrite Hsp. list_eq. }
    assert (i' = tq_issuer req) as Hi.
    { eapply proj1. eapply derive_apart with (j := k) (r := RToken (Some req0)) (j' := i) (r' := RToken (Some req)).
      - exact S2.
      - unfold asked. rewrite Hsp, !in_app_iff. auto.
      - cbn. congruence.
      - unfold asked. rewrite Hh. apply in_or_app; left; exact R1.
      - reflexivity. }
    exists m. split; [|congruence]. destruct Ht as [->| ->]; exact Q3. }
  exists req. destruct J as (auth & c & m & tm & H1 & H2 & H3 & H4 & H5 & H6 & H7 & H8 & H9 & H10).
  exists m. split; [exact R1|].
  unfold grant_just in H10. destruct (tq_grant req) as [|code redirect verif| |code|value|value ty] eqn:Hg.
  - destruct H10.
  - destruct H10 as (s & ar & rd & _ & _ & _ & _ & _ & -> & [X|[_ X]]); rewrite X in H4; cbn in H4; injection H4 as <-; rewrite X; auto.
  - destruct H10 as (_ & _ & X & ->). rewrite X in H4; cbn in H4; injection H4 as <-; rewrite X; auto.
  - destruct H10 as (s & dr & dc & sub & t0 & _ & _ & _ & _ & _ & _ & _ & _ & -> & _ & [X|[_ X]]);
      rewrite X in H4; cbn in H4; injection H4 as <-; rewrite X; auto.
  - destruct H10 as (rt & m0 & t0 & G1 & _ & _ & _ & G2 & _ & _ & -> & _ & X).
    destruct (Hread _ _ G1) as (m' & M1 & M2). assert (m0 = m') as -> by congruence.
    destruct X as [X|X]; rewrite X in H4; cbn in H4; injection H4 as <-; rewrite X; auto.
  - destruct H10 as (st & m0 & t0 & sc & aud & G1 & _ & _ & _ & G2 & _ & -> & _ & _ & X).
    destruct (Hread _ _ G1) as (m' & M1 & M2). assert (m0 = m') as -> by congruence.
    rewrite X in H4; cbn in H4; injection H4 as <-; rewrite X; auto.
Qed.

Lemma stored_issued (Hn : no_tokens w) h1 h2 iss v t j r : h = (h1 ++ h2)%list ->
  stored_as E h1 iss v t -> asked h j r -> issuer_of r = Some iss -> issued_at h iss v t.
Proof using Hcf Hap.
  intros Hh (k & iss' & a & S1 & S2) Hj Hr. apply in_split in S1 as (e1 & e2 & ->).
  assert (Hsp : h = (e1 ++ EvCall k (CTokCreate iss' t) a :: (e2 ++ h2))%list) by (rewrite Hh; list_eq).
  destruct (created_issuer Hn _ _ _ _ _ _ Hsp) as (req & m & Q1 & Q2 & Q3 & Q4).
  assert (Q1' : asked h k (RToken (Some req))) by (unfold asked; rewrite Hsp; apply in_or_app; auto).
  destruct (derive_apart _ _ _ _ _ _ _ _ _ _ S2 Q1' (f_equal Some Q2) Hj Hr) as [X1 X2]. subst iss'.
  exists k, req, m, a. do 2 (split; [assumption|]). split; [rewrite Hsp, <- X1; apply in_or_app; right; left; reflexivity|].
  rewrite <- X1. auto.
Qed.

Lemma read_issued (Hn : no_tokens w) i iss v t j r :
  In (EvCall i (CTokGet iss v) (ATok (SOk t))) h -> asked h j r -> issuer_of r = Some iss ->
  exists t0, issued_at h iss v t0 /\ copy_of t0 t.
Proof using Hcf Hap.
  intros Hin Hj Hr. apply in_split in Hin as (h1 & h2 & Hh).
  destruct (tok_origin _ _ _ _ _ _ _ _ _ Hn Hh) as (t0 & iss' & S & Ht).
  exists t0. split; [eapply stored_issued; eauto|]. destruct Ht as [->| ->]; repeat split.
Qed.
End Apart.

(** ** C22 *)

Lemma C22_tokens_isolated_partial_proof : forall E w xs,
  collision_free E -> issuers_apart (history E w xs) -> no_tokens w ->
  (* refreshed and exchanged tokens are the issuer's own, and so are the new ones *)
  (forall i req res value, token_ok (history E w xs) i req res ->
     presents_refresh req (tq_issuer req) value \/ presents_subject req (tq_issuer req) value ->
     exists t0, issued_at (history E w xs) (tq_issuer req) value t0) /\
  (forall i req res t, token_ok (history E w xs) i req res -> In t (tokens_of res) ->
     exists m, t_meta t = Some m /\ m_issuer m = tq_issuer req) /\
  (* introspection describes only the issuer's own tokens *)
  (forall i req res t, answered (history E w xs) i (RIntrospect (Some req)) (PIntrospect res) ->
     ir_token res = Some t -> t_status t <> TsUnknown ->
     exists t0, issued_at (history E w xs) (vq_issuer req) (vq_token req) t0 /\ t_id t = t_id t0) /\
  (* and revocation revokes only the issuer's own tokens *)
  (forall i req iss' id a, asked (history E w xs) i (RRevoke (Some req)) ->
     In (EvCall i (CTokRevoke iss' id) a) (history E w xs) ->
     exists t0, issued_at (history E w xs) (vq_issuer req) (vq_token req) t0 /\ t_id t0 = id).
Proof.
  intros E w xs Hc Ha Hn. split; [|split; [|split]].
  - intros i req res value Hok Hp. pose proof (grant_type_of _ _ _ _ _ _ Hok) as Hgt.
    destruct Hp as [[_ Hp]|[_ [ty Hp]]]; rewrite Hp in Hgt.
    + destruct (refresh_facts _ _ _ _ _ _ Hok Hgt) as (value' & c & rt & m & h1 & h2 & F1 & F2 & F3 & F4 & _).
      assert (value' = value) as -> by congruence.
      destruct (read_issued E w xs Hc Ha Hn i (tq_issuer req) value rt i (RToken (Some req))) as (t0 & T & _); eauto.
      * rewrite F4. apply in_or_app; right; left; reflexivity.
      * apply Hok.
    + destruct (exchange_facts _ _ _ _ _ _ Hok Hgt) as (value' & c & st & m & h1 & h2 & nt & r & mt & [_ [ty' F1]] & F2 & F3 & F4 & _).
      assert (value' = value) as -> by congruence.
      destruct (read_issued E w xs Hc Ha Hn i (tq_issuer req) value st i (RToken (Some req))) as (t0 & T & _); eauto.
      * rewrite F4. apply in_or_app; right; left; reflexivity.
      * apply Hok.
  - intros i req res t Hok Hin. destruct (response_created _ _ _ _ _ _ _ Hok Hin) as (iss & m0 & r & Hcr & _).
    apply in_split in Hcr as (h1 & h2 & Hh).
    destruct (created_issuer E w xs Hc Ha Hn _ _ _ _ _ _ Hh) as (req' & m & Q1 & Q2 & Q3 & Q4).
    exists m. split; [exact Q3|]. rewrite Q4, <- Q2.
    assert (X : RToken (Some req') = RToken (Some req)).
    { destruct (trace_history E w xs) as (sy & Htr & _). eapply start_unique; [exact Htr| |apply Hok]. unfold asked in Q1. rewrite Hh. apply in_or_app; left; exact Q1. }
    injection X as ->. reflexivity.
  - intros i req res t Han Ht Hs.
    destruct (introspect_facts _ _ _ _ _ _ Han) as [[_ X]|(rt & _ & Hin & X)]; [congruence|].
    rewrite Ht in X. destruct rt as [tt0| | |]; try discriminate; injection X as ->; [|destruct (Hs eq_refl)].
    destruct (read_issued E w xs Hc Ha Hn i (vq_issuer req) (vq_token req) tt0 i (RIntrospect (Some req))) as (t' & T & (_ & _ & _ & T4)); eauto.
    apply Han.
  - intros i req iss' id a Hask Hin. apply in_split in Hin as (h1 & h2 & Hh).
    destruct (C11_revokes_what_is_presented_partial_proof _ _ _ _ _ _ _ _ _ _ Hn Hh Hask) as (t & T1 & T2).
    exists t. split; auto. eapply stored_issued; eauto.
Qed.

Lemma C22_codes_isolated_partial_proof : forall E w xs,
  collision_free E -> issuers_apart (history E w xs) -> blank w ->
  (forall i req res code, token_ok (history E w xs) i req res -> presents_code req (tq_issuer req) code ->
     exists k q s a, asked (history E w xs) k (RAuthorize (Some q)) /\ zq_issuer q = tq_issuer req /\
       In (EvCall k (CSessReg (tq_issuer req) code s) a) (history E w xs)) /\
  (forall i q res front uri, authorize_ok_at (history E w xs) i q res ->
     zq_request q = Some front -> ar_request_uri front = Some uri ->
     exists g gq pushed a, asked (history E w xs) g (RRegister (Some gq)) /\ gq_issuer gq = zq_issuer q /\
       In (EvCall g (CReqReg (zq_issuer q) uri pushed) a) (history E w xs)).
Proof.
  intros E w xs Hc Ha Hb. split.
  - intros i req res code Hok [_ (redirect & verif & Hg)]. pose proof (grant_type_of _ _ _ _ _ _ Hok) as Hgt. rewrite Hg in Hgt.
    destruct (C04_pkce_and_redirect_gate_proof _ _ _ _ _ _ Hb Hok Hgt) as (code' & re & ve & c & sub & ar & h1 & h2 & G1 & _ & G3 & _ & (e1 & k & q & code0 & a & e2 & A1 & A2 & A3 & A4 & _) & _).
    assert (code' = code) as -> by congruence.
    assert (Hk : asked (history E w xs) k (RAuthorize (Some q))) by (unfold asked; rewrite G3, A1, !in_app_iff; auto).
    destruct (derive_apart E w xs Hc Ha _ _ _ _ _ _ k _ i _ A4 Hk eq_refl (proj1 (proj1 Hok)) eq_refl) as [X1 X2].
    exists k, q. do 2 eexists. split; [exact Hk|]. split; [exact X1|].
    rewrite <- X1, <- X2, G3, A1, !in_app_iff. left. right. left. reflexivity.
  - intros i q res front uri Hok Hq Hu.
    destruct (C29_pushed_request_as_pushed_proof _ _ _ _ _ _ _ _ Hb Hok Hq Hu) as (g & gq & c0 & r0 & pushed & stored & uri' & a & a' & G1 & _ & _ & _ & _ & G2 & G3 & _).
    destruct (derive_apart E w xs Hc Ha _ _ _ _ _ _ g _ i _ G3 G1 eq_refl (proj1 (proj1 Hok)) eq_refl) as [X1 X2].
    exists g, gq, pushed, a. split; [exact G1|]. split; [exact X1|]. rewrite <- X1, <- X2. exact G2.
Qed.

(** Another issuer, whose name extends the demo issuer's. *)
Definition x_other_intro : list sched :=
  (x_code ++ full 2 (RIntrospect (Some (mkValReq "https://as.examplea" (Some webapp) "t-1"))) [ok; ok; ok; ok; ok])%list.

Lemma asked_starts h k r : asked h k r -> In (EvStart k r) (starts h).
Proof. intros H. apply filter_In. split; auto. Qed.

Lemma demo_collision_free : collision_free demo_ext.
Proof. intros k x y. cbn. auto. Qed.

Lemma C22_introspection_isolated_refuted_proof : exists E w xs i req res t m,
  collision_free E /\ blank w /\ registry_ok w /\ no_faults xs /\
  answered (history E w xs) i (RIntrospect (Some req)) (PIntrospect res) /\ ir_err res = false /\
  ir_token res = Some t /\ t_status t = TsActive /\ t_meta t = Some m /\
  (* the token names another issuer, and no other request was ever sent to this one *)
  m_issuer m <> vq_issuer req /\
  (forall k r, asked (history E w xs) k r -> issuer_of r = Some (vq_issuer req) -> k = i).
Proof.
  exists demo_ext, w0, x_other_intro, 2%nat, (mkValReq "https://as.examplea" (Some webapp) "t-1"). do 3 eexists.
  split; [apply demo_collision_free|]. split; [apply blank_w0|]. split; [apply registry_demo|].
  split; [repeat (constructor; [exact I || reflexivity|]); constructor|].
  split; [demo_ans|].
  split; [vm_compute; reflexivity|]. split; [vm_compute; reflexivity|]. split; [vm_compute; reflexivity|].
  split; [vm_compute; reflexivity|]. split; [vm_compute; discriminate|].
  intros k r Hk. apply asked_starts in Hk. revert Hk.
  replace (starts (history demo_ext w0 x_other_intro)) with
    [EvStart 0 (authz all_scope (Some "consent")); EvStart 1 (RToken (Some (redeem webapp "code-1")));
     EvStart 2 (RIntrospect (Some (mkValReq "https://as.examplea" (Some webapp) "t-1")))] by (vm_compute; reflexivity).
  intros [X|[X|[X|[]]]]; injection X as <- <-; [discriminate|discriminate|reflexivity].
Qed.

(** The code "code-1" of one issuer is the code "ode-1" of another one. *)
Definition redeem_other : token_request :=
  mkTokReq "https://as.examplec" (Some webapp) "authorization_code" None None None
    (GAuthorizationCode "ode-1" cb verifier).
Definition x_other_code : list sched :=
  (x_authz ++ full 1 (RToken (Some redeem_other))
     ([ok; ok; ok] ++ os_tok "id-1" "at-1" ++ os_tok "id-2" "rt-1"))%list.

Lemma C22_codes_isolated_refuted_proof : exists E w xs i req res nt m,
  collision_free E /\ blank w /\ registry_ok w /\ no_faults xs /\
  token_ok (history E w xs) i req res /\ tq_grant_type req = "authorization_code"%string /\
  tr_at res = Some nt /\ t_meta nt = Some m /\ m_subject m = "alice"%string /\
  (* no other request was ever sent to this issuer *)
  (forall k r, asked (history E w xs) k r -> issuer_of r = Some (tq_issuer req) -> k = i).
Proof.
  exists demo_ext, w0, x_other_code, 1%nat, redeem_other. do 3 eexists.
  split; [apply demo_collision_free|]. split; [apply blank_w0|]. split; [apply registry_demo|].
  split; [repeat (constructor; [exact I || reflexivity|]); constructor|].
  split; [demo_ok|]. do 4 (split; [vm_compute; reflexivity|]).
  intros k r Hk. apply asked_starts in Hk. revert Hk.
  replace (starts (history demo_ext w0 x_other_code)) with
    [EvStart 0 (authz all_scope (Some "consent")); EvStart 1 (RToken (Some redeem_other))] by (vm_compute; reflexivity).
  intros [X|[X|[]]]; injection X as <- <-; [discriminate|reflexivity].
Qed.
