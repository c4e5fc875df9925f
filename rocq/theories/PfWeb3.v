(** * Proofs about whole HTTP histories: revocation and introspection *)

From Verif Require Export PfWeb2.
From Coq Require Import Lia.

(** ** Splits in the other direction *)

Lemma esplit own h : forall l1 x c a l2, effects own h = (l1 ++ Effect x c a :: l2)%list ->
  exists j g1 g2, x = nth_error own j /\ h = (g1 ++ EvCall j c a :: g2)%list /\ effects own g1 = l1 /\ effects own g2 = l2.
Proof.
  induction h as [|e h IH]; intros l1 i c a l2 H; [destruct l1; discriminate|].
  assert (Skip : forall e, effects own [e] = [] -> effects own h = (l1 ++ Effect i c a :: l2)%list ->
    exists j b1 b2, i = nth_error own j /\ (e :: h)%list = (b1 ++ EvCall j c a :: b2)%list /\ effects own b1 = l1 /\ effects own b2 = l2).
  { intros e' He' H'. destruct (IH _ _ _ _ _ H') as (k & b1 & b2 & -> & -> & A & B). exists k, (e' :: b1), b2.
    repeat split; auto. change (e' :: b1)%list with ([e'] ++ b1)%list. rewrite effects_app, He'. exact A. }
  change (e :: h)%list with ([e] ++ h)%list in H. rewrite effects_app in H.
  destruct e as [j r|j c' a'|j o|d]; cbn in H; try (apply Skip; [reflexivity|exact H]).
  - destruct (calm c') eqn:Hc; [apply Skip; [cbn; rewrite Hc; reflexivity|exact H]|].
    destruct l1 as [|x l1]; cbn in H.
    + injection H as <- -> -> <-. exists j, [], h. auto.
    + injection H as H1 H'. destruct (IH _ _ _ _ _ H') as (k & b1 & b2 & -> & -> & A & B). exists k, (EvCall j c' a' :: b1), b2.
      repeat split; auto. cbn. rewrite Hc. cbn. f_equal; auto.
  - destruct l1 as [|x l1]; cbn in H; [discriminate|]. injection H as H1 H'.
    destruct (IH _ _ _ _ _ H') as (k & b1 & b2 & -> & -> & A & B). exists k, (EvTick d :: b1), b2.
    repeat split; auto. cbn. f_equal; auto.
Qed.

Section Same.
Context (own : list nat) (b : list hevent) (g : list event) (Al : heffects b = effects own g).

Lemma same_in c : calm c = false -> forall a, (exists k, In (HvCall k c a) b) <-> (exists k, In (EvCall k c a) g).
Proof.
  intros Hc a. split; intros [k Hk].
  - apply in_heffects in Hk; auto. rewrite Al in Hk. apply in_effects in Hk as (j & _ & Hj); eauto.
  - assert (X : In (Effect (nth_error own k) c a) (heffects b)) by (rewrite Al; apply in_effects; eauto).
    apply in_split in X as (l1 & l2 & X). destruct (hsplit _ _ _ _ _ _ X) as (i & b1 & b2 & _ & -> & _).
    exists i. apply in_or_app; cbn; auto.
Qed.

Lemma same_stored E issuer v t : web_stored_as E b issuer v t <-> stored_as E g issuer v t.
Proof.
  split; intros (k & iss' & a & H1 & H2).
  - destruct (proj1 (same_in (CTokCreate iss' t) eq_refl a)) as (k' & H'); [eauto|]. exists k', iss', a. auto.
  - destruct (proj2 (same_in (CTokCreate iss' t) eq_refl a)) as (k' & H'); [eauto|]. exists k', iss', a. auto.
Qed.
Lemma same_revoked id : web_revoked_in b id <-> revoked_in g id.
Proof.
  split; intros (k & iss' & a & H1 & H2).
  - destruct (proj1 (same_in (CTokRevoke iss' id) eq_refl a)) as (k' & H'); [eauto|]. exists k', iss', a. auto.
  - destruct (proj2 (same_in (CTokRevoke iss' id) eq_refl a)) as (k' & H'); [eauto|]. exists k', iss', a. auto.
Qed.
End Same.

Lemma same_live own b g E issuer v t : heffects b = effects own g -> web_live_as E b issuer v t <-> live_as E g issuer v t.
Proof.
  intros Al. split; intros (h1 & k & iss' & a & h2 & -> & H2 & H3).
  - rewrite heffects_app in Al. cbn in Al. symmetry in Al. destruct (esplit _ _ _ _ _ _ _ Al) as (j & g1 & g2 & _ & -> & _ & X).
    exists g1, j, iss', a, g2. split; auto. split; auto. intros Hr. apply H3. eapply same_revoked; eauto.
  - rewrite effects_app in Al. cbn in Al. destruct (hsplit _ _ _ _ _ _ Al) as (j & g1 & g2 & _ & -> & _ & X).
    exists g1, j, iss', a, g2. split; auto. split; auto. intros Hr. apply H3. eapply same_revoked; eauto.
Qed.

Lemma same_reuse own b g E : heffects b = effects own g -> web_no_reuse E b -> no_reuse E g.
Proof.
  intros Al H h1 i iss t a h2 j iss' t' a' h3 ->.
  rewrite effects_app in Al. cbn in Al. destruct (hsplit _ _ _ _ _ _ Al) as (k & b1 & b2 & _ & -> & _ & X).
  fold (effects own) in X. change (flat_map _ ?l) with (effects own l) in X. rewrite effects_app in X. cbn in X.
  destruct (hsplit _ _ _ _ _ _ X) as (k' & b3 & b4 & _ & -> & _). eapply H. reflexivity.
Qed.

(** A service request of an HTTP request received later is made later. *)
Lemma made_later S w xs own hh1 hh2 h1 h2 i e r j x : http_history S w xs = (hh1 ++ hh2)%list ->
  explained S own hh1 h1 -> In (HvStart i e r) hh2 -> nth_error own j = Some i ->
  In (EvStart j x) (h1 ++ h2)%list -> In (EvStart j x) h2.
Proof.
  intros Hh X Hi Hj Hin. apply in_app_or in Hin as [Hin|Hin]; auto. exfalso.
  destruct (ex_start _ _ _ _ X _ _ Hin) as (i' & e' & r' & d' & O' & A' & _). rewrite Hj in O'. injection O' as <-.
  exact (not_again _ _ _ _ _ _ _ _ _ _ Hh A' Hi).
Qed.

(** The service request behind an answer of the introspection endpoint. *)
Lemma introspection_served S own hh h i r doc :
  explained S own hh h -> one_start hh -> responded hh i EIntrospect r (HDoc doc) ->
  exists j c res t n d, nth_error own j = Some i /\
    answered h j (RIntrospect (Some (mkValReq (sv_issuer S) (Some c) (form_value r "token")))) (PIntrospect res) /\
    ir_err res = false /\ ir_token res = Some t /\ In (HvCall i CNow (ATime n)) hh /\
    doc = match t_meta t with
          | None => [("active"%string, JBool false)]
          | Some m => introspection_doc t m (unix n)
          end /\ past own hh h i d /\ logged_in r d (Some c).
Proof.
  intros X U [Hs Hd]. destruct (ex_done _ _ _ _ X _ _ Hd) as (e0 & r0 & d0 & A & P & B).
  destruct (U _ _ _ _ _ Hs A) as [-> ->]. cbn [ending] in B.
  destruct B as (_ & q & res & t & n & (j & Hj) & B1 & B2 & B3 & B4).
  destruct (P _ Hj) as (O & P1 & P2).
  destruct (ex_start _ _ _ _ X _ _ P1) as (i' & e' & r' & d & O' & A' & Pd & St).
  rewrite O in O'. injection O' as <-. destruct (U _ _ _ _ _ Hs A') as [-> ->]. cbn [stage] in St.
  destruct St as (_ & c & L & ->).
  exists j, c, res, t, n, d. split; auto. split; [split; auto|]. repeat (split; auto). exact (P _ B3).
Qed.
(** The same for the revocation endpoint. *)
Lemma revocation_served S own hh h i r :
  explained S own hh h -> one_start hh -> responded hh i ERevoke r HEmpty ->
  exists j c res d, nth_error own j = Some i /\
    answered h j (RRevoke (Some (mkValReq (sv_issuer S) (Some c) (form_value r "token")))) (PRevoke res) /\
    rr_err res = false /\ past own hh h i d /\ logged_in r d (Some c).
Proof.
  intros X U [Hs Hd]. destruct (ex_done _ _ _ _ X _ _ Hd) as (e0 & r0 & d0 & A & P & B).
  destruct (U _ _ _ _ _ Hs A) as [-> ->]. cbn [ending] in B.
  destruct B as [(_ & q & res & (j & Hj) & B1)|(B & _)]; [|discriminate].
  destruct (P _ Hj) as (O & P1 & P2).
  destruct (ex_start _ _ _ _ X _ _ P1) as (i' & e' & r' & d & O' & A' & Pd & St).
  rewrite O in O'. injection O' as <-. destruct (U _ _ _ _ _ Hs A') as [-> ->]. cbn [stage] in St.
  destruct St as (_ & c & L & ->).
  exists j, c, res, d. split; auto. split; [split; auto|]. auto.
Qed.

Lemma one_start_all S w xs : one_start (http_history S w xs).
Proof. apply (one_start_history S w xs _ []). rewrite app_nil_r; auto. Qed.

(** Who creates a token. *)
Lemma creation_served S w xs ys own (R : refined S w xs ys own) i iss t a :
  In (HvCall i (CTokCreate iss t) a) (http_history S w xs) ->
  exists r j c cnf, In (HvStart i EToken r) (http_history S w xs) /\ nth_error own j = Some i /\
    In (EvStart j (RToken (Some (token_message (sv_issuer S) r c cnf)))) (history (sv_ext S) w ys) /\
    In (EvCall j (CTokCreate iss t) a) (history (sv_ext S) w ys).
Proof.
  intros Hin. apply in_heffects in Hin; [|reflexivity].
  rewrite (ex_effects _ _ _ _ (rf_explained _ _ _ _ _ R)) in Hin. apply in_effects in Hin as (j & O & Hj); [|reflexivity].
  pose proof Hj as Hj'. apply in_split in Hj' as (g1 & g2 & Hg).
  destruct (write_reason _ _ _ _ _ _ _ _ Hg) as (x & Hx & (req & -> & _)).
  assert (Hst : In (EvStart j (RToken (Some req))) (history (sv_ext S) w ys)) by (rewrite Hg; apply in_or_app; auto).
  destruct (made_for _ _ _ _ _ R _ _ Hst) as (i' & e & r & d & O' & Hs & P & St).
  rewrite O in O'. injection O' as <-. cbn [stage] in St. destruct St as (-> & _ & c & cnf & _ & Hq & _). injection Hq as ->.
  exists r, j, c, cnf. auto.
Qed.

Lemma message_refresh issuer r c cnf v : sends_refresh r v -> tq_grant (token_message issuer r c cnf) = GRefreshToken v.
Proof. intros [H1 H2]. unfold token_message. rewrite H1. cbn [tq_grant]. rewrite H2. reflexivity. Qed.

Lemma inactive_doc t m now : t_status t <> TsActive -> introspection_doc t m now = [("active"%string, JBool false)].
Proof. intros H. unfold introspection_doc. destruct (t_status t); try reflexivity. congruence. Qed.

(** ** C71 *)
Lemma C71_web_revocation_permanent_proof : forall S w xs hh1 hh2 i r v,
  let hh := http_history S w xs in
  no_tokens w -> web_no_reuse (sv_ext S) hh -> hh = (hh1 ++ hh2)%list ->
  responded hh1 i ERevoke r HEmpty -> form_value r "token" = v ->
  (forall j r2, In (HvStart j EToken r2) hh2 -> sends_refresh r2 v ->
     ~ got_tokens hh j r2 /\ forall iss t a, ~ In (HvCall j (CTokCreate iss t) a) hh) /\
  (forall j r2 doc, In (HvStart j EIntrospect r2) hh2 -> form_value r2 "token" = v ->
     responded hh j EIntrospect r2 (HDoc doc) -> doc = [("active"%string, JBool false)]).
Proof.
  intros S w xs hh1 hh2 i r v hh Hn Hu Hh G Hv. subst hh v.
  destruct (http_refines S w xs) as (ys & own & R).
  destruct (rf_prefix _ _ _ _ _ R _ _ Hh) as (h1 & h2 & Hy & X1).
  pose proof (rf_explained _ _ _ _ _ R) as X. pose proof (one_start_all S w xs) as U.
  destruct (revocation_served _ _ _ _ _ _ X1 (one_start_history _ _ _ _ _ Hh) G) as (j0 & c0 & res0 & d0 & O0 & A0 & E0 & _).
  assert (Hu' : no_reuse (sv_ext S) (history (sv_ext S) w ys)) by (eapply same_reuse; [apply (ex_effects _ _ _ _ X)|exact Hu]).
  destruct (C10_revocation_permanent_proof _ _ _ _ _ _ _ _ Hn Hu' Hy A0 E0) as (C1 & C2 & _). cbn [vq_issuer vq_token] in C1, C2.
  split.
  - intros j r2 Hj Hr2.
    assert (K : forall j' c cnf, nth_error own j' = Some j ->
      In (EvStart j' (RToken (Some (token_message (sv_issuer S) r2 c cnf)))) (history (sv_ext S) w ys) ->
      (forall res2, ~ token_ok (history (sv_ext S) w ys) j' (token_message (sv_issuer S) r2 c cnf) res2) /\
      (forall iss t a, ~ In (EvCall j' (CTokCreate iss t) a) (history (sv_ext S) w ys))).
    { intros j' c cnf O Hs. rewrite Hy in Hs. apply (C1 j' (token_message (sv_issuer S) r2 c cnf)).
      - eapply made_later; eauto.
      - left. split; [reflexivity|]. apply message_refresh; auto. }
    split.
    + intros (a2 & x2 & t2 & f2 & s2 & G2).
      destruct (token_served _ _ _ _ _ _ _ _ _ _ _ X U G2) as (j2 & c2 & cnf2 & res2 & _ & _ & _ & _ & O2 & T2 & _).
      destruct (K j2 c2 cnf2 O2) as [K1 _]; [apply T2|]. exact (K1 _ T2).
    + intros iss t a Hin. destruct (creation_served _ _ _ _ _ R _ _ _ _ Hin) as (r' & j' & c & cnf & S1 & S2 & S3 & S4).
      destruct (U j EToken r2 EToken r') as [_ ->]; [rewrite Hh; apply in_or_app; auto|exact S1|].
      destruct (K _ _ _ S2 S3) as [_ K2]. exact (K2 _ _ _ S4).
  - intros j r2 doc Hj Hv2 G2.
    destruct (introspection_served _ _ _ _ _ _ _ X U G2) as (j2 & c2 & res2 & t & n & d & O2 & A2 & E2 & T2 & _ & -> & _).
    destruct (t_meta t) as [m|]; [|reflexivity]. apply inactive_doc.
    apply (C2 j2 _ res2 t) in A2; auto.
    destruct A2 as [A2 _]. rewrite Hy in A2. eapply made_later; eauto.
Qed.

(** ** C72 *)

Lemma in_snoc_split {A} (h : list A) e x a b : (h ++ [e])%list = (a ++ x :: b)%list ->
  (exists b', h = (a ++ x :: b')%list /\ b = (b' ++ [e])%list) \/ h = a /\ e = x /\ b = [].
Proof.
  destruct (exists_last (l := x :: b)) as (l & y & Hl); [discriminate|]. rewrite Hl, app_assoc. intros H.
  apply app_inj_tail in H as [-> ->]. destruct l as [|x' l].
  - cbn in Hl. injection Hl as -> ->. right. rewrite app_nil_r. auto.
  - cbn in Hl. injection Hl as -> ->. left. eauto.
Qed.

Lemma http_now S w xs g1 i n g2 : http_history S w xs = (g1 ++ HvCall i CNow (ATime n) :: g2)%list ->
  n = (w_now w + time_in g1)%N.
Proof.
  assert (T : forall a b, time_in (a ++ b) = (time_in a + time_in b)%N).
  { induction a as [|[] a IH]; intros b; cbn; auto. rewrite IH. lia. }
  assert (X : (fun hh s => w_now (hs_world s) = (w_now w + time_in hh)%N /\
    forall g1 i n g2, hh = (g1 ++ HvCall i CNow (ATime n) :: g2)%list -> n = (w_now w + time_in g1)%N)
    ([] ++ http_history S w xs)%list (snd (hrun S (mkHsys w []) xs))).
  { apply (hrun_inv S (fun hh s => w_now (hs_world s) = (w_now w + time_in hh)%N /\
      forall g1 i n g2, hh = (g1 ++ HvCall i CNow (ATime n) :: g2)%list -> n = (w_now w + time_in g1)%N)).
    - intros h s x ev s' [A B] Hx.
      assert (Old : forall g1 i n g2, (h ++ [ev])%list = (g1 ++ HvCall i CNow (ATime n) :: g2)%list ->
        n = (w_now w + time_in g1)%N \/ h = g1 /\ ev = HvCall i CNow (ATime n)).
      { intros a j m b Hb. destruct (in_snoc_split _ _ _ _ _ Hb) as [(b' & Hx1 & _)|(Hx1 & Hx2 & _)]; eauto. }
      destruct x as [e' r'|j o|dt]; cbn in Hx.
      + injection Hx as <- <-. cbn. rewrite T. cbn. split; [rewrite A; lia|].
        intros a k m b Hb. destruct (Old _ _ _ _ Hb) as [?|[_ ?]]; auto; discriminate.
      + destruct (nth_error (hs_threads s) j) as [[[a| | |c k]|]|]; try discriminate.
        * injection Hx as <- <-. cbn. rewrite T. cbn. split; [rewrite A; lia|].
          intros a' k m b Hb. destruct (Old _ _ _ _ Hb) as [?|[_ ?]]; auto; discriminate.
        * injection Hx as <- <-. cbn. rewrite T. cbn. split; [rewrite A; lia|].
          intros a' k m b Hb. destruct (Old _ _ _ _ Hb) as [?|[_ ?]]; auto; discriminate.
        * destruct (exec (sv_ext S) (hs_world s) o c) as [a w'] eqn:He. injection Hx as <- <-. cbn. rewrite T. cbn.
          split. { destruct (exec_const _ _ _ _ _ _ He) as [Hw _]. rewrite Hw, A. lia. }
          intros a' k' m b Hb. destruct (Old _ _ _ _ Hb) as [?|[<- Hc]]; auto. injection Hc as -> -> ->.
          apply read_now in He as [He _]. congruence.
      + injection Hx as <- <-. cbn. rewrite T. cbn. split; [rewrite A; lia|].
        intros a k m b Hb. destruct (Old _ _ _ _ Hb) as [?|[_ ?]]; auto; discriminate.
    - cbn. split; [lia|]. intros a k m b Hb. destruct a; discriminate. }
  destruct X as [_ X]. apply X.
Qed.

(** A service request made for [i] in a prefix: [i] was received in the aligned prefix. *)
Lemma aligned_started S w xs own b1 b2 g1 i j x e r : http_history S w xs = (b1 ++ b2)%list -> aligned own b1 g1 ->
  In (EvStart j x) g1 -> nth_error own j = Some i -> In (HvStart i e r) (http_history S w xs) -> In (HvStart i e r) b1.
Proof.
  intros Hb [B _] Hj O Hs. destruct (B _ _ Hj) as (i' & e' & r' & O' & Hi). rewrite O in O'. injection O' as <-.
  destruct (one_start_all S w xs i e r e' r') as [-> ->]; auto. rewrite Hb. apply in_or_app; auto.
Qed.

Lemma live_stored E h issuer v t : live_as E h issuer v t -> stored_as E h issuer v t.
Proof. intros (h1 & k & iss' & a & h2 & -> & H & _). exists k, iss', a. split; auto. apply in_or_app; cbn; auto. Qed.

Lemma usable_within t m now : t_meta t = Some m -> is_usable (Some t) now = true <-> within m now.
Proof.
  intros H. unfold is_usable, within. rewrite H.
  destruct (m_expires_at m <? now)%N eqn:H1; [apply N.ltb_lt in H1|apply N.ltb_ge in H1].
  - split; [discriminate|lia].
  - destruct (now <? m_not_before m)%N eqn:H2; [apply N.ltb_lt in H2|apply N.ltb_ge in H2]; split; try discriminate; auto; lia.
Qed.

Lemma C72_web_introspection_proof : forall S w xs i r doc,
  let hh := http_history S w xs in
  let value := form_value r "token" in
  no_tokens w -> hno_faults xs -> web_no_reuse (sv_ext S) hh ->
  responded hh i EIntrospect r (HDoc doc) ->
  exists c h1 h2 k1 k2,
    authenticated S w hh i r c /\
    (* the token was looked up at one point after the request came in, the clock read at another *)
    hh = (h1 ++ h2)%list /\ In (HvStart i EIntrospect r) h1 /\
    hh = (k1 ++ k2)%list /\ In (HvStart i EIntrospect r) k1 /\
    let now := unix (w_now w + time_in k1) in
    ((exists t m, web_live_as (sv_ext S) h1 (sv_issuer S) value t /\ t_meta t = Some m /\ within m now /\
        doc = token_document t m) \/
     ((forall t m, web_live_as (sv_ext S) h1 (sv_issuer S) value t -> t_meta t = Some m -> ~ within m now) /\
      doc = [("active"%string, JBool false)])).
Proof.
  intros S w xs i r doc hh value Hn Hf Hu G. subst hh value.
  destruct (http_refines S w xs) as (ys & own & R).
  pose proof (rf_explained _ _ _ _ _ R) as X. pose proof (one_start_all S w xs) as U.
  destruct (introspection_served _ _ _ _ _ _ _ X U G) as (j & c & res & t & n & d & O & A & He & Ht & Hnow & -> & P & L).
  assert (Hu' : no_reuse (sv_ext S) (history (sv_ext S) w ys)) by (eapply same_reuse; [apply (ex_effects _ _ _ _ X)|exact Hu]).
  destruct (C17_introspection_proof _ _ _ _ _ _ Hn (rf_faults _ _ _ _ _ R Hf) Hu' A He)
    as (g1 & g2 & t' & Hg & Hd & Ht' & D1 & D2 & D3). cbn [vq_issuer vq_token] in D1, D2, D3.
  rewrite Ht in Ht'. injection Ht' as <-.
  destruct (http_times _ _ _ _ _ R _ _ Hg) as (b1 & b2 & B1 & B2 & _).
  apply in_split in Hnow as (k1 & k2 & Hk). pose proof (http_now _ _ _ _ _ _ _ Hk) as ->.
  exists c, b1, b2, k1. eexists. split; [eapply logged_authenticated; eauto|].
  split; [exact B1|]. split; [eapply aligned_started; eauto; apply G|]. split; [exact Hk|].
  split; [eapply start_before; eauto; [reflexivity|discriminate|apply G]|]. cbv zeta.
  pose proof (fun t0 => same_live own b1 g1 (sv_ext S) (sv_issuer S) (form_value r "token") t0 (proj2 B2)) as SL.
  set (now := unix (w_now w + time_in k1)).
  assert (Dead : t_status t <> TsActive -> forall t m,
    web_live_as (sv_ext S) b1 (sv_issuer S) (form_value r "token") t -> t_meta t = Some m -> ~ within m now).
  { intros Hs t0 m0 Hl _ _. apply Hs. apply D1. exists t0. apply SL. exact Hl. }
  destruct (t_meta t) as [m|] eqn:Hm.
  - assert (Hdec : t_status t = TsActive \/ t_status t <> TsActive) by (destruct (t_status t); auto; right; discriminate).
    destruct Hdec as [Hs|Hs]; [|right; split; [apply Dead; auto|apply inactive_doc; auto]].
    destruct (proj1 D1 Hs) as (t0 & Hl). destruct (D2 _ (live_stored _ _ _ _ _ Hl)) as (F1 & F2 & F3 & F4 & _).
    unfold introspection_doc. rewrite Hs. cbn [is_active andb].
    destruct (is_usable (Some t) now) eqn:Hus.
    + left. exists t0, m. split; [apply SL; exact Hl|]. split; [congruence|]. split; [eapply usable_within; eauto|].
      unfold token_document. rewrite <- F4, <- F1. cbn. reflexivity.
    + right. split; [|reflexivity]. intros t1 m1 Hl1 Hm1 W. apply SL in Hl1. destruct (D2 _ (live_stored _ _ _ _ _ Hl1)) as (_ & _ & F3' & _).
      assert (m1 = m) by congruence. subst m1. apply (usable_within t m now Hm) in W. congruence.
  - right. split; [|reflexivity]. intros t0 m0 Hl Hm0 _. apply SL in Hl.
    destruct (D2 _ (live_stored _ _ _ _ _ Hl)) as (_ & _ & F3 & _). congruence.
Qed.
