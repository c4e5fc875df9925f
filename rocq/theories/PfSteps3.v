(** * Revocation under concurrency: proofs *)

From Verif Require Export PfSteps2.

Lemma run_app E xs : forall cf ys, tk_run E cf (xs ++ ys) =
  (fst (tk_run E (fst (tk_run E cf xs)) ys), (snd (tk_run E cf xs) ++ snd (tk_run E (fst (tk_run E cf xs)) ys))%list).
Proof.
  induction xs as [|x xs IH]; intros cf ys; cbn [app tk_run fst snd].
  - destruct (tk_run E cf ys); reflexivity.
  - destruct (tk_step E cf x) as [cf' e1]. rewrite IH. destruct (tk_run E cf' xs) as [cf'' e2]. cbn [fst snd].
    rewrite app_assoc. reflexivity.
Qed.

Lemma step_events E cf x : snd (tk_step E cf x) = [] \/ exists e, snd (tk_step E cf x) = [e].
Proof.
  destruct x as [th c|th]; cbn [tk_step]; destruct (sc_threads cf th) as [[c' p]|]; cbn; eauto.
  destruct p; cbn; eauto; match goal with |- context [nth_error ?l ?a] => destruct (nth_error l a) end; cbn; eauto.
Qed.

(** The steps behind a part of a history. *)
Lemma run_split E xs : forall cf h1 e h2, snd (tk_run E cf xs) = (h1 ++ e :: h2)%list ->
  exists xs1 x xs2, xs = (xs1 ++ x :: xs2)%list /\ snd (tk_run E cf xs1) = h1 /\
    snd (tk_step E (fst (tk_run E cf xs1)) x) = [e] /\
    snd (tk_run E (fst (tk_step E (fst (tk_run E cf xs1)) x)) xs2) = h2.
Proof.
  induction xs as [|x xs IH]; intros cf h1 e h2 Hh; cbn [tk_run snd] in Hh; [destruct h1; discriminate|].
  destruct (tk_step E cf x) as [cf' e1] eqn:Hs. destruct (tk_run E cf' xs) as [cf'' e2] eqn:Hr. cbn [snd] in Hh.
  assert (K : forall h1', e2 = (h1' ++ e :: h2)%list -> h1 = (e1 ++ h1')%list -> exists xs1 x0 xs2, x :: xs = (xs1 ++ x0 :: xs2)%list /\ snd (tk_run E cf xs1) = h1 /\
    snd (tk_step E (fst (tk_run E cf xs1)) x0) = [e] /\ snd (tk_run E (fst (tk_step E (fst (tk_run E cf xs1)) x0)) xs2) = h2).
  { intros h1' Hk ->. destruct (IH cf' h1' e h2) as (xs1 & x0 & xs2 & -> & A & B & C); [rewrite Hr; exact Hk|].
    exists (x :: xs1), x0, xs2. split; [reflexivity|]. cbn [tk_run]. rewrite Hs. destruct (tk_run E cf' xs1) as [cf1 e3]. cbn [fst snd] in *.
    subst. auto. }
  destruct (step_events E cf x) as [He|(e0 & He)]; rewrite Hs in He; cbn [snd] in He; subst e1.
  - apply (K h1); auto.
  - destruct h1 as [|y h1]; cbn [app] in Hh.
    + injection Hh as -> <-. exists [], x, xs. cbn [tk_run fst snd app]. rewrite Hs. cbn [fst snd]. rewrite Hr. auto.
    + injection Hh as -> Hk. apply (K h1); auto.
Qed.

Ltac by_thread k th := destruct (Nat.eq_dec k th) as [?Heq|?Hneq];
  [subst k; rewrite ?set_thread_same in * | rewrite ?(set_thread_other _ th _ k) in * by assumption].

Section Revoked.
Context (E : ext).
Context (H : list sevent).
Hypothesis Hapart : creations_apart E H.

(** A token with this identifier is revoked. *)
Definition gone (s : tstore) (id : string) : Prop :=
  exists a t, slot s a = Some t /\ t_id t = id /\ t_status t = TsRevoked.

Definition rpc (s : tstore) (c : scall) (p : pc) : Prop :=
  match p with
  | PcCreateId i t => c = SCreate i t /\ forall a u, slot s a = Some u -> t_id u <> t_id t
  | PcCreateVal _ => exists i t, c = SCreate i t
  | PcDelLoad _ | PcDelId _ | PcDelVal _ => exists i id, c = SDelete i id
  | PcRevLoad id => exists i, c = SRevoke i id
  | PcRevSet a => exists i id t, c = SRevoke i id /\ slot s a = Some t /\ t_id t = id
  | PcRevId _ | PcRevVal _ => exists i id, c = SRevoke i id /\ gone s id
  | PcReturn SrOk => forall i id, c = SRevoke i id -> gone s id
  | _ => True
  end.

Record rinv (s : tstore) (thr : nat -> option (scall * pc)) (h : list sevent) : Prop := mkRInv {
  ri_id : forall id a, ts_id s id = Some a -> exists t, slot s a = Some t /\ t_id t = id;
  ri_uniq : forall a b t u, slot s a = Some t -> slot s b = Some u -> t_id t = t_id u -> a = b;
  ri_origin : forall a t, slot s a = Some t -> exists th i t0, In (SvCall th (SCreate i t0)) h /\ t_id t = t_id t0;
  ri_pc : forall th c p, thr th = Some (c, p) -> In (SvCall th c) h /\ rpc s c p;
  ri_two : forall th1 th2 c1 c2 i1 t1 i2 t2, th1 <> th2 -> thr th1 = Some (c1, PcCreateId i1 t1) ->
    thr th2 = Some (c2, PcCreateId i2 t2) -> t_id t1 <> t_id t2
}.

Definition keeps (s s' : tstore) : Prop :=
  forall a t, slot s a = Some t -> exists t', slot s' a = Some t' /\ t_id t' = t_id t /\
    (t_status t = TsRevoked -> t_status t' = TsRevoked).
Lemma keeps_refl s : keeps s s.
Proof. intros a t Ha. eauto. Qed.
Lemma keeps_gone s s' id : keeps s s' -> gone s id -> gone s' id.
Proof. intros K (a & t & A & B & C). destruct (K _ _ A) as (t' & A' & B' & C'). exists a, t'. split; [auto|]. split; [congruence|auto]. Qed.

Lemma rpc_keeps s s' c p : keeps s s' ->
  (forall i t, p = PcCreateId i t -> forall a u, slot s' a = Some u -> t_id u <> t_id t) -> rpc s c p -> rpc s' c p.
Proof.
  intros K F. destruct p; cbn [rpc]; auto.
  - intros (A & B). split; [auto|]. apply (F _ _ eq_refl).
  - intros (i & id & t & A & B & C). destruct (K _ _ B) as (t' & B' & C' & _). exists i, id, t'. split; [auto|]. split; [auto|congruence].
  - intros (i & id & A & B). exists i, id. split; [auto|]. eapply keeps_gone; eauto.
  - intros (i & id & A & B). exists i, id. split; [auto|]. eapply keeps_gone; eauto.
  - destruct r; auto. intros A i id B. eapply keeps_gone; eauto.
Qed.

(** One goroutine steps from [p] to [p']. *)
Lemma rinv_move s s' thr h th c p p' : rinv s thr h -> thr th = Some (c, p) -> keeps s s' ->
  (forall id a, ts_id s' id = Some a -> exists t, slot s' a = Some t /\ t_id t = id) ->
  (forall a b t u, slot s' a = Some t -> slot s' b = Some u -> t_id t = t_id u -> a = b) ->
  (forall a t, slot s' a = Some t -> exists th i t0, In (SvCall th (SCreate i t0)) h /\ t_id t = t_id t0) ->
  rpc s' c p' -> (forall i t, p' <> PcCreateId i t) ->
  (forall th' c' i t, th' <> th -> thr th' = Some (c', PcCreateId i t) -> forall a u, slot s' a = Some u -> t_id u <> t_id t) ->
  rinv s' (set_thread thr th (Some (c, p'))) h.
Proof.
  intros [A1 A2 A3 A4 A5] Hth K B1 B2 B3 B4 B5 B6. split; auto.
  - intros k c0 p0. by_thread k th.
    + intros [= <- <-]. split; [apply (A4 _ _ _ Hth)|exact B4].
    + intros Hk. destruct (A4 _ _ _ Hk) as (Q1 & Q2). split; [exact Q1|]. eapply rpc_keeps; eauto.
      intros i t ->. eapply B6; eauto.
  - intros k1 k2 c1 c2 i1 t1 i2 t2 Hne. by_thread k1 th.
    { intros [= _ ->]. exfalso. eapply B5. reflexivity. }
    by_thread k2 th; [|eauto]. intros _ [= _ ->]. exfalso. eapply B5. reflexivity.
Qed.

Lemma rinv_local s thr h th c p p' : rinv s thr h -> thr th = Some (c, p) -> rpc s c p' -> (forall i t, p' <> PcCreateId i t) ->
  rinv s (set_thread thr th (Some (c, p'))) h.
Proof.
  intros R Hth K F. eapply rinv_move; eauto using keeps_refl; try apply R.
  intros k c' i t Hne Hk. destruct (ri_pc _ _ _ R _ _ _ Hk) as (_ & _ & Q). exact Q.
Qed.

(** Stores that touch the indexes only. *)
Lemma rinv_index s f g thr h th c p p' : rinv s thr h -> thr th = Some (c, p) ->
  (forall id a, f id = Some a -> exists t, slot s a = Some t /\ t_id t = id) ->
  rpc s c p' -> (forall i t, p' <> PcCreateId i t) ->
  rinv (mkTStore (ts_heap s) f g) (set_thread thr th (Some (c, p'))) h.
Proof.
  intros R Hth Hf K F. apply (rinv_move s (mkTStore (ts_heap s) f g) thr h th c p p' R Hth (keeps_refl s) Hf (ri_uniq _ _ _ R) (ri_origin _ _ _ R)).
  - apply (rpc_keeps s (mkTStore (ts_heap s) f g) c p' (keeps_refl s)); [|exact K]. intros i t ->. exfalso. eapply F. reflexivity.
  - exact F.
  - intros k c' i t Hne Hk. destruct (ri_pc _ _ _ R _ _ _ Hk) as (_ & _ & Q). exact Q.
Qed.

Lemma rinv_step cf h x cf' evs rest : rinv (sc_store cf) (sc_threads cf) h -> tk_step E cf x = (cf', evs) ->
  H = (h ++ evs ++ rest)%list ->
  rinv (sc_store cf') (sc_threads cf') (h ++ evs) /\ keeps (sc_store cf) (sc_store cf').
Proof using Hapart.
  intros R Hs HH. destruct cf as [s thr]. cbn [sc_store sc_threads] in *.
  assert (Hid : rinv s thr (h ++ []) /\ keeps s s) by (rewrite app_nil_r; split; [exact R|apply keeps_refl]).
  assert (Hmore : forall e, In e h -> In e (h ++ evs)) by (intros; apply in_or_app; auto).
  assert (Horg : forall a t, slot s a = Some t -> exists th i t0, In (SvCall th (SCreate i t0)) (h ++ evs) /\ t_id t = t_id t0).
  { intros a t Ha. destruct (ri_origin _ _ _ R _ _ Ha) as (k & i & t0 & K1 & K2). eauto 8. }
  destruct x as [th c|th]; cbn [tk_step sc_store sc_threads] in Hs.
  - destruct (thr th) eqn:Hth; injection Hs as <- <-; [exact Hid|]. cbn [sc_store sc_threads]. split; [|apply keeps_refl].
    assert (Hnew : forall k i0 t0 i t, c = SCreate i t -> In (SvCall k (SCreate i0 t0)) h -> t_id t0 <> t_id t).
    { intros k i0 t0 i t -> K. apply in_split in K as (h1 & h2 & ->). eapply Hapart. rewrite HH, <- app_assoc. cbn [app]. reflexivity. }
    split; try apply R; auto.
    + intros k c0 p0. by_thread k th.
      * intros [= <- <-]. split; [apply in_or_app; right; left; reflexivity|].
        destruct c; cbn [entry rpc]; eauto. split; [auto|]. intros a u Ha.
        destruct (ri_origin _ _ _ R _ _ Ha) as (k & i & t0 & K1 & ->). eauto.
      * intros Hk. destruct (ri_pc _ _ _ R _ _ _ Hk) as (Q1 & Q2). auto.
    + assert (Q : forall k c' i' t' i t, c = SCreate i t -> k <> th -> thr k = Some (c', PcCreateId i' t') -> t_id t' <> t_id t).
      { intros k c' i' t' i t Hc Hne Hk. destruct (ri_pc _ _ _ R _ _ _ Hk) as (Q1 & -> & _). eapply Hnew; eauto. }
      intros k1 k2 c1 c2 i1 t1 i2 t2 Hne. by_thread k1 th; by_thread k2 th; try congruence.
      * intros [= <- K] K2. assert (Hc : c = SCreate i1 t1) by (destruct c; cbn in K; congruence).
        apply not_eq_sym. eapply Q; eauto.
      * intros K2 [= <- K]. assert (Hc : c = SCreate i2 t2) by (destruct c; cbn in K; congruence). eapply Q; eauto.
      * apply (ri_two _ _ _ R); auto.
  - destruct (thr th) as [[c p]|] eqn:Hth; [|injection Hs as <- <-; exact Hid].
    assert (K : (exists r, p = PcReturn r) \/
       (cf', evs) = match pc_step E s p with None => (mkSConf s thr, []) | Some (s0, p0) => (mkSConf s0 (set_thread thr th (Some (c, p0))), []) end).
    { destruct p; try (right; rewrite <- Hs; reflexivity). left. eauto. }
    destruct K as [(r & ->)|K].
    + injection Hs as <- <-. cbn [sc_store sc_threads]. split; [|apply keeps_refl]. split; try apply R; auto.
      * intros k c0 p0. by_thread k th; [discriminate|]. intros Hk. destruct (ri_pc _ _ _ R _ _ _ Hk) as (Q1 & Q2). auto.
      * intros k1 k2 c1 c2 i1 t1 i2 t2 Hne. by_thread k1 th; by_thread k2 th; try discriminate. apply (ri_two _ _ _ R); auto.
    + destruct (pc_step E s p) as [[s0 p0]|] eqn:Hp; injection K as -> ->; [|exact Hid]. clear Hs Hmore Horg.
      rewrite app_nil_r. cbn [sc_store sc_threads]. destruct (ri_pc _ _ _ R _ _ _ Hth) as (Q0 & Q).
      destruct p as [i t|a|id|k|a|id|a|a|id|a|a|a|r]; cbn [pc_step rpc] in Hp, Q; try discriminate.
      * destruct Q as (-> & Q). injection Hp as <- <-. set (n := List.length (ts_heap s)) in *. set (c := hashed E i t).
        set (s' := mkTStore (ts_heap s ++ [c]) (upd (ts_id s) (t_id t) (Some n)) (ts_val s)).
        assert (Hnew : slot s' n = Some c) by (unfold slot, s'; cbn; rewrite nth_error_app2, Nat.sub_diag by lia; reflexivity).
        assert (Hold : forall a u, slot s a = Some u -> slot s' a = Some u).
        { intros a u Ha. unfold slot, s'. cbn. rewrite nth_error_app1; [exact Ha|]. apply nth_error_Some. unfold slot in Ha. congruence. }
        assert (Hinv : forall a u, slot s' a = Some u -> (a = n /\ u = c) \/ slot s a = Some u).
        { intros a u Ha. destruct (Nat.lt_ge_cases a n) as [L|L].
          - right. unfold slot, s' in *. cbn in Ha. rewrite nth_error_app1 in Ha by exact L. exact Ha.
          - left. assert (a = n).
            { assert (a < List.length (ts_heap s ++ [c])) by (apply nth_error_Some; unfold slot, s' in Ha; cbn in Ha; congruence).
              rewrite app_length in *. cbn in *. unfold n in *. lia. }
            subst a. split; congruence. }
        assert (Hk : keeps s s') by (intros a u Ha; exists u; auto).
        assert (Hidc : t_id c = t_id t) by reflexivity.
        split; [|exact Hk]. eapply rinv_move; eauto.
        -- intros id a. change (ts_id s') with (upd (ts_id s) (t_id t) (Some n)).
           destruct (upd_cases (ts_id s) (t_id t) (Some n) id) as [[-> ->]|[Hne ->]]; [intros [= <-]; eauto|].
           intros Ha. destruct (ri_id _ _ _ R _ _ Ha) as (u & U1 & U2). eauto.
        -- intros a b u v Ha Hb. destruct (Hinv _ _ Ha) as [[-> ->]|Ha']; destruct (Hinv _ _ Hb) as [[-> ->]|Hb']; auto.
           { intros X. exfalso. apply (Q _ _ Hb'). congruence. } { intros X. exfalso. apply (Q _ _ Ha'). congruence. }
           apply (ri_uniq _ _ _ R); auto.
        -- intros a u Ha. destruct (Hinv _ _ Ha) as [[-> ->]|Ha']; [|apply (ri_origin _ _ _ R _ _ Ha')]. exists th, i, t. auto.
        -- cbn [rpc]. eauto.
        -- discriminate.
        -- intros k c' i' t' Hne Hk' a u Ha. destruct (Hinv _ _ Ha) as [[-> ->]|Ha'].
           { rewrite Hidc. apply (ri_two _ _ _ R th k _ _ i t i' t' (not_eq_sym Hne) Hth Hk'). }
           destruct (ri_pc _ _ _ R _ _ _ Hk') as (_ & _ & Z). eauto.
      * destruct Q as (i & t & ->). destruct (nth_error (ts_heap s) a) as [u|] eqn:Ha; [|discriminate]. injection Hp as <- <-.
        split; [|exact (keeps_refl s)]. eapply rinv_index; eauto; try apply R; try discriminate; cbn; discriminate.
      * injection Hp as <- <-. split; [|apply keeps_refl]. eapply rinv_local; eauto; destruct (ts_id s id); try exact I; discriminate.
      * injection Hp as <- <-. split; [|apply keeps_refl]. eapply rinv_local; eauto; destruct (ts_val s k); try exact I; discriminate.
      * destruct (nth_error (ts_heap s) a) as [u|] eqn:Ha; [|discriminate]. injection Hp as <- <-.
        split; [|exact (keeps_refl s)]. eapply rinv_local; eauto; try exact I; discriminate.
      * destruct Q as (i & id' & ->). injection Hp as <- <-. split; [|apply keeps_refl].
        eapply rinv_local; eauto; destruct (ts_id s id); cbn; eauto; discriminate.
      * destruct Q as (i & id' & ->). destruct (nth_error (ts_heap s) a) as [u|] eqn:Ha; [|discriminate]. injection Hp as <- <-.
        split; [|exact (keeps_refl s)]. eapply rinv_index; eauto; try discriminate; [|cbn; eauto].
        intros id b. destruct (upd_cases (ts_id s) (t_id u) None id) as [[-> ->]|[Hne ->]]; [discriminate|apply R].
      * destruct Q as (i & id' & ->). destruct (nth_error (ts_heap s) a) as [u|] eqn:Ha; [|discriminate]. injection Hp as <- <-.
        split; [|exact (keeps_refl s)]. eapply rinv_index; eauto; try apply R; try discriminate; cbn; discriminate.
      * destruct Q as (i & ->). injection Hp as <- <-. split; [|apply keeps_refl].
        eapply rinv_local; eauto; destruct (ts_id s id) as [a|] eqn:Ha; try discriminate; cbn [rpc]; auto.
        destruct (ri_id _ _ _ R _ _ Ha) as (u & U1 & U2). eauto 8.
      * destruct Q as (i & id & t & -> & Ha & Hidt). fold (slot s a) in Hp. rewrite Ha in Hp. injection Hp as <- <-.
        set (c := set_status t TsRevoked). set (s' := mkTStore (heap_set (ts_heap s) a c) (ts_id s) (ts_val s)).
        assert (Hnew : slot s' a = Some c) by (eapply slot_set_same; exact Ha).
        assert (Hoth : forall b, b <> a -> slot s' b = slot s b) by (intros b Hb; apply heap_set_other; congruence).
        assert (Hinv : forall b u, slot s' b = Some u -> exists u0, slot s b = Some u0 /\ t_id u = t_id u0).
        { intros b u Hb. destruct (Nat.eq_dec b a) as [->|Hne]; [|rewrite (Hoth _ Hne) in Hb; eauto].
          assert (u = c) as -> by congruence. exists t. auto. }
        assert (Hk : keeps s s').
        { intros b u Hb. destruct (Nat.eq_dec b a) as [->|Hne]; [|rewrite (Hoth _ Hne); eauto].
          assert (u = t) as -> by congruence. exists c. auto. }
        split; [|exact Hk]. eapply rinv_move; eauto; try discriminate.
        -- intros id' b Hb. destruct (ri_id _ _ _ R _ _ Hb) as (u & U1 & U2). destruct (Hk _ _ U1) as (u' & V1 & V2 & _).
           exists u'. split; congruence.
        -- intros b d u v Hb Hd Heq. destruct (Hinv _ _ Hb) as (u0 & V1 & V2). destruct (Hinv _ _ Hd) as (v0 & W1 & W2).
           eapply (ri_uniq _ _ _ R); eauto. congruence.
        -- intros b u Hb. destruct (Hinv _ _ Hb) as (u0 & V1 & V2). rewrite V2. apply (ri_origin _ _ _ R _ _ V1).
        -- cbn [rpc]. exists i, id. split; [auto|]. exists a, c. auto.
        -- intros k c' i' t' Hne Hk' b u Hb. destruct (Hinv _ _ Hb) as (u0 & V1 & V2). rewrite V2.
           destruct (ri_pc _ _ _ R _ _ _ Hk') as (_ & _ & Z). eauto.
      * destruct Q as (i & id & -> & Q). destruct (nth_error (ts_heap s) a) as [u|] eqn:Ha; [|discriminate]. injection Hp as <- <-.
        split; [|exact (keeps_refl s)]. eapply rinv_index; eauto; try discriminate; [|cbn; eauto].
        intros id' b. destruct (upd_cases (ts_id s) (t_id u) (Some a) id') as [[-> ->]|[Hne ->]]; [|apply R].
        intros [= <-]. exists u. auto.
      * destruct Q as (i & id & -> & Q). destruct (nth_error (ts_heap s) a) as [u|] eqn:Ha; [|discriminate]. injection Hp as <- <-.
        split; [|exact (keeps_refl s)]. eapply rinv_index; eauto; try apply R; try discriminate. cbn. intros i' id' [= _ <-]. exact Q.
Qed.

Lemma rinv_run xs : forall cf h rest, rinv (sc_store cf) (sc_threads cf) h -> H = (h ++ snd (tk_run E cf xs) ++ rest)%list ->
  rinv (sc_store (fst (tk_run E cf xs))) (sc_threads (fst (tk_run E cf xs))) (h ++ snd (tk_run E cf xs)).
Proof using Hapart.
  induction xs as [|x xs IH]; intros cf h rest R HH; cbn [tk_run] in *.
  - cbn. rewrite app_nil_r. exact R.
  - destruct (tk_step E cf x) as [cf' e1] eqn:Hs. destruct (tk_run E cf' xs) as [cf'' e2] eqn:Hr. cbn [fst snd] in *.
    destruct (rinv_step cf h x cf' e1 (e2 ++ rest) R Hs) as (R' & _); [rewrite HH, <- app_assoc; reflexivity|].
    specialize (IH cf' (h ++ e1)%list rest R'). rewrite Hr in IH. cbn [fst snd] in IH. rewrite app_assoc. apply IH.
    rewrite HH, <- !app_assoc. reflexivity.
Qed.

(** From a moment at which a token is revoked on, goroutines that enter a method read it as
    revoked. *)
Lemma late xs : forall cf h rest id th, rinv (sc_store cf) (sc_threads cf) h -> gone (sc_store cf) id ->
  H = (h ++ snd (tk_run E cf xs) ++ rest)%list ->
  forall (F : Prop), (F -> forall c t, sc_threads cf th = Some (c, PcReturn (SrToken t)) -> t_id t = id -> t_status t = TsRevoked) ->
  F \/ (exists c, In (SvCall th c) (snd (tk_run E cf xs))) ->
  forall c t, sc_threads (fst (tk_run E cf xs)) th = Some (c, PcReturn (SrToken t)) -> t_id t = id -> t_status t = TsRevoked.
Proof using Hapart.
  induction xs as [|x xs IH]; intros cf h rest id th R G HH F HF Hor c t; cbn [tk_run] in *.
  - cbn in *. destruct Hor as [Hor|(? & [])]. eauto.
  - destruct (tk_step E cf x) as [cf' e1] eqn:Hs. destruct (tk_run E cf' xs) as [cf'' e2] eqn:Hr. cbn [fst snd] in *.
    destruct (rinv_step cf h x cf' e1 (e2 ++ rest) R Hs) as (R' & K); [rewrite HH, <- app_assoc; reflexivity|].
    specialize (IH cf' (h ++ e1)%list rest id th R' (keeps_gone _ _ _ K G)). rewrite Hr in IH. cbn [fst snd] in IH.
    eapply IH with (F := F \/ exists c, In (SvCall th c) e1).
    + rewrite HH, <- !app_assoc. reflexivity.
    + intros [f|(c0 & Hc0)] c1 t1 Ht1 Hid1.
      * specialize (HF f). destruct cf as [s thr]. cbn [sc_store sc_threads] in *. destruct x as [k c2|k]; cbn [tk_step sc_store sc_threads] in Hs.
        { destruct (thr k) eqn:Hk; injection Hs as <- <-; cbn [sc_threads] in Ht1; [eauto|].
          by_thread th k; [|eauto]. destruct c2; discriminate. }
        destruct (thr k) as [[c2 p]|] eqn:Hk; [|injection Hs as <- <-; cbn [sc_threads] in Ht1; eauto].
        destruct G as (a0 & t0 & G1 & G2 & G3).
        assert (Hread : forall a u, slot s a = Some u -> t_id u = id -> t_status u = TsRevoked).
        { intros a u Ha Hu. assert (a = a0) as -> by (eapply (ri_uniq _ _ _ R); eauto; congruence). congruence. }
        destruct p; cbn [pc_step] in Hs;
          repeat match type of Hs with context [nth_error ?l ?a] => destruct (nth_error l a) eqn:?Ha end;
          injection Hs as <- <-; cbn [sc_threads] in Ht1; try (by_thread th k; eauto; try discriminate);
          try (match type of Ht1 with context [ts_id s ?x] => destruct (ts_id s x) | context [ts_val s ?x] => destruct (ts_val s x) end; discriminate).
        all: try (eauto; fail).
        injection Ht1 as <- <-. eauto.
      * destruct cf as [s thr]. destruct x as [k c2|k]; cbn [tk_step sc_store sc_threads] in Hs.
        { destruct (thr k) eqn:Hk; injection Hs as <- <-; [destruct Hc0|]. destruct Hc0 as [[= -> ->]|[]]. cbn [sc_threads] in Ht1.
          rewrite set_thread_same in Ht1. destruct c0; discriminate. }
        exfalso. destruct (thr k) as [[c2 p]|] eqn:Hk; [|injection Hs as <- <-; destruct Hc0].
        destruct p; cbn [pc_step] in Hs;
          repeat match type of Hs with context [nth_error ?l ?a] => destruct (nth_error l a) eqn:?Ha end;
          injection Hs as <- <-; try (destruct Hc0; fail). destruct Hc0 as [X|[]]. discriminate.
    + destruct Hor as [f|(c0 & Hc0)]; [left; auto|]. apply in_app_or in Hc0 as [Hc0|Hc0]; [left; eauto|right; eauto].
Qed.
End Revoked.

Lemma C105_revoked_stays_proof : forall E xs h1 th i id h2 th' c t h3,
  let h := shistory E xs in
  creations_apart E h ->
  h = (h1 ++ SvReturn th (SRevoke i id) SrOk :: h2 ++ SvReturn th' c (SrToken t) :: h3)%list ->
  (exists c', In (SvCall th' c') h2) -> t_id t = id -> t_status t = TsRevoked.
Proof.
  intros E xs h1 th i id h2 th' c t h3 h Hap Hh (c' & Hin) Hid. subst h.
  assert (R0 : rinv (sc_store sc_new) (sc_threads sc_new) []).
  { split; cbn; try discriminate; intros a; destruct a; discriminate. }
  destruct (run_split E xs sc_new _ _ _ Hh) as (xs1 & x & xs2 & -> & A & B & C).
  set (cf := fst (tk_run E sc_new xs1)) in *.
  assert (R1 : rinv (sc_store cf) (sc_threads cf) h1).
  { pose proof (rinv_run E _ Hap xs1 sc_new [] (SvReturn th (SRevoke i id) SrOk :: h2 ++ SvReturn th' c (SrToken t) :: h3) R0) as Q.
    rewrite A in Q. cbn [app] in Q. apply Q. exact Hh. }
  destruct (tk_step E cf x) as [cf1 e1] eqn:Hs. cbn [fst snd] in B, C. subst e1.
  destruct (rinv_step E _ Hap cf h1 x cf1 _ (h2 ++ SvReturn th' c (SrToken t) :: h3) R1 Hs Hh) as (R2 & K).
  assert (G : gone (sc_store cf) id).
  { destruct x as [k c0|k]; cbn [tk_step] in Hs; destruct (sc_threads cf k) as [[c0' p]|] eqn:Hk; try discriminate.
    destruct p; cbn [pc_step] in Hs; try (destruct (nth_error (ts_heap (sc_store cf)) a); discriminate); try discriminate.
    injection Hs as _ <- -> ->. destruct (ri_pc _ _ _ R1 _ _ _ Hk) as (_ & Q). cbn [rpc] in Q. eauto. }
  apply (keeps_gone _ _ _ K) in G.
  destruct (run_split E xs2 cf1 _ _ _ C) as (ys1 & y & ys2 & -> & A' & B' & C').
  destruct (tk_step E (fst (tk_run E cf1 ys1)) y) as [cf2 e2] eqn:Hs2. cbn [snd] in B'. subst e2.
  assert (Hk : sc_threads (fst (tk_run E cf1 ys1)) th' = Some (c, PcReturn (SrToken t))).
  { destruct y as [k c0|k]; cbn [tk_step] in Hs2; destruct (sc_threads (fst (tk_run E cf1 ys1)) k) as [[c0' p]|] eqn:Hk; try discriminate.
    destruct p; cbn [pc_step] in Hs2; try (destruct (nth_error (ts_heap (sc_store (fst (tk_run E cf1 ys1)))) a); discriminate); try discriminate.
    injection Hs2 as _ <- -> ->. exact Hk. }
  eapply (late E _ Hap ys1 cf1 (h1 ++ [SvReturn th (SRevoke i id) SrOk])%list (SvReturn th' c (SrToken t) :: h3) id th' R2 G) with (F := False); eauto.
  - rewrite Hh, A', <- app_assoc. reflexivity.
  - contradiction.
  - right. rewrite A'. eauto.
Qed.
