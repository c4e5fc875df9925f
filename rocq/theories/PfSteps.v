(** * Concurrent use of the token store: proofs *)

From Verif Require Export SpecSteps PfStore3.

Lemma set_thread_same {A} (f : nat -> A) th x : set_thread f th x th = x.
Proof. unfold set_thread. rewrite Nat.eqb_refl. reflexivity. Qed.
Lemma set_thread_other {A} (f : nat -> A) th x k : k <> th -> set_thread f th x k = f k.
Proof. intros H. unfold set_thread. apply Nat.eqb_neq in H. rewrite H. reflexivity. Qed.

Lemma without_app l1 l2 : without_moments (l1 ++ l2) = (without_moments l1 ++ without_moments l2)%list.
Proof. induction l1 as [|[] l1 IH]; cbn; congruence. Qed.
Lemma moments_app l1 l2 : moments (l1 ++ l2) = (moments l1 ++ moments l2)%list.
Proof. induction l1 as [|[] l1 IH]; cbn; congruence. Qed.

Section Lin.
Context (E : ext).

Definition slot (s : tstore) (a : nat) : option token := nth_error (ts_heap s) a.

(** At [a] lies a token that both indexes show. *)
Definition shown (s : tstore) (a : nat) (id : string) : Prop :=
  exists t, slot s a = Some t /\ t_id t = id /\ ts_val s (t_value t) = Some a.

Context (H : list sevent).
Hypothesis Hapart : creations_apart E H.
Hypothesis Hlearnt : ids_learnt H.
Hypothesis Hnodel : no_deletions H.

Definition settled (s : tstore) (id : string) : Prop :=
  (exists a, shown s a id) \/ (forall th i t, In (SvCall th (SCreate i t)) H -> t_id t <> id).

Definition ok_pc (s : tstore) (c : scall) (p : pc) (ph : phase) : Prop :=
  match p with
  | PcCreateId i t => c = SCreate i t /\ ph = Called c /\
      forall a u, slot s a = Some u -> t_id u <> t_id t /\ t_value u <> tok_key E i (t_value t)
  | PcCreateVal a => ph = Called c /\ exists i t, c = SCreate i t /\ slot s a = Some (hashed E i t) /\
      ts_val s (tok_key E i (t_value t)) = None
  | PcGet id => ph = Called c /\ (exists i, c = SGet i id) /\ settled s id
  | PcGetByValue k => ph = Called c /\ exists i v, c = SGetByValue i v /\ k = tok_key E i v
  | PcRead a => ph = Called c /\
      ((exists i id, c = SGet i id /\ shown s a id) \/
       (exists i v, c = SGetByValue i v /\ ts_val s (tok_key E i v) = Some a))
  | PcRevLoad id => ph = Called c /\ (exists i, c = SRevoke i id) /\ settled s id
  | PcRevSet a => ph = Called c /\ exists i id, c = SRevoke i id /\ shown s a id
  | PcRevId a | PcRevVal a => ph = Happened c SrOk /\ exists i id, c = SRevoke i id /\ shown s a id
  | PcReturn r => ph = Happened c r /\
      match r with
      | SrToken t => exists a, shown s a (t_id t)
      | SrOk => match c with SCreate i t => exists a, shown s a (t_id t) | _ => True end
      | SrMissing => match c with SCreate _ _ => False | _ => True end
      end
  | PcDelLoad _ | PcDelId _ | PcDelVal _ => False
  end.

Definition ok_thread (s : tstore) (o : option (scall * pc)) (ph : phase) : Prop :=
  match o with None => ph = Outside | Some (c, p) => ok_pc s c p ph end.

Record sstore (s : tstore) (h : list sevent) (w : world) : Prop := mkSStore {
  si_id : forall id a, ts_id s id = Some a -> exists t, slot s a = Some t /\ t_id t = id;
  si_val : forall k a, ts_val s k = Some a -> exists t, slot s a = Some t /\ t_value t = k;
  si_indexed : forall a t, slot s a = Some t -> ts_id s (t_id t) = Some a;
  si_uniq : forall a b t u, slot s a = Some t -> slot s b = Some u -> t_value t = t_value u -> a = b;
  si_origin : forall a t, slot s a = Some t -> exists th i t0, In (SvCall th (SCreate i t0)) h /\
    t_id t = t_id t0 /\ t_value t = tok_key E i (t_value t0);
  si_wval : forall k, w_tval w k = match ts_val s k with Some a => slot s a | None => None end;
  si_wid : forall id, w_tid w id =
    match ts_id s id with
    | Some a => match slot s a with
                | Some t => match ts_val s (t_value t) with Some _ => Some t | None => None end
                | None => None end
    | None => None end
}.

Record sthreads (s : tstore) (thr : nat -> option (scall * pc)) (h : list sevent) (q : nat -> phase) : Prop := mkSThreads {
  si_ok : forall th, ok_thread s (thr th) (q th);
  si_called : forall th c p, thr th = Some (c, p) -> In (SvCall th c) h;
  si_two : forall th1 th2 c1 c2 i1 t1 i2 t2, th1 <> th2 -> thr th1 = Some (c1, PcCreateId i1 t1) ->
    thr th2 = Some (c2, PcCreateId i2 t2) ->
    t_id t1 <> t_id t2 /\ tok_key E i1 (t_value t1) <> tok_key E i2 (t_value t2);
  si_one : forall th1 th2 c1 c2 a, thr th1 = Some (c1, PcCreateVal a) -> thr th2 = Some (c2, PcCreateVal a) -> th1 = th2;
  si_found : forall th c t, In (SvReturn th c (SrToken t)) h -> exists a, shown s a (t_id t);
  si_made : forall th i t, In (SvReturn th (SCreate i t) SrOk) h -> exists a, shown s a (t_id t)
}.

(** The store only grows. *)
Definition grows (s s' : tstore) : Prop :=
  (forall a t, slot s a = Some t -> exists t', slot s' a = Some t' /\ t_id t' = t_id t /\ t_value t' = t_value t) /\
  (forall k a, ts_val s k = Some a -> ts_val s' k = Some a).

Lemma grows_shown s s' a id : grows s s' -> shown s a id -> shown s' a id.
Proof.
  intros (G1 & G2) (t & T1 & T2 & T3). destruct (G1 _ _ T1) as (t' & A & B & C).
  exists t'. split; [exact A|]. split; [congruence|]. rewrite C. auto.
Qed.
Lemma grows_settled s s' id : grows s s' -> settled s id -> settled s' id.
Proof. intros G [(a & A)|A]; [left|right; auto]. exists a. eapply grows_shown; eauto. Qed.

Lemma grows_refl s : grows s s.
Proof. split; eauto. Qed.

(** What another goroutine knows stays true. *)
Lemma ok_pc_grows s s' c p ph : grows s s' ->
  (forall i t, p = PcCreateId i t -> forall a u, slot s' a = Some u -> t_id u <> t_id t /\ t_value u <> tok_key E i (t_value t)) ->
  (forall a i t, p = PcCreateVal a -> slot s a = Some (hashed E i t) -> ts_val s (tok_key E i (t_value t)) = None ->
     slot s' a = Some (hashed E i t) /\ ts_val s' (tok_key E i (t_value t)) = None) ->
  ok_pc s c p ph -> ok_pc s' c p ph.
Proof.
  intros G H1 H2 K. destruct p; cbn [ok_pc] in *; auto.
  - destruct K as (K1 & K2 & K3). split; [auto|]. split; [auto|]. eauto.
  - destruct K as (K1 & i & t & K2 & K3 & K4). split; [auto|]. destruct (H2 _ _ _ eq_refl K3 K4). eauto 8.
  - destruct K as (K1 & K2 & K3). split; [auto|]. split; [auto|]. eapply grows_settled; eauto.
  - destruct K as (K1 & [(i & id & K2 & K3)|(i & v & K2 & K3)]); (split; [auto|]).
    + left. exists i, id. split; [auto|]. eapply grows_shown; eauto.
    + right. exists i, v. split; [auto|]. apply G; auto.
  - destruct K as (K1 & K2 & K3). split; [auto|]. split; [auto|]. eapply grows_settled; eauto.
  - destruct K as (K1 & i & id & K2 & K3). split; [auto|]. exists i, id. split; [auto|]. eapply grows_shown; eauto.
  - destruct K as (K1 & i & id & K2 & K3). split; [auto|]. exists i, id. split; [auto|]. eapply grows_shown; eauto.
  - destruct K as (K1 & i & id & K2 & K3). split; [auto|]. exists i, id. split; [auto|]. eapply grows_shown; eauto.
  - destruct K as (K1 & K2). split; [auto|]. destruct r; auto.
    + destruct c; auto. destruct K2 as (a & K2). exists a. eapply grows_shown; eauto.
    + destruct K2 as (a & K2). exists a. eapply grows_shown; eauto.
Qed.

Ltac by_thread k th := destruct (Nat.eq_dec k th) as [?|?];
  [subst k; rewrite ?set_thread_same in * | rewrite ?(set_thread_other _ th _ k) in * by assumption].

(** One goroutine takes a step. *)
Lemma threads_move s s' thr h q th c p p' ph' : sthreads s thr h q -> thr th = Some (c, p) -> grows s s' ->
  ok_pc s' c p' ph' ->
  (forall th' c' i t, th' <> th -> thr th' = Some (c', PcCreateId i t) -> forall a u, slot s' a = Some u ->
     t_id u <> t_id t /\ t_value u <> tok_key E i (t_value t)) ->
  (forall th' c' a i t, th' <> th -> thr th' = Some (c', PcCreateVal a) -> slot s a = Some (hashed E i t) ->
     ts_val s (tok_key E i (t_value t)) = None ->
     slot s' a = Some (hashed E i t) /\ ts_val s' (tok_key E i (t_value t)) = None) ->
  (forall i t, p' <> PcCreateId i t) ->
  (forall a, p' = PcCreateVal a -> slot s a = None) ->
  sthreads s' (set_thread thr th (Some (c, p'))) h (set_thread q th ph').
Proof.
  intros [T1 T2 T3 T4 T5 T6] Hth G K F1 F2 F3 F4. split.
  - intros k. by_thread k th; [exact K|]. specialize (T1 k). unfold ok_thread in *.
    destruct (thr k) as [[c0 p0]|] eqn:Hk; [|exact T1]. eapply ok_pc_grows; eauto.
    + intros i t -> a u. eapply F1; eauto.
    + intros a i t ->. eapply F2; eauto.
  - intros k c0 p0. by_thread k th; [|eauto]. intros [= <- <-]. eauto.
  - intros k1 k2 c1 c2 i1 t1 i2 t2 Hne. by_thread k1 th.
    { intros [= _ ->]. exfalso. eapply F3. reflexivity. }
    by_thread k2 th; [|eauto]. intros _ [= _ ->]. exfalso. eapply F3. reflexivity.
  - intros k1 k2 c1 c2 a. by_thread k1 th; by_thread k2 th; auto; [| |eauto].
    + intros [= _ ->] Hk. specialize (F4 _ eq_refl). specialize (T1 k2). unfold ok_thread in T1. rewrite Hk in T1.
      destruct T1 as (_ & i & t & _ & Q & _). congruence.
    + intros Hk [= _ ->]. specialize (F4 _ eq_refl). specialize (T1 k1). unfold ok_thread in T1. rewrite Hk in T1.
      destruct T1 as (_ & i & t & _ & Q & _). congruence.
  - intros k c0 t Hin. destruct (T5 _ _ _ Hin) as (a & A). exists a. eapply grows_shown; eauto.
  - intros k i t Hin. destruct (T6 _ _ _ Hin) as (a & A). exists a. eapply grows_shown; eauto.
Qed.

(** The same when the store does not change. *)
Lemma threads_local s thr h q th c p p' ph' : sthreads s thr h q -> thr th = Some (c, p) -> ok_pc s c p' ph' ->
  (forall i t, p' <> PcCreateId i t) -> (forall a, p' <> PcCreateVal a) ->
  sthreads s (set_thread thr th (Some (c, p'))) h (set_thread q th ph').
Proof.
  intros T Hth K F3 F4. eapply threads_move; eauto using grows_refl.
  - intros th' c' i t Hne Hk a u. pose proof (si_ok _ _ _ _ T th') as Q. unfold ok_thread in Q. rewrite Hk in Q.
    destruct Q as (_ & _ & Q). apply Q.
  - intros a ->. exfalso. eapply F4. reflexivity.
Qed.

Definition follows (w : world) (q : nat -> phase) (ms : list mevent) (w' : world) (q' : nat -> phase) : Prop :=
  (forall rest, in_turn q' rest -> in_turn q (ms ++ rest)) /\
  (forall rest, explains E w' rest -> explains E w (moments ms ++ rest)).

Definition next (h evs : list sevent) (w : world) (q : nat -> phase) (cf' : sconf) : Prop :=
  exists w' q' ms, sstore (sc_store cf') (h ++ evs) w' /\ sthreads (sc_store cf') (sc_threads cf') (h ++ evs) q' /\
    without_moments ms = evs /\ follows w q ms w' q'.

Lemma store_more s h w e : sstore s h w -> sstore s (h ++ e) w.
Proof.
  intros [A1 A2 A3 A4 A5 A6 A7]. split; auto.
  intros a t Ha. destruct (A5 a t Ha) as (th & i & t0 & B & C). exists th, i, t0. split; [apply in_or_app; auto|exact C].
Qed.

Lemma in_snoc {A} (x y : A) l : In x (l ++ [y]) -> In x l \/ x = y.
Proof. intros K. apply in_app_or in K as [K|[<-|[]]]; auto. Qed.

(** A call. *)
Lemma enter_next s thr h w q th c rest : H = (h ++ SvCall th c :: rest)%list -> sstore s h w -> sthreads s thr h q ->
  thr th = None ->
  next h [SvCall th c] w q (mkSConf s (set_thread thr th (Some (c, entry E c)))).
Proof using Hapart Hlearnt Hnodel.
  intros HH S T Hth. exists w, (set_thread q th (Called c)), [MCall th c]. cbn [sc_store sc_threads].
  split; [apply store_more, S|]. split; [|split; [reflexivity|]].
  2:{ split; [|cbn; auto]. intros r0 Hr. cbn. apply turn_call; [|exact Hr].
      pose proof (si_ok _ _ _ _ T th) as Q. rewrite Hth in Q. exact Q. }
  assert (Hin : forall e, In e h -> In e (h ++ [SvCall th c])) by (intros; apply in_or_app; auto).
  assert (Hold : forall k i0 t0 i t, c = SCreate i t -> In (SvCall k (SCreate i0 t0)) h ->
            t_id t0 <> t_id t /\ tok_key E i0 (t_value t0) <> tok_key E i (t_value t)).
  { intros k i0 t0 i t -> K. apply in_split in K as (h1 & h2 & ->). eapply Hapart. rewrite HH, <- app_assoc. cbn [app]. reflexivity. }
  assert (Hset : forall id, names_id c id -> settled s id).
  { intros id Hid. destruct (Hlearnt h th c id rest HH Hid) as [(k & c' & t & K1 & <-)|[(k & i & t & K1 & <-)|K]].
    - left. eapply si_found; eauto.
    - left. eapply si_made; eauto.
    - right. exact K. }
  split.
  - intros k. by_thread k th.
    + cbn [ok_thread]. destruct c as [i t|i id|i v|i id|i id]; cbn [entry ok_pc].
      * split; [auto|]. split; [auto|]. intros a u Ha. destruct (si_origin _ _ _ S _ _ Ha) as (k & i0 & t0 & K1 & K2 & K3).
        destruct (Hold _ _ _ _ _ eq_refl K1). split; congruence.
      * split; [auto|]. split; [eauto|]. apply Hset. reflexivity.
      * split; [auto|]. eauto.
      * split; [auto|]. split; [eauto|]. apply Hset. reflexivity.
      * apply (Hnodel th i id). rewrite HH. apply in_or_app. right. left. reflexivity.
    + apply (si_ok _ _ _ _ T).
  - intros k c0 p0. by_thread k th.
    + intros [= <- _]. apply in_or_app. right. left. reflexivity.
    + intros K. apply Hin. eapply si_called; eauto.
  - assert (Q : forall k c' i' t' i t, c = SCreate i t -> k <> th -> thr k = Some (c', PcCreateId i' t') ->
      t_id t' <> t_id t /\ tok_key E i' (t_value t') <> tok_key E i (t_value t)).
    { intros k c' i' t' i t Hc Hne Hk. eapply (Hold k); [exact Hc|]. pose proof (si_called _ _ _ _ T _ _ _ Hk) as K.
      pose proof (si_ok _ _ _ _ T k) as Z. unfold ok_thread in Z. rewrite Hk in Z. destruct Z as (-> & _). exact K. }
    intros k1 k2 c1 c2 i1 t1 i2 t2 Hne. by_thread k1 th; by_thread k2 th; try congruence.
    + intros [= <- K] K2. assert (Hc : c = SCreate i1 t1) by (destruct c; cbn in K; congruence).
      destruct (Q _ _ _ _ _ _ Hc n K2). split; congruence.
    + intros K2 [= <- K]. assert (Hc : c = SCreate i2 t2) by (destruct c; cbn in K; congruence).
      destruct (Q _ _ _ _ _ _ Hc n K2). split; congruence.
    + eapply si_two; eauto.
  - intros k1 k2 c1 c2 a. by_thread k1 th; by_thread k2 th; auto.
    + intros [= _ K]. destruct c; discriminate.
    + intros _ [= _ K]. destruct c; discriminate.
    + eapply si_one; eauto.
  - intros k c0 t K. apply in_snoc in K as [K|K]; [|discriminate]. eapply si_found; eauto.
  - intros k c0 t K. apply in_snoc in K as [K|K]; [|discriminate]. eapply si_made; eauto.
Qed.

(** A return. *)
Lemma return_next s thr h w q th c r : sstore s h w -> sthreads s thr h q -> thr th = Some (c, PcReturn r) ->
  next h [SvReturn th c r] w q (mkSConf s (set_thread thr th None)).
Proof.
  intros S T Hth. exists w, (set_thread q th Outside), [MReturn th c r]. cbn [sc_store sc_threads].
  pose proof (si_ok _ _ _ _ T th) as Q. rewrite Hth in Q. destruct Q as (Q1 & Q2).
  split; [apply store_more, S|]. split; [|split; [reflexivity|]].
  2:{ split; [|cbn; auto]. intros r0 Hr. cbn. apply turn_return; [exact Q1|exact Hr]. }
  split.
  - intros k. by_thread k th; [reflexivity|]. apply (si_ok _ _ _ _ T).
  - intros k c0 p0. by_thread k th; [discriminate|]. intros K. apply in_or_app. left. eapply si_called; eauto.
  - intros k1 k2 c1 c2 i1 t1 i2 t2 Hne. by_thread k1 th; by_thread k2 th; try discriminate. eapply si_two; eauto.
  - intros k1 k2 c1 c2 a. by_thread k1 th; by_thread k2 th; try discriminate. eapply si_one; eauto.
  - intros k c0 t K. apply in_snoc in K as [K|[= -> -> <-]]; [eapply si_found; eauto|exact Q2].
  - intros k i t K. apply in_snoc in K as [K|[= -> <- <-]]; [eapply si_made; eauto|exact Q2].
Qed.

(** Steps without a moment, and steps that are the moment of their call. *)
Lemma quiet w (q : nat -> phase) th ph : q th = ph -> follows w q [] w (set_thread q th ph).
Proof.
  intros Hq. split; [|auto]. intros rest Hr. cbn.
  assert (Heq : forall q1 l, in_turn q1 l -> forall q2, (forall k, q1 k = q2 k) -> in_turn q2 l).
  { clear. intros q1 l K. induction K; intros q2 Hq; econstructor; try (rewrite <- Hq; eassumption); eauto;
      apply IHK; intros k; unfold set_thread; destruct (Nat.eqb k th); auto. }
  eapply Heq; [exact Hr|]. intros k. unfold set_thread. destruct (Nat.eqb k th) eqn:Hk; auto.
  apply Nat.eqb_eq in Hk. congruence.
Qed.
Lemma moment w q th c r : q th = Called c -> fst (at_once E w c) = r ->
  follows w q [MMoment th c r] (snd (at_once E w c)) (set_thread q th (Happened c r)).
Proof. intros Hq Hr. split; cbn; [intros; apply turn_moment; auto|auto]. Qed.

Lemma slot_set_same s a t u : slot s a = Some u -> nth_error (heap_set (ts_heap s) a t) a = Some t.
Proof. apply heap_set_same. Qed.

Lemma advance_next s thr h w q th c p s' p' : (forall e, In e h -> In e H) -> sstore s h w -> sthreads s thr h q -> thr th = Some (c, p) ->
  pc_step E s p = Some (s', p') ->
  next h [] w q (mkSConf s' (set_thread thr th (Some (c, p')))).
Proof using Hapart Hlearnt Hnodel.
  intros Hpre S T Hth Hp. unfold next. rewrite app_nil_r. cbn [sc_store sc_threads].
  pose proof (si_ok _ _ _ _ T th) as Q. rewrite Hth in Q. cbn [ok_thread] in Q.
  assert (Hcid : forall a, PcReturn SrOk <> PcCreateVal a) by discriminate.
  destruct p as [i t|a|id|k|a|id|a|a|id|a|a|a|r]; cbn [pc_step ok_pc] in Hp, Q; try contradiction; try discriminate.
  - (* Create, the index of identifiers *)
    destruct Q as (-> & Q1 & Q2). injection Hp as <- <-.
    set (n := List.length (ts_heap s)) in *. set (c := hashed E i t).
    set (s' := mkTStore (ts_heap s ++ [c]) (upd (ts_id s) (t_id t) (Some n)) (ts_val s)).
    assert (Hnew : slot s' n = Some c) by (unfold slot, s'; cbn; rewrite nth_error_app2, Nat.sub_diag by lia; reflexivity).
    assert (Hold : forall a u, slot s a = Some u -> slot s' a = Some u).
    { intros a u Ha. unfold slot, s'. cbn. rewrite nth_error_app1; [exact Ha|]. apply nth_error_Some. unfold slot in Ha. congruence. }
    assert (Hinv : forall a u, slot s' a = Some u -> (a = n /\ u = c) \/ slot s a = Some u).
    { intros a u Ha. destruct (Nat.lt_ge_cases a n) as [L|L].
      - right. unfold slot, s' in *. cbn in Ha. rewrite nth_error_app1 in Ha by exact L. exact Ha.
      - left. assert (a = n).
        { assert (a < List.length (ts_heap s ++ [c])) by (apply nth_error_Some; unfold slot, s' in Ha; cbn in Ha; congruence).
          rewrite app_length in *. cbn in *. unfold n in *. lia. }
        subst a. split; congruence. }
    assert (Hnone : slot s n = None) by (apply nth_error_None; unfold n; lia).
    assert (Hidc : t_id c = t_id t) by reflexivity. assert (Hvc : t_value c = tok_key E i (t_value t)) by reflexivity.
    assert (Hcall : In (SvCall th (SCreate i t)) h) by (eapply si_called; eauto).
    assert (Hnoval : ts_val s (t_value c) = None).
    { destruct (ts_val s (t_value c)) as [b|] eqn:Hb; auto. destruct (si_val _ _ _ S _ _ Hb) as (u & U1 & U2).
      destruct (Q2 _ _ U1). congruence. }
    assert (Hnoid : ts_id s (t_id t) = None).
    { destruct (ts_id s (t_id t)) as [b|] eqn:Hb; auto. destruct (si_id _ _ _ S _ _ Hb) as (u & U1 & U2).
      destruct (Q2 _ _ U1). congruence. }
    exists w, (set_thread q th (Called (SCreate i t))), []. split; [|split; [|split; [reflexivity|apply quiet; exact Q1]]].
    + split.
      * intros id a. change (ts_id s') with (upd (ts_id s) (t_id t) (Some n)). destruct (upd_cases (ts_id s) (t_id t) (Some n) id) as [[-> ->]|[Hne ->]].
        { intros [= <-]. eauto. }
        intros Ha. destruct (si_id _ _ _ S _ _ Ha) as (u & U1 & U2). eauto.
      * intros k a Ha. destruct (si_val _ _ _ S _ _ Ha) as (u & U1 & U2). eauto.
      * intros a u Ha. change (ts_id s') with (upd (ts_id s) (t_id t) (Some n)). destruct (Hinv _ _ Ha) as [[-> ->]|Ha']; [apply upd_same|].
        rewrite upd_other; [apply (si_indexed _ _ _ S _ _ Ha')|]. destruct (Q2 _ _ Ha'). congruence.
      * intros a b u v Ha Hb. destruct (Hinv _ _ Ha) as [[-> ->]|Ha']; destruct (Hinv _ _ Hb) as [[-> ->]|Hb']; auto.
        { intros K. destruct (Q2 _ _ Hb'). congruence. } { intros K. destruct (Q2 _ _ Ha'). congruence. }
        apply (si_uniq _ _ _ S); auto.
      * intros a u Ha. destruct (Hinv _ _ Ha) as [[-> ->]|Ha']; [|apply (si_origin _ _ _ S _ _ Ha')].
        exists th, i, t. auto.
      * intros k. change (ts_val s') with (ts_val s). rewrite (si_wval _ _ _ S). destruct (ts_val s k) as [a|] eqn:Ha; auto.
        destruct (si_val _ _ _ S _ _ Ha) as (u & U1 & U2). rewrite U1. symmetry. apply Hold. exact U1.
      * intros id. rewrite (si_wid _ _ _ S). change (ts_id s') with (upd (ts_id s) (t_id t) (Some n)). change (ts_val s') with (ts_val s).
        destruct (upd_cases (ts_id s) (t_id t) (Some n) id) as [[-> ->]|[Hne ->]].
        { rewrite Hnew, Hnoval, Hnoid. reflexivity. }
        destruct (ts_id s id) as [a|] eqn:Ha; auto. destruct (si_id _ _ _ S _ _ Ha) as (u & U1 & U2).
        rewrite U1, (Hold _ _ U1). reflexivity.
    + eapply threads_move; eauto.
      * split; [|auto]. intros a u Ha. exists u. auto.
      * cbn [ok_pc]. split; [auto|]. exists i, t. auto.
      * intros k c' i' t' Hne Hk a u Ha. destruct (Hinv _ _ Ha) as [[-> ->]|Ha'].
        { rewrite Hidc, Hvc. apply (si_two _ _ _ _ T th k _ _ i t i' t' (not_eq_sym Hne) Hth Hk). }
        pose proof (si_ok _ _ _ _ T k) as Z. unfold ok_thread in Z. rewrite Hk in Z. destruct Z as (_ & _ & Z). eauto.
      * discriminate.
      * intros a [= <-]. exact Hnone.
  - (* Create, the index of values: the moment *)
    destruct Q as (Q1 & i & t & -> & Q2 & Q3). fold (slot s a) in Hp. rewrite Q2 in Hp. injection Hp as <- <-.
    set (c := hashed E i t) in *. set (kv := tok_key E i (t_value t)) in *. assert (Hkv : t_value c = kv) by reflexivity.
    set (s' := mkTStore (ts_heap s) (ts_id s) (upd (ts_val s) kv (Some a))).
    assert (Hg : grows s s').
    { split; [eauto|]. intros k b Hb. change (ts_val s') with (upd (ts_val s) kv (Some a)). destruct (upd_cases (ts_val s) kv (Some a) k) as [[-> ->]|[Hne ->]]; congruence. }
    exists (snd (at_once E w (SCreate i t))), (set_thread q th (Happened (SCreate i t) SrOk)), [MMoment th (SCreate i t) SrOk].
    split; [|split; [|split; [reflexivity|apply moment; auto]]].
    + destruct S as [A1 A2 A3 A4 A5 A6 A7]. split; auto.
      * intros k b. change (ts_val s') with (upd (ts_val s) kv (Some a)). destruct (upd_cases (ts_val s) kv (Some a) k) as [[-> ->]|[Hne ->]]; [|apply A2].
        intros [= <-]. eauto.
      * intros k. cbn [at_once exec ok o_fault do_write snd store_token with_tok w_tval]. fold c. rewrite Hkv. change (ts_val s') with (upd (ts_val s) kv (Some a)).
        destruct (upd_cases (w_tval w) kv (Some c) k) as [[-> ->]|[Hne ->]]; [rewrite upd_same; auto|].
        rewrite upd_other by exact Hne. apply A6.
      * intros id. cbn [at_once exec ok o_fault do_write snd store_token with_tok w_tid]. fold c. change (t_id c) with (t_id t). change (ts_val s') with (upd (ts_val s) kv (Some a)). change (ts_id s') with (ts_id s).
        destruct (upd_cases (w_tid w) (t_id t) (Some c) id) as [[-> ->]|[Hne ->]].
        { change (t_id t) with (t_id c). rewrite (A3 _ _ Q2). change (slot s' a) with (slot s a). rewrite Q2, Hkv, upd_same. reflexivity. }
        rewrite A7. destruct (ts_id s id) as [b|] eqn:Hb; auto. change (slot s' b) with (slot s b).
        destruct (A1 _ _ Hb) as (u & U1 & U2). rewrite U1. rewrite upd_other; auto.
        intros K. assert (b = a) by (eapply A4; eauto). subst b. assert (t_id c = t_id t) by reflexivity. congruence.
    + eapply threads_move; eauto; try discriminate.
      * cbn [ok_pc]. split; [reflexivity|]. exists a, c. split; [exact Q2|]. split; [reflexivity|]. apply upd_same.
      * intros k c' i' t' Hne Hk b u Hb.
        pose proof (si_ok _ _ _ _ T k) as Z. unfold ok_thread in Z. rewrite Hk in Z. destruct Z as (_ & _ & Z). eauto.
      * intros k c' b i' t' Hne Hk Hb Hv. split; [exact Hb|]. change (ts_val s') with (upd (ts_val s) kv (Some a)). rewrite upd_other; auto.
        intros K. assert (b = a) by (eapply (si_uniq _ _ _ S); [exact Hb|exact Q2|exact K]). subst b.
        apply Hne. eapply (si_one _ _ _ _ T); eauto.
  - (* Get *)
    destruct Q as (Q1 & (i & ->) & Q2). injection Hp as <- <-.
    destruct (ts_id s id) as [a|] eqn:Ha.
    + destruct (si_id _ _ _ S _ _ Ha) as (u & U1 & U2).
      assert (Hs : shown s a id).
      { destruct Q2 as [(b & v & V1 & V2 & V3)|Q2].
        - assert (b = a) as -> by (pose proof (si_indexed _ _ _ S _ _ V1); congruence). exists v. auto.
        - exfalso. destruct (si_origin _ _ _ S _ _ U1) as (k & i0 & t0 & K1 & K2 & K3). apply (Q2 k i0 t0); [auto|congruence]. }
      exists w, (set_thread q th (Called (SGet i id))), []. split; [exact S|].
      split; [|split; [reflexivity|apply quiet; exact Q1]].
      eapply threads_local; eauto; try discriminate. cbn [ok_pc]. split; [auto|]. left. eauto.
    + exists w, (set_thread q th (Happened (SGet i id) SrMissing)), [MMoment th (SGet i id) SrMissing]. split; [exact S|].
      split; [|split; [reflexivity|apply (moment w); auto]].
      * eapply threads_local; eauto; try discriminate. cbn [ok_pc]. auto.
      * cbn [at_once fst]. rewrite (si_wid _ _ _ S), Ha. reflexivity.
  - (* GetByValue *)
    destruct Q as (Q1 & i & v & -> & ->). injection Hp as <- <-.
    destruct (ts_val s (tok_key E i v)) as [a|] eqn:Ha.
    + exists w, (set_thread q th (Called (SGetByValue i v))), []. split; [exact S|].
      split; [|split; [reflexivity|apply quiet; exact Q1]].
      eapply threads_local; eauto; try discriminate. cbn [ok_pc]. split; [auto|]. right. eauto.
    + exists w, (set_thread q th (Happened (SGetByValue i v) SrMissing)), [MMoment th (SGetByValue i v) SrMissing]. split; [exact S|].
      split; [|split; [reflexivity|apply (moment w); auto]].
      * eapply threads_local; eauto; try discriminate. cbn [ok_pc]. auto.
      * cbn [at_once fst exec ok o_fault answer_read]. rewrite (si_wval _ _ _ S), Ha. reflexivity.
  - (* reading the token: the moment of a lookup *)
    destruct Q as (Q1 & Q2). fold (slot s a) in Hp. destruct (slot s a) as [t|] eqn:Ha; [|discriminate]. injection Hp as <- <-.
    assert (Hr : fst (at_once E w c) = SrToken t /\ snd (at_once E w c) = w /\ shown s a (t_id t)).
    { destruct Q2 as [(i & id & -> & u & U1 & U2 & U3)|(i & v & -> & U)].
      - assert (u = t) as -> by congruence. cbn [at_once fst snd]. subst id. rewrite (si_wid _ _ _ S), (si_indexed _ _ _ S _ _ Ha), Ha, U3.
        repeat split. exists t. auto.
      - destruct (si_val _ _ _ S _ _ U) as (u & U1 & U2). assert (u = t) as -> by congruence.
        cbn [at_once fst snd exec ok o_fault answer_read]. rewrite (si_wval _ _ _ S), U, Ha. repeat split. exists t. rewrite U2. auto. }
    destruct Hr as (R1 & R2 & R3).
    exists w, (set_thread q th (Happened c (SrToken t))), [MMoment th c (SrToken t)]. split; [exact S|].
    split; [|split; [reflexivity|pose proof (moment w q th c _ Q1 R1) as K; rewrite R2 in K; exact K]].
    eapply threads_local; eauto; try discriminate. cbn [ok_pc]. eauto.
  - (* Revoke, the load *)
    destruct Q as (Q1 & (i & ->) & Q2). injection Hp as <- <-.
    destruct (ts_id s id) as [a|] eqn:Ha.
    + destruct (si_id _ _ _ S _ _ Ha) as (u & U1 & U2).
      assert (Hs : shown s a id).
      { destruct Q2 as [(b & v & V1 & V2 & V3)|Q2].
        - assert (b = a) as -> by (pose proof (si_indexed _ _ _ S _ _ V1); congruence). exists v. auto.
        - exfalso. destruct (si_origin _ _ _ S _ _ U1) as (k & i0 & t0 & K1 & K2 & K3). apply (Q2 k i0 t0); [auto|congruence]. }
      exists w, (set_thread q th (Called (SRevoke i id))), []. split; [exact S|].
      split; [|split; [reflexivity|apply quiet; exact Q1]].
      eapply threads_local; eauto; try discriminate. cbn [ok_pc]. eauto.
    + assert (R1 : at_once E w (SRevoke i id) = (SrMissing, w)).
      { cbn [at_once exec ok o_fault]. rewrite (si_wid _ _ _ S), Ha. reflexivity. }
      exists w, (set_thread q th (Happened (SRevoke i id) SrMissing)), [MMoment th (SRevoke i id) SrMissing]. split; [exact S|].
      split; [|split; [reflexivity|pose proof (moment w q th _ SrMissing Q1) as K; rewrite R1 in K; apply K; reflexivity]].
      eapply threads_local; eauto; try discriminate. cbn [ok_pc]. auto.
  - (* Revoke, the status: the moment *)
    destruct Q as (Q1 & i & id & -> & t & Ha & Hid & Hv). fold (slot s a) in Hp. rewrite Ha in Hp. injection Hp as <- <-.
    set (c := set_status t TsRevoked).
    set (s' := mkTStore (heap_set (ts_heap s) a c) (ts_id s) (ts_val s)).
    assert (Hnew : slot s' a = Some c) by (eapply slot_set_same; exact Ha).
    assert (Hoth : forall b, b <> a -> slot s' b = slot s b) by (intros b Hb; apply heap_set_other; congruence).
    assert (Hinv : forall b u, slot s' b = Some u -> exists u0, slot s b = Some u0 /\ t_id u = t_id u0 /\ t_value u = t_value u0).
    { intros b u Hb. destruct (Nat.eq_dec b a) as [->|Hne]; [|rewrite (Hoth _ Hne) in Hb; eauto].
      assert (u = c) as -> by congruence. exists t. auto. }
    assert (Hg : grows s s').
    { split; [|auto]. intros b u Hb. destruct (Nat.eq_dec b a) as [->|Hne]; [|rewrite (Hoth _ Hne); eauto].
      assert (u = t) as -> by congruence. exists c. auto. }
    assert (R : at_once E w (SRevoke i id) = (SrOk, store_token w c)).
    { cbn [at_once exec ok o_fault]. rewrite (si_wid _ _ _ S). rewrite <- Hid, (si_indexed _ _ _ S _ _ Ha), Ha, Hv. reflexivity. }
    exists (store_token w c), (set_thread q th (Happened (SRevoke i id) SrOk)), [MMoment th (SRevoke i id) SrOk].
    split; [|split; [|split; [reflexivity|pose proof (moment w q th _ SrOk Q1) as K; rewrite R in K; apply K; reflexivity]]].
    + destruct S as [A1 A2 A3 A4 A5 A6 A7]. split.
      * intros id' b Hb. destruct (A1 _ _ Hb) as (u & U1 & U2). destruct (proj1 Hg _ _ U1) as (u' & V1 & V2 & V3). exists u'. split; congruence.
      * intros k b Hb. destruct (A2 _ _ Hb) as (u & U1 & U2). destruct (proj1 Hg _ _ U1) as (u' & V1 & V2 & V3). exists u'. split; congruence.
      * intros b u Hb. destruct (Hinv _ _ Hb) as (u0 & V1 & V2 & V3). rewrite V2. apply A3; auto.
      * intros b d u v Hb Hd Hvv. destruct (Hinv _ _ Hb) as (u0 & V1 & V2 & V3). destruct (Hinv _ _ Hd) as (v0 & W1 & W2 & W3).
        eapply A4; eauto. congruence.
      * intros b u Hb. destruct (Hinv _ _ Hb) as (u0 & V1 & V2 & V3). destruct (A5 _ _ V1) as (k & i0 & t0 & K1 & K2 & K3).
        exists k, i0, t0. split; [auto|]. split; congruence.
      * intros k. cbn [store_token with_tok w_tval]. change (ts_val s') with (ts_val s). change (t_value c) with (t_value t).
        destruct (upd_cases (w_tval w) (t_value t) (Some c) k) as [[-> ->]|[Hne ->]]; [rewrite Hv; auto|].
        rewrite A6. destruct (ts_val s k) as [b|] eqn:Hb; auto. symmetry. apply Hoth. intros ->.
        destruct (A2 _ _ Hb) as (u & U1 & U2). congruence.
      * intros id'. cbn [store_token with_tok w_tid]. change (ts_id s') with (ts_id s). change (ts_val s') with (ts_val s).
        change (t_id c) with (t_id t).
        destruct (upd_cases (w_tid w) (t_id t) (Some c) id') as [[-> ->]|[Hne ->]].
        { rewrite (A3 _ _ Ha), Hnew. change (t_value c) with (t_value t). rewrite Hv. reflexivity. }
        rewrite A7. destruct (ts_id s id') as [b|] eqn:Hb; auto.
        destruct (A1 _ _ Hb) as (u & U1 & U2). rewrite Hoth; [reflexivity|]. intros ->. congruence.
    + eapply threads_move; eauto; try discriminate.
      * cbn [ok_pc]. split; [reflexivity|]. exists i, id. split; [reflexivity|]. exists c. auto.
      * intros k c' i' t' Hne Hk b u Hb. destruct (Hinv _ _ Hb) as (u0 & V1 & V2 & V3). rewrite V2, V3.
        pose proof (si_ok _ _ _ _ T k) as Z. unfold ok_thread in Z. rewrite Hk in Z. destruct Z as (_ & _ & Z). eauto.
      * intros k c' b i' t' Hne Hk Hb Hvb. split; [|exact Hvb]. rewrite Hoth; [exact Hb|]. intros ->.
        assert (t = hashed E i' t') by congruence. subst t. cbn in Hv. congruence.
  - (* Revoke, the stores *)
    destruct Q as (Q1 & i & id & -> & t & Ha & Hid & Hv). fold (slot s a) in Hp. rewrite Ha in Hp. injection Hp as <- <-.
    set (s' := mkTStore (ts_heap s) (upd (ts_id s) (t_id t) (Some a)) (ts_val s)).
    assert (Hsame : forall x, ts_id s' x = ts_id s x).
    { intros x. change (ts_id s') with (upd (ts_id s) (t_id t) (Some a)).
      destruct (upd_cases (ts_id s) (t_id t) (Some a) x) as [[-> ->]|[Hne ->]]; auto. symmetry. apply (si_indexed _ _ _ S _ _ Ha). }
    exists w, (set_thread q th (Happened (SRevoke i id) SrOk)), []. split; [|split; [|split; [reflexivity|apply quiet; exact Q1]]].
    + destruct S as [A1 A2 A3 A4 A5 A6 A7]. split; auto.
      * intros x b. rewrite Hsame. apply A1.
      * intros b u. rewrite Hsame. apply A3.
      * intros x. rewrite Hsame. apply A7.
    + eapply threads_move; eauto; try discriminate.
      * split; eauto.
      * cbn [ok_pc]. split; [reflexivity|]. exists i, id. split; [reflexivity|]. exists t. auto.
      * intros k c' i' t' Hne Hk b u Hb.
        pose proof (si_ok _ _ _ _ T k) as Z. unfold ok_thread in Z. rewrite Hk in Z. destruct Z as (_ & _ & Z). eauto.
  - destruct Q as (Q1 & i & id & -> & t & Ha & Hid & Hv). fold (slot s a) in Hp. rewrite Ha in Hp. injection Hp as <- <-.
    set (s' := mkTStore (ts_heap s) (ts_id s) (upd (ts_val s) (t_value t) (Some a))).
    assert (Hsame : forall x, ts_val s' x = ts_val s x).
    { intros x. change (ts_val s') with (upd (ts_val s) (t_value t) (Some a)).
      destruct (upd_cases (ts_val s) (t_value t) (Some a) x) as [[-> ->]|[Hne ->]]; auto. }
    exists w, (set_thread q th (Happened (SRevoke i id) SrOk)), []. split; [|split; [|split; [reflexivity|apply quiet; exact Q1]]].
    + destruct S as [A1 A2 A3 A4 A5 A6 A7]. split; auto.
      * intros x b. rewrite Hsame. apply A2.
      * intros x. rewrite Hsame. apply A6.
      * intros x. rewrite A7. change (ts_id s') with (ts_id s). destruct (ts_id s x) as [b|]; auto. change (slot s' b) with (slot s b).
        destruct (slot s b); auto. rewrite Hsame. reflexivity.
    + eapply threads_move; eauto; try discriminate.
      * split; [eauto|]. intros k b. rewrite Hsame. auto.
      * cbn [ok_pc]. auto.
      * intros k c' i' t' Hne Hk b u Hb.
        pose proof (si_ok _ _ _ _ T k) as Z. unfold ok_thread in Z. rewrite Hk in Z. destruct Z as (_ & _ & Z). eauto.
      * intros k c' b i' t' Hne Hk Hb Hvb. rewrite Hsame. auto.
Qed.

Lemma step_next cf h w q x cf' evs rest : sstore (sc_store cf) h w -> sthreads (sc_store cf) (sc_threads cf) h q ->
  tk_step E cf x = (cf', evs) -> H = (h ++ evs ++ rest)%list -> next h evs w q cf'.
Proof using Hapart Hlearnt Hnodel.
  intros S T Hs HH. destruct cf as [s thr]. cbn [sc_store sc_threads] in *.
  assert (Hid : next h [] w q (mkSConf s thr)).
  { exists w, q, []. rewrite app_nil_r. split; [exact S|]. split; [exact T|]. split; [reflexivity|]. split; cbn; auto. }
  destruct x as [th c|th]; cbn [tk_step sc_store sc_threads] in Hs.
  - destruct (thr th) eqn:Hth; injection Hs as <- <-; [exact Hid|]. eapply enter_next; eauto.
  - destruct (thr th) as [[c p]|] eqn:Hth; [|injection Hs as <- <-; exact Hid].
    assert (K : (exists r, p = PcReturn r) \/
       (cf', evs) = match pc_step E s p with None => (mkSConf s thr, []) | Some (s0, p0) => (mkSConf s0 (set_thread thr th (Some (c, p0))), []) end).
    { destruct p; try (right; rewrite <- Hs; reflexivity). left. eauto. }
    destruct K as [(r & ->)|K].
    + injection Hs as <- <-. apply return_next; auto.
    + destruct (pc_step E s p) as [[s0 p0]|] eqn:Hp; injection K as -> ->; [|exact Hid].
      eapply advance_next; eauto. intros e He. rewrite HH. apply in_or_app. auto.
Qed.

Lemma run_next xs : forall cf h w q rest, sstore (sc_store cf) h w -> sthreads (sc_store cf) (sc_threads cf) h q ->
  H = (h ++ snd (tk_run E cf xs) ++ rest)%list ->
  exists ms w' q', without_moments ms = snd (tk_run E cf xs) /\ follows w q ms w' q'.
Proof using Hapart Hlearnt Hnodel.
  induction xs as [|x xs IH]; intros cf h w q rest S T HH; cbn [tk_run] in *.
  - exists [], w, q. split; [reflexivity|]. split; cbn; auto.
  - destruct (tk_step E cf x) as [cf' e1] eqn:Hs. destruct (tk_run E cf' xs) as [cf'' e2] eqn:Hr. cbn [snd] in *.
    destruct (step_next cf h w q x cf' e1 (e2 ++ rest) S T Hs) as (w' & q' & ms & S' & T' & W & F1 & F2).
    { rewrite HH, <- app_assoc. reflexivity. }
    destruct (IH cf' (h ++ e1)%list w' q' rest S' T') as (ms2 & w'' & q'' & W2 & G1 & G2).
    { rewrite Hr. cbn [snd]. rewrite HH, <- !app_assoc. reflexivity. }
    rewrite Hr in W2. cbn [snd] in W2. exists (ms ++ ms2)%list, w'', q''. split; [rewrite without_app; congruence|]. split.
    + intros r0 Hr0. rewrite <- app_assoc. auto.
    + intros r0 Hr0. rewrite moments_app, <- app_assoc. auto.
Qed.
End Lin.

Lemma C105_linearizable_partial_proof : forall E w xs,
  let h := shistory E xs in
  no_tokens w -> creations_apart E h -> ids_learnt h -> no_deletions h -> as_if_atomic E w h.
Proof.
  intros E w xs h Hn H1 H2 H3. subst h.
  destruct (run_next E (shistory E xs) H1 H2 H3 xs sc_new [] w (fun _ => Outside) []) as (ms & w' & q' & W & F1 & F2).
  - destruct Hn as [N1 N2]. split; cbn; try discriminate; auto; intros a t K; destruct a; discriminate.
  - split; cbn; auto; try discriminate; contradiction.
  - cbn [app]. rewrite app_nil_r. reflexivity.
  - exists ms. split; [exact W|]. split.
    + rewrite <- (app_nil_r ms). apply F1. constructor.
    + rewrite <- (app_nil_r (moments ms)). apply F2. exact I.
Qed.
