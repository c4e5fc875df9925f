(** * The shared generator: proofs (C92) *)

From Verif Require Import SpecRand.
From Coq Require Import Permutation.
Local Open Scope list_scope.

Section Rand.
Context {G : generator}.
Notation S := (g_state G).
Notation R := (g_result G).
Implicit Types y : rsystem G.

Lemma sequential_snoc (s : S) l s1 o (r : R) s2 :
  sequential s l s1 -> body (g_enter G o) s1 r s2 -> sequential s (l ++ [(o, r)]) s2.
Proof.
  induction 1 as [|s o' r' s1' rest s' Hb _ IH]; intros H; cbn [app].
  - econstructor; [exact H|constructor].
  - econstructor; [exact Hb|]. exact (IH H).
Qed.

(** Body steps so far, from the entry. *)
Inductive partway : g_local G -> S -> g_local G -> S -> Prop :=
| pw_refl l s : partway l s l s
| pw_step l s l1 s1 l2 s2 : partway l s l1 s1 -> g_next G l1 s1 = Go l2 s2 -> partway l s l2 s2.

Lemma partway_body l s l1 s1 r s2 :
  partway l s l1 s1 -> body l1 s1 r s2 -> body l s r s2.
Proof.
  induction 1 as [|l s l1 s1 l2 s2' _ IH Hn]; intros H; [exact H|].
  apply IH. econstructor; eassumption.
Qed.

Definition holds_lock (p : phase G) : bool :=
  match p with Inside _ _ | Unlocking _ _ | Waiting _ => true | _ => false end.
Definition pending (p : phase G) : option rop :=
  match p with
  | Locking o | Inside o _ | Unlocking o _ | Waiting o | Returning o _ => Some o
  | _ => None
  end.

Definition in_flight (p : phase G) : Prop :=
  match p with Locking _ | Inside _ _ | Unlocking _ _ | Waiting _ => True | _ => False end.

Record rinv (s0 : S) (y : rsystem G) (lin : list called) (s1 : S) (owner : option nat) : Prop := {
  ri_explains : explains s0 (rs_events y) lin s1;
  ri_free : rs_locked y = false -> s1 = rs_shared y;
  ri_owner : forall t, holds_lock (r_phase (rs_routines y t)) = true -> rs_locked y = true /\ owner = Some t;
  ri_inside : forall t o l, r_phase (rs_routines y t) = Inside o l -> partway (g_enter G o) s1 l (rs_shared y);
  ri_unlock : forall t o r, r_phase (rs_routines y t) = Unlocking o r -> body (g_enter G o) s1 r (rs_shared y);
  ri_called : forall t o, pending (r_phase (rs_routines y t)) = Some o ->
      In (RvCall t (r_count (rs_routines y t)) o) (rs_events y);
  ri_fresh : forall t k o, r_count (rs_routines y t) < k \/
      (r_count (rs_routines y t) = k /\ pending (r_phase (rs_routines y t)) = None) ->
      ~ In (RvCall t k o) (rs_events y);
  ri_open : forall t o r, in_flight (r_phase (rs_routines y t)) ->
      ~ In (t, r_count (rs_routines y t), o, r) lin;
  ri_done : forall t o r, r_phase (rs_routines y t) = Returning o r ->
      In (t, r_count (rs_routines y t), o, r) lin;
  ri_once : forall t k o o', In (RvCall t k o) (rs_events y) -> In (RvCall t k o') (rs_events y) -> o = o'
}.

Lemma snoc_split {A} (h : list A) (a : A) h1 h2 :
  h ++ [a] = h1 ++ h2 ->
  (h2 = [] /\ h1 = h ++ [a]) \/ (exists h2', h2 = h2' ++ [a] /\ h = h1 ++ h2').
Proof.
  intros H. destruct h2 as [|b h2] using rev_ind.
  - left. rewrite app_nil_r in H. auto.
  - right. rewrite app_assoc in H. apply app_inj_tail in H as [H1 H2]. subst. eauto.
Qed.

Lemma explains_event (s0 : S) h lin s1 (e : revent R) :
  explains s0 h lin s1 ->
  match e with
  | RvCall t k o => forall o' r, ~ In (t, k, o', r) lin
  | RvReturn t k o r => In (t, k, o, r) lin
  | RvPanic _ _ _ | RvNested _ _ _ => True
  end ->
  explains s0 (h ++ [e]) lin s1.
Proof.
  intros (Hseq & Hret & Hcall & Hnd & Hrt) He.
  split; [exact Hseq|]. split; [|split; [|split; [exact Hnd|]]].
  - intros t k o r Hin. apply in_app_or in Hin as [Hin|[Heq|[]]]; [eauto|]. subst e. exact He.
  - intros t k o r Hin. apply in_or_app. left. eauto.
  - intros h1 h2 t k o r t' k' o' l1 r' l2 Hsp H1 H2 Hl.
    apply snoc_split in Hsp as [[H _]|[h2' [H Hh]]].
    + subst h2. destruct H2.
    + subst h2. apply in_app_or in H2 as [H2|[H2|[]]]; [eapply Hrt; eassumption|].
      subst e. exfalso. apply (He o' r'). rewrite Hl. apply in_elt.
Qed.

Lemma explains_call (s0 : S) h lin s1 t k o r s2 :
  explains s0 h lin s1 -> body (g_enter G o) s1 r s2 ->
  In (RvCall t k o) h -> (forall o' r', ~ In (t, k, o', r') lin) ->
  explains s0 h (lin ++ [(t, k, o, r)]) s2.
Proof.
  intros (Hseq & Hret & Hcall & Hnd & Hrt) Hb Hc Hn.
  split; [|split; [|split; [|split]]].
  - rewrite map_app. eapply sequential_snoc; eassumption.
  - intros t' k' o' r' Hin. apply in_or_app. left. eauto.
  - intros t' k' o' r' Hin. apply in_app_or in Hin as [Hin|[Heq|[]]]; [eauto|].
    injection Heq as <- <- <- <-. exact Hc.
  - rewrite map_app. cbn [map fst]. eapply Permutation_NoDup; [apply Permutation_cons_append|].
    constructor.
    + intros Hin. apply in_map_iff in Hin as [[[[t' k'] o'] r'] [Heq Hin]].
      cbn [fst] in Heq. injection Heq as -> ->. exact (Hn _ _ Hin).
    + exact Hnd.
  - intros h1 h2 t' k' o' r' t2 k2 o2 l1 r2 l2 Hsp H1 H2 Hl.
    apply snoc_split in Hl as [[H _]|[l2' [H Hl]]]; [discriminate H|].
    destruct l2' as [|c l2'].
    + cbn [app] in H. injection H as Hc' Hl2. subst. rewrite app_nil_r in *.
      apply Hret with (1 := in_or_app _ _ _ (or_introl H1)).
    + cbn [app] in H. injection H as Hc' Hl2. subst c. eapply Hrt; eassumption.
Qed.

Lemma set_same (m : nat -> routine G) t r : set_routine m t r t = r.
Proof. unfold set_routine. rewrite Nat.eqb_refl. reflexivity. Qed.
Lemma set_other (m : nat -> routine G) t r t' : t' <> t -> set_routine m t r t' = m t'.
Proof. intros H. unfold set_routine. apply Nat.eqb_neq in H. rewrite H. reflexivity. Qed.

Ltac at_routine t t' :=
  destruct (Nat.eq_dec t' t) as [->|];
  [rewrite !set_same in * | rewrite !set_other in * by assumption];
  cbn [r_phase r_count r_todo holds_lock pending in_flight] in *.

Lemma rinv_start s calls : rinv s (new_locked_rand s calls) [] s None.
Proof.
  constructor; cbn; try easy.
  split; [constructor|]. repeat split; try easy; [constructor|].
  intros ? ? ? ? ? ? ? ? ? l1 ? ? _ _ _ H. destruct l1; discriminate H.
Qed.

Lemma rinv_step s0 y lin s1 ow t :
  rinv s0 y lin s1 ow ->
  exists lin' s1' ow', rinv s0 (rstep t y) (lin ++ lin') s1' ow'.
Proof.
  intros I. unfold rstep.
  assert (Hsame : exists lin' s1' ow', rinv s0 y (lin ++ lin') s1' ow').
  { exists [], s1, ow. rewrite app_nil_r. exact I. }
  destruct I as [Ie If Io Ii Iu Ic Ifr Iop Id Ion].

  assert (Hcall : r_phase (rs_routines y t) = Idle \/ r_phase (rs_routines y t) = Unwound ->
    exists lin' s1' ow', rinv s0
      (match r_todo (rs_routines y t) with
       | [] => y
       | o :: os =>
           mkRSystem (rs_shared y) (rs_locked y)
             (set_routine (rs_routines y) t (mkRoutine os (r_count (rs_routines y t)) (Locking o)))
             (rs_events y ++ [RvCall t (r_count (rs_routines y t)) o])
       end) (lin ++ lin') s1' ow').
  { intros Hp. destruct (r_todo (rs_routines y t)) as [|o os]; [exact Hsame|].
    assert (Hnone : pending (r_phase (rs_routines y t)) = None) by (destruct Hp as [-> | ->]; reflexivity).
    assert (Hnew : forall o' r, ~ In (t, r_count (rs_routines y t), o', r) lin).
    { intros o' r Hin. destruct Ie as (_ & _ & Hc & _). apply Hc in Hin. revert Hin. apply Ifr. auto. }
    exists [], s1, ow. rewrite app_nil_r. constructor; cbn [rs_shared rs_locked rs_routines rs_events].
    - apply explains_event; [exact Ie|exact Hnew].
    - exact If.
    - intros t' H. at_routine t t'; [discriminate H|eauto].
    - intros t' o' l H. at_routine t t'; [discriminate H|eauto].
    - intros t' o' r H. at_routine t t'; [discriminate H|eauto].
    - intros t' o' H. apply in_or_app. at_routine t t'; [injection H as ->; right; left; reflexivity|left; auto].
    - intros t' k o' H Hin. apply in_app_or in Hin as [Hin|[Hin|[]]].
      + revert Hin. apply Ifr. at_routine t t'; [|exact H].
        destruct H as [H|[_ H]]; [left; exact H|discriminate H].
      + injection Hin as <- <- <-. rewrite set_same in H. cbn in H. destruct H as [H|[_ H]]; [lia|discriminate H].
    - intros t' o' r H. at_routine t t'; [apply Hnew|apply Iop; exact H].
    - intros t' o' r H. at_routine t t'; [discriminate H|eauto].
    - intros t' k o1 o2 H1 H2. apply in_app_or in H1 as [H1|[H1|[]]]; apply in_app_or in H2 as [H2|[H2|[]]].
      + eapply Ion; eassumption.
      + injection H2 as <- <- <-. exfalso. revert H1. apply Ifr. auto.
      + injection H1 as <- <- <-. exfalso. revert H2. apply Ifr. auto.
      + congruence. }
  assert (Hbody : forall o p' sh evs, evs = [] \/ (exists t' k' o', evs = [RvNested t' k' o']) ->
    holds_lock (r_phase (rs_routines y t)) = true ->
    pending (r_phase (rs_routines y t)) = Some o ->
    pending p' = Some o -> in_flight p' -> (forall o' r, p' <> Returning o' r) ->
    (forall o' l, p' = Inside o' l -> partway (g_enter G o') s1 l sh) ->
    (forall o' r, p' = Unlocking o' r -> body (g_enter G o') s1 r sh) ->
    exists lin' s1' ow', rinv s0 (mkRSystem sh (rs_locked y)
      (set_routine (rs_routines y) t (mkRoutine (r_todo (rs_routines y t)) (r_count (rs_routines y t)) p')) (rs_events y ++ evs))
      (lin ++ lin') s1' ow').
  { intros o p' sh evs Hevs Hl Hpe Hpe' Hfl Hnr Hin Hun. destruct (Io _ Hl) as [Hlk Hown].
    assert (Hev : forall t' k' o', In (RvCall t' k' o') (rs_events y ++ evs) -> In (RvCall t' k' o') (rs_events y)).
    { intros t' k' o' H. apply in_app_or in H as [H|H]; [exact H|].
      destruct Hevs as [->|(t2 & k2 & o2 & ->)]; [destruct H|destruct H as [H|[]]; discriminate H]. }
    exists [], s1, ow. rewrite app_nil_r. constructor; cbn [rs_shared rs_locked rs_routines rs_events].
    - destruct Hevs as [->|(t' & k' & o' & ->)]; [rewrite app_nil_r; exact Ie|].
      apply explains_event; [exact Ie|exact Logic.I].
    - congruence.
    - intros t' H. at_routine t t'; [auto|eauto].
    - intros t' o' l H. at_routine t t'; [eauto|].
      exfalso. destruct (Io t') as [_ Ho]; [rewrite H; reflexivity|]. congruence.
    - intros t' o' l H. at_routine t t'; [eauto|].
      exfalso. destruct (Io t') as [_ Ho]; [rewrite H; reflexivity|]. congruence.
    - intros t' o' H. apply in_or_app. left. at_routine t t'; [apply Ic; congruence|auto].
    - intros t' k o' H Hc. apply Hev in Hc. revert Hc. apply Ifr. at_routine t t'; [|exact H].
      destruct H as [H|[_ H]]; [left; exact H|congruence].
    - intros t' o' r H. at_routine t t'; [|apply Iop; exact H].
      apply Iop. destruct (r_phase (rs_routines y t)); try discriminate Hl; exact Logic.I.
    - intros t' o' r H. at_routine t t'; [exfalso; eapply Hnr; exact H|eauto].
    - intros t' k o1 o2 H1 H2. eapply Ion; apply Hev; eassumption. }
  destruct (r_phase (rs_routines y t)) as [|o|o l|o v|o v|o|] eqn:Hp.
  - apply Hcall. auto.
  - destruct (rs_locked y) eqn:Hlk; [exact Hsame|]. clear Hcall Hbody.
    assert (Hfree : forall t', holds_lock (r_phase (rs_routines y t')) = false).
    { intros t'. destruct (holds_lock _) eqn:H; [|reflexivity]. apply Io in H. destruct H as [H _]. discriminate H. }
    exists [], s1, (Some t). rewrite app_nil_r. constructor; cbn [rs_shared rs_locked rs_routines rs_events].
    + exact Ie.
    + discriminate.
    + intros t' H. at_routine t t'; [auto|]. rewrite Hfree in H. discriminate H.
    + intros t' o' l H. at_routine t t'.
      * injection H as <- <-. rewrite <- (If eq_refl). constructor.
      * specialize (Hfree t'). rewrite H in Hfree. discriminate Hfree.
    + intros t' o' l H. at_routine t t'; [discriminate H|]. specialize (Hfree t'). rewrite H in Hfree. discriminate Hfree.
    + intros t' o' H. at_routine t t'; [apply Ic; rewrite Hp; exact H|auto].
    + intros t' k o' H. apply Ifr. at_routine t t'; [|exact H].
      destruct H as [H|[_ H]]; [left; exact H|discriminate H].
    + intros t' o' r H. at_routine t t'; [apply Iop; rewrite Hp; exact Logic.I|apply Iop; exact H].
    + intros t' o' r H. at_routine t t'; [discriminate H|eauto].
    + exact Ion.
  - pose proof (Ii _ _ _ Hp) as Hpw. destruct (g_next G l (rs_shared y)) as [l' s|v s|s|o' s] eqn:Hn.
    + rewrite <- (app_nil_r (rs_events y)). apply Hbody with (o := o); try easy; [left; reflexivity|].
      intros o' l'' H. injection H as <- <-. econstructor; eassumption.
    + rewrite <- (app_nil_r (rs_events y)). apply Hbody with (o := o); try easy; [left; reflexivity|].
      intros o' l'' H. injection H as <- <-. eapply partway_body; [exact Hpw|]. constructor. exact Hn.
    + clear Hcall Hbody. destruct (Io t) as [Hlk Hown]; [rewrite Hp; reflexivity|].
      assert (Hoth : forall t', t' <> t -> holds_lock (r_phase (rs_routines y t')) = false).
      { intros t' Hne. destruct (holds_lock _) eqn:H; [|reflexivity]. apply Io in H as [_ H]. congruence. }
      exists [], s1, None. rewrite app_nil_r. constructor; cbn [rs_shared rs_locked rs_routines rs_events].
      * apply explains_event; [exact Ie|exact Logic.I].
      * congruence.
      * intros t' H. at_routine t t'; [discriminate H|]. rewrite Hoth in H by assumption. discriminate H.
      * intros t' o' l' H. at_routine t t'; [discriminate H|]. specialize (Hoth t' n). rewrite H in Hoth. discriminate Hoth.
      * intros t' o' l' H. at_routine t t'; [discriminate H|]. specialize (Hoth t' n). rewrite H in Hoth. discriminate Hoth.
      * intros t' o' H. apply in_or_app. left. at_routine t t'; [discriminate H|auto].
      * intros t' k o' H Hin. apply in_app_or in Hin as [Hin|[Hin|[]]]; [|discriminate Hin]. revert Hin. apply Ifr.
        at_routine t t'; [|exact H]. left. lia.
      * intros t' o' r H. at_routine t t'; [destruct H|apply Iop; exact H].
      * intros t' o' r H. at_routine t t'; [discriminate H|eauto].
      * intros t' k o1 o2 H1 H2. apply in_app_or in H1 as [H1|[H1|[]]]; apply in_app_or in H2 as [H2|[H2|[]]]; try discriminate.
        eapply Ion; eassumption.
    + apply Hbody with (o := o); try easy. right. eauto.
  - clear Hcall Hbody. destruct (Io t) as [Hlk Hown]; [rewrite Hp; reflexivity|].
    assert (Hoth : forall t', t' <> t -> holds_lock (r_phase (rs_routines y t')) = false).
    { intros t' Hne. destruct (holds_lock _) eqn:H; [|reflexivity]. apply Io in H as [_ H]. congruence. }
    assert (Hnew : forall o' r', ~ In (t, r_count (rs_routines y t), o', r') lin).
    { intros o' r'. apply Iop. rewrite Hp. exact Logic.I. }
    exists [(t, r_count (rs_routines y t), o, v)], (rs_shared y), None.
    constructor; cbn [rs_shared rs_locked rs_routines rs_events].
    + eapply explains_call; [exact Ie|eauto| |exact Hnew]. apply Ic. rewrite Hp. reflexivity.
    + reflexivity.
    + intros t' H. at_routine t t'; [discriminate H|]. rewrite Hoth in H by assumption. discriminate H.
    + intros t' o' l' H. at_routine t t'; [discriminate H|]. specialize (Hoth t' n). rewrite H in Hoth. discriminate Hoth.
    + intros t' o' l' H. at_routine t t'; [discriminate H|]. specialize (Hoth t' n). rewrite H in Hoth. discriminate Hoth.
    + intros t' o' H. at_routine t t'; [apply Ic; rewrite Hp; exact H|auto].
    + intros t' k o' H. apply Ifr. at_routine t t'; [|exact H].
      destruct H as [H|[_ H]]; [left; exact H|discriminate H].
    + intros t' o' r H. at_routine t t'; [destruct H|]. intros Hin. apply in_app_or in Hin as [Hin|[Hin|[]]].
      * revert Hin. apply Iop. exact H.
      * congruence.
    + intros t' o' r H. apply in_or_app. at_routine t t'; [injection H as <- <-; right; left; reflexivity|left; eauto].
    + exact Ion.
  - clear Hcall Hbody. pose proof (Id _ _ _ Hp) as Hdone.
    exists [], s1, ow. rewrite app_nil_r. constructor; cbn [rs_shared rs_locked rs_routines rs_events].
    + apply explains_event; [exact Ie|exact Hdone].
    + exact If.
    + intros t' H. at_routine t t'; [discriminate H|eauto].
    + intros t' o' l H. at_routine t t'; [discriminate H|eauto].
    + intros t' o' l H. at_routine t t'; [discriminate H|eauto].
    + intros t' o' H. apply in_or_app. left. at_routine t t'; [discriminate H|auto].
    + intros t' k o' H Hin. apply in_app_or in Hin as [Hin|[Hin|[]]]; [|discriminate Hin]. revert Hin. apply Ifr.
      at_routine t t'; [|exact H]. left. lia.
    + intros t' o' r H. at_routine t t'; [destruct H|apply Iop; exact H].
    + intros t' o' r H. at_routine t t'; [discriminate H|eauto].
    + intros t' k o1 o2 H1 H2. apply in_app_or in H1 as [H1|[H1|[]]]; apply in_app_or in H2 as [H2|[H2|[]]]; try discriminate.
      eapply Ion; eassumption.
  - exact Hsame.
  - apply Hcall. auto.
Qed.

Lemma rinv_run s0 ts : forall y lin s1 ow,
  rinv s0 y lin s1 ow -> exists lin' s1' ow', rinv s0 (rrun ts y) (lin ++ lin') s1' ow'.
Proof.
  induction ts as [|t ts IH]; intros y lin s1 ow I; cbn [rrun].
  - exists [], s1, ow. rewrite app_nil_r. exact I.
  - destruct (rinv_step _ _ _ _ _ t I) as (lin1 & s1' & ow' & I1).
    destruct (IH _ _ _ _ I1) as (lin2 & s2 & ow2 & I2).
    exists (lin1 ++ lin2), s2, ow2. rewrite app_assoc. exact I2.
Qed.

Lemma rrun_app ts ts' : forall y, rrun (ts ++ ts') y = rrun ts' (rrun ts y).
Proof. induction ts as [|t ts IH]; intros y; cbn [rrun app]; [reflexivity|apply IH]. Qed.

Lemma rinv_reached s calls ts :
  exists lin s1 ow, rinv s (rrun ts (new_locked_rand s calls)) lin s1 ow.
Proof. destruct (rinv_run s ts _ _ _ _ (rinv_start s calls)) as (lin & s1 & ow & H). eauto. Qed.

(** ** The body is deterministic *)
Lemma body_det (l : g_local G) (s : S) (r : R) s1 : body l s r s1 -> forall r' s1', body l s r' s1' -> r = r' /\ s1 = s1'.
Proof.
  induction 1 as [l s r s1 H|l s l' s' r s1 H _ IH]; intros r' s1' H'; inversion H'; subst; try congruence.
  - rewrite H in H0. injection H0 as <- <-. auto.
  - rewrite H in H0. injection H0 as <- <-. eauto.
Qed.

Lemma sequential_det : forall (l1 : list (rop * R)) (s s1 : S), sequential s l1 s1 -> forall l2 s2 more,
  sequential s l2 s2 -> map fst l2 = map fst l1 ++ more -> exists l3, l2 = l1 ++ l3.
Proof.
  induction 1 as [s|s o r s1 rest s' Hb _ IH]; intros l2 s2 more H2 Hm; [eexists; reflexivity|].
  cbn [map fst app] in Hm. inversion H2 as [|s_ o' r' s1' rest' s'_ Hb' Hr']; subst; [discriminate Hm|].
  cbn [map fst] in Hm. injection Hm as -> Hm.
  destruct (body_det _ _ _ _ Hb _ _ Hb') as [-> ->].
  destruct (IH _ _ _ Hr' Hm) as [l3 ->]. exists l3. reflexivity.
Qed.

Lemma partway_rest l s l1 s1 : partway l s l1 s1 -> forall r s2, body l s r s2 -> body l1 s1 r s2.
Proof.
  induction 1 as [|l s l1 s1 l2 s2' _ IH Hn]; intros r s2 H; [exact H|].
  apply IH in H. inversion H; subst; congruence.
Qed.

(** ** A lock nobody will release *)
Definition jammed y : Prop :=
  rs_locked y = true /\
  forall t, holds_lock (r_phase (rs_routines y t)) = true -> exists o, r_phase (rs_routines y t) = Waiting o.

Definition jinv (h : list (revent R)) y (more : list (revent R)) : Prop :=
  jammed y /\ rs_events y = h ++ more /\
  (forall t k o, In (RvCall t k o) more ->
     r_count (rs_routines y t) = k /\ exists o', r_phase (rs_routines y t) = Locking o') /\
  (forall t k o r, In (RvReturn t k o r) more -> k < r_count (rs_routines y t)).

Lemma jinv_step h y more t : jinv h y more -> exists more', jinv h (rstep t y) more'.
Proof.
  intros (Hj & Hev & Hc & Hr).
  assert (Hsame : exists more', jinv h y more') by (exists more; repeat split; auto; apply Hj || (eapply Hc; eassumption)).
  unfold rstep. destruct Hj as [Hlk Hh].
  assert (Hcall : (forall o, r_phase (rs_routines y t) <> Locking o) ->
    holds_lock (r_phase (rs_routines y t)) = false ->
    exists more', jinv h
      (match r_todo (rs_routines y t) with
       | [] => y
       | o :: os =>
           mkRSystem (rs_shared y) (rs_locked y)
             (set_routine (rs_routines y) t (mkRoutine os (r_count (rs_routines y t)) (Locking o)))
             (rs_events y ++ [RvCall t (r_count (rs_routines y t)) o])
       end) more').
  { intros Hnl Hnh. destruct (r_todo (rs_routines y t)) as [|o os]; [exact Hsame|].
    exists (more ++ [RvCall t (r_count (rs_routines y t)) o]).
    split; [|split; [|split]]; cbn [rs_shared rs_locked rs_routines rs_events].
    - split; [exact Hlk|]. cbn [rs_routines]. intros t' H. at_routine t t'; [discriminate H|auto].
    - rewrite Hev, app_assoc. reflexivity.
    - intros t' k o' Hin. apply in_app_or in Hin as [Hin|[Hin|[]]].
      + apply Hc in Hin as [Hk [o2 Hp]]. at_routine t t'; [|eauto]. exfalso. exact (Hnl _ Hp).
      + injection Hin as <- <- <-. rewrite set_same. cbn [r_count r_phase]. eauto.
    - intros t' k o' r Hin. apply in_app_or in Hin as [Hin|[Hin|[]]]; [|discriminate Hin].
      apply Hr in Hin. at_routine t t'; exact Hin. }
  destruct (r_phase (rs_routines y t)) as [|o|o l|o v|o v|o|] eqn:Hp.
  - apply Hcall; [discriminate|reflexivity].
  - rewrite Hlk. exact Hsame.
  - destruct (Hh t) as [o' H]; [rewrite Hp; reflexivity|congruence].
  - destruct (Hh t) as [o' H]; [rewrite Hp; reflexivity|congruence].
  - clear Hcall. exists (more ++ [RvReturn t (r_count (rs_routines y t)) o v]).
    split; [|split; [|split]]; cbn [rs_shared rs_locked rs_routines rs_events].
    + split; [exact Hlk|]. cbn [rs_routines]. intros t' H. at_routine t t'; [discriminate H|auto].
    + rewrite Hev, app_assoc. reflexivity.
    + intros t' k o' Hin. apply in_app_or in Hin as [Hin|[Hin|[]]]; [|discriminate Hin].
      apply Hc in Hin as [Hk [o2 Hp2]]. at_routine t t'; [congruence|eauto].
    + intros t' k o' r Hin. apply in_app_or in Hin as [Hin|[Hin|[]]].
      * apply Hr in Hin. at_routine t t'; [lia|exact Hin].
      * injection Hin as <- <- <- <-. rewrite set_same. cbn [r_count]. lia.
  - exact Hsame.
  - apply Hcall; [discriminate|reflexivity].
Qed.

Lemma jinv_run h ts : forall y more, jinv h y more -> exists more', jinv h (rrun ts y) more'.
Proof.
  induction ts as [|t ts IH]; intros y more H; cbn [rrun]; [eauto|].
  destruct (jinv_step _ _ _ t H) as [more' H']. eapply IH. exact H'.
Qed.

(** A panic, or a nested call, jams the lock. *)
Definition jam_event (e : revent R) : Prop :=
  match e with RvPanic _ _ _ | RvNested _ _ _ => True | _ => False end.

Definition jam_seen y : Prop := forall e, In e (rs_events y) -> jam_event e -> jammed y.

Lemma jammed_step y t : jammed y -> jammed (rstep t y).
Proof.
  intros H. destruct (jinv_step (rs_events y) y [] t) as [more' [Hj _]]; [|exact Hj].
  split; [exact H|]. split; [symmetry; apply app_nil_r|]. split; intros ? ? ? *; intros [].
Qed.

Lemma jam_step s0 y lin s1 ow t : rinv s0 y lin s1 ow -> jam_seen y -> jam_seen (rstep t y).
Proof.
  intros I J e Hin He.
  assert (Hor : In e (rs_events y) \/ jammed (rstep t y)).
  { unfold rstep in *. destruct (r_phase (rs_routines y t)) as [|o|o l|o v|o v|o|] eqn:Hp.
    - destruct (r_todo (rs_routines y t)); [auto|]. cbn in Hin. apply in_app_or in Hin as [Hin|[<-|[]]]; [auto|destruct He].
    - destruct (rs_locked y); auto.
    - destruct (ri_owner _ _ _ _ _ I t) as [Hlk Hown]; [rewrite Hp; reflexivity|].
      assert (Hoth : forall t', t' <> t -> holds_lock (r_phase (rs_routines y t')) = false).
      { intros t' Hne. destruct (holds_lock _) eqn:H; [|reflexivity]. apply (ri_owner _ _ _ _ _ I) in H as [_ H]. congruence. }
      destruct (g_next G l (rs_shared y)); cbn in Hin; auto;
        (right; split; [exact Hlk|]; cbn [rs_routines]; intros t' H; at_routine t t';
         [try discriminate H; eauto | rewrite Hoth in H by assumption; discriminate H]).
    - auto.
    - cbn in Hin. apply in_app_or in Hin as [Hin|[<-|[]]]; [auto|destruct He].
    - auto.
    - destruct (r_todo (rs_routines y t)); [auto|]. cbn in Hin. apply in_app_or in Hin as [Hin|[<-|[]]]; [auto|destruct He]. }
  destruct Hor as [Hin'|H]; [|exact H]. apply jammed_step. exact (J _ Hin' He).
Qed.

Lemma jam_run s0 ts : forall y lin s1 ow, rinv s0 y lin s1 ow -> jam_seen y -> jam_seen (rrun ts y).
Proof.
  induction ts as [|t ts IH]; intros y lin s1 ow I J; cbn [rrun]; [exact J|].
  destruct (rinv_step _ _ _ _ _ t I) as (lin' & s1' & ow' & I').
  eapply IH; [exact I'|]. eapply jam_step; eassumption.
Qed.

(** ** Progress when no method panics *)
Definition kinv y : Prop :=
  (rs_locked y = true -> exists t, holds_lock (r_phase (rs_routines y t)) = true) /\
  (forall t o, r_phase (rs_routines y t) <> Waiting o) /\
  (forall t k o, In (RvCall t k o) (rs_events y) ->
     (exists r, In (RvReturn t k o r) (rs_events y)) \/
     (r_count (rs_routines y t) = k /\ pending (r_phase (rs_routines y t)) = Some o)).

Lemma kinv_step s0 y lin s1 ow t :
  methods_return G -> rinv s0 y lin s1 ow -> kinv y -> kinv (rstep t y).
Proof.
  intros M I K. pose proof K as (Kl & Kw & Kc). unfold rstep.
  assert (Hcall : pending (r_phase (rs_routines y t)) = None -> kinv
      (match r_todo (rs_routines y t) with
       | [] => y
       | o :: os =>
           mkRSystem (rs_shared y) (rs_locked y)
             (set_routine (rs_routines y) t (mkRoutine os (r_count (rs_routines y t)) (Locking o)))
             (rs_events y ++ [RvCall t (r_count (rs_routines y t)) o])
       end)).
  { intros Hp. destruct (r_todo (rs_routines y t)) as [|o os]; [exact K|].
    split; [|split]; cbn [rs_shared rs_locked rs_routines rs_events].
    - intros H. destruct (Kl H) as [t' Ht']. exists t'. at_routine t t'; [|exact Ht'].
      destruct (r_phase (rs_routines y t)); discriminate.
    - intros t' o'. at_routine t t'; [discriminate|auto].
    - intros t' k o' Hin. apply in_app_or in Hin as [Hin|[Hin|[]]].
      + destruct (Kc _ _ _ Hin) as [[r H]|[Hk H]]; [left; exists r; apply in_or_app; auto|].
        right. at_routine t t'; [congruence|auto].
      + injection Hin as <- <- <-. right. rewrite set_same. auto. }
  assert (Hmove : forall p' sh lk, pending p' = pending (r_phase (rs_routines y t)) ->
    (forall o, p' <> Waiting o) ->
    (lk = true -> holds_lock p' = true) ->
    kinv (mkRSystem sh lk
      (set_routine (rs_routines y) t (mkRoutine (r_todo (rs_routines y t)) (r_count (rs_routines y t)) p')) (rs_events y))).
  { intros p' sh lk Hpe Hw Hl. split; [|split]; cbn [rs_shared rs_locked rs_routines rs_events].
    - intros H. exists t. rewrite set_same. auto.
    - intros t' o'. at_routine t t'; auto.
    - intros t' k o' Hin. destruct (Kc _ _ _ Hin) as [H|[Hk H]]; [auto|]. right. at_routine t t'; [split; congruence|auto]. }
  destruct (r_phase (rs_routines y t)) as [|o|o l|o v|o v|o|] eqn:Hp.
  - apply Hcall. reflexivity.
  - destruct (rs_locked y); [exact K|]. apply Hmove; easy.
  - pose proof (ri_inside _ _ _ _ _ I _ _ _ Hp) as Hpw. destruct (M o s1) as (r & s2 & Hb).
    apply (partway_rest _ _ _ _ Hpw) in Hb.
    inversion Hb as [l_ s_ r_ s_' Hn|l_ s_ l' s' r_ s_' Hn _]; subst; rewrite Hn; apply Hmove; easy.
  - apply Hmove; easy.
  - clear Hcall Hmove. split; [|split]; cbn [rs_shared rs_locked rs_routines rs_events].
    + intros H. destruct (Kl H) as [t' Ht']. exists t'. at_routine t t'; [|exact Ht'].
      rewrite Hp in Ht'. discriminate Ht'.
    + intros t' o'. at_routine t t'; [discriminate|auto].
    + intros t' k o' Hin. apply in_app_or in Hin as [Hin|[Hin|[]]]; [|discriminate Hin].
      destruct (Kc _ _ _ Hin) as [[r H]|[Hk H]]; [left; exists r; apply in_or_app; auto|].
      at_routine t t'; [|right; auto]. rewrite Hp in H. cbn [pending] in H. injection H as ->. subst k.
      left. exists v. apply in_or_app. right. left. reflexivity.
  - exfalso. exact (Kw _ _ Hp).
  - apply Hcall. reflexivity.
Qed.

Lemma kinv_run s0 ts : methods_return G -> forall y lin s1 ow, rinv s0 y lin s1 ow -> kinv y -> kinv (rrun ts y).
Proof.
  intros M. induction ts as [|t ts IH]; intros y lin s1 ow I K; cbn [rrun]; [exact K|].
  destruct (rinv_step _ _ _ _ _ t I) as (lin' & s1' & ow' & I').
  eapply IH; [exact I'|]. eapply kinv_step; eassumption.
Qed.

(** From inside the body, the goroutine alone gets to its return. *)
Lemma finish_body t : forall l s r s2, body l s r s2 -> forall y o,
  r_phase (rs_routines y t) = Inside o l -> rs_shared y = s ->
  exists n, let y' := rrun (repeat t n) y in
    r_phase (rs_routines y' t) = Returning o r /\ rs_locked y' = false /\
    r_count (rs_routines y' t) = r_count (rs_routines y t) /\
    (forall t', t' <> t -> rs_routines y' t' = rs_routines y t').
Proof.
  induction 1 as [l s r s2 Hn|l s l' s' r s2 Hn _ IH]; intros y o Hp Hs.
  - exists 2. cbn [repeat rrun].
    assert (H1 : rstep t y = mkRSystem s2 (rs_locked y)
      (set_routine (rs_routines y) t (mkRoutine (r_todo (rs_routines y t)) (r_count (rs_routines y t)) (Unlocking o r))) (rs_events y)).
    { unfold rstep. rewrite Hp, Hs, Hn. reflexivity. }
    rewrite H1. unfold rstep. cbn [rs_routines]. rewrite set_same. cbn [r_phase rs_routines rs_locked r_count].
    rewrite set_same. repeat split; try reflexivity. intros t' Hne. rewrite !set_other by assumption. reflexivity.
  - assert (H1 : rstep t y = mkRSystem s' (rs_locked y)
      (set_routine (rs_routines y) t (mkRoutine (r_todo (rs_routines y t)) (r_count (rs_routines y t)) (Inside o l'))) (rs_events y)).
    { unfold rstep. rewrite Hp, Hs, Hn. reflexivity. }
    destruct (IH (rstep t y) o) as (n & Hp' & Hl' & Hc' & Ho').
    { rewrite H1. cbn [rs_routines]. rewrite set_same. reflexivity. }
    { rewrite H1. reflexivity. }
    exists (Datatypes.S n). cbn [repeat rrun]. split; [exact Hp'|]. split; [exact Hl'|]. split.
    + rewrite Hc', H1. cbn [rs_routines]. rewrite set_same. reflexivity.
    + intros t' Hne. rewrite Ho' by exact Hne. rewrite H1. cbn [rs_routines]. apply set_other. exact Hne.
Qed.

Lemma return_step t y o r :
  r_phase (rs_routines y t) = Returning o r ->
  In (RvReturn t (r_count (rs_routines y t)) o r) (rs_events (rstep t y)).
Proof. intros Hp. unfold rstep. rewrite Hp. cbn [rs_events]. apply in_or_app. right. left. reflexivity. Qed.
End Rand.

(** ** C92 *)
Lemma C92_linearizable_proof :
  forall (G : generator) (s : g_state G) calls ts,
    let y := rrun ts (new_locked_rand s calls) in
    exists lin s', explains s (rs_events y) lin s' /\ (rs_locked y = false -> s' = rs_shared y).
Proof.
  intros G s calls ts y. destruct (rinv_reached s calls ts) as (lin & s1 & ow & I).
  exists lin, s1. split; [apply (ri_explains _ _ _ _ _ I)|apply (ri_free _ _ _ _ _ I)].
Qed.

Lemma C92_seed_decides_proof :
  forall (G : generator) (s : g_state G) calls calls' ts ts',
    let h := rs_events (rrun ts (new_locked_rand s calls)) in
    let h' := rs_events (rrun ts' (new_locked_rand s calls')) in
    exists lin lin' s1 s1', explains s h lin s1 /\ explains s h' lin' s1' /\
      forall more, map (fun c => snd (fst c)) lin' = map (fun c => snd (fst c)) lin ++ more ->
        exists rest, map snd lin' = map snd lin ++ rest.
Proof.
  intros G s calls calls' ts ts' h h'.
  destruct (rinv_reached s calls ts) as (lin & s1 & ow & I).
  destruct (rinv_reached s calls' ts') as (lin' & s1' & ow' & I').
  exists lin, lin', s1, s1'. split; [apply (ri_explains _ _ _ _ _ I)|]. split; [apply (ri_explains _ _ _ _ _ I')|].
  intros more Hm.
  destruct (ri_explains _ _ _ _ _ I) as [Hs _]. destruct (ri_explains _ _ _ _ _ I') as [Hs' _].
  destruct (sequential_det _ _ _ Hs _ _ more Hs') as [l3 Hl3].
  { rewrite !map_map. exact Hm. }
  exists (map snd l3). apply (f_equal (map snd)) in Hl3. rewrite map_app, !map_map in Hl3. exact Hl3.
Qed.

Lemma C92_call_can_return_proof :
  forall (G : generator) (s : g_state G) calls ts t k o,
    methods_return G ->
    In (RvCall t k o) (rs_events (rrun ts (new_locked_rand s calls))) ->
    exists ts' r, In (RvReturn t k o r) (rs_events (rrun (ts ++ ts') (new_locked_rand s calls))).
Proof.
  intros G s calls ts t k o M Hin.
  destruct (rinv_reached s calls ts) as (lin & s1 & ow & I).
  assert (K : kinv (rrun ts (new_locked_rand s calls))).
  { eapply kinv_run; [exact M|apply rinv_start|]. split; [discriminate|]. split; [discriminate|intros ? ? ? []]. }
  set (y := rrun ts (new_locked_rand s calls)) in *.
  destruct K as (Kl & Kw & Kc).
  destruct (Kc _ _ _ Hin) as [[r H]|[Hk Hpe]].
  { exists [], r. rewrite app_nil_r. exact H. }
  assert (Hgo : forall y' lin s1 ow, rinv s y' lin s1 ow -> r_count (rs_routines y' t) = k ->
    pending (r_phase (rs_routines y' t)) = Some o -> (forall o', r_phase (rs_routines y' t) <> Waiting o') ->
    rs_locked y' = false \/ holds_lock (r_phase (rs_routines y' t)) = true ->
    exists ts' r, In (RvReturn t k o r) (rs_events (rrun ts' y'))).
  { intros y' lin' s' ow' I' Hk' Hpe' Hw Hl.
    assert (Hin_body : forall y2 lin2 s2 ow2 l, rinv s y2 lin2 s2 ow2 -> r_phase (rs_routines y2 t) = Inside o l ->
      r_count (rs_routines y2 t) = k -> exists ts' r, In (RvReturn t k o r) (rs_events (rrun ts' y2))).
    { intros y2 lin2 s2 ow2 l I2 Hp Hk2. pose proof (ri_inside _ _ _ _ _ I2 _ _ _ Hp) as Hpw.
      destruct (M o s2) as (r & s3 & Hb). apply (partway_rest _ _ _ _ Hpw) in Hb.
      destruct (finish_body t _ _ _ _ Hb y2 o Hp eq_refl) as (n & Hp' & _ & Hc' & _).
      exists (repeat t n ++ [t]), r. rewrite rrun_app. cbn [rrun]. rewrite <- Hk2, <- Hc'. apply return_step. exact Hp'. }
    destruct (r_phase (rs_routines y' t)) as [|o'|o' l|o' v|o' v|o'|] eqn:Hp; cbn [pending] in Hpe'; try discriminate Hpe';
      injection Hpe' as ->.
    - destruct Hl as [Hl|Hl]; [|discriminate Hl].
      destruct (rinv_step _ _ _ _ _ t I') as (lin3 & s3 & ow3 & I3).
      assert (H1 : r_phase (rs_routines (rstep t y') t) = Inside o (g_enter G o) /\ r_count (rs_routines (rstep t y') t) = k).
      { unfold rstep. rewrite Hp, Hl. cbn [rs_routines]. rewrite set_same. auto. }
      destruct H1 as [H1 H2]. destruct (Hin_body _ _ _ _ _ I3 H1 H2) as (ts' & r & H).
      exists (t :: ts'), r. exact H.
    - eapply Hin_body; eassumption.
    - exists [t; t], v. cbn [rrun]. rewrite <- Hk'.
      replace (r_count (rs_routines y' t)) with (r_count (rs_routines (rstep t y') t))
        by (unfold rstep; rewrite Hp; cbn [rs_routines]; rewrite set_same; reflexivity).
      apply return_step. unfold rstep. rewrite Hp. cbn [rs_routines]. rewrite set_same. reflexivity.
    - exists [t], v. cbn [rrun]. rewrite <- Hk'. apply return_step. exact Hp.
    - exfalso. exact (Hw _ eq_refl). }
  destruct (rs_locked y) eqn:Hlk.
  2: { destruct (Hgo y lin s1 ow I Hk Hpe (Kw t) (or_introl Hlk)) as (ts' & r & H).
       exists ts', r. rewrite rrun_app. exact H. }
  destruct (Kl eq_refl) as [t' Ht'].
  destruct (Nat.eq_dec t t') as [->|Hne].
  { destruct (Hgo y lin s1 ow I Hk Hpe (Kw t') (or_intror Ht')) as (ts' & r & H).
    exists ts', r. rewrite rrun_app. exact H. }
  assert (Hfree : exists n, let y' := rrun (repeat t' n) y in rs_locked y' = false /\ rs_routines y' t = rs_routines y t).
  { destruct (r_phase (rs_routines y t')) as [|o'|o' l|o' v|o' v|o'|] eqn:Hp; try discriminate Ht'.
    - pose proof (ri_inside _ _ _ _ _ I _ _ _ Hp) as Hpw. destruct (M o' s1) as (r & s3 & Hb).
      apply (partway_rest _ _ _ _ Hpw) in Hb.
      destruct (finish_body t' _ _ _ _ Hb y o' Hp eq_refl) as (n & _ & Hl' & _ & Ho'). exists n. split; [exact Hl'|].
      apply Ho'. exact Hne.
    - exists 1. cbn [repeat rrun]. unfold rstep. rewrite Hp. cbn [rs_locked rs_routines]. split; [reflexivity|].
      apply set_other. exact Hne.
    - exfalso. exact (Kw _ _ Hp). }
  destruct Hfree as (n & Hl & Hsame).
  destruct (rinv_run s (repeat t' n) _ _ _ _ I) as (lin3 & s3 & ow3 & I3).
  destruct (Hgo _ _ _ _ I3) as (ts' & r & H).
  - rewrite Hsame. exact Hk.
  - rewrite Hsame. exact Hpe.
  - rewrite Hsame. apply Kw.
  - left. exact Hl.
  - exists (repeat t' n ++ ts'), r. rewrite !rrun_app. exact H.
Qed.

Lemma C92_after_panic_proof :
  forall (G : generator) (s : g_state G) calls ts ts' t k o,
    let h := rs_events (rrun ts (new_locked_rand s calls)) in
    In (RvPanic t k o) h \/ In (RvNested t k o) h ->
    exists later, rs_events (rrun (ts ++ ts') (new_locked_rand s calls)) = h ++ later /\
      forall t' k' o' r, In (RvCall t' k' o') later -> ~ In (RvReturn t' k' o' r) later.
Proof.
  intros G s calls ts ts' t k o h Hin.
  set (y := rrun ts (new_locked_rand s calls)) in *.
  assert (J : jammed y).
  { destruct Hin as [Hin|Hin];
      (refine (jam_run s ts _ _ _ _ (rinv_start s calls) _ _ Hin Logic.I); intros e []). }
  destruct (jinv_run (rs_events y) ts' y []) as [later (_ & He & Hc & Hr)].
  { split; [exact J|]. split; [symmetry; apply app_nil_r|]. split; intros ? ? ? *; intros []. }
  exists later. rewrite rrun_app. split; [exact He|].
  intros t' k' o' r H1 H2. apply Hc in H1 as [H1 _]. apply Hr in H2. lia.
Qed.

Lemma C92_calls_return_refuted_proof :
  forall (G : generator) (s : g_state G) (o : rop),
    range_checked G -> out_of_range o = true ->
    exists calls ts,
      calls 1 = [RInt63] /\
      In (RvPanic 0 0 o) (rs_events (rrun ts (new_locked_rand s calls))) /\
      forall ts' r, ~ In (RvReturn 1 0 RInt63 r) (rs_events (rrun (ts ++ ts') (new_locked_rand s calls))).
Proof.
  intros G s o HG Ho. destruct (HG o s Ho) as [s' Hs'].
  set (calls := fun t => match t with 0 => [o] | _ => [RInt63] end).
  assert (Hh : rs_events (rrun [0; 0; 0] (new_locked_rand s calls)) = [RvCall 0 0 o; RvPanic 0 0 o]).
  { unfold rrun, new_locked_rand, rstep, set_routine.
    cbn [r_phase rs_routines r_todo calls rs_locked Nat.eqb rs_shared r_count rs_events app].
    rewrite Hs'. reflexivity. }
  exists calls, [0; 0; 0]. split; [reflexivity|]. split; [rewrite Hh; right; left; reflexivity|].
  intros ts' r Hin.
  destruct (C92_after_panic_proof G s calls [0; 0; 0] ts' 0 0 o) as (later & He & Hno).
  { left. rewrite Hh. right. left. reflexivity. }
  destruct (C92_linearizable_proof G s calls ([0; 0; 0] ++ ts')) as (lin & s2 & (_ & Hret & Hcall & _) & _).
  pose proof (Hcall _ _ _ _ (Hret _ _ _ _ Hin)) as Hc.
  rewrite He, Hh in Hin, Hc.
  apply in_app_or in Hc as [[Hc|[Hc|[]]]|Hc]; try discriminate Hc.
  apply in_app_or in Hin as [[Hin|[Hin|[]]]|Hin]; try discriminate Hin.
  exact (Hno _ _ _ _ Hc Hin).
Qed.
