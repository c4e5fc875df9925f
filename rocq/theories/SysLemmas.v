(** * General facts about executions (proofs only) *)

From Verif Require Export System.

(** ** Programs *)

Lemma reach_app {A} (p q r : prog A) t1 t2 : reach p t1 q -> reach q t2 r -> reach p (t1 ++ t2) r.
Proof. induction 1; cbn; auto. intro. constructor; auto. Qed.

Lemma reach_split {A} (p r : prog A) t1 t2 :
  reach p (t1 ++ t2) r -> exists q, reach p t1 q /\ reach q t2 r.
Proof.
  revert p; induction t1 as [|[c a] t1 IH]; cbn; intros p H.
  - exists p; split; [constructor | exact H].
  - inversion H as [|? ? ? ? ? Hk]; subst. destruct (IH _ Hk) as (q & H1 & H2).
    exists q; split; [constructor|]; assumption.
Qed.

Lemma reach_ret_inv {A} (a : A) t q : reach (Ret a) t q -> t = [] /\ q = Ret a.
Proof. inversion 1; auto. Qed.
Lemma reach_panic_inv {A} t (q : prog A) : reach Panic t q -> t = [] /\ q = Panic.
Proof. inversion 1; auto. Qed.
Lemma reach_stuck_inv {A} t (q : prog A) : reach Stuck t q -> t = [] /\ q = Stuck.
Proof. inversion 1; auto. Qed.
Lemma reach_do_inv {A} c k t (q : prog A) :
  reach (Do c k) t q -> (t = [] /\ q = Do c k) \/ exists a t', t = (c, a) :: t' /\ reach (k a) t' q.
Proof. inversion 1; eauto. Qed.

Lemma reach_det {A} (p q1 q2 : prog A) t : reach p t q1 -> reach p t q2 -> q1 = q2.
Proof.
  intro H; revert q2; induction H; intros q2 H2; inversion H2; subst; auto.
Qed.

(** What is left of [bind p f]. *)
Lemma reach_bind {A B} (p : prog A) (f : A -> prog B) t q :
  reach (bind p f) t q ->
  (exists p', reach p t p' /\ q = bind p' f)
  \/ (exists a t1 t2, t = (t1 ++ t2)%list /\ reach p t1 (Ret a) /\ reach (f a) t2 q).
Proof.
  revert t; induction p as [a| | |c k IH]; cbn; intros t H.
  - right. exists a, [], t. repeat split; auto. constructor.
  - apply reach_panic_inv in H as [-> ->]. left. exists Panic. split; [constructor|reflexivity].
  - apply reach_stuck_inv in H as [-> ->]. left. exists Stuck. split; [constructor|reflexivity].
  - apply reach_do_inv in H as [[-> ->]|(a & t' & -> & H)].
    + left. exists (Do c k). split; [constructor|reflexivity].
    + destruct (IH _ _ H) as [(p' & H1 & ->)|(b & t1 & t2 & -> & H1 & H2)].
      * left. exists p'. split; [constructor; auto|reflexivity].
      * right. exists b, ((c, a) :: t1), t2. repeat split; auto. constructor; auto.
Qed.

Lemma reach_bind_ret {A B} (p : prog A) (f : A -> prog B) t b :
  reach (bind p f) t (Ret b) ->
  exists a t1 t2, t = (t1 ++ t2)%list /\ reach p t1 (Ret a) /\ reach (f a) t2 (Ret b).
Proof.
  intros H. destruct (reach_bind _ _ _ _ H) as [(p' & H1 & H2)|H1]; [|exact H1].
  destruct p'; try discriminate. cbn in H2.
  exists a, t, []. rewrite app_nil_r. repeat split; auto. rewrite <- H2. constructor.
Qed.

Lemma reach_bind_panic {A B} (p : prog A) (f : A -> prog B) t :
  reach (bind p f) t Panic ->
  reach p t Panic
  \/ exists a t1 t2, t = (t1 ++ t2)%list /\ reach p t1 (Ret a) /\ reach (f a) t2 Panic.
Proof.
  intros H. destruct (reach_bind _ _ _ _ H) as [(p' & H1 & H2)|H1]; [|right; exact H1].
  destruct p'; try discriminate.
  - right. exists a, t, []. rewrite app_nil_r. repeat split; auto. cbn in H2. rewrite H2. constructor.
  - left. exact H1.
Qed.

Lemma reach_pmap_ret {A B} (p : prog A) (f : A -> B) t b :
  reach (pmap f p) t (Ret b) -> exists a, b = f a /\ reach p t (Ret a).
Proof.
  intros H. apply reach_bind_ret in H as (a & t1 & t2 & -> & H1 & H2).
  apply reach_ret_inv in H2 as [-> E]. inversion E; subst. exists a. rewrite app_nil_r. auto.
Qed.

Lemma reach_pmap_panic {A B} (p : prog A) (f : A -> B) t :
  reach (pmap f p) t Panic -> reach p t Panic.
Proof.
  intros H. apply reach_bind_panic in H as [H|(a & t1 & t2 & -> & H1 & H2)]; auto.
  apply reach_ret_inv in H2 as [_ H2]. discriminate.
Qed.

(** ** A calculus for all executions of a program, finished or not

    [Pc tr c]: may the program, having made the calls [tr], make call [c]?
    [Pr tr a]: may it return [a]? *)
Fixpoint wp {A} (Pc : list (call * answer) -> call -> Prop)
    (Pr : list (call * answer) -> A -> Prop) (tr : list (call * answer)) (p : prog A) : Prop :=
  match p with
  | Ret a => Pr tr a
  | Panic | Stuck => True
  | Do c k => Pc tr c /\ forall a, wp Pc Pr (tr ++ [(c, a)])%list (k a)
  end.

Lemma wp_bind {A B} Pc Pr (Q : list (call * answer) -> A -> Prop) tr (p : prog A) (f : A -> prog B) :
  wp Pc Q tr p -> (forall tr a, Q tr a -> wp Pc Pr tr (f a)) -> wp Pc Pr tr (bind p f).
Proof.
  revert tr; induction p as [a| | |c k IH]; cbn; intros tr H Hf; auto.
  destruct H as [H1 H2]. split; auto.
Qed.

Lemma wp_reach {A} Pc Pr tr (p q : prog A) t :
  wp Pc Pr tr p -> reach p t q -> wp Pc Pr (tr ++ t)%list q.
Proof.
  intros H Hr; revert tr H; induction Hr; cbn; intros tr0 H.
  - rewrite app_nil_r. exact H.
  - destruct H as [_ H]. specialize (IHHr _ (H a)). rewrite <- app_assoc in IHHr. exact IHHr.
Qed.

Lemma wp_call {A} Pc Pr (p q : prog A) t1 c a t2 :
  wp Pc Pr [] p -> reach p (t1 ++ (c, a) :: t2)%list q -> Pc t1 c.
Proof.
  intros H Hr. apply reach_split in Hr as (r & H1 & H2).
  pose proof (wp_reach _ _ _ _ _ _ H H1) as Hw. cbn in Hw.
  inversion H2; subst. cbn in Hw. apply Hw.
Qed.

Lemma wp_ret {A} Pc Pr (p : prog A) t a :
  wp Pc Pr [] p -> reach p t (Ret a) -> Pr t a.
Proof. intros H Hr. exact (wp_reach _ _ _ _ _ _ H Hr). Qed.

(** ** Systems *)

Inductive trace (E : ext) : sys -> list event -> sys -> Prop :=
| tr_nil s : trace E s [] s
| tr_cons s x e s1 h s2 : sstep E s x = Some (e, s1) -> trace E s1 h s2 -> trace E s (e :: h) s2.

Lemma run_trace E s xs : trace E s (fst (run E s xs)) (snd (run E s xs)).
Proof.
  revert s; induction xs as [|x xs IH]; cbn; intros s; [constructor|].
  destruct (sstep E s x) as [[e s1]|] eqn:Hs; [|apply IH].
  specialize (IH s1). destruct (run E s1 xs) as [h s2]; cbn in *.
  econstructor; eauto.
Qed.

Lemma trace_history E w xs :
  exists s, trace E (start w) (history E w xs) s /\ s_world s = final E w xs.
Proof. eexists; split; [apply run_trace|reflexivity]. Qed.

Lemma trace_app E s h1 h2 s2 :
  trace E s (h1 ++ h2) s2 -> exists s1, trace E s h1 s1 /\ trace E s1 h2 s2.
Proof.
  revert s; induction h1 as [|e h1 IH]; cbn; intros s H; [exists s; split; [constructor|auto]|].
  inversion H as [|? ? ? ? ? ? ? Hk]; subst. destruct (IH _ Hk) as (s1' & Ha & Hb).
  exists s1'; split; auto. econstructor; eauto.
Qed.

(** The calls of request [i] in a history. *)
Fixpoint calls_of (i : nat) (h : list event) : list (call * answer) :=
  match h with
  | [] => []
  | EvCall j c a :: h => if Nat.eqb j i then (c, a) :: calls_of i h else calls_of i h
  | _ :: h => calls_of i h
  end.

Lemma calls_of_app i h1 h2 : calls_of i (h1 ++ h2) = (calls_of i h1 ++ calls_of i h2)%list.
Proof.
  induction h1 as [|e h1 IH]; cbn; auto.
  destruct e; auto. destruct (Nat.eqb i0 i); cbn; rewrite IH; auto.
Qed.

Lemma in_calls_of i h c a : In (c, a) (calls_of i h) <-> In (EvCall i c a) h.
Proof.
  induction h as [|e h IH]; cbn; [tauto|].
  destruct e; cbn; rewrite <- ?IH; try (split; [tauto|intros [X|X]; [discriminate|auto]]).
  destruct (Nat.eqb_spec i0 i); subst; cbn; rewrite <- ?IH.
  - split; intros [X|X]; auto; left; congruence.
  - split; auto. intros [X|X]; auto. congruence.
Qed.

Lemma calls_of_split i h t1 c a t2 :
  calls_of i h = (t1 ++ (c, a) :: t2)%list ->
  exists h1 h2, h = (h1 ++ EvCall i c a :: h2)%list /\ calls_of i h1 = t1 /\ calls_of i h2 = t2.
Proof.
  revert t1; induction h as [|e h IH]; cbn; intros t1 H.
  - destruct t1; discriminate.
  - assert (Hskip : calls_of i h = (t1 ++ (c, a) :: t2)%list -> calls_of i [e] = [] ->
      exists h1 h2, (e :: h)%list = (h1 ++ EvCall i c a :: h2)%list
        /\ calls_of i h1 = t1 /\ calls_of i h2 = t2).
    { intros H0 He. destruct (IH _ H0) as (h1 & h2 & -> & H1 & H2).
      exists (e :: h1), h2. repeat split; auto.
      change (e :: h1) with ([e] ++ h1)%list. rewrite calls_of_app, He. exact H1. }
    destruct e as [j r|j c' a'|j o|d]; auto.
    destruct (Nat.eqb j i) eqn:Hj; [|apply Hskip; auto; cbn; rewrite Hj; auto].
    apply Nat.eqb_eq in Hj; subst j.
    destruct t1 as [|x t1]; cbn in H; injection H as H0 H1.
    + inversion H0; subst. exists [], h. auto.
    + subst x. destruct (IH _ H1) as (h1 & h2 & -> & H2 & H3).
      exists (EvCall i c' a' :: h1), h2. cbn. rewrite Nat.eqb_refl, H2. auto.
Qed.

Lemma nth_set_nth_eq {A} (l : list A) i x y :
  nth_error l i = Some y -> nth_error (set_nth l i x) i = Some x.
Proof. revert i; induction l; destruct i; cbn; intros; try discriminate; auto. Qed.

Lemma nth_set_nth_neq {A} (l : list A) i j x :
  i <> j -> nth_error (set_nth l i x) j = nth_error l j.
Proof. revert i j; induction l; destruct i, j; cbn; intros; auto; congruence. Qed.

Lemma set_nth_length {A} (l : list A) i x : List.length (set_nth l i x) = List.length l.
Proof. revert i; induction l; destruct i; cbn; auto. Qed.

(** The state of a request that was there at the beginning of a trace. *)
Definition th_after (p : prog response) (t : list (call * answer)) (h : list event) (i : nat)
    (th : thread) : Prop :=
  match th with
  | Running q => reach p t q /\ forall o, ~ In (EvDone i o) h
  | Finished => exists o, In (EvDone i o) h /\ runs p t o
                /\ forall o', In (EvDone i o') h -> o' = o
  end.

Lemma step_length E s x e s1 : sstep E s x = Some (e, s1) ->
  (List.length (s_threads s) <= List.length (s_threads s1))%nat.
Proof.
  destruct x as [r|i o|d]; cbn; intros H.
  - inversion H; subst; cbn. rewrite app_length; cbn; lia.
  - destruct (nth_error _ i) as [[p|]|]; try discriminate.
    destruct p as [a| | |c k]; try discriminate.
    + inversion H; subst; cbn. rewrite set_nth_length; lia.
    + inversion H; subst; cbn. rewrite set_nth_length; lia.
    + destruct (exec E (s_world s) o c) as [a w']. inversion H; subst; cbn. rewrite set_nth_length; lia.
  - inversion H; subst; cbn; lia.
Qed.

Lemma trace_finished E s h s' i :
  trace E s h s' -> nth_error (s_threads s) i = Some Finished ->
  nth_error (s_threads s') i = Some Finished /\ calls_of i h = [] /\
  (forall o, ~ In (EvDone i o) h) /\ (forall r, ~ In (EvStart i r) h).
Proof.
  induction 1 as [s|s x e s1 h s2 Hs Ht IH]; intros Hi.
  - repeat split; auto.
  - assert (Hi1 : nth_error (s_threads s1) i = Some Finished /\ calls_of i [e] = []
        /\ (forall o, e <> EvDone i o) /\ (forall r, e <> EvStart i r)).
    { assert (Hlt : (i < List.length (s_threads s))%nat) by (apply nth_error_Some; congruence).
      destruct x as [r|j o|d]; cbn in Hs.
      - inversion Hs; subst; cbn. rewrite nth_error_app1 by lia.
        repeat split; auto; try discriminate. intros r' X; inversion X; lia.
      - destruct (Nat.eq_dec j i) as [->|Hn]; [rewrite Hi in Hs; discriminate|].
        destruct (nth_error _ j) as [[p|]|]; try discriminate.
        destruct p as [a| | |c k]; try discriminate.
        + inversion Hs; subst; cbn. rewrite nth_set_nth_neq by auto.
          repeat split; auto; try discriminate. intros o' X; inversion X; auto.
        + inversion Hs; subst; cbn. rewrite nth_set_nth_neq by auto.
          repeat split; auto; try discriminate. intros o' X; inversion X; auto.
        + destruct (exec E (s_world s) o c) as [a w']. inversion Hs; subst; cbn.
          rewrite nth_set_nth_neq by auto. apply Nat.eqb_neq in Hn. rewrite Hn.
          repeat split; auto; discriminate.
      - inversion Hs; subst; cbn. repeat split; auto; discriminate. }
    destruct Hi1 as (H1 & H2 & H3 & H4). destruct (IH H1) as (I1 & I2 & I3 & I4).
    repeat split; auto.
    + change (e :: h) with ([e] ++ h)%list. rewrite calls_of_app, H2, I2. reflexivity.
    + intros o [X|X]; [eapply H3; eauto|eapply I3; eauto].
    + intros o [X|X]; [eapply H4; eauto|eapply I4; eauto].
Qed.

Lemma trace_running E s h s' i p :
  trace E s h s' -> nth_error (s_threads s) i = Some (Running p) ->
  (exists th, nth_error (s_threads s') i = Some th /\ th_after p (calls_of i h) h i th)
  /\ (forall r, ~ In (EvStart i r) h).
Proof.
  intros Ht; revert p; induction Ht as [s|s x e s1 h s2 Hs Ht IH]; intros p Hi.
  - split; [|auto]. exists (Running p). split; auto. cbn. split; [constructor|auto].
  - assert (Hlt : (i < List.length (s_threads s))%nat) by (apply nth_error_Some; congruence).
    assert (Hother : nth_error (s_threads s1) i = Some (Running p) -> calls_of i [e] = [] ->
        (forall o, e <> EvDone i o) -> (forall r, e <> EvStart i r) ->
        (exists th, nth_error (s_threads s2) i = Some th
           /\ th_after p (calls_of i (e :: h)) (e :: h) i th) /\ forall r, ~ In (EvStart i r) (e :: h)).
    { intros H1 H2 H3 H4. destruct (IH _ H1) as ((th & I1 & I2) & I3).
      change (e :: h) with ([e] ++ h)%list. rewrite calls_of_app, H2. cbn [app].
      split.
      - exists th. split; auto. destruct th as [q|]; cbn in *.
        + destruct I2 as [I2 I4]. split; auto. intros o [X|X]; [eapply H3; eauto|eapply I4; eauto].
        + destruct I2 as (o & I4 & I5 & I6). exists o. repeat split; auto.
          intros o' [X|X]; [exfalso; eapply H3; eauto|auto].
      - intros r [X|X]; [eapply H4; eauto|eapply I3; eauto]. }
    destruct x as [r|j o|d]; cbn in Hs.
    + inversion Hs; subst. apply Hother; cbn; auto; try discriminate.
      * rewrite nth_error_app1 by lia. auto.
      * intros r' X; inversion X; lia.
    + destruct (Nat.eq_dec j i) as [->|Hn].
      * rewrite Hi in Hs. destruct p as [a| | |c k]; try discriminate.
        -- inversion Hs; subst.
           destruct (trace_finished _ _ _ _ i Ht) as (F1 & F2 & F3 & F4).
           { cbn. eapply nth_set_nth_eq; eauto. }
           split.
           ++ exists Finished. split; auto. cbn. exists (Done a). cbn. rewrite F2.
              repeat split; auto. { constructor. }
              intros o' [X|X]; [congruence|exfalso; eapply F3; eauto].
           ++ intros r [X|X]; [discriminate|eapply F4; eauto].
        -- inversion Hs; subst.
           destruct (trace_finished _ _ _ _ i Ht) as (F1 & F2 & F3 & F4).
           { cbn. eapply nth_set_nth_eq; eauto. }
           split.
           ++ exists Finished. split; auto. cbn. exists Crashed. cbn. rewrite F2.
              repeat split; auto. { constructor. }
              intros o' [X|X]; [congruence|exfalso; eapply F3; eauto].
           ++ intros r [X|X]; [discriminate|eapply F4; eauto].
        -- destruct (exec E (s_world s) o c) as [a w'] eqn:He. inversion Hs; subst.
           destruct (IH (k a)) as ((th & I1 & I2) & I3).
           { cbn. eapply nth_set_nth_eq; eauto. }
           cbn [calls_of]. rewrite Nat.eqb_refl. split.
           ++ exists th. split; auto. destruct th as [q|]; cbn in *.
              ** destruct I2 as [I2 I4]. split; [constructor; auto|].
                 intros o' [X|X]; [discriminate|eapply I4; eauto].
              ** destruct I2 as (o' & I4 & I5 & I6). exists o'. repeat split; auto.
                 { destruct o'; cbn in *; constructor; auto. }
                 intros o'' [X|X]; [discriminate|auto].
           ++ intros r [X|X]; [discriminate|eapply I3; eauto].
      * destruct (nth_error (s_threads s) j) as [[q|]|]; try discriminate.
        destruct q as [a| | |c k]; try discriminate.
        -- inversion Hs; subst. apply Hother; cbn; auto; try discriminate.
           { rewrite nth_set_nth_neq by auto; auto. } intros o' X; inversion X; auto.
        -- inversion Hs; subst. apply Hother; cbn; auto; try discriminate.
           { rewrite nth_set_nth_neq by auto; auto. } intros o' X; inversion X; auto.
        -- destruct (exec E (s_world s) o c) as [a w'] eqn:He. inversion Hs; subst.
           apply Hother; cbn; try discriminate.
           { rewrite nth_set_nth_neq by auto; auto. }
           apply Nat.eqb_neq in Hn. rewrite Hn. auto.
    + inversion Hs; subst. apply Hother; cbn; auto; discriminate.
Qed.

(** A request number that does not exist yet makes no call and does not end before
    it is started. *)
Lemma trace_absent E s h s' i :
  trace E s h s' -> (List.length (s_threads s) <= i)%nat ->
  ((List.length (s_threads s') <= i)%nat /\ calls_of i h = []
     /\ (forall o, ~ In (EvDone i o) h) /\ (forall r, ~ In (EvStart i r) h))
  \/ exists h1 r h2 s1, h = (h1 ++ EvStart i r :: h2)%list /\ calls_of i h1 = []
       /\ (forall o, ~ In (EvDone i o) h1) /\ (forall r, ~ In (EvStart i r) h1)
       /\ nth_error (s_threads s1) i = Some (Running (serve E r)) /\ trace E s1 h2 s'.
Proof.
  induction 1 as [s|s x e s1 h s2 Hs Ht IH]; intros Hi; [left; auto|].
  assert (Hstep : (exists r, e = EvStart i r /\ nth_error (s_threads s1) i = Some (Running (serve E r)))
     \/ ((List.length (s_threads s1) <= i)%nat /\ calls_of i [e] = []
         /\ (forall o, e <> EvDone i o) /\ (forall r, e <> EvStart i r))).
  { destruct x as [r|j o|d]; cbn in Hs.
    - inversion Hs; subst; cbn. rewrite app_length; cbn.
      destruct (Nat.eq_dec (List.length (s_threads s)) i) as [Heq|Hn].
      + left. exists r. subst i. split; auto. rewrite nth_error_app2, Nat.sub_diag by lia. auto.
      + right. repeat split; auto; try discriminate; try lia. intros r' X; inversion X; auto.
    - right. assert (Hj : j <> i).
      { intros ->. apply nth_error_None in Hi. rewrite Hi in Hs. discriminate. }
      destruct (nth_error (s_threads s) j) as [[q|]|]; try discriminate.
      destruct q as [a| | |c k]; try discriminate.
      + inversion Hs; subst; cbn. rewrite set_nth_length.
        repeat split; auto; try discriminate. intros o' X; inversion X; auto.
      + inversion Hs; subst; cbn. rewrite set_nth_length.
        repeat split; auto; try discriminate. intros o' X; inversion X; auto.
      + destruct (exec E (s_world s) o c) as [a w'] eqn:He. inversion Hs; subst; cbn.
        rewrite set_nth_length. apply Nat.eqb_neq in Hj. rewrite Hj.
        repeat split; auto; discriminate.
    - right. inversion Hs; subst; cbn. repeat split; auto; discriminate. }
  destruct Hstep as [(r & -> & H1)|(H1 & H2 & H3 & H4)].
  - right. exists [], r, h, s1. cbn. repeat split; auto.
  - destruct (IH H1) as [(I1 & I2 & I3 & I4)|(h1 & r & h2 & s1' & -> & I2 & I3 & I4 & I5 & I6)].
    + left. change (e :: h) with ([e] ++ h)%list. rewrite calls_of_app, H2, I2. repeat split; auto.
      * intros o [X|X]; [eapply H3; eauto|eapply I3; eauto].
      * intros o [X|X]; [eapply H4; eauto|eapply I4; eauto].
    + right. exists (e :: h1), r, h2, s1'. repeat split; auto.
      * change (e :: h1) with ([e] ++ h1)%list. rewrite calls_of_app, H2, I2. auto.
      * intros o [X|X]; [eapply H3; eauto|eapply I3; eauto].
      * intros o [X|X]; [eapply H4; eauto|eapply I4; eauto].
Qed.

(** The life of request [i] in a history. *)
Lemma life E w h s i r :
  trace E (start w) h s -> In (EvStart i r) h ->
  exists h1 h2, h = (h1 ++ EvStart i r :: h2)%list
    /\ calls_of i h1 = []
    /\ (forall o, ~ In (EvDone i o) h1)
    /\ (forall r', ~ In (EvStart i r') h1) /\ (forall r', ~ In (EvStart i r') h2)
    /\ (exists q, reach (serve E r) (calls_of i h2) q)
    /\ (forall o, In (EvDone i o) h2 -> runs (serve E r) (calls_of i h2) o)
    /\ (forall h3 h4 o, h2 = (h3 ++ h4)%list -> In (EvDone i o) h3 -> calls_of i h4 = []).
Proof.
  intros Ht Hin.
  destruct (trace_absent _ _ _ _ i Ht) as [(_ & _ & _ & H)|(h1 & r' & h2 & s1 & -> & H1 & H2 & H3 & H4 & H5)];
    [cbn; lia|exfalso; eapply H; eauto|].
  destruct (trace_running _ _ _ _ _ _ H5 H4) as ((th & T1 & T2) & T3).
  assert (r' = r).
  { apply in_app_or in Hin as [X|[X|X]]; [exfalso; eapply H3; eauto|congruence|exfalso; eapply T3; eauto]. }
  subst r'. exists h1, h2. repeat split; auto.
  - destruct th as [q|]; cbn in T2; [exists q; apply T2|].
    destruct T2 as (o & _ & T2 & _). destruct o; cbn in T2; eauto.
  - intros o Ho. destruct th as [q|]; cbn in T2; [exfalso; eapply T2; eauto|].
    destruct T2 as (o' & T4 & T5 & T6). rewrite (T6 _ Ho). exact T5.
  - intros h3 h4 o -> Ho. apply trace_app in H5 as (s2 & Ha & Hb).
    destruct (trace_running _ _ _ _ _ _ Ha H4) as ((th' & U1 & U2) & _).
    destruct th' as [q|]; cbn in U2; [exfalso; eapply U2; eauto|].
    apply (trace_finished _ _ _ _ i Hb U1).
Qed.

(** L1: a finished request ran its program. *)
Lemma done_runs E w h s i r o :
  trace E (start w) h s -> In (EvStart i r) h -> In (EvDone i o) h ->
  runs (serve E r) (calls_of i h) o.
Proof.
  intros Ht H1 H2. destruct (life _ _ _ _ _ _ Ht H1) as (h1 & h2 & -> & A & B & C & D & F & G & _).
  rewrite calls_of_app, A. cbn. apply G.
  apply in_app_or in H2 as [X|[X|X]]; auto; [exfalso; eapply B; eauto|discriminate].
Qed.

(** L4: a started request has run part of its program. *)
Lemma started_reach E w h s i r :
  trace E (start w) h s -> In (EvStart i r) h -> exists q, reach (serve E r) (calls_of i h) q.
Proof.
  intros Ht H1. destruct (life _ _ _ _ _ _ Ht H1) as (h1 & h2 & -> & A & B & C & D & F & _).
  rewrite calls_of_app, A. exact F.
Qed.

(** L5: every call belongs to a request started before it. *)
Lemma call_started E w h1 h2 s i c a :
  trace E (start w) (h1 ++ EvCall i c a :: h2)%list s ->
  exists r q, In (EvStart i r) h1 /\ reach (serve E r) (calls_of i (h1 ++ EvCall i c a :: h2)%list) q.
Proof.
  intros Ht.
  destruct (trace_absent _ _ _ _ i Ht) as [(_ & H & _)|(g1 & r & g2 & s1 & Heq & H1 & H2 & H3 & H4 & H5)]; [cbn; lia| |].
  - exfalso. assert (In (c, a) []) as []. rewrite <- H. apply in_calls_of. apply in_or_app. right; left; auto.
  - destruct (started_reach _ _ _ _ i r Ht) as [q Hq].
    { rewrite Heq. apply in_or_app. right; left; auto. }
    exists r, q. split; auto.
    assert (In (EvStart i r) (h1 ++ EvCall i c a :: h2)) as Hin
      by (rewrite Heq; apply in_or_app; right; left; auto).
    apply trace_app in Ht as (sm & Ha & Hb).
    destruct (trace_absent _ _ _ _ i Ha) as [(K1 & _)|(k1 & r' & k2 & s1' & -> & _)]; [cbn; lia| |].
    + exfalso. inversion Hb as [|? x ? ? ? ? H6 ?]; subst. destruct x as [?|j o|?]; cbn in H6; try discriminate.
      destruct (nth_error (s_threads sm) j) as [[p|]|] eqn:Hj; try discriminate.
      destruct p; try discriminate.
      destruct (exec E (s_world sm) o c0) as [a0 w0]. inversion H6; subst.
      assert (i < List.length (s_threads sm))%nat by (apply nth_error_Some; congruence). lia.
    + assert (r' = r) as ->; [|apply in_or_app; right; left; auto].
      (* both start events occur in the whole history, which has only one for [i] *)
      clear - Heq H3 H5 H4 E.
      assert (In (EvStart i r') (g1 ++ EvStart i r :: g2)) as Hin'.
      { rewrite <- Heq. apply in_or_app. left. apply in_or_app. right; left; auto. }
      apply in_app_or in Hin' as [X|[X|X]]; [exfalso; eapply H3; eauto|congruence|].
      exfalso. eapply (trace_running _ _ _ _ _ _ H5 H4); eauto.
Qed.

(** L2: a request started in the second part makes its calls there. *)
Lemma started_later E w h1 h2 s j r :
  trace E (start w) (h1 ++ h2)%list s -> In (EvStart j r) h2 -> calls_of j h1 = [].
Proof.
  intros Ht Hin. destruct (calls_of j h1) as [|[c a] t] eqn:Hc; auto. exfalso.
  assert (exists k1 k2, h1 = (k1 ++ EvCall j c a :: k2)%list) as (k1 & k2 & ->).
  { destruct (calls_of_split j h1 [] c a t Hc) as (k1 & k2 & H & _). eauto. }
  apply trace_app in Ht as (s1 & Ha & Hb).
  destruct (trace_absent _ _ _ _ j Ha) as [(_ & H & _)|(g1 & r' & g2 & s1' & Heq & H1 & H2 & H3 & H4 & H5)];
    [cbn; lia| |].
  - rewrite H in Hc. discriminate.
  - destruct (trace_running _ _ _ _ _ _ H5 H4) as ((th & T1 & T2) & _).
    destruct th.
    + eapply (trace_running _ _ _ _ _ _ Hb T1); eauto.
    + eapply (trace_finished _ _ _ _ _ Hb T1); eauto.
Qed.

(** L3: a request that ended in the first part makes no call in the second. *)
Lemma done_earlier E w h1 h2 s i o :
  trace E (start w) (h1 ++ h2)%list s -> In (EvDone i o) h1 -> calls_of i h2 = [].
Proof.
  intros Ht Hin. apply trace_app in Ht as (s1 & Ha & Hb).
  destruct (trace_absent _ _ _ _ i Ha) as [(_ & _ & H & _)|(g1 & r' & g2 & s1' & -> & H1 & H2 & H3 & H4 & H5)];
    [cbn; lia|exfalso; eapply H; eauto|].
  destruct (trace_running _ _ _ _ _ _ H5 H4) as ((th & T1 & T2) & _).
  destruct th; cbn in T2.
  - apply in_app_or in Hin as [X|[X|X]]; [exfalso; eapply H2; eauto|discriminate|].
    exfalso. eapply T2; eauto.
  - apply (trace_finished _ _ _ _ i Hb T1).
Qed.

(** Two start events of the same request are the same. *)
Lemma start_unique E w h s i r r' :
  trace E (start w) h s -> In (EvStart i r) h -> In (EvStart i r') h -> r = r'.
Proof.
  intros Ht H1 H2. destruct (life _ _ _ _ _ _ Ht H1) as (h1 & h2 & -> & A & B & C & D & _).
  apply in_app_or in H2 as [X|[X|X]]; [exfalso; eapply C; eauto|congruence|exfalso; eapply D; eauto].
Qed.

(** ** The storage along a history *)

Inductive wtrace (E : ext) : world -> list event -> world -> Prop :=
| wt_nil w : wtrace E w [] w
| wt_start w i r h w' : wtrace E w h w' -> wtrace E w (EvStart i r :: h) w'
| wt_done w i o h w' : wtrace E w h w' -> wtrace E w (EvDone i o :: h) w'
| wt_tick w d h w' : wtrace E (with_now w (w_now w + d)) h w' -> wtrace E w (EvTick d :: h) w'
| wt_call w i c a o w1 h w' : exec E w o c = (a, w1) -> wtrace E w1 h w' ->
    wtrace E w (EvCall i c a :: h) w'.

Lemma trace_wtrace E s h s' : trace E s h s' -> wtrace E (s_world s) h (s_world s').
Proof.
  induction 1 as [s|s x e s1 h s2 Hs Ht IH]; [constructor|].
  destruct x as [r|j o|d]; cbn in Hs.
  - inversion Hs; subst. constructor. exact IH.
  - destruct (nth_error (s_threads s) j) as [[q|]|]; try discriminate.
    destruct q as [a| | |c k]; try discriminate.
    + inversion Hs; subst. constructor. exact IH.
    + inversion Hs; subst. constructor. exact IH.
    + destruct (exec E (s_world s) o c) as [a w'] eqn:He. inversion Hs; subst.
      econstructor; eauto.
  - inversion Hs; subst. constructor. exact IH.
Qed.

Lemma wtrace_app E w h1 h2 w' :
  wtrace E w (h1 ++ h2)%list w' -> exists w1, wtrace E w h1 w1 /\ wtrace E w1 h2 w'.
Proof.
  revert w; induction h1 as [|e h1 IH]; cbn; intros w H; [eexists; split; [constructor|eauto]|].
  inversion H; subst;
    match goal with X : wtrace E _ (h1 ++ h2)%list _ |- _ => destruct (IH _ X) as (w1' & Ha & Hb) end;
    exists w1'; split; auto; econstructor; eauto.
Qed.

Lemma history_wtrace E w xs : wtrace E w (history E w xs) (final E w xs).
Proof.
  destruct (trace_history E w xs) as (s & Ht & <-). exact (trace_wtrace _ _ _ _ Ht).
Qed.

(** Induction from the end: an invariant of the storage relative to the past. *)
Lemma wtrace_join E w h1 w1 h2 w' : wtrace E w h1 w1 -> wtrace E w1 h2 w' -> wtrace E w (h1 ++ h2)%list w'.
Proof. induction 1; cbn; intros; auto; econstructor; eauto. Qed.

Lemma wtrace_ind_past E (w0 : world) (P : list event -> world -> Prop) :
  P [] w0 ->
  (forall h w e w1, P h w -> wtrace E w0 h w -> wtrace E w [e] w1 -> P (h ++ [e])%list w1) ->
  forall h w, wtrace E w0 h w -> P h w.
Proof.
  intros H0 Hstep h. induction h as [|e h IH] using rev_ind; intros w H.
  - inversion H; subst; auto.
  - apply wtrace_app in H as (w1 & Ha & Hb). eapply Hstep; eauto.
Qed.
