(** * Proofs: every HTTP history is explained by a history of the services *)

From Verif Require Export Refine PfHttp6 PfStore2.
From Coq Require Import Lia.

(** ** Programs up to their continuations *)

Inductive peq {A} : prog A -> prog A -> Prop :=
| peq_ret a : peq (Ret a) (Ret a)
| peq_panic : peq Panic Panic
| peq_stuck : peq Stuck Stuck
| peq_do c k k' : (forall a, peq (k a) (k' a)) -> peq (Do c k) (Do c k').

Lemma peq_refl {A} (p : prog A) : peq p p.
Proof. induction p; constructor; auto. Qed.
Lemma peq_trans {A} (p q r : prog A) : peq p q -> peq q r -> peq p r.
Proof. intros H; revert r; induction H; intros r Hr; inversion Hr; subst; constructor; auto. Qed.
Lemma peq_sym {A} (p q : prog A) : peq p q -> peq q p.
Proof. induction 1; constructor; auto. Qed.
Lemma peq_do_inv {A} (p : prog A) c k : peq p (Do c k) -> exists k', p = Do c k' /\ forall a, peq (k' a) (k a).
Proof. inversion 1; subst; eauto. Qed.
Lemma peq_pmap {X A} (C : X -> response) (inv : response -> option X) (p : prog X) (f : X -> prog A) :
  (forall x, inv (C x) = Some x) ->
  peq (bind p f) (bind (pmap C p) (fun y => match inv y with Some x => f x | None => Stuck end)).
Proof.
  intros Hi. induction p as [x| | |c k IH]; cbn; try constructor; auto. rewrite Hi. apply peq_refl.
Qed.

(** ** Handlers are made of service requests *)

Section Glue.
Context (E : ext) (may : list item -> request -> Prop) (fin : list item -> outcome http_response -> Prop).

Inductive glued : list item -> prog http_response -> Prop :=
| gl_ret d a : fin d (Done a) -> glued d (Ret a)
| gl_panic d : fin d Crashed -> glued d Panic
| gl_stuck d : glued d Stuck
| gl_calm d c k : calm c = true -> (forall a, glued (d ++ [Saw c a])%list (k a)) -> glued d (Do c k)
| gl_stage d p x f : may d x -> peq p (bind (serve E x) f) ->
    (forall j y, glued (d ++ [Served j x y])%list (f y)) -> glued d p.

Lemma glued_peq d p p' : glued d p -> peq p' p -> glued d p'.
Proof.
  intros H; revert p'; induction H; intros p' Hp.
  - inversion Hp; subst. constructor; auto.
  - inversion Hp; subst. constructor; auto.
  - inversion Hp; subst. constructor; auto.
  - apply peq_do_inv in Hp as (k' & -> & Hk). constructor; auto.
  - econstructor; eauto. eapply peq_trans; eauto.
Qed.

Definition head_ok (d : list item) (p : prog http_response) : Prop :=
  match p with
  | Ret a => fin d (Done a)
  | Panic => fin d Crashed
  | Stuck => True
  | Do c k => calm c = true /\ forall a, glued (d ++ [Saw c a])%list (k a)
  end.
Lemma head_peq d p p' : head_ok d p -> peq p' p -> head_ok d p'.
Proof.
  intros H Hp. inversion Hp; subst; auto. destruct H as [H1 H2]. split; auto.
  intros a. eapply glued_peq; eauto.
Qed.

(** All service requests made for [i] are among the items. *)
Definition complete (own : list nat) (h : list event) (i : nat) (d : list item) : Prop :=
  forall j x, nth_error own j = Some i -> In (EvStart j x) h -> exists y, In (Served j x y) d.

(** An HTTP request between two steps: in the handler, or inside a service request. *)
Definition at_rest (own : list nat) (hh : list hevent) (h : list event) (sy : sys) (i : nat)
    (p : prog http_response) : Prop :=
  exists d, past own hh h i d /\
    ((head_ok d p /\ complete own h i d) \/
     exists j x q f, nth_error own j = Some i /\ In (EvStart j x) h /\
       nth_error (s_threads sy) j = Some (Running q) /\ (forall y, q <> Ret y) /\ peq p (bind q f) /\
       (forall j y, glued (d ++ [Served j x y])%list (f y)) /\ (forall y, complete own h i (d ++ [Served j x y]))).

Lemma at_rest_peq own hh h sy i p p' : at_rest own hh h sy i p -> peq p' p -> at_rest own hh h sy i p'.
Proof.
  intros (d & Hd & [[H Hc]|(j & x & q & f & H1 & H2 & H3 & H4 & H5 & H6 & H7)]) Hp; exists d; split; auto.
  - left. split; auto. eapply head_peq; eauto.
  - right. exists j, x, q, f. repeat split; auto. eapply peq_trans; eauto.
Qed.
End Glue.

Lemma nth_more {A} (l l' : list A) j x : nth_error l j = Some x -> nth_error (l ++ l')%list j = Some x.
Proof. intros H. rewrite nth_error_app1; auto. apply nth_error_Some. congruence. Qed.

Lemma past_more own own' hh hh' h h' i d : past own hh h i d ->
  past (own ++ own')%list (hh ++ hh')%list (h ++ h')%list i d.
Proof.
  intros H x Hx. specialize (H x Hx). destruct x.
  - destruct H as (A & B & C). repeat split; [apply nth_more; auto| |]; apply in_or_app; auto.
  - apply in_or_app; auto.
Qed.
Lemma past_snoc own hh h i d x : past own hh h i d ->
  match x with
  | Served j x y => nth_error own j = Some i /\ In (EvStart j x) h /\ In (EvDone j (Done y)) h
  | Saw c a => In (HvCall i c a) hh
  end -> past own hh h i (d ++ [x])%list.
Proof. intros H Hx y Hy. apply in_app_or in Hy as [Hy|[<-|[]]]; auto. apply H; auto. Qed.

(** Events of new service requests that start, or are answered at once. *)
Definition fresh (own : list nat) (i : nat) (e : event) : Prop :=
  match e with EvStart j _ | EvDone j (Done _) => nth_error own j = Some i | _ => False end.

(** Service requests of a history are numbered in order. *)
Definition bounded (own : list nat) (h : list event) : Prop :=
  forall j x, In (EvStart j x) h -> (j < List.length own)%nat.

Lemma complete_more own own' h h' i d : complete own h i d -> bounded own h ->
  (forall j x, In (EvStart j x) h' -> nth_error (own ++ own')%list j <> Some i) ->
  complete (own ++ own') (h ++ h') i d.
Proof.
  intros H Hb Hn j x Hj Hin. apply in_app_or in Hin as [Hin|Hin]; [|exfalso; eapply Hn; eauto].
  apply (H j x); auto. pose proof (Hb _ _ Hin). rewrite nth_error_app1 in Hj; auto.
Qed.

Section Advance.
Context (E : ext) (may : list item -> request -> Prop) (fin : list item -> outcome http_response -> Prop).
Notation gl := (glued E may fin).
Notation rest := (at_rest E may fin).
Hypothesis Hmay : forall d x, may d x -> unrepeated d x.

(** From the handler's text to the next call. *)
Lemma advance d p : gl d p -> forall sy own hh h i, past own hh h i d -> complete own h i d -> bounded own h ->
  List.length own = List.length (s_threads sy) ->
  exists ys seg sy' new, run E sy ys = (seg, sy') /\ no_faults ys /\ s_world sy' = s_world sy /\
    List.length (own ++ new)%list = List.length (s_threads sy') /\
    (forall j t, nth_error (s_threads sy) j = Some t -> nth_error (s_threads sy') j = Some t) /\
    Forall (fresh (own ++ new) i) seg /\
    (forall j x, In (EvStart j x) seg -> exists d', past (own ++ new) hh (h ++ seg) i d' /\ may d' x) /\
    rest (own ++ new)%list hh (h ++ seg)%list sy' i p /\
    (forall j x, In (EvStart j x) seg -> (List.length own <= j)%nat) /\
    (forall j x j' x', In (EvStart j x) seg -> In (EvStart j' x') (h ++ seg)%list ->
       nth_error (own ++ new)%list j' = Some i -> kind x = kind x' -> j = j').
Proof.
  induction 1 as [d a Hf|d Hf|d|d c k Hc Hk IH|d p x f Hm Hp Hg IH]; intros sy own hh h i Hd Hcm Hbd Hl.
  1-4: exists [], [], sy, []; rewrite !app_nil_r; cbn; repeat split; auto; try constructor; try (intros ? ? []; fail);
       try (intros ? ? ? ? []; fail);
       exists d; split; auto; left; cbn; auto.
  set (j := List.length (s_threads sy)).
  set (sy1 := mkSys (s_world sy) (s_threads sy ++ [Running (serve E x)])%list).
  assert (Hn1 : nth_error (s_threads sy1) j = Some (Running (serve E x))).
  { cbn. unfold j. rewrite nth_error_app2, Nat.sub_diag by lia. reflexivity. }
  assert (Hown : nth_error (own ++ [i])%list j = Some i).
  { unfold j. rewrite <- Hl, nth_error_app2, Nat.sub_diag by lia. reflexivity. }
  assert (Hold : forall j' x', In (EvStart j' x') h -> j' <> j).
  { intros j' x' Hin. apply Hbd in Hin. unfold j. lia. }
  assert (Hkd : forall new j' x', In (EvStart j' x') h -> nth_error ((own ++ [i]) ++ new)%list j' = Some i -> kind x <> kind x').
  { intros new j' x' Hin Hj' Hk. pose proof (Hbd _ _ Hin) as Hlt.
    rewrite <- app_assoc, nth_error_app1 in Hj' by auto. destruct (Hcm _ _ Hj' Hin) as (y & Hy).
    apply (Hmay _ _ Hm _ _ _ Hy). auto. }
  assert (Hcm1 : forall y tail, (forall j' x', ~ In (EvStart j' x') tail) ->
    complete (own ++ [i]) (h ++ EvStart j x :: tail) i (d ++ [Served j x y])).
  { intros y tail Ht j' x' Hj' Hin. apply in_app_or in Hin as [Hin|[Hin|Hin]].
    - pose proof (Hbd _ _ Hin) as Hlt. rewrite nth_error_app1 in Hj' by auto. destruct (Hcm _ _ Hj' Hin) as (y' & Hy').
      exists y'. apply in_or_app; auto.
    - injection Hin as <- <-. exists y. apply in_or_app; cbn; auto.
    - exfalso; eapply Ht; eauto. }
  match goal with |- ?G => assert (Hcase : (forall y, serve E x <> Ret y) -> G) end.
  { intros Hq. exists [SNew x], [EvStart j x], sy1, [i]. split; [reflexivity|]. split; [constructor; [exact I|constructor]|].
    split; [reflexivity|]. split; [cbn; rewrite !app_length; cbn; lia|].
    split; [intros j' t Ht; cbn; apply nth_more; auto|]. split; [constructor; [exact Hown|constructor]|].
    assert (Hd' : past (own ++ [i]) hh (h ++ [EvStart j x]) i d) by (rewrite <- (app_nil_r hh); apply past_more; auto).
    split; [|split; [|split]].
    - intros j' x' [X|[]]. inversion X; subst. exists d. split; auto.
    - exists d. split; [exact Hd'|]. right. exists j, x, (serve E x), f.
      repeat (split; [first [exact Hown|apply in_or_app; right; left; reflexivity|exact Hn1|exact Hq|exact Hp|exact Hg]|]).
      intros y. apply Hcm1. intros ? ? [].
    - intros j' x' [X|[]]. inversion X; subst. unfold j. lia.
    - intros j1 x1 j2 x2 [X|[]] Hin Hj2 Hk. inversion X; subst j1 x1.
      apply in_app_or in Hin as [Hin|[Hin|[]]]; [|inversion Hin; auto].
      exfalso. eapply (Hkd []); eauto. rewrite app_nil_r. exact Hj2. }
  destruct (serve E x) as [y| | |c k] eqn:Hs.
  - (* answered at once *)
    set (sy2 := mkSys (s_world sy) (set_nth (s_threads sy1) j Finished)).
    set (h2 := (h ++ [EvStart j x; EvDone j (Done y)])%list).
    assert (Hd2 : past (own ++ [i])%list (hh ++ []) h2 i (d ++ [Served j x y])%list).
    { apply past_snoc; [apply past_more; auto|]. repeat split; auto; unfold h2; apply in_or_app; right; cbn; auto. }
    rewrite app_nil_r in Hd2.
    assert (Hcm2 : complete (own ++ [i]) h2 i (d ++ [Served j x y])).
    { apply Hcm1. intros ? ? [X|[]]; discriminate. }
    assert (Hbd2 : bounded (own ++ [i]) h2).
    { intros j' x' Hin. rewrite app_length. cbn. apply in_app_or in Hin as [Hin|[Hin|[Hin|[]]]]; [apply Hbd in Hin; lia| |discriminate].
      inversion Hin; subst. unfold j. lia. }
    destruct (IH j y sy2 (own ++ [i])%list hh h2 i Hd2 Hcm2 Hbd2) as (ys & seg & sy' & new & R1 & R2 & R3 & R4 & R5 & R6 & R7 & R8 & R9 & R10).
    { cbn. rewrite set_nth_length, !app_length. cbn. lia. }
    assert (Hrun : run E sy (SNew x :: SStep j ok :: ys) = (EvStart j x :: EvDone j (Done y) :: seg, sy')).
    { cbn [run sstep]. change (List.length (s_threads sy)) with j. rewrite Hs. fold sy1.
      cbn [run sstep]. rewrite Hn1. cbn [s_world]. change (s_world sy1) with (s_world sy). fold sy2. rewrite R1. reflexivity. }
    exists (SNew x :: SStep j ok :: ys), (EvStart j x :: EvDone j (Done y) :: seg), sy', (i :: new).
    replace (own ++ i :: new)%list with ((own ++ [i]) ++ new)%list by (rewrite <- app_assoc; reflexivity).
    replace (h ++ EvStart j x :: EvDone j (Done y) :: seg)%list with (h2 ++ seg)%list
      by (unfold h2; rewrite <- app_assoc; reflexivity).
    assert (Hjn : nth_error ((own ++ [i]) ++ new)%list j = Some i) by (apply nth_more; auto).
    assert (Hjin : In (EvStart j x) (h2 ++ seg)%list).
    { apply in_or_app; left. apply in_or_app; right; left; auto. }
    split; [exact Hrun|]. split; [constructor; [exact I|constructor; [reflexivity|exact R2]]|].
    split; [exact R3|]. split; [exact R4|]. split; [|split; [|split; [|split; [|split]]]].
    + intros j' t Ht. apply R5. cbn [sy2 s_threads].
      assert (j' <> j) by (intros ->; apply (f_equal (fun o => match o with Some _ => true | None => false end)) in Ht;
        unfold j in Ht; rewrite (proj2 (nth_error_None (s_threads sy) _)) in Ht by lia; discriminate).
      rewrite nth_set_nth_neq by auto. cbn. apply nth_more; auto.
    + constructor; [exact Hjn|]. constructor; [exact Hjn|]. exact R6.
    + intros j' x' [X|[X|X]]; [|discriminate|eapply R7; eauto].
      inversion X; subst. exists d. split; [|exact Hm].
      rewrite <- app_assoc. rewrite <- (app_nil_r hh). unfold h2. rewrite <- app_assoc. apply past_more; auto.
    + eapply at_rest_peq; [exact R8|]. exact Hp.
    + intros j' x' [X|[X|X]]; [|discriminate|].
      * inversion X; subst. unfold j. lia.
      * apply R9 in X. rewrite app_length in X. cbn in X. lia.
    + intros j1 x1 j2 x2 [X|[X|X]] Hin Hj2 Hk; [|discriminate|eapply R10; eauto].
      inversion X; subst j1 x1. apply in_app_or in Hin as [Hin|Hin].
      * apply in_app_or in Hin as [Hin|[Hin|[Hin|[]]]]; [|inversion Hin; auto|discriminate].
        exfalso. eapply Hkd; eauto.
      * symmetry. eapply (R10 j2 x2 j x); eauto.
  - apply Hcase; discriminate.
  - apply Hcase; discriminate.
  - apply Hcase; discriminate.
Qed.
End Advance.

(** ** The simulation *)

Record sim (S : http_server) (own : list nat) (hh : list hevent) (h : list event) (hs : hsys) (sy : sys) : Prop := mkSim {
  sm_world : s_world sy = hs_world hs;
  sm_len : List.length own = List.length (s_threads sy);
  sm_thr : forall i p, nth_error (hs_threads hs) i = Some (Some p) ->
    exists e r, In (HvStart i e r) hh /\
      at_rest (sv_ext S) (may S e r) (ending S e r) own hh h sy i p;
  sm_calls : forall j c a, In (EvCall j c a) h -> (j < List.length own)%nat;
  sm_own : forall i e r, In (HvStart i e r) hh -> (i < List.length (hs_threads hs))%nat;
  sm_ex : explained S own hh h
}.

Lemma explained_bounded S own hh h : explained S own hh h -> bounded own h.
Proof.
  intros X j x Hin. destruct (ex_start _ _ _ _ X _ _ Hin) as (i & e & r & d & A & _). apply nth_error_Some. congruence.
Qed.

Lemma at_rest_keep E may fin own own' hh hh' h h' sy sy' i p :
  at_rest E may fin own hh h sy i p -> bounded own h ->
  (forall j x, In (EvStart j x) h' -> nth_error (own ++ own')%list j <> Some i) ->
  (forall j t, nth_error own j = Some i -> nth_error (s_threads sy) j = Some t -> nth_error (s_threads sy') j = Some t) ->
  at_rest E may fin (own ++ own')%list (hh ++ hh')%list (h ++ h')%list sy' i p.
Proof.
  intros (d & Hd & H) Hb Hn Hk. exists d. split; [apply past_more; auto|].
  destruct H as [[H Hc]|(j & x & q & f & H1 & H2 & H3 & H4 & H5 & H6 & H7)]; [left; split; auto; apply complete_more; auto|right].
  exists j, x, q, f. split; [apply nth_more; auto|]. split; [apply in_or_app; auto|]. split; [eauto|].
  repeat (split; auto). intros y. apply complete_more; auto.
Qed.

Lemma effects_app own h1 h2 : effects own (h1 ++ h2) = (effects own h1 ++ effects own h2)%list.
Proof. apply flat_map_app. Qed.
Lemma heffects_app h1 h2 : heffects (h1 ++ h2) = (heffects h1 ++ heffects h2)%list.
Proof. apply flat_map_app. Qed.
Lemma effects_more own own' h : (forall j c a, In (EvCall j c a) h -> (j < List.length own)%nat) ->
  effects (own ++ own') h = effects own h.
Proof.
  induction h as [|e h IH]; intros H; auto. cbn. unfold effects in IH. rewrite IH by (intros; eapply H; right; eauto).
  destruct e; auto. rewrite nth_error_app1; auto. eapply H; left; eauto.
Qed.
Lemma fresh_effects own i seg : Forall (fresh own i) seg -> effects own seg = [].
Proof. induction 1 as [|e seg He _ IH]; auto. cbn. unfold effects in IH. rewrite IH. destruct e; auto; destruct He. Qed.

Lemma explained_grow S own own' hh h : explained S own hh h ->
  (forall j c a, In (EvCall j c a) h -> (j < List.length own)%nat) -> explained S (own ++ own') hh h.
Proof.
  intros X Hc. pose proof (explained_bounded _ _ _ _ X) as Hb. destruct X as [H1 H0 H2 H3 H4].
  assert (P : forall i d, past own hh h i d -> past (own ++ own') hh h i d).
  { intros i d X. rewrite <- (app_nil_r hh), <- (app_nil_r h). apply past_more; auto. }
  constructor.
  - intros j x Hx. destruct (H1 _ _ Hx) as (i & e & r & d & A & B & C & D). exists i, e, r, d.
    split; [apply nth_more; auto|]. auto.
  - intros j x j' x' i Hj Hj' O O'. pose proof (Hb _ _ Hj). pose proof (Hb _ _ Hj').
    rewrite nth_error_app1 in O, O' by auto. eapply H0; eauto.
  - intros i a Ha. destruct (H2 _ _ Ha) as (e & r & d & A & B & C). exists e, r, d. auto.
  - intros i Hi. destruct (H3 _ Hi) as [(j & A & B)|(e & r & d & A & B & C)]; [left|right].
    + exists j. split; [apply nth_more|]; auto.
    + exists e, r, d. auto.
  - rewrite effects_more; auto.
Qed.

Lemma explained_snoc S own own' hh h e seg : explained S own hh h ->
  (forall j c a, In (EvCall j c a) h -> (j < List.length own)%nat) ->
  (forall j x, In (EvStart j x) seg -> exists i e0 r d, nth_error (own ++ own')%list j = Some i /\
     In (HvStart i e0 r) (hh ++ [e])%list /\ past (own ++ own') (hh ++ [e]) (h ++ seg) i d /\ stage S e0 r d x) ->
  (forall j x j' x' i, In (EvStart j x) seg -> In (EvStart j' x') (h ++ seg)%list ->
     nth_error (own ++ own')%list j = Some i -> nth_error (own ++ own')%list j' = Some i -> kind x = kind x' -> j = j') ->
  (forall i a, e = HvDone i (Done a) -> exists e0 r d, In (HvStart i e0 r) hh /\
     past own hh h i d /\ ending S e0 r d (Done a)) ->
  (forall i, e = HvDone i Crashed -> (exists j, nth_error own j = Some i /\ In (EvDone j Crashed) seg) \/
     exists e0 r d, In (HvStart i e0 r) hh /\ past own hh h i d /\ ending S e0 r d Crashed) ->
  heffects [e] = effects (own ++ own') seg ->
  explained S (own ++ own') (hh ++ [e]) (h ++ seg).
Proof.
  intros X Hc Hs Hon Hd Hcr He. pose proof (explained_bounded _ _ _ _ X) as Hb. destruct X as [H1 H0 H2 H3 H4].
  assert (P : forall i d, past own hh h i d -> past (own ++ own') (hh ++ [e]) (h ++ seg) i d) by (intros; apply past_more; auto).
  assert (L : forall x, In x hh -> In x (hh ++ [e])%list) by (intros; apply in_or_app; auto).
  constructor.
  - intros j x Hx. apply in_app_or in Hx as [Hx|Hx]; [|auto].
    destruct (H1 _ _ Hx) as (i & e0 & r & d & A & B & C & D). exists i, e0, r, d.
    split; [apply nth_more; auto|]. auto.
  - intros j x j' x' i Hj Hj' O O' Hk. pose proof Hj as K. pose proof Hj' as K'.
    apply in_app_or in K as [K|K]; [|eapply Hon; eauto].
    apply in_app_or in K' as [K'|K']; [|symmetry; eapply Hon; eauto].
    pose proof (Hb _ _ K). pose proof (Hb _ _ K'). rewrite nth_error_app1 in O, O' by auto. eapply H0; eauto.
  - intros i a Ha. rewrite in_snoc in Ha.
    assert (X : exists e0 r d, In (HvStart i e0 r) hh /\ past own hh h i d /\ ending S e0 r d (Done a)).
    { destruct Ha as [Ha|Ha]; [auto|]. apply Hd. auto. }
    destruct X as (e0 & r & d & A & B & C). exists e0, r, d. auto.
  - intros i Hi. rewrite in_snoc in Hi.
    assert (X : (exists j, nth_error own j = Some i /\ In (EvDone j Crashed) (h ++ seg)%list) \/
      exists e0 r d, In (HvStart i e0 r) hh /\ past own hh h i d /\ ending S e0 r d Crashed).
    { destruct Hi as [Hi|Hi].
      - destruct (H3 _ Hi) as [(j & A & B)|X]; [left; exists j; split; auto; apply in_or_app; auto|right; auto].
      - destruct (Hcr _ (eq_sym Hi)) as [(j & A & B)|X]; [left; exists j; split; auto; apply in_or_app; auto|right; auto]. }
    destruct X as [(j & A & B)|(e0 & r & d & A & B & C)]; [left|right].
    + exists j. split; [apply nth_more|]; auto.
    + exists e0, r, d. auto.
  - rewrite heffects_app, effects_app, H4, He. rewrite (effects_more own own' h); auto.
Qed.

Lemma explained_aligned S own hh h : explained S own hh h -> aligned own hh h.
Proof.
  intros [H1 _ _ _ H2]. split; [|exact H2]. intros j x Hj. destruct (H1 _ _ Hj) as (i & e & r & d & A & B & _). eauto.
Qed.

(** The effect of an HTTP event comes first in its service events. *)
Definition one_effect (own : list nat) (ev : hevent) (seg : list event) : Prop :=
  forall g1 g2, seg = (g1 ++ g2)%list -> g1 = [] \/ effects own g1 = heffects [ev].

Lemma fresh_one own i ev seg : Forall (fresh own i) seg -> heffects [ev] = [] -> one_effect own ev seg.
Proof.
  intros H He g1 g2 ->. right. rewrite He. apply Forall_app in H as [H _]. eapply fresh_effects; eauto.
Qed.
Lemma call_one own i ev e seg : Forall (fresh own i) seg -> effects own [e] = heffects [ev] -> one_effect own ev (e :: seg).
Proof.
  intros H He [|e' g1] g2 Hg; [auto|right]. injection Hg as <- ->.
  change (e :: g1)%list with ([e] ++ g1)%list. rewrite effects_app, He.
  apply Forall_app in H as [H _]. rewrite (fresh_effects _ _ _ H), app_nil_r. reflexivity.
Qed.

Lemma fresh_other own i seg : Forall (fresh own i) seg -> forall k, i <> k ->
  forall j x, In (EvStart j x) seg -> nth_error own j <> Some k.
Proof. intros H k Hk j x Hj. rewrite Forall_forall in H. apply H in Hj. cbn in Hj. congruence. Qed.

Section Step.
Context (S : http_server).
Notation E := (sv_ext S).
Hypothesis handlers : forall e r, glued E (may S e r) (ending S e r) [] (answer_http S e r).

Definition faultless (x : hsched) : Prop := match x with HStep _ o => o_fault o = FNone | _ => True end.

Lemma nth_lt {A} (l : list A) i x : nth_error l i = Some x -> (i < List.length l)%nat.
Proof. intros H. apply nth_error_Some. congruence. Qed.

Lemma calm_exec w o c a w' : calm c = true -> exec E w o c = (a, w') -> w' = w.
Proof. destruct c; try discriminate; cbn; intros _ H; inversion H; auto. Qed.

Ltac sown X := let k := fresh in let Hin := fresh in intros k ? ? Hin; cbn [hs_threads]; rewrite ?set_nth_length, ?app_length;
  apply in_app_or in Hin; destruct Hin as [Hin|[Hin|[]]]; [apply X in Hin; lia|first [discriminate Hin|inversion Hin; subst; cbn; lia]].

Lemma sim_step own hh h hs sy x ev hs' : sim S own hh h hs sy -> hstep S hs x = Some (ev, hs') ->
  exists ys seg sy' new, run E sy ys = (seg, sy') /\ (faultless x -> no_faults ys) /\
    one_effect (own ++ new) ev seg /\
    sim S (own ++ new) (hh ++ [ev]) (h ++ seg) hs' sy'.
Proof.
  intros [W L T C X Ex] Hx. pose proof (explained_bounded _ _ _ _ Ex) as Bd. destruct x as [e r|i o|dt]; cbn in Hx.
  - (* a new HTTP request *)
    injection Hx as <- <-. set (i := List.length (hs_threads hs)).
    destruct (advance E (may S e r) (ending S e r) (fun d x H => proj2 H) [] (answer_http S e r) (handlers e r) sy own
      (hh ++ [HvStart i e r])%list h i) as (ys & seg & sy' & new & R1 & R2 & R3 & R4 & R5 & R6 & R7 & R8 & R9 & R10); auto.
    { intros ? []. }
    { intros j x Hj Hin. destruct (ex_start _ _ _ _ Ex _ _ Hin) as (i' & e' & r' & d' & Y1 & Y2 & _). apply X in Y2.
      assert (i' = i) by congruence. unfold i in *. lia. }
    pose proof (fresh_other _ _ _ R6) as Ro.
    exists ys, seg, sy', new. split; [exact R1|]. split; [auto|]. split; [eapply fresh_one; eauto; cbn; rewrite ?Hc; reflexivity|]. constructor; auto.
    + cbn. congruence.
    + intros k p Hk. cbn in Hk. destruct (Nat.eq_dec k i) as [->|Hn].
      * unfold i in Hk. rewrite nth_error_app2, Nat.sub_diag in Hk by lia. injection Hk as <-.
        exists e, r. split; [apply in_or_app; cbn; auto|]. exact R8.
      * assert (Hlt : (k < List.length (hs_threads hs))%nat).
        { apply nth_lt in Hk. rewrite app_length in Hk; cbn in Hk. unfold i in Hn. lia. }
        rewrite nth_error_app1 in Hk by lia. destruct (T _ _ Hk) as (e' & r' & A & B).
        exists e', r'. split; [apply in_or_app; auto|]. eapply at_rest_keep; eauto.
    + intros j c a Hin. rewrite app_length. apply in_app_or in Hin as [Hin|Hin]; [apply C in Hin; lia|].
      rewrite Forall_forall in R6. apply R6 in Hin. destruct Hin.
    + sown X.
    + apply explained_snoc; auto; try discriminate.
      * intros j x' Hx. destruct (R7 _ _ Hx) as (d & A & B & B'). exists i, e, r, d. split; [|split; [apply in_or_app; cbn; auto|auto]].
        rewrite Forall_forall in R6. exact (R6 _ Hx).
      * intros j x' j' x'' k Hj Hj' O O' Hk. rewrite Forall_forall in R6. pose proof (R6 _ Hj) as O1. cbn in O1.
        assert (k = i) as -> by congruence. eapply R10; eauto.
      * rewrite (fresh_effects _ _ _ R6). reflexivity.
  - destruct (nth_error (hs_threads hs) i) as [[p|]|] eqn:Hi; try discriminate.
    destruct (T _ _ Hi) as (e & r & Hst & d & Hd & Hp). destruct p as [a| | |c k]; try discriminate.
    + (* the HTTP request is answered *)
      injection Hx as <- <-. exists [], [], sy, []. rewrite !app_nil_r. split; [reflexivity|]. split; [constructor|]. split; [intros [|] ? Hg; [auto|discriminate]|].
      assert (Hf : ending S e r d (Done a)).
      { destruct Hp as [[Hp _]|(j & x & q & f & _ & _ & _ & Hq & Hpe & _)]; [exact Hp|].
        destruct q; cbn in Hpe; inversion Hpe. exfalso; eapply Hq; eauto. }
      constructor; auto.
      * intros k p Hk. cbn in Hk. destruct (Nat.eq_dec i k) as [->|Hn].
        { rewrite (nth_set_nth_eq _ _ _ _ Hi) in Hk. discriminate. }
        rewrite nth_set_nth_neq in Hk by auto. destruct (T _ _ Hk) as (e' & r' & A & B).
        exists e', r'. split; [apply in_or_app; auto|]. rewrite <- (app_nil_r own), <- (app_nil_r h). eapply at_rest_keep; eauto.
      * sown X.
      * rewrite <- (app_nil_r own), <- (app_nil_r h). apply explained_snoc; auto; try discriminate.
        { intros ? ? []. } { intros ? ? ? ? ? []. } intros i0 a0 [= <- <-]. exists e, r, d. auto.
    + (* it crashes *)
      injection Hx as <- <-.
      assert (Hk : forall own' h' sy', (forall j x, ~ In (EvStart j x) h') -> (forall j t, nth_error own j <> Some i -> nth_error (s_threads sy) j = Some t ->
          nth_error (s_threads sy') j = Some t) ->
        forall k p, nth_error (set_nth (hs_threads hs) i None) k = Some (Some p) ->
        exists e r, In (HvStart k e r) (hh ++ [HvDone i Crashed]) /\
          at_rest E (may S e r) (ending S e r) (own ++ own') (hh ++ [HvDone i Crashed]) (h ++ h') sy' k p).
      { intros own' h' sy' Hns Hsy k p Hk. destruct (Nat.eq_dec i k) as [->|Hn].
        { rewrite (nth_set_nth_eq _ _ _ _ Hi) in Hk. discriminate. }
        rewrite nth_set_nth_neq in Hk by auto. destruct (T _ _ Hk) as (e' & r' & A & B).
        exists e', r'. split; [apply in_or_app; auto|]. eapply at_rest_keep; eauto.
        { intros j x Hj; exfalso; eapply Hns; eauto. } intros j t H1 H2. apply Hsy; auto. congruence. }
      destruct Hp as [[Hp _]|(j & x & q & f & Hj & Hin & Hq & Hnr & Hpe & _)].
      * exists [], [], sy, []. split; [reflexivity|]. split; [constructor|]. split; [intros [|] ? Hg; [auto|discriminate]|]. constructor; auto.
        -- rewrite app_nil_r; auto.
        -- intros j c a Hin. rewrite app_nil_r in *. eauto.
        -- sown X.
        -- apply explained_snoc; auto; try discriminate. { intros ? ? []. } { intros ? ? ? ? ? []. }
           intros i0 [= <-]. right. exists e, r, d. auto.
      * destruct q as [y| | |c k]; cbn in Hpe; inversion Hpe.
        { exfalso; eapply Hnr; eauto. }
        set (sy' := mkSys (s_world sy) (set_nth (s_threads sy) j Finished)).
        exists [SStep j ok], [EvDone j Crashed], sy', [].
        split; [cbn [run sstep]; rewrite Hq; reflexivity|]. split; [constructor; [reflexivity|constructor]|].
        split; [apply (call_one _ 0%nat); [constructor|reflexivity]|].
        constructor; auto.
        -- cbn. rewrite app_nil_r, set_nth_length. auto.
        -- apply Hk; [intros ? ? [?|[]]; discriminate|]. intros j' t Hj' Ht. cbn. rewrite nth_set_nth_neq; auto. intros ->; auto.
        -- intros j' c a H'. rewrite app_nil_r. apply in_app_or in H' as [H'|[H'|[]]]; [eauto|discriminate].
        -- sown X.
        -- apply explained_snoc; auto; try discriminate.
           ++ intros j' x' [H'|[]]; discriminate.
           ++ intros ? ? ? ? ? [H'|[]]; discriminate.
           ++ intros i0 [= <-]. left. exists j. split; auto. cbn; auto.
    + (* it makes a call *)
      destruct (exec E (hs_world hs) o c) as [a w'] eqn:He. injection Hx as <- <-.
      destruct Hp as [[[Hc Hk] Hcm]|(j & x & q & f & Hj & Hin & Hq & Hnr & Hpe & Hg & Hcm)].
      * (* in the handler *)
        pose proof (calm_exec _ _ _ _ _ Hc He) as ->.
        assert (Hd1 : past own (hh ++ [HvCall i c a]) h i (d ++ [Saw c a])).
        { apply past_snoc; [rewrite <- (app_nil_r own), <- (app_nil_r h); apply past_more; auto|]. apply in_or_app; cbn; auto. }
        assert (Hcm1 : complete own h i (d ++ [Saw c a])).
        { intros j x Hj Hin. destruct (Hcm _ _ Hj Hin) as (y & Hy). exists y. apply in_or_app; auto. }
        destruct (advance E (may S e r) (ending S e r) (fun d x H => proj2 H) _ _ (Hk a) sy own _ h i Hd1 Hcm1 Bd L)
          as (ys & seg & sy' & new & R1 & R2 & R3 & R4 & R5 & R6 & R7 & R8 & R9 & R10);
          pose proof (fresh_other _ _ _ R6) as Ro.
        exists ys, seg, sy', new. split; [exact R1|]. split; [auto|]. split; [eapply fresh_one; eauto; cbn; rewrite ?Hc; reflexivity|]. constructor; auto.
        -- cbn. congruence.
        -- intros k' p Hk'. cbn in Hk'. destruct (Nat.eq_dec i k') as [->|Hn].
           { rewrite (nth_set_nth_eq _ _ _ _ Hi) in Hk'. injection Hk' as <-.
             exists e, r. split; [apply in_or_app; auto|]. exact R8. }
           rewrite nth_set_nth_neq in Hk' by auto. destruct (T _ _ Hk') as (e' & r' & A & B).
           exists e', r'. split; [apply in_or_app; auto|]. eapply at_rest_keep; eauto.
        -- intros j' c' a' Hin. rewrite app_length. apply in_app_or in Hin as [Hin|Hin]; [apply C in Hin; lia|].
           rewrite Forall_forall in R6. apply R6 in Hin. destruct Hin.
        -- sown X.
        -- apply explained_snoc; auto; try discriminate.
           ++ intros j' x' Hx. destruct (R7 _ _ Hx) as (d' & A & B & B'). exists i, e, r, d'.
              split; [|split; [apply in_or_app; auto|auto]]. rewrite Forall_forall in R6. exact (R6 _ Hx).
           ++ intros j x' j' x'' k0 Hj Hj' O O' Hk0. rewrite Forall_forall in R6. pose proof (R6 _ Hj) as O1. cbn in O1.
              assert (k0 = i) as -> by congruence. eapply R10; eauto.
           ++ rewrite (fresh_effects _ _ _ R6). cbn. rewrite Hc. reflexivity.
      * (* in a service request *)
        destruct q as [y| | |c1 k1]; cbn in Hpe; inversion Hpe as [| | |c2 k2 k3 Hka]; subst.
        { exfalso; eapply Hnr; eauto. }
        set (sy1 := mkSys w' (set_nth (s_threads sy) j (Running (k1 a)))).
        set (hh1 := (hh ++ [HvCall i c1 a])%list).
        assert (Hs1 : sstep E sy (SStep j o) = Some (EvCall j c1 a, sy1)).
        { cbn. rewrite Hq, W, He. reflexivity. }
        assert (Hn1 : nth_error (s_threads sy1) j = Some (Running (k1 a))) by (cbn; eapply nth_set_nth_eq; eauto).
        assert (Hcall : heffects [HvCall i c1 a] = effects own [EvCall j c1 a]).
        { cbn. rewrite Hj. reflexivity. }
        assert (Hjl : (j < List.length own)%nat) by (eapply nth_lt; eauto).
        assert (Hcase : (exists y, k1 a = Ret y) \/ forall y, k1 a <> Ret y) by (destruct (k1 a); eauto; right; discriminate).
        destruct Hcase as [[y Hk1]|Hk1].
        -- (* its last one *)
           set (sy2 := mkSys w' (set_nth (s_threads sy1) j Finished)).
           set (h2 := (h ++ [EvCall j c1 a; EvDone j (Done y)])%list).
           assert (Hd2 : past own hh1 h2 i (d ++ [Served j x y])).
           { apply past_snoc; [rewrite <- (app_nil_r own); apply past_more; auto|].
             repeat split; auto; unfold h2; apply in_or_app; cbn; auto. }
           assert (L2 : List.length own = List.length (s_threads sy2)) by (cbn; rewrite !set_nth_length; auto).
           assert (Hcm2 : complete own h2 i (d ++ [Served j x y])).
           { rewrite <- (app_nil_r own). apply complete_more; auto. intros ? ? [?|[?|[]]]; discriminate. }
           assert (Bd2 : bounded own h2).
           { intros j' x' Hin'. apply in_app_or in Hin' as [Hin'|[Hin'|[Hin'|[]]]]; [eauto|discriminate|discriminate]. }
           destruct (advance E (may S e r) (ending S e r) (fun d x H => proj2 H) _ _ (Hg j y) sy2 own hh1 h2 i Hd2 Hcm2 Bd2 L2)
             as (ys & seg & sy' & new & R1 & R2 & R3 & R4 & R5 & R6 & R7 & R8 & R9 & R10);
          pose proof (fresh_other _ _ _ R6) as Ro.
           exists (SStep j o :: SStep j ok :: ys), (EvCall j c1 a :: EvDone j (Done y) :: seg), sy', new.
           replace (h ++ EvCall j c1 a :: EvDone j (Done y) :: seg)%list with (h2 ++ seg)%list
             by (unfold h2; rewrite <- app_assoc; reflexivity).
           split. { cbn [run]. rewrite Hs1. cbn [run sstep]. rewrite Hn1, Hk1. change (s_world sy1) with w'. fold sy2. rewrite R1. reflexivity. }
           split. { intros Ho. constructor; [exact Ho|]. constructor; [reflexivity|exact R2]. }
           split. { eapply call_one; [constructor; [cbn; apply nth_more; exact Hj|exact R6]|]. rewrite Hcall. cbn. rewrite nth_error_app1 by lia. reflexivity. }
           constructor; auto.
           ++ intros k' p Hk'. cbn in Hk'. destruct (Nat.eq_dec i k') as [->|Hn].
              { rewrite (nth_set_nth_eq _ _ _ _ Hi) in Hk'. injection Hk' as <-.
                exists e, r. split; [apply in_or_app; auto|]. eapply at_rest_peq; [exact R8|].
                specialize (Hka a). rewrite Hk1 in Hka. exact Hka. }
              rewrite nth_set_nth_neq in Hk' by auto. destruct (T _ _ Hk') as (e' & r' & A & B).
              exists e', r'. split; [apply in_or_app; auto|]. unfold h2. rewrite <- app_assoc. eapply at_rest_keep; eauto.
              { intros j' x' [Hx'|[Hx'|Hx']]; [discriminate|discriminate|]. eapply Ro; eauto. }
              intros j' t H1 H2. apply R5. assert (j <> j') by congruence. cbn. rewrite !nth_set_nth_neq by auto. exact H2.
           ++ intros j' c' a' Hin'. rewrite app_length. apply in_app_or in Hin' as [Hin'|Hin'].
              { unfold h2 in Hin'. apply in_app_or in Hin' as [Hin'|[Hin'|[Hin'|[]]]]; [apply C in Hin'; lia| |discriminate].
                inversion Hin'; subst. lia. }
              rewrite Forall_forall in R6. apply R6 in Hin'. destruct Hin'.
           ++ sown X.
           ++ unfold h2. rewrite <- app_assoc. apply explained_snoc; auto; try discriminate.
              ** intros j' x' Hx'. cbn in Hx'. destruct Hx' as [Hx'|[Hx'|Hx']]; try discriminate.
                 destruct (R7 _ _ Hx') as (d' & A & B & B'). exists i, e, r, d'.
                 split; [|split; [apply in_or_app; auto|]]. { rewrite Forall_forall in R6. exact (R6 _ Hx'). }
                 split; auto. unfold h2 in A. rewrite <- app_assoc in A. exact A.
              ** intros j1 x1 j2 x2 k0 Hj1 Hj2 O O' Hk0. cbn in Hj1. destruct Hj1 as [Hj1|[Hj1|Hj1]]; try discriminate.
                 rewrite Forall_forall in R6. pose proof (R6 _ Hj1) as O1. cbn in O1. assert (k0 = i) as -> by congruence.
                 eapply R10; eauto. unfold h2. rewrite <- app_assoc. exact Hj2.
              ** rewrite Hcall, effects_app. rewrite (fresh_effects _ _ _ R6), app_nil_r.
                 cbn. rewrite nth_error_app1 by lia. reflexivity.
        -- (* not its last one *)
           exists [SStep j o], [EvCall j c1 a], sy1, []. rewrite app_nil_r.
           split. { cbn [run]. rewrite Hs1. reflexivity. }
           split. { intros Ho. constructor; [exact Ho|constructor]. }
           split. { apply (call_one _ 0%nat); [constructor|]. rewrite Hcall. reflexivity. }
           constructor; auto.
           ++ cbn. rewrite set_nth_length. auto.
           ++ intros k' p Hk'. cbn in Hk'. destruct (Nat.eq_dec i k') as [->|Hn].
              { rewrite (nth_set_nth_eq _ _ _ _ Hi) in Hk'. injection Hk' as <-.
                exists e, r. split; [apply in_or_app; auto|]. exists d.
                split; [rewrite <- (app_nil_r own); apply past_more; auto|].
                right. exists j, x, (k1 a), f. split; auto. split; [apply in_or_app; auto|]. repeat (split; auto).
                intros y. rewrite <- (app_nil_r own). apply complete_more; auto. intros ? ? [?|[]]; discriminate. }
              rewrite nth_set_nth_neq in Hk' by auto. destruct (T _ _ Hk') as (e' & r' & A & B).
              exists e', r'. split; [apply in_or_app; auto|]. rewrite <- (app_nil_r own). eapply at_rest_keep; eauto.
              { intros ? ? [?|[]]; discriminate. }
              intros j' t H1 H2. assert (j <> j') by congruence. cbn. rewrite !nth_set_nth_neq by auto. exact H2.
           ++ intros j' c' a' Hin'. apply in_app_or in Hin' as [Hin'|[Hin'|[]]]; [eauto|].
              inversion Hin'; subst; auto.
           ++ sown X.
           ++ rewrite <- (app_nil_r own). apply explained_snoc; auto; try discriminate.
              ** intros j' x' [Hx'|[]]; discriminate.
              ** intros ? ? ? ? ? [Hx'|[]]; discriminate.
              ** rewrite app_nil_r. exact Hcall.
  - (* time passes *)
    injection Hx as <- <-. exists [STick dt], [EvTick dt], (mkSys (with_now (s_world sy) (w_now (s_world sy) + dt)%N) (s_threads sy)), [].
    split; [reflexivity|]. split; [constructor; [exact I|constructor]|].
    split; [apply (call_one _ 0%nat); [constructor|reflexivity]|]. constructor; auto.
    + cbn. congruence.
    + rewrite app_nil_r; auto.
    + intros k p Hk. cbn in Hk. destruct (T _ _ Hk) as (e' & r' & A & B).
      exists e', r'. split; [apply in_or_app; auto|]. eapply at_rest_keep; eauto. intros ? ? [?|[]]; discriminate.
    + intros j c a Hin. rewrite app_nil_r. apply in_app_or in Hin as [Hin|[Hin|[]]]; [eauto|discriminate].
    + sown X.
    + apply explained_snoc; auto; try discriminate.
      * intros j x [Hj|[]]; discriminate.
      * intros ? ? ? ? ? [Hj|[]]; discriminate.
Qed.

Lemma run_two s xs : forall ys, run E s (xs ++ ys) =
  ((fst (run E s xs) ++ fst (run E (snd (run E s xs)) ys))%list, snd (run E (snd (run E s xs)) ys)).
Proof.
  revert s; induction xs as [|x xs IH]; intros s ys; cbn.
  - destruct (run E s ys); reflexivity.
  - destruct (sstep E s x) as [[e s1]|]; [|apply IH]. rewrite IH.
    destruct (run E s1 xs) as [h s2]; cbn. reflexivity.
Qed.

Lemma sim_run xs : forall own hh h hs sy, sim S own hh h hs sy ->
  exists ys new, (hno_faults xs -> no_faults ys) /\
    s_world (snd (run E sy ys)) = hs_world (snd (hrun S hs xs)) /\
    explained S (own ++ new) (hh ++ fst (hrun S hs xs)) (h ++ fst (run E sy ys)) /\
    (forall hh1 hh2 hh3, fst (hrun S hs xs) = (hh1 ++ hh2 ++ hh3)%list ->
      exists h1 h2 h3, fst (run E sy ys) = (h1 ++ h2 ++ h3)%list /\
      explained S (own ++ new) (hh ++ hh1) (h ++ h1) /\ explained S (own ++ new) (hh ++ hh1 ++ hh2) (h ++ h1 ++ h2)) /\
    (forall h1 h2, fst (run E sy ys) = (h1 ++ h2)%list -> exists hh1 hh2, fst (hrun S hs xs) = (hh1 ++ hh2)%list /\
      aligned (own ++ new) (hh ++ hh1) (h ++ h1)).
Proof.
  induction xs as [|x xs IH]; intros own hh h hs sy H.
  - exists [], []. split; [constructor|]. split; [cbn; apply H|]. split; [cbn; rewrite !app_nil_r; apply H|]. split.
    + intros hh1 hh2 hh3 Hh. cbn in Hh. symmetry in Hh. apply app_eq_nil in Hh as [-> Hh]. apply app_eq_nil in Hh as [-> ->].
      exists [], [], []. split; [reflexivity|]. cbn [app]. rewrite !app_nil_r. split; apply H.
    + intros h1 h2 Hh. cbn in Hh. symmetry in Hh. apply app_eq_nil in Hh as [-> ->]. exists [], []. split; [reflexivity|].
      rewrite !app_nil_r. apply (explained_aligned S). apply H.
  - cbn [hrun]. destruct (hstep S hs x) as [[ev hs']|] eqn:Hx.
    + destruct (sim_step _ _ _ _ _ _ _ _ H Hx) as (ys1 & seg & sy' & new1 & R1 & R2 & R0 & R3).
      destruct (IH _ _ _ _ _ R3) as (ys2 & new2 & R4 & R5 & R8 & R6 & R7).
      exists (ys1 ++ ys2)%list, (new1 ++ new2)%list.
      rewrite run_two, R1. cbn [snd fst].
      destruct (run E sy' ys2) as [seg2 sy2] eqn:Hr2. cbn [snd fst] in *.
      destruct (hrun S hs' xs) as [hseg hs2]. cbn [snd fst] in *.
      split. { intros Hf. inversion Hf; subst. apply Forall_app. split; [apply R2|apply R4]; auto. }
      split; [exact R5|]. split; [rewrite <- !app_assoc in R8; exact R8|]. split.
      * assert (G : explained S (own ++ new1 ++ new2) (hh ++ []) (h ++ [])) by (rewrite !app_nil_r; apply explained_grow; apply H).
        intros hh1 hh2 hh3 Hh. destruct hh1 as [|ev' hh1]; [destruct hh2 as [|ev' hh2]|]; cbn in Hh.
        -- exists [], [], (seg ++ seg2)%list. split; [reflexivity|]. split; exact G.
        -- injection Hh as <- Hh. destruct (R6 [] hh2 hh3 Hh) as (h1 & h2 & h3 & A & _ & B).
           exists [], (seg ++ h1 ++ h2)%list, h3. split; [rewrite A, <- !app_assoc; reflexivity|]. split; [exact G|].
           rewrite <- !app_assoc in B. cbn [app] in B. cbn [app]. exact B.
        -- injection Hh as <- Hh. destruct (R6 _ _ _ Hh) as (h1 & h2 & h3 & A & B & C).
           exists (seg ++ h1)%list, h2, h3. split; [rewrite A, !app_assoc; reflexivity|].
           rewrite <- !app_assoc in B, C. split; [exact B|]. rewrite <- !app_assoc. exact C.
      * intros h1 h2 Hh. destruct (le_lt_dec (List.length seg) (List.length h1)) as [Hl|Hl].
        -- assert (exists l, h1 = (seg ++ l)%list /\ seg2 = (l ++ h2)%list) as (l & -> & Hl2).
           { revert h1 Hh Hl. clear. induction seg as [|e seg IHs]; intros h1 Hh Hl; [exists h1; auto|].
             destruct h1 as [|e' h1]; [cbn in Hl; lia|]. cbn in Hh. injection Hh as <- Hh.
             destruct (IHs h1 Hh) as (l & -> & Hl2); [cbn in Hl; lia|]. exists l; auto. }
           destruct (R7 _ _ Hl2) as (hh1 & hh2 & A & B). exists (ev :: hh1), hh2. split; [rewrite A; reflexivity|].
           rewrite <- !app_assoc in B. exact B.
        -- assert (exists l, seg = (h1 ++ l)%list) as (l & Hseg).
           { revert h1 Hh Hl. clear. induction seg as [|e seg IHs]; intros h1 Hh Hl; [cbn in Hl; lia|].
             destruct h1 as [|e' h1]; [exists (e :: seg); auto|]. cbn in Hh. injection Hh as <- Hh.
             destruct (IHs h1 Hh) as (l & ->); [cbn in Hl; lia|]. exists l; auto. }
           assert (B0 : aligned ((own ++ new1) ++ new2) hh h).
           { apply (explained_aligned S). apply explained_grow; [apply explained_grow; apply H|].
             intros j c a Hj. apply (sm_calls _ _ _ _ _ _ H) in Hj. rewrite app_length. lia. }
           assert (X3 : explained S ((own ++ new1) ++ new2) (hh ++ [ev]) (h ++ seg)) by (apply explained_grow; apply R3).
           destruct (R0 _ _ Hseg) as [->|He].
           ++ exists [], (ev :: hseg). split; [reflexivity|]. rewrite !app_nil_r, app_assoc. exact B0.
           ++ exists [ev], hseg. split; [reflexivity|]. rewrite app_assoc. destruct B0 as [B1 B2]. split.
              ** intros j x' Hj. destruct (ex_start _ _ _ _ X3 j x') as (i & e & r & d & Y1 & Y2 & _).
                 { subst seg. rewrite app_assoc. apply in_or_app; left; exact Hj. }
                 exists i, e, r. auto.
              ** rewrite heffects_app, effects_app, B2. f_equal. rewrite <- He.
                 symmetry. apply effects_more. intros j c a Hj. apply (sm_calls _ _ _ _ _ _ R3) with (c := c) (a := a).
                 subst seg. rewrite app_assoc. apply in_or_app; left. apply in_or_app; right; exact Hj.
    + destruct (IH _ _ _ _ _ H) as (ys & new & R1 & R2 & R3). exists ys, new. split; [|auto].
      intros Hf. inversion Hf; auto.
Qed.

Theorem refines w xs : exists ys own, refined S w xs ys own.
Proof.
  assert (H : sim S [] [] [] (mkHsys w []) (start w)).
  { constructor; auto.
    - intros [|i] p Hp; discriminate Hp.
    - intros ? ? ? [].
    - intros ? ? ? [].
    - constructor; try (intros; contradiction). reflexivity. }
  destruct (sim_run xs _ _ _ _ _ H) as (ys & new & R1 & R2 & R3 & R4 & R5). exists ys, new.
  constructor; assumption.
Qed.
End Step.

Lemma rf_prefix S w xs ys own : refined S w xs ys own -> forall hh1 hh2, http_history S w xs = (hh1 ++ hh2)%list ->
  exists h1 h2, history (sv_ext S) w ys = (h1 ++ h2)%list /\ explained S own hh1 h1.
Proof.
  intros R hh1 hh2 Hh. destruct (rf_points _ _ _ _ _ R hh1 hh2 []) as (h1 & h2 & h3 & A & B & _).
  { rewrite app_nil_r. exact Hh. }
  exists h1, (h2 ++ h3)%list. auto.
Qed.
