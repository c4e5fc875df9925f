(** * All the ways a request can end (proofs only) *)

From Verif Require Export HistFacts NoFault.

(** The kind of answer each call gets. *)
Definition typed (c : call) (a : answer) : Prop :=
  match c, a with
  | CNow, ATime _ | CRand _, AStr _ => True
  | (CGenAT _ | CGenRT _ | CGenCode _ | CGenURI _ | CGenDev _ | CGenUser _), AGen _ => True
  | CClientGet _, AClient _ | CResGet _, ARes _ | CSessGet _ _, ASess _ | CReqGet _ _, AReq _ => True
  | (CDevGetDev _ _ | CDevGetUser _ _), ADev _ | CTokGet _ _, ATok _ | CProofExists _, ABool _ => True
  | (CSessReg _ _ _ | CReqReg _ _ _ | CDevReg _ _ _), ANum _ => True
  | (CSessDel _ _ | CReqDel _ _ | CDevVal _ _ _ | CDevDel _ _ | CTokCreate _ _ | CTokRevoke _ _ | CProofReg _), AUnit _ => True
  | _, _ => False
  end.

Lemma exec_typed E w o c : typed c (fst (exec E w o c)).
Proof.
  destruct c; cbn; auto;
  try (match goal with |- context[do_write ?f ?w ?w' ?v] => destruct (do_write f w w' v) end; cbn; auto; fail).
  destruct (w_tid w id).
  - match goal with |- context[do_write ?f ?w ?w' ?v] => destruct (do_write f w w' v) end; cbn; auto.
  - destruct (o_fault o); cbn; auto.
Qed.

(** Every way [p] can end satisfies [P], when all answers satisfy [good]. *)
Fixpoint ends {A} (good : call -> answer -> Prop) (P : outcome A -> Prop) (p : prog A) : Prop :=
  match p with
  | Ret a => P (Done a)
  | Panic => P Crashed
  | Stuck => False
  | Do c k => forall a, good c a -> ends good P (k a)
  end.

Lemma ends_reach {A} good P (p q : prog A) tr :
  ends good P p -> reach p tr q -> (forall c a, In (c, a) tr -> good c a) -> ends good P q.
Proof.
  intros He Hr. induction Hr as [|c k a tr q Hr IH]; auto. intros Hg. apply IH.
  - apply He. apply Hg. left; auto.
  - intros c' a' Hin. apply Hg. right; auto.
Qed.

Lemma ends_bind {A B} good (P : outcome B -> Prop) (p : prog A) (f : A -> prog B) :
  ends good (fun o => match o with Done a => ends good P (f a) | Crashed => P Crashed end) p ->
  ends good P (bind p f).
Proof. induction p as [a| | |c k IH]; cbn; auto. Qed.

Lemma ends_weaken {A} good (P Q : outcome A -> Prop) (p : prog A) :
  (forall o, P o -> Q o) -> ends good P p -> ends good Q p.
Proof. intros H. induction p as [a| | |c k IH]; cbn; auto. Qed.

Section Rules.
Context {A : Type} (good : call -> answer -> Prop) (P : outcome A -> Prop).
Hypothesis Hty : forall c a, good c a -> typed c a.

Ltac rule := let a := fresh "a" in let G := fresh in
  intros Hx a G; pose proof (Hty _ _ G) as T; destruct a; cbn in T; try destruct T; auto.
Lemma ends_now k : (forall t, ends good P (k t)) -> ends good P (now k).
Proof. rule. Qed.
Lemma ends_rand n k : (forall t, ends good P (k t)) -> ends good P (rand n k).
Proof. rule. Qed.
Lemma ends_gen c k : (forall a, typed c a -> exists r, a = AGen r) -> (forall t, ends good P (k t)) -> ends good P (gen c k).
Proof. intros Hc Hx a G. destruct (Hc a) as (r & ->); auto. Qed.
Lemma ends_client_get c k : (forall t, good (CClientGet c) (AClient t) -> ends good P (k t)) -> ends good P (client_get c k).
Proof. rule. Qed.
Lemma ends_res_get c k : (forall t, good (CResGet c) (ARes t) -> ends good P (k t)) -> ends good P (res_get c k).
Proof. rule. Qed.
Lemma ends_sess_get i c k : (forall t, good (CSessGet i c) (ASess t) -> ends good P (k t)) -> ends good P (sess_get i c k).
Proof. rule. Qed.
Lemma ends_req_get i c k : (forall t, good (CReqGet i c) (AReq t) -> ends good P (k t)) -> ends good P (req_get i c k).
Proof. rule. Qed.
Lemma ends_dev_get c k : (forall a, typed c a -> exists r, a = ADev r) ->
  (forall t, good c (ADev t) -> ends good P (k t)) -> ends good P (dev_get c k).
Proof. intros Hc Hx a G. destruct (Hc a) as (r & ->); auto. Qed.
Lemma ends_tok_get i c k : (forall t, good (CTokGet i c) (ATok t) -> ends good P (k t)) -> ends good P (tok_get i c k).
Proof. rule. Qed.
Lemma ends_proof_exists c k : (forall t, good (CProofExists c) (ABool t) -> ends good P (k t)) -> ends good P (proof_exists c k).
Proof. rule. Qed.
Lemma ends_reg c k : (forall a, typed c a -> exists r, a = ANum r) ->
  (forall t, ends good P (k t)) -> ends good P (reg c k).
Proof. intros Hc Hx a G. destruct (Hc a) as (r & ->); auto. Qed.
Lemma ends_write c k : (forall a, typed c a -> exists r, a = AUnit r) ->
  (forall t, ends good P (k t)) -> ends good P (write c k).
Proof. intros Hc Hx a G. destruct (Hc a) as (r & ->); auto. Qed.
End Rules.

Ltac kind := let a := fresh "a" in let T := fresh "T" in
  intros a T; destruct a; cbn in T; try destruct T; eauto.

(** One step of exploring a program. *)
Ltac estep Hty :=
  lazymatch goal with
  | |- ends _ _ (Ret _) => cbn [ends]
  | |- ends _ _ Panic => cbn [ends]
  | |- ends _ _ (bind _ _) => apply ends_bind
  | |- ends _ _ (pmap _ _) => apply ends_bind
  | |- ends _ _ (now _) => apply (ends_now _ _ Hty); intros ?
  | |- ends _ _ (rand _ _) => apply (ends_rand _ _ Hty); intros ?
  | |- ends _ _ (gen _ _) => apply (ends_gen _ _ Hty); [kind|intros ?]
  | |- ends _ _ (client_get _ _) => apply (ends_client_get _ _ Hty); intros ? ?
  | |- ends _ _ (res_get _ _) => apply (ends_res_get _ _ Hty); intros ? ?
  | |- ends _ _ (sess_get _ _ _) => apply (ends_sess_get _ _ Hty); intros ? ?
  | |- ends _ _ (req_get _ _ _) => apply (ends_req_get _ _ Hty); intros ? ?
  | |- ends _ _ (dev_get _ _) => apply (ends_dev_get _ _ Hty); [kind|intros ? ?]
  | |- ends _ _ (tok_get _ _ _) => apply (ends_tok_get _ _ Hty); intros ? ?
  | |- ends _ _ (proof_exists _ _) => apply (ends_proof_exists _ _ Hty); intros ? ?
  | |- ends _ _ (reg _ _) => apply (ends_reg _ _ Hty); [kind|intros ?]
  | |- ends _ _ (write _ _) => apply (ends_write _ _ Hty); [kind|intros ?]
  | |- ends _ _ (if ?b then _ else _) => destruct b eqn:?
  | |- ends _ _ (match ?x with _ => _ end) => destruct x eqn:?
  | |- ends _ _ (let _ := _ in _) => cbv zeta
  end.

(** All calls of a history are answered in kind. *)
Lemma history_typed E w xs i c a : In (EvCall i c a) (history E w xs) -> typed c a.
Proof.
  intros Hin. apply event_at in Hin as (h1 & h2 & wm & o & w1 & _ & _ & B & _).
  pose proof (exec_typed E wm o c) as T. rewrite B in T. exact T.
Qed.

(** From all ways to end, to what happens in a history. *)
Lemma ends_history E w xs i r o (P : outcome response -> Prop) (good : call -> answer -> Prop) :
  In (EvStart i r) (history E w xs) -> In (EvDone i o) (history E w xs) ->
  (forall c a, In (EvCall i c a) (history E w xs) -> good c a) ->
  ends good P (serve E r) -> P o.
Proof.
  intros H1 H2 Hg He. destruct (trace_history E w xs) as (s & Ht & _).
  pose proof (done_runs _ _ _ _ _ _ _ Ht H1 H2) as Hr.
  destruct o as [p|]; cbn in Hr; eapply ends_reach in Hr; eauto;
    try (intros c a Hin; apply Hg; apply in_calls_of; exact Hin); exact Hr.
Qed.
