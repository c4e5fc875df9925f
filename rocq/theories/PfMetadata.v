(** * The metadata endpoint (proofs) *)

From Verif Require Export SpecMetadata.
From Coq Require Import Lia.

Section Proofs.
Context (sign : N -> string -> string).

Lemma put_nth l : forall i j p, nth_error (md_put l i p) j =
  if (Nat.eqb j i && Nat.ltb i (List.length l))%bool then Some p else nth_error l j.
Proof.
  unfold md_put. induction l as [|x l IH]; intros i j p.
  - destruct i; cbn; destruct j; cbn; rewrite ?Bool.andb_false_r; reflexivity.
  - destruct i; cbn.
    + destruct j; reflexivity.
    + destruct j; cbn; [reflexivity|]. rewrite IH. reflexivity.
Qed.
Lemma put_length l : forall i p, List.length (md_put l i p) = List.length l.
Proof.
  unfold md_put. induction l as [|x l IH]; intros [|i] p; cbn; auto.
Qed.

(** ** Whatever the schedule *)
Definition sound (s : md_state) : Prop :=
  (exists n, layers sign n (md_signed s)) /\
  forall i v, nth_error (md_requests s) i = Some (MdAssign v) -> exists n, layers sign n v.

Lemma sound_step s x e s' : sound s -> md_step sign s x = Some (e, s') ->
  sound s' /\ forall i v, e = MdSent i v -> exists n, layers sign n v.
Proof.
  intros [(n & H1) H2] Hx. unfold md_step in Hx. destruct x as [|i ok].
  - injection Hx as <- <-. split; [|discriminate]. split; [exists n; exact H1|]. cbn. intros i v Hi.
    destruct (Nat.lt_ge_cases i (List.length (md_requests s))) as [L|L].
    + rewrite nth_error_app1 in Hi by lia. eauto.
    + rewrite nth_error_app2 in Hi by lia. destruct (i - _)%nat as [|k]; cbn in Hi; [discriminate|destruct k; discriminate].
  - assert (Keep : forall p m, (forall v, p = MdAssign v -> exists n, layers sign n v) ->
      (exists n, layers sign n m) -> sound (mkMd m (md_put (md_requests s) i p))).
    { intros p m Hp Hm. split; [exact Hm|]. cbn. intros j v Hj. rewrite put_nth in Hj.
      destruct (_ && _)%bool; [injection Hj as ->; eauto|eauto]. }
    destruct (nth_error (md_requests s) i) as [[| |v| |]|] eqn:Hi; try discriminate.
    + injection Hx as <- <-. split; [|discriminate]. apply Keep; [discriminate|exists O; constructor].
    + destruct ok; injection Hx as <- <-; (split; [|discriminate]); apply Keep; eauto; try discriminate.
      intros v [= <-]. exists (S n). constructor. exact H1.
    + injection Hx as <- <-. split; [|discriminate]. apply Keep; [discriminate|eauto].
    + injection Hx as <- <-. split; [apply Keep; [discriminate|eauto]|]. intros j v [= _ <-]. eauto.
Qed.

Lemma sound_run xs : forall s, sound s -> forall i v, In (MdSent i v) (fst (md_run sign s xs)) -> exists n, layers sign n v.
Proof.
  induction xs as [|x xs IH]; intros s Hs i v Hin; [destruct Hin|]. cbn in Hin.
  destruct (md_step sign s x) as [[e s1]|] eqn:Hx; [|eauto].
  destruct (sound_step _ _ _ _ Hs Hx) as [H1 H2]. specialize (IH s1 H1 i v).
  destruct (md_run sign s1 xs) as [h s2]. cbn in *. destruct Hin as [->|Hin]; eauto.
Qed.

(** ** A request that nothing disturbs *)
Inductive md_trace : md_state -> list md_event -> md_state -> Prop :=
| md_nil s : md_trace s [] s
| md_cons s x e s1 h s2 : md_step sign s x = Some (e, s1) -> md_trace s1 h s2 -> md_trace s (e :: h) s2.

Lemma trace_run xs : forall s, md_trace s (fst (md_run sign s xs)) (snd (md_run sign s xs)).
Proof.
  induction xs as [|x xs IH]; intros s; cbn; [constructor|].
  destruct (md_step sign s x) as [[e s1]|] eqn:Hx; [|apply IH]. specialize (IH s1).
  destruct (md_run sign s1 xs). cbn in *. econstructor; eauto.
Qed.
Lemma trace_app h1 : forall s h2 s2, md_trace s (h1 ++ h2)%list s2 -> exists s1, md_trace s h1 s1 /\ md_trace s1 h2 s2.
Proof.
  induction h1 as [|e h1 IH]; intros s h2 s2 H; [exists s; split; [constructor|exact H]|].
  inversion H as [|? x ? s1 ? ? Hx Ht]; subst. apply IH in Ht as (s3 & A & B). exists s3. split; [econstructor; eauto|exact B].
Qed.

Lemma step_over s x e s' i : md_step sign s x = Some (e, s') -> nth_error (md_requests s) i = Some MdOver -> event_of e <> i.
Proof.
  intros Hx Hi E. unfold md_step in Hx. destruct x as [|j k].
  - injection Hx as <- <-. cbn in E. subst i.
    assert (nth_error (md_requests s) (List.length (md_requests s)) = None) by (apply nth_error_None; lia). congruence.
  - destruct (nth_error (md_requests s) j) as [[| |w| |]|] eqn:Hj; try discriminate; try destruct k;
      injection Hx as <- <-; cbn in E; subst j; congruence.
Qed.

(** What holds of the document at each point of the request. *)
Definition alone (s : md_state) (i : nat) : Prop :=
  match nth_error (md_requests s) i with
  | Some MdClear | Some MdOver => True
  | Some MdSign => md_signed s = ""%string
  | Some (MdAssign v) => exists k, v = sign k ""
  | Some MdSend => exists k, md_signed s = sign k ""
  | None => False
  end.

Lemma alone_trace s h s' : md_trace s h s' -> forall i, (forall e, In e h -> event_of e = i) -> alone s i ->
  forall v, In (MdSent i v) h -> exists k, v = sign k "".
Proof.
  induction 1 as [s|s x e s1 h s2 Hx Ht IH]; intros i He Ha v Hin; [destruct Hin|].
  assert (Hl : (i < List.length (md_requests s))%nat).
  { apply nth_error_Some. intros Q. unfold alone in Ha. rewrite Q in Ha. exact Ha. }
  pose proof (He e (or_introl eq_refl)) as E.
  assert (Go : alone s1 i -> In (MdSent i v) h -> exists k, v = sign k "").
  { intros A B. apply (IH i); auto. intros e' Hi'. apply He. right; exact Hi'. }
  unfold md_step in Hx. destruct x as [|j ok].
  - injection Hx as <- <-. cbn in E. lia.
  - destruct (nth_error (md_requests s) j) as [[| |w| |]|] eqn:Hj; try discriminate.
    all: try (destruct ok); injection Hx as <- <-; cbn in E; subst j.
    all: unfold alone in Ha; rewrite Hj in Ha.
    all: assert (P : forall p, nth_error (md_put (md_requests s) i p) i = Some p)
        by (intros p; rewrite put_nth, Nat.eqb_refl; apply Nat.ltb_lt in Hl; rewrite Hl; reflexivity).
    all: destruct Hin as [Hin|Hin]; [first [discriminate|injection Hin as <-; exact Ha]|].
    all: apply Go; [|exact Hin]; unfold alone; cbn; rewrite P; auto.
    + rewrite Ha. eauto.
Qed.

Lemma md_metadata_shape_all : forall xs i v, In (MdSent i v) (md_history sign xs) -> exists n, layers sign n v.
Proof.
  intros xs i v H. apply (sound_run xs (mkMd "" []) ltac:(split; [exists O; constructor|cbn; intros [|]; discriminate]) i v H).
Qed.

Lemma md_metadata_undisturbed_partial_all : forall xs i v,
  undisturbed (md_history sign xs) i -> In (MdSent i v) (md_history sign xs) -> exists k, v = sign k "".
Proof.
  intros xs i v (b & d & a & Hh & Hd & Ha) Hin. pose proof (trace_run xs (mkMd "" [])) as T.
  fold (md_history sign xs) in T. rewrite Hh in T, Hin. apply trace_app in T as (s1 & T1 & T2).
  inversion T2 as [|? x ? s2 ? ? Hx T3]; subst. apply trace_app in T3 as (s3 & T3 & _).
  assert (Hi : i = List.length (md_requests s1) /\ s2 = mkMd (md_signed s1) (md_requests s1 ++ [MdClear])%list).
  { unfold md_step in Hx. destruct x as [|j k]; [injection Hx as <- <-; auto|].
    destruct (nth_error (md_requests s1) j) as [[| |w| |]|]; try discriminate; try destruct k; discriminate. }
  destruct Hi as [Hi ->]. apply in_app_or in Hin as [Hin|[Hin|Hin]]; [exfalso|discriminate|apply in_app_or in Hin as [Hin|Hin]].
  - (* nothing of this request before it came *)
    clear - T1 Hi Hin. assert (G : forall s h s', md_trace s h s' -> (List.length (md_requests s) <= List.length (md_requests s'))%nat /\
      forall j w, In (MdSent j w) h -> (j < List.length (md_requests s'))%nat).
    { induction 1 as [s|s x e sa h sb Hx Ht [L IH]]; [split; [lia|intros j w []]|].
      assert (Q : (List.length (md_requests s) <= List.length (md_requests sa))%nat /\
                  forall j w, e = MdSent j w -> (j < List.length (md_requests sa))%nat).
      { unfold md_step in Hx. destruct x as [|j k].
        - injection Hx as <- <-. cbn. rewrite app_length. split; [lia|discriminate].
        - destruct (nth_error (md_requests s) j) as [[| |w| |]|] eqn:Hj; try discriminate; try destruct k;
            injection Hx as <- <-; cbn; rewrite put_length; (split; [lia|]); try discriminate.
          all: intros j' w' [= <- _]; apply nth_error_Some; congruence. }
      destruct Q as [Q1 Q2]. split; [lia|]. intros j w [->|Hin']; [specialize (Q2 j w eq_refl); lia|eauto]. }
    destruct (G _ _ _ T1) as [_ G2]. specialize (G2 i v Hin). lia.
  - eapply (alone_trace _ _ _ T3 i Hd); [|exact Hin]. unfold alone. cbn. subst i.
    rewrite nth_error_app2 by lia. rewrite Nat.sub_diag. cbn. exact I.
  - exfalso. exact (Ha _ Hin eq_refl).
Qed.

Lemma md_missing_refuted_all : exists xs i,
  (forall j, In (MdFailed j) (md_history sign xs) -> False) /\ In (MdSent i "") (md_history sign xs).
Proof.
  exists [MdNew; MdNew; MdGo 0 (Some 0%N); MdGo 0 (Some 0%N); MdGo 0 (Some 0%N); MdGo 1 (Some 0%N); MdGo 0 (Some 0%N)], O.
  cbn. split; [intros j H; repeat (destruct H as [H|H]; [discriminate|]); exact H|tauto].
Qed.

(** [n] requests that have all cleared the document before the first one signs. *)
Fixpoint tower (n : nat) : string := match n with O => ""%string | S n => sign 0 (tower n) end.

Lemma run_app a : forall s b, fst (md_run sign s (a ++ b)) =
  (fst (md_run sign s a) ++ fst (md_run sign (snd (md_run sign s a)) b))%list.
Proof.
  induction a as [|x a IH]; intros s b; [reflexivity|]. cbn. destruct (md_step sign s x) as [[e s1]|]; [|apply IH].
  specialize (IH s1 b). destruct (md_run sign s1 (a ++ b)), (md_run sign s1 a). cbn in *. rewrite IH. reflexivity.
Qed.
Lemma run_app_state a : forall s b, snd (md_run sign s (a ++ b)) = snd (md_run sign (snd (md_run sign s a)) b).
Proof.
  induction a as [|x a IH]; intros s b; [reflexivity|]. cbn. destruct (md_step sign s x) as [[e s1]|]; [|apply IH].
  specialize (IH s1 b). destruct (md_run sign s1 (a ++ b)), (md_run sign s1 a). cbn in *. exact IH.
Qed.

Definition clears (n : nat) : list md_sched := flat_map (fun i => [MdNew; MdGo i (Some 0%N)]) (seq 0 n).
Definition signs (n : nat) : list md_sched := flat_map (fun i => repeat (MdGo i (Some 0%N)) 3) (seq 0 n).

Lemma repeat_end {A} (x : A) n : repeat x (S n) = (repeat x n ++ [x])%list.
Proof. induction n; [reflexivity|]. cbn in *. f_equal. exact IHn. Qed.

Lemma put_at (l r : list md_point) p q : md_put (l ++ p :: r) (List.length l) q = (l ++ q :: r)%list.
Proof. unfold md_put. induction l as [|x l IH]; [reflexivity|]. cbn. f_equal. exact IH. Qed.
Lemma nth_at (l r : list md_point) p : nth_error (l ++ p :: r) (List.length l) = Some p.
Proof. induction l as [|x l IH]; [reflexivity|exact IH]. Qed.

Lemma clears_run n : snd (md_run sign (mkMd "" []) (clears n)) = mkMd "" (repeat MdSign n).
Proof.
  unfold clears. induction n as [|n IH]; [reflexivity|].
  rewrite seq_S, flat_map_app, run_app_state, IH. cbn [flat_map app Nat.add md_run md_step md_requests md_signed].
  rewrite (repeat_end MdSign n). set (R := repeat MdSign n) in *.
  assert (L : n = List.length R) by (unfold R; symmetry; apply repeat_length). rewrite L, nth_at, put_at. reflexivity.
Qed.

Lemma signs_run n : forall k, snd (md_run sign (mkMd "" (repeat MdSign (n + k))) (signs n)) =
  mkMd (tower n) (repeat MdOver n ++ repeat MdSign k).
Proof.
  unfold signs. induction n as [|n IH]; intros k; [reflexivity|].
  rewrite (repeat_end MdOver n), <- app_assoc.
  rewrite seq_S, flat_map_app, run_app_state. replace (S n + k)%nat with (n + S k)%nat by lia. rewrite IH.
  cbn [flat_map app Nat.add repeat].
  set (R := repeat MdOver n) in *. assert (L : n = List.length R) by (unfold R; symmetry; apply repeat_length).
  rewrite L. cbn [md_run md_step md_requests md_signed]. rewrite nth_at, put_at.
  cbn [md_run md_step md_requests md_signed]. rewrite nth_at, put_at.
  cbn [md_run md_step md_requests md_signed]. rewrite nth_at, put_at. cbn [snd].
  rewrite <- L. reflexivity.
Qed.

Lemma no_failures xs : (forall i, ~ In (MdGo i None) xs) -> forall s j, ~ In (MdFailed j) (fst (md_run sign s xs)).
Proof.
  induction xs as [|x xs IH]; intros Hx s j Hin; [exact Hin|]. cbn in Hin.
  assert (IH' := IH (fun i Hi => Hx i (or_intror Hi))).
  destruct (md_step sign s x) as [[e s1]|] eqn:E; [|exact (IH' _ _ Hin)].
  specialize (IH' s1 j). destruct (md_run sign s1 xs) as [h s2]. cbn in *. destruct Hin as [->|Hin]; [|auto].
  unfold md_step in E. destruct x as [|i k]; [discriminate|].
  destruct (nth_error (md_requests s) i) as [[| |w| |]|]; try discriminate.
  destruct k; [discriminate|]. exact (Hx i (or_introl eq_refl)).
Qed.

Lemma md_nested_refuted_all : forall n, exists xs i v,
  (forall j, In (MdFailed j) (md_history sign xs) -> False) /\
  In (MdSent i v) (md_history sign xs) /\ v = Nat.iter (S n) (sign 0) "".
Proof.
  intros n. exists (clears (S n) ++ signs n ++ repeat (MdGo n (Some 0%N)) 3)%list, n, (tower (S n)).
  unfold md_history. split; [|split].
  - apply no_failures. intros i Hi. apply in_app_or in Hi as [Hi|Hi]; [|apply in_app_or in Hi as [Hi|Hi]].
    + unfold clears in Hi. apply in_flat_map in Hi as (k & _ & Hk). cbn in Hk. intuition discriminate.
    + unfold signs in Hi. apply in_flat_map in Hi as (k & _ & Hk). cbn in Hk. intuition discriminate.
    + cbn in Hi. intuition discriminate.
  - rewrite run_app. apply in_or_app. right. rewrite clears_run. rewrite run_app. apply in_or_app. right.
    pose proof (signs_run n 1) as Q. replace (n + 1)%nat with (S n) in Q by lia. rewrite Q. clear Q.
    set (R := repeat MdOver n) in *. assert (L : n = List.length R) by (unfold R; symmetry; apply repeat_length).
    cbn [repeat]. rewrite L. cbn [md_run md_step md_requests md_signed]. rewrite nth_at, put_at.
    cbn [md_run md_step md_requests md_signed]. rewrite nth_at, put_at.
    cbn [md_run md_step md_requests md_signed]. rewrite nth_at, put_at. cbn [fst].
    right; right; left. cbn [tower]. rewrite <- L. reflexivity.
  - clear. induction n as [|n IH]; [reflexivity|]. cbn [tower] in *. rewrite IH. reflexivity.
Qed.
End Proofs.

Lemma C107_metadata_shape_proof : forall sign xs i v, In (MdSent i v) (md_history sign xs) -> exists n, layers sign n v.
Proof. exact md_metadata_shape_all. Qed.
Lemma C107_metadata_undisturbed_partial_proof : forall sign xs i v,
  undisturbed (md_history sign xs) i -> In (MdSent i v) (md_history sign xs) -> exists k, v = sign k ""%string.
Proof. exact md_metadata_undisturbed_partial_all. Qed.
Lemma C107_missing_refuted_proof : forall sign, exists xs i,
  (forall j, In (MdFailed j) (md_history sign xs) -> False) /\ In (MdSent i ""%string) (md_history sign xs).
Proof. exact md_missing_refuted_all. Qed.
Lemma C107_nested_refuted_proof : forall sign n, exists xs i v,
  (forall j, In (MdFailed j) (md_history sign xs) -> False) /\
  In (MdSent i v) (md_history sign xs) /\ v = Nat.iter (S n) (sign 0%N) ""%string.
Proof. exact md_nested_refuted_all. Qed.
