(** * Histories without storage failures (proofs only) *)

From Verif Require Export HistFacts.

Inductive ftrace (E : ext) : world -> list event -> world -> Prop :=
| ft_nil w : ftrace E w [] w
| ft_start w i r h w' : ftrace E w h w' -> ftrace E w (EvStart i r :: h) w'
| ft_done w i o h w' : ftrace E w h w' -> ftrace E w (EvDone i o :: h) w'
| ft_tick w d h w' : ftrace E (with_now w (w_now w + d)) h w' -> ftrace E w (EvTick d :: h) w'
| ft_call w i c a o w1 h w' : exec E w o c = (a, w1) -> o_fault o = FNone -> ftrace E w1 h w' ->
    ftrace E w (EvCall i c a :: h) w'.

Lemma ftrace_wtrace E w h w' : ftrace E w h w' -> wtrace E w h w'.
Proof. induction 1; econstructor; eauto. Qed.

Lemma ftrace_app E w h1 h2 w' :
  ftrace E w (h1 ++ h2)%list w' -> exists w1, ftrace E w h1 w1 /\ ftrace E w1 h2 w'.
Proof.
  revert w; induction h1 as [|e h1 IH]; cbn; intros w H; [eexists; split; [constructor|eauto]|].
  inversion H; subst;
    match goal with X : ftrace E _ (h1 ++ h2)%list _ |- _ => destruct (IH _ X) as (w1' & Ha & Hb) end;
    exists w1'; split; auto; econstructor; eauto.
Qed.

Lemma run_ftrace E s xs : no_faults xs -> ftrace E (s_world s) (fst (run E s xs)) (s_world (snd (run E s xs))).
Proof.
  revert s; induction xs as [|x xs IH]; cbn [run]; intros s Hn; [constructor|].
  inversion Hn as [|? ? Hx Hn']; subst.
  destruct (sstep E s x) as [[e s1]|] eqn:Hs; [|apply IH; auto].
  specialize (IH s1 Hn'). destruct (run E s1 xs) as [h s2]; cbn [fst snd] in *.
  destruct x as [r|j o|d]; cbn in Hs.
  - inversion Hs; subst. constructor. exact IH.
  - destruct (nth_error (s_threads s) j) as [[q|]|]; try discriminate.
    destruct q as [a| | |c k]; try discriminate.
    + inversion Hs; subst. constructor. exact IH.
    + inversion Hs; subst. constructor. exact IH.
    + destruct (exec E (s_world s) o c) as [a w'] eqn:He. inversion Hs; subst.
      econstructor; eauto.
  - inversion Hs; subst. constructor. exact IH.
Qed.

Lemma history_ftrace E w xs : no_faults xs -> ftrace E w (history E w xs) (final E w xs).
Proof. intros H. exact (run_ftrace E (start w) xs H). Qed.

Lemma ftrace_at E w h1 i c a h2 w' : ftrace E w (h1 ++ EvCall i c a :: h2)%list w' ->
  exists wm o w1, ftrace E w h1 wm /\ exec E wm o c = (a, w1) /\ o_fault o = FNone /\ ftrace E w1 h2 w'.
Proof.
  intros H. apply ftrace_app in H as (wm & A & B). inversion B; subst. eauto 8.
Qed.

(** What failure-free operations answer. *)
Section Reads.
Context (E : ext) (w : world) (o : orc) (w1 : world) (f : o_fault o = FNone).

Lemma full_sess i c r : exec E w o (CSessGet i c) = (ASess r, w1) ->
  w1 = w /\ r = match cache_get (w_now w) (w_sess w) (sess_key E i c) with Some s => SOk s | None => SNotFound end.
Proof using f. cbn. rewrite f. intros H. inversion H; subst. auto. Qed.
Lemma full_req i c r : exec E w o (CReqGet i c) = (AReq r, w1) ->
  w1 = w /\ r = match cache_get (w_now w) (w_req w) (req_key E i c) with Some s => SOk s | None => SNotFound end.
Proof using f. cbn. rewrite f. intros H. inversion H; subst. auto. Qed.
Lemma full_tok i v r : exec E w o (CTokGet i v) = (ATok r, w1) ->
  w1 = w /\ r = match w_tval w (tok_key E i v) with Some t => SOk t | None => SNotFound end.
Proof using f. cbn. rewrite f. intros H. inversion H; subst. auto. Qed.
Lemma full_write c a : exec E w o c = (a, w1) ->
  match a with
  | AUnit r => is_ok r = true \/ exists i id, c = CTokRevoke i id /\ w_tid w id = None /\ r = SNotFound
  | ANum r => is_ok r = true
  | _ => True
  end.
Proof using f.
  destruct c; cbn; rewrite ?f; cbn; intros H; inversion H; subst; auto.
  destruct (w_tid w id) eqn:Hid; inversion H; subst; [left; auto|].
  right. eauto.
Qed.
End Reads.
