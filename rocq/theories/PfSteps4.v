(** * The token store used by one goroutine at a time: proofs *)

From Verif Require Export PfSteps3 PfStore3.

Lemma in_turn_ext q1 q2 l : (forall k, q1 k = q2 k) -> in_turn q1 l -> in_turn q2 l.
Proof.
  intros Hq T. revert q2 Hq.
  induction T; intros q2 Hq; constructor; try (rewrite <- Hq; assumption); apply IHT; intros k; unfold set_thread; destruct (Nat.eqb k th); auto.
Qed.

Section Alone.
Context (E : ext).

(** The steps that remain of a call, when nobody else takes any. *)
Inductive runs : tstore -> pc -> tstore -> sresult -> Prop :=
| runs_return s r : runs s (PcReturn r) s r
| runs_step s p s1 p1 s' r : pc_step E s p = Some (s1, p1) -> runs s1 p1 s' r -> runs s p s' r.

Lemma alone s w c : rel s w ->
  exists s', runs s (entry E c) s' (fst (at_once E w c)) /\ rel s' (snd (at_once E w c)).
Proof.
  intros R. pose proof R as [R1 R2 R3 R4]. destruct c as [i t|i id|i v|i id|i id]; cbn [entry].
  - pose proof (rel_step E s w (TCreate i t) R) as K. cbn [ts_do w_do snd] in K. eexists. split; [|exact K].
    eapply runs_step; [reflexivity|]. eapply runs_step; [|apply runs_return].
    cbn [pc_step ts_heap]. rewrite nth_last. reflexivity.
  - exists s. split; [|exact R]. cbn [at_once fst]. eapply runs_step; [reflexivity|]. rewrite R3. unfold resolve.
    destruct (ts_id s id) as [a|] eqn:Ha; [|apply runs_return]. destruct (R1 _ _ Ha) as (t & A & _).
    eapply runs_step; [cbn [pc_step]; rewrite A; reflexivity|]. rewrite A. apply runs_return.
  - exists s. split; [|exact R]. cbn [at_once fst]. eapply runs_step; [reflexivity|]. cbn. rewrite R4. unfold resolve.
    destruct (ts_val s (tok_key E i v)) as [a|] eqn:Ha; [|apply runs_return]. destruct (R2 _ _ Ha) as (t & A & _).
    eapply runs_step; [cbn [pc_step]; rewrite A; reflexivity|]. rewrite A. apply runs_return.
  - pose proof (rel_step E s w (TRevoke i id) R) as K. cbn [ts_do w_do] in K. revert K. cbn [at_once].
    cbn. rewrite R3. unfold resolve. destruct (ts_id s id) as [a|] eqn:Ha.
    + destruct (R1 _ _ Ha) as (t & A & B). rewrite A. cbn. intros K. eexists. split; [|exact K].
      eapply runs_step; [cbn [pc_step]; rewrite Ha; reflexivity|].
      eapply runs_step; [cbn [pc_step]; rewrite A; reflexivity|].
      eapply runs_step; [cbn [pc_step ts_heap]; rewrite (heap_set_same _ _ _ _ A); reflexivity|].
      eapply runs_step; [cbn [pc_step ts_heap]; rewrite (heap_set_same _ _ _ _ A); reflexivity|]. apply runs_return.
    + cbn. intros K. exists s. split; [|exact K]. eapply runs_step; [cbn [pc_step]; rewrite Ha; reflexivity|]. apply runs_return.
  - pose proof (rel_step E s w (TDelete i id) R) as K. cbn [ts_do w_do] in K. revert K. cbn [at_once].
    unfold delete_token. rewrite R3. unfold resolve. destruct (ts_id s id) as [a|] eqn:Ha.
    + destruct (R1 _ _ Ha) as (t & A & B). rewrite A. cbn. intros K. eexists. split; [|exact K].
      eapply runs_step; [cbn [pc_step]; rewrite Ha; reflexivity|].
      eapply runs_step; [cbn [pc_step]; rewrite A; reflexivity|].
      eapply runs_step; [cbn [pc_step ts_heap]; rewrite A; reflexivity|]. apply runs_return.
    + cbn. intros K. exists s. split; [|exact K]. eapply runs_step; [cbn [pc_step]; rewrite Ha; reflexivity|]. apply runs_return.
Qed.

Context (H : list sevent) (Halone : one_at_a_time H).

(** Between calls, or inside one whose moment has been placed at its beginning. *)
Inductive solo (h : list sevent) (w : world) : sconf -> (nat -> phase) -> Prop :=
| solo_idle s thr q : (forall k, thr k = None) -> (forall k, q k = Outside) -> rel s w -> solo h w (mkSConf s thr) q
| solo_busy s thr q th c p s' r h0 : h = (h0 ++ [SvCall th c])%list ->
    thr th = Some (c, p) -> (forall k, k <> th -> thr k = None) -> q th = Happened c r -> (forall k, k <> th -> q k = Outside) ->
    runs s p s' r -> rel s' w -> solo h w (mkSConf s thr) q.

Lemma solo_run xs : forall cf h w q, solo h w cf q -> H = (h ++ snd (tk_run E cf xs))%list ->
  exists ms w' q', without_moments ms = snd (tk_run E cf xs) /\ follows E w q ms w' q'.
Proof using Halone.
  induction xs as [|x xs IH]; intros cf h w q S HH; cbn [tk_run] in *.
  - exists [], w, q. split; [reflexivity|]. split; cbn; auto.
  - destruct (tk_step E cf x) as [cf' e1] eqn:Hs. destruct (tk_run E cf' xs) as [cf'' e2] eqn:Hr. cbn [snd] in *.
    assert (Hgo : forall ms1 w1 q1, solo (h ++ e1) w1 cf' q1 -> without_moments ms1 = e1 -> follows E w q ms1 w1 q1 ->
       exists ms w' q', without_moments ms = (e1 ++ e2)%list /\ follows E w q ms w' q').
    { intros ms1 w1 q1 S1 W (F1 & F2). destruct (IH cf' (h ++ e1)%list w1 q1 S1) as (ms2 & w2 & q2 & W2 & G1 & G2).
      { rewrite Hr, <- app_assoc. exact HH. }
      rewrite Hr in W2. exists (ms1 ++ ms2)%list, w2, q2. split; [rewrite without_app, W, W2; reflexivity|]. split.
      - intros r0 Hr0. rewrite <- app_assoc. auto.
      - intros r0 Hr0. rewrite moments_app, <- app_assoc. auto. }
    assert (Hstay : e1 = [] -> cf' = cf -> exists ms w' q', without_moments ms = (e1 ++ e2)%list /\ follows E w q ms w' q').
    { intros -> ->. apply (Hgo [] w q); [rewrite app_nil_r; exact S|reflexivity|split; cbn; auto]. }
    destruct S as [s thr q Ht Hq R|s thr q th c p s' r h0 Hh Ht Ht' Hq Hq' Rn R].
    + destruct x as [k c|k]; cbn [tk_step sc_store sc_threads] in Hs; rewrite (Ht k) in Hs; injection Hs as <- <-; [|auto].
      destruct (alone s w c R) as (s' & A & B).
      apply (Hgo [MCall k c; MMoment k c (fst (at_once E w c))] (snd (at_once E w c)) (set_thread q k (Happened c (fst (at_once E w c))))).
      * eapply solo_busy; eauto using set_thread_same.
        -- intros j Hj. rewrite set_thread_other; auto.
        -- intros j Hj. rewrite set_thread_other; auto.
      * reflexivity.
      * split.
        -- intros rest X. cbn [app]. constructor; [apply Hq|]. constructor; [apply set_thread_same|].
           revert X. apply in_turn_ext. intros j. unfold set_thread. destruct (Nat.eqb j k); reflexivity.
        -- intros rest X. cbn. auto.
    + destruct x as [k c'|k]; cbn [tk_step sc_store sc_threads] in Hs.
      * destruct (Nat.eq_dec k th) as [->|Hk]; [rewrite Ht in Hs; injection Hs as <- <-; auto|].
        rewrite (Ht' k Hk) in Hs. injection Hs as <- <-. exfalso. cbn [app] in HH.
        rewrite Hh, <- app_assoc in HH. cbn [app] in HH. destruct (Halone _ _ _ _ _ HH) as (? & X). discriminate.
      * destruct (Nat.eq_dec k th) as [->|Hk]; [|rewrite (Ht' k Hk) in Hs; injection Hs as <- <-; auto].
        rewrite Ht in Hs. inversion Rn as [s1 r1|s1 p0 s2 p2 s3 r1 Hp Rn']; subst.
        -- injection Hs as <- <-. apply (Hgo [MReturn th c r] w (set_thread q th Outside)).
           ++ apply solo_idle; auto.
              ** intros j. destruct (Nat.eq_dec j th) as [->|]; [apply set_thread_same|rewrite set_thread_other; auto].
              ** intros j. destruct (Nat.eq_dec j th) as [->|]; [apply set_thread_same|rewrite set_thread_other; auto].
           ++ reflexivity.
           ++ split; [|cbn; auto]. intros rest X. cbn [app]. constructor; auto.
        -- assert (Hs' : (cf', e1) = (mkSConf s2 (set_thread thr th (Some (c, p2))), [])).
           { rewrite <- Hs, Hp. destruct p; try reflexivity. discriminate. }
           injection Hs' as -> ->. apply (Hgo [] w q); [|reflexivity|split; cbn; auto].
           rewrite app_nil_r. eapply solo_busy; eauto using set_thread_same.
           intros j Hj. rewrite set_thread_other; auto.
Qed.
End Alone.

Lemma C105_one_at_a_time_proof : forall E w xs,
  let h := shistory E xs in no_tokens w -> one_at_a_time h -> as_if_atomic E w h.
Proof.
  intros E w xs h Hn Ho.
  destruct (solo_run E h Ho xs sc_new [] w (fun _ => Outside)) as (ms & w' & q' & W & F1 & F2).
  - apply solo_idle; auto. apply rel_new, Hn.
  - reflexivity.
  - exists ms. split; [exact W|]. split.
    + rewrite <- (app_nil_r ms). apply F1. constructor.
    + rewrite <- (app_nil_r (moments ms)). apply F2. exact I.
Qed.
