(** * The token store: proofs *)

From Verif Require Export SpecStore PfStore2.

(** ** Refinement of the pointers *)

Definition resolve (s : tstore) (m : fmap nat) (k : string) : option token :=
  match m k with Some a => nth_error (ts_heap s) a | None => None end.

Record rel (s : tstore) (w : world) : Prop := mkRel {
  rel_id : forall k a, ts_id s k = Some a -> exists t, nth_error (ts_heap s) a = Some t /\ t_id t = k;
  rel_val : forall k a, ts_val s k = Some a -> exists t, nth_error (ts_heap s) a = Some t /\ t_value t = k;
  rel_tid : forall k, w_tid w k = resolve s (ts_id s) k;
  rel_tval : forall k, w_tval w k = resolve s (ts_val s) k
}.

Lemma heap_set_same l a t x : nth_error l a = Some x -> nth_error (heap_set l a t) a = Some t.
Proof. revert a; induction l as [|y l IH]; intros [|a]; cbn; intros H; try discriminate; auto. Qed.
Lemma heap_set_other l a b t : a <> b -> nth_error (heap_set l a t) b = nth_error l b.
Proof. revert a b; induction l as [|y l IH]; intros [|a] [|b]; cbn; intros H; auto; congruence. Qed.
Lemma nth_grow (l : list token) a t x : nth_error l a = Some x -> nth_error (l ++ [t])%list a = Some x.
Proof. intros H. rewrite nth_error_app1; auto. apply nth_error_Some. congruence. Qed.
Lemma nth_last (l : list token) t : nth_error (l ++ [t])%list (List.length l) = Some t.
Proof. rewrite nth_error_app2 by auto. rewrite Nat.sub_diag. reflexivity. Qed.

Lemma rel_step E s w o : rel s w -> rel (snd (ts_do E s o)) (w_do E w o) .
Proof.
  intros [R1 R2 R3 R4]. destruct o as [iss t|iss id|iss id]; cbn [ts_do w_do].
  - cbn. split; cbn [ts_id ts_val ts_heap snd].
    + intros k a H. destruct (upd_cases (ts_id s) (t_id t) (Some (List.length (ts_heap s))) k) as [[-> X]|[_ X]];
        rewrite X in H; [injection H as <-; eexists; split; [apply nth_last|reflexivity]|].
      destruct (R1 _ _ H) as (t' & A & B). exists t'; split; auto using nth_grow.
    + intros k a H. destruct (upd_cases (ts_val s) (tok_key E iss (t_value t)) (Some (List.length (ts_heap s))) k) as [[-> X]|[_ X]];
        rewrite X in H; [injection H as <-; eexists; split; [apply nth_last|reflexivity]|].
      destruct (R2 _ _ H) as (t' & A & B). exists t'; split; auto using nth_grow.
    + intros k. unfold resolve. cbn. unfold upd. destruct (String.eqb k (t_id t)).
      * symmetry; apply nth_last.
      * rewrite R3. unfold resolve. destruct (ts_id s k) eqn:Hk; auto. destruct (R1 _ _ Hk) as (t' & A & B).
        rewrite A. symmetry. apply nth_grow; auto.
    + intros k. unfold resolve. cbn. unfold upd. destruct (String.eqb k (tok_key E iss (t_value t))).
      * symmetry; apply nth_last.
      * rewrite R4. unfold resolve. destruct (ts_val s k) eqn:Hk; auto. destruct (R2 _ _ Hk) as (t' & A & B).
        rewrite A. symmetry. apply nth_grow; auto.
  - cbn. rewrite R3. unfold resolve at 1. destruct (ts_id s id) as [a|] eqn:Ha; [|cbn; split; auto].
    destruct (R1 _ _ Ha) as (t & A & B). rewrite A. cbn.
    split; cbn [ts_id ts_val ts_heap snd].
    + intros k b H. destruct (upd_cases (ts_id s) (t_id t) (Some a) k) as [[-> X]|[_ X]];
        rewrite X in H; [injection H as <-; eexists; split; [eapply heap_set_same; eauto|reflexivity]|].
      destruct (R1 _ _ H) as (t' & A' & B'). destruct (Nat.eq_dec a b) as [->|].
      * eexists; split; [eapply heap_set_same; eauto|]. rewrite A in A'. injection A' as <-. exact B'.
      * exists t'. rewrite heap_set_other; auto.
    + intros k b H. destruct (upd_cases (ts_val s) (t_value t) (Some a) k) as [[-> X]|[_ X]];
        rewrite X in H; [injection H as <-; eexists; split; [eapply heap_set_same; eauto|reflexivity]|].
      destruct (R2 _ _ H) as (t' & A' & B'). destruct (Nat.eq_dec a b) as [->|].
      * eexists; split; [eapply heap_set_same; eauto|]. rewrite A in A'. injection A' as <-. exact B'.
      * exists t'. rewrite heap_set_other; auto.
    + intros k. unfold resolve. cbn. unfold upd. destruct (String.eqb_spec k (t_id t)).
      * symmetry. eapply heap_set_same; eauto.
      * rewrite R3. unfold resolve. destruct (ts_id s k) as [b|] eqn:Hk; auto. symmetry. apply heap_set_other.
        intros ->. destruct (R1 _ _ Hk) as (t' & A' & B'). congruence.
    + intros k. unfold resolve. cbn. unfold upd. destruct (String.eqb_spec k (t_value t)).
      * symmetry. eapply heap_set_same; eauto.
      * rewrite R4. unfold resolve. destruct (ts_val s k) as [b|] eqn:Hk; auto. symmetry. apply heap_set_other.
        intros ->. destruct (R2 _ _ Hk) as (t' & A' & B'). congruence.
  - unfold delete_token. rewrite R3. unfold resolve at 1. destruct (ts_id s id) as [a|] eqn:Ha; [|cbn; split; auto].
    destruct (R1 _ _ Ha) as (t & A & B). rewrite A. cbn.
    split; cbn [ts_id ts_val ts_heap snd].
    + intros k b H. destruct (upd_cases (ts_id s) (t_id t) None k) as [[-> X]|[_ X]]; rewrite X in H; [discriminate|eauto].
    + intros k b H. destruct (upd_cases (ts_val s) (t_value t) None k) as [[-> X]|[_ X]]; rewrite X in H; [discriminate|eauto].
    + intros k. unfold resolve. cbn. unfold upd. destruct (String.eqb_spec k (t_id t)); auto. apply R3.
    + intros k. unfold resolve. cbn. unfold upd. destruct (String.eqb_spec k (t_value t)); auto. apply R4.
Qed.

Lemma rel_run E os : forall s w, rel s w -> rel (ts_run E s os) (w_run E w os).
Proof. induction os as [|o os IH]; cbn; intros s w H; auto. apply IH, rel_step, H. Qed.

Lemma rel_new w : no_tokens w -> rel ts_new w.
Proof. intros [A B]. split; cbn; try discriminate; intros; unfold resolve; cbn; auto. Qed.

(** The pointer-level store and the store of [Storage] answer every lookup alike. *)
Lemma C23_pointers_resolved_proof : forall E w os issuer value id, no_tokens w ->
  ts_get_by_value E (ts_run E ts_new os) issuer value = w_tval (w_run E w os) (tok_key E issuer value) /\
  ts_get (ts_run E ts_new os) id = w_tid (w_run E w os) id.
Proof.
  intros E w os issuer value id Hn. destruct (rel_run E os _ _ (rel_new w Hn)) as [_ _ R3 R4].
  rewrite R3, R4. split; reflexivity.
Qed.

(** ** The store as a map *)

Definition holds (E : ext) (os : list top) (t' : token) (issuer0 : string) (t : token) (os2 : list top) : Prop :=
  (exists os1, os = (os1 ++ TCreate issuer0 t :: os2)%list) /\ kept os2 t /\ t' = stored_copy E issuer0 t os2.

Record tmap (E : ext) (os : list top) (w : world) : Prop := mkTmap {
  tm_id : forall k t', w_tid w k = Some t' <-> exists i0 t os2, holds E os t' i0 t os2 /\ t_id t = k;
  tm_val : forall k t', w_tval w k = Some t' <-> exists i0 t os2, holds E os t' i0 t os2 /\ tok_key E i0 (t_value t) = k
}.

Lemma snoc_split (A : Type) (l1 l2 l : list A) x y : (l ++ [y] = l1 ++ x :: l2)%list ->
  (l2 = [] /\ l1 = l /\ x = y) \/ (exists l2', l2 = (l2' ++ [y])%list /\ l = (l1 ++ x :: l2')%list).
Proof.
  intros H. destruct l2 as [|z l2] using rev_ind.
  - apply app_inj_tail in H as [-> ->]. auto.
  - right. clear IHl2. rewrite app_comm_cons, app_assoc in H. apply app_inj_tail in H as [-> ->]. exists l2; auto.
Qed.

Lemma holds_last E os i t : holds E (os ++ [TCreate i t])%list (hashed E i t) i t [].
Proof. split; [eexists; reflexivity|]. split; [intros ? []|]. destruct t; reflexivity. Qed.

Lemma holds_snoc E os o t' i t os2 : holds E (os ++ [o])%list t' i t os2 <->
  (os2 = [] /\ o = TCreate i t /\ t' = hashed E i t) \/
  (exists os2', os2 = (os2' ++ [o])%list /\ (forall i', o <> TDelete i' (t_id t)) /\
     holds E os (stored_copy E i t os2') i t os2' /\ t' = stored_copy E i t os2).
Proof.
  split.
  - intros ((os1 & H) & K & ->). apply snoc_split in H as [(-> & -> & H)|(os2' & -> & ->)].
    + left. split; auto.
    + right. exists os2'. split; auto. split; [intros i' ->; apply (K i'), in_or_app; right; left; auto|].
      split; auto. split; [eauto|]. split; auto. intros i' X. apply (K i'), in_or_app; auto.
  - intros [(-> & -> & ->)|(os2' & -> & Hd & ((os1 & ->) & K & _) & ->)]; [apply holds_last|].
    split; [exists os1; rewrite <- app_assoc; reflexivity|]. split; auto.
    intros i' X. apply in_app_or in X as [X|[X|[]]]; [apply (K i' X)|exact (Hd i' X)].
Qed.

Lemma stored_copy_snoc E i t os o :
  stored_copy E i t (os ++ [o])%list = if revokes (t_id t) o then set_status (stored_copy E i t os) TsRevoked else stored_copy E i t os.
Proof.
  unfold stored_copy. rewrite existsb_app. cbn. rewrite orb_false_r.
  destruct (existsb (revokes (t_id t)) os); cbn; destruct (revokes (t_id t) o); reflexivity.
Qed.

Lemma tmap_step E os o w : top_no_reuse E (os ++ [o])%list -> tmap E os w -> tmap E (os ++ [o])%list (w_do E w o).
Proof.
  intros Hu [T1 T2].
  assert (Hu0 : forall i1 t1 a1 t1' i2 t2 a2 t2', holds E os t1' i1 t1 a1 -> holds E os t2' i2 t2 a2 ->
     t_id t1 = t_id t2 \/ tok_key E i1 (t_value t1) = tok_key E i2 (t_value t2) -> i1 = i2 /\ t1 = t2 /\ a1 = a2).
  { intros i1 t1 a1 t1' i2 t2 a2 t2' ((b1 & H1) & _) ((b2 & H2) & _) Heq.
    rewrite H1 in H2. clear T1 T2.
    assert (Hs : forall b1 b2 a1 a2 i1 i2 t1 t2, (b1 ++ TCreate i1 t1 :: a1 = b2 ++ TCreate i2 t2 :: a2)%list ->
       (b1 = b2 /\ i1 = i2 /\ t1 = t2 /\ a1 = a2) \/
       (exists m, b2 = (b1 ++ TCreate i1 t1 :: m)%list /\ a1 = (m ++ TCreate i2 t2 :: a2)%list) \/
       (exists m, b1 = (b2 ++ TCreate i2 t2 :: m)%list /\ a2 = (m ++ TCreate i1 t1 :: a1)%list)).
    { clear. induction b1 as [|x b1 IH]; destruct b2 as [|y b2]; cbn; intros a1 a2 i1 i2 t1 t2 H.
      - injection H as -> -> ->. auto.
      - injection H as <- ->. right. left. eauto.
      - injection H as -> <-. right. right. eauto.
      - injection H as -> H. destruct (IH _ _ _ _ _ _ _ H) as [(-> & -> & -> & ->)|[(m & -> & ->)|(m & -> & ->)]]; eauto 10. }
    apply Hs in H2 as [(_ & -> & -> & ->)|[(m & -> & ->)|(m & -> & ->)]]; auto; exfalso.
    - destruct (Hu b1 i1 t1 m i2 t2 (a2 ++ [o])%list) as [X Y]; [rewrite H1; list_eq|]. destruct Heq; auto.
    - destruct (Hu b2 i2 t2 m i1 t1 (a1 ++ [o])%list) as [X Y]; [rewrite H1; list_eq|]. destruct Heq as [Z|Z]; auto. }
  destruct o as [iss t|iss id|iss id].
  - (* create *)
    assert (Hnew : forall i1 t1 a1 t1', holds E os t1' i1 t1 a1 ->
       t_id t1 <> t_id t /\ tok_key E i1 (t_value t1) <> tok_key E iss (t_value t)).
    { intros i1 t1 a1 t1' ((b1 & ->) & _). eapply (Hu b1 i1 t1 a1 iss t []). list_eq. }
    split; intros k t'; cbn.
    + destruct (upd_cases (w_tid w) (t_id t) (Some (hashed E iss t)) k) as [[-> X]|[N X]]; rewrite X.
      * split.
        -- intros H; injection H as <-. exists iss, t, []. split; [apply holds_last|auto].
        -- intros (i0 & t0 & os2 & H & Hk). apply holds_snoc in H as [(_ & H & ->)|(os2' & _ & _ & H & _)].
           ++ injection H as <- <-. reflexivity.
           ++ destruct (Hnew _ _ _ _ H). contradiction.
      * rewrite T1. split.
        -- intros (i0 & t0 & os2 & H & Hk). exists i0, t0, (os2 ++ [TCreate iss t])%list. split; auto.
           apply holds_snoc. right. exists os2. split; auto. split; [discriminate|].
           assert (t' = stored_copy E i0 t0 os2) as -> by apply H. split; auto.
           rewrite stored_copy_snoc. reflexivity.
        -- intros (i0 & t0 & os2 & H & Hk). apply holds_snoc in H as [(_ & H & ->)|(os2' & -> & _ & H & ->)].
           ++ injection H as -> ->. congruence.
           ++ rewrite stored_copy_snoc. cbn. eauto 10.
    + destruct (upd_cases (w_tval w) (tok_key E iss (t_value t)) (Some (hashed E iss t)) k) as [[-> X]|[N X]]; rewrite X.
      * split.
        -- intros H; injection H as <-. exists iss, t, []. split; [apply holds_last|auto].
        -- intros (i0 & t0 & os2 & H & Hk). apply holds_snoc in H as [(_ & H & ->)|(os2' & _ & _ & H & _)].
           ++ injection H as <- <-. reflexivity.
           ++ destruct (Hnew _ _ _ _ H). contradiction.
      * rewrite T2. split.
        -- intros (i0 & t0 & os2 & H & Hk). exists i0, t0, (os2 ++ [TCreate iss t])%list. split; auto.
           apply holds_snoc. right. exists os2. split; auto. split; [discriminate|].
           assert (t' = stored_copy E i0 t0 os2) as -> by apply H. split; auto.
           rewrite stored_copy_snoc. reflexivity.
        -- intros (i0 & t0 & os2 & H & Hk). apply holds_snoc in H as [(_ & H & ->)|(os2' & -> & _ & H & ->)].
           ++ injection H as -> ->. congruence.
           ++ rewrite stored_copy_snoc. cbn. eauto 10.
  - (* revoke *)
    assert (Hold : forall i0 t0 os2 t', holds E (os ++ [TRevoke iss id])%list t' i0 t0 os2 <->
       exists os2', os2 = (os2' ++ [TRevoke iss id])%list /\ holds E os (stored_copy E i0 t0 os2') i0 t0 os2' /\
         t' = (if String.eqb id (t_id t0) then set_status (stored_copy E i0 t0 os2') TsRevoked else stored_copy E i0 t0 os2')).
    { intros i0 t0 os2 t'. rewrite holds_snoc. split.
      - intros [(_ & X & _)|(os2' & -> & _ & H & ->)]; [discriminate|]. exists os2'. split; auto. split; auto.
        rewrite stored_copy_snoc. reflexivity.
      - intros (os2' & -> & H & ->). right. exists os2'. split; auto. split; [discriminate|]. split; auto.
        rewrite stored_copy_snoc. reflexivity. }
    cbn. destruct (w_tid w id) as [tr|] eqn:Hid; cbn.
    + apply T1 in Hid as (i1 & t1 & a1 & H1 & <-).
      assert (Htr : tr = stored_copy E i1 t1 a1) by apply H1. subst tr.
      split; intros k t'; cbn.
      * destruct (upd_cases (w_tid w) (t_id t1) (Some (set_status (stored_copy E i1 t1 a1) TsRevoked)) k) as [[-> X]|[N X]]; rewrite X.
        -- split.
           ++ intros H; injection H as <-. exists i1, t1, (a1 ++ [TRevoke iss (t_id t1)])%list. split; auto.
              apply Hold. exists a1. split; auto. split; auto. rewrite String.eqb_refl. reflexivity.
           ++ intros (i0 & t0 & os2 & H & Hk). apply Hold in H as (os2' & -> & H & ->).
              destruct (Hu0 _ _ _ _ _ _ _ _ H H1 (or_introl Hk)) as (-> & -> & ->). rewrite String.eqb_refl. reflexivity.
        -- rewrite T1. split.
           ++ intros (i0 & t0 & os2 & H & Hk). exists i0, t0, (os2 ++ [TRevoke iss (t_id t1)])%list. split; auto.
              assert (t' = stored_copy E i0 t0 os2) as -> by apply H.
              apply Hold. exists os2. split; auto. split; auto.
              destruct (String.eqb_spec (t_id t1) (t_id t0)); auto. congruence.
           ++ intros (i0 & t0 & os2 & H & Hk). apply Hold in H as (os2' & -> & H & ->).
              destruct (String.eqb_spec (t_id t1) (t_id t0)); [congruence|]. eauto 10.
      * destruct (upd_cases (w_tval w) (tok_key E i1 (t_value t1)) (Some (set_status (stored_copy E i1 t1 a1) TsRevoked)) k) as [[-> X]|[N X]]; rewrite X.
        -- split.
           ++ intros H; injection H as <-. exists i1, t1, (a1 ++ [TRevoke iss (t_id t1)])%list. split; auto.
              apply Hold. exists a1. split; auto. split; auto. rewrite String.eqb_refl. reflexivity.
           ++ intros (i0 & t0 & os2 & H & Hk). apply Hold in H as (os2' & -> & H & ->).
              destruct (Hu0 _ _ _ _ _ _ _ _ H H1 (or_intror Hk)) as (-> & -> & ->). rewrite String.eqb_refl. reflexivity.
        -- rewrite T2. split.
           ++ intros (i0 & t0 & os2 & H & Hk). exists i0, t0, (os2 ++ [TRevoke iss (t_id t1)])%list. split; auto.
              assert (t' = stored_copy E i0 t0 os2) as -> by apply H.
              apply Hold. exists os2. split; auto. split; auto.
              destruct (String.eqb_spec (t_id t1) (t_id t0)) as [e|]; auto.
              destruct (Hu0 _ _ _ _ _ _ _ _ H H1 (or_introl (eq_sym e))) as (-> & -> & ->). congruence.
           ++ intros (i0 & t0 & os2 & H & Hk). apply Hold in H as (os2' & -> & H & ->).
              destruct (String.eqb_spec (t_id t1) (t_id t0)) as [e|]; eauto 10.
              destruct (Hu0 _ _ _ _ _ _ _ _ H H1 (or_introl (eq_sym e))) as (-> & -> & ->). congruence.
    + assert (Hne : forall i0 t0 os2 t', holds E os t' i0 t0 os2 -> t_id t0 <> id).
      { intros i0 t0 os2 t' H <-. assert (w_tid w (t_id t0) = Some t') by (apply T1; eauto 10). congruence. }
      split; intros k t'; [rewrite T1|rewrite T2]; (split;
        [intros (i0 & t0 & os2 & H & Hk); exists i0, t0, (os2 ++ [TRevoke iss id])%list; split; auto;
         assert (t' = stored_copy E i0 t0 os2) as -> by apply H;
         apply Hold; exists os2; split; auto; split; auto;
         destruct (String.eqb_spec id (t_id t0)) as [e|]; auto; destruct (Hne _ _ _ _ H (eq_sym e))
        |intros (i0 & t0 & os2 & H & Hk); apply Hold in H as (os2' & -> & H & ->);
         destruct (String.eqb_spec id (t_id t0)) as [e|]; [destruct (Hne _ _ _ _ H (eq_sym e))|eauto 10]]).
  - (* delete *)
    assert (Hold : forall i0 t0 os2 t', holds E (os ++ [TDelete iss id])%list t' i0 t0 os2 <->
       exists os2', os2 = (os2' ++ [TDelete iss id])%list /\ t_id t0 <> id /\ holds E os t' i0 t0 os2').
    { intros i0 t0 os2 t'. rewrite holds_snoc. split.
      - intros [(_ & X & _)|(os2' & -> & Hd & H & ->)]; [discriminate|]. exists os2'. split; auto.
        rewrite stored_copy_snoc. cbn. split; auto. intros <-. apply (Hd iss); auto.
      - intros (os2' & -> & N & H). right. exists os2'. split; auto.
        assert (t' = stored_copy E i0 t0 os2') as -> by apply H.
        split; [intros i' X; congruence|]. split; auto. rewrite stored_copy_snoc. reflexivity. }
    cbn. unfold delete_token. destruct (w_tid w id) as [tr|] eqn:Hid; cbn.
    + apply T1 in Hid as (i1 & t1 & a1 & H1 & <-).
      assert (Htr : tr = stored_copy E i1 t1 a1) by apply H1. subst tr.
      split; intros k t'; cbn.
      * destruct (upd_cases (w_tid w) (t_id t1) None k) as [[-> X]|[N X]]; rewrite X.
        -- split; [discriminate|]. intros (i0 & t0 & os2 & H & Hk). apply Hold in H as (os2' & _ & X' & _). congruence.
        -- rewrite T1. split.
           ++ intros (i0 & t0 & os2 & H & Hk). exists i0, t0, (os2 ++ [TDelete iss (t_id t1)])%list. split; auto.
              apply Hold. exists os2. split; auto. split; auto. congruence.
           ++ intros (i0 & t0 & os2 & H & Hk). apply Hold in H as (os2' & -> & _ & H). eauto 10.
      * destruct (upd_cases (w_tval w) (tok_key E i1 (t_value t1)) None k) as [[-> X]|[N X]]; rewrite X.
        -- split; [discriminate|]. intros (i0 & t0 & os2 & H & Hk). apply Hold in H as (os2' & -> & X' & H).
           destruct (Hu0 _ _ _ _ _ _ _ _ H H1 (or_intror Hk)) as (-> & -> & ->). congruence.
        -- rewrite T2. split.
           ++ intros (i0 & t0 & os2 & H & Hk). exists i0, t0, (os2 ++ [TDelete iss (t_id t1)])%list. split; auto.
              apply Hold. exists os2. split; auto. split; auto. intros e.
              destruct (Hu0 _ _ _ _ _ _ _ _ H H1 (or_introl e)) as (-> & -> & ->). congruence.
           ++ intros (i0 & t0 & os2 & H & Hk). apply Hold in H as (os2' & -> & _ & H). eauto 10.
    + assert (Hne : forall i0 t0 os2 t', holds E os t' i0 t0 os2 -> t_id t0 <> id).
      { intros i0 t0 os2 t' H <-. assert (w_tid w (t_id t0) = Some t') by (apply T1; eauto 10). congruence. }
      split; intros k t'; [rewrite T1|rewrite T2]; (split;
        [intros (i0 & t0 & os2 & H & Hk); exists i0, t0, (os2 ++ [TDelete iss id])%list; split; auto;
         apply Hold; exists os2; split; auto; split; eauto
        |intros (i0 & t0 & os2 & H & Hk); apply Hold in H as (os2' & -> & _ & H); eauto 10]).
Qed.

Lemma top_no_reuse_app E os os' : top_no_reuse E (os ++ os')%list -> top_no_reuse E os.
Proof. intros H o1 i1 t1 o2 i2 t2 o3 ->. eapply (H o1 i1 t1 o2 i2 t2 (o3 ++ os')%list). list_eq. Qed.

Lemma tmap_run E w os : no_tokens w -> top_no_reuse E os -> tmap E os (w_run E w os).
Proof.
  intros Hn. induction os as [|o os IH] using rev_ind; intros Hu.
  - split; intros k t'; cbn; [rewrite (proj1 Hn)|rewrite (proj2 Hn)]; (split; [discriminate|]);
      intros (i0 & t0 & os2 & ((os1 & H) & _) & _); destruct os1; discriminate.
  - unfold w_run. rewrite fold_left_app. cbn. apply tmap_step; auto. apply IH. eapply top_no_reuse_app; eauto.
Qed.

Lemma C23_token_store_is_a_map_proof : forall E os, top_no_reuse E os ->
  (forall issuer value t', ts_get_by_value E (ts_run E ts_new os) issuer value = Some t' <->
     exists os1 issuer0 t os2, os = (os1 ++ TCreate issuer0 t :: os2)%list /\
       tok_key E issuer0 (t_value t) = tok_key E issuer value /\ kept os2 t /\ t' = stored_copy E issuer0 t os2) /\
  (forall id t', ts_get (ts_run E ts_new os) id = Some t' <->
     exists os1 issuer0 t os2, os = (os1 ++ TCreate issuer0 t :: os2)%list /\
       t_id t = id /\ kept os2 t /\ t' = stored_copy E issuer0 t os2).
Proof.
  intros E os Hu.
  pose (w := init_world 0 (fun _ => None)). assert (Hn : no_tokens w) by (split; reflexivity).
  destruct (tmap_run E w os Hn Hu) as [T1 T2]. split.
  - intros issuer value t'. destruct (C23_pointers_resolved_proof E w os issuer value "" Hn) as [-> _]. rewrite T2. split.
    + intros (i0 & t & os2 & ((os1 & H1) & H2 & H3) & H4). eauto 10.
    + intros (os1 & i0 & t & os2 & H1 & H2 & H3 & H4). exists i0, t, os2. split; auto. split; eauto.
  - intros id t'. destruct (C23_pointers_resolved_proof E w os "" "" id Hn) as [_ ->]. rewrite T1. split.
    + intros (i0 & t & os2 & ((os1 & H1) & H2 & H3) & H4). eauto 10.
    + intros (os1 & i0 & t & os2 & H1 & H2 & H3 & H4). exists i0, t, os2. split; auto. split; eauto.
Qed.
