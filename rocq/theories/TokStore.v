(** * The token store along histories (proofs only) *)

From Verif Require Export StoreFacts.

Section TokStore.
Context (E : ext).

(** Where a stored token comes from. *)
Definition tdesc (h : list event) (t : token) : Prop :=
  exists h1 i iss t0 a h2, h = (h1 ++ EvCall i (CTokCreate iss t0) a :: h2)%list /\
    (t = hashed E iss t0
     \/ t = set_status (hashed E iss t0) TsRevoked /\
        exists j iss' a', In (EvCall j (CTokRevoke iss' (t_id t0)) a') h2).

Definition tinv (h : list event) (w : world) : Prop :=
  (forall k t, w_tid w k = Some t -> t_id t = k /\ tdesc h t) /\
  (forall k t, w_tval w k = Some t -> t_value t = k /\ tdesc h t).

Lemma tdesc_snoc h t e : tdesc h t -> tdesc (h ++ [e])%list t.
Proof.
  intros (h1 & i & iss & t0 & a & h2 & -> & H). exists h1, i, iss, t0, a, (h2 ++ [e])%list.
  rewrite <- app_assoc. split; auto. destruct H as [H|(H & j & iss' & a' & Hin)]; auto.
  right. split; auto. exists j, iss', a'. apply in_or_app; auto.
Qed.

Lemma tdesc_revoke h i iss a t : tdesc h t ->
  tdesc (h ++ [EvCall i (CTokRevoke iss (t_id t)) a])%list (set_status t TsRevoked).
Proof.
  intros (h1 & j & iss' & t0 & a' & h2 & -> & H).
  exists h1, j, iss', t0, a', (h2 ++ [EvCall i (CTokRevoke iss (t_id t)) a])%list.
  rewrite <- app_assoc. split; auto. right.
  assert (t_id t = t_id t0) as -> by (destruct H as [->|[-> _]]; reflexivity).
  split; [destruct H as [->|[-> _]]; reflexivity|].
  exists i, iss, a. apply in_or_app. right; left; auto.
Qed.

Lemma tok_inv w0 h w : no_tokens w0 -> wtrace E w0 h w -> tinv h w.
Proof.
  intros [N1 N2] Ht. pattern h, w. revert h w Ht. apply wtrace_ind_past.
  - split; intros k t; rewrite ?N1, ?N2; discriminate.
  - intros h w e w1 [I1 I2] H0 H1.
    assert (Hkeep : w_tid w1 = w_tid w -> w_tval w1 = w_tval w -> tinv (h ++ [e])%list w1).
    { intros X Y. split; intros k t; rewrite ?X, ?Y; intros Hk.
      - destruct (I1 _ _ Hk). split; auto. apply tdesc_snoc; auto.
      - destruct (I2 _ _ Hk). split; auto. apply tdesc_snoc; auto. }
    inversion H1 as [| ? ? ? ? ? Hn| ? ? ? ? ? Hn| ? ? ? ? Hn| ? i c a o w2 ? ? Hx Hn]; subst;
      inversion Hn; subst; auto.
    pose proof (tid_exec _ _ _ _ _ _ Hx) as Ti. pose proof (tval_exec _ _ _ _ _ _ Hx) as Tv.
    assert (Hcre : forall iss t, c = CTokCreate iss t -> tinv (h ++ [EvCall i c a])%list w1).
    { intros iss t ->. cbn in Ti, Tv.
      assert (Hd : tdesc (h ++ [EvCall i (CTokCreate iss t) a])%list (hashed E iss t)).
      { exists h, i, iss, t, a, []. auto. }
      split; intros k t' Hk.
      - destruct Ti as [Ti|[Ti _]]; rewrite Ti in Hk.
        + destruct (upd_cases (w_tid w) (t_id t) (Some (hashed E iss t)) k) as [[-> Hu]|[_ Hu]]; rewrite Hu in Hk.
          * injection Hk as <-. auto.
          * destruct (I1 _ _ Hk). split; auto. apply tdesc_snoc; auto.
        + destruct (I1 _ _ Hk). split; auto. apply tdesc_snoc; auto.
      - destruct Tv as [Tv|[Tv _]]; rewrite Tv in Hk.
        + destruct (upd_cases (w_tval w) (tok_key E iss (t_value t)) (Some (hashed E iss t)) k) as [[-> Hu]|[_ Hu]];
            rewrite Hu in Hk.
          * injection Hk as <-. auto.
          * destruct (I2 _ _ Hk). split; auto. apply tdesc_snoc; auto.
        + destruct (I2 _ _ Hk). split; auto. apply tdesc_snoc; auto. }
    assert (Hrev : forall iss id, c = CTokRevoke iss id -> tinv (h ++ [EvCall i c a])%list w1).
    { intros iss id ->. cbn in Ti, Tv.
      destruct (w_tid w id) as [t|] eqn:Hid; [|apply Hkeep; auto].
      destruct (I1 _ _ Hid) as [<- Hd].
      pose proof (tdesc_revoke h i iss a t Hd) as Hd'.
      split; intros k t' Hk.
      - destruct Ti as [Ti|[Ti _]]; rewrite Ti in Hk.
        + destruct (upd_cases (w_tid w) (t_id t) (Some (set_status t TsRevoked)) k) as [[-> Hu]|[_ Hu]]; rewrite Hu in Hk.
          * injection Hk as <-. auto.
          * destruct (I1 _ _ Hk). split; auto. apply tdesc_snoc; auto.
        + destruct (I1 _ _ Hk). split; auto. apply tdesc_snoc; auto.
      - destruct Tv as [Tv|[Tv _]]; rewrite Tv in Hk.
        + destruct (upd_cases (w_tval w) (t_value t) (Some (set_status t TsRevoked)) k) as [[-> Hu]|[_ Hu]];
            rewrite Hu in Hk.
          * injection Hk as <-. auto.
          * destruct (I2 _ _ Hk). split; auto. apply tdesc_snoc; auto.
        + destruct (I2 _ _ Hk). split; auto. apply tdesc_snoc; auto. }
    destruct c; try (apply Hkeep; assumption); eauto.
Qed.

(** ** Coherence of the two indexes *)

Definition coherent (w : world) : Prop :=
  (forall k t, w_tval w k = Some t -> w_tid w (t_id t) = Some t) /\
  (forall k t, w_tid w k = Some t -> w_tval w (t_value t) = Some t).

Lemma no_reuse_app h1 h2 : no_reuse E (h1 ++ h2)%list -> no_reuse E h1.
Proof.
  intros H k1 i iss t a k2 j iss' t' a' k3 ->.
  apply (H k1 i iss t a k2 j iss' t' a' (k3 ++ h2)%list).
  rewrite <- !app_assoc. cbn. rewrite <- !app_assoc. reflexivity.
Qed.

Lemma fresh_create h w0 w i iss t a :
  no_tokens w0 -> wtrace E w0 h w -> no_reuse E (h ++ [EvCall i (CTokCreate iss t) a])%list ->
  (forall k t', w_tid w k = Some t' -> t_id t' <> t_id t) /\
  (forall k t', w_tval w k = Some t' -> t_id t' <> t_id t /\ t_value t' <> tok_key E iss (t_value t)) /\
  (forall k t', w_tid w k = Some t' -> t_value t' <> tok_key E iss (t_value t)).
Proof.
  intros Hn Ht Hu. destruct (tok_inv _ _ _ Hn Ht) as [I1 I2].
  assert (Hd : forall t', tdesc h t' -> t_id t' <> t_id t /\ t_value t' <> tok_key E iss (t_value t)).
  { intros t' (h1 & j & iss0 & t0 & a0 & h2 & -> & H).
    destruct (Hu h1 j iss0 t0 a0 h2 i iss t a []) as [U1 U2].
    { rewrite <- app_assoc. reflexivity. }
    destruct H as [->|[-> _]]; cbn; auto. }
  repeat split.
  - intros k t' Hk. apply Hd. eapply I1; eauto.
  - apply Hd. eapply I2; eauto.
  - apply Hd. eapply I2; eauto.
  - intros k t' Hk. apply Hd. eapply I1; eauto.
Qed.

(** A write to the store changes both indexes or none. *)
Lemma store_both w o c a w1 : exec E w o c = (a, w1) ->
  (w_tid w1 = w_tid w /\ w_tval w1 = w_tval w)
  \/ (exists iss t, c = CTokCreate iss t /\
        w_tid w1 = upd (w_tid w) (t_id t) (Some (hashed E iss t)) /\
        w_tval w1 = upd (w_tval w) (tok_key E iss (t_value t)) (Some (hashed E iss t)))
  \/ (exists iss id t, c = CTokRevoke iss id /\ w_tid w id = Some t /\
        w_tid w1 = upd (w_tid w) (t_id t) (Some (set_status t TsRevoked)) /\
        w_tval w1 = upd (w_tval w) (t_value t) (Some (set_status t TsRevoked))).
Proof.
  intros H. destruct c; cbn in H;
    try (inversion H; subst; auto; fail);
    try match type of H with context[w_tid w ?x] =>
      destruct (w_tid w x) eqn:Hid; [|destruct (o_fault o); inversion H; subst; auto] end;
    try match type of H with context[do_write ?f ?w ?w' ?v] =>
      destruct (do_write f w w' v) as [r2 w2] eqn:Hd; inversion H; subst; clear H;
      destruct (do_write_spec _ _ _ _ _ _ Hd) as [->|[-> ?]]; cbn; auto end.
  - right; left. exists issuer, t. auto.
  - right; right. exists issuer, id, t. auto.
Qed.

Lemma tok_coherent w0 h w : no_tokens w0 -> wtrace E w0 h w -> no_reuse E h -> coherent w.
Proof.
  intros Hn Ht. pattern h, w. revert h w Ht. apply wtrace_ind_past.
  - intros _. destruct Hn as [N1 N2]. split; intros k t; rewrite ?N1, ?N2; discriminate.
  - intros h w e w1 IH H0 H1 Hu. specialize (IH (no_reuse_app _ _ Hu)). destruct IH as [C1 C2].
    assert (Hkeep : w_tid w1 = w_tid w -> w_tval w1 = w_tval w -> coherent w1).
    { intros X Y. unfold coherent. rewrite X, Y. split; auto. }
    inversion H1 as [| ? ? ? ? ? Hx| ? ? ? ? ? Hx| ? ? ? ? Hx| ? i c a o w2 ? ? Hx Hz]; subst.
    { inversion Hx; subst; apply Hkeep; auto. }
    { inversion Hx; subst; apply Hkeep; auto. }
    { inversion Hx; subst; apply Hkeep; auto. }
    inversion Hz; subst. destruct (tok_inv _ _ _ Hn H0) as [I1 I2].
    destruct (store_both _ _ _ _ _ Hx) as [[X Y]|[(iss & t & -> & X & Y)|(iss & id & t & -> & Hid & X & Y)]].
    + apply Hkeep; auto.
    + destruct (fresh_create _ _ _ _ _ _ _ Hn H0 Hu) as (F1 & F2 & F3).
      unfold coherent. rewrite X, Y. split; intros k t' Hk.
      * destruct (upd_cases (w_tval w) (tok_key E iss (t_value t)) (Some (hashed E iss t)) k) as [[-> U]|[Hne U]];
          rewrite U in Hk.
        -- injection Hk as <-. cbn. apply upd_same.
        -- rewrite upd_other; [apply (C1 k); auto|]. apply (F2 k t' Hk).
      * destruct (upd_cases (w_tid w) (t_id t) (Some (hashed E iss t)) k) as [[-> U]|[Hne U]]; rewrite U in Hk.
        -- injection Hk as <-. cbn. apply upd_same.
        -- rewrite upd_other; [apply (C2 k); auto|]. apply (F3 k t' Hk).
    + destruct (I1 _ _ Hid) as [Hid' _].
      pose proof (C2 _ _ Hid) as Hv.
      unfold coherent. rewrite X, Y. split; intros k t' Hk.
      * destruct (upd_cases (w_tval w) (t_value t) (Some (set_status t TsRevoked)) k) as [[-> U]|[Hne U]];
          rewrite U in Hk.
        -- injection Hk as <-. cbn. apply upd_same.
        -- rewrite upd_other; [apply (C1 k); auto|]. intros Heq.
           pose proof (C1 _ _ Hk) as Hk'. rewrite Heq, Hid', Hid in Hk'. injection Hk' as <-.
           destruct (I2 _ _ Hk) as [Hk' _]. auto.
      * destruct (upd_cases (w_tid w) (t_id t) (Some (set_status t TsRevoked)) k) as [[-> U]|[Hne U]]; rewrite U in Hk.
        -- injection Hk as <-. cbn. apply upd_same.
        -- rewrite upd_other; [apply (C2 k); auto|]. intros Heq.
           pose proof (C2 _ _ Hk) as Hk'. rewrite Heq, Hv in Hk'. injection Hk' as <-.
           destruct (I1 _ _ Hk) as [Hk' _]. auto.
Qed.

(** ** Evolution of one entry *)

Lemma no_reuse_tail h1 h2 : no_reuse E (h1 ++ h2)%list -> no_reuse E h2.
Proof.
  intros H k1 i iss t a k2 j iss' t' a' k3 ->.
  apply (H (h1 ++ k1)%list i iss t a k2 j iss' t' a' k3). rewrite <- app_assoc. reflexivity.
Qed.

(** A stored token stays, at most its status changes. *)
Lemma tval_evolves w0 h0 w h w' k t :
  no_tokens w0 -> wtrace E w0 h0 w -> wtrace E w h w' -> no_reuse E (h0 ++ h)%list ->
  w_tval w k = Some t ->
  w_tval w' k = Some t \/
  w_tval w' k = Some (set_status t TsRevoked) /\ exists j iss a, In (EvCall j (CTokRevoke iss (t_id t)) a) h.
Proof.
  intros Hn H0 Ht. revert w' Ht. pattern h. induction h as [|e h IH] using rev_ind; intros w' Ht Hu Hk.
  - inversion Ht; subst. auto.
  - apply wtrace_app in Ht as (w1 & Ha & Hb).
    rewrite app_assoc in Hu.
    specialize (IH _ Ha (no_reuse_app _ _ Hu) Hk).
    assert (H01 : wtrace E w0 (h0 ++ h)%list w1).
    { clear - H0 Ha. induction H0; cbn; auto; econstructor; eauto. }
    assert (Hkeep : w_tval w' k = w_tval w1 k -> w_tval w' k = Some t \/
      w_tval w' k = Some (set_status t TsRevoked) /\
      exists j iss a, In (EvCall j (CTokRevoke iss (t_id t)) a) (h ++ [e])%list).
    { intros ->. destruct IH as [IH|(IH & j & iss & a & Hin)]; auto. right. split; auto.
      exists j, iss, a. apply in_or_app; auto. }
    inversion Hb as [| ? ? ? ? ? Hx| ? ? ? ? ? Hx| ? ? ? ? Hx| ? i c a o w2 ? ? Hx Hz]; subst.
    { inversion Hx; subst; apply Hkeep; auto. }
    { inversion Hx; subst; apply Hkeep; auto. }
    { inversion Hx; subst; apply Hkeep; auto. }
    inversion Hz; subst. destruct (tok_inv _ _ _ Hn H01) as [I1 I2].
    destruct (store_both _ _ _ _ _ Hx) as [[X Y]|[(iss & t1 & -> & X & Y)|(iss & id & t1 & -> & Hid & X & Y)]].
    + apply Hkeep. rewrite Y; auto.
    + apply Hkeep. rewrite Y. apply upd_other. intros ->.
      destruct (fresh_create _ _ _ _ _ _ _ Hn H01 Hu) as (F1 & F2 & F3).
      assert (exists t', w_tval w1 (tok_key E iss (t_value t1)) = Some t') as (t' & Ht').
      { destruct IH as [IH|(IH & _)]; eauto. }
      destruct (F2 _ _ Ht') as [_ F]. apply F. apply (I2 _ _ Ht').
    + destruct (upd_cases (w_tval w1) (t_value t1) (Some (set_status t1 TsRevoked)) k) as [[-> U]|[Hne U]].
      * rewrite Y, U. right.
        destruct (tok_coherent _ _ _ Hn H01 (no_reuse_app _ _ Hu)) as [C1 C2].
        pose proof (C2 _ _ Hid) as Hv. destruct (I1 _ _ Hid) as [Hid' _].
        split.
        -- destruct IH as [IH|(IH & _)]; rewrite IH in Hv; injection Hv as <-; reflexivity.
        -- exists i, iss, a. apply in_or_app. right; left.
           destruct IH as [IH|(IH & _)]; rewrite IH in Hv; injection Hv as <-; cbn in Hid';
             rewrite Hid'; reflexivity.
      * apply Hkeep. rewrite Y, U. reflexivity.
Qed.

(** Once revoked, an entry stays revoked until a token is created on it. *)
Lemma revoked_stays w h w' k t :
  wtrace E w h w' -> w_tval w k = Some t -> t_status t = TsRevoked ->
  (forall i iss t' a, In (EvCall i (CTokCreate iss t') a) h -> tok_key E iss (t_value t') <> k) ->
  exists t', w_tval w' k = Some t' /\ t_status t' = TsRevoked.
Proof.
  intros Ht. revert t.
  induction Ht as [|w i r h w' Ht IH|w i o h w' Ht IH|w d h w' Ht IH|w i c a o w1 h w' Hx Ht IH]; intros t Hk Hs Hc.
  - eauto.
  - apply (IH t); auto. intros j iss t' a' Hin. eapply Hc. right; eauto.
  - apply (IH t); auto. intros j iss t' a' Hin. eapply Hc. right; eauto.
  - apply (IH t); auto. intros j iss t' a' Hin. eapply Hc. right; eauto.
  - assert (Hc' : forall j iss t' a', In (EvCall j (CTokCreate iss t') a') h -> tok_key E iss (t_value t') <> k).
    { intros j iss t' a' Hin. eapply Hc. right; eauto. }
    destruct (store_both _ _ _ _ _ Hx) as [[X Y]|[(iss & t1 & -> & X & Y)|(iss & id & t1 & -> & Hid & X & Y)]].
    + apply (IH t); auto. rewrite Y; auto.
    + apply (IH t); auto. rewrite Y, upd_other; auto.
      intros ->. eapply (Hc i iss t1 a); [left; auto|reflexivity].
    + destruct (upd_cases (w_tval w) (t_value t1) (Some (set_status t1 TsRevoked)) k) as [[-> U]|[Hne U]].
      * apply (IH (set_status t1 TsRevoked)); auto. rewrite Y; auto.
      * apply (IH t); auto. rewrite Y, U; auto.
Qed.

(** A successful revocation marks the entry. *)
Lemma revoke_marks w0 h0 w o iss id a w1 k t :
  no_tokens w0 -> wtrace E w0 h0 w -> no_reuse E h0 ->
  exec E w o (CTokRevoke iss id) = (AUnit a, w1) -> is_ok a = true ->
  w_tval w k = Some t -> t_id t = id ->
  w_tval w1 k = Some (set_status t TsRevoked).
Proof.
  intros Hn H0 Hu Hx Ha Hk <-.
  destruct (tok_coherent _ _ _ Hn H0 Hu) as [C1 C2]. destruct (tok_inv _ _ _ Hn H0) as [I1 I2].
  pose proof (C1 _ _ Hk) as Hid. destruct (I2 _ _ Hk) as [<- _].
  eapply tval_written; eauto. cbn. rewrite Hid. reflexivity.
Qed.

(** What an entry of the store says about the past: not revoked since its creation,
    or revoked since. *)
Lemma tok_current w0 h w k t : no_tokens w0 -> wtrace E w0 h w -> no_reuse E h -> w_tval w k = Some t ->
  exists h1 i iss t0 a h2, h = (h1 ++ EvCall i (CTokCreate iss t0) a :: h2)%list /\
    k = tok_key E iss (t_value t0) /\
    ((t = hashed E iss t0 /\ ~ revoked_in h2 (t_id t0)) \/
     (t = set_status (hashed E iss t0) TsRevoked /\
      exists j iss' a', In (EvCall j (CTokRevoke iss' (t_id t0)) a') h2)).
Proof.
  intros Hn Ht. revert k t. pattern h, w. revert h w Ht. apply wtrace_ind_past.
  { intros k t _ H. destruct Hn as [_ Hn]. rewrite Hn in H. discriminate. }
  intros h w e w1 IH H0 H1 k t Hu Hk.
  pose proof (no_reuse_app _ _ Hu) as Hu0.
  assert (Hkeep : w_tval w k = Some t -> (forall j iss a, e = EvCall j (CTokRevoke iss (t_id t)) a -> ans_ok a = false) ->
    exists h1 i iss t0 a h2, (h ++ [e])%list = (h1 ++ EvCall i (CTokCreate iss t0) a :: h2)%list /\
    k = tok_key E iss (t_value t0) /\
    ((t = hashed E iss t0 /\ ~ revoked_in h2 (t_id t0)) \/
     (t = set_status (hashed E iss t0) TsRevoked /\
      exists j iss' a', In (EvCall j (CTokRevoke iss' (t_id t0)) a') h2))).
  { intros Hw He. destruct (IH _ _ Hu0 Hw) as (h1 & i & iss & t0 & a & h2 & -> & Hk' & Hd).
    exists h1, i, iss, t0, a, (h2 ++ [e])%list. rewrite <- app_assoc. repeat split; auto.
    destruct Hd as [[-> Hd]|(-> & j & iss' & a' & Hd)].
    - left. split; auto. intros (j & iss' & a' & Hin & Ha). apply in_app_or in Hin as [Hin|[->|[]]].
      + apply Hd. exists j, iss', a'. auto.
      + cbn in He. rewrite (He _ _ _ eq_refl) in Ha. discriminate.
    - right. split; auto. exists j, iss', a'. apply in_or_app; auto. }
  inversion H1 as [| ? ? ? ? ? Hx| ? ? ? ? ? Hx| ? ? ? ? Hx| ? i c a o w2 ? ? Hx Hz]; subst.
  { inversion Hx; subst. apply Hkeep; auto. discriminate. }
  { inversion Hx; subst. apply Hkeep; auto. discriminate. }
  { inversion Hx; subst. apply Hkeep; auto. discriminate. }
  inversion Hz; subst.
  destruct (tok_inv _ _ _ Hn H0) as [I1 I2].
  destruct (tok_coherent _ _ _ Hn H0 Hu0) as [C1 C2].
  destruct (store_both _ _ _ _ _ Hx) as [[X Y]|[(iss & t1 & -> & X & Y)|(iss & id & t1 & -> & Hid & X & Y)]].
  - rewrite Y in Hk.
    destruct (match c with CTokRevoke _ id => String.eqb id (t_id t) && ans_ok a | _ => false end) eqn:Hc.
    + destruct c; try discriminate. apply andb_true_iff in Hc as [Hc Ha]. apply String.eqb_eq in Hc. subst id.
      pose proof (C1 _ _ Hk) as Hid.
      pose proof (tid_written _ _ _ _ _ _ (t_id t) (Some (set_status t TsRevoked)) Hx) as Hw.
      cbn in Hw. rewrite Hid in Hw. specialize (Hw eq_refl Ha). rewrite X, Hid in Hw. injection Hw as Hw.
      destruct (IH _ _ Hu0 Hk) as (h1 & i0 & iss0 & t0 & a0 & h2 & -> & Hk' & Hd).
      exists h1, i0, iss0, t0, a0, (h2 ++ [EvCall i (CTokRevoke issuer (t_id t)) a])%list.
      rewrite <- app_assoc. repeat split; auto. right. split.
      * destruct Hd as [[-> Hd]|(-> & _)]; auto.
      * exists i, issuer, a. apply in_or_app. right; left. destruct Hd as [[-> Hd]|(-> & _)]; auto.
    + apply Hkeep; auto. intros j iss a' Heq. injection Heq as -> -> ->.
      rewrite String.eqb_refl in Hc. auto.
  - destruct (upd_cases (w_tval w) (tok_key E iss (t_value t1)) (Some (hashed E iss t1)) k) as [[-> U]|[Hne U]];
      rewrite Y, U in Hk.
    + injection Hk as <-. exists h, i, iss, t1, a, []. repeat split; auto. left. split; auto.
      intros (? & ? & ? & [] & _).
    + apply Hkeep; auto. discriminate.
  - destruct (upd_cases (w_tval w) (t_value t1) (Some (set_status t1 TsRevoked)) k) as [[-> U]|[Hne U]];
      rewrite Y, U in Hk.
    + injection Hk as <-. pose proof (C2 _ _ Hid) as Hv.
      destruct (IH _ _ Hu0 Hv) as (h1 & i0 & iss0 & t0 & a0 & h2 & -> & Hk' & Hd).
      destruct (I1 _ _ Hid) as [Hid' _].
      exists h1, i0, iss0, t0, a0, (h2 ++ [EvCall i (CTokRevoke iss id) a])%list.
      rewrite <- app_assoc. repeat split; auto. right. split.
      * destruct Hd as [[-> Hd]|(-> & _)]; reflexivity.
      * exists i, iss, a. apply in_or_app. right; left.
        destruct Hd as [[-> Hd]|(-> & _)]; cbn in Hid'; rewrite Hid'; auto.
    + apply Hkeep; auto. intros j iss' a' Heq. injection Heq as -> -> -> ->.
      exfalso. apply Hne. pose proof (C1 _ _ Hk) as Hid''. rewrite Hid in Hid''. injection Hid'' as ->.
      symmetry. apply (I2 _ _ Hk).
Qed.

End TokStore.
