(** * What the token store says: proofs *)

From Verif Require Export PfDev2.

(** A token whose copy [st] was read. *)
Definition copy_of (t0 st : token) : Prop :=
  t_type st = t_type t0 /\ t_meta st = t_meta t0 /\ t_cnf st = t_cnf t0 /\ t_id st = t_id t0.

Section Created.
Context (E : ext) (w : world) (xs : list sched) (P : list event -> token -> Prop).
Notation h := (history E w xs).
Hypothesis Hn : no_tokens w.
Hypothesis Hmono : forall h1 h2 t, P h1 t -> P (h1 ++ h2)%list t.
Hypothesis Hstep : forall h1 i iss t a h2 req,
  h = (h1 ++ EvCall i (CTokCreate iss t) a :: h2)%list ->
  In (EvStart i (RToken (Some req))) h1 -> justified E req (calls_of i h1) iss t ->
  (forall v st, In (EvCall i (CTokGet (tq_issuer req) v) (ATok (SOk st))) h1 ->
     exists t0, copy_of t0 st /\ P h1 t0) ->
  P h1 t.

(** Induction over the creation of tokens. *)
Lemma created_ind h1 i iss t a h2 : h = (h1 ++ EvCall i (CTokCreate iss t) a :: h2)%list -> P h1 t.
Proof using Hn Hmono Hstep.
  revert i iss t a h2. induction h1 as [h1 IH] using (induction_ltof1 _ (@List.length event)).
  unfold ltof in IH. intros i iss t a h2 Hh.
  destruct (write_reason _ _ _ _ _ _ _ _ Hh) as (r & R1 & R2).
  destruct R2 as (req & -> & J).
  eapply Hstep; eauto. intros v st Hin. apply in_split in Hin as (g1 & g2 & ->).
  assert (Hsp : h = (g1 ++ EvCall i (CTokGet (tq_issuer req) v) (ATok (SOk st)) ::
     (g2 ++ EvCall i (CTokCreate iss t) a :: h2))%list) by (rewrite Hh; list_eq).
  destruct (tok_origin _ _ _ _ _ _ _ _ _ Hn Hsp) as (t0 & iss' & (k & i' & a' & S1 & S2) & Ht).
  exists t0. split; [destruct Ht as [->| ->]; repeat split|].
  apply in_split in S1 as (e1 & e2 & ->).
  replace ((e1 ++ EvCall k (CTokCreate i' t0) a' :: e2) ++ EvCall i (CTokGet (tq_issuer req) v) (ATok (SOk st)) :: g2)%list
    with (e1 ++ (EvCall k (CTokCreate i' t0) a' :: e2 ++ EvCall i (CTokGet (tq_issuer req) v) (ATok (SOk st)) :: g2))%list
    by list_eq.
  apply Hmono. eapply (IH e1) with (h2 := (e2 ++ EvCall i (CTokGet (tq_issuer req) v) (ATok (SOk st)) ::
     (g2 ++ EvCall i (CTokCreate iss t) a :: h2))%list).
  - rewrite !app_length. cbn. rewrite ?app_length. lia.
  - rewrite Hsp. list_eq.
Qed.
End Created.

(** A stored token was created. *)
Lemma final_created E w xs k t : no_tokens w ->
  w_tval (final E w xs) k = Some t \/ w_tid (final E w xs) k = Some t ->
  exists h1 i iss t0 a h2, history E w xs = (h1 ++ EvCall i (CTokCreate iss t0) a :: h2)%list /\ copy_of t0 t /\
    (t_status t = t_status t0 \/ t_status t = TsRevoked).
Proof.
  intros Hn Hk. destruct (tok_inv E w _ _ Hn (history_wtrace E w xs)) as [I1 I2].
  assert (Hd : tdesc E (history E w xs) t).
  { destruct Hk as [Hk|Hk]; [apply (I2 _ _ Hk)|apply (I1 _ _ Hk)]. }
  destruct Hd as (h1 & i & iss & t0 & a & h2 & Hh & D). exists h1, i, iss, t0, a, h2. split; auto.
  destruct D as [->|[-> _]]; split; repeat split; auto.
Qed.

(** ** C20 *)

Lemma plus_seconds t n : unix (t + n * second) = (unix t + n)%N.
Proof. unfold unix. rewrite N.div_add by discriminate. reflexivity. Qed.

Lemma just_times E req tr iss t : justified E req tr iss t ->
  exists m tm, t_meta t = Some m /\ did tr CNow (ATime tm) /\ m_issued_at m = unix tm /\ t_status t = TsActive /\
    ((t_type t = TtRefresh /\ m_expires_at m = (m_issued_at m + 604800)%N) \/
     (t_type t = TtAccess /\ m_expires_at m =
        (m_issued_at m + if String.eqb (tq_grant_type req) "urn:ietf:params:oauth:grant-type:token-exchange" then 60 else 3600)%N)).
Proof.
  intros (auth & c & m & tm & H1 & H2 & H3 & H4 & H5 & H6 & H7 & H8 & H9 & H10).
  exists m, tm. do 3 (split; [assumption|]).
  assert (Hat : forall cid m0 cnf id v, t = at_spec cid m0 cnf tm id v ->
     String.eqb (tq_grant_type req) "urn:ietf:params:oauth:grant-type:token-exchange" = false ->
     t_status t = TsActive /\
    ((t_type t = TtRefresh /\ m_expires_at m = (m_issued_at m + 604800)%N) \/
     (t_type t = TtAccess /\ m_expires_at m =
        (m_issued_at m + if String.eqb (tq_grant_type req) "urn:ietf:params:oauth:grant-type:token-exchange" then 60 else 3600)%N))).
  { intros cid m0 cnf id v -> ->. cbn in H4. injection H4 as <-. split; [reflexivity|]. right. split; [reflexivity|].
    cbn. change hour with (3600 * second)%N. apply plus_seconds. }
  assert (Hrt : forall cid m0 cnf id v, t = rt_spec cid m0 cnf tm id v ->
     t_status t = TsActive /\
    ((t_type t = TtRefresh /\ m_expires_at m = (m_issued_at m + 604800)%N) \/
     (t_type t = TtAccess /\ m_expires_at m =
        (m_issued_at m + if String.eqb (tq_grant_type req) "urn:ietf:params:oauth:grant-type:token-exchange" then 60 else 3600)%N))).
  { intros cid m0 cnf id v ->. cbn in H4. injection H4 as <-. split; [reflexivity|]. left. split; [reflexivity|].
    cbn. change week with (604800 * second)%N. apply plus_seconds. }
  assert (Hex : forall g, grant_matches (tq_grant_type req) g = true ->
     match g with GTokenExchange _ _ => True | _ =>
       String.eqb (tq_grant_type req) "urn:ietf:params:oauth:grant-type:token-exchange" = false end).
  { intros g Hg. destruct g; auto;
      destruct (String.eqb_spec (tq_grant_type req) "urn:ietf:params:oauth:grant-type:token-exchange") as [X|]; auto;
      rewrite X in Hg; discriminate. }
  specialize (Hex _ H7). unfold grant_just in H10. destruct (tq_grant req) as [|code redirect verif| |code|value|value ty] eqn:Hg.
  - destruct H10.
  - destruct H10 as (s & ar & rd & _ & _ & _ & _ & _ & _ & [X|[_ X]]); [eapply Hat|eapply Hrt]; eauto.
  - destruct H10 as (_ & _ & X & _). eapply Hat; eauto.
  - destruct H10 as (s & dr & dc & sub & t0 & _ & _ & _ & _ & _ & _ & _ & _ & _ & _ & [X|[_ X]]); [eapply Hat|eapply Hrt]; eauto.
  - destruct H10 as (rt & m0 & t0 & _ & _ & _ & _ & _ & _ & _ & _ & _ & [X|X]); [eapply Hat|eapply Hrt]; eauto.
  - destruct H10 as (st & m0 & t0 & sc & aud & _ & _ & _ & _ & _ & _ & _ & _ & _ & X).
    rewrite X in H4. cbn in H4. injection H4 as <-. rewrite X. split; [reflexivity|]. right. split; [reflexivity|].
    assert (tq_grant_type req = "urn:ietf:params:oauth:grant-type:token-exchange"%string) as ->.
    { unfold grant_matches in H7. 
      repeat match type of H7 with (if String.eqb ?a ?b then _ else _) = true => destruct (String.eqb_spec a b); try discriminate; auto end. }
    cbn. change minute with (60 * second)%N. apply plus_seconds.
Qed.

Lemma C20_lifetimes_proof : forall E w xs k t,
  no_tokens w -> w_tval (final E w xs) k = Some t ->
  exists h1 h2 i req m,
    history E w xs = (h1 ++ h2)%list /\ during h1 i (RToken (Some req)) /\
    t_meta t = Some m /\ m_issued_at m = unix (clock w h1) /\
    ((t_type t = TtRefresh /\ m_expires_at m = (m_issued_at m + 604800)%N) \/
     (t_type t = TtAccess /\ m_expires_at m =
        (m_issued_at m + if String.eqb (tq_grant_type req) "urn:ietf:params:oauth:grant-type:token-exchange" then 60 else 3600)%N)) /\
    (* created by that very request, after the clock was read *)
    exists iss t0 a, In (EvCall i (CTokCreate iss t0) a) h2 /\ t_id t0 = t_id t /\ t_meta t0 = Some m.
Proof.
  intros E w xs k t Hn Hk. destruct (final_created _ _ _ _ _ Hn (or_introl Hk)) as (h1 & i & iss & t0 & a & h2 & Hh & (C1 & C2 & C3 & C4) & _).
  destruct (write_reason _ _ _ _ _ _ _ _ Hh) as (r & R1 & req & -> & J).
  destruct (just_times _ _ _ _ _ J) as (m & tm & J1 & J2 & J3 & J4 & J5).
  apply did_event in J2. pose proof J2 as J2'. apply in_split in J2' as (g1 & g2 & ->).
  assert (Hsp : history E w xs = (g1 ++ EvCall i CNow (ATime tm) :: (g2 ++ EvCall i (CTokCreate iss t0) a :: h2))%list)
    by (rewrite Hh; list_eq).
  rewrite (now_at _ _ _ _ _ _ _ Hsp) in J3.
  exists g1. eexists. exists i, req, m. split; [exact Hsp|].
  split; [unfold during; eapply started_before; [exact Hsp|rewrite Hh; apply in_or_app; auto]|].
  split; [congruence|]. split; [exact J3|]. split; [rewrite C1; exact J5|].
  exists iss, t0, a. split; [|auto]. right. apply in_or_app. right. left. reflexivity.
Qed.

(** ** C21 *)

Lemma consented_mono h1 h2 s : consented h1 s -> consented (h1 ++ h2)%list s.
Proof.
  intros [(k & q & code & s' & a & H1 & H2 & H3 & H4)|(k & q & s' & a & H1 & H2 & H3 & H4)];
    [left; exists k, q, code, s', a|right; exists k, q, s', a]; rewrite !in_app_iff; auto.
Qed.

Lemma just_subject E w xs h1 i iss t a h2 req :
  blank w -> stamp_ok w -> history E w xs = (h1 ++ EvCall i (CTokCreate iss t) a :: h2)%list ->
  In (EvStart i (RToken (Some req))) h1 -> justified E req (calls_of i h1) iss t ->
  (forall v st, In (EvCall i (CTokGet (tq_issuer req) v) (ATok (SOk st))) h1 ->
     exists t0, copy_of t0 st /\ forall m0, t_meta t0 = Some m0 -> m_subject m0 <> ""%string -> consented h1 (m_subject m0)) ->
  forall m, t_meta t = Some m -> m_subject m <> ""%string -> consented h1 (m_subject m).
Proof.
  intros Hb Hst Hh Hi (auth & c & m & tm & H1 & H2 & H3 & H4 & H5 & H6 & H7 & H8 & H9 & H10) Hrec m' Hm' Hs.
  rewrite H4 in Hm'. injection Hm' as <-.
  unfold grant_just in H10. destruct (tq_grant req) as [|code redirect verif| |code|value|value ty] eqn:Hg.
  - destruct H10.
  - destruct H10 as (s & ar & rd & D1 & _ & _ & Hf & _ & _ & X).
    assert (Hsub : m_subject m = as_subject s) by (destruct X as [X|[_ X]]; rewrite X in H4; cbn in H4; injection H4 as <-; reflexivity).
    apply did_event in D1. apply in_split in D1 as (g1 & g2 & ->).
    assert (Hsp : history E w xs = (g1 ++ EvCall i (CSessGet (tq_issuer req) code) (ASess (SOk s)) ::
      (g2 ++ EvCall i (CTokCreate iss t) a :: h2))%list) by (rewrite Hh; list_eq).
    destruct (sess_authorized _ _ _ _ _ _ _ _ _ Hb Hsp) as (ar' & _ & (e1 & k & q & code' & a' & e2 & -> & Q1 & Q2 & _)).
    apply consented_mono. rewrite Hsub. left. exists k, q, code'. do 2 eexists.
    split; [apply in_or_app; left; exact Q1|]. split; [exact Q2|].
    split; [apply in_or_app; right; left; reflexivity|]. reflexivity.
  - destruct H10 as (_ & _ & X & _). rewrite X in H4. cbn in H4. injection H4 as <-. cbn in Hs. congruence.
  - destruct H10 as (s & dr & dc & sub & t0 & D1 & _ & _ & _ & _ & _ & Hv & Hds & _ & _ & X).
    assert (Hsub : m_subject m = sub) by (destruct X as [X|[_ X]]; rewrite X in H4; cbn in H4; injection H4 as <-; reflexivity).
    apply did_event in D1. apply in_split in D1 as (g1 & g2 & ->).
    assert (Hsp : history E w xs = (g1 ++ EvCall i (CDevGetDev (tq_issuer req) code) (ADev (SOk s)) ::
      (g2 ++ EvCall i (CTokCreate iss t) a :: h2))%list) by (rewrite Hh; list_eq).
    destruct (validated_origin _ _ _ _ _ _ _ _ _ Hb Hst Hsp Hv) as (dq & subject & c' & V1 & V2 & _).
    destruct V1 as (d & uc & s0 & a0 & k & q & s1 & a1 & t1 & W1 & W2 & W3 & W4 & W5 & W6 & W7 & W8 & W9 & W10 & W11 & W12 & _).
    apply consented_mono. rewrite Hsub. right. exists k, q, s1, a1. rewrite Hds in V2. injection V2 as ->. auto.
  - destruct H10 as (rt & m0 & t0 & D1 & _ & _ & _ & Hm0 & _ & _ & _ & _ & X).
    apply did_event in D1. destruct (Hrec _ _ D1) as (t1 & (_ & C2 & _) & Hc). rewrite Hm0 in C2. symmetry in C2.
    assert (Hsub : m_subject m = m_subject m0) by (destruct X as [X|X]; rewrite X in H4; cbn in H4; injection H4 as <-; reflexivity).
    rewrite Hsub in *. eauto.
  - destruct H10 as (rt & m0 & t0 & sc & aud & D1 & _ & _ & _ & Hm0 & _ & _ & _ & _ & X).
    apply did_event in D1. destruct (Hrec _ _ D1) as (t1 & (_ & C2 & _) & Hc). rewrite Hm0 in C2. symmetry in C2.
    assert (Hsub : m_subject m = m_subject m0) by (rewrite X in H4; cbn in H4; injection H4 as <-; reflexivity).
    rewrite Hsub in *. eauto.
Qed.

Lemma created_consented E w xs h1 i iss t a h2 :
  blank w -> stamp_ok w -> history E w xs = (h1 ++ EvCall i (CTokCreate iss t) a :: h2)%list ->
  forall m, t_meta t = Some m -> m_subject m <> ""%string -> consented h1 (m_subject m).
Proof.
  intros Hb Hst Hh.
  apply (created_ind E w xs (fun h1 t => forall m, t_meta t = Some m -> m_subject m <> ""%string -> consented h1 (m_subject m)))
    with (i := i) (iss := iss) (a := a) (h2 := h2); auto.
  - apply Hb.
  - intros g1 g2 t' H m Hm Hs. apply consented_mono; auto.
  - intros g1 j iss' t' a' g2 req G1 G2 G3 G4. eapply just_subject; eauto.
Qed.

Lemma C21_subjects_consented_proof : forall E w xs k t m,
  blank w -> stamp_ok w -> w_tval (final E w xs) k = Some t -> t_meta t = Some m -> m_subject m <> ""%string ->
  exists h1 i iss t0 a h2, history E w xs = (h1 ++ EvCall i (CTokCreate iss t0) a :: h2)%list /\
    t_id t0 = t_id t /\ t_meta t0 = Some m /\ consented h1 (m_subject m).
Proof.
  intros E w xs k t m Hb Hst Hk Hm Hs.
  destruct (final_created _ _ _ _ _ (proj1 Hb) (or_introl Hk)) as (h1 & i & iss & t0 & a & h2 & Hh & (C1 & C2 & C3 & C4) & _).
  exists h1, i, iss, t0, a, h2. split; [exact Hh|]. split; [auto|]. split; [congruence|].
  eapply created_consented; eauto. congruence.
Qed.
