(** * Facts about storage along histories (proofs only) *)

From Verif Require Export SysLemmas Spec ProgTac.

Lemma upd_same {A} (m : fmap A) k v : upd m k v k = v.
Proof. unfold upd. rewrite String.eqb_refl. reflexivity. Qed.
Lemma upd_other {A} (m : fmap A) k v k' : k' <> k -> upd m k v k' = m k'.
Proof. unfold upd. intros H. apply String.eqb_neq in H. rewrite H. reflexivity. Qed.
Lemma upd_cases {A} (m : fmap A) k v k' : (k' = k /\ upd m k v k' = v) \/ (k' <> k /\ upd m k v k' = m k').
Proof.
  unfold upd. destruct (String.eqb_spec k' k); auto.
Qed.

(** ** Outcome of writes *)

Lemma do_write_spec {A} f w w' (v : A) r w1 : do_write f w w' v = (r, w1) ->
  (w1 = w' \/ (w1 = w /\ is_ok r = false)).
Proof. destruct f; cbn; intros H; inversion H; auto. Qed.

Lemma do_write_ok {A} f w w' (v : A) r w1 : do_write f w w' v = (r, w1) -> is_ok r = true ->
  w1 = w' /\ r = SOk v.
Proof. destruct f; cbn; intros H; inversion H; subst; cbn; intros; try discriminate; auto. Qed.

(** ** Constant parts *)

Lemma exec_const E w o c a w1 : exec E w o c = (a, w1) ->
  w_now w1 = w_now w /\ w_clients w1 = w_clients w /\ w_resources w1 = w_resources w /\ w_stamp w1 = w_stamp w.
Proof.
  destruct c; cbn; intros H; try (inversion H; subst; repeat split; reflexivity);
  try (destruct (w_tid w id); [|destruct (o_fault o); inversion H; subst; repeat split; reflexivity]);
  match type of H with context[do_write ?f ?w ?w' ?v] => destruct (do_write f w w' v) as [rr w2] eqn:Hd end;
  inversion H; subst; destruct (do_write_spec _ _ _ _ _ _ Hd) as [->|[-> _]]; repeat split; reflexivity.
Qed.

Lemma wtrace_const E w h w' : wtrace E w h w' ->
  w_clients w' = w_clients w /\ w_resources w' = w_resources w /\ w_stamp w' = w_stamp w.
Proof.
  induction 1 as [| | | |w i c a o w1 h w' Hx Ht IH]; auto.
  apply exec_const in Hx as (_ & H1 & H2 & H3). destruct IH as (I1 & I2 & I3). repeat split; congruence.
Qed.

Lemma elapsed_app h1 h2 : elapsed (h1 ++ h2)%list = (elapsed h1 + elapsed h2)%N.
Proof. induction h1 as [|e h1 IH]; cbn; auto. destruct e; lia. Qed.

Lemma wtrace_now E w h w' : wtrace E w h w' -> w_now w' = (w_now w + elapsed h)%N.
Proof.
  induction 1 as [| | |w d h w' Ht IH|w i c a o w1 h w' Hx Ht IH]; cbn in *; try lia.
  apply exec_const in Hx as (H1 & _). rewrite IH, H1. reflexivity.
Qed.

(** ** One map of the storage *)

Section OneMap.
Context (E : ext) {V : Type} (M : world -> fmap V).
(** The (single) entry a call rewrites. *)
Context (wr : world -> call -> option (string * option V)).
Hypothesis M_now : forall w t, M (with_now w t) = M w.
Hypothesis M_exec : forall w o c a w1, exec E w o c = (a, w1) ->
  match wr w c with
  | None => M w1 = M w
  | Some (k, v) => M w1 = upd (M w) k v \/ (M w1 = M w /\ ans_ok a = false)
  end.

(** Where an entry comes from. *)
Lemma map_prov w0 h w k v : wtrace E w0 h w -> M w k = Some v ->
  M w0 k = Some v
  \/ exists h1 i c a h2 wm, h = (h1 ++ EvCall i c a :: h2)%list /\ wtrace E w0 h1 wm /\
       wr wm c = Some (k, Some v).
Proof.
  intros Ht. revert k v. pattern h, w. revert h w Ht. apply wtrace_ind_past; [auto|].
  intros h w e w1 IH H0 H1 k v Hk.
  assert (Hkeep : M w k = Some v -> M w0 k = Some v \/
     exists h1 i c a h2 wm, (h ++ [e])%list = (h1 ++ EvCall i c a :: h2)%list /\ wtrace E w0 h1 wm /\
       wr wm c = Some (k, Some v)).
  { intros Hw. destruct (IH _ _ Hw) as [X|(h1 & i & c & a & h2 & wm & -> & X1 & X2)]; [auto|].
    right. exists h1, i, c, a, (h2 ++ [e])%list, wm. rewrite <- app_assoc. auto. }
  inversion H1 as [| ? ? ? ? ? Hn| ? ? ? ? ? Hn| ? ? ? ? Hn| ? i c a o w2 ? ? Hx Hn]; subst;
    inversion Hn; subst; auto.
  - rewrite M_now in Hk. auto.
  - pose proof (M_exec _ _ _ _ _ Hx) as Hm. destruct (wr w c) as [[k' v']|] eqn:Hw.
    + destruct Hm as [Hm|[Hm _]]; rewrite Hm in Hk; auto.
      destruct (upd_cases (M w) k' v' k) as [[-> Hu]|[Hn' Hu]]; rewrite Hu in Hk; auto.
      right. exists h, i, c, a, [], w. subst v'. auto.
    + rewrite Hm in Hk; auto.
Qed.

(** Entries nobody writes stay as they are. *)
Lemma map_frame w h w' k : wtrace E w h w' ->
  (forall h1 i c a h2 wm v, h = (h1 ++ EvCall i c a :: h2)%list -> wtrace E w h1 wm -> wr wm c <> Some (k, v)) ->
  M w' k = M w k.
Proof.
  induction 1 as [|w i r h w' Ht IH|w i o h w' Ht IH|w d h w' Ht IH|w i c a o w1 h w' Hx Ht IH]; intros Hn; auto.
  - apply IH. intros h1 j c a h2 wm v -> Hw. apply (Hn (EvStart i r :: h1) j c a h2); auto. constructor; auto.
  - apply IH. intros h1 j c a h2 wm v -> Hw. apply (Hn (EvDone i o :: h1) j c a h2); auto. constructor; auto.
  - rewrite IH, M_now; auto.
    intros h1 j c a h2 wm v -> Hw. apply (Hn (EvTick d :: h1) j c a h2); auto. constructor; auto.
  - rewrite IH.
    + pose proof (M_exec _ _ _ _ _ Hx) as Hm. destruct (wr w c) as [[k' v']|] eqn:Hw; [|rewrite Hm; auto].
      destruct Hm as [->|[-> _]]; auto.
      apply upd_other. intros ->. apply (Hn [] i c a h w v'); auto. constructor.
    + intros h1 j c' a' h2 wm v -> Hw. apply (Hn (EvCall i c a :: h1) j c' a' h2); auto.
      econstructor; eauto.
Qed.

(** A missing entry appears only by being written. *)
Lemma map_absent w h w' k : wtrace E w h w' -> M w k = None ->
  (forall h1 i c a h2 wm v, h = (h1 ++ EvCall i c a :: h2)%list -> wtrace E w h1 wm -> wr wm c <> Some (k, Some v)) ->
  M w' k = None.
Proof.
  intros Ht H0 Hn. destruct (M w' k) as [v|] eqn:Hk; auto. exfalso.
  destruct (map_prov _ _ _ _ _ Ht Hk) as [X|(h1 & i & c & a & h2 & wm & -> & X1 & X2)]; [congruence|].
  eapply Hn; eauto.
Qed.

(** A successful write is in effect. *)
Lemma map_written w o c a w1 k v : exec E w o c = (a, w1) -> wr w c = Some (k, v) -> ans_ok a = true ->
  M w1 k = v.
Proof.
  intros Hx Hw Ha. pose proof (M_exec _ _ _ _ _ Hx) as Hm. rewrite Hw in Hm.
  destruct Hm as [->|[_ X]]; [apply upd_same|congruence].
Qed.
(** Where an entry comes from: the last write that reported success, or a later one
    that took effect although it reported an error. *)
Section Last.
Context (key : call -> option string).
Hypothesis key_wr : forall w c, option_map fst (wr w c) = key c.

Lemma map_last w0 h w k v : wtrace E w0 h w -> M w k = Some v ->
  M w0 k = Some v
  \/ exists h1 i c a h2 wm, h = (h1 ++ EvCall i c a :: h2)%list /\ wtrace E w0 h1 wm /\
       wr wm c = Some (k, Some v) /\
       forall j c' a', In (EvCall j c' a') h2 -> key c' = Some k -> ans_ok a' = false.
Proof.
  intros Ht. revert k v. pattern h, w. revert h w Ht. apply wtrace_ind_past; [auto|].
  intros h w e w1 IH H0 H1 k v Hk.
  assert (Hkeep : M w k = Some v ->
     (forall j c' a', e = EvCall j c' a' -> key c' = Some k -> ans_ok a' = false) ->
     M w0 k = Some v \/
     exists h1 i c a h2 wm, (h ++ [e])%list = (h1 ++ EvCall i c a :: h2)%list /\ wtrace E w0 h1 wm /\
       wr wm c = Some (k, Some v) /\
       forall j c' a', In (EvCall j c' a') h2 -> key c' = Some k -> ans_ok a' = false).
  { intros Hw He. destruct (IH _ _ Hw) as [X|(h1 & i & c & a & h2 & wm & -> & X1 & X2 & X3)]; [auto|].
    right. exists h1, i, c, a, (h2 ++ [e])%list, wm. rewrite <- app_assoc. repeat split; auto.
    intros j c' a' Hin Hkey. apply in_app_or in Hin as [Hin|[->|[]]]; eauto. }
  inversion H1 as [| ? ? ? ? ? Hn| ? ? ? ? ? Hn| ? ? ? ? Hn| ? i c a o w2 ? ? Hx Hn]; subst;
    inversion Hn; subst; auto.
  - apply Hkeep; auto. discriminate.
  - apply Hkeep; auto. discriminate.
  - rewrite M_now in Hk. apply Hkeep; auto. discriminate.
  - pose proof (M_exec _ _ _ _ _ Hx) as Hm. pose proof (key_wr w c) as Hkey.
    destruct (wr w c) as [[k' v']|] eqn:Hw; cbn in Hkey.
    + destruct Hm as [Hm|[Hm Hf]]; rewrite Hm in Hk.
      * destruct (upd_cases (M w) k' v' k) as [[-> Hu]|[Hn' Hu]]; rewrite Hu in Hk.
        -- right. exists h, i, c, a, [], w. subst v'. repeat split; auto. intros ? ? ? [].
        -- apply Hkeep; auto. intros ? ? ? X Y. injection X as -> -> ->. congruence.
      * apply Hkeep; auto. intros ? ? ? X Y. injection X as -> -> ->. auto.
    + rewrite Hm in Hk. apply Hkeep; auto. intros ? ? ? X Y. injection X as -> -> ->. congruence.
Qed.
End Last.
End OneMap.

(** ** The maps of the storage *)

Ltac exec_map :=
  let H := fresh "H" in
  intros w o c a w1 H; destruct c; cbn in H |- *;
  try (inversion H; subst; reflexivity);
  try match type of H with context[w_tid w ?x] =>
    destruct (w_tid w x); [|destruct (o_fault o); inversion H; subst; reflexivity] end;
  try match type of H with context[do_write ?f ?w ?w' ?v] =>
    let r := fresh "r" in let w2 := fresh "w2" in let Hd := fresh "Hd" in
    destruct (do_write f w w' v) as [r w2] eqn:Hd; inversion H; subst; cbn;
    destruct (do_write_spec _ _ _ _ _ _ Hd) as [->|[-> ?]]; cbn; auto end.

Section Maps.
Context (E : ext).

Definition wr_sess (w : world) (c : call) : option (string * option (acsession * N)) :=
  match c with
  | CSessReg i c s => Some (sess_key E i c, Some (s, w_now w + session_ttl)%N)
  | CSessDel i c => Some (sess_key E i c, None)
  | _ => None
  end.
Lemma sess_exec : forall w o c a w1, exec E w o c = (a, w1) ->
  match wr_sess w c with
  | None => w_sess w1 = w_sess w
  | Some (k, v) => w_sess w1 = upd (w_sess w) k v \/ (w_sess w1 = w_sess w /\ ans_ok a = false)
  end.
Proof. exec_map. Qed.

Definition wr_req (w : world) (c : call) : option (string * option (authreq * N)) :=
  match c with
  | CReqReg i c s => Some (req_key E i c, Some (s, w_now w + session_ttl)%N)
  | CReqDel i c => Some (req_key E i c, None)
  | _ => None
  end.
Lemma req_exec : forall w o c a w1, exec E w o c = (a, w1) ->
  match wr_req w c with
  | None => w_req w1 = w_req w
  | Some (k, v) => w_req w1 = upd (w_req w) k v \/ (w_req w1 = w_req w /\ ans_ok a = false)
  end.
Proof. exec_map. Qed.

Definition wr_devu (w : world) (c : call) : option (string * option (devsession * N)) :=
  match c with
  | CDevReg _ u s => let s' := w_stamp w (w_now w) s in
      Some (user_key E (ds_issuer s') u, Some (s', w_now w + device_ttl)%N)
  | CDevVal _ u s => Some (user_key E (ds_issuer s) u, Some (s, w_now w + device_ttl)%N)
  | CDevDel i u => Some (user_key E i u, None)
  | _ => None
  end.
Lemma devu_exec : forall w o c a w1, exec E w o c = (a, w1) ->
  match wr_devu w c with
  | None => w_devu w1 = w_devu w
  | Some (k, v) => w_devu w1 = upd (w_devu w) k v \/ (w_devu w1 = w_devu w /\ ans_ok a = false)
  end.
Proof. exec_map. Qed.

Definition wr_devd (w : world) (c : call) : option (string * option (devsession * N)) :=
  match c with
  | CDevReg _ u s => let s' := w_stamp w (w_now w) s in
      Some (device_key E (ds_issuer s') (ds_device_code s'), Some (s', w_now w + device_ttl)%N)
  | CDevVal _ u s => Some (device_key E (ds_issuer s) (ds_device_code s), Some (s, w_now w + device_ttl)%N)
  | _ => None
  end.
Lemma devd_exec : forall w o c a w1, exec E w o c = (a, w1) ->
  match wr_devd w c with
  | None => w_devd w1 = w_devd w
  | Some (k, v) => w_devd w1 = upd (w_devd w) k v \/ (w_devd w1 = w_devd w /\ ans_ok a = false)
  end.
Proof. exec_map. Qed.

Definition wr_proof (w : world) (c : call) : option (string * option (unit * N)) :=
  match c with
  | CProofReg id => Some (id, Some (tt, w_now w + session_ttl)%N)
  | _ => None
  end.
Lemma proof_exec : forall w o c a w1, exec E w o c = (a, w1) ->
  match wr_proof w c with
  | None => w_proof w1 = w_proof w
  | Some (k, v) => w_proof w1 = upd (w_proof w) k v \/ (w_proof w1 = w_proof w /\ ans_ok a = false)
  end.
Proof. exec_map. Qed.

Definition wr_tid (w : world) (c : call) : option (string * option token) :=
  match c with
  | CTokCreate i t => Some (t_id t, Some (hashed E i t))
  | CTokRevoke _ id =>
      match w_tid w id with Some t => Some (t_id t, Some (set_status t TsRevoked)) | None => None end
  | _ => None
  end.
Lemma tid_exec : forall w o c a w1, exec E w o c = (a, w1) ->
  match wr_tid w c with
  | None => w_tid w1 = w_tid w
  | Some (k, v) => w_tid w1 = upd (w_tid w) k v \/ (w_tid w1 = w_tid w /\ ans_ok a = false)
  end.
Proof. exec_map. Qed.

Definition wr_tval (w : world) (c : call) : option (string * option token) :=
  match c with
  | CTokCreate i t => Some (tok_key E i (t_value t), Some (hashed E i t))
  | CTokRevoke _ id =>
      match w_tid w id with Some t => Some (t_value t, Some (set_status t TsRevoked)) | None => None end
  | _ => None
  end.
Lemma tval_exec : forall w o c a w1, exec E w o c = (a, w1) ->
  match wr_tval w c with
  | None => w_tval w1 = w_tval w
  | Some (k, v) => w_tval w1 = upd (w_tval w) k v \/ (w_tval w1 = w_tval w /\ ans_ok a = false)
  end.
Proof. exec_map. Qed.
End Maps.

Definition sess_prov E := map_prov E w_sess (wr_sess E) (fun _ _ => eq_refl) (sess_exec E).
Definition sess_slot E (c : call) : option string :=
  match c with
  | CSessReg i c _ | CSessDel i c => Some (sess_key E i c)
  | _ => None
  end.
Lemma sess_slot_wr E w c : option_map fst (wr_sess E w c) = sess_slot E c.
Proof. destruct c; reflexivity. Qed.
Definition sess_last E := map_last E w_sess (wr_sess E) (fun _ _ => eq_refl) (sess_exec E) (sess_slot E) (sess_slot_wr E).
Definition req_slot E (c : call) : option string :=
  match c with
  | CReqReg i c _ | CReqDel i c => Some (req_key E i c)
  | _ => None
  end.
Lemma req_slot_wr E w c : option_map fst (wr_req E w c) = req_slot E c.
Proof. destruct c; reflexivity. Qed.
Definition req_last E := map_last E w_req (wr_req E) (fun _ _ => eq_refl) (req_exec E) (req_slot E) (req_slot_wr E).
Definition sess_frame E := map_frame E w_sess (wr_sess E) (fun _ _ => eq_refl) (sess_exec E).
Definition sess_absent E := map_absent E w_sess (wr_sess E) (fun _ _ => eq_refl) (sess_exec E).
Definition sess_written E := map_written E w_sess (wr_sess E) (sess_exec E).
Definition req_prov E := map_prov E w_req (wr_req E) (fun _ _ => eq_refl) (req_exec E).
Definition req_frame E := map_frame E w_req (wr_req E) (fun _ _ => eq_refl) (req_exec E).
Definition req_absent E := map_absent E w_req (wr_req E) (fun _ _ => eq_refl) (req_exec E).
Definition req_written E := map_written E w_req (wr_req E) (req_exec E).
Definition devu_prov E := map_prov E w_devu (wr_devu E) (fun _ _ => eq_refl) (devu_exec E).
Definition devd_prov E := map_prov E w_devd (wr_devd E) (fun _ _ => eq_refl) (devd_exec E).
Definition devd_frame E := map_frame E w_devd (wr_devd E) (fun _ _ => eq_refl) (devd_exec E).
Definition devu_absent E := map_absent E w_devu (wr_devu E) (fun _ _ => eq_refl) (devu_exec E).
Definition devd_written E := map_written E w_devd (wr_devd E) (devd_exec E).
Definition devu_written E := map_written E w_devu (wr_devu E) (devu_exec E).
Definition proof_prov E := map_prov E w_proof wr_proof (fun _ _ => eq_refl) (proof_exec E).
Definition proof_frame E := map_frame E w_proof wr_proof (fun _ _ => eq_refl) (proof_exec E).
Definition proof_written E := map_written E w_proof wr_proof (proof_exec E).
Definition tid_prov E := map_prov E w_tid (wr_tid E) (fun _ _ => eq_refl) (tid_exec E).
Definition tval_prov E := map_prov E w_tval (wr_tval E) (fun _ _ => eq_refl) (tval_exec E).
Definition tval_frame E := map_frame E w_tval (wr_tval E) (fun _ _ => eq_refl) (tval_exec E).
Definition tval_absent E := map_absent E w_tval (wr_tval E) (fun _ _ => eq_refl) (tval_exec E).
Definition tid_written E := map_written E w_tid (wr_tid E) (tid_exec E).
Definition tval_written E := map_written E w_tval (wr_tval E) (tval_exec E).

(** ** What reads say *)

Lemma answer_read_ok {A} f (v : option A) x : answer_read f v = SOk x -> v = Some x.
Proof. destruct f; cbn; try discriminate. destruct v; congruence. Qed.

Lemma cache_get_some {A} now (m : cache A) k v :
  cache_get now m k = Some v <-> exists e, m k = Some (v, e) /\ (now <= e)%N.
Proof.
  unfold cache_get. destruct (m k) as [[v' e]|].
  - destruct (N.ltb_spec e now); split; try discriminate.
    + intros (e' & X & Y). inversion X; subst. lia.
    + intros X; inversion X; subst. eauto.
    + intros (e' & X & Y). inversion X; subst. auto.
  - split; [discriminate|intros (e & X & _); discriminate].
Qed.

Section Reads.
Context (E : ext).

Lemma read_client w o id c w1 : exec E w o (CClientGet id) = (AClient (SOk c), w1) -> w_clients w id = Some c.
Proof. cbn. intros H; injection H as H <-. eapply answer_read_ok; eauto. Qed.
Lemma read_res w o id c w1 : exec E w o (CResGet id) = (ARes (SOk c), w1) -> w_resources w id = Some c.
Proof. cbn. intros H; injection H as H <-. eapply answer_read_ok; eauto. Qed.
Lemma read_sess w o i c s w1 : exec E w o (CSessGet i c) = (ASess (SOk s), w1) ->
  w1 = w /\ exists e, w_sess w (sess_key E i c) = Some (s, e) /\ (w_now w <= e)%N.
Proof.
  cbn. intros H; injection H as H <-. apply answer_read_ok in H. apply cache_get_some in H. auto.
Qed.
Lemma read_req w o i c s w1 : exec E w o (CReqGet i c) = (AReq (SOk s), w1) ->
  w1 = w /\ exists e, w_req w (req_key E i c) = Some (s, e) /\ (w_now w <= e)%N.
Proof.
  cbn. intros H; injection H as H <-. apply answer_read_ok in H. apply cache_get_some in H. auto.
Qed.
Lemma read_devd w o i c s w1 : exec E w o (CDevGetDev i c) = (ADev (SOk s), w1) ->
  w1 = w /\ exists e, w_devd w (device_key E i c) = Some (s, e) /\ (w_now w <= e)%N.
Proof.
  cbn. intros H; injection H as H <-. apply answer_read_ok in H. apply cache_get_some in H. auto.
Qed.
Lemma read_devu w o i c s w1 : exec E w o (CDevGetUser i c) = (ADev (SOk s), w1) ->
  w1 = w /\ exists e, w_devu w (user_key E i c) = Some (s, e) /\ (w_now w <= e)%N.
Proof.
  cbn. intros H; injection H as H <-. apply answer_read_ok in H. apply cache_get_some in H. auto.
Qed.
Lemma read_tok w o i v t w1 : exec E w o (CTokGet i v) = (ATok (SOk t), w1) ->
  w1 = w /\ w_tval w (tok_key E i v) = Some t.
Proof. cbn. intros H; injection H as H <-. apply answer_read_ok in H. auto. Qed.
Lemma read_proof w o id w1 : exec E w o (CProofExists id) = (ABool (SOk false), w1) ->
  w1 = w /\ cache_get (w_now w) (w_proof w) id = None.
Proof.
  cbn. intros H; injection H as H <-. split; auto.
  destruct (cache_get _ _ _); auto. destruct (o_fault o); discriminate.
Qed.
Lemma read_proof_nil w o id w1 : exec E w o (CProofExists id) <> (ABool SNil, w1).
Proof. cbn. destruct (o_fault o); discriminate. Qed.
Lemma read_now w o t w1 : exec E w o CNow = (ATime t, w1) -> t = w_now w /\ w1 = w.
Proof. cbn. intros H; inversion H; auto. Qed.
Lemma tok_never_nil w o c : fst (exec E w o c) = ATok SNil -> o_fault o = FNil.
Proof.
  destruct c; cbn; try discriminate;
  try (match goal with |- context[do_write ?f ?w ?w' ?v] => destruct (do_write f w w' v) end; cbn; discriminate).
  - destruct (o_fault o); cbn; try discriminate; auto. destruct (w_tval w _); discriminate.
  - destruct (w_tid w id); [|destruct (o_fault o); cbn; discriminate].
    match goal with |- context[do_write ?f ?w ?w' ?v] => destruct (do_write f w w' v) end; cbn; discriminate.
Qed.
End Reads.

(** The world at an event of a history. *)
Lemma wtrace_at E w h1 i c a h2 w' : wtrace E w (h1 ++ EvCall i c a :: h2)%list w' ->
  exists wm o w1, wtrace E w h1 wm /\ exec E wm o c = (a, w1) /\ wtrace E w1 h2 w'.
Proof.
  intros H. apply wtrace_app in H as (wm & H1 & H2).
  inversion H2; subst. eauto 6.
Qed.
