(** * The codec: decoding any bytes ends, without a panic, in a value of the type (proofs only) *)

From Verif Require Import Wire WireFacts WireFacts2 WireFacts3 WireFacts4 WireFacts5 WireFacts6 SpecWire.
Local Open Scope Z_scope.
Local Open Scope list_scope.

Definition calm {A} (P : A -> Prop) (r : res A) : Prop :=
  match r with Ok a => P a | Err _ => True | Panics => False | Hangs => True end.
Lemma calm_bind {A B} (P : A -> Prop) (Q : B -> Prop) (r : res A) (k : A -> res B) :
  calm P r -> (forall a, r = Ok a -> P a -> calm Q (k a)) -> calm Q (rbind r k).
Proof. destruct r; cbn; intros H Hk; auto. Qed.
Lemma safe_calm {A} (r : res A) : safe r -> calm (fun _ => True) r.
Proof. destruct r; cbn; auto. Qed.

Section Typed.
Context (env : wire_env) (Hc : coherent env) (U : schema -> bytes -> Prop).
Context (HU0 : forall s, U s []) (HU : forall s u c, U s u -> unknown_chunk s c -> U s (u ++ c)).
Local Notation ty := (message_of env U).

Lemma members_nth ss fs : members_of env U ss fs -> forall k sl, nth_error ss k = Some sl ->
  exists v, nth_error fs k = Some v /\ member_of env U sl v.
Proof.
  intros H. induction H as [|s v ss fs Hv _ IH]; intros [|k] sl Hk; try discriminate Hk; cbn [nth_error] in *.
  - injection Hk as <-. eauto.
  - apply IH. exact Hk.
Qed.
Lemma members_set ss fs : members_of env U ss fs -> forall k sl v, nth_error ss k = Some sl -> member_of env U sl v ->
  members_of env U ss (set_nth fs k v).
Proof.
  intros H. induction H as [|s v ss fs Hv Hs IH]; intros [|k] sl w Hk Hw; try discriminate Hk; cbn [nth_error set_nth] in *.
  - injection Hk as <-. constructor; assumption.
  - constructor; [exact Hv|]. eapply IH; eassumption.
Qed.
Lemma zero_member sl : member_of env U sl (zero_of sl).
Proof.
  destruct sl as [f|alts]; [|constructor]. cbn [zero_of]. destruct (f_type f) as [| | |k|k| | |] eqn:Ht.
  - constructor. exact Ht.
  - constructor. exact Ht.
  - constructor. exact Ht.
  - econstructor; [exact Ht|]. destruct k; cbn; lia.
  - econstructor; exact Ht.
  - econstructor; exact Ht.
  - econstructor; [exact Ht|constructor].
  - constructor; [exact Ht|constructor].
Qed.
Lemma zero_message n : known env n = true -> ty n (zero_named env n).
Proof.
  unfold known, zero_named. intros H. destruct (env n) as [s|] eqn:E; [|discriminate H].
  apply (message_intro env U n s); [exact E| |apply HU0]. clear. induction s as [|sl s IH]; cbn [map]; constructor; [apply zero_member|exact IH].
Qed.
Lemma messages_snoc n l m : messages_of env U n l -> ty n m -> messages_of env U n (l ++ [m]).
Proof. intros H Hm. induction H as [|n m' l Hm' Hl IH]; cbn [app]; constructor; auto. constructor. Qed.

Lemma nodup_map_inj {A B} (g : A -> B) l a b : NoDup (map g l) -> In a l -> In b l -> g a = g b -> a = b.
Proof.
  induction l as [|x l IH]; intros Hd Ha Hb E; [destruct Ha|]. cbn [map] in Hd. inversion Hd as [|? ? Hn Hd']; subst.
  destruct Ha as [->|Ha], Hb as [->|Hb]; auto.
  - exfalso. apply Hn. rewrite E. apply in_map. exact Hb.
  - exfalso. apply Hn. rewrite <- E. apply in_map. exact Ha.
Qed.

Section Sub.
Context (sub : subfun) (Hsub : forall n m s, fits s -> ty n m -> calm (ty n) (sub n m s)).

Lemma on_bytes_typed sl f old s : slot_ok env sl = true -> NoDup (map f_num (slot_fields sl)) -> In f (slot_fields sl) -> member_of env U sl old -> fits s ->
  match f_type f with TNum _ | TOptNum _ | TMap => False | _ => True end ->
  calm (member_of env U sl) (on_bytes env sub f old s).
Proof.
  intros Hok Hnd Hin Ho Hs Hcase. pose proof (slot_ok_field _ _ _ Hok Hin) as Hfo. apply field_ok_inv in Hfo as (_ & _ & _ & _ & Hn).
  assert (Hcall : forall n m (g : msg -> fval), ty n m -> (forall m', ty n m' -> member_of env U sl (g m')) ->
    calm (member_of env U sl) (let! m := sub n m s in Ok (g m))).
  { intros n m g Hm Hg. eapply calm_bind; [apply Hsub; [exact Hs|exact Hm]|]. intros m' _ Hm'. apply Hg. exact Hm'. }
  unfold on_bytes. inversion Ho; subst; cbn [slot_fields In] in Hin, Hnd;
    try (destruct Hin as [<-|[]]); try match goal with h : f_type _ = _ |- _ => rewrite h in * end; cbn [nested_ok] in Hn;
    try (exfalso; exact Hcase).
  - constructor. assumption.
  - constructor. assumption.
  - constructor. assumption.
  - apply (Hcall n); [apply zero_message; exact Hn|]. intros m' Hm'. econstructor; eassumption.
  - apply (Hcall n); [assumption|]. intros m' Hm'. econstructor; eassumption.
  - apply (Hcall n (zero_named env n) (fun m => FRepMsg (l ++ [m]))); [apply zero_message; exact Hn|].
    intros m' Hm'. econstructor; [eassumption|]. apply messages_snoc; assumption.
  - (* oneof, empty *)
    assert (Hmsg : is_msg (f_type f) = true).
    { apply andb_prop in Hok as [_ Hok]. rewrite forallb_forall in Hok. apply Hok. exact Hin. }
    destruct (f_type f) as [| | | | |n| |] eqn:Ht; try discriminate Hmsg. cbn [nested_ok] in Hn.
    apply (Hcall n (zero_named env n) (fun m => FOneof (Some (f_num f, Some m)))); [apply zero_message; exact Hn|].
    intros m' Hm'. econstructor; eassumption.
  - assert (Hmsg : is_msg (f_type f) = true).
    { apply andb_prop in Hok as [_ Hok]. rewrite forallb_forall in Hok. apply Hok. exact Hin. }
    destruct (f_type f) as [| | | | |nf| |] eqn:Ht; try discriminate Hmsg. cbn [nested_ok] in Hn.
    destruct (Z.eqb_spec (f_num f0) (f_num f)) as [E|E].
    + assert (f0 = f) by (eapply nodup_map_inj; eassumption). subst f0.
      match goal with h : f_type f = TMsg ?n |- _ => rewrite Ht in h; injection h as <- end.
      apply (Hcall nf m (fun m => FOneof (Some (f_num f, Some m)))); [assumption|].
      intros m' Hm'. econstructor; eassumption.
    + apply (Hcall nf (zero_named env nf) (fun m => FOneof (Some (f_num f, Some m)))); [apply zero_message; exact Hn|].
      intros m' Hm'. econstructor; eassumption.
Qed.

Lemma field_reader_typed sl f old d i : slot_ok env sl = true -> NoDup (map f_num (slot_fields sl)) -> In f (slot_fields sl) ->
  member_of env U sl old -> fits d -> 0 <= i <= blen d ->
  calm (fun r => member_of env U sl (fst r)) (field_reader env sub f old d i).
Proof.
  intros Hok Hnd Hin Ho Hd Hi. assert (Hi0 : 0 <= i) by lia.
  assert (Hb : match f_type f with TNum _ | TOptNum _ | TMap => False | _ => True end ->
    calm (fun r => member_of env U sl (fst r)) (wrap read_bytes (on_bytes env sub f old) d i)).
  { intros Hcase. eapply calm_bind; [apply safe_calm, read_bytes_safe; assumption|]. intros [s j] E _.
    assert (Hs : fits s) by (unfold fits in *; pose proof (read_bytes_short _ _ _ _ Hd Hi0 E); lia).
    eapply calm_bind; [apply on_bytes_typed; eassumption|]. intros v _ Hv. exact Hv. }
  unfold field_reader. destruct sl as [g|alts].
  - destruct Hin as [->|[]].
    inversion Ho; subst; match goal with h : f_type f = _ |- _ => rewrite h in * end; try (apply Hb; exact I).
    + eapply calm_bind; [apply safe_calm, read_num_safe; assumption|]. intros [z' j] E _. cbn. econstructor; [eassumption|].
      eapply read_num_range; eassumption.
    + eapply calm_bind; [apply safe_calm, read_num_safe; assumption|]. intros [z' j] E _. cbn. econstructor; [eassumption|].
      eapply read_num_range; eassumption.
    + eapply calm_bind; [apply safe_calm, read_num_safe; assumption|]. intros [z' j] E _. cbn. econstructor; [eassumption|].
      eapply read_num_range; eassumption.
    + unfold read_map. eapply calm_bind; [apply safe_calm, read_span_safe; exact Hi0|]. intros [a b] E _.
      destruct (read_span_inv _ _ _ _ Hd Hi0 E) as (w & _ & Hq1 & Hq2 & Hq3 & Hq4).
      eapply calm_bind; [apply safe_calm, entry_safe; [exact Hd|lia|lia]|]. intros [kk vv] _ _. cbn. constructor; [assumption|].
      apply map_put_nodup. assumption.
  - assert (Hmsg : is_msg (f_type f) = true).
    { apply andb_prop in Hok as [_ Hok]. rewrite forallb_forall in Hok. apply Hok. exact Hin. }
    destruct (f_type f) as [| | | | |nf| |] eqn:Ht; try discriminate Hmsg.
    inversion Ho; subst; apply Hb; exact I.
Qed.

Lemma slot_nodup s k sl : NoDup (nums s) -> nth_error s k = Some sl -> NoDup (map f_num (slot_fields sl)).
Proof.
  revert k. induction s as [|s0 s IH]; intros [|k] Hnd Hk; try discriminate Hk; unfold nums in *; cbn [flat_map] in Hnd; rewrite map_app in Hnd.
  - injection Hk as ->. eapply nodup_app_l. exact Hnd.
  - eapply IH; [|exact Hk]. eapply nodup_app_r. exact Hnd.
Qed.

Lemma step_typed name m d i : ty name m -> fits d -> 0 <= i <= blen d ->
  calm (fun r => ty name (fst r)) (step sub env name m d i).
Proof.
  intros Hm Hd Hi. assert (Hi0 : 0 <= i) by lia. unfold step.
  eapply calm_bind; [apply safe_calm, read_varint_safe; exact Hi0|]. intros [w i'] Hr _.
  pose proof (read_varint_moves _ _ _ _ Hd Hi0 Hr) as Hi'. cbv zeta.
  destruct (w mod 8 =? 4)%N eqn:H4; [exact I|]. destruct (int32 (Z.of_N (w / 8)) <=? 0) eqn:Hn; [exact I|].
  inversion Hm as [name' s fs u He Hfs Hu]; subst name' m. unfold sch. rewrite He.
  destruct (find_field s _) as [[k f]|] eqn:Hf.
  - destruct (negb _); [exact I|]. apply find_field_some in Hf as (sl & Hk & Hin & _).
    destruct (members_nth _ _ Hfs _ _ Hk) as (old & Ho & Hot). cbn [msg_fields]. rewrite Ho.
    eapply calm_bind.
    + apply field_reader_typed with (sl := sl); [eapply coherent_slot; eassumption| |exact Hin|exact Hot|exact Hd|lia].
      eapply slot_nodup; [eapply coherent_nodup; eassumption|exact Hk].
    + intros [v j] _ Hv. cbn [calm fst] in *. unfold set_field. cbn [msg_fields msg_unknown].
      econstructor; [exact He| |exact Hu]. eapply members_set; eassumption.
  - eapply calm_bind; [apply safe_calm, read_unknown_safe; [exact Hd|lia|lia]|]. intros [c j] Hc' _. cbn [calm fst msg_fields msg_unknown].
    econstructor; [exact He|exact Hfs|]. apply HU; [exact Hu|]. eapply read_unknown_chunk; eassumption.
Qed.
End Sub.

Lemma unmarshal_typed n : forall name m d i, ty name m -> fits d -> 0 <= i <= blen d ->
  calm (ty name) (unmarshal_at n env name m d i).
Proof.
  induction n as [|n IH]; intros name m d i Hm Hd Hi; [exact I|]. rewrite unmarshal_at_S.
  destruct (blen d <=? i) eqn:El. { destruct (blen d <? i); [exact I|exact Hm]. }
  eapply calm_bind.
  - apply step_typed; [|exact Hm|exact Hd|exact Hi]. intros nm m0 s Hs Hm0. apply IH; [exact Hm0|exact Hs|].
    pose proof (blen_nonneg s). lia.
  - intros [m' j] E Hm'. assert (Hi0 : 0 <= i) by lia. pose proof (step_moves _ _ _ _ _ _ _ _ Hd Hi0 E).
    apply IH; [exact Hm'|exact Hd|lia].
Qed.
Lemma unmarshal_vt_typed name m d : ty name m -> fits d ->
  match unmarshal_vt env name m d with Ok m' => ty name m' | Err _ => True | Panics | Hangs => False end.
Proof.
  intros Hm Hd. pose proof (blen_nonneg d) as Hn.
  assert (Hh : halts (unmarshal_vt env name m d)) by (apply unmarshal_halts; [exact Hd|lia|unfold blen; lia]).
  assert (Ht : calm (ty name) (unmarshal_vt env name m d)) by (apply unmarshal_typed; [exact Hm|exact Hd|lia]).
  destruct (unmarshal_vt env name m d); cbn in Ht; auto.
Qed.
End Typed.
