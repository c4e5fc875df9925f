(** * The codec: whole messages (proofs only) *)

From Verif Require Import Wire WireFacts WireFacts2 WireFacts3 WireFacts4 WireFacts5 SpecWire.
Local Open Scope Z_scope.
Local Open Scope list_scope.

Scheme message_ind2 := Minimality for message_of Sort Prop
  with members_ind2 := Minimality for members_of Sort Prop
  with member_ind2 := Minimality for member_of Sort Prop
  with messages_ind2 := Minimality for messages_of Sort Prop.
Combined Scheme message_mutind from message_ind2, members_ind2, member_ind2, messages_ind2.

Definition enc_slot (env : wire_env) (s : slot) (v : fval) : bytes :=
  match s, v with
  | Plain f, FStr x => match x with [] => [] | _ => put_tag f ++ put_bytes x end
  | Plain f, FOptStr (Some x) => put_tag f ++ put_bytes x
  | Plain f, FRepStr l => flat_map (fun x => put_tag f ++ put_bytes x) l
  | Plain f, FNum z =>
      match f_type f with TNum k => if (z =? 0)%Z then [] else put_tag f ++ put_num k z | _ => [] end
  | Plain f, FOptNum (Some z) => match f_type f with TOptNum k => put_tag f ++ put_num k z | _ => [] end
  | Plain f, FMsg (Some m') => match f_type f with TMsg n => put_tag f ++ put_bytes (enc env n m') | _ => [] end
  | Plain f, FRepMsg l =>
      match f_type f with TRepMsg n => flat_map (fun m' => put_tag f ++ put_bytes (enc env n m')) l | _ => [] end
  | Plain f, FMap l => flat_map (put_entry f) l
  | Oneof alts, FOneof (Some (n, Some m')) =>
      match pick alts n with
      | Some f => match f_type f with TMsg n => put_tag f ++ put_bytes (enc env n m') | _ => [] end
      | None => []
      end
  | _, _ => []
  end.
Fixpoint enc_slots (env : wire_env) (ss : schema) (fs : list fval) : bytes :=
  match ss, fs with
  | s :: ss, v :: fs => enc_slot env s v ++ enc_slots env ss fs
  | _, _ => []
  end.
Definition size_slot (env : wire_env) (s : slot) (v : fval) : N :=
  match s, v with
  | Plain f, FStr x => match x with [] => 0 | _ => size_bytes (f_size f) (nlen x) end
  | Plain f, FOptStr (Some x) => size_bytes (f_size f) (nlen x)
  | Plain f, FRepStr l => fold_right (fun x n => size_bytes (f_size f) (nlen x) + n) 0 l
  | Plain f, FNum z =>
      match f_type f with TNum k => if (z =? 0)%Z then 0 else size_num f k z | _ => 0 end
  | Plain f, FOptNum (Some z) => match f_type f with TOptNum k => size_num f k z | _ => 0 end
  | Plain f, FMsg (Some m') => match f_type f with TMsg n => size_bytes (f_size f) (size_vt env n m') | _ => 0 end
  | Plain f, FRepMsg l =>
      match f_type f with
      | TRepMsg n => fold_right (fun m' k => size_bytes (f_size f) (size_vt env n m') + k) 0 l
      | _ => 0
      end
  | Plain f, FMap l => fold_right (fun kv n => size_entry f kv + n) 0 l
  | Oneof alts, FOneof (Some (n, Some m')) =>
      match pick alts n with
      | Some f => match f_type f with TMsg n => size_bytes (f_size f) (size_vt env n m') | _ => 0 end
      | None => 0
      end
  | _, _ => 0
  end%N.
Fixpoint size_slots (env : wire_env) (ss : schema) (fs : list fval) : N :=
  match ss, fs with
  | s :: ss, v :: fs => size_slot env s v + size_slots env ss fs
  | _, _ => 0
  end%N.

Lemma enc_msg env name fs u : enc env name (Msg fs u) = enc_slots env (sch env name) fs ++ u.
Proof.
  cbn [enc]. fold (sch env name). f_equal. generalize (sch env name). induction fs as [|v fs IH]; intros [|s ss]; try reflexivity.
  cbn [enc_slots]. rewrite <- IH. f_equal.
Qed.
Lemma size_msg env name fs u : size_vt env name (Msg fs u) = (size_slots env (sch env name) fs + nlen u)%N.
Proof.
  cbn [size_vt]. fold (sch env name). f_equal. generalize (sch env name). induction fs as [|v fs IH]; intros [|s ss]; try reflexivity.
  cbn [size_slots]. rewrite <- IH. f_equal.
Qed.

Lemma set_nth_same {A} (l : list A) k a : nth_error l k = Some a -> set_nth l k a = l.
Proof. revert k. induction l as [|b l IH]; intros [|k] H; try discriminate H; cbn in *; [congruence|]. rewrite IH by exact H. reflexivity. Qed.
Lemma set_nth_twice {A} (l : list A) k a b : set_nth (set_nth l k a) k b = set_nth l k b.
Proof. revert k. induction l as [|c l IH]; intros [|k]; cbn; try reflexivity. rewrite IH. reflexivity. Qed.
Lemma set_nth_get {A} (l : list A) k a b : nth_error l k = Some b -> nth_error (set_nth l k a) k = Some a.
Proof. revert k. induction l as [|c l IH]; intros [|k] H; try discriminate H; cbn in *; [reflexivity|]. apply IH. exact H. Qed.
Lemma set_nth_mid {A} (p : list A) x l a : set_nth (p ++ x :: l) (List.length p) a = p ++ a :: l.
Proof. induction p as [|b p IH]; cbn; [reflexivity|]. rewrite IH. reflexivity. Qed.
Lemma nth_mid {A} (p : list A) x l : nth_error (p ++ x :: l) (List.length p) = Some x.
Proof. rewrite nth_error_app2, Nat.sub_diag by lia. reflexivity. Qed.
Lemma set_field_same M k a : nth_error (msg_fields M) k = Some a -> set_field M k a = M.
Proof. intros H. unfold set_field. rewrite set_nth_same by exact H. destruct M; reflexivity. Qed.
Lemma set_field_twice M k a b : set_field (set_field M k a) k b = set_field M k b.
Proof. unfold set_field. cbn [msg_fields msg_unknown]. rewrite set_nth_twice. reflexivity. Qed.
Lemma set_field_get M k a b : nth_error (msg_fields M) k = Some b -> nth_error (msg_fields (set_field M k a)) k = Some a.
Proof. unfold set_field. cbn [msg_fields]. apply set_nth_get. Qed.

Section Round.
Context (env : wire_env) (Hc : coherent env).
Local Notation um := (unmarshal_vt env).

Definition back (name : string) (m : msg) : Prop :=
  fits (enc env name m) -> um name (zero_named env name) (enc env name m) = Ok m.
Definition back_slot (sl : slot) (v : fval) : Prop := forall name s k M,
  env name = Some s -> nth_error s k = Some sl -> nth_error (msg_fields M) k = Some (zero_of sl) ->
  fits (enc_slot env sl v) -> um name M (enc_slot env sl v) = Ok (set_field M k v).
Definition back_slots (ss : schema) (fs : list fval) : Prop := forall name pre done u,
  env name = Some (pre ++ ss) -> List.length done = List.length pre -> fits (enc_slots env ss fs) ->
  um name (Msg (done ++ map zero_of ss) u) (enc_slots env ss fs) = Ok (Msg (done ++ fs) u).

Lemma bytes_back name s k sl f M old x v : env name = Some s -> nth_error s k = Some sl -> In f (slot_fields sl) ->
  nth_error (msg_fields M) k = Some old -> fits (put_tag f ++ put_bytes x) ->
  field_reader env um f old = wrap read_bytes (on_bytes env um f old) -> on_bytes env um f old x = Ok v ->
  um name M (put_tag f ++ put_bytes x) = Ok (set_field M k v).
Proof.
  intros He Hk Hin Ho Hf Hr Hv. eapply unmarshal_field; try eassumption.
  rewrite Hr. unfold wrap. rewrite read_bytes_put0 by (eapply fits_end; exact Hf). cbn [rbind]. rewrite Hv. reflexivity.
Qed.

Lemma rep_back {A} (g : list A -> fval) (w : A -> bytes) (ok : A -> Prop) name k M :
  (forall l x M', ok x -> fits (w x) -> nth_error (msg_fields M') k = Some (g l) -> um name M' (w x) = Ok (set_field M' k (g (l ++ [x])))) ->
  forall todo l0 M', Forall ok todo -> nth_error (msg_fields M') k = Some (g l0) -> set_field M' k (g []) = set_field M k (g []) ->
  fits (flat_map w todo) -> um name M' (flat_map w todo) = Ok (set_field M k (g (l0 ++ todo))).
Proof.
  intros Hstep todo. induction todo as [|x todo IH]; intros l0 M' Hok Hn HM Hf.
  - rewrite app_nil_r. change (flat_map w []) with (@nil byte). rewrite unmarshal_nil. f_equal.
    rewrite <- (set_field_twice M k (g []) (g l0)), <- HM, set_field_twice. symmetry. apply set_field_same. exact Hn.
  - inversion Hok as [|? ? Hx Hoks]; subst. change (flat_map w (x :: todo)) with (w x ++ flat_map w todo) in *. eapply unmarshal_two; [exact Hf| |].
    + apply (Hstep l0); [exact Hx|eapply fits_app_l; exact Hf|exact Hn].
    + replace (l0 ++ x :: todo) with ((l0 ++ [x]) ++ todo) by (rewrite <- app_assoc; reflexivity).
      apply IH; [exact Hoks|eapply set_field_get; exact Hn|rewrite set_field_twice; exact HM|eapply fits_end; exact Hf].
Qed.

Ltac only_field Hin := match goal with f : field |- _ => assert (Hin : In f (slot_fields (Plain f))) by (left; reflexivity) end.

Lemma round_all : (forall name m, message_of env only_unknown name m -> back name m) /\
  (forall ss fs, members_of env only_unknown ss fs -> back_slots ss fs) /\
  (forall sl v, member_of env only_unknown sl v -> back_slot sl v) /\
  (forall n l, messages_of env only_unknown n l -> Forall (back n) l).
Proof.
  apply message_mutind.
  - (* a message *)
    intros name s fs u He _ IH Hu Hf. rewrite enc_msg in *. unfold sch in *. rewrite He in *.
    unfold zero_named. rewrite He. unfold zero_msg.
    specialize (IH name [] [] [] He eq_refl (fits_app_l _ _ Hf)). cbn [app] in IH.
    eapply unmarshal_two; [exact Hf|exact IH|]. rewrite (unmarshal_unknown _ _ _ _ _ He (fits_end _ _ Hf) Hu). reflexivity.
  - intros name pre done u _ _ _. cbn. reflexivity.
  - intros s v ss fs _ IHv _ IHs name pre done u He Hl Hf. cbn [enc_slots map] in *.
    eapply unmarshal_two; [exact Hf| |].
    + eapply (IHv name _ (List.length pre) _ He); [apply nth_mid| |eapply fits_app_l; exact Hf].
      cbn [msg_fields]. rewrite <- Hl. apply nth_mid.
    + unfold set_field. cbn [msg_fields msg_unknown]. rewrite <- Hl, set_nth_mid.
      replace (done ++ v :: map zero_of ss) with ((done ++ [v]) ++ map zero_of ss) by (rewrite <- app_assoc; reflexivity).
      replace (done ++ v :: fs) with ((done ++ [v]) ++ fs) by (rewrite <- app_assoc; reflexivity).
      apply (IHs name (pre ++ [s])); [rewrite <- app_assoc; exact He|rewrite !app_length, Hl; reflexivity|eapply fits_end; exact Hf].
  - (* string *)
    intros f x Ht name s k M He Hk Ho Hf. cbn [enc_slot zero_of] in *. rewrite Ht in Ho.
    destruct x as [|b x]. { rewrite unmarshal_nil, set_field_same by exact Ho. reflexivity. }
    only_field Hin. eapply bytes_back; try eassumption; unfold field_reader, on_bytes; rewrite Ht; reflexivity.
  - intros f o Ht name s k M He Hk Ho Hf. cbn [enc_slot zero_of] in *. rewrite Ht in Ho.
    destruct o as [x|]. 2:{ rewrite unmarshal_nil, set_field_same by exact Ho. reflexivity. }
    only_field Hin. eapply bytes_back; try eassumption; unfold field_reader, on_bytes; rewrite Ht; reflexivity.
  - intros f l Ht name s k M He Hk Ho Hf. cbn [enc_slot zero_of] in *. rewrite Ht in Ho. only_field Hin.
    apply (rep_back FRepStr (fun x => put_tag f ++ put_bytes x) (fun _ => True) name k M) with (l0 := []); try assumption.
    + intros l0 x M' _ Hx Ho'. eapply bytes_back; try eassumption; unfold field_reader, on_bytes; rewrite Ht; reflexivity.
    + apply Forall_forall. intros; exact I.
    + reflexivity.
  - (* number *)
    intros f kd z Ht Hz name s k M He Hk Ho Hf. cbn [enc_slot zero_of] in *. rewrite Ht in *.
    destruct (Z.eqb_spec z 0) as [->|Hne]. { rewrite unmarshal_nil, set_field_same by exact Ho. reflexivity. }
    only_field Hin. eapply unmarshal_field; try eassumption. unfold field_reader. rewrite Ht. unfold wrap.
    rewrite read_num_put by exact Hz. reflexivity.
  - intros f kd Ht name s k M He Hk Ho Hf. cbn [enc_slot zero_of] in *. rewrite Ht in Ho.
    rewrite unmarshal_nil, set_field_same by exact Ho. reflexivity.
  - intros f kd z Ht Hz name s k M He Hk Ho Hf. cbn [enc_slot zero_of] in *. rewrite Ht in *.
    only_field Hin. eapply unmarshal_field; try eassumption. unfold field_reader. rewrite Ht. unfold wrap.
    rewrite read_num_put by exact Hz. reflexivity.
  - (* nested *)
    intros f n Ht name s k M He Hk Ho Hf. cbn [enc_slot zero_of] in *. rewrite Ht in Ho.
    rewrite unmarshal_nil, set_field_same by exact Ho. reflexivity.
  - intros f n m Ht _ IH name s k M He Hk Ho Hf. cbn [enc_slot zero_of] in *. rewrite Ht in *.
    only_field Hin. eapply bytes_back; try eassumption; unfold field_reader, on_bytes; rewrite Ht; [reflexivity|].
    rewrite IH by (eapply put_bytes_fits, fits_end; exact Hf). reflexivity.
  - intros f n l Ht _ IH name s k M He Hk Ho Hf. cbn [enc_slot zero_of] in *. rewrite Ht in *. only_field Hin.
    apply (rep_back FRepMsg (fun m => put_tag f ++ put_bytes (enc env n m)) (back n) name k M) with (l0 := []); try assumption.
    + intros l0 x M' Hbx Hx Ho'. eapply bytes_back; try eassumption; unfold field_reader, on_bytes; rewrite Ht; [reflexivity|].
      rewrite Hbx by (eapply put_bytes_fits, fits_end; exact Hx). reflexivity.
    + reflexivity.
  - (* map *)
    intros f l Ht Hd name s k M He Hk Ho Hf. cbn [enc_slot zero_of] in *. rewrite Ht in Ho. only_field Hin.
    assert (Hgen : forall todo l0 M', nth_error (msg_fields M') k = Some (FMap l0) -> NoDup (map fst (l0 ++ todo)) ->
      fits (flat_map (put_entry f) todo) -> um name M' (flat_map (put_entry f) todo) = Ok (set_field M' k (FMap (l0 ++ todo)))).
    { induction todo as [|kv todo IH]; intros l0 M' Ho' Hnd Hf'.
      - rewrite app_nil_r. change (flat_map (put_entry f) []) with (@nil byte). rewrite unmarshal_nil, set_field_same by exact Ho'. reflexivity.
      - change (flat_map (put_entry f) (kv :: todo)) with (put_entry f kv ++ flat_map (put_entry f) todo) in *.
        assert (Happ : (l0 ++ [kv]) ++ todo = l0 ++ kv :: todo) by (rewrite <- app_assoc; reflexivity).
        eapply unmarshal_two; [exact Hf'| |].
        + unfold put_entry. cbv zeta. fold (entry_body kv). eapply unmarshal_field; try eassumption.
          * eapply fits_app_l. exact Hf'.
          * unfold field_reader. rewrite Ht. rewrite read_map_put; [|eapply fits_end, fits_app_l; exact Hf'].
            rewrite map_put_new; [destruct kv; reflexivity|].
            rewrite map_app in Hnd. cbn [map] in Hnd. apply NoDup_remove_2 in Hnd. intros Hi. apply Hnd. apply in_or_app. left. exact Hi.
        + rewrite <- Happ. destruct kv as [kk vv]. erewrite IH.
          * f_equal. apply set_field_twice.
          * eapply set_field_get. exact Ho'.
          * rewrite Happ. exact Hnd.
          * eapply fits_end. exact Hf'. }
    apply (Hgen l [] M Ho Hd Hf).
  - intros alts name s k M He Hk Ho Hf. cbn [enc_slot zero_of] in *.
    rewrite unmarshal_nil, set_field_same by exact Ho. reflexivity.
  - intros alts f n m Hin Ht _ IH name s k M He Hk Ho Hf. cbn [enc_slot zero_of] in *.
    assert (Hp : pick alts (f_num f) = Some f).
    { apply pick_in; [|exact Hin]. pose proof (coherent_nodup env Hc _ _ He) as Hnd. clear - Hk Hnd.
      revert k Hk Hnd. induction s as [|s0 s IH]; intros [|k] Hk Hnd; try discriminate Hk; unfold nums in *; cbn [flat_map] in Hnd;
        rewrite map_app in Hnd.
      - injection Hk as ->. eapply nodup_app_l. exact Hnd.
      - eapply IH; [exact Hk|]. eapply nodup_app_r. exact Hnd. }
    rewrite Hp, Ht in *. eapply bytes_back; try eassumption; [unfold field_reader; rewrite Ht; reflexivity|].
    unfold on_bytes. rewrite Ht. rewrite IH by (eapply put_bytes_fits, fits_end; exact Hf). reflexivity.
  - constructor.
  - intros n m l _ IHm _ IHl. constructor; assumption.
Qed.

(** ** Sizes *)
Lemma nlen_app a b : nlen (a ++ b) = (nlen a + nlen b)%N.
Proof. unfold nlen. rewrite app_length. lia. Qed.
Lemma put_tag_len f : nlen (put_tag f) = N.of_nat (List.length (f_tag f)).
Proof. unfold nlen, put_tag. rewrite map_length. reflexivity. Qed.
Lemma put_bytes_len x : (nlen x < 2 ^ 64)%N -> nlen (put_bytes x) = (nlen x + sov (nlen x))%N.
Proof. intros H. unfold put_bytes. rewrite nlen_app. unfold nlen at 1. rewrite encode_varint_length by exact H. unfold nlen. lia. Qed.
Lemma size_bytes_ok f x : field_ok env f = true -> extra_of (f_type f) = 0%N -> (nlen x < 2 ^ 64)%N ->
  nlen (put_tag f ++ put_bytes x) = size_bytes (f_size f) (nlen x).
Proof.
  intros Hf Hx H. apply field_ok_inv in Hf as (_ & _ & _ & Hs & _). rewrite nlen_app, put_tag_len, put_bytes_len by exact H.
  unfold size_bytes. rewrite Hs, Hx. lia.
Qed.
Lemma sov_pos x : (1 <= sov x)%N.
Proof.
  destruct (N.ltb_spec x 128); [rewrite sov_small by assumption; lia|]. rewrite sov_large by assumption. lia.
Qed.

Definition sized (name : string) (m : msg) : Prop := (size_vt env name m < 2 ^ 62)%N -> nlen (enc env name m) = size_vt env name m.
Definition sized_slot (sl : slot) (v : fval) : Prop :=
  slot_ok env sl = true -> NoDup (map f_num (slot_fields sl)) -> (size_slot env sl v < 2 ^ 62)%N ->
  nlen (enc_slot env sl v) = size_slot env sl v.
Definition sized_slots (ss : schema) (fs : list fval) : Prop :=
  forallb (slot_ok env) ss = true -> NoDup (nums ss) -> (size_slots env ss fs < 2 ^ 62)%N ->
  nlen (enc_slots env ss fs) = size_slots env ss fs.

Lemma rep_sized {A} (w : A -> bytes) (sz : A -> N) (l : list A) : (fold_right (fun x n => sz x + n) 0 l < 2 ^ 62)%N ->
  (forall x, In x l -> (sz x < 2 ^ 62)%N -> nlen (w x) = sz x) -> nlen (flat_map w l) = fold_right (fun x n => (sz x + n)%N) 0%N l.
Proof.
  induction l as [|x l IH]; intros Hs Hw; [reflexivity|]. cbn [flat_map fold_right] in *. rewrite nlen_app.
  rewrite IH; [|lia|intros y Hy; apply Hw; right; exact Hy]. rewrite Hw; [reflexivity|left; reflexivity|lia].
Qed.

Lemma num_sized f k z : field_ok env f = true -> (f_type f = TNum k \/ f_type f = TOptNum k) ->
  nlen (put_tag f ++ put_num k z) = size_num f k z.
Proof.
  intros Hf Ht. apply field_ok_inv in Hf as (_ & _ & _ & Hs & _). rewrite nlen_app, put_tag_len. unfold size_num. rewrite Hs.
  assert (Hx : extra_of (f_type f) = match k with NFixed64 => 8 | NBool => 1 | _ => 0 end%N)
    by (destruct Ht as [-> | ->]; destruct k; reflexivity).
  rewrite Hx. destruct k; cbn [put_num].
  - reflexivity.
  - unfold nlen. rewrite encode_varint_length by apply uint64_bound. lia.
  - unfold nlen. rewrite encode_varint_length by apply uint64_bound. lia.
  - unfold nlen. rewrite le_bytes_length. reflexivity.
Qed.

Lemma pow62 : (2 ^ 62 < 2 ^ 64)%N. Proof. reflexivity. Qed.

Lemma sized_all U : (forall name m, message_of env U name m -> sized name m) /\
  (forall ss fs, members_of env U ss fs -> sized_slots ss fs) /\
  (forall sl v, member_of env U sl v -> sized_slot sl v) /\
  (forall n l, messages_of env U n l -> Forall (sized n) l).
Proof.
  pose proof pow62 as H62.
  assert (Hsub : forall f n m, field_ok env f = true -> extra_of (f_type f) = 0%N -> sized n m ->
    (size_bytes (f_size f) (size_vt env n m) < 2 ^ 62)%N ->
    nlen (put_tag f ++ put_bytes (enc env n m)) = size_bytes (f_size f) (size_vt env n m)).
  { intros f n m Hf Hx IH Hs. assert (Hm : (size_vt env n m < 2 ^ 62)%N) by (unfold size_bytes in Hs; lia).
    rewrite size_bytes_ok; [rewrite (IH Hm); reflexivity|exact Hf|exact Hx|rewrite (IH Hm); lia]. }
  assert (Hone : forall f, slot_ok env (Plain f) = true -> field_ok env f = true).
  { intros f H. apply (slot_ok_field env (Plain f)); [exact H|left; reflexivity]. }
  apply message_mutind.
  - intros name s fs u He _ IH _ Hs. rewrite enc_msg, size_msg in *. unfold sch in *. rewrite He in *. rewrite nlen_app. f_equal.
    pose proof (Hc _ _ He) as Hok. unfold schema_ok in Hok. apply andb_prop in Hok as [Hok Hd].
    apply IH; [exact Hok|apply distinct_nodup; exact Hd|lia].
  - intros _ _ _. reflexivity.
  - intros s v ss fs _ IHv _ IHs Hok Hd Hs. cbn [enc_slots size_slots forallb] in *. apply andb_prop in Hok as [Ho1 Ho2].
    unfold nums in Hd. cbn [flat_map] in Hd. rewrite map_app in Hd. rewrite nlen_app. f_equal.
    + apply IHv; [exact Ho1|eapply nodup_app_l; exact Hd|lia].
    + apply IHs; [exact Ho2|eapply nodup_app_r; exact Hd|lia].
  - intros f x Ht Hok _ Hs. cbn [enc_slot size_slot] in *. destruct x as [|b x]; [reflexivity|].
    apply size_bytes_ok; [apply Hone; exact Hok|rewrite Ht; reflexivity|unfold size_bytes in Hs; lia].
  - intros f o Ht Hok _ Hs. cbn [enc_slot size_slot] in *. destruct o as [x|]; [|reflexivity].
    apply size_bytes_ok; [apply Hone; exact Hok|rewrite Ht; reflexivity|unfold size_bytes in Hs; lia].
  - intros f l Ht Hok _ Hs. cbn [enc_slot size_slot] in *. apply (rep_sized _ (fun x => size_bytes (f_size f) (nlen x))); [exact Hs|].
    intros x _ Hx. apply size_bytes_ok; [apply Hone; exact Hok|rewrite Ht; reflexivity|unfold size_bytes in Hx; lia].
  - intros f k z Ht _ Hok _ Hs. cbn [enc_slot size_slot] in *. rewrite Ht in *. destruct (z =? 0); [reflexivity|].
    apply num_sized; [apply Hone; exact Hok|left; exact Ht].
  - intros f k Ht Hok _ Hs. reflexivity.
  - intros f k z Ht _ Hok _ Hs. cbn [enc_slot size_slot] in *. rewrite Ht in *.
    apply num_sized; [apply Hone; exact Hok|right; exact Ht].
  - intros f n Ht Hok _ Hs. reflexivity.
  - intros f n m Ht _ IH Hok _ Hs. cbn [enc_slot size_slot] in *. rewrite Ht in *.
    apply Hsub; [apply Hone; exact Hok|rewrite Ht; reflexivity|exact IH|exact Hs].
  - intros f n l Ht _ IH Hok _ Hs. cbn [enc_slot size_slot] in *. rewrite Ht in *.
    apply (rep_sized _ (fun m => size_bytes (f_size f) (size_vt env n m))); [exact Hs|]. intros m Hin Hm.
    rewrite Forall_forall in IH. apply Hsub; [apply Hone; exact Hok|rewrite Ht; reflexivity|apply IH; exact Hin|exact Hm].
  - intros f l Ht _ Hok _ Hs. cbn [enc_slot size_slot] in *. apply (rep_sized _ (size_entry f)); [exact Hs|].
    intros [k v] _ Hx. unfold put_entry, size_entry in *. cbn [fst snd] in *. cbv zeta in *. fold (nlen k) (nlen v) in *.
    pose proof (Hone _ Hok) as Hfo. apply field_ok_inv in Hfo as (_ & _ & _ & Hsz & _). rewrite Ht in Hsz. cbn [extra_of] in Hsz.
    set (e := (1 + nlen k + sov (nlen k) + 1 + nlen v + sov (nlen v))%N) in *.
    assert (Hl : nlen (b8 10 :: put_bytes k ++ b8 18 :: put_bytes v) = e).
    { change (b8 10 :: put_bytes k ++ b8 18 :: put_bytes v) with ([b8 10] ++ put_bytes k ++ [b8 18] ++ put_bytes v).
      rewrite !nlen_app, !put_bytes_len by lia. change (nlen [b8 10]) with 1%N. change (nlen [b8 18]) with 1%N. lia. }
    rewrite nlen_app, put_tag_len, put_bytes_len by (rewrite Hl; lia). rewrite Hl, Hsz. lia.
  - intros alts Hok _ Hs. reflexivity.
  - intros alts f n m Hin Ht _ IH Hok Hnd Hs. cbn [enc_slot size_slot slot_fields] in *.
    rewrite (pick_in alts f Hnd Hin), Ht in *.
    apply Hsub; [eapply slot_ok_field; [exact Hok|exact Hin]|rewrite Ht; reflexivity|exact IH|exact Hs].
  - constructor.
  - intros n m l _ IHm _ IHl. constructor; assumption.
Qed.
End Round.
