(** * Proofs about the generated protobuf codec *)

From Coq Require Import Permutation.
From Verif Require Import Wire Schemas SpecWire WireFacts WireFacts2 WireFacts3 WireFacts4 WireFacts5 WireFacts6 WireFacts7.
Local Open Scope Z_scope.
Local Open Scope list_scope.

Lemma vt_env_in name s : vt_env name = Some s -> In (name, s) vt_table.
Proof.
  unfold vt_env. destruct (find _ vt_table) as [[n t]|] eqn:E; [|discriminate]. intros [= ->].
  apply find_some in E as [H1 H2]. cbn [fst] in H2. apply String.eqb_eq in H2. subst n. exact H1.
Qed.
Lemma vt_known name : In name message_types -> exists s, vt_env name = Some s.
Proof.
  intros H. unfold message_types in H. apply in_map_iff in H as ([n s] & Hn & Hin). cbn [fst] in Hn. subst n.
  unfold vt_env. destruct (find _ vt_table) as [[n t]|] eqn:E; [eauto|].
  exfalso. eapply find_none in E; [|exact Hin]. cbn [fst] in E. rewrite String.eqb_refl in E. discriminate E.
Qed.
Lemma vt_coherent : coherent vt_env.
Proof.
  assert (H : forallb (fun p => schema_ok vt_env (snd p)) vt_table = true) by (vm_compute; reflexivity).
  intros name s Hs. apply vt_env_in in Hs. rewrite forallb_forall in H. apply (H _ Hs).
Qed.

Lemma message_mono env (U V : schema -> bytes -> Prop) : (forall s u, U s u -> V s u) ->
  (forall name m, message_of env U name m -> message_of env V name m) /\
  (forall ss fs, members_of env U ss fs -> members_of env V ss fs) /\
  (forall sl v, member_of env U sl v -> member_of env V sl v) /\
  (forall n l, messages_of env U n l -> messages_of env V n l).
Proof. intros HUV. apply message_mutind; intros; econstructor; eauto. Qed.

Lemma built_typed name m : built name m -> message_of vt_env only_unknown name m.
Proof. apply message_mono. intros s u ->. constructor. Qed.
Lemma built_value name m : built name m -> value name m.
Proof. apply message_mono. intros; exact I. Qed.

Lemma built_members name m : built name m -> exists s, vt_env name = Some s /\ members_of vt_env (fun _ u => u = []) s (msg_fields m).
Proof. intros H. inversion H; subst. cbn [msg_fields]. eauto. Qed.

Lemma marshal_ok U name m : message_of vt_env U name m -> representable (size_of name m) ->
  marshal name m = Ok (enc vt_env name m) /\ blen (enc vt_env name m) = size_of name m.
Proof.
  intros Hm Hs. unfold representable, size_of in Hs. assert (E62 : Z.of_N (2 ^ 62) = 2 ^ 62) by reflexivity.
  assert (Hl : nlen (enc vt_env name m) = size_vt vt_env name m) by (apply (proj1 (sized_all vt_env vt_coherent U) name m Hm); lia).
  split.
  - unfold marshal, marshal_vt. cbv zeta. rewrite <- Hl. unfold nlen. rewrite Nat2N.id, Nat.ltb_irrefl, Nat.sub_diag.
    cbn [repeat app]. rewrite firstn_all. reflexivity.
  - unfold size_of. rewrite <- Hl. unfold blen, nlen. lia.
Qed.

Lemma round_any name m : message_of vt_env only_unknown name m -> representable (size_of name m) ->
  exists b, marshal name m = Ok b /\ unmarshal name (empty name) b = Ok m.
Proof.
  intros Hm Hs. destruct (marshal_ok _ _ _ Hm Hs) as [H1 H2]. exists (enc vt_env name m). split; [exact H1|].
  apply (proj1 (round_all vt_env vt_coherent) name m Hm). unfold fits. rewrite H2. exact Hs.
Qed.

Lemma C93_round_trip_proof : forall name m,
    built name m -> representable (size_of name m) ->
    exists b, marshal name m = Ok b /\ unmarshal name (empty name) b = Ok m.
Proof. intros name m Hm Hs. apply round_any; [apply built_typed; exact Hm|exact Hs]. Qed.

Lemma C93_decoded_again_proof : forall name d m,
    In name message_types -> representable (blen d) ->
    unmarshal name (empty name) d = Ok m -> representable (size_of name m) ->
    exists b, marshal name m = Ok b /\ unmarshal name (empty name) b = Ok m.
Proof.
  intros name d m Hn Hd Hu Hs. apply vt_known in Hn as [s Hn]. apply round_any; [|exact Hs].
  assert (Hz : message_of vt_env only_unknown name (empty name)).
  { apply zero_message; [constructor|]. unfold known. rewrite Hn. reflexivity. }
  pose proof (unmarshal_vt_typed vt_env vt_coherent only_unknown ltac:(constructor) ltac:(intros; constructor; assumption) name _ d Hz Hd) as H.
  unfold unmarshal in Hu. rewrite Hu in H. exact H.
Qed.

Lemma C93_injective_proof : forall name m1 m2 b,
    built name m1 -> built name m2 -> representable (size_of name m1) -> representable (size_of name m2) ->
    marshal name m1 = Ok b -> marshal name m2 = Ok b -> m1 = m2.
Proof.
  intros name m1 m2 b H1 H2 Hs1 Hs2 E1 E2.
  destruct (C93_round_trip_proof _ _ H1 Hs1) as (b1 & M1 & R1). destruct (C93_round_trip_proof _ _ H2 Hs2) as (b2 & M2 & R2).
  congruence.
Qed.

(** A token request whose grant is a wrapper without a message. *)
Definition hollow : msg := set_field (empty "flow.TokenRequest") 7 (FOneof (Some (10, None))).
Lemma C93_hollow_grant_refuted_proof : exists m b m',
    msg_unknown m = [] /\ marshal "flow.TokenRequest" m = Ok b /\ unmarshal "flow.TokenRequest" (empty "flow.TokenRequest") b = Ok m' /\ m' <> m.
Proof. exists hollow, [], (empty "flow.TokenRequest"). split; [reflexivity|]. split; [vm_compute; reflexivity|]. split; [vm_compute; reflexivity|]. vm_compute. discriminate. Qed.

Lemma C94_size_proof : forall name m,
    value name m -> representable (size_of name m) ->
    exists b, marshal name m = Ok b /\ blen b = size_of name m.
Proof. intros name m Hm Hs. destruct (marshal_ok _ _ _ Hm Hs) as [H1 H2]. eauto. Qed.

Lemma C95_decoding_total_proof : forall name m d,
    value name m -> representable (blen d) ->
    (exists m', unmarshal name m d = Ok m' /\ value name m') \/ exists e, unmarshal name m d = Err e.
Proof.
  intros name m d Hm Hd.
  pose proof (unmarshal_vt_typed vt_env vt_coherent (fun _ _ => True) ltac:(intros; exact I) ltac:(intros; exact I) name _ d Hm Hd) as H.
  unfold unmarshal. destruct (unmarshal_vt vt_env name m d) as [m'|e| |]; [left; eauto|right; eauto|destruct H|destruct H].
Qed.

Lemma C95_hollow_grant_refuted_proof : exists m b,
    msg_unknown m = [] /\ (exists m', unmarshal "flow.TokenRequest" (empty "flow.TokenRequest") b = Ok m') /\
    unmarshal "flow.TokenRequest" m b = Panics.
Proof.
  exists hollow, (map b8 [82; 3; 10; 1; 65]%N). split; [reflexivity|]. split; [eexists; vm_compute; reflexivity|]. vm_compute. reflexivity.
Qed.

Lemma C96_concatenation_proof : forall name m a m1 b m2,
    representable (blen (a ++ b)) -> unmarshal name m a = Ok m1 ->
    (unmarshal name m (a ++ b) = Ok m2 <-> unmarshal name m1 b = Ok m2).
Proof. intros name m a m1 b m2 Hf H. apply unmarshal_app; [exact Hf|exact H]. Qed.

(** Client metadata with a client name in two languages. *)
Definition named (l : list (bytes * bytes)) : msg := set_field (empty "client.ClientMeta") 6 (FMap l).
Definition en : bytes * bytes := (map b8 [101; 110], map b8 [65])%N.
Definition fr : bytes * bytes := (map b8 [102; 114], map b8 [66])%N.

Lemma C97_same_bytes_refuted_proof : exists name fs k l l',
    Permutation l l' /\ built name (Msg (set_nth fs k (FMap l)) []) /\ built name (Msg (set_nth fs k (FMap l')) []) /\
    marshal name (Msg (set_nth fs k (FMap l)) []) <> marshal name (Msg (set_nth fs k (FMap l')) []).
Proof.
  exists "client.ClientMeta"%string, (msg_fields (empty "client.ClientMeta")), 6%nat, [en; fr], [fr; en].
  assert (Hb : forall l, NoDup (map fst l) -> built "client.ClientMeta" (Msg (set_nth (msg_fields (empty "client.ClientMeta")) 6 (FMap l)) [])).
  { intros l Hl. assert (Hz : built "client.ClientMeta" (empty "client.ClientMeta")).
    { apply zero_message; [reflexivity|]. reflexivity. }
    apply built_members in Hz as (s & He & Hfs). econstructor; [exact He| |reflexivity].
    eapply members_set; [exact Hfs| |].
    - assert (Es : Some s = Some sch_client_ClientMeta) by (rewrite <- He; reflexivity). injection Es as ->. reflexivity.
    - constructor; [reflexivity|exact Hl]. }
  split; [constructor|]. split; [|split].
  - apply Hb. vm_compute. constructor; [intros [H|[]]; discriminate H|]. constructor; [intros []|constructor].
  - apply Hb. vm_compute. constructor; [intros [H|[]]; discriminate H|]. constructor; [intros []|constructor].
  - vm_compute. discriminate.
Qed.

(** Field 7 of the metadata, an entry of 4 bytes: key "e", then the tag of the value and a length of
    five, which reaches beyond the entry. *)
Lemma C97_entries_apart_refuted_proof : exists c d d' m m',
    (let tag := b8 58 in let len := b8 5 in
     unmarshal "client.ClientMeta" (empty "client.ClientMeta") (tag :: len :: c ++ d) = Ok m /\
     unmarshal "client.ClientMeta" (empty "client.ClientMeta") (tag :: len :: c ++ d') = Ok m' /\
     blen c = 5 /\ nth_error (msg_fields m) 6 <> nth_error (msg_fields m') 6).
Proof.
  exists (map b8 [10; 1; 101; 18; 3]%N), (map b8 [50; 1; 65]%N), (map b8 [50; 1; 66]%N).
  eexists. eexists. cbv zeta. split; [vm_compute; reflexivity|]. split; [vm_compute; reflexivity|]. split; [reflexivity|].
  vm_compute. discriminate.
Qed.
