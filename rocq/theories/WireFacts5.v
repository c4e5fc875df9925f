(** * The codec: skipped fields are fields of their own; coherent schemas (proofs only) *)

From Verif Require Import Wire WireFacts WireFacts2 WireFacts3 WireFacts4 SpecWire.
Local Open Scope Z_scope.
Local Open Scope list_scope.

(** ** Cutting the text behind what was read *)
Lemma varint_loop_cut n : forall d e i sh acc v j, 0 <= i ->
  varint_loop n (d ++ e) i sh acc = Ok (v, j) -> j <= blen d -> varint_loop n d i sh acc = Ok (v, j).
Proof.
  induction n as [|n IH]; intros d e i sh acc v j Hi H Hj; cbn [varint_loop] in *; [discriminate H|].
  destruct (Z.leb_spec (blen (d ++ e)) i) as [|Hl]; [discriminate H|].
  assert (Hid : i < blen d).
  { rb H. destruct (_ <? 128)%N; [injection H as _ <-; lia|].
    apply varint_loop_moves in H; [|lia]. lia. }
  destruct (Z.leb_spec (blen d) i); [lia|].
  rewrite byte_at_app in H by lia. rb H. rewrite Hr. cbn [rbind]. cbv zeta in *.
  destruct (_ <? 128)%N; [exact H|]. eapply IH; [|exact H|exact Hj]. lia.
Qed.
Lemma skip_varint_cut n : forall d e i j, 0 <= i ->
  skip_varint n (d ++ e) i = Ok j -> j <= blen d -> skip_varint n d i = Ok j.
Proof.
  induction n as [|n IH]; intros d e i j Hi H Hj; cbn [skip_varint] in *; [discriminate H|].
  destruct (Z.leb_spec (blen (d ++ e)) i) as [|Hl]; [discriminate H|].
  assert (Hid : i < blen d).
  { rb H. destruct (_ <? 128)%N; [injection H as <-; lia|]. apply skip_varint_moves in H; [|lia]. lia. }
  destruct (Z.leb_spec (blen d) i); [lia|].
  rewrite byte_at_app in H by lia. rb H. rewrite Hr. cbn [rbind]. destruct (_ <? 128)%N; [exact H|].
  eapply IH; [|exact H|exact Hj]. lia.
Qed.
Lemma skip_one_cut wire d e i depth j depth' : fits (d ++ e) -> 0 <= i -> 0 <= j <= blen d ->
  skip_one wire (d ++ e) i depth = Ok (j, depth') -> skip_one wire d i depth = Ok (j, depth').
Proof.
  intros Hf Hi Hj H. unfold skip_one in *.
  destruct (wire mod 8)%N as [|p]; [|do 3 (try destruct p as [p|p|]); try exact H; try discriminate H].
  - rb H. injection H as -> <-. rewrite (skip_varint_cut _ _ _ _ _ Hi Hr) by lia. reflexivity.
  - rb H. destruct a as [v a]. pose proof (read_varint_moves _ _ _ _ Hf Hi Hr) as Ha.
    destruct (Z.ltb_spec (int64 (Z.of_N v)) 0); [discriminate H|]. injection H as E <-. unfold fits in Hf.
    pose proof (int64_range (Z.of_N v)) as Hv.
    destruct (int64_sum a (int64 (Z.of_N v))) as [E2 _]; [lia|lia|lia|].
    unfold read_varint in *. rewrite (varint_loop_cut _ _ _ _ _ _ _ _ Hi Hr) by lia. cbn [rbind].
    destruct (Z.ltb_spec (int64 (Z.of_N v)) 0); [lia|]. rewrite E. reflexivity.
Qed.
Lemma skip_loop_cut n : forall d e i depth j, fits (d ++ e) -> 0 <= i ->
  skip_loop n (d ++ e) i depth = Ok j -> j <= blen d -> skip_loop n d i depth = Ok j.
Proof.
  induction n as [|n IH]; intros d e i depth j Hf Hi H Hj; [discriminate H|]. rewrite skip_loop_S in *.
  pose proof (fits_app_l _ _ Hf) as Hd.
  destruct (Z.leb_spec (blen (d ++ e)) i) as [|Hl]; [discriminate H|]. rb H. destruct a as [wire k].
  pose proof (read_varint_moves _ _ _ _ Hf Hi Hr) as Hk. rb H. destruct a as [i2 depth2].
  destruct (Z.ltb_spec i2 0) as [|H2]; [discriminate H|].
  assert (Hk2 : 0 <= k <= blen (d ++ e)) by lia.
  pose proof (skip_one_moves _ _ _ _ _ _ Hf Hk2 Hr0) as Hm.
  assert (Hi2 : i2 <= blen d).
  { destruct depth2; [injection H as <-; exact Hj|]. apply skip_loop_moves in H; [|exact Hf|exact H2]. lia. }
  destruct (Z.leb_spec (blen d) i); [lia|].
  unfold read_varint in *. rewrite (varint_loop_cut _ _ _ _ _ _ _ _ Hi Hr) by lia. cbn [rbind].
  assert (Hk3 : 0 <= k) by lia. assert (Hi3 : 0 <= i2 <= blen d) by lia.
  rewrite (skip_one_cut _ _ _ _ _ _ _ Hf Hk3 Hi3 Hr0). cbn [rbind].
  destruct (Z.ltb_spec i2 0); [lia|]. destruct depth2; [exact H|]. eapply IH; eassumption.
Qed.
Lemma skip_loop_mono n : forall n' d i depth, (n <= n')%nat -> skip_loop n d i depth <> Hangs ->
  skip_loop n' d i depth = skip_loop n d i depth.
Proof.
  induction n as [|n IH]; intros n' d i depth Hn H; [exfalso; apply H; reflexivity|]. destruct n' as [|n']; [lia|].
  rewrite !skip_loop_S in *. destruct (_ <=? _); [reflexivity|].
  destruct (read_varint d i) as [[w k]| | |]; try reflexivity. cbn [rbind] in *.
  destruct (skip_one w d k depth) as [[i2 dp]| | |]; try reflexivity. cbn [rbind] in *.
  destruct (i2 <? 0); [reflexivity|]. destruct dp; [reflexivity|]. apply IH; [lia|exact H].
Qed.
Lemma skip_cut d e j : fits (d ++ e) -> skip (d ++ e) = Ok j -> j <= blen d -> skip d = Ok j.
Proof.
  intros Hf H Hj. pose proof (fits_app_l _ _ Hf) as Hd. unfold skip in *.
  apply skip_loop_cut in H; [|exact Hf|lia|exact Hj]. rewrite <- H. symmetry. apply skip_loop_mono.
  - rewrite app_length. lia.
  - intros E. pose proof (skip_safe d Hd) as Hs. unfold skip in Hs. rewrite E in Hs. exact Hs.
Qed.
Lemma skip_reads d j : fits d -> skip d = Ok j -> exists w k, read_varint d 0 = Ok (w, k) /\ k <= j.
Proof.
  intros Hd H. unfold skip in H. rewrite skip_loop_S in H. destruct (Z.leb_spec (blen d) 0); [discriminate H|].
  rb H. destruct a as [w k]. rb H. destruct a as [i2 dp]. assert (H00 : 0 <= 0) by lia.
  pose proof (read_varint_moves _ _ _ _ Hd H00 Hr) as Hk. assert (Hk2 : 0 <= k <= blen d) by lia.
  pose proof (skip_one_moves _ _ _ _ _ _ Hd Hk2 Hr0) as Hm.
  destruct (Z.ltb_spec i2 0) as [|H2]; [discriminate H|]. exists w, k. split; [exact Hr|].
  destruct dp; [injection H as <-; lia|]. apply skip_loop_moves in H; [|exact Hd|exact H2]. lia.
Qed.

(** ** The bytes of unknown fields *)
Definition unknown_chunk (s : schema) (c : bytes) : Prop :=
  fits c /\ exists w k, read_varint c 0 = Ok (w, k) /\ ((w mod 8 =? 4)%N = false) /\
    (int32 (Z.of_N (w / 8)) <=? 0) = false /\ find_field s (int32 (Z.of_N (w / 8))) = None /\ skip c = Ok (blen c).
Inductive only_unknown (s : schema) : bytes -> Prop :=
| ou_nil : only_unknown s []
| ou_snoc u c : only_unknown s u -> unknown_chunk s c -> only_unknown s (u ++ c).

Lemma read_unknown_chunk s d i u j w k : fits d -> 0 <= i -> read_unknown d i (blen d) = Ok (u, j) ->
  read_varint d i = Ok (w, k) -> (w mod 8 =? 4)%N = false -> (int32 (Z.of_N (w / 8)) <=? 0) = false ->
  find_field s (int32 (Z.of_N (w / 8))) = None -> unknown_chunk s u.
Proof.
  intros Hd Hi H Hr H4 Hn Hs.
  destruct (read_unknown_inv _ _ _ _ _ Hd Hi (Z.le_refl _) H) as (tl & n & Htl & Hsk & -> & Hn0 & Hj & Hu).
  apply slice_ok in Htl as (_ & Hid & _ & Etl). apply slice_ok in Hu as (_ & _ & _ & Eu).
  set (p := firstn (Z.to_nat i) d).
  assert (Ed : d = p ++ tl).
  { rewrite Etl. rewrite firstn_all2 by (rewrite skipn_length; unfold blen; lia). symmetry. apply firstn_skipn. }
  assert (Hp : blen p = i). { unfold blen, p. rewrite firstn_length. unfold blen in *. lia. }
  assert (Eu2 : u = firstn (Z.to_nat n) tl).
  { rewrite Eu. replace (i + n - i) with n by lia. rewrite Etl. f_equal. symmetry. apply firstn_all2.
    rewrite skipn_length. unfold blen. lia. }
  set (r := skipn (Z.to_nat n) tl). assert (Et : tl = u ++ r) by (rewrite Eu2; symmetry; apply firstn_skipn).
  assert (Hbu : blen u = n).
  { rewrite Eu2. unfold blen. rewrite firstn_length. rewrite Ed, blen_app in Hj. unfold blen in *. lia. }
  assert (Hft : fits tl) by (rewrite Ed in Hd; apply (fits_end p); exact Hd).
  pose proof Hft as Hfu. rewrite Et in Hfu.
  split; [apply (fits_app_l u r); exact Hfu|].
  assert (Hr' : read_varint tl 0 = Ok (w, k - i)).
  { rewrite <- Hp. apply (read_varint_ret p); [rewrite <- Ed; exact Hd|lia|]. rewrite <- Ed, Hp, Z.add_0_r. exact Hr. }
  destruct (skip_reads tl n Hft Hsk) as (w2 & k2 & Hr2 & Hk2). rewrite Hr2 in Hr'. injection Hr' as -> Ek.
  exists w, k2. repeat split; try assumption.
  - rewrite Et in Hr2. unfold read_varint in *. eapply varint_loop_cut; [|exact Hr2|]; lia.
  - rewrite Hbu. rewrite Et in Hsk. eapply skip_cut; [exact Hfu|exact Hsk|lia].
Qed.

Lemma unmarshal_nil env name m : unmarshal_vt env name m [] = Ok m.
Proof. reflexivity. Qed.
Lemma unmarshal_end env name m d : fits d -> unm env name m d (blen d) = Ok m.
Proof.
  intros Hd. pose proof (blen_nonneg d). rewrite unm_eq; [|exact Hd|lia]. rewrite Z.leb_refl. reflexivity.
Qed.
Lemma unmarshal_chunk env name s m c : env name = Some s -> unknown_chunk s c ->
  unmarshal_vt env name m c = Ok (Msg (msg_fields m) (msg_unknown m ++ c)).
Proof.
  intros He (Hf & w & k & Hr & H4 & Hn & Hs & Hk). rewrite <- unm_vt. pose proof (skip_moves _ _ Hf Hk) as Hb.
  rewrite unm_eq; [|exact Hf|lia]. destruct (Z.leb_spec (blen c) 0); [lia|].
  unfold step, sch. rewrite He, Hr. cbn [rbind]. cbv zeta. rewrite H4, Hn, Hs.
  assert (Hu : read_unknown c 0 (blen c) = Ok (c, blen c)).
  { unfold read_unknown. rewrite slice_all. cbn [rbind]. rewrite Hk. cbn [rbind]. unfold fits in Hf.
    rewrite Z.add_0_l, int64_id by lia. destruct (Z.ltb_spec (blen c) 0); [lia|]. cbn [orb].
    rewrite Z.ltb_irrefl. rewrite slice_all. reflexivity. }
  rewrite Hu. cbn [rbind]. apply unmarshal_end. exact Hf.
Qed.
Lemma unmarshal_two env name m a m1 b m2 : fits (a ++ b) -> unmarshal_vt env name m a = Ok m1 ->
  unmarshal_vt env name m1 b = Ok m2 -> unmarshal_vt env name m (a ++ b) = Ok m2.
Proof. intros Hf H1 H2. apply (unmarshal_app _ _ _ _ _ _ _ Hf H1). exact H2. Qed.
Lemma unmarshal_unknown env name s m u : env name = Some s -> fits u -> only_unknown s u ->
  unmarshal_vt env name m u = Ok (Msg (msg_fields m) (msg_unknown m ++ u)).
Proof.
  intros He Hf H. induction H as [|u c Hu IH Hc].
  - rewrite app_nil_r. destruct m; reflexivity.
  - eapply unmarshal_two; [exact Hf|apply IH; eapply fits_app_l; exact Hf|].
    rewrite (unmarshal_chunk _ _ _ _ _ He Hc). cbn [msg_fields msg_unknown]. rewrite app_assoc. reflexivity.
Qed.

(** ** Coherent schemas *)
Definition wire_of (t : ftype) : N :=
  match t with
  | TNum NFixed64 | TOptNum NFixed64 => 1
  | TNum _ | TOptNum _ => 0
  | _ => 2
  end.
(** What SizeVT counts beside the tag in the same constant. *)
Definition extra_of (t : ftype) : N :=
  match t with
  | TNum NFixed64 | TOptNum NFixed64 => 8
  | TNum NBool | TOptNum NBool => 1
  | _ => 0
  end.
Definition known (env : wire_env) (n : string) : bool := match env n with Some _ => true | None => false end.
Definition nested_ok (env : wire_env) (t : ftype) : bool :=
  match t with TMsg n | TRepMsg n => known env n | _ => true end.
Definition field_ok (env : wire_env) (f : field) : bool :=
  bytes_eqb (put_tag f) (encode_varint (Z.to_N (f_num f) * 8 + f_wire f))
  && (0 <? f_num f) && (f_num f <? 2 ^ 29)
  && (f_wire f =? wire_of (f_type f))%N
  && (f_size f =? N.of_nat (List.length (f_tag f)) + extra_of (f_type f))%N
  && nested_ok env (f_type f).
Definition is_msg (t : ftype) : bool := match t with TMsg _ => true | _ => false end.
Definition slot_fields (s : slot) : list field := match s with Plain f => [f] | Oneof alts => alts end.
Definition slot_ok (env : wire_env) (s : slot) : bool :=
  forallb (field_ok env) (slot_fields s)
  && match s with Plain _ => true | Oneof alts => forallb (fun f => is_msg (f_type f)) alts end.
Definition nums (s : schema) : list Z := map f_num (flat_map slot_fields s).
Fixpoint distinct (l : list Z) : bool :=
  match l with [] => true | x :: l => negb (existsb (Z.eqb x) l) && distinct l end.
Definition schema_ok (env : wire_env) (s : schema) : bool := forallb (slot_ok env) s && distinct (nums s).
Definition coherent (env : wire_env) : Prop := forall name s, env name = Some s -> schema_ok env s = true.

Lemma distinct_nodup l : distinct l = true -> NoDup l.
Proof.
  induction l as [|x l IH]; intros H; [constructor|]. cbn in H. apply andb_prop in H as [H1 H2]. constructor; [|apply IH; exact H2].
  intros Hin. apply negb_true_iff in H1. assert (existsb (Z.eqb x) l = true); [|congruence].
  apply existsb_exists. exists x. split; [exact Hin|apply Z.eqb_refl].
Qed.
Lemma bytes_eqb_eq a b : bytes_eqb a b = true -> a = b.
Proof. unfold bytes_eqb. destruct (list_eq_dec _ a b); [auto|discriminate]. Qed.

Lemma field_ok_inv env f : field_ok env f = true ->
  put_tag f = encode_varint (Z.to_N (f_num f) * 8 + f_wire f) /\ 0 < f_num f < 2 ^ 29 /\
  f_wire f = wire_of (f_type f) /\ f_size f = (N.of_nat (List.length (f_tag f)) + extra_of (f_type f))%N /\
  nested_ok env (f_type f) = true.
Proof.
  unfold field_ok. intros H. repeat (apply andb_prop in H as [H ?]).
  apply bytes_eqb_eq in H. repeat match goal with
    | h : (_ <? _) = true |- _ => apply Z.ltb_lt in h
    | h : (_ =? _)%N = true |- _ => apply N.eqb_eq in h end. repeat split; auto.
Qed.
Lemma slot_field_in s num f : slot_field s num = Some f -> In f (slot_fields s) /\ f_num f = num.
Proof.
  destruct s as [g|alts]; cbn [slot_field slot_fields].
  - destruct (Z.eqb_spec (f_num g) num); [|discriminate]. intros [= <-]. split; [left; reflexivity|assumption].
  - unfold pick. intros H. apply find_some in H as [H1 H2]. apply Z.eqb_eq in H2. auto.
Qed.
Lemma find_field_some s num k f : find_field s num = Some (k, f) ->
  exists sl, nth_error s k = Some sl /\ In f (slot_fields sl) /\ f_num f = num.
Proof.
  revert k. induction s as [|sl s IH]; intros k H; [discriminate H|]. cbn [find_field] in H.
  destruct (slot_field sl num) as [g|] eqn:E.
  - injection H as <- <-. exists sl. split; [reflexivity|]. apply slot_field_in. exact E.
  - destruct (find_field s num) as [[k' g]|]; [|discriminate H]. injection H as <- <-. apply IH. reflexivity.
Qed.
Lemma pick_in alts f : NoDup (map f_num alts) -> In f alts -> pick alts (f_num f) = Some f.
Proof.
  unfold pick. induction alts as [|g alts IH]; intros Hd Hin; [destruct Hin|]. cbn [find].
  inversion Hd as [|? ? Hn Hd']; subst. destruct Hin as [->|Hin]; [rewrite Z.eqb_refl; reflexivity|].
  destruct (Z.eqb_spec (f_num g) (f_num f)) as [E|E]; [|apply IH; assumption].
  exfalso. apply Hn. rewrite E. apply in_map. exact Hin.
Qed.
Lemma nodup_app_l {A} (l r : list A) : NoDup (l ++ r) -> NoDup l.
Proof.
  induction l as [|a l IH]; intros H; [constructor|]. inversion H as [|? ? Hn Hd]; subst. constructor; [|apply IH; exact Hd].
  intros Hin. apply Hn. apply in_or_app. left. exact Hin.
Qed.
Lemma nodup_app_r {A} (l r : list A) : NoDup (l ++ r) -> NoDup r.
Proof. induction l as [|a l IH]; intros H; [exact H|]. inversion H; subst. apply IH. assumption. Qed.
Lemma nodup_app_disj {A} (l r : list A) x : NoDup (l ++ r) -> In x l -> In x r -> False.
Proof.
  induction l as [|a l IH]; intros H Hl Hr; [destruct Hl|]. inversion H as [|? ? Hn Hd]; subst. destruct Hl as [->|Hl]; [|eauto].
  apply Hn. apply in_or_app. right. exact Hr.
Qed.
Lemma find_field_in s : forall k sl f, NoDup (nums s) -> nth_error s k = Some sl -> In f (slot_fields sl) ->
  find_field s (f_num f) = Some (k, f).
Proof.
  induction s as [|s0 s IH]; intros k sl f Hd Hk Hin; [destruct k; discriminate Hk|]. cbn [find_field].
  unfold nums in Hd. cbn [flat_map] in Hd. rewrite map_app in Hd. destruct k as [|k]; cbn [nth_error] in Hk.
  - injection Hk as ->. replace (slot_field sl (f_num f)) with (Some f); [reflexivity|]. symmetry.
    destruct sl as [g|alts]; cbn [slot_field slot_fields] in *.
    + destruct Hin as [->|[]]. rewrite Z.eqb_refl. reflexivity.
    + apply pick_in; [|exact Hin]. eapply nodup_app_l. exact Hd.
  - destruct (slot_field s0 (f_num f)) as [g|] eqn:E.
    + exfalso. apply slot_field_in in E as [E1 E2]. eapply nodup_app_disj; [exact Hd|apply in_map; exact E1|].
      rewrite E2. apply in_map. apply in_flat_map. exists sl. split; [eapply nth_error_In; exact Hk|exact Hin].
    + rewrite (IH k sl f); [reflexivity|eapply nodup_app_r; exact Hd|exact Hk|exact Hin].
Qed.

Section Coherent.
Context (env : wire_env) (Hc : coherent env).
Lemma coherent_slot name s k sl : env name = Some s -> nth_error s k = Some sl -> slot_ok env sl = true.
Proof.
  intros He Hk. apply Hc in He. unfold schema_ok in He. apply andb_prop in He as [He _].
  rewrite forallb_forall in He. apply He. eapply nth_error_In. exact Hk.
Qed.
Lemma coherent_nodup name s : env name = Some s -> NoDup (nums s).
Proof. intros He. apply Hc in He. unfold schema_ok in He. apply andb_prop in He as [_ He]. apply distinct_nodup. exact He. Qed.
Lemma slot_ok_field sl f : slot_ok env sl = true -> In f (slot_fields sl) -> field_ok env f = true.
Proof. intros H Hin. apply andb_prop in H as [H _]. rewrite forallb_forall in H. apply H. exact Hin. Qed.

Lemma wire_of_lt t : (wire_of t < 8)%N.
Proof. destruct t as [| | |[]|[]| | |]; reflexivity. Qed.

(** One field, encoded, is one step of the decoder. *)
Lemma unmarshal_field name s k sl f M old body v :
  env name = Some s -> nth_error s k = Some sl -> In f (slot_fields sl) -> nth_error (msg_fields M) k = Some old ->
  fits (put_tag f ++ body) -> field_reader env (unmarshal_vt env) f old body 0 = Ok (v, blen body) ->
  unmarshal_vt env name M (put_tag f ++ body) = Ok (set_field M k v).
Proof.
  intros He Hk Hin Ho Hf Hr. pose proof (slot_ok_field _ _ (coherent_slot _ _ _ _ He Hk) Hin) as Hfo.
  apply field_ok_inv in Hfo as (Ht & Hn & Hw & _ & _). rewrite <- unm_vt.
  pose proof (blen_encode_varint (Z.to_N (f_num f) * 8 + f_wire f)) as Hpos. rewrite <- Ht in Hpos.
  assert (Hwlt : (f_wire f < 8)%N) by (rewrite Hw; apply wire_of_lt).
  rewrite unm_eq; [|exact Hf|pose proof (blen_nonneg (put_tag f ++ body)); lia].
  destruct (Z.leb_spec (blen (put_tag f ++ body)) 0) as [Hl|_]. { rewrite blen_app in Hl. pose proof (blen_nonneg body). lia. }
  unfold step, sch. rewrite He.
  assert (Hv : read_varint (put_tag f ++ body) 0 = Ok ((Z.to_N (f_num f) * 8 + f_wire f)%N, blen (put_tag f))).
  { rewrite Ht. apply read_varint_encode0. assert (Z.of_N (2 ^ 64) = 2 ^ 64) by reflexivity. lia. }
  rewrite Hv. cbn [rbind]. cbv zeta.
  replace ((Z.to_N (f_num f) * 8 + f_wire f) / 8)%N with (Z.to_N (f_num f)).
  2:{ rewrite N.add_comm, N.div_add by discriminate. rewrite N.div_small by exact Hwlt. reflexivity. }
  replace ((Z.to_N (f_num f) * 8 + f_wire f) mod 8)%N with (f_wire f).
  2:{ rewrite N.add_comm, N.mod_add by discriminate. rewrite N.mod_small by exact Hwlt. reflexivity. }
  rewrite Z2N.id by lia. assert (E32 : int32 (f_num f) = f_num f) by (unfold int32; rewrite Z.mod_small; lia). rewrite E32.
  destruct (N.eqb_spec (f_wire f) 4) as [E4|_].
  { exfalso. rewrite Hw in E4. destruct (f_type f) as [| | |[]|[]| | |]; discriminate E4. }
  destruct (Z.leb_spec (f_num f) 0); [lia|].
  rewrite (find_field_in s k sl f (coherent_nodup _ _ He) Hk Hin). rewrite N.eqb_refl. cbn [negb]. rewrite Ho.
  pose proof (field_reader_ext env (unmarshal_vt env) f old (put_tag f) body [] 0 v (blen body)) as E.
  rewrite !app_nil_r, Z.add_0_r in E. rewrite (E Hf (Z.le_refl _) Hr). cbn [rbind].
  rewrite <- blen_app. apply unmarshal_end. exact Hf.
Qed.
End Coherent.
