(** * The codec: decoding is compositional (proofs only) *)

From Verif Require Import Wire WireFacts WireFacts2.
Local Open Scope Z_scope.
Local Open Scope list_scope.

Definition sch (env : wire_env) (name : string) : schema := match env name with Some s => s | None => [] end.
Definition subfun := string -> msg -> bytes -> res msg.
Definition halts {A} (r : res A) : Prop := r <> Hangs.

Lemma safe_halts {A} (r : res A) : safe r -> halts r.
Proof. intros H E. subst r. exact H. Qed.
Lemma halts_bind {A B} (r : res A) (k : A -> res B) : halts r -> (forall a, r = Ok a -> halts (k a)) -> halts (rbind r k).
Proof. unfold halts. destruct r; cbn; intros H Hk; auto; discriminate. Qed.

(** ** One field *)

(** [sub'] is as good as [sub] where [sub] ends. *)
Definition refines (sub sub' : subfun) : Prop := forall n m s, halts (sub n m s) -> sub' n m s = sub n m s.

Ltac sub_eq Hs H :=
  match goal with
  | |- context [rbind (?sub' ?n ?m ?s) _] =>
      match type of H with
      | context [rbind (?sub n m s) _] =>
          rewrite (Hs n m s); [try reflexivity|let E := fresh in intros E; apply H; rewrite E; reflexivity]
      end
  end.

Lemma read_field_refines env sub sub' f old d i : refines sub sub' ->
  halts (read_field env sub f old d i) -> read_field env sub' f old d i = read_field env sub f old d i.
Proof.
  intros Hs H. unfold read_field in *.
  destruct (f_type f); try reflexivity; destruct old as [?|?|?|?|?|o|l|?|o]; try reflexivity;
    destruct (read_bytes d i) as [[s j]| | |]; cbn [rbind] in *; try reflexivity.
  - sub_eq Hs H.
  - destruct o as [[num inner]|]; [destruct (num =? f_num f); [destruct inner|]|]; try reflexivity; sub_eq Hs H.
  - sub_eq Hs H.
Qed.

(** Every way of reading a field is a reader. *)
Lemma read_map_span (d : bytes) (i : Z) (l : list (bytes * bytes)) :
  (let! '(v, i) := read_varint d i in
   let n := int64 (Z.of_N v) in
   if n <? 0 then Err EInvalidLength
   else
     let post := int64 (i + n) in
     if post <? 0 then Err EInvalidLength
     else if blen d <? post then Err EUnexpectedEOF
     else let! '(k, v) := read_entry (S (List.length d)) d i post [] [] in Ok (FMap (map_put l k v), post))
  = let! '(a, b) := read_span d i in let! '(k, v) := entry d a b in Ok (FMap (map_put l k v), b).
Proof.
  unfold read_span, entry. destruct (read_varint d i) as [[v k]| | |]; try reflexivity. cbn [rbind].
  cbv zeta. destruct (_ <? 0); [reflexivity|]. destruct (_ <? 0); [reflexivity|]. destruct (_ <? _); reflexivity.
Qed.

Section Reader.
Context (env : wire_env) (sub : subfun).

Definition wrap {A} (R : reader A) (g : A -> res fval) : reader fval :=
  fun d i => let! '(x, j) := R d i in let! v := g x in Ok (v, j).
Definition read_map (l : list (bytes * bytes)) : reader fval :=
  fun d i => let! '(a, b) := read_span d i in let! '(k, v) := entry d a b in Ok (FMap (map_put l k v), b).

(** [read_field] as a reader followed by a function of what it read. *)
Definition on_bytes (f : field) (old : fval) (s : bytes) : res fval :=
  match f_type f, old with
  | TStr, _ => Ok (FStr s)
  | TOptStr, _ => Ok (FOptStr (Some s))
  | TRepStr, FRepStr l => Ok (FRepStr (l ++ [s]))
  | TMsg n, FMsg o =>
      let! m := sub n (match o with Some m => m | None => zero_named env n end) s in Ok (FMsg (Some m))
  | TRepMsg n, FRepMsg l => let! m := sub n (zero_named env n) s in Ok (FRepMsg (l ++ [m]))
  | TMsg n, FOneof (Some (num, inner)) =>
      if num =? f_num f then
        match inner with
        | None => match s with [] => Ok old | _ => Panics end
        | Some m => let! m := sub n m s in Ok (FOneof (Some (f_num f, Some m)))
        end
      else let! m := sub n (zero_named env n) s in Ok (FOneof (Some (f_num f, Some m)))
  | TMsg n, FOneof None => let! m := sub n (zero_named env n) s in Ok (FOneof (Some (f_num f, Some m)))
  | _, _ => Panics
  end.

Definition field_reader (f : field) (old : fval) : reader fval :=
  match f_type f, old with
  | TNum k, _ => wrap (read_num k) (fun z => Ok (FNum z))
  | TOptNum k, _ => wrap (read_num k) (fun z => Ok (FOptNum (Some z)))
  | TMap, FMap l => read_map l
  | TRepStr, FRepStr _ | TMsg _, FMsg _ | TMsg _, FOneof _ | TRepMsg _, FRepMsg _ | TStr, _ | TOptStr, _ =>
      wrap read_bytes (on_bytes f old)
  | _, _ => fun _ _ => Panics
  end.

Lemma read_field_reader f old d i : read_field env sub f old d i = field_reader f old d i.
Proof.
  unfold read_field, field_reader, wrap, on_bytes, read_map.
  destruct (f_type f) eqn:Hf.
  - destruct (read_bytes d i) as [[s j]| | |]; reflexivity.
  - destruct (read_bytes d i) as [[s j]| | |]; reflexivity.
  - destruct old; try reflexivity; destruct (read_bytes d i) as [[s j]| | |]; reflexivity.
  - destruct (read_num k d i) as [[s j]| | |]; reflexivity.
  - destruct (read_num k d i) as [[s j]| | |]; reflexivity.
  - destruct old; try reflexivity; destruct (read_bytes d i) as [[s j]| | |]; cbn [rbind]; try reflexivity.
    + destruct (sub _ _ s); reflexivity.
    + destruct o as [[num inner]|]; cbn [rbind].
      * destruct (num =? f_num f); [destruct inner|].
        -- destruct (sub _ _ s); reflexivity.
        -- destruct s; reflexivity.
        -- destruct (sub _ _ s); reflexivity.
      * destruct (sub _ _ s); reflexivity.
  - destruct old; try reflexivity; destruct (read_bytes d i) as [[s j]| | |]; cbn [rbind]; try reflexivity;
      destruct (sub _ _ s); reflexivity.
  - destruct old; try reflexivity; apply read_map_span.
Qed.

Lemma wrap_moves {A} (R : reader A) g : moves_on R -> moves_on (wrap R g).
Proof.
  intros H d i v j Hd Hi E. unfold wrap in E. rb E. destruct a as [x k]. rb E. injection E as _ <-. eapply H; eassumption.
Qed.
Lemma wrap_ext {A} (R : reader A) g : extends R -> extends (wrap R g).
Proof.
  intros H p d e i v j Hf Hi E. unfold wrap in *. rb E. destruct a as [x k]. rb E. injection E as <- <-.
  rewrite (H _ _ _ _ _ _ Hf Hi Hr). cbn [rbind]. rewrite Hr0. reflexivity.
Qed.
Lemma wrap_ret {A} (R : reader A) g : retracts R -> retracts (wrap R g).
Proof.
  intros H p d i v j Hf Hi E. unfold wrap in *. rb E. destruct a as [x k]. rb E. injection E as <- <-.
  rewrite (H _ _ _ _ _ Hf Hi Hr). cbn [rbind]. rewrite Hr0. reflexivity.
Qed.
Lemma read_map_inv l d i v j : fits d -> 0 <= i -> read_map l d i = Ok (v, j) ->
  exists a kv, read_span d i = Ok (a, j) /\ i < a <= j /\ j <= blen d /\ entry d a j = Ok kv /\ v = FMap (map_put l (fst kv) (snd kv)).
Proof.
  intros Hd Hi E. unfold read_map in E. rb E. destruct a as [a b]. rb E. destruct a0 as [k x]. injection E as <- <-.
  destruct (read_span_inv _ _ _ _ Hd Hi Hr) as (w & _ & H1 & H2 & H3 & H4).
  exists a, (k, x). repeat split; auto with zarith.
Qed.
Lemma read_map_moves l : moves_on (read_map l).
Proof. intros d i v j Hd Hi E. apply read_map_inv in E as (a & kv & _ & H & H' & _); [|assumption..]. lia. Qed.
Lemma read_map_ext l : extends (read_map l).
Proof.
  intros p d e i v j Hf Hi E. pose proof (fits_mid _ _ _ Hf) as Hd.
  apply read_map_inv in E as (a & kv & H1 & H2 & H3 & H4 & ->); [|assumption..].
  unfold read_map. rewrite (read_span_ext _ _ _ _ _ _ Hf Hi H1). cbn [rbind].
  rewrite (entry_ext p d e a j kv Hf); [|lia|lia|exact H4]. cbn [rbind]. destruct kv; reflexivity.
Qed.
Lemma read_map_ret l : retracts (read_map l).
Proof.
  intros p d i v j Hf Hi E. pose proof (fits_end _ _ Hf) as Hd. pose proof (blen_nonneg p) as Hp.
  apply read_map_inv in E as (a & kv & H1 & H2 & H3 & H4 & ->); [|exact Hf|lia].
  unfold read_map. rewrite (read_span_ret _ _ _ _ _ Hf Hi H1). cbn [rbind].
  rewrite blen_app in H3. replace a with (blen p + (a - blen p)) in H4 by lia. replace j with (blen p + (j - blen p)) in H4 by lia.
  apply entry_ret in H4; [|exact Hf|lia|lia]. rewrite H4. cbn [rbind]. destruct kv; reflexivity.
Qed.

Lemma panics_moves : moves_on (fun _ _ => Panics : res (fval * Z)).
Proof. intros d i v j _ _ E. discriminate E. Qed.
Lemma field_reader_moves f old : moves_on (field_reader f old).
Proof.
  unfold field_reader.
  destruct (f_type f); destruct old;
    first [apply panics_moves | apply read_map_moves | apply wrap_moves; first [apply read_bytes_moves | apply read_num_moves]].
Qed.
Lemma field_reader_ext f old : extends (field_reader f old).
Proof.
  unfold field_reader.
  destruct (f_type f); destruct old;
    first [intros p d e i v j _ _ E; discriminate E | apply read_map_ext | apply wrap_ext; first [apply read_bytes_ext | apply read_num_ext]].
Qed.
Lemma field_reader_ret f old : retracts (field_reader f old).
Proof.
  unfold field_reader.
  destruct (f_type f); destruct old;
    first [intros p d i v j _ _ E; discriminate E | apply read_map_ret | apply wrap_ret; first [apply read_bytes_ret | apply read_num_ret]].
Qed.

(** [sub] is called on shorter texts only. *)
Lemma on_bytes_halts f old s : (forall n m, halts (sub n m s)) -> halts (on_bytes f old s).
Proof.
  intros H. unfold on_bytes.
  destruct (f_type f); try discriminate; destruct old as [?|?|?|?|?|o|l|?|o]; try discriminate.
  - apply halts_bind; [apply H|discriminate].
  - destruct o as [[num inner]|]; [destruct (num =? f_num f); [destruct inner|]|];
      try (apply halts_bind; [apply H|discriminate]).
    destruct s; discriminate.
  - apply halts_bind; [apply H|discriminate].
Qed.
Lemma field_reader_halts f old d i : fits d -> 0 <= i <= blen d ->
  (forall n m s, blen s < blen d - i -> halts (sub n m s)) -> halts (field_reader f old d i).
Proof.
  intros Hd Hi H. unfold field_reader. assert (Hi0 : 0 <= i) by lia.
  assert (Hb : halts (wrap read_bytes (on_bytes f old) d i)).
  { apply halts_bind; [apply safe_halts, read_bytes_safe; assumption|]. intros [s j] E.
    apply halts_bind; [|discriminate]. apply on_bytes_halts. intros n m. apply H.
    eapply read_bytes_short; eassumption. }
  assert (Hn : forall k g, (forall z, halts (g z)) -> halts (wrap (read_num k) g d i)).
  { intros k g Hg. apply halts_bind; [apply safe_halts, read_num_safe; assumption|]. intros [z j] _.
    apply halts_bind; [apply Hg|discriminate]. }
  assert (Hm : forall l, halts (read_map l d i)).
  { intros l. apply halts_bind; [apply safe_halts, read_span_safe; exact Hi0|]. intros [a b] E.
    destruct (read_span_inv _ _ _ _ Hd Hi0 E) as (w & _ & H1 & H2 & H3 & H4).
    apply halts_bind; [apply safe_halts, entry_safe; [exact Hd|lia|lia]|]. intros [k v] _. discriminate. }
  destruct (f_type f); destruct old; first [discriminate | exact Hb | apply Hm | apply Hn; discriminate].
Qed.
End Reader.

(** ** One step of the loop *)
Definition step (sub : subfun) (env : wire_env) (name : string) (m : msg) : reader msg := fun d i =>
  let! '(wire, i') := read_varint d i in
  let num := int32 (Z.of_N (wire / 8)) in
  let wt := (wire mod 8)%N in
  if (wt =? 4)%N then Err EEndOfGroup
  else if num <=? 0 then Err ETag
  else
    match find_field (sch env name) num with
    | Some (k, f) =>
        if negb (wt =? f_wire f)%N then Err EWireType
        else
          match nth_error (msg_fields m) k with
          | None => Panics
          | Some old => let! '(v, j) := field_reader env sub f old d i' in Ok (set_field m k v, j)
          end
    | None => let! '(u, j) := read_unknown d i (blen d) in Ok (Msg (msg_fields m) (msg_unknown m ++ u), j)
    end.

Lemma unmarshal_at_S n env name m d i : unmarshal_at (S n) env name m d i =
  if blen d <=? i then (if blen d <? i then Err EUnexpectedEOF else Ok m)
  else let! '(m', j) := step (fun nm m s => unmarshal_at n env nm m s 0) env name m d i in unmarshal_at n env name m' d j.
Proof.
  cbn [unmarshal_at]. unfold step, sch. destruct (blen d <=? i); [reflexivity|].
  destruct (read_varint d i) as [[w i']| | |]; try reflexivity. cbn [rbind]. cbv zeta.
  destruct (_ =? 4)%N; [reflexivity|]. destruct (_ <=? 0); [reflexivity|].
  destruct (find_field _ _) as [[k f]|].
  - destruct (negb _); [reflexivity|]. destruct (nth_error _ k) as [old|]; [|reflexivity].
    rewrite read_field_reader. destruct (field_reader _ _ _ _ d i') as [[v j]| | |]; reflexivity.
  - destruct (read_unknown d i (blen d)) as [[u j]| | |]; reflexivity.
Qed.

Lemma step_moves sub env name m : moves_on (step sub env name m).
Proof.
  intros d i m' j Hd Hi H. unfold step in H. rb H. destruct a as [w i'].
  pose proof (read_varint_moves _ _ _ _ Hd Hi Hr) as Hi'. cbv zeta in H.
  destruct (_ =? 4)%N; [discriminate H|]. destruct (_ <=? 0); [discriminate H|].
  destruct (find_field _ _) as [[k f]|].
  - destruct (negb _); [discriminate H|]. destruct (nth_error _ k) as [old|]; [|discriminate H].
    rb H. destruct a as [v j']. injection H as _ <-.
    assert (H0 : 0 <= i') by lia. pose proof (field_reader_moves env sub f old _ _ _ _ Hd H0 Hr0). lia.
  - rb H. destruct a as [u j']. injection H as _ <-.
    destruct (read_unknown_inv _ _ _ _ _ Hd Hi (Z.le_refl _) Hr0) as (tl & n & _ & _ & E & Hn & Hj & _). lia.
Qed.
Lemma step_ext sub env name m : extends (step sub env name m).
Proof.
  intros p d e i m' j Hf Hi H. pose proof (fits_mid _ _ _ Hf) as Hd. unfold step in *. rb H. destruct a as [w i'].
  pose proof (read_varint_moves _ _ _ _ Hd Hi Hr) as Hi'. rewrite (read_varint_ext _ _ _ _ _ _ Hf Hi Hr). cbn [rbind].
  cbv zeta in *. destruct (_ =? 4)%N; [discriminate H|]. destruct (_ <=? 0); [discriminate H|].
  destruct (find_field _ _) as [[k f]|].
  - destruct (negb _); [discriminate H|]. destruct (nth_error _ k) as [old|]; [|discriminate H].
    rb H. destruct a as [v j']. injection H as <- <-.
    assert (H0 : 0 <= i') by lia. rewrite (field_reader_ext env sub f old _ _ _ _ _ _ Hf H0 Hr0). reflexivity.
  - rb H. destruct a as [u j']. injection H as <- <-.
    assert (HL : blen p + blen d <= blen (p ++ d ++ e)) by (rewrite !blen_app; pose proof (blen_nonneg e); lia).
    rewrite (read_unknown_ext p d e i (blen d) _ _ _ Hf Hi (Z.le_refl _) HL Hr0). reflexivity.
Qed.
Lemma step_ret sub env name m : retracts (step sub env name m).
Proof.
  intros p d i m' j Hf Hi H. pose proof (fits_end _ _ Hf) as Hd. pose proof (blen_nonneg p) as Hp.
  unfold step in *. rb H. destruct a as [w i'].
  pose proof (read_varint_ret _ _ _ _ _ Hf Hi Hr) as Hr'. rewrite Hr'. cbn [rbind].
  pose proof (read_varint_moves _ _ _ _ Hd Hi Hr') as Hi'.
  cbv zeta in *. destruct (_ =? 4)%N; [discriminate H|]. destruct (_ <=? 0); [discriminate H|].
  destruct (find_field _ _) as [[k f]|].
  - destruct (negb _); [discriminate H|]. destruct (nth_error _ k) as [old|]; [|discriminate H].
    rb H. destruct a as [v j']. injection H as <- <-.
    replace i' with (blen p + (i' - blen p)) in Hr0 by lia.
    apply field_reader_ret in Hr0; [|exact Hf|lia]. rewrite Hr0. reflexivity.
  - rb H. destruct a as [u j']. injection H as <- <-.
    rewrite blen_app in Hr0. apply read_unknown_ret in Hr0; [|exact Hf|exact Hi|lia]. rewrite Hr0. reflexivity.
Qed.
Lemma step_halts sub env name m d i : fits d -> 0 <= i <= blen d ->
  (forall n m s, blen s < blen d - i -> halts (sub n m s)) -> halts (step sub env name m d i).
Proof.
  intros Hd Hi H. unfold step. assert (Hi0 : 0 <= i) by lia.
  apply halts_bind; [apply safe_halts, read_varint_safe; exact Hi0|]. intros [w i'] Hr.
  pose proof (read_varint_moves _ _ _ _ Hd Hi0 Hr) as Hi'. cbv zeta.
  destruct (_ =? 4)%N; [discriminate|]. destruct (_ <=? 0); [discriminate|].
  destruct (find_field _ _) as [[k f]|].
  - destruct (negb _); [discriminate|]. destruct (nth_error _ k) as [old|]; [|discriminate].
    apply halts_bind; [|intros [? ?] _; discriminate]. apply field_reader_halts; [exact Hd|lia|].
    intros n m0 s Hs. apply H. lia.
  - apply halts_bind; [apply safe_halts, read_unknown_safe; [exact Hd|lia|lia]|]. intros [? ?] _. discriminate.
Qed.
Lemma step_refines sub sub' env name m d i : refines sub sub' -> halts (step sub env name m d i) ->
  step sub' env name m d i = step sub env name m d i.
Proof.
  intros Hs H. unfold step in *. destruct (read_varint d i) as [[w i']| | |]; try reflexivity. cbn [rbind] in *. cbv zeta in *.
  destruct (_ =? 4)%N; [reflexivity|]. destruct (_ <=? 0); [reflexivity|].
  destruct (find_field _ _) as [[k f]|]; [|reflexivity].
  destruct (negb _); [reflexivity|]. destruct (nth_error _ k) as [old|]; [|reflexivity].
  rewrite <- !read_field_reader in *. rewrite (read_field_refines env sub sub'); [reflexivity|exact Hs|].
  intros E. apply H. rewrite E. reflexivity.
Qed.

Lemma unmarshal_mono env n : forall n' name m d i, (n <= n')%nat ->
  halts (unmarshal_at n env name m d i) -> unmarshal_at n' env name m d i = unmarshal_at n env name m d i.
Proof.
  induction n as [|n IH]; intros n' name m d i Hn H; [exfalso; apply H; reflexivity|].
  destruct n' as [|n']; [lia|]. rewrite !unmarshal_at_S in *.
  destruct (blen d <=? i); [reflexivity|].
  assert (Hs : refines (fun nm m s => unmarshal_at n env nm m s 0) (fun nm m s => unmarshal_at n' env nm m s 0)).
  { intros nm m0 s Hh. apply IH; [lia|exact Hh]. }
  rewrite (step_refines _ _ _ _ _ _ _ Hs) by (intros E; apply H; rewrite E; reflexivity).
  destruct (step _ _ _ _ d i) as [[m' j]| | |]; try reflexivity. cbn [rbind] in *. apply IH; [lia|exact H].
Qed.
Lemma unmarshal_halts env n : forall name m d i, fits d -> 0 <= i <= blen d -> blen d - i < Z.of_nat n ->
  halts (unmarshal_at n env name m d i).
Proof.
  induction n as [|n IH]; intros name m d i Hd Hi Hn; [lia|]. rewrite unmarshal_at_S.
  destruct (Z.leb_spec (blen d) i). { destruct (blen d <? i); discriminate. }
  apply halts_bind.
  - apply step_halts; [exact Hd|lia|]. intros nm m0 s Hs. pose proof (blen_nonneg s).
    apply IH; [unfold fits in *; lia|lia|lia].
  - intros [m' j] E. assert (Hi0 : 0 <= i) by lia. pose proof (step_moves _ _ _ _ _ _ _ _ Hd Hi0 E).
    apply IH; [exact Hd|lia|lia].
Qed.

(** ** Without fuel *)
Definition unm (env : wire_env) (name : string) (m : msg) (d : bytes) (i : Z) : res msg :=
  unmarshal_at (S (List.length d)) env name m d i.
Lemma unm_vt env name m d : unm env name m d 0 = unmarshal_vt env name m d.
Proof. reflexivity. Qed.
Lemma unm_any env n name m d i : fits d -> 0 <= i <= blen d -> halts (unmarshal_at n env name m d i) ->
  unmarshal_at n env name m d i = unm env name m d i.
Proof.
  intros Hd Hi H. unfold unm. destruct (Nat.le_ge_cases n (S (List.length d))) as [Hle|Hge].
  - symmetry. apply unmarshal_mono; assumption.
  - apply unmarshal_mono; [exact Hge|]. apply unmarshal_halts; [exact Hd|exact Hi|]. unfold blen in *. lia.
Qed.
Lemma unm_eq env name m d i : fits d -> 0 <= i <= blen d ->
  unm env name m d i =
  if blen d <=? i then Ok m
  else let! '(m', j) := step (unmarshal_vt env) env name m d i in unm env name m' d j.
Proof.
  intros Hd Hi. unfold unm at 1. rewrite unmarshal_at_S. destruct (Z.leb_spec (blen d) i) as [Hl|Hl].
  { destruct (Z.ltb_spec (blen d) i); [lia|reflexivity]. }
  set (n := List.length d).
  assert (Hs : forall nm m s, blen s < blen d - i -> unmarshal_at n env nm m s 0 = unmarshal_vt env nm m s).
  { intros nm m0 s Hs. pose proof (blen_nonneg s). apply unm_any; [unfold fits in *; lia|lia|].
    apply unmarshal_halts; [unfold fits in *; lia|lia|]. unfold n, blen in *. lia. }
  assert (E : step (fun nm m s => unmarshal_at n env nm m s 0) env name m d i = step (unmarshal_vt env) env name m d i).
  { unfold step. assert (Hi0 : 0 <= i) by lia.
    destruct (read_varint d i) as [[w i']| | |] eqn:Hr; try reflexivity. cbn [rbind]. cbv zeta.
    pose proof (read_varint_moves _ _ _ _ Hd Hi0 Hr) as Hi'.
    destruct (_ =? 4)%N; [reflexivity|]. destruct (_ <=? 0); [reflexivity|].
    destruct (find_field _ _) as [[k f]|]; [|reflexivity].
    destruct (negb _); [reflexivity|]. destruct (nth_error _ k) as [old|]; [|reflexivity]. f_equal.
    assert (Hi'0 : 0 <= i') by lia.
    unfold field_reader, wrap, on_bytes.
    destruct (f_type f); try reflexivity; destruct old as [?|?|?|?|?|o|l|?|o]; try reflexivity;
      destruct (read_bytes d i') as [[s j]| | |] eqn:Hb; cbn [rbind]; try reflexivity;
      pose proof (read_bytes_short _ _ _ _ Hd Hi'0 Hb); rewrite ?Hs by lia; try reflexivity.
    destruct o as [[num inner]|]; rewrite ?Hs by lia; try reflexivity.
    destruct (num =? f_num f); [destruct inner|]; rewrite ?Hs by lia; reflexivity. }
  rewrite E. clear E. destruct (step _ _ _ _ d i) as [[m' j]| | |] eqn:Hst; try reflexivity. cbn [rbind].
  assert (Hi0 : 0 <= i) by lia. pose proof (step_moves _ _ _ _ _ _ _ _ Hd Hi0 Hst).
  apply unm_any; [exact Hd|lia|]. apply unmarshal_halts; [exact Hd|lia|]. unfold n, blen in *. lia.
Qed.

Lemma unm_app env name a b : fits (a ++ b) -> forall n m i m1, Z.to_nat (blen a - i) = n -> 0 <= i <= blen a ->
  unm env name m a i = Ok m1 -> unm env name m (a ++ b) i = unm env name m1 (a ++ b) (blen a).
Proof.
  intros Hf n. induction n as [n IH] using lt_wf_ind. intros m i m1 Hn Hi H.
  assert (Ha : fits a) by (apply (fits_mid [] a b); exact Hf).
  rewrite unm_eq in H by assumption. destruct (Z.leb_spec (blen a) i).
  - injection H as <-. f_equal. lia.
  - rb H. destruct a0 as [m' j]. assert (Hi0 : 0 <= i) by lia. pose proof (step_moves _ _ _ _ _ _ _ _ Ha Hi0 Hr) as Hj.
    pose proof (step_ext _ _ _ _ [] a b i m' j Hf Hi0 Hr) as E. cbn [app] in E.
    change (blen []) with 0 in E. rewrite !Z.add_0_l in E.
    rewrite (unm_eq env name m (a ++ b)); [|exact Hf|rewrite blen_app; pose proof (blen_nonneg b); lia].
    destruct (Z.leb_spec (blen (a ++ b)) i) as [Hb|_]. { rewrite blen_app in Hb. pose proof (blen_nonneg b). lia. }
    rewrite E. cbn [rbind]. eapply IH; [| |lia|exact H]; [|reflexivity]. lia.
Qed.
Lemma unm_shift env name p d : fits (p ++ d) -> forall n m i m2, Z.to_nat (blen d - i) = n -> 0 <= i <= blen d ->
  (unm env name m (p ++ d) (blen p + i) = Ok m2 <-> unm env name m d i = Ok m2).
Proof.
  intros Hf n. induction n as [n IH] using lt_wf_ind. intros m i m2 Hn Hi.
  pose proof (fits_end _ _ Hf) as Hd. pose proof (blen_nonneg p) as Hp. assert (Hi0 : 0 <= i) by lia.
  rewrite (unm_eq env name m (p ++ d)); [|exact Hf|rewrite blen_app; lia].
  rewrite (unm_eq env name m d); [|exact Hd|exact Hi]. rewrite blen_app.
  destruct (Z.leb_spec (blen p + blen d) (blen p + i)); destruct (Z.leb_spec (blen d) i); try lia; [reflexivity|].
  split; intros E.
  - rb E. destruct a as [m' j]. apply step_ret in Hr; [|exact Hf|exact Hi0]. rewrite Hr. cbn [rbind].
    pose proof (step_moves _ _ _ _ _ _ _ _ Hd Hi0 Hr) as Hj.
    replace j with (blen p + (j - blen p)) in E by lia. eapply IH in E; [exact E| |reflexivity|]; lia.
  - rb E. destruct a as [m' j]. pose proof (step_moves _ _ _ _ _ _ _ _ Hd Hi0 Hr) as Hj.
    rewrite <- (app_nil_r d) in Hf. rewrite <- (app_nil_r d) at 1.
    rewrite (step_ext _ _ _ _ p d [] i m' j Hf Hi0 Hr). cbn [rbind]. rewrite (app_nil_r d) in *.
    eapply IH; [|reflexivity| |exact E]; lia.
Qed.
Lemma unmarshal_app env name m a m1 b m2 : fits (a ++ b) -> unmarshal_vt env name m a = Ok m1 ->
  (unmarshal_vt env name m (a ++ b) = Ok m2 <-> unmarshal_vt env name m1 b = Ok m2).
Proof.
  intros Hf H. rewrite <- !unm_vt in *. pose proof (blen_nonneg a).
  rewrite (unm_app env name a b Hf _ m 0 m1 eq_refl); [|lia|exact H].
  pose proof (unm_shift env name a b Hf _ m1 0 m2 eq_refl) as E. rewrite Z.add_0_r in E. apply E.
  pose proof (blen_nonneg b). lia.
Qed.
