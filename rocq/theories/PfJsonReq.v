(** * Signed authorization requests (proofs) *)

From Verif Require Export SpecJsonReq.
From Coq Require Import Lia.

Section Proofs.
Context (utf8 : string -> bool) (read_u64 : string -> option N).

(** ** Writing *)
Lemma encode_inv sign r raw : encode_request utf8 sign r = Some raw -> exists d, write_values utf8 fields (values r) = Some d /\ sign d = Some raw.
Proof.
  assert (G : forall o, match o with Some d => sign d | None => None end = Some raw -> exists d, o = Some d /\ sign d = Some raw).
  { intros [d|] H; [eauto|discriminate]. }
  exact (G (write_values utf8 fields (values r))).
Qed.
Lemma write_in : forall fs vs d, write_values utf8 fs vs = Some d -> forall n j, In (n, j) d ->
  exists i c k v, nth_error fs i = Some (n, c, k) /\ nth_error vs i = Some v /\ write_value utf8 v = Some (Some j).
Proof.
  induction fs as [|[[n c] k] fs IH]; intros vs d H m j Hin.
  - cbn in H. injection H as <-. destruct Hin.
  - destruct vs as [|v vs]; [cbn in H; injection H as <-; destruct Hin|]. cbn [write_values] in H.
    destruct (write_value utf8 v) as [[w|]|] eqn:Hv; try discriminate; destruct (write_values utf8 fs vs) as [d'|] eqn:Hd; try discriminate.
    + injection H as <-. destruct Hin as [[= <- <-]|Hin].
      * exists O, c, k, v. auto.
      * destruct (IH _ _ Hd _ _ Hin) as (i & c' & k' & v' & A). exists (S i), c', k', v'. exact A.
    + injection H as <-. destruct (IH _ _ Hd _ _ Hin) as (i & c' & k' & v' & A). exists (S i), c', k', v'. exact A.
Qed.
Lemma write_out : forall fs vs d, write_values utf8 fs vs = Some d -> forall i n c k v j,
  nth_error fs i = Some (n, c, k) -> nth_error vs i = Some v -> write_value utf8 v = Some (Some j) -> In (n, j) d.
Proof.
  induction fs as [|[[n c] k] fs IH]; intros vs d H i m c' k' v j Hf Hv Hw; [destruct i; discriminate|].
  destruct vs as [|v' vs]; [destruct i; discriminate|]. cbn [write_values] in H.
  destruct (write_value utf8 v') as [[w|]|] eqn:Hv'; try discriminate; destruct (write_values utf8 fs vs) as [d'|] eqn:Hd; try discriminate;
    injection H as <-; destruct i as [|i]; cbn in Hf, Hv.
  - injection Hf as <- <- <-. injection Hv as <-. rewrite Hw in Hv'. injection Hv' as <-. left; reflexivity.
  - right. eapply (IH _ _ Hd); eauto.
  - injection Hv as <-. congruence.
  - eapply (IH _ _ Hd); eauto.
Qed.
Lemma write_all : forall fs vs d, write_values utf8 fs vs = Some d -> forall i f v,
  nth_error fs i = Some f -> nth_error vs i = Some v -> write_value utf8 v <> None.
Proof.
  induction fs as [|[[n c] k] fs IH]; intros vs d H i f v Hf Hv; [destruct i; discriminate|].
  destruct vs as [|v' vs]; [destruct i; discriminate|]. cbn [write_values] in H.
  destruct (write_value utf8 v') as [[w|]|] eqn:Hv'; try discriminate; destruct (write_values utf8 fs vs) as [d'|] eqn:Hd; try discriminate;
    (destruct i as [|i]; cbn in Hf, Hv; [injection Hv as <-; congruence|eapply (IH _ _ Hd); eauto]).
Qed.
Lemma write_names : forall fs vs d, write_values utf8 fs vs = Some d -> NoDup (map (fun f => fst (fst f)) fs) -> NoDup (map fst d).
Proof.
  induction fs as [|[[n c] k] fs IH]; intros vs d H N; [cbn in H; injection H as <-; constructor|].
  destruct vs as [|v vs]; [cbn in H; injection H as <-; constructor|]. cbn [write_values] in H. inversion N as [|? ? N1 N2]; subst.
  destruct (write_value utf8 v) as [[w|]|] eqn:Hv; try discriminate; destruct (write_values utf8 fs vs) as [d'|] eqn:Hd; try discriminate;
    injection H as <-; [|eauto]. cbn. constructor; [|eauto].
  intros Hin. apply in_map_iff in Hin as ([m j] & E & Hin). cbn in E. subst m.
  destruct (write_in _ _ _ Hd _ _ Hin) as (i & c' & k' & v' & A & _). apply N1. cbn.
  apply in_map_iff. exists (n, c', k'). split; [reflexivity|]. eapply nth_error_In; eauto.
Qed.

(** ** Reading *)
Lemma set_length i v : forall l, List.length (set_nth i v l) = List.length l.
Proof. induction i as [|i IH]; intros [|x l]; cbn; auto. Qed.
Lemma set_get i v : forall l j, nth_error (set_nth i v l) j = if (Nat.eqb i j && Nat.ltb i (List.length l))%bool then Some v else nth_error l j.
Proof.
  induction i as [|i IH]; intros [|x l] [|j]; cbn; auto.
  - destruct (Nat.eqb i j); reflexivity.
  - apply IH.
Qed.

Definition at_ (m : string * json) : option nat := option_map fst (lookup fields (fst m)).

Lemma read_ok d : forall seen acc,
  (forall n j, In (n, j) d -> exists i k v, lookup fields n = Some (i, k) /\ read_value read_u64 k j = Some v /\ ~ In i seen) ->
  NoDup (map at_ d) ->
  exists acc', read_members read_u64 seen acc d = Some acc' /\ List.length acc' = List.length acc /\
    (forall i, (forall m, In m d -> at_ m <> Some i) -> nth_error acc' i = nth_error acc i) /\
    (forall n j i k v, In (n, j) d -> lookup fields n = Some (i, k) -> read_value read_u64 k j = Some v ->
       (i < List.length acc)%nat -> nth_error acc' i = Some v).
Proof.
  induction d as [|[n j] d IH]; intros seen acc Hk Hn.
  - exists acc. repeat split; [intros n j i k v []].
  - inversion Hn as [|? ? Hn1 Hn2]; subst. destruct (Hk n j (or_introl eq_refl)) as (i & k & v & Hl & Hv & Hs).
    assert (Hnew : forall m, In m d -> at_ m <> Some i).
    { assert (E0 : at_ (n, j) = Some i) by (unfold at_; cbn [fst]; rewrite Hl; reflexivity).
      intros m Hm E. apply Hn1. rewrite E0, <- E. apply in_map; exact Hm. }
    destruct (IH (i :: seen) (set_nth i v acc)) as (acc' & H1 & H2 & H3 & H4).
    { intros n' j' Hin. destruct (Hk n' j' (or_intror Hin)) as (i' & k' & v' & A & B & C). exists i', k', v'.
      repeat split; auto. intros [<-|Hi]; [|auto]. apply (Hnew _ Hin). unfold at_. cbn [fst]. rewrite A. reflexivity. }
    { exact Hn2. }
    exists acc'. cbn [read_members]. rewrite Hl.
    assert (B : existsb (Nat.eqb i) seen = false).
    { destruct (existsb (Nat.eqb i) seen) eqn:E; [|reflexivity]. apply existsb_exists in E as (x & Hx & Ex).
      apply Nat.eqb_eq in Ex. subst x. contradiction. }
    rewrite B, Hv. split; [exact H1|]. rewrite set_length in H2. split; [exact H2|]. split.
    + intros i' Hi'. rewrite H3 by (intros m Hm; apply Hi'; right; exact Hm). rewrite set_get.
      destruct (Nat.eqb_spec i i') as [<-|]; [|reflexivity]. exfalso. apply (Hi' (n, j) (or_introl eq_refl)). unfold at_. cbn [fst]. rewrite Hl. reflexivity.
    + intros n' j' i' k' v' [[= <- <-]|Hin] Hl' Hv' Hlt.
      * rewrite Hl in Hl'. injection Hl' as <- <-. rewrite Hv in Hv'. injection Hv' as <-. rewrite H3 by exact Hnew.
        rewrite set_get, Nat.eqb_refl. apply Nat.ltb_lt in Hlt. rewrite Hlt. reflexivity.
      * eapply H4; eauto. rewrite set_length. exact Hlt.
Qed.

(** What was read comes from the document. *)
Lemma read_from d : forall seen acc acc', read_members read_u64 seen acc d = Some acc' ->
  (forall n j, In (n, j) d -> exists i k, lookup fields n = Some (i, k)) /\ NoDup (map at_ d) /\
  (forall m i, In m d -> at_ m = Some i -> ~ In i seen) /\ List.length acc' = List.length acc /\
  forall i v, nth_error acc' i = Some v -> nth_error acc i = Some v \/
    exists n j k, In (n, j) d /\ lookup fields n = Some (i, k) /\ read_value read_u64 k j = Some v.
Proof.
  induction d as [|[n j] d IH]; intros seen acc acc' H; cbn [read_members] in H.
  - injection H as <-. repeat split; [intros ? ? []|constructor|intros m i []|auto].
  - destruct (lookup fields n) as [[i k]|] eqn:Hl; [|discriminate]. destruct (existsb (Nat.eqb i) seen) eqn:B; [discriminate|].
    destruct (read_value read_u64 k j) as [v|] eqn:Hv; [|discriminate]. apply IH in H as (H1 & H2 & H3 & H4 & H5).
    assert (Hs : ~ In i seen).
    { intros Hi. assert (existsb (Nat.eqb i) seen = true) by (apply existsb_exists; exists i; split; [exact Hi|apply Nat.eqb_refl]). congruence. }
    split; [|split; [|split; [|split]]].
    + intros n' j' [[= <- <-]|Hin]; eauto.
    + cbn. constructor; [|exact H2]. intros Hin. apply in_map_iff in Hin as (m & E & Hm).
      apply (H3 m i Hm); [rewrite E; unfold at_; cbn [fst]; rewrite Hl; reflexivity|left; reflexivity].
    + intros m i' [<-|Hm] E; [unfold at_ in E; cbn [fst] in E; rewrite Hl in E; injection E as <-; exact Hs|].
      intros Hi. apply (H3 m i' Hm E). right; exact Hi.
    + rewrite H4. apply set_length.
    + intros i' v' Hn. destruct (H5 i' v' Hn) as [Hn'|(n' & j' & k' & A & B' & C)].
      * rewrite set_get in Hn'. destruct (_ && _)%bool eqn:E; [|left; exact Hn']. injection Hn' as <-.
        apply andb_prop in E as [E _]. apply Nat.eqb_eq in E. subst i'. right. exists n, j, k. split; [left; reflexivity|auto].
      * right. exists n', j', k'. split; [right; exact A|auto].
Qed.

(** ** The table of members *)
Lemma lookup_at : forall fs n i k, lookup fs n = Some (i, k) -> exists p c, nth_error fs i = Some (p, c, k) /\ (n = p \/ n = c).
Proof.
  induction fs as [|[[p c] k'] fs IH]; intros n i k H; [discriminate|]. cbn [lookup] in H.
  destruct (String.eqb_spec p n) as [->|Hp]; cbn [orb] in H; [injection H as <- <-; exists n, c; auto|].
  destruct (String.eqb_spec c n) as [->|Hc]; cbn [orb] in H; [injection H as <- <-; exists p, n; auto|].
  destruct (lookup fs n) as [[i' k'']|] eqn:E; [|discriminate]. injection H as <- <-. exact (IH _ _ _ E).
Qed.
Lemma field_lookup : forall i n c k, nth_error fields i = Some (n, c, k) -> lookup fields n = Some (i, k).
Proof. intros i n c k H. do 23 (destruct i as [|i]; [injection H as <- <- <-; reflexivity|]). destruct i; discriminate. Qed.
Lemma field_names : NoDup (map (fun f => fst (fst f)) fields).
Proof.
  repeat (constructor; [cbn; intros H; repeat (destruct H as [H|H]; [discriminate H|]); exact H|]). constructor.
Qed.

Definition kind_of (v : value) : kind := match v with VStr _ => KStr | VOpt _ => KOpt | VNum _ => KNum | VList _ => KList end.
Lemma values_kinds r : map kind_of (values r) = map snd fields.
Proof. reflexivity. Qed.
Lemma of_to r : of_values (values r) = Some r.
Proof. destruct r. reflexivity. Qed.
Lemma to_of vs r : of_values vs = Some r -> values r = vs.
Proof.
  unfold of_values. intros H.
  repeat (match type of H with context [match ?x with _ => _ end] => is_var x; destruct x end; try discriminate H).
  injection H as <-. reflexivity.
Qed.

Lemma read_strings_map l : read_strings (map JsStr l) = Some l.
Proof. induction l as [|s l IH]; [reflexivity|]. cbn. rewrite IH. reflexivity. Qed.
Lemma read_strings_inv l : forall r, read_strings l = Some r -> l = map JsStr r.
Proof.
  induction l as [|[| | |s| |] l IH]; cbn; intros r H; try discriminate; [injection H as <-; reflexivity|].
  destruct (read_strings l) as [r'|]; [|discriminate]. injection H as <-. cbn. f_equal. apply IH. reflexivity.
Qed.

Lemma write_read v j : reads_back read_u64 -> (forall n, v = VNum (Some n) -> (n < 2 ^ 64)%N) ->
  write_value utf8 v = Some (Some j) -> read_value read_u64 (kind_of v) j = Some v.
Proof.
  intros Hr Hn H. destruct v as [s|[s|]|[n|]|[|s l]]; cbn [write_value kind_of] in *; try discriminate.
  - destruct s; [discriminate|]. destruct (utf8 _); [|discriminate]. injection H as <-. reflexivity.
  - destruct (utf8 s); [|discriminate]. injection H as <-. reflexivity.
  - injection H as <-. cbn. rewrite Hr by (apply Hn; reflexivity). reflexivity.
  - destruct (forallb utf8 (s :: l)); [|discriminate]. injection H as <-. unfold read_value. change (JsStr s :: map JsStr l) with (map JsStr (s :: l)). rewrite read_strings_map. reflexivity.
Qed.
Lemma write_none v : write_value utf8 v = Some None -> v = zero (kind_of v).
Proof.
  destruct v as [s|[s|]|[n|]|[|s l]]; cbn [write_value kind_of zero]; try discriminate; auto.
  - destruct s; [reflexivity|]. destruct (utf8 _); discriminate.
  - destruct (utf8 s); discriminate.
  - destruct (forallb utf8 (s :: l)); discriminate.
Qed.

Lemma nth_ext {A} (a : list A) : forall b, List.length a = List.length b -> (forall i x, nth_error b i = Some x -> nth_error a i = Some x) -> a = b.
Proof.
  induction a as [|x a IH]; intros [|y b] L H; try discriminate; [reflexivity|].
  pose proof (H O y eq_refl) as E. cbn in E. injection E as ->. f_equal. apply IH; [injection L; auto|]. intros i z Hz. exact (H (S i) z Hz).
Qed.

Lemma round_trip sign verify r raw : reads_back read_u64 -> verifies verify sign ->
  (forall n, rq_max_age r = Some n -> (n < 2 ^ 64)%N) ->
  encode_request utf8 sign r = Some raw -> decode_request read_u64 verify raw = Some r.
Proof.
  intros Hr Hv Hn H. apply encode_inv in H as (d & Hd & H).
  destruct (Hv _ _ H) as (Hraw & d' & Hp & Hver). unfold decode_request.
  destruct (String.eqb_spec raw ""); [contradiction|]. rewrite Hver.
  assert (Hkind : forall i n c k v, nth_error fields i = Some (n, c, k) -> nth_error (values r) i = Some v -> kind_of v = k).
  { intros i nm c k v Hf Hi. pose proof (values_kinds r) as K. pose proof (map_nth_error kind_of _ _ Hi) as Hi'. pose proof (map_nth_error snd _ _ Hf) as Hf'.
    rewrite K, Hf' in Hi'. injection Hi' as E. symmetry; exact E. }
  assert (Hnum : forall i v, nth_error (values r) i = Some v -> forall n, v = VNum (Some n) -> (n < 2 ^ 64)%N).
  { intros i v Hi n' ->. apply Hn. do 23 (destruct i as [|i]; [cbn in Hi; try discriminate Hi; injection Hi as ->; reflexivity|]). destruct i; discriminate. }
  destruct (read_ok d' [] (map (fun f => zero (snd f)) fields)) as (acc & H1 & H2 & H3 & H4).
  - intros m j Hin. apply (Permutation_in _ (Permutation_sym Hp)) in Hin.
    destruct (write_in _ _ _ Hd _ _ Hin) as (i & c & k & v & A & B & C). exists i, k, v.
    split; [exact (field_lookup _ _ _ _ A)|]. split; [|intros []]. rewrite <- (Hkind _ _ _ _ _ A B). apply write_read; eauto.
  - apply (Permutation_NoDup (Permutation_map at_ Hp)).
    pose proof (write_names _ _ _ Hd field_names) as N.
    assert (Q : forall m, In m d -> exists i c k, nth_error fields i = Some (fst m, c, k) /\ at_ m = Some i).
    { intros [m j] Hin. destruct (write_in _ _ _ Hd _ _ Hin) as (i & c & k & v & A & _). exists i, c, k. split; [exact A|].
      unfold at_. cbn [fst]. rewrite (field_lookup _ _ _ _ A). reflexivity. }
    clear - N Q. induction d as [|m d IH]; [constructor|]. inversion N as [|? ? N1 N2]; subst. cbn. constructor.
    + intros Hin. apply in_map_iff in Hin as (m' & E & Hm'). apply N1.
      destruct (Q m (or_introl eq_refl)) as (i & c & k & A & B). destruct (Q m' (or_intror Hm')) as (i' & c' & k' & A' & B').
      assert (i' = i) by congruence. subst i'. replace (fst m) with (fst m') by congruence. apply in_map. exact Hm'.
    + apply IH; [exact N2|]. intros m' Hm'. apply Q. right; exact Hm'.
  - rewrite H1. replace acc with (values r); [apply of_to|]. symmetry. apply nth_ext; [rewrite H2; reflexivity|].
    intros i v Hi. assert (Hlt : (i < 23)%nat) by (apply (nth_error_Some (values r)); congruence).
    destruct (nth_error fields i) as [[[m c] k]|] eqn:Hf; [|apply nth_error_None in Hf; cbn in Hf; lia].
    pose proof (Hkind _ _ _ _ _ Hf Hi) as K.
    destruct (write_value utf8 v) as [[j|]|] eqn:Hw.
    + apply (H4 m j i k v).
      * apply (Permutation_in _ Hp). eapply write_out; eauto.
      * exact (field_lookup _ _ _ _ Hf).
      * rewrite <- K. apply write_read; eauto.
      * exact Hlt.
    + rewrite H3.
      * rewrite (map_nth_error _ _ _ Hf). cbn. rewrite (write_none _ Hw), K. reflexivity.
      * intros [m' j'] Hin E. apply (Permutation_in _ (Permutation_sym Hp)) in Hin.
        destruct (write_in _ _ _ Hd _ _ Hin) as (i' & c' & k' & v' & A & B & C).
        unfold at_ in E. cbn [fst] in E. rewrite (field_lookup _ _ _ _ A) in E. injection E as ->. congruence.
    + exfalso. eapply (write_all _ _ _ Hd); eauto.
Qed.

Lemma writes : forall fs vs, (forall v s, In v vs -> (v = VStr s \/ v = VOpt (Some s) \/ (exists l, v = VList l /\ In s l)) -> utf8 s = true) ->
  exists d, write_values utf8 fs vs = Some d.
Proof.
  induction fs as [|[[n c] k] fs IH]; intros [|v vs] H; cbn [write_values]; eauto.
  destruct (IH vs) as (d & ->); [intros v' s Hv'; apply H; right; exact Hv'|].
  pose proof (fun s => H v s (or_introl eq_refl)) as Hv.
  destruct v as [s|[s|]|[m|]|[|s l]]; cbn [write_value]; eauto.
  - destruct s; [eauto|]. rewrite (Hv _ (or_introl eq_refl)). eauto.
  - rewrite (Hv _ (or_intror (or_introl eq_refl))). eauto.
  - assert (E : forallb utf8 (s :: l) = true) by (apply forallb_forall; intros x Hx; apply Hv; right; right; eauto). rewrite E. eauto.
Qed.
End Proofs.

Lemma C109_round_trip_proof : forall utf8 read_u64 sign verify r raw,
  reads_back read_u64 -> verifies verify sign -> (forall n, rq_max_age r = Some n -> (n < 2 ^ 64)%N) ->
  encode_request utf8 sign r = Some raw -> decode_request read_u64 verify raw = Some r.
Proof. exact round_trip. Qed.

Lemma C109_encodes_proof : forall utf8 sign r, (forall s, In s (strings r) -> utf8 s = true) ->
  exists d, encode_request utf8 sign r = sign d.
Proof.
  intros utf8 sign r H. unfold encode_request. destruct (writes utf8 fields (values r)) as (d & ->); [|eauto].
  intros v s Hv Hs. apply H. unfold strings. apply in_flat_map. exists v. split; [exact Hv|].
  destruct Hs as [->|[->|(l & -> & Hl)]]; [left; reflexivity|left; reflexivity|exact Hl].
Qed.

Lemma zero_unset k : unset (zero k).
Proof. unfold unset. destruct k; cbn; auto. Qed.

Lemma nothing_invented : forall read_u64 verify raw r,
  decode_request read_u64 verify raw = Some r ->
  exists d, raw <> ""%string /\ verify raw = Some d /\
    (* every claim is a member of the request *)
    (forall n j, In (n, j) d -> exists p c k, In (p, c, k) fields /\ (n = p \/ n = c)) /\
    (* and every member of the request that is set is a claim *)
    (forall i p c k v, nth_error fields i = Some (p, c, k) -> nth_error (values r) i = Some v ->
       unset v \/ exists n j, In (n, j) d /\ (n = p \/ n = c) /\ says read_u64 j v).
Proof.
  intros read_u64 verify raw r H. unfold decode_request in H. destruct (String.eqb_spec raw ""); [discriminate|].
  destruct (verify raw) as [d|]; [|discriminate]. destruct (read_members read_u64 [] _ d) as [vs|] eqn:Hd; [|discriminate].
  apply to_of in H. apply read_from in Hd as (H1 & _ & _ & _ & H5). exists d. split; [assumption|]. split; [reflexivity|]. split.
  - intros m j Hin. destruct (H1 _ _ Hin) as (i & k & Hl). destruct (lookup_at _ _ _ _ Hl) as (p & c & A & B).
    exists p, c, k. split; [eapply nth_error_In; eauto|exact B].
  - intros i p c k v Hf Hv. rewrite H in Hv. destruct (H5 _ _ Hv) as [Hz|(m & j & k' & Hin & Hl & Hr)].
    + left. rewrite (map_nth_error _ _ _ Hf) in Hz. injection Hz as <-. apply zero_unset.
    + destruct (lookup_at _ _ _ _ Hl) as (p' & c' & A & B). rewrite Hf in A. injection A as <- <- <-.
      destruct k, j; cbn in Hr; try discriminate; try (injection Hr as <-; left; apply (zero_unset KStr)) ;
        try (injection Hr as <-; left; apply (zero_unset KOpt)); try (injection Hr as <-; left; apply (zero_unset KNum));
        try (injection Hr as <-; left; apply (zero_unset KList)).
      * injection Hr as <-. right. eexists; eexists. split; [exact Hin|]. split; [exact B|]. reflexivity.
      * injection Hr as <-. right. eexists; eexists. split; [exact Hin|]. split; [exact B|]. reflexivity.
      * destruct (read_u64 text) eqn:E; [|discriminate]. injection Hr as <-. right. eexists; eexists.
        split; [exact Hin|]. split; [exact B|]. exists text. auto.
      * destruct (read_u64 s) eqn:E; [|discriminate]. injection Hr as <-. right. eexists; eexists.
        split; [exact Hin|]. split; [exact B|]. exists s. auto.
      * destruct (read_strings l) as [l'|] eqn:E; [|discriminate]. injection Hr as <-. right. eexists; eexists.
        split; [exact Hin|]. split; [exact B|]. apply read_strings_inv in E. rewrite E. reflexivity.
Qed.

Lemma in_combine_nth {A B} : forall (l : list A) (l' : list B) a b,
  In (a, b) (combine l l') <-> exists i, nth_error l i = Some a /\ nth_error l' i = Some b.
Proof.
  induction l as [|x l IH]; intros [|y l'] a b; cbn [combine In].
  - split; [contradiction|]. intros ([|i] & H & _); discriminate.
  - split; [contradiction|]. intros ([|i] & H & _); discriminate.
  - split; [contradiction|]. intros ([|i] & _ & H); discriminate.
  - rewrite IH. split.
    + intros [H|(i & H)]; [injection H as -> ->; exists O; auto|exists (S i); exact H].
    + intros ([|i] & H1 & H2); cbn in H1, H2; [left; congruence|right; eauto].
Qed.
Lemma members_fields r p c v : In (p, c, v) (members r) <-> exists i k, nth_error fields i = Some (p, c, k) /\ nth_error (values r) i = Some v.
Proof.
  assert (E : members r = map (fun m => (fst (fst m), snd m)) (combine fields (values r))) by reflexivity.
  rewrite E, in_map_iff. split.
  - intros ([[[p' c'] k] v'] & H & Hin). cbn in H. injection H as -> -> ->. apply in_combine_nth in Hin as (i & H). eauto.
  - intros (i & k & H). exists ((p, c, k), v). split; [reflexivity|]. apply in_combine_nth. eauto.
Qed.

Lemma C109_nothing_invented_proof : forall read_u64 verify raw r,
  decode_request read_u64 verify raw = Some r ->
  exists d, raw <> ""%string /\ verify raw = Some d /\
    (* every claim is a member of the request *)
    (forall n j, In (n, j) d -> exists p c v, In (p, c, v) (members r) /\ (n = p \/ n = c)) /\
    (* and every member of the request that is set is a claim *)
    (forall p c v, In (p, c, v) (members r) -> unset v \/ exists n j, In (n, j) d /\ (n = p \/ n = c) /\ says read_u64 j v).
Proof.
  intros read_u64 verify raw r H. apply nothing_invented in H as (d & H1 & H2 & H3 & H4). exists d.
  split; [exact H1|]. split; [exact H2|]. split.
  - intros n j Hin. destruct (H3 _ _ Hin) as (p & c & k & Hf & Hn). apply In_nth_error in Hf as (i & Hf).
    assert (Hi : nth_error (values r) i <> None) by (apply nth_error_Some; apply (nth_error_Some fields); congruence).
    destruct (nth_error (values r) i) as [v|] eqn:Hv; [|contradiction]. exists p, c, v. split; [|exact Hn]. apply members_fields. eauto.
  - intros p c v Hin. apply members_fields in Hin as (i & k & Hf & Hv). eauto.
Qed.

Lemma C109_written_proof : forall utf8 sign r raw, encode_request utf8 sign r = Some raw ->
  exists d, sign d = Some raw /\ NoDup (map fst d) /\
    forall p j, In (p, j) d <-> exists c v, In (p, c, v) (members r) /\ ~ unset v /\ written v j.
Proof.
  intros utf8 sign r raw H. apply encode_inv in H as (d & Hd & H).
  exists d. split; [exact H|]. split; [eapply write_names; [exact Hd|]; apply field_names|]. intros p j. split.
  - intros Hin. destruct (write_in _ _ _ _ Hd _ _ Hin) as (i & c & k & v & A & B & C). exists c, v.
    split; [apply members_fields; eauto|]. unfold unset.
    destruct v as [[|a s]|[s|]|[m|]|[|s l]]; cbn in C; try discriminate.
    + destruct (utf8 _); [|discriminate]. injection C as <-. split; [intuition discriminate|reflexivity].
    + destruct (utf8 _); [|discriminate]. injection C as <-. split; [intuition discriminate|reflexivity].
    + injection C as <-. split; [intuition discriminate|reflexivity].
    + destruct (_ && _)%bool; [|discriminate]. injection C as <-. split; [intuition discriminate|reflexivity].
  - intros (c & v & Hm & Hu & Hw). apply members_fields in Hm as (i & k & A & B). eapply write_out; [exact Hd|exact A|exact B|].
    pose proof (write_all _ _ _ _ Hd _ _ _ A B) as Hok. unfold unset in Hu.
    destruct v as [[|a s]|[s|]|[m|]|[|s l]]; cbn in Hw, Hok |- *; try contradiction; try (exfalso; tauto); subst j.
    + destruct (utf8 _); [reflexivity|contradiction].
    + destruct (utf8 _); [reflexivity|contradiction].
    + reflexivity.
    + destruct (_ && _)%bool; [reflexivity|contradiction].
Qed.

Lemma foreign_unknown n : In n foreign_claims -> lookup fields n = None.
Proof. intros H. cbn in H. repeat (destruct H as [<-|H]; [reflexivity|]). destruct H. Qed.

Lemma C109_foreign_claims_proof : forall read_u64 verify raw d n j,
  verify raw = Some d -> In (n, j) d -> In n foreign_claims -> decode_request read_u64 verify raw = None.
Proof.
  intros read_u64 verify raw d n j Hv Hin Hf. unfold decode_request. destruct (String.eqb raw ""); [reflexivity|]. rewrite Hv.
  destruct (read_members read_u64 [] _ d) as [vs|] eqn:Hd; [|reflexivity]. exfalso.
  apply read_from in Hd as (H1 & _). destruct (H1 _ _ Hin) as (i & k & Hl). rewrite (foreign_unknown _ Hf) in Hl. discriminate.
Qed.

(** RFC 9101 has the client name the server in the request. *)
Lemma C109_standard_refuted_proof : forall utf8 read_u64 verify r server raw d d',
  write_values utf8 fields (values r) = Some d ->
  Permutation d' (("aud"%string, JsStr server) :: d) -> verify raw = Some d' -> decode_request read_u64 verify raw = None.
Proof.
  intros utf8 read_u64 verify r server raw d d' _ Hp Hv.
  apply (C109_foreign_claims_proof read_u64 verify raw d' "aud" (JsStr server) Hv).
  - apply (Permutation_in _ (Permutation_sym Hp)). left; reflexivity.
  - left; reflexivity.
Qed.
