(** * Strings: facts about runes, fields and join (proofs only) *)

From Verif Require Export Strs.

Lemma sapp_assoc x y z : ((x ++ y) ++ z = x ++ (y ++ z))%string.
Proof. induction x as [|a x IH]; cbn; [reflexivity|]. change (String a ((x ++ y) ++ z) = String a (x ++ (y ++ z)))%string. rewrite IH; auto. Qed.
Lemma sapp_nil x : (x ++ "" = x)%string.
Proof. induction x as [|a x IH]; cbn; [reflexivity|]. change (String a (x ++ "") = String a x)%string. rewrite IH; auto. Qed.
Lemma sapp_cons a x y : (String a x ++ y = String a (x ++ y))%string.
Proof. reflexivity. Qed.
Lemma nil_sapp y : ("" ++ y = y)%string.
Proof. reflexivity. Qed.
Lemma concat_s_app l1 l2 : concat_s (l1 ++ l2) = (concat_s l1 ++ concat_s l2)%string.
Proof. induction l1 as [|x l1 IH]; cbn; [reflexivity|]. rewrite IH, sapp_assoc. reflexivity. Qed.

Lemma segs_eq a0 s0 : segs (String a0 s0) =
      if (byte a0 <? 128)%N then (byte a0, str1 a0) :: segs s0
      else
        match lead (byte a0) with
        | None => (rune_error, str1 a0) :: segs s0
        | Some (sz, lo, hi) =>
            match s0 with
            | EmptyString => [(rune_error, str1 a0)]
            | String a1 s1 =>
                if negb (in_range (byte a1) lo hi)
                then (rune_error, str1 a0) :: segs s0
                else
                  match sz with
                  | 2 =>
                      ((byte a0 - 192) * 64 + (byte a1 - 128), str2 a0 a1)%N
                        :: segs s1
                  | _ =>
                    match s1 with
                    | EmptyString => (rune_error, str1 a0) :: segs s0
                    | String a2 s2 =>
                        if negb (cont a2)
                        then (rune_error, str1 a0) :: segs s0
                        else
                          match sz with
                          | 3 =>
                              ((byte a0 - 224) * 4096 + (byte a1 - 128) * 64
                                 + (byte a2 - 128), str3 a0 a1 a2)%N
                                :: segs s2
                          | _ =>
                              match s2 with
                              | EmptyString => (rune_error, str1 a0) :: segs s0
                              | String a3 s3 =>
                                  if negb (cont a3)
                                  then (rune_error, str1 a0) :: segs s0
                                  else
                                    ((byte a0 - 240) * 262144
                                       + (byte a1 - 128) * 4096
                                       + (byte a2 - 128) * 64
                                       + (byte a3 - 128), str4 a0 a1 a2 a3)%N
                                      :: segs s3
                              end
                          end
                    end
                  end
            end
        end.
Proof. reflexivity. Qed.

(** The first rune of a non-empty string and the rest. *)
Definition seg1 (s : string) (g : N * string) (s' : string) : Prop :=
  segs s = g :: segs s' /\ s = (snd g ++ s')%string.

Ltac seg_solve := split; [reflexivity|reflexivity].

Lemma segs_step s : s <> ""%string -> exists g s', seg1 s g s' /\ (String.length s' < String.length s)%nat.
Proof.
  destruct s as [|a0 s0]; [congruence|]. intros _. unfold seg1. rewrite segs_eq.
  destruct (byte a0 <? 128)%N; [exists (byte a0, str1 a0), s0; split; [seg_solve|cbn; lia]|].
  destruct (lead (byte a0)) as [[[sz lo] hi]|]; [|exists (rune_error, str1 a0), s0; split; [seg_solve|cbn; lia]].
  destruct s0 as [|a1 s1]; [exists (rune_error, str1 a0), ""%string; split; [seg_solve|cbn; lia]|].
  destruct (negb (in_range (byte a1) lo hi)); [exists (rune_error, str1 a0), (String a1 s1); split; [seg_solve|cbn; lia]|].
  destruct sz as [|[|[|sz]]].
  4: destruct sz as [|sz].
  3: (eexists; exists s1; split; [split; [reflexivity|reflexivity]|cbn; lia]).
  all: destruct s1 as [|a2 s2]; [exists (rune_error, str1 a0), (String a1 ""); split; [seg_solve|cbn; lia]|];
    destruct (negb (cont a2)); [exists (rune_error, str1 a0), (String a1 (String a2 s2)); split; [seg_solve|cbn; lia]|].
  3: (eexists; exists s2; split; [split; [reflexivity|reflexivity]|cbn; lia]).
  all: destruct s2 as [|a3 s3]; [exists (rune_error, str1 a0), (String a1 (str1 a2)); split; [seg_solve|cbn; lia]|];
    destruct (negb (cont a3)); [exists (rune_error, str1 a0), (String a1 (String a2 (String a3 s3))); split; [seg_solve|cbn; lia]|];
    (eexists; exists s3; split; [split; [reflexivity|reflexivity]|cbn; lia]).
Qed.

Lemma segs_concat s : concat_s (map snd (segs s)) = s.
Proof.
  remember (String.length s) as n eqn:Hn. revert s Hn.
  induction n as [n IH] using (well_founded_induction lt_wf). intros s ->.
  destruct s as [|a s]; [reflexivity|].
  destruct (segs_step (String a s)) as (g & s' & (H1 & H2) & H3); [discriminate|].
  rewrite H1. cbn [map concat_s]. rewrite (IH _ H3 s' eq_refl). symmetry. exact H2.
Qed.

(** A suffix of the runes is the runes of a suffix. *)
Lemma segs_suffix l1 : forall s l2, segs s = (l1 ++ l2)%list -> segs (concat_s (map snd l2)) = l2.
Proof.
  induction l1 as [|g l1 IH]; cbn; intros s l2 H.
  - rewrite <- H, segs_concat. reflexivity.
  - destruct s as [|a s]; [discriminate|].
    destruct (segs_step (String a s)) as (g' & s' & (H1 & H2) & H3); [discriminate|].
    rewrite H1 in H. injection H as _ H. eapply IH; eauto.
Qed.

Definition head_len (l : list (N * string)) : nat := match l with g :: _ => String.length (snd g) | [] => 0%nat end.

(** A prefix of the runes is the runes of a prefix. *)
Lemma seg1_cut s g s' p q : seg1 s g s' -> s' = (p ++ q)%string -> seg1 (snd g ++ p) g p.
Proof.
  unfold seg1. intros [H1 H2] ->. split; [|reflexivity].
  destruct s as [|a0 s0]; [discriminate|]. rewrite segs_eq in H1.
  destruct g as [r ch]. cbn [snd] in *.
  assert (Herr : forall rest, (rune_error, str1 a0) :: segs rest = (r, ch) :: segs (p ++ q) -> r = rune_error /\ ch = str1 a0 /\ s0 = (p ++ q)%string).
  { intros rest H. injection H as <- <- _. split; auto. split; auto. injection H2 as H2. exact H2. }
  destruct (byte a0 <? 128)%N eqn:Hb.
  { injection H1 as <- <- _. change (str1 a0 ++ p)%string with (String a0 p). rewrite (segs_eq a0). rewrite Hb. reflexivity. }
  destruct (lead (byte a0)) as [[[sz lo] hi]|] eqn:Hl.
  2:{ injection H1 as <- <- _. change (str1 a0 ++ p)%string with (String a0 p). rewrite (segs_eq a0). rewrite Hb, Hl. reflexivity. }
  assert (Hfail : r = rune_error /\ ch = str1 a0 /\ s0 = (p ++ q)%string ->
     segs (String a0 s0) = (rune_error, str1 a0) :: segs s0 \/ s0 = ""%string -> segs (ch ++ p) = (r, ch) :: segs p).
  { intros (-> & -> & Hs0) Hseg. change (str1 a0 ++ p)%string with (String a0 p). rewrite (segs_eq a0). rewrite Hb, Hl.
    destruct Hseg as [Hseg|Hseg].
    2:{ rewrite Hseg in Hs0. destruct p; [reflexivity|discriminate]. }
    rewrite segs_eq in Hseg. rewrite Hb, Hl, Hs0 in Hseg.
    destruct p as [|a1 p1]; [reflexivity|]. rewrite sapp_cons in Hseg.
    destruct (negb (in_range (byte a1) lo hi)); [reflexivity|].
    destruct sz as [|[|[|sz]]].
    4: destruct sz as [|sz].
    3: { exfalso. apply (f_equal head_len) in Hseg. discriminate Hseg. }
    all: destruct p1 as [|a2 p2]; [reflexivity|]; rewrite sapp_cons in Hseg; destruct (negb (cont a2)); [reflexivity|].
    3: { exfalso. apply (f_equal head_len) in Hseg. discriminate Hseg. }
    all: destruct p2 as [|a3 p3]; [reflexivity|]; rewrite sapp_cons in Hseg; destruct (negb (cont a3)); [reflexivity|].
    all: exfalso; apply (f_equal head_len) in Hseg; discriminate Hseg. }
  destruct s0 as [|a1 s1].
  { apply Hfail; auto. change [(rune_error, str1 a0)] with ((rune_error, str1 a0) :: segs "") in H1. eapply Herr; eauto. }
  destruct (negb (in_range (byte a1) lo hi)) eqn:Hr.
  { apply Hfail; [eapply Herr; eauto|]. left. rewrite (segs_eq a0). rewrite Hb, Hl, Hr. reflexivity. }
  destruct sz as [|[|[|sz]]].
  4: destruct sz as [|sz].
  3: { injection H1 as <- <- _. change (str2 a0 a1 ++ p)%string with (String a0 (String a1 p)). rewrite (segs_eq a0). rewrite Hb, Hl, Hr. reflexivity. }
  all: destruct s1 as [|a2 s2];
    [apply Hfail; [eapply Herr; eauto|]; left; rewrite (segs_eq a0); rewrite Hb, Hl, Hr; reflexivity|].
  all: destruct (negb (cont a2)) eqn:Hc2;
    [apply Hfail; [eapply Herr; eauto|]; left; rewrite (segs_eq a0); rewrite Hb, Hl, Hr, Hc2; reflexivity|].
  3: { injection H1 as <- <- _. change (str3 a0 a1 a2 ++ p)%string with (String a0 (String a1 (String a2 p))). rewrite (segs_eq a0). rewrite Hb, Hl, Hr, Hc2. reflexivity. }
  all: destruct s2 as [|a3 s3];
    [apply Hfail; [eapply Herr; eauto|]; left; rewrite (segs_eq a0); rewrite Hb, Hl, Hr, Hc2; reflexivity|].
  all: destruct (negb (cont a3)) eqn:Hc3;
    [apply Hfail; [eapply Herr; eauto|]; left; rewrite (segs_eq a0); rewrite Hb, Hl, Hr, Hc2, Hc3; reflexivity|].
  all: injection H1 as <- <- _; change (str4 a0 a1 a2 a3 ++ p)%string with (String a0 (String a1 (String a2 (String a3 p)))); rewrite (segs_eq a0); rewrite Hb, Hl, Hr, Hc2, Hc3; reflexivity.
Qed.

Lemma segs_prefix l1 : forall s l2, segs s = (l1 ++ l2)%list -> segs (concat_s (map snd l1)) = l1.
Proof.
  induction l1 as [|g l1 IH]; cbn [map concat_s app]; intros s l2 H; [reflexivity|].
  destruct s as [|a s]; [discriminate|].
  destruct (segs_step (String a s)) as (g' & s' & Hs & _); [discriminate|].
  pose proof Hs as [H1 H2]. rewrite H1 in H. injection H as -> H.
  pose proof (IH _ _ H) as Hp.
  assert (Hs' : s' = (concat_s (map snd l1) ++ concat_s (map snd l2))%string).
  { rewrite <- concat_s_app, <- map_app, <- H. symmetry. apply segs_concat. }
  destruct (seg1_cut _ _ _ _ _ Hs Hs') as [X _]. rewrite X, Hp. reflexivity.
Qed.

Lemma segs_middle l1 m l2 s : segs s = (l1 ++ m ++ l2)%list -> segs (concat_s (map snd m)) = m.
Proof.
  intros H. apply segs_suffix in H. eapply segs_prefix; eauto.
Qed.

Opaque segs.

(** An ASCII character separates runes. *)
Lemma segs_ascii x a y : (byte a < 128)%N -> segs (x ++ String a y) = (segs x ++ (byte a, str1 a) :: segs y)%list.
Proof.
  intros Ha. remember (String.length x) as n eqn:Hn. revert x Hn.
  induction n as [n IH] using (well_founded_induction lt_wf). intros x ->.
  apply N.ltb_lt in Ha.
  assert (Hy : segs (String a y) = (byte a, str1 a) :: segs y) by (rewrite segs_eq, Ha; reflexivity).
  assert (Hna : cont a = false /\ forall lo hi, (128 <= lo)%N -> in_range (byte a) lo hi = false).
  { apply N.ltb_lt in Ha. unfold cont, in_range. split; [|intros lo hi Hlo]; apply andb_false_iff; left; apply N.leb_gt; lia. }
  destruct Hna as [Hna Hrange].
  destruct x as [|a0 x]; [exact Hy|].
  rewrite sapp_cons, (segs_eq a0 (_ ++ _)), (segs_eq a0 x).
  destruct (byte a0 <? 128)%N; [cbn; f_equal; apply (IH (String.length x)); cbn; auto|].
  destruct (lead (byte a0)) as [[[sz lo] hi]|] eqn:Hl.
  2:{ cbn; f_equal; apply (IH (String.length x)); cbn; auto. }
  assert (Hlo : (128 <= lo)%N).
  { unfold lead in Hl. repeat match type of Hl with context[if ?b then _ else _] => destruct b end; inversion Hl; subst; lia. }
  destruct x as [|a1 x1].
  { rewrite nil_sapp. rewrite Hrange by auto. cbn [negb app]. f_equal. exact Hy. }
  rewrite sapp_cons. destruct (negb (in_range (byte a1) lo hi)) eqn:Hr.
  { cbn [app]. f_equal. rewrite <- sapp_cons. apply (IH (String.length (String a1 x1))); cbn; auto. }
  assert (IH1 : segs (String a1 (x1 ++ String a y)) = (segs (String a1 x1) ++ (byte a, str1 a) :: segs y)%list).
  { rewrite <- sapp_cons. apply (IH (String.length (String a1 x1))); cbn; auto. }
  destruct sz as [|[|[|sz]]].
  4: destruct sz as [|sz].
  3: { cbn [app]. f_equal. apply (IH (String.length x1)); cbn; auto. }
  all: destruct x1 as [|a2 x2];
    [rewrite nil_sapp; rewrite Hna; cbn [negb]; cbn [app]; f_equal; exact IH1|].
  all: rewrite sapp_cons in IH1 |- *; destruct (negb (cont a2)) eqn:Hc2;
    [cbn [app]; f_equal; exact IH1|].
  3: { cbn [app]. f_equal. apply (IH (String.length x2)); cbn; auto. }
  all: destruct x2 as [|a3 x3];
    [rewrite nil_sapp; rewrite Hna; cbn [negb app]; f_equal; exact IH1|].
  all: rewrite sapp_cons in IH1 |- *; destruct (negb (cont a3)) eqn:Hc3;
    [cbn [app]; f_equal; exact IH1|].
  all: cbn [app]; f_equal; apply (IH (String.length x3)); cbn; auto.
Qed.

(** ** Fields *)

(** A word: a non-empty string without white space. *)
Definition word (w : string) : Prop := w <> ""%string /\ Forall (fun g => is_space (fst g) = false) (segs w).

Lemma fields_words_gen l : forall pre m cur s, segs s = (pre ++ m ++ l)%list ->
  Forall (fun g => is_space (fst g) = false) m ->
  cur = (match m with [] => None | _ => Some (concat_s (map snd m)) end) ->
  Forall word (fields_segs l cur).
Proof.
  induction l as [|[r ch] l IH]; intros pre m cur s H Hm ->.
  - cbn. destruct m as [|g m]; [constructor|]. constructor; [|constructor]. apply segs_middle in H.
    split; [|rewrite H; auto]. intros X. rewrite X in H. discriminate.
  - cbn [fields_segs]. destruct (is_space r) eqn:Hr.
    + assert (Hnext : Forall word (fields_segs l None)).
      { apply (IH (pre ++ m ++ [(r, ch)])%list [] None s); auto. rewrite H, <- !app_assoc. reflexivity. }
      destruct m as [|g m]; auto. constructor; auto. apply segs_middle in H.
      split; [|rewrite H; auto]. intros X. rewrite X in H. discriminate.
    + apply (IH pre (m ++ [(r, ch)])%list _ s).
      * rewrite H, <- !app_assoc. reflexivity.
      * apply Forall_app. split; auto.
      * destruct m as [|g m]; cbn [app map concat_s snd].
        -- rewrite sapp_nil. reflexivity.
        -- f_equal. rewrite map_app, concat_s_app. cbn. rewrite sapp_nil, sapp_assoc. reflexivity.
Qed.

Lemma fields_words s : Forall word (fields s).
Proof. apply (fields_words_gen (segs s) [] [] None s); auto. Qed.

Lemma fields_segs_word m : forall l cur, Forall (fun g => is_space (fst g) = false) m -> m <> [] ->
  fields_segs (m ++ l)%list cur =
  fields_segs l (Some (match cur with None => "" | Some c => c end ++ concat_s (map snd m))%string).
Proof.
  induction m as [|[r ch] m IH]; intros l cur Hm Hne; [congruence|].
  inversion Hm as [|? ? H1 H2]; subst. cbn in H1. cbn [app fields_segs]. rewrite H1.
  destruct m as [|g m].
  - cbn. rewrite sapp_nil. destruct cur; reflexivity.
  - rewrite IH by (auto; discriminate). f_equal. cbn [map concat_s snd]. destruct cur; [rewrite !sapp_assoc|]; reflexivity.
Qed.

Lemma fields_join l : Forall word l -> fields (join_sp l) = l.
Proof.
  induction l as [|w l IH]; intros H; [reflexivity|].
  inversion H as [|? ? [H1 H2] H3]; subst. unfold fields, join_sp in *.
  assert (Hne : segs w <> []).
  { destruct w as [|a w]; [congruence|]. destruct (segs_step (String a w)) as (g & s' & (X & _) & _); [discriminate|]. rewrite X; discriminate. }
  destruct l as [|w2 l].
  - cbn [join_with]. rewrite <- (app_nil_r (segs w)), fields_segs_word by auto. cbn.
    rewrite segs_concat. reflexivity.
  - change (join_with " " (w :: w2 :: l)) with (w ++ String " " (join_with " " (w2 :: l)))%string.
    rewrite segs_ascii by reflexivity. rewrite fields_segs_word by auto. cbn [fields_segs].
    change (is_space (byte " ")) with true. cbn iota.
    rewrite segs_concat, IH by auto. reflexivity.
Qed.
Transparent segs.
