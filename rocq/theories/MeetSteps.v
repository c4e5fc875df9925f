(** * Concrete cases for the concurrent token store *)

From Verif Require Export Meet SpecSteps PfSteps3 PfSteps4.

Definition screates (E : ext) (h : list sevent) : list (string * string) :=
  flat_map (fun e => match e with SvCall _ (SCreate i t) => [(t_id t, tok_key E i (t_value t))] | _ => [] end) h.
Lemma creations_demo E h : apartb (screates E h) = true -> creations_apart E h.
Proof.
  intros H h1 th1 i1 t1 h2 th2 i2 t2 h3 ->. unfold screates in H. rewrite flat_map_app in H. cbn [flat_map app] in H.
  rewrite flat_map_app in H. cbn [flat_map app] in H. exact (apartb_ok _ _ _ _ _ _ _ H).
Qed.

Definition named (c : scall) : option string :=
  match c with SGet _ i | SRevoke _ i | SDelete _ i => Some i | _ => None end.
Definition shows (id : string) (e : sevent) : bool :=
  match e with
  | SvReturn _ _ (SrToken t) => String.eqb (t_id t) id
  | SvReturn _ (SCreate _ t) SrOk => String.eqb (t_id t) id
  | _ => false
  end.
Fixpoint learntb (seen h : list sevent) : bool :=
  match h with
  | [] => true
  | e :: h =>
      match e with
      | SvCall _ c => match named c with Some id => existsb (shows id) seen | None => true end
      | _ => true
      end && learntb (e :: seen) h
  end.
Lemma learnt_demo h : learntb [] h = true -> ids_learnt h.
Proof.
  intros H h1 th c id h2 -> Hn. set (h := (h1 ++ SvCall th c :: h2)%list). clearbody h.
  assert (K : forall seen, learntb seen (h1 ++ SvCall th c :: h2) = true -> existsb (shows id) (rev h1 ++ seen) = true).
  { clear H. induction h1 as [|e h1 IH]; intros seen; cbn [app learntb rev].
    - assert (named c = Some id) as -> by (destruct c; cbn in *; try contradiction; congruence). intros H. apply andb_prop in H as (H & _). exact H.
    - intros H. apply andb_prop in H as (_ & H). rewrite <- app_assoc. apply IH. exact H. }
  specialize (K _ H). rewrite app_nil_r in K. apply existsb_exists in K as (e & K1 & K2). apply in_rev in K1.
  destruct e as [?|k c' [ | |t]]; cbn in K2; try discriminate.
  - destruct c'; try discriminate. apply String.eqb_eq in K2. right. left. eauto.
  - destruct c'; discriminate.
  - assert (t_id t = id) by (apply String.eqb_eq; destruct c'; exact K2). left. eauto.
Qed.

Definition deletesb (h : list sevent) : bool := existsb (fun e => match e with SvCall _ (SDelete _ _) => true | _ => false end) h.
Lemma deletions_demo h : deletesb h = false -> no_deletions h.
Proof.
  intros H th i id K. unfold deletesb in H. assert (false = true) as X; [|discriminate]. rewrite <- H. apply existsb_exists. eexists. split; [exact K|reflexivity].
Qed.

Definition tok1 := demo_tok "id-1" "at-1".
Definition tok2 := demo_tok "id-2" "at-2".

(** Two tokens are created at the same time and looked up meanwhile; one is looked up while
    it is revoked. *)
Definition x_steps : list schoice :=
  [Enter 0 (SCreate iss tok1); Enter 1 (SCreate iss tok2); Enter 2 (SGetByValue iss "at-1");
   Advance 0; Advance 1; Advance 2; Advance 2; Advance 0; Advance 0; Advance 1;
   Enter 2 (SGetByValue iss "at-1"); Advance 2; Advance 2; Advance 2;
   Enter 2 (SRevoke iss "id-1"); Enter 0 (SGetByValue iss "at-1"); Advance 2; Advance 0; Advance 2; Advance 0; Advance 0;
   Advance 1; Advance 2; Advance 2; Advance 2;
   Enter 1 (SGetByValue iss "at-1"); Advance 1; Advance 1; Advance 1].
Definition h_steps : list sevent := Eval vm_compute in shistory demo_ext x_steps.

(** A token is deleted while it is revoked, and looked up afterwards. *)
Definition x_deleted : list schoice :=
  [Enter 0 (SCreate iss tok1); Advance 0; Advance 0; Advance 0;
   Enter 1 (SRevoke iss "id-1"); Advance 1; Enter 2 (SDelete iss "id-1"); Advance 2; Advance 2; Advance 2; Advance 2;
   Advance 1; Advance 1; Advance 1; Advance 1;
   Enter 2 (SGetByValue iss "at-1"); Advance 2; Advance 2; Advance 2].

Fixpoint alonep (h : list sevent) : Prop :=
  match h with
  | [] => True
  | e :: h => match e, h with SvCall th c, e' :: _ => exists r, e' = SvReturn th c r | _, _ => True end /\ alonep h
  end.
Lemma alone_demo h : alonep h -> one_at_a_time h.
Proof.
  intros H h1 th c e h2 ->. induction h1 as [|x h1 IH]; cbn [app alonep] in H; [exact (proj1 H)|exact (IH (proj2 H))].
Qed.

(** One after the other: create, look up, delete, look up, delete again, create again. *)
Definition x_alone : list schoice :=
  let all th := [Advance th; Advance th; Advance th; Advance th; Advance th] in
  (Enter 0 (SCreate iss tok1) :: all 0 ++ Enter 1 (SGetByValue iss "at-1") :: all 1 ++ Enter 2 (SDelete iss "id-1") :: all 2 ++
   Enter 1 (SGetByValue iss "at-1") :: all 1 ++ Enter 2 (SDelete iss "id-1") :: all 2 ++ Enter 0 (SCreate iss tok1) :: all 0 ++
   Enter 1 (SRevoke iss "id-1") :: all 1 ++ Enter 0 (SGet iss "id-1") :: all 0)%list.
