(** * Vocabulary for concurrent use of the token store *)

From Verif Require Export TokenSteps.

Section SpecSteps.
Context (E : ext).

(** The method as one indivisible operation on the store of [Storage], the one that all
    theorems about services use. *)
Definition at_once (w : world) (c : scall) : sresult * world :=
  match c with
  | SCreate issuer t => (SrOk, snd (exec E w ok (CTokCreate issuer t)))
  | SGet _ id => (match w_tid w id with Some t => SrToken t | None => SrMissing end, w)
  | SGetByValue issuer value =>
      (match fst (exec E w ok (CTokGet issuer value)) with ATok (SOk t) => SrToken t | _ => SrMissing end, w)
  | SRevoke issuer id =>
      let '(a, w') := exec E w ok (CTokRevoke issuer id) in
      (match a with AUnit (SOk _) => SrOk | _ => SrMissing end, w')
  | SDelete _ id => match delete_token w id with Some w' => (SrOk, w') | None => (SrMissing, w) end
  end.

(** One after the other, the calls give these results. *)
Fixpoint explains (w : world) (l : list (scall * sresult)) : Prop :=
  match l with
  | [] => True
  | (c, r) :: l => fst (at_once w c) = r /\ explains (snd (at_once w c)) l
  end.
End SpecSteps.

(** A history in which each call has, between its beginning and its return, the moment at
    which it happened. *)
Inductive mevent :=
| MCall (th : nat) (c : scall)
| MMoment (th : nat) (c : scall) (r : sresult)
| MReturn (th : nat) (c : scall) (r : sresult).

Fixpoint without_moments (l : list mevent) : list sevent :=
  match l with
  | [] => []
  | MCall th c :: l => SvCall th c :: without_moments l
  | MMoment _ _ _ :: l => without_moments l
  | MReturn th c r :: l => SvReturn th c r :: without_moments l
  end.

Fixpoint moments (l : list mevent) : list (scall * sresult) :=
  match l with
  | [] => []
  | MMoment _ c r :: l => (c, r) :: moments l
  | _ :: l => moments l
  end.

(** Goroutines alternate between call, moment and return, of the same call and result. *)
Inductive phase := Outside | Called (c : scall) | Happened (c : scall) (r : sresult).

Inductive in_turn : (nat -> phase) -> list mevent -> Prop :=
| turn_end q : in_turn q []
| turn_call q th c l : q th = Outside -> in_turn (set_thread q th (Called c)) l -> in_turn q (MCall th c :: l)
| turn_moment q th c r l : q th = Called c -> in_turn (set_thread q th (Happened c r)) l -> in_turn q (MMoment th c r :: l)
| turn_return q th c r l : q th = Happened c r -> in_turn (set_thread q th Outside) l -> in_turn q (MReturn th c r :: l).

(** The history looks as if each call had happened in one indivisible moment while it ran. *)
Definition as_if_atomic (E : ext) (w : world) (h : list sevent) : Prop :=
  exists l, without_moments l = h /\ in_turn (fun _ => Outside) l /\ explains E w (moments l).

(** No two tokens are created with the same identifier, or with the same place in the index
    of values. *)
Definition creations_apart (E : ext) (h : list sevent) : Prop :=
  forall h1 th1 i1 t1 h2 th2 i2 t2 h3,
    h = (h1 ++ SvCall th1 (SCreate i1 t1) :: h2 ++ SvCall th2 (SCreate i2 t2) :: h3)%list ->
    t_id t1 <> t_id t2 /\ tok_key E i1 (t_value t1) <> tok_key E i2 (t_value t2).

Definition names_id (c : scall) (id : string) : Prop :=
  match c with
  | SGet _ i | SRevoke _ i | SDelete _ i => i = id
  | _ => False
  end.

(** Whoever names a token by its identifier learnt it from the store: the token had been
    looked up or its creation had returned; or there is no such token. *)
Definition ids_learnt (h : list sevent) : Prop :=
  forall h1 th c id h2, h = (h1 ++ SvCall th c :: h2)%list -> names_id c id ->
    (exists th' c' t, In (SvReturn th' c' (SrToken t)) h1 /\ t_id t = id) \/
    (exists th' i t, In (SvReturn th' (SCreate i t) SrOk) h1 /\ t_id t = id) \/
    (forall th' i t, In (SvCall th' (SCreate i t)) h -> t_id t <> id).

Definition no_deletions (h : list sevent) : Prop := forall th i id, ~ In (SvCall th (SDelete i id)) h.

(** No call begins while another runs. *)
Definition one_at_a_time (h : list sevent) : Prop :=
  forall h1 th c e h2, h = (h1 ++ SvCall th c :: e :: h2)%list -> exists r, e = SvReturn th c r.
