(** * The metadata endpoint of the authorization server: requests share one document *)

From Verif Require Export Types.

(** examples/authorizationserver/handlers/metadata.go:32-80: the document is made once, at start, and
    shared by all requests.  Only its member signed_metadata is ever written: the state is that
    string.  The other members are constants. *)
Section Metadata.
(** [sign k s]: the JWT that the signer makes, with randomness [k], of the document when its member
    signed_metadata is [s] (sdk/token/jwt/signer.go:39-80).  The document is read in one step; in
    the code each member is read once, and only this one changes. *)
Context (sign : N -> string -> string).

(** Where a request is, metadata.go:82-98. *)
Inductive md_point :=
| MdClear                    (* 84: md.SignedMetadata = "" *)
| MdSign                     (* 87: signer.Serialize(ctx, md) *)
| MdAssign (signed : string) (* 94: md.SignedMetadata = signedMeta *)
| MdSend                     (* 97: respond.WithJSON(w, 200, md) *)
| MdOver.

(** The environment: a request comes, or request [i] goes on; [random] is the randomness that the
    signer gets, [None] when it fails (signer.go:41-70: no usable key). *)
Inductive md_sched := MdNew | MdGo (i : nat) (random : option N).

Inductive md_event :=
| MdCame (i : nat)
| MdSent (i : nat) (signed : string)   (* 200 and the document with this signed_metadata *)
| MdFailed (i : nat)                   (* 500 *)
| MdStep (i : nat).                    (* nothing to see *)

Record md_state := mkMd { md_signed : string; md_requests : list md_point }.

Definition md_put (l : list md_point) (i : nat) (p : md_point) : list md_point :=
  (firstn i l ++ match skipn i l with [] => [] | _ :: r => p :: r end)%list.

(** metadata.go:82-98 *)
Definition md_step (s : md_state) (x : md_sched) : option (md_event * md_state) :=
  match x with
  | MdNew => Some (MdCame (List.length (md_requests s)), mkMd (md_signed s) (md_requests s ++ [MdClear])%list)
  | MdGo i random =>
      match nth_error (md_requests s) i with
      | Some MdClear => Some (MdStep i, mkMd "" (md_put (md_requests s) i MdSign))
      | Some MdSign =>
          match random with
          | Some k => Some (MdStep i, mkMd (md_signed s) (md_put (md_requests s) i (MdAssign (sign k (md_signed s)))))
          | None => Some (MdFailed i, mkMd (md_signed s) (md_put (md_requests s) i MdOver))
          end
      | Some (MdAssign v) => Some (MdStep i, mkMd v (md_put (md_requests s) i MdSend))
      | Some MdSend => Some (MdSent i (md_signed s), mkMd (md_signed s) (md_put (md_requests s) i MdOver))
      | Some MdOver | None => None
      end
  end.

Fixpoint md_run (s : md_state) (xs : list md_sched) : list md_event * md_state :=
  match xs with
  | [] => ([], s)
  | x :: xs =>
      match md_step s x with
      | None => md_run s xs
      | Some (e, s1) => let '(h, s2) := md_run s1 xs in (e :: h, s2)
      end
  end.

(** What happens at a server just started. *)
Definition md_history (xs : list md_sched) : list md_event := fst (md_run (mkMd "" []) xs).
End Metadata.
