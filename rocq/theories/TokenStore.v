(** * The in-memory token store with its shared pointers

    Models server/storage/inmemory/token.go:32-118 at the level of its two sync.Map
    indexes, which hold pointers to the same token objects.  Each method call is one
    step here; [Storage.exec] is the same store with the pointers resolved. *)

From Verif Require Export Storage.

(** token.go:32-35: the two indexes; an address is a position in [ts_heap]. *)
Record tstore := mkTStore {
  ts_heap : list token;
  ts_id : fmap nat;
  ts_val : fmap nat
}.

(** token.go:38-43 Tokens *)
Definition ts_new : tstore := mkTStore [] empty empty.

Fixpoint heap_set (l : list token) (a : nat) (t : token) : list token :=
  match l, a with
  | [], _ => []
  | _ :: r, O => t :: r
  | x :: r, S a => x :: heap_set r a t
  end.

(** The methods that change the store. *)
Inductive top :=
| TCreate (issuer : string) (t : token)
| TRevoke (issuer id : string)
| TDelete (issuer id : string).

Section Ops.
Context (E : ext).

(** token.go:66-75 Get *)
Definition ts_get (s : tstore) (id : string) : option token :=
  match ts_id s id with Some a => nth_error (ts_heap s) a | None => None end.

(** token.go:77-86 GetByValue *)
Definition ts_get_by_value (s : tstore) (issuer value : string) : option token :=
  match ts_val s (tok_key E issuer value) with Some a => nth_error (ts_heap s) a | None => None end.

(** token.go:47-64 Create; 102-118 Revoke; 88-100 Delete.  The boolean is the absence of an
    error. *)
Definition ts_do (s : tstore) (o : top) : bool * tstore :=
  match o with
  | TCreate issuer t =>
      let a := List.length (ts_heap s) in
      let c := hashed E issuer t in
      (true, mkTStore (ts_heap s ++ [c])%list (upd (ts_id s) (t_id c) (Some a)) (upd (ts_val s) (t_value c) (Some a)))
  | TRevoke _ id =>
      match ts_id s id with
      | None => (false, s)
      | Some a =>
          match nth_error (ts_heap s) a with
          | None => (false, s)
          | Some t =>
              (true, mkTStore (heap_set (ts_heap s) a (set_status t TsRevoked))
                       (upd (ts_id s) (t_id t) (Some a)) (upd (ts_val s) (t_value t) (Some a)))
          end
      end
  | TDelete _ id =>
      match ts_id s id with
      | None => (false, s)
      | Some a =>
          match nth_error (ts_heap s) a with
          | None => (false, s)
          | Some t =>
              (true, mkTStore (ts_heap s) (upd (ts_id s) (t_id t) None) (upd (ts_val s) (t_value t) None))
          end
      end
  end.

Definition ts_run (s : tstore) (os : list top) : tstore := fold_left (fun s o => snd (ts_do s o)) os s.

(** The same operations on the world of [Storage] (the in-memory store never fails). *)
Definition w_do (w : world) (o : top) : world :=
  match o with
  | TCreate issuer t => snd (exec E w ok (CTokCreate issuer t))
  | TRevoke issuer id => snd (exec E w ok (CTokRevoke issuer id))
  | TDelete _ id => match delete_token w id with Some w' => w' | None => w end
  end.
Definition w_run (w : world) (os : list top) : world := fold_left w_do os w.
End Ops.
