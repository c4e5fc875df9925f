(** * Specification: messages and their wire form

    What is needed to state the properties of the generated protobuf codec: which Go values are
    values of a message type. *)

From Verif Require Import Wire Schemas.

(** The values a Go member of each number type can hold. *)
Definition in_range (k : numkind) (z : Z) : Prop :=
  match k with
  | NBool => z = 0 \/ z = 1
  | NEnum => - 2 ^ 31 <= z < 2 ^ 31
  | NUint64 | NFixed64 => 0 <= z < 2 ^ 64
  end%Z.

(** [message_of U name m]: [m] is a value of the message type [name]: one value per member, of the
    member's type, numbers in their range, no map key twice, no nil in a oneof wrapper; and the
    bytes of unknown fields that it carries satisfy [U]. *)
Section Typed.
Context (env : wire_env) (U : schema -> bytes -> Prop).

Inductive message_of : string -> msg -> Prop :=
| message_intro name s fs u :
    env name = Some s -> members_of s fs -> U s u -> message_of name (Msg fs u)
with members_of : schema -> list fval -> Prop :=
| members_nil : members_of [] []
| members_cons s v ss fs : member_of s v -> members_of ss fs -> members_of (s :: ss) (v :: fs)
with member_of : slot -> fval -> Prop :=
| m_str f x : f_type f = TStr -> member_of (Plain f) (FStr x)
| m_opt_str f o : f_type f = TOptStr -> member_of (Plain f) (FOptStr o)
| m_rep_str f l : f_type f = TRepStr -> member_of (Plain f) (FRepStr l)
| m_num f k z : f_type f = TNum k -> in_range k z -> member_of (Plain f) (FNum z)
| m_opt_num_none f k : f_type f = TOptNum k -> member_of (Plain f) (FOptNum None)
| m_opt_num f k z : f_type f = TOptNum k -> in_range k z -> member_of (Plain f) (FOptNum (Some z))
| m_msg_nil f n : f_type f = TMsg n -> member_of (Plain f) (FMsg None)
| m_msg f n m : f_type f = TMsg n -> message_of n m -> member_of (Plain f) (FMsg (Some m))
| m_rep_msg f n l : f_type f = TRepMsg n -> messages_of n l -> member_of (Plain f) (FRepMsg l)
| m_map f l : f_type f = TMap -> NoDup (map fst l) -> member_of (Plain f) (FMap l)
| m_oneof_nil alts : member_of (Oneof alts) (FOneof None)
| m_oneof alts f n m : In f alts -> f_type f = TMsg n -> message_of n m ->
    member_of (Oneof alts) (FOneof (Some (f_num f, Some m)))
with messages_of : string -> list msg -> Prop :=
| messages_nil n : messages_of n []
| messages_cons n m l : message_of n m -> messages_of n l -> messages_of n (m :: l).
End Typed.

(** A value of the type [name] of the repository, whatever unknown fields it carries; and one
    without unknown fields, as programs build them. *)
Definition value (name : string) (m : msg) : Prop := message_of vt_env (fun _ _ => True) name m.
Definition built (name : string) (m : msg) : Prop := message_of vt_env (fun _ u => u = []) name m.

(** The message types of the repository. *)
Definition message_types : list string := map fst vt_table.

(** [&Message{}]. *)
Definition empty (name : string) : msg := zero_named vt_env name.
Definition marshal (name : string) (m : msg) : res bytes := marshal_vt vt_env name m.
Definition unmarshal (name : string) (m : msg) (d : bytes) : res msg := unmarshal_vt vt_env name m d.
Definition size_of (name : string) (m : msg) : Z := Z.of_N (size_vt vt_env name m).

(** Neither the data of a slice nor a size can get near 2^63 bytes on a real machine; an index or
    a size below this bound leaves the additions of the code room. *)
Definition representable (n : Z) : Prop := (n < 2 ^ 62)%Z.
