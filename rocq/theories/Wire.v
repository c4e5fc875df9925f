(** * The generated protobuf codec (api/oidc/**/*_vtproto.pb.go)

    All message types share the same generated code, up to the table of their fields
    (Schemas.v, taken from the Go text by tools/gen_schemas.py).  The lines cited below are
    those of api/oidc/resource/v1/resource_vtproto.pb.go for the shared helpers, and of
    client/v1/client_vtproto.pb.go (maps, booleans, enumerations, bytes) and
    token/v1/token_vtproto.pb.go (fixed64, repeated messages) for the rest. *)

From Coq Require Export List NArith ZArith Lia Bool String.
From Coq Require Export Strings.Byte.
Export ListNotations.
Local Open Scope N_scope.
Local Open Scope list_scope.

Definition bytes := list byte.
Definition blen (d : bytes) : Z := Z.of_nat (List.length d).

(** [uint8(n)]. *)
Definition b8 (n : N) : byte :=
  match Byte.of_N (n mod 256) with Some b => b | None => x00 end.

(** Two's complement: [int(v)] of a uint64 (or of the exact result of an addition of ints), and
    [int32(v)]. *)
Definition int64 (z : Z) : Z := ((z + 2 ^ 63) mod 2 ^ 64 - 2 ^ 63)%Z.
Definition int32 (z : Z) : Z := ((z + 2 ^ 31) mod 2 ^ 32 - 2 ^ 31)%Z.
Definition uint64 (z : Z) : N := Z.to_N (z mod 2 ^ 64)%Z.

(** Outcomes: a Go panic (index or slice bounds, nil dereference) is a value, and so is a loop
    that outlives its fuel. *)
Inductive werr := EOverflow | EUnexpectedEOF | EInvalidLength | EEndOfGroup | EWireType | ETag.
Inductive res (A : Type) := Ok (a : A) | Err (e : werr) | Panics | Hangs.
Arguments Ok {A}. Arguments Err {A}. Arguments Panics {A}. Arguments Hangs {A}.
Definition rbind {A B} (r : res A) (k : A -> res B) : res B :=
  match r with Ok a => k a | Err e => Err e | Panics => Panics | Hangs => Hangs end.
Notation "'let!' x := r 'in' k" := (rbind r (fun x => k))
  (at level 200, x name, r at level 100, k at level 200).
Notation "'let!' ' p := r 'in' k" := (rbind r (fun x => match x with p => k end))
  (at level 200, p strict pattern, r at level 100, k at level 200).

(** [d[i]] and [d[i:j]]. *)
Definition byte_at (d : bytes) (i : Z) : res byte :=
  if (i <? 0)%Z then Panics
  else match nth_error d (Z.to_nat i) with Some b => Ok b | None => Panics end.
Definition slice (d : bytes) (i j : Z) : res bytes :=
  if ((0 <=? i) && (i <=? j) && (j <=? blen d))%Z then
    Ok (firstn (Z.to_nat (j - i)) (skipn (Z.to_nat i) d))
  else Panics.

(** ** Numbers *)

(** sov (resource_vtproto.pb.go:113-115). *)
Definition sov (x : N) : N := (N.size (N.lor x 1) + 6) / 7.

(** encodeVarint (78-88).  The Go code writes into a buffer, [sov v] bytes before the given offset;
    here: the bytes written (that they are [sov v] is proved).  Ten bytes
    hold any uint64, so the fuel is exact. *)
Fixpoint varint_go (fuel : nat) (v : N) : bytes :=
  match fuel with
  | O => []
  | S n => if 128 <=? v then b8 (N.lor (N.land v 127) 128) :: varint_go n (N.shiftr v 7) else [b8 v]
  end.
Definition encode_varint (v : N) : bytes := varint_go 10 v.

(** The loop that reads a varint (125-138 and wherever a number is read).  [acc] is kept modulo
    2^64, as in Go; narrower types are cut by [of_wire]. *)
Fixpoint varint_loop (fuel : nat) (d : bytes) (i : Z) (shift acc : N) : res (N * Z) :=
  match fuel with
  | O => Err EOverflow          (* shift >= 64 *)
  | S n =>
      if (blen d <=? i)%Z then Err EUnexpectedEOF
      else
        let! b := byte_at d i in
        let acc := N.lor acc ((N.shiftl (N.land (Byte.to_N b) 127) shift) mod 2 ^ 64) in
        if Byte.to_N b <? 128 then Ok (acc, (i + 1)%Z) else varint_loop n d (i + 1) (shift + 7) acc
  end.
Definition read_varint (d : bytes) (i : Z) : res (N * Z) := varint_loop 10 d i 0 0.

(** Little-endian, 8 bytes (token_vtproto.pb.go:55, 693: binary.LittleEndian). *)
Fixpoint le_bytes (n : nat) (v : N) : bytes :=
  match n with O => [] | S n => b8 v :: le_bytes n (N.shiftr v 8) end.
Fixpoint le_value (d : bytes) : N :=
  match d with [] => 0 | b :: d => Byte.to_N b + 256 * le_value d end.

(** ** Types of fields *)

(** Booleans, enumerations (int32), uint64 as varint, uint64 as fixed64. *)
Inductive numkind := NBool | NEnum | NUint64 | NFixed64.

(** What is stored for a number read from the wire, and what is written for a stored number. *)
Definition of_wire (k : numkind) (v : N) : Z :=
  match k with
  | NBool => if v =? 0 then 0 else 1
  | NEnum => int32 (Z.of_N v)
  | NUint64 | NFixed64 => Z.of_N v
  end.
Definition to_wire (k : numkind) (z : Z) : N := uint64 z.

Inductive ftype :=
| TStr                              (* string or bytes *)
| TOptStr                           (* *string *)
| TRepStr                           (* []string *)
| TNum (k : numkind)
| TOptNum (k : numkind)
| TMsg (name : string)              (* *Message *)
| TRepMsg (name : string)           (* []*Message *)
| TMap.                             (* map[string]string *)

(** A field as the three generated functions treat it: the tag that MarshalToSizedBufferVT
    writes, the constant in SizeVT, the case and the wire type that UnmarshalVT accepts. *)
Record field := mkField {
  f_name : string;
  f_type : ftype;
  f_tag : list N;
  f_size : N;
  f_num : Z;
  f_wire : N
}.
(** A member of the Go struct: a field, or the interface that holds one of several messages. *)
Inductive slot := Plain (f : field) | Oneof (alts : list field).
Definition schema := list slot.
Definition wire_env := string -> option schema.

(** ** Values.  Nil and empty slices and maps are the same value; the order in which a map is
    listed is the order in which Go happens to iterate over it.  Elements of repeated messages
    are not nil. *)
Inductive fval :=
| FStr (s : bytes)
| FOptStr (o : option bytes)
| FRepStr (l : list bytes)
| FNum (z : Z)
| FOptNum (o : option Z)
| FMsg (o : option msg)
| FRepMsg (l : list msg)
| FMap (l : list (bytes * bytes))
| FOneof (o : option (Z * option msg))   (* the number of the alternative; its message or nil *)
with msg := Msg (fields : list fval) (unknown : bytes).

Definition msg_fields (m : msg) : list fval := let (fs, _) := m in fs.
Definition msg_unknown (m : msg) : bytes := let (_, u) := m in u.

(** The zero value, [&Message{}]. *)
Definition zero_of (s : slot) : fval :=
  match s with
  | Oneof _ => FOneof None
  | Plain f =>
      match f_type f with
      | TStr => FStr [] | TOptStr => FOptStr None | TRepStr => FRepStr []
      | TNum _ => FNum 0 | TOptNum _ => FOptNum None
      | TMsg _ => FMsg None | TRepMsg _ => FRepMsg [] | TMap => FMap []
      end
  end.
Definition zero_msg (s : schema) : msg := Msg (map zero_of s) [].

(** ** Encoding (resource_vtproto.pb.go:40-76; the Go code fills a buffer from its end, here the
    same bytes are put in order) *)

Definition put_bytes (s : bytes) : bytes := encode_varint (N.of_nat (List.length s)) ++ s.
Definition put_tag (f : field) : bytes := map b8 (f_tag f).

(** A number after its tag (client_vtproto.pb.go:55-66, token_vtproto.pb.go:53-58). *)
Definition put_num (k : numkind) (z : Z) : bytes :=
  match k with
  | NBool => [b8 (if (z =? 0)%Z then 0 else 1)]
  | NEnum | NUint64 => encode_varint (to_wire k z)
  | NFixed64 => le_bytes 8 (to_wire k z)
  end.

(** One entry of a map (client_vtproto.pb.go:624-642). *)
Definition put_entry (f : field) (kv : bytes * bytes) : bytes :=
  let e := b8 10 :: put_bytes (fst kv) ++ b8 18 :: put_bytes (snd kv) in
  put_tag f ++ put_bytes e.

(** The alternative of a oneof in use. *)
Definition pick (alts : list field) (n : Z) : option field := find (fun f => (f_num f =? n)%Z) alts.

Fixpoint enc (env : wire_env) (name : string) (m : msg) {struct m} : bytes :=
  match m with
  | Msg fs unk =>
      (fix go (ss : schema) (fs : list fval) {struct fs} : bytes :=
         match ss, fs with
         | s :: ss, v :: fs =>
             (match s, v with
              | Plain f, FStr x => match x with [] => [] | _ => put_tag f ++ put_bytes x end
              | Plain f, FOptStr (Some x) => put_tag f ++ put_bytes x
              | Plain f, FRepStr l => flat_map (fun x => put_tag f ++ put_bytes x) l
              | Plain f, FNum z =>
                  match f_type f with
                  | TNum k => if (z =? 0)%Z then [] else put_tag f ++ put_num k z
                  | _ => []
                  end
              | Plain f, FOptNum (Some z) =>
                  match f_type f with TOptNum k => put_tag f ++ put_num k z | _ => [] end
              | Plain f, FMsg (Some m') =>
                  match f_type f with TMsg n => put_tag f ++ put_bytes (enc env n m') | _ => [] end
              | Plain f, FRepMsg l =>
                  match f_type f with
                  | TRepMsg n =>
                      (fix each (l : list msg) : bytes :=
                         match l with [] => [] | m' :: l => (put_tag f ++ put_bytes (enc env n m')) ++ each l end) l
                  | _ => []
                  end
              | Plain f, FMap l => flat_map (put_entry f) l
              | Oneof alts, FOneof (Some (n, Some m')) =>
                  match pick alts n with
                  | Some f => match f_type f with TMsg n => put_tag f ++ put_bytes (enc env n m') | _ => [] end
                  | None => []
                  end
              | _, _ => []
              end) ++ go ss fs
         | _, _ => []
         end) (match env name with Some s => s | None => [] end) fs ++ unk
  end.

(** ** SizeVT (resource_vtproto.pb.go:89-111) *)

Definition size_bytes (k : N) (l : N) : N := k + l + sov l.
Definition size_num (f : field) (k : numkind) (z : Z) : N :=
  match k with
  | NBool | NFixed64 => f_size f                       (* n += 2, n += 9: the value included *)
  | NEnum | NUint64 => f_size f + sov (to_wire k z)
  end.
Definition size_entry (f : field) (kv : bytes * bytes) : N :=
  let lk := N.of_nat (List.length (fst kv)) in
  let lv := N.of_nat (List.length (snd kv)) in
  let e := 1 + lk + sov lk + 1 + lv + sov lv in
  e + f_size f + sov e.
Definition nlen (s : bytes) : N := N.of_nat (List.length s).

Fixpoint size_vt (env : wire_env) (name : string) (m : msg) {struct m} : N :=
  match m with
  | Msg fs unk =>
      (fix go (ss : schema) (fs : list fval) {struct fs} : N :=
         match ss, fs with
         | s :: ss, v :: fs =>
             (match s, v with
              | Plain f, FStr x => match x with [] => 0 | _ => size_bytes (f_size f) (nlen x) end
              | Plain f, FOptStr (Some x) => size_bytes (f_size f) (nlen x)
              | Plain f, FRepStr l => fold_right (fun x n => size_bytes (f_size f) (nlen x) + n) 0 l
              | Plain f, FNum z =>
                  match f_type f with
                  | TNum k => if (z =? 0)%Z then 0 else size_num f k z
                  | _ => 0
                  end
              | Plain f, FOptNum (Some z) =>
                  match f_type f with TOptNum k => size_num f k z | _ => 0 end
              | Plain f, FMsg (Some m') =>
                  match f_type f with TMsg n => size_bytes (f_size f) (size_vt env n m') | _ => 0 end
              | Plain f, FRepMsg l =>
                  match f_type f with
                  | TRepMsg n =>
                      (fix each (l : list msg) : N :=
                         match l with [] => 0 | m' :: l => size_bytes (f_size f) (size_vt env n m') + each l end) l
                  | _ => 0
                  end
              | Plain f, FMap l => fold_right (fun kv n => size_entry f kv + n) 0 l
              | Oneof alts, FOneof (Some (n, Some m')) =>
                  match pick alts n with
                  | Some f => match f_type f with TMsg n => size_bytes (f_size f) (size_vt env n m') | _ => 0 end
                  | None => 0
                  end
              | _, _ => 0
              end) + go ss fs
         | _, _ => 0
         end) (match env name with Some s => s | None => [] end) fs + nlen unk
  end.

(** MarshalVT (resource_vtproto.pb.go:22-33, of a message that is not nil): a buffer of [SizeVT] bytes, filled from its end; the
    first [n] bytes of it are returned, [n] being the number of bytes written.  It panics when the
    buffer is too short. *)
Definition marshal_vt (env : wire_env) (name : string) (m : msg) : res bytes :=
  let e := enc env name m in
  let size := N.to_nat (size_vt env name m) in
  if (size <? List.length e)%nat then Panics
  else Ok (firstn (List.length e) (repeat x00 (size - List.length e) ++ e)).

(** ** Decoding *)

(** A length-delimited value (resource_vtproto.pb.go:152-179). *)
Definition read_bytes (d : bytes) (i : Z) : res (bytes * Z) :=
  let! '(v, i) := read_varint d i in
  let n := int64 (Z.of_N v) in
  if (n <? 0)%Z then Err EInvalidLength
  else
    let post := int64 (i + n) in
    if (post <? 0)%Z then Err EInvalidLength
    else if (blen d <? post)%Z then Err EUnexpectedEOF
    else let! s := slice d i post in Ok (s, post).

(** skip (resource_vtproto.pb.go:267-344).  Returns the index behind the field. *)
Fixpoint skip_varint (fuel : nat) (d : bytes) (i : Z) : res Z :=
  match fuel with
  | O => Err EOverflow
  | S n =>
      if (blen d <=? i)%Z then Err EUnexpectedEOF
      else let! b := byte_at d i in
           if Byte.to_N b <? 128 then Ok (i + 1)%Z else skip_varint n d (i + 1)
  end.
Fixpoint skip_loop (fuel : nat) (d : bytes) (i : Z) (depth : nat) : res Z :=
  match fuel with
  | O => Hangs
  | S n =>
      if (blen d <=? i)%Z then Err EUnexpectedEOF
      else
        let! '(wire, i) := read_varint d i in
        let! '(i, depth) :=
          match wire mod 8 with
          | 0 => let! i := skip_varint 10 d i in Ok (i, depth)
          | 1 => Ok (int64 (i + 8), depth)
          | 2 =>
              let! '(v, i) := read_varint d i in
              let len := int64 (Z.of_N v) in
              if (len <? 0)%Z then Err EInvalidLength else Ok (int64 (i + len), depth)
          | 3 => Ok (i, S depth)
          | 4 => match depth with O => Err EEndOfGroup | S depth => Ok (i, depth) end
          | 5 => Ok (int64 (i + 4), depth)
          | _ => Err EWireType
          end in
        if (i <? 0)%Z then Err EInvalidLength
        else match depth with O => Ok i | _ => skip_loop n d i depth end
  end.
Definition skip (d : bytes) : res Z := skip_loop (S (List.length d)) d 0 0.

(** The field at [i] is not known: its bytes are kept (resource_vtproto.pb.go:244-257).  [limit]:
    the end of the data, or of the map entry. *)
Definition read_unknown (d : bytes) (i limit : Z) : res (bytes * Z) :=
  let! tl := slice d i (blen d) in
  let! n := skip tl in
  let post := int64 (i + n) in
  if ((n <? 0) || (post <? 0))%Z then Err EInvalidLength
  else if (limit <? post)%Z then Err EUnexpectedEOF
  else let! s := slice d i post in Ok (s, post).

(** fixed64 (token_vtproto.pb.go:690-694). *)
Definition read_fixed64 (d : bytes) (i : Z) : res (N * Z) :=
  if (blen d <? int64 (i + 8))%Z then Err EUnexpectedEOF
  else let! s := slice d i (int64 (i + 8)) in Ok (le_value s, int64 (i + 8)).

Definition read_num (k : numkind) (d : bytes) (i : Z) : res (Z * Z) :=
  let! '(v, i) := match k with NFixed64 => read_fixed64 d i | _ => read_varint d i end in
  Ok (of_wire k v, i).

(** The body of a map entry, which ends at [post] (client_vtproto.pb.go:2214-2308).  The strings
    are checked against the end of the data, not against [post]; their wire type is not checked. *)
Fixpoint read_entry (fuel : nat) (d : bytes) (i post : Z) (k v : bytes) : res (bytes * bytes) :=
  match fuel with
  | O => Hangs
  | S n =>
      if (post <=? i)%Z then Ok (k, v)
      else
        let! '(wire, i') := read_varint d i in
        let num := int32 (Z.of_N (wire / 8)) in
        if (num =? 1)%Z then let! '(k, i) := read_bytes d i' in read_entry n d i post k v
        else if (num =? 2)%Z then let! '(v, i) := read_bytes d i' in read_entry n d i post k v
        else let! '(_, i) := read_unknown d i post in read_entry n d i post k v
  end.

Definition bytes_eqb (a b : bytes) : bool :=
  if list_eq_dec Byte.byte_eq_dec a b then true else false.
(** [m[k] = v]. *)
Fixpoint map_put (l : list (bytes * bytes)) (k v : bytes) : list (bytes * bytes) :=
  match l with
  | [] => [(k, v)]
  | (k', v') :: l => if bytes_eqb k' k then (k, v) :: l else (k', v') :: map_put l k v
  end.

(** The slot and field of a number: the [case] of UnmarshalVT. *)
Definition slot_field (s : slot) (num : Z) : option field :=
  match s with
  | Plain f => if (f_num f =? num)%Z then Some f else None
  | Oneof alts => pick alts num
  end.
Fixpoint find_field (ss : schema) (num : Z) : option (nat * field) :=
  match ss with
  | [] => None
  | s :: ss =>
      match slot_field s num with
      | Some f => Some (O, f)
      | None => match find_field ss num with Some (k, f) => Some (S k, f) | None => None end
      end
  end.

Fixpoint set_nth {A} (l : list A) (n : nat) (a : A) : list A :=
  match l, n with
  | [], _ => []
  | _ :: l, O => a :: l
  | b :: l, S n => b :: set_nth l n a
  end.
Definition set_field (m : msg) (k : nat) (v : fval) : msg :=
  Msg (set_nth (msg_fields m) k v) (msg_unknown m).
Definition zero_named (env : wire_env) (name : string) : msg :=
  match env name with Some s => zero_msg s | None => Msg [] [] end.

(** The field [f] of slot [k] is at [i], behind its tag (the body of one [case]).  [sub] decodes a
    nested message on top of a value.  Gives the new value of the slot. *)
Definition read_field (env : wire_env) (sub : string -> msg -> bytes -> res msg)
    (f : field) (old : fval) (d : bytes) (i : Z) : res (fval * Z) :=
  match f_type f, old with
  | TStr, _ => let! '(s, i) := read_bytes d i in Ok (FStr s, i)
  | TOptStr, _ => let! '(s, i) := read_bytes d i in Ok (FOptStr (Some s), i)
  | TRepStr, FRepStr l => let! '(s, i) := read_bytes d i in Ok (FRepStr (l ++ [s]), i)
  | TNum k, _ => let! '(z, i) := read_num k d i in Ok (FNum z, i)
  | TOptNum k, _ => let! '(z, i) := read_num k d i in Ok (FOptNum (Some z), i)
  | TMsg n, FMsg o =>
      let! '(s, i) := read_bytes d i in
      let! m := sub n (match o with Some m => m | None => zero_named env n end) s in
      Ok (FMsg (Some m), i)
  | TRepMsg n, FRepMsg l =>
      let! '(s, i) := read_bytes d i in
      let! m := sub n (zero_named env n) s in
      Ok (FRepMsg (l ++ [m]), i)
  | TMap, FMap l =>
      let! '(v, i) := read_varint d i in
      let n := int64 (Z.of_N v) in
      if (n <? 0)%Z then Err EInvalidLength
      else
        let post := int64 (i + n) in
        if (post <? 0)%Z then Err EInvalidLength
        else if (blen d <? post)%Z then Err EUnexpectedEOF
        else
          let! '(k, v) := read_entry (S (List.length d)) d i post [] [] in
          Ok (FMap (map_put l k v), post)
  | TMsg n, FOneof o =>
      let! '(s, i) := read_bytes d i in
      match o with
      | Some (num, inner) =>
          if (num =? f_num f)%Z then
            match inner with
            | None =>                        (* the method of a nil message: panics when it sets a
                                                field, or, in Go, fails on a malformed first one *)
                match s with [] => Ok (old, i) | _ => Panics end
            | Some m => let! m := sub n m s in Ok (FOneof (Some (f_num f, Some m)), i)
            end
          else let! m := sub n (zero_named env n) s in Ok (FOneof (Some (f_num f, Some m)), i)
      | None => let! m := sub n (zero_named env n) s in Ok (FOneof (Some (f_num f, Some m)), i)
      end
  | _, _ => Panics                           (* not a value of this type *)
  end.

(** UnmarshalVT (resource_vtproto.pb.go:119-265), from index [i] on, on top of [m]. *)
Fixpoint unmarshal_at (fuel : nat) (env : wire_env) (name : string) (m : msg) (d : bytes) (i : Z) : res msg :=
  match fuel with
  | O => Hangs
  | S n =>
      if (blen d <=? i)%Z then (if (blen d <? i)%Z then Err EUnexpectedEOF else Ok m)
      else
        let! '(wire, i') := read_varint d i in
        let num := int32 (Z.of_N (wire / 8)) in
        let wt := wire mod 8 in
        if wt =? 4 then Err EEndOfGroup
        else if (num <=? 0)%Z then Err ETag
        else
          match find_field (match env name with Some s => s | None => [] end) num with
          | Some (k, f) =>
              if negb (wt =? f_wire f) then Err EWireType
              else
                match nth_error (msg_fields m) k with
                | None => Panics             (* not a value of this type *)
                | Some old =>
                    let! '(v, i) := read_field env (fun nm m s => unmarshal_at n env nm m s 0) f old d i' in
                    unmarshal_at n env name (set_field m k v) d i
                end
          | None =>
              let! '(u, i) := read_unknown d i (blen d) in
              unmarshal_at n env name (Msg (msg_fields m) (msg_unknown m ++ u)) d i
          end
  end.
Definition unmarshal_vt (env : wire_env) (name : string) (m : msg) (d : bytes) : res msg :=
  unmarshal_at (S (List.length d)) env name m d 0.
