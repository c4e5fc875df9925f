(** * The protobuf codec: the theorems

    Written by tools/gen_props.py: the statements are those of the lemmas proved in
    PfWire.
    Below each theorem, a concrete case that meets its hypotheses. *)

From Verif Require Import MeetWire.
From Coq Require Import Permutation.
Local Open Scope Z_scope.
Local Open Scope list_scope.

(** ** C93 A message survives its wire form *)

Theorem C93_round_trip : forall name m,
    built name m -> representable (size_of name m) ->
    exists b, marshal name m = Ok b /\ unmarshal name (empty name) b = Ok m.
Proof. exact C93_round_trip_proof. Qed.
Print Assumptions C93_round_trip.
Example C93_round_trip_met :
  built "flow.TokenRequest" a_request /\ representable (size_of "flow.TokenRequest" a_request) /\ size_of "flow.TokenRequest" a_request = 36.
Proof. split; [exact a_request_built|]. split; vm_compute; reflexivity. Qed.

Theorem C93_decoded_again : forall name d m,
    In name message_types -> representable (blen d) ->
    unmarshal name (empty name) d = Ok m -> representable (size_of name m) ->
    exists b, marshal name m = Ok b /\ unmarshal name (empty name) b = Ok m.
Proof. exact C93_decoded_again_proof. Qed.
Print Assumptions C93_decoded_again.
Example C93_decoded_again_met :
  (* the name of a client, an unknown field 100, and an unknown group *)
  let d := map b8 [10; 1; 97; 162; 6; 1; 7; 211; 6; 8; 5; 212; 6]%N in
  exists m, In "client.Client"%string message_types /\ unmarshal "client.Client" (empty "client.Client") d = Ok m /\
    msg_unknown m = skipn 3 d /\ representable (size_of "client.Client" m).
Proof. eexists. split; [vm_compute; tauto|]. split; [vm_compute; reflexivity|]. split; vm_compute; reflexivity. Qed.

Theorem C93_injective : forall name m1 m2 b,
    built name m1 -> built name m2 -> representable (size_of name m1) -> representable (size_of name m2) ->
    marshal name m1 = Ok b -> marshal name m2 = Ok b -> m1 = m2.
Proof. exact C93_injective_proof. Qed.
Print Assumptions C93_injective.
Example C93_injective_met :
  built "client.ClientMeta" a_meta /\ built "client.ClientMeta" (empty "client.ClientMeta") /\
  marshal "client.ClientMeta" a_meta <> marshal "client.ClientMeta" (empty "client.ClientMeta").
Proof. split; [exact a_meta_built|]. split; [apply built_empty; vm_compute; tauto|]. vm_compute. discriminate. Qed.

Theorem C93_hollow_grant_refuted : exists m b m',
    msg_unknown m = [] /\ marshal "flow.TokenRequest" m = Ok b /\ unmarshal "flow.TokenRequest" (empty "flow.TokenRequest") b = Ok m' /\ m' <> m.
Proof. exact C93_hollow_grant_refuted_proof. Qed.
Print Assumptions C93_hollow_grant_refuted.
Example C93_hollow_grant_refuted_met : nth_error (msg_fields hollow) 7 = Some (FOneof (Some (10, None))).
Proof. reflexivity. Qed.

(** ** C94 The announced size is the size *)

Theorem C94_size : forall name m,
    value name m -> representable (size_of name m) ->
    exists b, marshal name m = Ok b /\ blen b = size_of name m.
Proof. exact C94_size_proof. Qed.
Print Assumptions C94_size.
Example C94_size_met : value "client.ClientMeta" a_meta /\ size_of "client.ClientMeta" a_meta = 18.
Proof. split; [apply built_value; exact a_meta_built|vm_compute; reflexivity]. Qed.

(** ** C95 Decoding any bytes ends in a value or an error *)

Theorem C95_decoding_total : forall name m d,
    value name m -> representable (blen d) ->
    (exists m', unmarshal name m d = Ok m' /\ value name m') \/ exists e, unmarshal name m d = Err e.
Proof. exact C95_decoding_total_proof. Qed.
Print Assumptions C95_decoding_total.
Example C95_decoding_total_met :
  value "flow.TokenRequest" a_request /\
  unmarshal "flow.TokenRequest" a_request (map b8 [82; 255; 255; 255; 255; 255; 255; 255; 255; 127]%N) = Err EInvalidLength /\
  exists m, unmarshal "flow.TokenRequest" a_request (map b8 [90; 2; 8; 5]%N) = Ok m.
Proof. split; [apply built_value; exact a_request_built|]. split; [vm_compute; reflexivity|]. eexists. vm_compute. reflexivity. Qed.

Theorem C95_hollow_grant_refuted : exists m b,
    msg_unknown m = [] /\ (exists m', unmarshal "flow.TokenRequest" (empty "flow.TokenRequest") b = Ok m') /\
    unmarshal "flow.TokenRequest" m b = Panics.
Proof. exact C95_hollow_grant_refuted_proof. Qed.
Print Assumptions C95_hollow_grant_refuted.
Example C95_hollow_grant_refuted_met :
  exists m, unmarshal "flow.TokenRequest" (empty "flow.TokenRequest") (map b8 [82; 3; 10; 1; 65]%N) = Ok m.
Proof. eexists. vm_compute. reflexivity. Qed.

(** ** C96 Concatenated encodings merge *)

Theorem C96_concatenation : forall name m a m1 b m2,
    representable (blen (a ++ b)) -> unmarshal name m a = Ok m1 ->
    (unmarshal name m (a ++ b) = Ok m2 <-> unmarshal name m1 b = Ok m2).
Proof. exact C96_concatenation_proof. Qed.
Print Assumptions C96_concatenation.
Example C96_concatenation_met :
  exists m1 m2, unmarshal "client.Client" a_client (map b8 [10; 1; 97]%N) = Ok m1 /\
    unmarshal "client.Client" m1 (map b8 [10; 1; 98; 162; 6; 0]%N) = Ok m2 /\ m1 <> m2.
Proof. eexists. eexists. split; [vm_compute; reflexivity|]. split; [vm_compute; reflexivity|]. discriminate. Qed.

(** ** C97 Equal messages have equal bytes, and entries are read within their bounds (refuted) *)

Theorem C97_same_bytes_refuted : exists name fs k l l',
    Permutation l l' /\ built name (Msg (set_nth fs k (FMap l)) []) /\ built name (Msg (set_nth fs k (FMap l')) []) /\
    marshal name (Msg (set_nth fs k (FMap l)) []) <> marshal name (Msg (set_nth fs k (FMap l')) []).
Proof. exact C97_same_bytes_refuted_proof. Qed.
Print Assumptions C97_same_bytes_refuted.
Example C97_same_bytes_refuted_met : marshal "client.ClientMeta" (named [en; fr]) <> marshal "client.ClientMeta" (named [fr; en]).
Proof. vm_compute. discriminate. Qed.

Theorem C97_entries_apart_refuted : exists c d d' m m',
    (let tag := b8 58 in let len := b8 5 in
     unmarshal "client.ClientMeta" (empty "client.ClientMeta") (tag :: len :: c ++ d) = Ok m /\
     unmarshal "client.ClientMeta" (empty "client.ClientMeta") (tag :: len :: c ++ d') = Ok m' /\
     blen c = 5 /\ nth_error (msg_fields m) 6 <> nth_error (msg_fields m') 6).
Proof. exact C97_entries_apart_refuted_proof. Qed.
Print Assumptions C97_entries_apart_refuted.
Example C97_entries_apart_refuted_met :
  exists m, unmarshal "client.ClientMeta" (empty "client.ClientMeta") (map b8 [58; 5; 10; 1; 101; 18; 3; 50; 1; 65]%N) = Ok m /\
    nth_error (msg_fields m) 6 = Some (FMap [(map b8 [101]%N, map b8 [50; 1; 65]%N)]) /\
    nth_error (msg_fields m) 5 = Some (FOptStr (Some (map b8 [65]%N))).
Proof. eexists. split; [vm_compute; reflexivity|]. split; vm_compute; reflexivity. Qed.
