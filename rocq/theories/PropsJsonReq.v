(** * Signed authorization requests: the theorems

    Written by tools/gen_props.py: the statements are those of the lemmas proved in
    PfJsonReq.
    Below each theorem, a concrete case that meets its hypotheses. *)

From Verif Require Import MeetJsonReq.

(** ** C109 A signed authorization request decodes to what the client signed *)

Theorem C109_round_trip : forall utf8 read_u64 sign verify r raw,
  reads_back read_u64 -> verifies verify sign -> (forall n, rq_max_age r = Some n -> (n < 2 ^ 64)%N) ->
  encode_request utf8 sign r = Some raw -> decode_request read_u64 verify raw = Some r.
Proof. exact C109_round_trip_proof. Qed.
Print Assumptions C109_round_trip.
Example C109_round_trip_met : exists utf8 read_u64 sign verify r raw,
  reads_back read_u64 /\ verifies verify sign /\ rq_max_age r = Some 3600%N /\ encode_request utf8 sign r = Some raw.
Proof. exists (fun _ => true), demo_read, demo_sign, demo_verify, demo_request, "signed"%string. split; [exact demo_reads|]. split; [exact demo_verifies|]. split; reflexivity. Qed.

Theorem C109_encodes : forall utf8 sign r, (forall s, In s (strings r) -> utf8 s = true) ->
  exists d, encode_request utf8 sign r = sign d.
Proof. exact C109_encodes_proof. Qed.
Print Assumptions C109_encodes.
Example C109_encodes_met : exists utf8 r s, In s (strings r) /\ utf8 s = true /\ (forall s, In s (strings r) -> utf8 s = true) /\ utf8 "255"%string = false.
Proof.
  exists (fun s => negb (String.eqb s "255")), demo_request, "https://r2"%string. split; [cbn; tauto|]. split; [reflexivity|]. split; [|reflexivity].
  intros s H. cbn in H. repeat (destruct H as [<-|H]; [reflexivity|]). destruct H.
Qed.

Theorem C109_nothing_invented : forall read_u64 verify raw r,
  decode_request read_u64 verify raw = Some r ->
  exists d, raw <> ""%string /\ verify raw = Some d /\
    (* every claim is a member of the request *)
    (forall n j, In (n, j) d -> exists p c v, In (p, c, v) (members r) /\ (n = p \/ n = c)) /\
    (* and every member of the request that is set is a claim *)
    (forall p c v, In (p, c, v) (members r) -> unset v \/ exists n j, In (n, j) d /\ (n = p \/ n = c) /\ says read_u64 j v).
Proof. exact C109_nothing_invented_proof. Qed.
Print Assumptions C109_nothing_invented.
Example C109_nothing_invented_met : exists read_u64 verify raw r,
  decode_request read_u64 verify raw = Some r /\ rq_resource r = ["https://r1"; "https://r2"]%string.
Proof. exists demo_read, demo_verify, "signed"%string, demo_request. split; reflexivity. Qed.

Theorem C109_written : forall utf8 sign r raw, encode_request utf8 sign r = Some raw ->
  exists d, sign d = Some raw /\ NoDup (map fst d) /\
    forall p j, In (p, j) d <-> exists c v, In (p, c, v) (members r) /\ ~ unset v /\ written v j.
Proof. exact C109_written_proof. Qed.
Print Assumptions C109_written.
Example C109_written_met : exists utf8 sign r raw,
  encode_request utf8 sign r = Some raw /\ In ("max_age", "maxAge", VNum (Some 3600%N))%string (members r) /\ sign demo_claims = Some raw.
Proof. exists (fun _ => true), demo_sign, demo_request, "signed"%string. split; [reflexivity|]. split; [cbn; tauto|reflexivity]. Qed.

Theorem C109_foreign_claims : forall read_u64 verify raw d n j,
  verify raw = Some d -> In (n, j) d -> In n foreign_claims -> decode_request read_u64 verify raw = None.
Proof. exact C109_foreign_claims_proof. Qed.
Print Assumptions C109_foreign_claims.
Example C109_foreign_claims_met : exists (verify : string -> option (list (string * json))) raw d n j, verify raw = Some d /\ In (n, j) d /\ In n foreign_claims /\ In ("client_id", JsStr "app")%string d.
Proof.
  exists (fun _ => Some (("exp", JsNum "1000") :: demo_claims)%string), "raw"%string, (("exp", JsNum "1000") :: demo_claims)%string, "exp"%string, (JsNum "1000").
  cbn. tauto.
Qed.

Theorem C109_standard_refuted : forall utf8 read_u64 verify r server raw d d',
  write_values utf8 fields (values r) = Some d ->
  Permutation d' (("aud"%string, JsStr server) :: d) -> verify raw = Some d' -> decode_request read_u64 verify raw = None.
Proof. exact C109_standard_refuted_proof. Qed.
Print Assumptions C109_standard_refuted.
Example C109_standard_refuted_met : exists utf8 (verify : string -> option (list (string * json))) r server raw d d',
  write_values utf8 fields (values r) = Some d /\ Permutation d' (("aud"%string, JsStr server) :: d) /\ verify raw = Some d' /\ raw <> ""%string.
Proof.
  exists (fun _ => true), (fun _ => Some (("aud", JsStr "https://as.example") :: demo_claims)%string), demo_request, "https://as.example"%string, "raw"%string.
  do 2 eexists. split; [reflexivity|]. split; [|split; [reflexivity|discriminate]]. apply Permutation_refl.
Qed.
