(** * The client registry: the theorems

    Written by tools/gen_props.py: the statements are those of the lemmas proved in
    PfRegistry.
    Below each theorem, a concrete case that meets its hypotheses. *)

From Verif Require Import MeetRegistry.

(** ** C113 Registered clients are found as registered *)

Theorem C113_kept : forall st es id c,
  leave_alone st es -> never_drawn id es ->
  reg_get st id = Some c -> reg_get (reg_after st es) id = Some c.
Proof. exact C113_kept_proof. Qed.
Print Assumptions C113_kept.
Example C113_kept_met : leave_alone clients two_registrations /\ never_drawn "public-client"%string two_registrations /\
  reg_get clients "public-client"%string = Some (builtin 3).
Proof. split; [apply two_alone|]. split; [apply other_never|]. reflexivity. Qed.

Theorem C113_registered : forall st a id st' id',
  reg_register st (Some a) id = Done (st', id') ->
  id' = id /\ exists c, reg_get st' id' = Some c /\ cl_id c = id' /\ same_registration c (rg_heap st a).
Proof. exact C113_registered_proof. Qed.
Print Assumptions C113_registered.
Example C113_registered_met : exists st', reg_register (reg_after clients two_registrations) (Some 9) "dddddddddddddddd"%string = Done (st', "dddddddddddddddd"%string).
Proof. eexists. reflexivity. Qed.

Theorem C113_only_registered : forall st es id c,
  reg_get (reg_after st es) id = Some c -> reg_get st id <> None \/ exists a, In (Enrol (Some a) id) es.
Proof. exact C113_only_registered_proof. Qed.
Print Assumptions C113_only_registered.
Example C113_only_registered_met : reg_get (reg_after clients two_registrations) "aaaaaaaaaaaaaaaa"%string = Some (with_id (newcomer "one"%string) "aaaaaaaaaaaaaaaa"%string).
Proof. reflexivity. Qed.

Theorem C113_own_identifiers : forall st es,
  own_identifiers st -> leave_alone st es -> own_identifiers (reg_after st es).
Proof. exact C113_own_identifiers_proof. Qed.
Print Assumptions C113_own_identifiers.
Example C113_own_identifiers_met : own_identifiers clients /\ leave_alone clients two_registrations /\
  reg_get (reg_after clients two_registrations) "bbbbbbbbbbbbbbbb"%string <> None.
Proof. split; [apply clients_own|]. split; [apply two_alone|]. discriminate. Qed.

Theorem C113_servers_registry : forall w es,
  leave_alone clients es -> w_clients w = reg_get (reg_after clients es) -> registry_ok w.
Proof. exact C113_servers_registry_proof. Qed.
Print Assumptions C113_servers_registry.
Example C113_servers_registry_met : leave_alone clients two_registrations /\
  w_clients (init_world 0 (reg_get (reg_after clients two_registrations))) = reg_get (reg_after clients two_registrations).
Proof. split; [apply two_alone|]. reflexivity. Qed.

Theorem C113_by_name : forall fold st order name,
  an_order st order ->
  match reg_by_name fold st order name with
  | Some c => exists id, reg_get st id = Some c /\ same_name fold (cl_name c) name
  | None => forall id c, reg_get st id = Some c -> ~ same_name fold (cl_name c) name
  end.
Proof. exact C113_by_name_proof. Qed.
Print Assumptions C113_by_name.
Example C113_by_name_met : an_order clients names_front.
Proof. apply order_ok. left. reflexivity. Qed.

Theorem C113_one_name : forall fold st order order' name,
  an_order st order -> an_order st order' -> distinct_names fold st ->
  reg_by_name fold st order name = reg_by_name fold st order' name.
Proof. exact C113_one_name_proof. Qed.
Print Assumptions C113_one_name.
Example C113_one_name_met : forall fold, an_order names_some ["public-client"%string] /\ distinct_names fold names_some /\
  reg_get names_some "public-client"%string <> None.
Proof. intros fold. split; [apply some_order|]. split; [apply some_distinct|]. discriminate. Qed.

Theorem C113_one_name_refuted : exists order order' c c', forall fold,
  an_order clients order /\ an_order clients order' /\
  reg_by_name fold clients order "cli-public-client"%string = Some c /\
  reg_by_name fold clients order' "cli-public-client"%string = Some c' /\
  cl_type c = CtPublic /\ cl_type c' = CtCredentialed.
Proof. exact C113_one_name_refuted_proof. Qed.
Print Assumptions C113_one_name_refuted.
(* The theorem is itself a concrete case. *)

Theorem C113_own_identifiers_refuted : exists st es id c,
  (* one record, registered twice *)
  own_identifiers st /\ (forall e, In e es -> touched e = Some 6) /\
  reg_get (reg_after st es) id = Some c /\ cl_id c <> id.
Proof. exact C113_own_identifiers_refuted_proof. Qed.
Print Assumptions C113_own_identifiers_refuted.
(* The theorem is itself a concrete case. *)
