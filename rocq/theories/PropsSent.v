(** * Who is sent a token: the theorems

    Written by tools/gen_props.py: the statements are those of the lemmas proved in
    PfSent.
    Below each theorem, a concrete case that meets its hypotheses. *)

From Verif Require Import MeetSent.

(** ** C119 A token value is sent to one request only *)

Theorem C119_sent_once : forall C sa sr source S w xs i j v,
  let hh := http_history S w xs in
  primitives_ok C -> web_package_generators C sa sr source hh -> unique_uuids source (List.length hh) ->
  sent_token hh i v -> sent_token hh j v -> i = j.
Proof. exact C119_sent_once_proof. Qed.
Print Assumptions C119_sent_once.
Example C119_sent_once_met : exists C sa sr source S w xs i v,
  let hh := http_history S w xs in
  primitives_ok C /\ web_package_generators C sa sr source hh /\ unique_uuids source (List.length hh) /\ sent_token hh i v.
Proof.
  exists toy, access_secret, refresh_secret, toy_source, web_server, (web_world true), x_web_mint, 1%nat, (R 23).
  split; [exact toy_ok|]. split; [exact web_mint_gens|]. split; [apply toy_unique; apply Nat.leb_le; vm_compute; reflexivity|].
  destruct redeem_sent as (r & a & e & t & f & s & H & _ & Hf). exists r, a, e, t, f, s.
  split; [exact H|]. split; [vm_compute; discriminate|right; symmetry; exact Hf].
Qed.

Theorem C119_two_values : forall C sa sr source S w xs i r access expires type refresh scope,
  let hh := http_history S w xs in
  primitives_ok C -> web_package_generators C sa sr source hh -> unique_uuids source (List.length hh) ->
  responded hh i EToken r (HToken access expires type refresh scope) -> access <> ""%string /\ access <> refresh.
Proof. exact C119_two_values_proof. Qed.
Print Assumptions C119_two_values.
Example C119_two_values_met : exists C sa sr source S w xs i r access expires type refresh scope,
  let hh := http_history S w xs in
  primitives_ok C /\ web_package_generators C sa sr source hh /\ unique_uuids source (List.length hh) /\
  responded hh i EToken r (HToken access expires type refresh scope) /\ refresh <> ""%string.
Proof.
  destruct redeem_sent as (r & a & e & t & f & s & H & _ & Hf).
  exists toy, access_secret, refresh_secret, toy_source, web_server, (web_world true), x_web_mint, 1%nat, r, a, e, t, f, s.
  split; [exact toy_ok|]. split; [exact web_mint_gens|]. split; [apply toy_unique; apply Nat.leb_le; vm_compute; reflexivity|].
  split; [exact H|]. rewrite Hf. vm_compute. discriminate.
Qed.

Theorem C119_own_token : forall C sa sr source S w xs i v j iss t a,
  let hh := http_history S w xs in
  primitives_ok C -> web_package_generators C sa sr source hh -> unique_uuids source (List.length hh) ->
  sent_token hh i v -> In (HvCall j (CTokCreate iss t) a) hh -> t_value t = v -> j = i.
Proof. exact C119_own_token_proof. Qed.
Print Assumptions C119_own_token.
Example C119_own_token_met : exists C sa sr source S w xs i v j iss t a,
  let hh := http_history S w xs in
  primitives_ok C /\ web_package_generators C sa sr source hh /\ unique_uuids source (List.length hh) /\
  sent_token hh i v /\ In (HvCall j (CTokCreate iss t) a) hh /\ t_value t = v.
Proof.
  destruct redeem_stored as (iss & t & a & Hc & Hv).
  exists toy, access_secret, refresh_secret, toy_source, web_server, (web_world true), x_web_mint, 1%nat, (R 23), 1%nat, iss, t, a.
  split; [exact toy_ok|]. split; [exact web_mint_gens|]. split; [apply toy_unique; apply Nat.leb_le; vm_compute; reflexivity|].
  split; [|split; [exact Hc|exact Hv]].
  destruct redeem_sent as (r & a' & e & ty & f & s & H & _ & Hf). exists r, a', e, ty, f, s.
  split; [exact H|]. split; [vm_compute; discriminate|right; symmetry; exact Hf].
Qed.
