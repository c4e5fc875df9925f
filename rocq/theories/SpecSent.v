(** * Who is sent a token: specification *)

From Verif Require Export SpecMint SpecWeb.

(** The response to HTTP request [i] carries the token value [v]. *)
Definition sent_token (hh : list hevent) (i : nat) (v : string) : Prop :=
  exists r access expires type refresh scope,
    responded hh i EToken r (HToken access expires type refresh scope) /\ v <> ""%string /\ (v = access \/ v = refresh).
