(** * Vocabulary for the statements about the token store *)

From Verif Require Export TokenStore Spec.

(** Token [t], created with the operation before [os], is not deleted by [os]. *)
Definition kept (os : list top) (t : token) : Prop := forall issuer, ~ In (TDelete issuer (t_id t)) os.
Definition revokes (id : string) (o : top) : bool :=
  match o with TRevoke _ id' => String.eqb id' id | _ => false end.
(** The stored copy of [t], after the operations [os]: its value is replaced by the hash under
    which it is found, and its status is revoked if it has been revoked. *)
Definition stored_copy (E : ext) (issuer : string) (t : token) (os : list top) : token :=
  mkToken (t_issuer t) (t_type t) (t_id t) (t_meta t)
    (if existsb (revokes (t_id t)) os then TsRevoked else t_status t) (tok_key E issuer (t_value t)) (t_cnf t).
(** No identifier and no (issuer, value) slot is used for two tokens. *)
Definition top_no_reuse (E : ext) (os : list top) : Prop :=
  forall os1 i1 t1 os2 i2 t2 os3, os = (os1 ++ TCreate i1 t1 :: os2 ++ TCreate i2 t2 :: os3)%list ->
    t_id t1 <> t_id t2 /\ tok_key E i1 (t_value t1) <> tok_key E i2 (t_value t2).

