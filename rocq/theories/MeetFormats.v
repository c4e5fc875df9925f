(** * Concrete libraries for the examples beside the theorems on formats *)

From Verif Require Export PfFormats PfSdk.

(** Pairs of strings in one string. *)
Fixpoint pair_up (a b : string) : string :=
  match a with EmptyString => String "1" b | String c a => String "0" (String c (pair_up a b)) end.
Fixpoint unpair (s : string) : string * string :=
  match s with
  | String "0" (String c s) => let '(a, b) := unpair s in (String c a, b)
  | String _ s => (EmptyString, s)
  | EmptyString => (EmptyString, EmptyString)
  end.
Lemma unpair_pair a b : unpair (pair_up a b) = (a, b).
Proof. induction a as [|c a IH]; [reflexivity|]. cbn. rewrite IH. reflexivity. Qed.

Definition own_key : jwk := mkJwk "key-1" "sig" "private".
Definition is_private (k : jwk) : bool := String.eqb (k_mat k) "private".

(** Objects are written in the clear and every signature is "signed". *)
Definition plain_libs : libraries string :=
  mkLibs string (fun typ k _ c => if is_private k then Some (pair_up (k_id k) (pair_up typ c)) else None)
    (fun k => negb (is_private k)) is_private Some Some (fun kid typ => Some (pair_up kid typ))
    (fun _ _ => true) (fun _ _ _ _ _ => Some "signed"%string) (fun kid typ _ p _ => Some (pair_up kid (pair_up typ p)))
    (fun _ m f => Some (pair_up m f)).
Definition triple (s : string) : opened string :=
  let '(kid, rest) := unpair s in let '(typ, c) := unpair rest in mkOpened kid typ c.
Definition plain_readers : readers string :=
  mkReaders string (fun raw => Some (triple raw)) (fun _ _ => true)
    (fun raw => match b64url_decode raw with Some m => Some (triple m) | None => None end) (fun _ _ => true)
    (fun raw => let '(m, f) := unpair raw in let '(kid, typ) := unpair f in Some (mkOpened kid typ m)) (fun _ _ => true).

Lemma plain_work : libraries_work plain_libs plain_readers.
Proof.
  split; [|split; [|split]].
  - intros typ k embed c raw H. cbn in H. destruct (is_private k) eqn:P; [|discriminate]. injection H as <-.
    cbn. rewrite P. unfold triple. rewrite !unpair_pair. auto.
  - intros k kid typ alg c b s m H1 H2 H3. cbn in H1, H2, H3. injection H1 as <-. injection H2 as <-. injection H3 as <-.
    cbn. rewrite C47_round_trip_proof. unfold triple. rewrite !unpair_pair. auto.
  - intros k kid typ c m f raw H1 H2 H3. cbn in H1, H2, H3. injection H1 as <-. injection H2 as <-. injection H3 as <-.
    cbn. rewrite !unpair_pair. auto.
  - intros k H. cbn in *. rewrite H. reflexivity.
Qed.
