(** * A signed authorization request (a concrete case) *)

From Verif Require Export PfJsonReq.
From Coq Require Import DecimalString DecimalN.
Local Open Scope string_scope.

Definition demo_read (s : string) : option N := option_map N.of_uint (NilEmpty.uint_of_string s).
Lemma demo_reads : reads_back demo_read.
Proof. intros n _. unfold demo_read, decimal. rewrite NilEmpty.usu. cbn. rewrite Unsigned.of_to. reflexivity. Qed.

Definition demo_request : request :=
  mkRequest "openid" "" "app" "" "s&1" (Some "query.jwt") "" None (Some "") (Some 3600%N) None None None None None "" "" "https://api" None ["https://r1"; "https://r2"]
    None None None.
Definition demo_claims : list (string * json) :=
  [("scope", JsStr "openid"); ("client_id", JsStr "app"); ("state", JsStr "s&1"); ("response_mode", JsStr "query.jwt"); ("prompt", JsStr "");
   ("max_age", JsStr "3600"); ("audience", JsStr "https://api"); ("resource", JsList [JsStr "https://r1"; JsStr "https://r2"])].

Definition same_json (a b : json) : bool :=
  match a, b with
  | JsStr x, JsStr y => String.eqb x y
  | JsList [JsStr x; JsStr y], JsList [JsStr x'; JsStr y'] => String.eqb x x' && String.eqb y y'
  | _, _ => false
  end.
Fixpoint same_doc (a b : list (string * json)) : bool :=
  match a, b with
  | [], [] => true
  | (n, x) :: a, (m, y) :: b => String.eqb n m && same_json x y && same_doc a b
  | _, _ => false
  end.
Lemma same_json_eq a b : same_json a b = true -> a = b.
Proof.
  destruct a as [| | |x|[|[| | |u| |] [|[| | |v| |] [|]]]|], b as [| | |y|[|[| | |u'| |] [|[| | |v'| |] [|]]]|]; try discriminate; cbn; intros H.
  - apply String.eqb_eq in H. congruence.
  - apply andb_prop in H as [H1 H2]. apply String.eqb_eq in H1, H2. congruence.
Qed.
Lemma same_doc_eq a : forall b, same_doc a b = true -> a = b.
Proof.
  induction a as [|[n x] a IH]; intros [|[m y] b]; try discriminate; [reflexivity|]. cbn. intros H.
  apply andb_prop in H as [H H3]. apply andb_prop in H as [H1 H2]. apply String.eqb_eq in H1. apply same_json_eq in H2. apply IH in H3. congruence.
Qed.

(** A signer of this one document, and a verifier that gives its claims in another order. *)
Definition demo_sign (d : list (string * json)) : option string := if same_doc d demo_claims then Some "signed" else None.
Definition demo_verify (raw : string) : option (list (string * json)) := if String.eqb raw "signed" then Some (rev demo_claims) else None.
Lemma demo_verifies : verifies demo_verify demo_sign.
Proof.
  intros d raw H. unfold demo_sign in H. destruct (same_doc d demo_claims) eqn:E; [|discriminate]. apply same_doc_eq in E. subst d.
  injection H as <-. split; [discriminate|]. eexists. split; [apply Permutation_rev|reflexivity].
Qed.
