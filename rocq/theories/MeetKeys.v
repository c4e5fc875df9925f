(** * Concrete cases for PropsKeys *)

From Verif Require Export MeetTok PfKeys.

(** A library that knows one curve, and keys whose material says whether they are private. *)
Definition knows (crv x y : string) (d : option string) : bool := String.eqb crv "P-384".
Definition kk_of (k : ec_key) : jwk :=
  mkJwk (ec_kid k) (ec_use k) (String (match ec_d k with Some _ => "s" | None => "p" end)%char (ec_x k)).
Definition kk_pub (k : jwk) : jwk :=
  mkJwk (k_id k) (k_use k) (match k_mat k with String "s" r => String "p" r | m => m end)%char.
Definition kk_key : ec_key :=
  mkEc "P-384" (text_or "x" settings_doc) (text_or "y" settings_doc) (text_at "d" settings_doc) "123456789" "ES384" "sig".

Lemma kk_stays : point_stays knows.
Proof. intros crv x y d H. exact H. Qed.
Lemma kk_keeps : keeps kk_of kk_pub.
Proof.
  split; [intros k; split; reflexivity|]. intros k k' _ Hx _ Hd. unfold kk_of, kk_pub. cbn. rewrite Hx, Hd.
  destruct (ec_d k); reflexivity.
Qed.
Lemma kk_started : started knows settings_doc kk_key [ec_public kk_key].
Proof. split; vm_compute; reflexivity. Qed.

(** It signs the metadata with the key of the settings. *)
Definition kk_sign : jose_sign string := fun typ k embed c =>
  if negb embed && jwk_eqb k (kk_of kk_key) && String.eqb typ type_metadata && String.eqb c "metadata"
  then Some "signed"%string else None.
Definition kk_dec (s : string) : option string := if String.eqb s "signed" then Some "metadata"%string else None.
Definition kk_ext : ext :=
  mkExt (x_fold demo_ext) (x_sha256 demo_ext) (x_blake demo_ext) (x_request_uri demo_ext) (x_url_string demo_ext)
    (x_uri_valid demo_ext) (x_upper demo_ext)
    (fun s => if String.eqb s "signed" then Some (mkJws (Some type_metadata) "123456789" None) else None)
    (x_parse_jose demo_ext) (x_parse_pop demo_ext)
    (fun k s => jwk_eqb k (kk_of (ec_public kk_key)) && String.eqb s "signed")
    (x_payload demo_ext) (x_jwks demo_ext) (x_thumb demo_ext).
Lemma kk_works : jose_works kk_ext kk_dec kk_pub kk_sign.
Proof.
  split; [intros k; split; reflexivity|]. intros typ k embed c raw H. unfold kk_sign in H.
  destruct embed; [discriminate|]. cbn [negb andb] in H.
  destruct (jwk_eqb k (kk_of kk_key)) eqn:Hk; [|discriminate]. apply jwk_eqb_eq in Hk. subst k.
  destruct (String.eqb_spec typ type_metadata) as [->|]; [|discriminate].
  destruct (String.eqb_spec c "metadata") as [->|]; [|discriminate].
  cbn [andb] in H. injection H as <-. repeat split; vm_compute; reflexivity.
Qed.

(** Two calls of a client, at 1000 and 2000 seconds. *)
Definition kk_answer : jwks_answer := read_response knows kk_of (jwks_handler (Some (Some [ec_public kk_key]))).
Definition kk_calls : list keys_call := [mkKeysCall 1000 kk_answer 1000; mkKeysCall 2000 kk_answer 2000].
Lemma kk_answered : answered_by knows kk_of [ec_public kk_key] kk_calls.
Proof. intros c [<-|[<-|[]]]; reflexivity. Qed.

(** The same settings with another secret. *)
Definition other_settings : jdoc := (jtext "d" "another-secret" ++ without "d" settings_doc)%list.

Lemma strict_registry_native : registry_ok (strict_world "native").
Proof.
  intros id c. cbn. unfold upd, empty. destruct (String.eqb_spec id "app") as [->|]; intros H; inversion H; reflexivity.
Qed.
