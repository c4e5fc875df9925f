(** * Vocabulary: forms and redirects *)

From Verif Require Export UrlForm SpecWebLive.

(** The values a form gives to a name. *)
Definition given_values (vs : form_values) (k : string) : list string :=
  flat_map (fun p => if String.eqb (fst p) k then snd p else []) vs.

(** What a client reads from the query of the URL its user comes back with. *)
Definition client_reads (url k : string) : list string := form_body (fst (parse_query (snd (str_cut "?" url)))) k.
(** And from its fragment. *)
Definition client_reads_fragment (url k : string) : list string := form_body (fst (parse_query (snd (str_cut "#" url)))) k.

(** URL.String escapes question marks and number signs in a path. *)
Definition writes_base (text : string -> string) : Prop :=
  forall s, ~ In "?"%char (list_ascii_of_string (text s)) /\ ~ In "#"%char (list_ascii_of_string (text s)).

(** The characters of a JWT in compact form. *)
Definition jwt_characters (s : string) : Prop :=
  forall c, In c (list_ascii_of_string s) -> unreserved c = true.
