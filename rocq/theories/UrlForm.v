(** * Forms and redirects: what is written on the wire

    Go's net/url as the handlers and the SDK client use it: url.Values.Encode (authorization.go:157,
    185 and 213, client/http.go:333 and 383), and ParseQuery, by which net/http fills r.Form and
    r.PostForm. *)

From Verif Require Export ClientHttp.
Local Open Scope string_scope.

(** net/url, shouldEscape in mode encodeQueryComponent: letters, digits and - _ . ~ are kept. *)
Definition between (a b c : ascii) : bool := (N_of_ascii a <=? N_of_ascii c)%N && (N_of_ascii c <=? N_of_ascii b)%N.
Definition unreserved (c : ascii) : bool :=
  between "a" "z" c || between "A" "Z" c || between "0" "9" c || existsb (Ascii.eqb c) ["-"; "_"; "."; "~"]%char.

(** upperhex *)
Definition upper_hex (n : N) : ascii := if (n <? 10)%N then ascii_of_N (48 + n) else ascii_of_N (55 + n).
Definition percent (c : ascii) (rest : string) : string :=
  String "%" (String (upper_hex (N_of_ascii c / 16)) (String (upper_hex (N_of_ascii c mod 16)) rest)).

(** net/url, QueryEscape *)
Fixpoint query_escape (s : string) : string :=
  match s with
  | EmptyString => ""
  | String c s =>
      if Ascii.eqb c " " then String "+" (query_escape s)
      else if unreserved c then String c (query_escape s)
      else percent c (query_escape s)
  end.

(** net/url, unhex and ishex *)
Definition unhex (c : ascii) : option N :=
  if between "0" "9" c then Some (N_of_ascii c - 48)%N
  else if between "a" "f" c then Some (N_of_ascii c - 87)%N
  else if between "A" "F" c then Some (N_of_ascii c - 55)%N
  else None.

(** net/url, QueryUnescape; [None] is an error. *)
Fixpoint query_unescape (s : string) : option string :=
  match s with
  | EmptyString => Some ""
  | String c s =>
      if Ascii.eqb c "%" then
        match s with
        | String a (String b s) =>
            match unhex a, unhex b with
            | Some x, Some y => option_map (String (ascii_of_N (16 * x + y))) (query_unescape s)
            | _, _ => None
            end
        | _ => None
        end
      else option_map (String (if Ascii.eqb c "+" then " "%char else c)) (query_unescape s)
  end.

(** strings.Cut: what is before and after the first separator. *)
Fixpoint str_cut (sep : ascii) (s : string) : string * string :=
  match s with
  | EmptyString => ("", "")
  | String c s => if Ascii.eqb c sep then ("", s) else let '(a, b) := str_cut sep s in (String c a, b)
  end.
(** The parts between separators. *)
Fixpoint pieces (sep : ascii) (s : string) : list string :=
  match s with
  | EmptyString => [""]
  | String c s =>
      if Ascii.eqb c sep then "" :: pieces sep s
      else match pieces sep s with [] => [String c ""] | p :: ps => String c p :: ps end
  end.
Definition mentions (c : ascii) (s : string) : bool := existsb (Ascii.eqb c) (list_ascii_of_string s).

(** net/url, parseQuery: the pairs that can be read, and whether there was no error. *)
Fixpoint parse_pieces (l : list string) : list (string * string) * bool :=
  match l with
  | [] => ([], true)
  | p :: l =>
      let '(vs, fine) := parse_pieces l in
      if mentions ";" p then (vs, false)
      else if is_empty p then (vs, fine)
      else
        let '(k, v) := str_cut "=" p in
        match query_unescape k, query_unescape v with
        | Some k, Some v => ((k, v) :: vs, fine)
        | _, _ => (vs, false)
        end
  end.
Definition parse_query (s : string) : list (string * string) * bool := parse_pieces (pieces "&" s).

(** url.Values with the values of each name; the keys of a Go map, which differ.  Encode sorts them
    (slices.Sort, byte order). *)
Definition form_values := list (string * list string).
Fixpoint insert_key (p : string * list string) (l : form_values) : form_values :=
  match l with
  | [] => [p]
  | q :: l' => if String.leb (fst p) (fst q) then p :: l else q :: insert_key p l'
  end.
Fixpoint sort_keys (l : form_values) : form_values :=
  match l with [] => [] | p :: l => insert_key p (sort_keys l) end.
Definition pairs (vs : form_values) : list (string * string) :=
  flat_map (fun p => map (fun v => (fst p, v)) (snd p)) vs.
(** net/url, Values.Encode *)
Definition values_encode (vs : form_values) : string :=
  String.concat "&" (map (fun p => query_escape (fst p) ++ "=" ++ query_escape (snd p)) (pairs (sort_keys vs))).

(** client/http.go:327-333 and 377-383: one value per name, set by Values.Set. *)
Definition single (params : list (string * string)) : form_values := map (fun p => (fst p, [snd p])) params.

(** The request the server sees when a form is posted to it: net/http reads the body with ParseQuery
    (the content type is application/x-www-form-urlencoded, client/http.go:340 and 390). *)
Definition posted (tls : bool) (host path body : string) : http_request :=
  mkHttp "POST" (fun _ => []) (form_body (fst (parse_query body))) (fun _ => "") None tls host path.

(** net/url, mode encodeFragment: URL.String escapes the fragment, the percent sign included. *)
Definition fragment_keeps (c : ascii) : bool :=
  unreserved c || existsb (Ascii.eqb c) ["$"; "&"; "+"; ","; "/"; ":"; ";"; "="; "?"; "@"; "!"; "("; ")"; "*"]%char.
Fixpoint fragment_escape (s : string) : string :=
  match s with
  | EmptyString => ""
  | String c s => if fragment_keeps c then String c (fragment_escape s) else percent c (fragment_escape s)
  end.

(** handlers/authorization.go:146-161, 181-189 and 209-217: the header Location.  url.ParseRequestURI
    takes what follows the first question mark for the query; [text] is what URL.String and
    http.Redirect write for what comes before it. *)
Definition location (text : string -> string) (resp : http_response) : option string :=
  match resp with
  | HRedirectCode uri code issuer state =>
      Some (text (fst (str_cut "?" uri)) ++ "?" ++ values_encode [("code", [code]); ("iss", [issuer]); ("state", [state])])
  | HRedirectQuery uri raw =>
      Some (text (fst (str_cut "?" uri)) ++ "?" ++ values_encode [("response", [raw])])
  | HRedirectFragment uri raw =>
      let query := snd (str_cut "?" uri) in
      Some (text (fst (str_cut "?" uri)) ++ (if is_empty query then "" else "?" ++ query) ++ "#" ++
            fragment_escape (values_encode [("response", [raw])]))
  | _ => None
  end.
