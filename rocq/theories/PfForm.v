(** * Forms and redirects: proofs *)

From Verif Require Export SpecForm PfWebLive6 PfHttp6.
From Verif Require Import DemoHttp.
From Coq Require Import Permutation Lia.
Local Open Scope string_scope.

Lemma hex_back n : (n < 16)%N -> unhex (upper_hex n) = Some n.
Proof.
  intros H. assert (X : forallb (fun n => match unhex (upper_hex n) with Some m => N.eqb m n | None => false end)
    (map N.of_nat (seq 0 16)) = true) by (vm_compute; reflexivity).
  rewrite forallb_forall in X. specialize (X n). destruct (unhex (upper_hex n)).
  - f_equal. apply N.eqb_eq. apply X. apply in_map_iff. exists (N.to_nat n). split; [apply N2Nat.id|apply in_seq; lia].
  - discriminate X. apply in_map_iff. exists (N.to_nat n). split; [apply N2Nat.id|apply in_seq; lia].
Qed.

Lemma unreserved_plain c : unreserved c = true ->
  Ascii.eqb c "%" = false /\ Ascii.eqb c "+" = false /\ Ascii.eqb c "&" = false /\ Ascii.eqb c "=" = false /\ Ascii.eqb c ";" = false /\
  Ascii.eqb c "?" = false /\ Ascii.eqb c "#" = false /\ Ascii.eqb c " " = false.
Proof. destruct c as [[] [] [] [] [] [] [] []]; vm_compute; intros; try discriminate; repeat split. Qed.

Lemma unescape_three a b s : query_unescape (String "%" (String a (String b s))) =
  match unhex a, unhex b with
  | Some x, Some y => option_map (String (ascii_of_N (16 * x + y))) (query_unescape s)
  | _, _ => None
  end.
Proof. reflexivity. Qed.
Lemma unescape_percent c s : query_unescape (percent c s) = option_map (String c) (query_unescape s).
Proof.
  unfold percent. rewrite unescape_three.
  assert (B : (N_of_ascii c < 256)%N) by apply N_ascii_bounded.
  rewrite (hex_back (N_of_ascii c / 16)) by (apply N.div_lt_upper_bound; lia). rewrite (hex_back (N_of_ascii c mod 16)) by (apply N.mod_lt; lia).
  rewrite <- N.div_mod' , ascii_N_embedding. reflexivity.
Qed.

Lemma escape_back s : query_unescape (query_escape s) = Some s.
Proof.
  induction s as [|c s IH]; [reflexivity|]. cbn [query_escape].
  destruct (Ascii.eqb_spec c " ") as [->|Hc].
  - cbn. rewrite IH. reflexivity.
  - destruct (unreserved c) eqn:U.
    + apply unreserved_plain in U as (U1 & U2 & _). cbn [query_unescape]. rewrite U1, U2, IH. reflexivity.
    + rewrite unescape_percent, IH. reflexivity.
Qed.

(** Escaped text has none of the characters with a meaning. *)
Definition special (c : ascii) : bool := existsb (Ascii.eqb c) ["&"; "="; ";"; "?"; "#"]%char.
Fixpoint all_chars (P : ascii -> bool) (s : string) : bool :=
  match s with EmptyString => true | String c s => P c && all_chars P s end.
Lemma escape_chars s : all_chars (fun c => negb (special c)) (query_escape s) = true.
Proof.
  induction s as [|c s IH]; [reflexivity|]. cbn [query_escape]. destruct (Ascii.eqb c " "); [exact IH|].
  destruct (unreserved c) eqn:U.
  - cbn [all_chars]. rewrite IH. apply unreserved_plain in U as (_ & _ & U1 & U2 & U3 & U4 & U5 & _).
    unfold special. cbn [existsb]. rewrite U1, U2, U3, U4, U5. reflexivity.
  - unfold percent. cbn [all_chars]. rewrite IH, !andb_true_r. clear.
    destruct c as [[] [] [] [] [] [] [] []]; vm_compute; reflexivity.
Qed.
Lemma all_app P a b : all_chars P (a ++ b) = all_chars P a && all_chars P b.
Proof. induction a as [|c a IH]; [reflexivity|]. change (String c a ++ b) with (String c (a ++ b)). cbn [all_chars]. rewrite IH, andb_assoc. reflexivity. Qed.
Lemma all_impl (P Q : ascii -> bool) s : (forall c, P c = true -> Q c = true) -> all_chars P s = true -> all_chars Q s = true.
Proof. intros H. induction s as [|c s IH]; cbn; auto. rewrite !andb_true_iff. intros [A B]. auto. Qed.
Lemma special_not c : forall x, negb (special x) = true -> special c = true -> negb (Ascii.eqb x c) = true.
Proof. intros x Hx Hc. destruct (Ascii.eqb_spec x c) as [->|]; auto. rewrite Hc in Hx. discriminate. Qed.
Lemma escape_without c s : special c = true -> all_chars (fun x => negb (Ascii.eqb x c)) (query_escape s) = true.
Proof. intros H. eapply all_impl; [|apply escape_chars]. intros x Hx. cbn in *. apply special_not; auto. Qed.

Lemma mentions_none c s : all_chars (fun x => negb (Ascii.eqb x c)) s = true -> mentions c s = false.
Proof.
  unfold mentions. induction s as [|x s IH]; cbn; auto. rewrite andb_true_iff. intros [A B].
  rewrite IH by auto. rewrite Ascii.eqb_sym. destruct (Ascii.eqb x c); [discriminate|reflexivity].
Qed.

Lemma str_cut_at c a b : all_chars (fun x => negb (Ascii.eqb x c)) a = true -> str_cut c (a ++ String c b) = (a, b).
Proof.
  induction a as [|x a IH].
  - intros _. change ("" ++ String c b) with (String c b). cbn [str_cut]. rewrite Ascii.eqb_refl. reflexivity.
  - change (String x a ++ String c b) with (String x (a ++ String c b)). cbn [str_cut all_chars].
    rewrite andb_true_iff. intros [A B]. destruct (Ascii.eqb x c); [discriminate|]. rewrite IH by auto. reflexivity.
Qed.

Lemma pieces_one sep s : all_chars (fun x => negb (Ascii.eqb x sep)) s = true -> pieces sep s = [s].
Proof.
  induction s as [|x s IH]; cbn; auto. rewrite andb_true_iff. intros [A B].
  destruct (Ascii.eqb x sep); [discriminate|]. rewrite IH by auto. reflexivity.
Qed.
Lemma pieces_cons sep a b : all_chars (fun x => negb (Ascii.eqb x sep)) a = true ->
  pieces sep (a ++ String sep b) = a :: pieces sep b.
Proof.
  induction a as [|x a IH].
  - intros _. change ("" ++ String sep b) with (String sep b). cbn [pieces]. rewrite Ascii.eqb_refl. reflexivity.
  - change (String x a ++ String sep b) with (String x (a ++ String sep b)). cbn [pieces all_chars].
    rewrite andb_true_iff. intros [A B]. destruct (Ascii.eqb x sep); [discriminate|]. rewrite IH by auto. reflexivity.
Qed.
Lemma pieces_concat l : l <> [] -> Forall (fun s => all_chars (fun x => negb (Ascii.eqb x "&")) s = true) l ->
  pieces "&" (String.concat "&" l) = l.
Proof.
  induction l as [|a l IH]; [intros []; reflexivity|]. intros _ H. inversion H as [|? ? H1 H2]; subst. destruct l as [|b l].
  - cbn. apply pieces_one. exact H1.
  - change (String.concat "&" (a :: b :: l)) with (a ++ String "&" (String.concat "&" (b :: l))).
    rewrite pieces_cons by exact H1. rewrite IH; auto. discriminate.
Qed.

Definition written_pair (p : string * string) : string := query_escape (fst p) ++ "=" ++ query_escape (snd p).
Lemma written_without c p : special c = true -> Ascii.eqb "=" c = false ->
  all_chars (fun x => negb (Ascii.eqb x c)) (written_pair p) = true.
Proof.
  intros H1 H2. unfold written_pair. rewrite all_app, escape_without by auto.
  change ("=" ++ query_escape (snd p)) with (String "=" (query_escape (snd p))). cbn [all_chars]. rewrite H2, escape_without by auto. reflexivity.
Qed.
Lemma parse_written l : parse_pieces (map written_pair l) = (l, true).
Proof.
  induction l as [|p l IH]; [reflexivity|]. cbn [map parse_pieces]. rewrite IH.
  rewrite mentions_none by (apply written_without; reflexivity).
  assert (Ne : is_empty (written_pair p) = false) by (unfold written_pair; destruct (query_escape (fst p)); reflexivity).
  rewrite Ne. unfold written_pair. change ("=" ++ query_escape (snd p)) with (String "=" (query_escape (snd p))).
  rewrite str_cut_at by (apply escape_without; reflexivity). rewrite !escape_back. destruct p; reflexivity.
Qed.
Lemma parse_encoded vs : parse_query (values_encode vs) = (pairs (sort_keys vs), true).
Proof.
  unfold parse_query, values_encode. fold written_pair. change (fun p : string * string => query_escape (fst p) ++ "=" ++ query_escape (snd p)) with written_pair.
  destruct (pairs (sort_keys vs)) as [|p l] eqn:Hp; [reflexivity|].
  rewrite pieces_concat; [apply parse_written|discriminate|].
  apply Forall_forall. intros s Hs. apply in_map_iff in Hs as (q & <- & _). apply written_without; reflexivity.
Qed.

(** Sorting does not change what a form gives. *)
Lemma insert_perm p l : Permutation (p :: l) (insert_key p l).
Proof.
  induction l as [|q l IH]; cbn; auto. destruct (String.leb _ _); auto.
  rewrite perm_swap. apply perm_skip. exact IH.
Qed.
Lemma sort_perm l : Permutation l (sort_keys l).
Proof. induction l as [|p l IH]; cbn; auto. rewrite <- insert_perm. apply perm_skip. exact IH. Qed.

Lemma form_pairs vs k : form_body (pairs vs) k = given_values vs k.
Proof.
  unfold form_body, pairs, given_values. induction vs as [|[x l] vs IH]; [reflexivity|]. cbn [flat_map fst snd].
  rewrite filter_app, map_app, IH. f_equal. clear. induction l as [|v l IH]; cbn; [destruct (String.eqb x k); auto|].
  cbn in IH. destruct (String.eqb x k); cbn; [rewrite IH|]; auto.
Qed.
Lemma given_none vs k : ~ In k (map fst vs) -> given_values vs k = [].
Proof.
  intros H. unfold given_values. induction vs as [|[x l] vs IH]; [reflexivity|]. cbn [flat_map fst snd].
  destruct (String.eqb_spec x k) as [->|Hx]; [exfalso; apply H; left; reflexivity|]. apply IH. intros X. apply H. right. exact X.
Qed.
Lemma given_one vs k l : NoDup (map fst vs) -> In (k, l) vs -> given_values vs k = l.
Proof.
  unfold given_values. induction vs as [|[x m] vs IH]; intros Hd Hin; [destruct Hin|]. cbn [flat_map fst snd map] in *.
  inversion Hd as [|? ? D1 D2]; subst. destruct Hin as [[= -> ->]|Hin].
  - rewrite String.eqb_refl. fold (given_values vs k). rewrite given_none by auto. apply app_nil_r.
  - destruct (String.eqb_spec x k) as [->|Hx]; [|apply IH; auto].
    exfalso. apply D1. apply in_map_iff. exists (k, l). auto.
Qed.
Lemma given_perm vs vs' k : NoDup (map fst vs) -> Permutation vs vs' -> given_values vs' k = given_values vs k.
Proof.
  intros Hd P. assert (Hd' : NoDup (map fst vs')) by (eapply Permutation_NoDup; [apply Permutation_map; exact P|exact Hd]).
  destruct (in_dec string_dec k (map fst vs)) as [Hi|Hi].
  - apply in_map_iff in Hi as ([x l] & Hx & Hin). cbn in Hx. subst x.
    rewrite (given_one vs k l), (given_one vs' k l); auto. eapply Permutation_in; eauto.
  - rewrite !given_none; auto. intros X. apply Hi. eapply Permutation_in; [apply Permutation_map; symmetry; exact P|exact X].
Qed.

(** ** C115 *)

(** Whatever is put into a form is read back from its encoding. *)
Lemma C115_form_round_trip_proof : forall vs, NoDup (map fst vs) ->
  snd (parse_query (values_encode vs)) = true /\
  forall k, form_body (fst (parse_query (values_encode vs))) k = given_values vs k.
Proof.
  intros vs Hd. rewrite parse_encoded. split; [reflexivity|]. intros k. cbn [fst]. rewrite form_pairs.
  apply given_perm; [exact Hd|apply sort_perm].
Qed.

(** So the server reads what the SDK client posts, for every assertion and token. *)
Lemma single_given params k : given_values (single params) k = form_body params k.
Proof.
  unfold given_values, single, form_body. induction params as [|[x v] l IH]; [reflexivity|]. cbn [map flat_map filter fst snd].
  rewrite IH. destruct (String.eqb x k); reflexivity.
Qed.
Lemma C115_posted_form_proof : forall tls host path params, NoDup (map fst params) ->
  let r := posted tls host path (values_encode (single params)) in
  let r' := sdk_post tls host path params in
  hq_method r = hq_method r' /\ hq_tls r = hq_tls r' /\ hq_host r = hq_host r' /\ hq_path r = hq_path r' /\ hq_basic r = hq_basic r' /\
  forall k, post_value r k = post_value r' k /\ query_get r k = query_get r' k /\ form_value r k = form_value r' k /\
    hq_header r k = hq_header r' k.
Proof.
  intros tls host path params Hd r r'. assert (B : forall k, hq_body r k = hq_body r' k).
  { intros k. cbn -[values_encode parse_query]. rewrite (proj2 (C115_form_round_trip_proof (single params) ltac:(unfold single; rewrite map_map; exact Hd))).
    apply single_given. }
  do 5 (split; [reflexivity|]). intros k. unfold post_value, query_get, form_value. rewrite B. repeat split.
Qed.

(** What the client reads from the URL that its user is sent to. *)
Lemma base_without text s : writes_base text -> all_chars (fun x => negb (Ascii.eqb x "?")) (text s) = true /\
  all_chars (fun x => negb (Ascii.eqb x "#")) (text s) = true.
Proof.
  intros H. destruct (H s) as [H1 H2]. revert H1 H2. generalize (text s). intros t H1 H2.
  assert (G : forall c t, ~ In c (list_ascii_of_string t) -> all_chars (fun x => negb (Ascii.eqb x c)) t = true).
  { clear. intros c t H. induction t as [|x t IH]; [reflexivity|]. cbn in *. rewrite IH by tauto.
    destruct (Ascii.eqb_spec x c); [exfalso; apply H; auto|reflexivity]. }
  auto.
Qed.
Lemma reads_query text base vs k : writes_base text -> NoDup (map fst vs) ->
  client_reads (text base ++ "?" ++ values_encode vs) k = given_values vs k.
Proof.
  intros Ht Hd. unfold client_reads. change ("?" ++ values_encode vs) with (String "?" (values_encode vs)).
  rewrite str_cut_at by (apply base_without; exact Ht). cbn [snd]. apply C115_form_round_trip_proof. exact Hd.
Qed.

(** The answer to an authorization request is read by the client as it was given, and nothing else. *)
Lemma C115_response_read_proof : forall S w xs i r resp text url,
  let hh := http_history S w xs in
  writes_base text -> responded hh i EAuthorize r resp -> location text resp = Some url ->
  exists uri raw, resp = HRedirectQuery uri raw /\
    client_reads url "response" = [raw] /\ (forall k, k <> "response" -> client_reads url k = []) /\
    exists query, url = (text (fst (str_cut "?" uri)) ++ "?" ++ query)%string.
Proof.
  intros S w xs i r resp text url hh Ht [Hs Hd] Hl. subst hh.
  destruct (http_started _ _ _ _ _ _ Hs) as (_ & Hr & _). specialize (Hr _ Hd).
  unfold answer_http, serve_http, basic_authentication in Hr.
  assert (X : (exists status e, resp = HError status e) \/ (exists status, resp = HText status) \/ exists uri raw, resp = HRedirectQuery uri raw).
  { destruct (hq_basic r) as [[u p]|]; [|right; left; cbn [runs] in Hr; inversion Hr; eauto].
    destruct (_ || _); [right; left; cbn [runs] in Hr; inversion Hr; eauto|].
    destruct (_ || _); [right; left; cbn [runs] in Hr; inversion Hr; eauto|].
    destruct (C66_response_mode_refuted_proof _ _ _ _ _ _ _ _ _ Hr) as [H|H]; auto. }
  destruct X as [(status & e & ->)|[(status & ->)|(uri & raw & ->)]]; try discriminate Hl.
  exists uri, raw. cbn [location] in Hl. injection Hl as <-. split; [reflexivity|].
  assert (Hd1 : NoDup (map fst [("response", [raw])])) by (cbn; constructor; [intros []|constructor]).
  split; [rewrite reads_query by auto; reflexivity|]. split; [|eauto].
  intros k Hk. rewrite reads_query by auto. unfold given_values. cbn [flat_map fst snd].
  destruct (String.eqb_spec "response" k); [congruence|reflexivity].
Qed.

(** So a client whose user followed a proper request gets its code. *)
Lemma C115_code_delivered_proof : forall S w xs i r user c sub ar o text,
  let hh := http_history S w xs in
  writes_base text ->
  hno_faults xs -> In (HvStart i EAuthorize r) hh -> In (HvDone i o) hh ->
  (* a user logs in and follows a link of a client *)
  hq_method r = "GET"%string -> user_logged_in r user -> w_clients w (query_get r "client_id") = Some c ->
  subject_for (sv_ext S) (sv_salt S) c user sub -> sub <> ""%string ->
  (* which carries a proper authorization request *)
  carries S c r ar -> ar_request_uri ar = None -> ar_client_id ar = query_get r "client_id" ->
  SpecLive.well_formed (sv_ext S) ar -> SpecLive.permitted (sv_ext S) c ar ->
  sv_issuer S <> ""%string -> web_codes_work hh i -> responses_signed S ->
  (* the user is sent to the redirect URI, with one parameter, a signed response that holds the code *)
  exists resp url query raw expires code ar' a, o = Done resp /\ location text resp = Some url /\
    url = (text (fst (str_cut "?" (ar_redirect_uri ar))) ++ "?" ++ query)%string /\ client_reads url "response" = [raw] /\
    sv_serializer S (mkJarm (sv_issuer S) (ar_client_id ar) expires code (ar_state ar) "" "") = Some raw /\
    In (HvCall i (CSessReg (sv_issuer S) code (mkSess (sv_issuer S) sub (Some ar'))) a) hh /\ normalized (sv_ext S) ar ar'.
Proof.
  intros S w xs i r user c sub ar o text hh Ht Hf Hs Hd H1 H2 H3 H4 H5 H6 H7 H8 H9 H10 H11 H12 H13. subst hh.
  destruct (C101_web_authorized_proof S w xs i r user c sub ar o Hf Hs Hd H1 H2 H3 H4 H5 H6 H7 H8 H9 H10 H11 H12 H13)
    as (resp & code & ar' & a & -> & Hb & Hc & Hn).
  assert (X : exists uri raw, resp = HRedirectQuery uri raw).
  { destruct (http_started _ _ _ _ _ _ Hs) as (_ & Hr & _). specialize (Hr _ Hd).
    unfold answer_http, serve_http, basic_authentication in Hr.
    destruct (hq_basic r) as [[u p]|]; [|cbn [runs] in Hr; inversion Hr; subst; destruct Hb].
    destruct (_ || _); [cbn [runs] in Hr; inversion Hr; subst; destruct Hb|].
    destruct (_ || _); [cbn [runs] in Hr; inversion Hr; subst; destruct Hb|].
    destruct (C66_response_mode_refuted_proof _ _ _ _ _ _ _ _ _ Hr) as [(st & e & ->)|X]; [destruct Hb|exact X]. }
  destruct X as (uri & raw & ->). destruct Hb as [-> (expires & Hraw)].
  destruct (C115_response_read_proof S w xs i r (HRedirectQuery (ar_redirect_uri ar) raw) text
    (text (fst (str_cut "?" (ar_redirect_uri ar))) ++ "?" ++ values_encode [("response", [raw])])%string Ht (conj Hs Hd) eq_refl)
    as (uri' & raw' & [= <- <-] & B & _ & query & Q).
  exists (HRedirectQuery (ar_redirect_uri ar) raw). eexists. exists query, raw, expires, code, ar', a.
  split; [reflexivity|]. split; [reflexivity|]. split; [exact Q|]. split; [exact B|]. split; [exact Hraw|]. split; [exact Hc|exact Hn].
Qed.

(** With a JWT the fragment mode works too, and it keeps the query. *)
Lemma plain_escape s : jwt_characters s -> query_escape s = s.
Proof.
  unfold jwt_characters. induction s as [|c s IH]; intros H; [reflexivity|]. cbn [query_escape].
  assert (U : unreserved c = true) by (apply H; left; reflexivity). pose proof (unreserved_plain c U) as P.
  destruct P as (_ & _ & _ & _ & _ & _ & _ & P). rewrite P, U, IH; auto. intros x Hx. apply H. right. exact Hx.
Qed.
Lemma plain_fragment s : all_chars fragment_keeps s = true -> fragment_escape s = s.
Proof. induction s as [|c s IH]; [reflexivity|]. cbn. rewrite andb_true_iff. intros [A B]. rewrite A, IH by auto. reflexivity. Qed.

Lemma jwt_all s : jwt_characters s -> all_chars unreserved s = true.
Proof.
  unfold jwt_characters. induction s as [|c s IH]; intros H; [reflexivity|]. cbn. rewrite (H c) by (left; reflexivity).
  apply IH. intros x Hx. apply H. right. exact Hx.
Qed.
Lemma some_inj {A} (a b : A) : Some a = Some b -> b = a.
Proof. congruence. Qed.
Lemma C115_fragment_proof : forall text uri raw url, writes_base text -> jwt_characters raw ->
  ~ In "#"%char (list_ascii_of_string (snd (str_cut "?" uri))) ->
  location text (HRedirectFragment uri raw) = Some url ->
  client_reads_fragment url "response" = [raw] /\ forall k, k <> "response" -> client_reads_fragment url k = [].
Proof.
  intros text uri raw url Ht Hj Hu Hl. apply some_inj in Hl. subst url.
  assert (N : forall t, ~ In "#"%char (list_ascii_of_string t) -> all_chars (fun x => negb (Ascii.eqb x "#")) t = true).
  { clear. intros t H. induction t as [|x t IH]; [reflexivity|]. cbn in *. rewrite IH by tauto.
    destruct (Ascii.eqb_spec x "#"); [exfalso; apply H; auto|reflexivity]. }
  assert (E : values_encode [("response", [raw])] = ("response=" ++ raw)%string).
  { cbn -[query_escape]. rewrite (plain_escape raw) by exact Hj. reflexivity. }
  assert (F : fragment_escape (values_encode [("response", [raw])]) = values_encode [("response", [raw])]).
  { apply plain_fragment. rewrite E, all_app, andb_true_iff. split; [reflexivity|].
    apply all_impl with (P := unreserved); [|apply jwt_all; exact Hj]. intros c Hc. unfold fragment_keeps. rewrite Hc. reflexivity. }
  unfold client_reads_fragment. rewrite F. set (q := snd (str_cut "?" uri)) in *.
  assert (B : forall rest, str_cut "#" (text (fst (str_cut "?" uri)) ++ (if is_empty q then "" else "?" ++ q) ++ "#" ++ rest)
    = (text (fst (str_cut "?" uri)) ++ (if is_empty q then "" else "?" ++ q), rest)%string).
  { intros rest. rewrite <- sapp_assoc. apply str_cut_at. rewrite all_app, (proj2 (base_without text _ Ht)).
    destruct (is_empty q); [reflexivity|]. rewrite all_app. rewrite (N _ Hu). reflexivity. }
  rewrite B. cbn [snd].
  assert (Hd1 : NoDup (map fst [("response", [raw])])) by (cbn; constructor; [intros []|constructor]).
  pose proof (proj2 (C115_form_round_trip_proof _ Hd1)) as R. split; [apply R|].
  intros k Hk. rewrite R. unfold given_values. cbn [flat_map fst snd].
  destruct (String.eqb_spec "response" k); [congruence|reflexivity].
Qed.

(** A client that registered a redirect URI with a query. *)
Definition tenant_uri : string := "https://app.example/cb?tenant=7".
Definition tenant_req : authreq :=
  mkAuthReq "openid" "code" "app" tenant_uri state (Some "jwt") "nonce-nonce" None None None challenge "S256" "https://api.example" "".
Definition tenant_server : http_server :=
  mkServer web_ext iss (fun s => if String.eqb s "req-app" then Some tenant_req else None) (fun _ => Some "jarm"%string) web_salt.
Definition tenant_app : client :=
  mkClient "app" CtConfidential [tenant_uri] ["code"; "token"] modes all_grants "App" "app-jwks" "pairwise" "app.example" true.
Definition tenant_world : world := init_world (1000 * second) (upd empty "app" (Some tenant_app)).
Definition tenant_steps : list hsched := hfull 0 EAuthorize (authorize_r "app" "req-app") (os_authorize "code-1").

(** RFC 6749 3.1.2: the query of the redirect URI must be retained.  It is not. *)
Lemma C115_query_lost_refuted_proof : exists S w xs i r uri raw k v,
  let hh := http_history S w xs in
  registry_ok w /\ hno_faults xs /\ responded hh i EAuthorize r (HRedirectQuery uri raw) /\
  (exists c, w_clients w (query_get r "client_id") = Some c /\ In uri (cl_redirect_uris c)) /\
  client_reads uri k = [v] /\
  forall text url, writes_base text -> location text (HRedirectQuery uri raw) = Some url -> client_reads url k = [].
Proof.
  exists tenant_server, tenant_world, tenant_steps, 0%nat, (authorize_r "app" "req-app"), tenant_uri, "jarm", "tenant", "7".
  cbv zeta. split.
  { intros id c. cbn. unfold upd, empty. destruct (String.eqb_spec id "app") as [->|]; intros H; inversion H; reflexivity. }
  split; [repeat constructor|].
  assert (R : responded (http_history tenant_server tenant_world tenant_steps) 0 EAuthorize (authorize_r "app" "req-app")
    (HRedirectQuery tenant_uri "jarm")).
  { split; [left; reflexivity|]. apply nth_error_In with (n := 6%nat). vm_compute. reflexivity. }
  split; [exact R|]. split; [exists tenant_app; split; [reflexivity|left; reflexivity]|]. split; [vm_compute; reflexivity|].
  intros text url Ht Hl. destruct (C115_response_read_proof _ _ _ _ _ _ text url Ht R Hl) as (_ & _ & _ & _ & B & _).
  apply B. discriminate.
Qed.
