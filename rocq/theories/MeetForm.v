(** * Concrete cases for C115 and C116 *)

From Verif Require Export MeetWebLive PfForm PfHeaders.
Local Open Scope string_scope.

(** What the redirect URI may be written as. *)
Definition keeps (s : string) : string :=
  if all_chars (fun c => negb (Ascii.eqb c "?") && negb (Ascii.eqb c "#")) s then s else "".
Lemma keeps_base : writes_base keeps.
Proof.
  intros s. unfold keeps. destruct (all_chars _ s) eqn:A; [|split; intros []].
  revert A. induction s as [|c s IH]; [split; intros []|]. cbn. rewrite andb_true_iff, andb_true_iff. intros ((A & B) & C).
  destruct (IH C) as [IH1 IH2]. split; intros [->|H]; auto; discriminate.
Qed.

(** Responses with their headers. *)
Definition described (code : string) : string := "An error.".
Lemma tenant_answer : responded (http_history tenant_server tenant_world tenant_steps) 0 EAuthorize (authorize_r "app" "req-app")
  (HRedirectQuery tenant_uri "jarm").
Proof. split; [left; reflexivity|]. apply nth_error_In with (n := 6%nat). vm_compute. reflexivity. Qed.
Lemma with_headers S w xs i e r resp : responded (http_history S w xs) i e r resp ->
  exists hd, delivered S described keeps (http_history S w xs) i e r hd resp.
Proof. intros H. destruct (C116_every_response_proof S w xs described keeps i e r resp H) as (hd & D & _). eauto. Qed.
(** A user with the wrong password. *)
Definition wrong_r : http_request := get_as ("hello", "guess") "/authorize" [("client_id", "app"); ("request", "req-app")].
Definition x_wrong : list hsched := hfull 0 EAuthorize wrong_r [].
Lemma wrong_answer : responded (http_history web_server (web_world true) x_wrong) 0 EAuthorize wrong_r (HText 401).
Proof. split; [left; reflexivity|]. apply nth_error_In with (n := 1%nat). vm_compute. reflexivity. Qed.
Lemma code_answer : exists at_ n ty rt sc,
  responded (http_history web_server (web_world true) x_http_code) 1 EToken (redeem_r dpop1) (HToken at_ n ty rt sc).
Proof.
  do 5 eexists. split; [apply nth_error_In with (n := 7%nat); vm_compute; reflexivity|].
  first [eapply nth_error_In with (n := 26%nat); vm_compute; reflexivity | eapply nth_error_In with (n := 27%nat); vm_compute; reflexivity].
Qed.
