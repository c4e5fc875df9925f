(** * Response headers: proofs *)

From Verif Require Export SpecHeaders PfForm.
From Verif Require Import DemoHttp.
Local Open Scope string_scope.

(** A program that differs from another in what it says of its result. *)
Inductive same {A B} (f : A -> B) : prog A -> prog B -> Prop :=
| same_ret a : same f (Ret a) (Ret (f a))
| same_panic : same f Panic Panic
| same_stuck : same f Stuck Stuck
| same_do c k k' : (forall x, same f (k x) (k' x)) -> same f (Do c k) (Do c k').
Lemma same_runs {A B} (f : A -> B) p q : same f p q -> forall tr,
  (forall b, runs q tr (Done b) -> exists a, runs p tr (Done a) /\ b = f a) /\ (forall a, runs p tr (Done a) -> runs q tr (Done (f a))) /\
  (runs q tr Crashed <-> runs p tr Crashed).
Proof.
  cbn [runs]. induction 1 as [a| | |c k k' _ IH]; intros tr; (split; [|split; [|split]]).
  - intros b H. apply reach_ret_inv in H as [-> [= ->]]. exists a. split; [constructor|reflexivity].
  - intros b H. apply reach_ret_inv in H as [-> [= ->]]. constructor.
  - intros H. apply reach_ret_inv in H as [_ H]. discriminate.
  - intros H. apply reach_ret_inv in H as [_ H]. discriminate.
  - intros b H. apply reach_panic_inv in H as [_ H]. discriminate.
  - intros b H. apply reach_panic_inv in H as [_ H]. discriminate.
  - intros H. apply reach_panic_inv in H as [-> _]. constructor.
  - intros H. apply reach_panic_inv in H as [-> _]. constructor.
  - intros b H. apply reach_stuck_inv in H as [_ H]. discriminate.
  - intros b H. apply reach_stuck_inv in H as [_ H]. discriminate.
  - intros H. apply reach_stuck_inv in H as [_ H]. discriminate.
  - intros H. apply reach_stuck_inv in H as [_ H]. discriminate.
  - intros b H. inversion H; subst. match goal with X : reach (k' _) _ _ |- _ => destruct (proj1 (IH _ _) _ X) as (a' & H' & ->) end. exists a'. split; [constructor; exact H'|reflexivity].
  - intros a H. inversion H; subst. constructor. apply IH. assumption.
  - intros H. inversion H; subst. constructor. apply IH. assumption.
  - intros H. inversion H; subst. constructor. apply IH. assumption.
Qed.
Lemma same_bind {A B C} (f : B -> C) (p : prog A) g h : (forall a, same f (g a) (h a)) -> same f (bind p g) (bind p h).
Proof. intros H. induction p as [a| | |c k IH]; cbn; [apply H|constructor|constructor|]. constructor. exact IH. Qed.
Lemma same_finish desc text hd (p : prog http_response) : same snd (bind p (finish desc text hd)) p.
Proof. induction p as [a| | |c k IH]; cbn; [exact (same_ret snd (_, a))|constructor|constructor|]. constructor. exact IH. Qed.

Section Sent.
Context (S : http_server) (desc text : string -> string).

Lemma same_client h next cx hd r : (forall c, same snd (h (mkContext (cx_subject cx) c) hd r) (next c)) ->
  same snd (client_auth S desc text h cx hd r) (client_authentication (sv_ext S) next r).
Proof.
  intros H. unfold client_auth, client_authentication. cbv zeta.
  assert (R : forall st code, same snd (finish desc text hd (HError st (err code))) (with_error st (Some (err code))))
    by (intros; exact (same_ret snd (_, _))).
  destruct (negb (is_empty _)).
  { unfold client_get. constructor. intros x. destruct x; try constructor. destruct r0; auto; try constructor.
    destruct (cl_type a); auto. }
  assert (G : forall p, same snd (bind p (fun res : auth_response =>
      if aa_err res then finish desc text hd (HError 401 (err invalid_client)) else h (mkContext (cx_subject cx) (aa_client res)) hd r))
    (bind p (fun res => if aa_err res then with_error 401 (Some (err invalid_client)) else next (aa_client res)))).
  { intros p. apply same_bind. intros a. destruct (aa_err a); auto. }
  destruct (String.eqb _ assertion_bearer); [apply G|]. destruct (String.eqb _ assertion_attestation); [apply G|apply R].
Qed.
Lemma same_basic h next cx hd r : (forall u, same snd (h (mkContext (Some u) (cx_client cx)) hd r) (next u)) ->
  same snd (basic_auth h cx hd r) (basic_authentication next r).
Proof.
  intros H. unfold basic_auth, basic_authentication. cbv zeta.
  destruct (hq_basic r) as [[u p]|]; [|exact (same_ret snd (_, _))].
  destruct (_ || _); [exact (same_ret snd (_, _))|]. destruct (_ || _); [exact (same_ret snd (_, _))|]. apply H.
Qed.
Lemma same_sent e r : same snd (sent S desc text e r) (answer_http S e r).
Proof.
  unfold sent, routed, answer_http, serve_http, adapt. cbn [fold_left].
  destruct e; try (apply same_client; intros c; apply same_finish); apply same_basic; intros u; apply same_finish.
Qed.

(** What is written. *)
Lemma reach_finish hd (p : prog http_response) tr hd' resp : reach (bind p (finish desc text hd)) tr (Ret (hd', resp)) ->
  hd' = written desc text hd resp /\ reach p tr (Ret resp).
Proof.
  intros H. apply reach_bind_ret in H as (x & t1 & t2 & -> & H1 & H2). apply reach_ret_inv in H2 as [-> [= -> ->]].
  rewrite app_nil_r. auto.
Qed.
Lemma client_written p r tr hd resp :
  reach (client_auth S desc text (handle desc text p) background [] r) tr (Ret (hd, resp)) -> hd = written desc text [] resp.
Proof.
  unfold client_auth. cbv zeta. intros H.
  assert (F : forall t x, reach (finish desc text [] x) t (Ret (hd, resp)) -> hd = written desc text [] resp).
  { intros t x X. apply reach_ret_inv in X as [_ [= -> ->]]. reflexivity. }
  assert (P : forall t c, reach (handle desc text p (mkContext (cx_subject background) c) [] r) t (Ret (hd, resp)) -> hd = written desc text [] resp).
  { intros t c X. apply reach_finish in X as [-> _]. reflexivity. }
  destruct (negb (is_empty _)).
  { unfold client_get in H. apply reach_do_inv in H as [[_ H]|(x & t & -> & H)]; [discriminate|].
    destruct x; try (apply reach_stuck_inv in H as [_ H]; discriminate).
    destruct r0; eauto. - destruct (cl_type a); eauto. - apply reach_panic_inv in H as [_ H]. discriminate. }
  destruct (String.eqb _ assertion_bearer); [|destruct (String.eqb _ assertion_attestation); [|eauto]];
  apply reach_bind_ret in H as (x & t1 & t2 & -> & H1 & H2); destruct (aa_err x); eauto.
Qed.
Definition secured : headers := fold_left (fun hd p => header_set hd (fst p) (snd p)) security_headers [].
Lemma basic_written p r tr hd resp :
  reach (basic_auth (set_security_headers (handle desc text p)) background [] r) tr (Ret (hd, resp)) ->
  (hd = [("WWW-Authenticate", "Basic realm=Restricted")] /\ resp = HText 401 /\ forall user, ~ user_logged_in r user) \/
  exists user, user_logged_in r user /\ hd = written desc text secured resp /\ reach (p (mkContext (Some user) None) r) tr (Ret resp).
Proof.
  unfold basic_auth. cbv zeta. intros H. destruct (hq_basic r) as [[u q]|] eqn:Hb.
  - destruct (negb (String.eqb u "hello") || negb (String.eqb q "world")) eqn:N.
    + left. assert (X : reach (Ret (header_set [] "WWW-Authenticate" "Basic realm=Restricted", HText 401)) tr (Ret (hd, resp)))
        by (destruct (Nat.ltb _ 1 || _) in H; exact H).
      apply reach_ret_inv in X as [_ [= -> ->]]. split; [reflexivity|]. split; [reflexivity|]. intros user [L1 L2]. rewrite Hb in L1.
      injection L1 as -> ->. subst user. cbn in N. discriminate.
    + right. rewrite orb_false_iff, !negb_false_iff, !String.eqb_eq in N. destruct N as [-> ->].
      exists "hello". split; [split; [exact Hb|reflexivity]|]. 
      replace (Nat.ltb (String.length (trim_space "hello")) 1 || Nat.ltb (String.length (trim_space "world")) 1) with false in H by (vm_compute; reflexivity).
      change (negb (String.eqb "hello" "hello") || negb (String.eqb "world" "world")) with false in H. cbv beta iota in H.
      unfold set_security_headers, handle in H. apply reach_finish in H as [H1 H2]. auto.
  - left. apply reach_ret_inv in H as [_ [= -> ->]]. split; [reflexivity|]. split; [reflexivity|]. intros user [L1 _]. congruence.
Qed.

Lemma sent_written e r tr hd resp : runs (sent S desc text e r) tr (Done (hd, resp)) ->
  (~ for_users e /\ hd = written desc text [] resp) \/
  (for_users e /\ hd = [("WWW-Authenticate", "Basic realm=Restricted")] /\ resp = HText 401 /\ forall user, ~ user_logged_in r user) \/
  (for_users e /\ (exists user, user_logged_in r user) /\ hd = written desc text secured resp /\
   ((exists status x, resp = HError status x) \/ (exists uri raw, resp = HRedirectQuery uri raw) \/ resp = HForm \/ resp = HEmpty)).
Proof.
  cbn [runs]. unfold sent, routed, adapt. cbn [fold_left]. intros H.
  assert (W : forall st e t, reach (with_error st e) t (Ret resp) -> exists status e, resp = HError status e).
  { intros st x t X. apply with_error_ret in X as (_ & e' & _ & ->). eauto. }
  destruct e; try (left; split; [intros [?|?]; discriminate|]; apply client_written in H; exact H); right; apply basic_written in H as
    [(-> & -> & L)|(user & L & -> & H)].
  - left. split; [left; reflexivity|]. auto.
  - right. split; [left; reflexivity|]. split; [eauto|]. split; [reflexivity|].
    destruct (C66_response_mode_refuted_proof _ _ _ _ _ _ _ _ _ H) as [X|X]; auto.
  - left. split; [right; reflexivity|]. auto.
  - right. split; [right; reflexivity|]. split; [eauto|]. split; [reflexivity|]. unfold device_handler in H.
    destruct (is_empty _); [left; eauto|]. destruct (String.eqb _ "GET").
    { apply reach_ret_inv in H as [_ [= ->]]. auto. }
    destruct (String.eqb _ "POST"); [|left; eauto].
    apply reach_bind_ret in H as (x & t1 & t2 & -> & _ & H). destruct (vr_err x); [left; eauto|].
    apply reach_ret_inv in H as [_ [= ->]]. auto.
Qed.
End Sent.

(** The middleware decides which handler runs as in the theorems on HTTP: every response has one header. *)
Lemma C116_every_response_proof : forall S w xs describe text i e r resp,
  let hh := http_history S w xs in
  responded hh i e r resp ->
  exists hd, delivered S describe text hh i e r hd resp /\ forall hd', delivered S describe text hh i e r hd' resp -> hd' = hd.
Proof.
  intros S w xs desc text i e r resp hh H. subst hh. pose proof H as [Hs Hd].
  destruct (http_started _ _ _ _ _ _ Hs) as (_ & Hr & _). specialize (Hr _ Hd).
  destruct (proj1 (same_runs _ _ _ (same_sent S desc text e r) _) _ Hr) as ([hd x] & Hx & X). cbn in X. subst x.
  exists hd. split; [split; assumption|]. intros hd' [_ H']. cbn [runs] in H', Hx.
  pose proof (reach_det _ _ _ _ H' Hx) as D. congruence.
Qed.

(** Whatever a user who has logged in gets can neither be framed nor sniffed nor kept by a shared cache. *)
Lemma C116_user_pages_proof : forall S w xs describe text i e r hd resp user,
  let hh := http_history S w xs in
  delivered S describe text hh i e r hd resp -> for_users e -> user_logged_in r user ->
  header_get hd "X-Frame-Options" = "DENY" /\ header_get hd "X-Content-Type-Options" = "nosniff" /\
  header_get hd "Content-Security-Policy" = "default-src 'none'" /\ header_get hd "Referrer-Policy" = "no-referrer" /\
  header_get hd "X-XSS-Protection" = "1; mode=block" /\ header_get hd "X-Robots-Tag" = "noarchive" /\
  header_get hd "Cache-Control" = "private, no-cache, must-revalidate".
Proof.
  intros S w xs desc text i e r hd resp user hh [_ H] Hu Hl. apply sent_written in H as [[H _]|[(_ & _ & _ & H)|(_ & _ & -> & H)]].
  - tauto. - exfalso. eapply H; eauto.
  - destruct H as [(st & x & ->)|[(uri & raw & ->)|[->| ->]]]; cbn; repeat split.
Qed.

(** Errors are JSON documents, and say how to authenticate; so does every response with status 401. *)
Lemma text_statuses S e r tr status : ~ for_users e -> runs (answer_http S e r) tr (Done (HText status)) -> status = 405%N \/ status = 200%N.
Proof.
  intros He H. cbn [runs] in H. unfold answer_http, serve_http in H.
  assert (W : forall st x t, ~ reach (with_error st x) t (Ret (HText status))).
  { intros st x t X. apply with_error_ret in X as (_ & e' & _ & X). discriminate. }
  assert (C : forall next, (forall c t, reach (next c) t (Ret (HText status)) -> status = 405%N \/ status = 200%N) ->
    reach (client_authentication (sv_ext S) next r) tr (Ret (HText status)) -> status = 405%N \/ status = 200%N).
  { intros next Hn X. unfold client_authentication in X. cbv zeta in X. destruct (negb (is_empty _)).
    { unfold client_get in X. apply reach_do_inv in X as [[_ X]|(x & t & -> & X)]; [discriminate|].
      destruct x; try (apply reach_stuck_inv in X as [_ X]; discriminate).
      destruct r0; try (exfalso; eapply W; eauto; fail). - destruct (cl_type a); [exfalso; eapply W; eauto ..| |]; try (exfalso; eapply W; eauto; fail); eauto.
      - apply reach_panic_inv in X as [_ X]. discriminate. }
    destruct (String.eqb _ assertion_bearer); [|destruct (String.eqb _ assertion_attestation); [|exfalso; eapply W; eauto]];
    apply reach_bind_ret in X as (x & t1 & t2 & -> & H1 & H2); destruct (aa_err x); try (exfalso; eapply W; eauto; fail); eauto. }
  destruct e; try (exfalso; apply He; unfold for_users; auto; fail); apply C in H; auto; clear H; intros c t X.
  - unfold token_handler in X. destruct (negb _); [exfalso; eapply W; eauto|]. destruct c as [c|]; [|exfalso; eapply W; eauto].
    assert (A : forall rs t, ~ reach (Http.token_answer r rs) t (Ret (HText status))).
    { intros rs t0 Y. unfold Http.token_answer in Y. destruct (tr_err rs); [eapply W; eauto|].
      destruct (tr_at rs) as [at_|]; [|apply reach_panic_inv in Y as [_ Y]; discriminate].
      unfold now in Y. apply reach_do_inv in Y as [[_ Y]|(x & t' & -> & Y)]; [discriminate|].
      destruct x; try (apply reach_stuck_inv in Y as [_ Y]; discriminate).
      destruct (t_meta at_); [apply reach_ret_inv in Y as [_ Y]|apply reach_panic_inv in Y as [_ Y]]; discriminate. }
    destruct (is_empty _).
    + destruct (cl_dpop_bound c); [exfalso; eapply W; eauto|]. apply reach_bind_ret in X as (x & t1 & t2 & -> & H1 & H2). exfalso. eapply A; eauto.
    + apply reach_bind_ret in X as (x & t1 & t2 & -> & H1 & H2). destruct x; [|exfalso; eapply W; eauto].
      apply reach_bind_ret in H2 as (x & t3 & t4 & -> & H3 & H4). exfalso. eapply A; eauto.
  - unfold introspection_handler in X. destruct c as [c|]; [|exfalso; eapply W; eauto].
    apply reach_bind_ret in X as (x & t1 & t2 & -> & H1 & H2). destruct (ir_err x); [exfalso; eapply W; eauto|].
    destruct (ir_token x) as [k|]; [|apply reach_panic_inv in H2 as [_ H2]; discriminate].
    unfold now in H2. apply reach_do_inv in H2 as [[_ Y]|(y & t' & -> & Y)]; [discriminate|].
    destruct y; try (apply reach_stuck_inv in Y as [_ Y]; discriminate).
    destruct (t_meta k); apply reach_ret_inv in Y as [_ Y]; discriminate.
  - unfold revocation_handler in X. destruct c as [c|]; [|exfalso; eapply W; eauto].
    apply reach_bind_ret in X as (x & t1 & t2 & -> & H1 & H2). destruct (rr_err x); [exfalso; eapply W; eauto|].
    apply reach_ret_inv in H2 as [_ H2]. discriminate.
  - unfold par_handler in X. destruct (negb _); [apply reach_ret_inv in X as [_ [= ->]]; auto|].
    destruct c as [c|]; [|apply reach_ret_inv in X as [_ [= ->]]; auto].
    apply reach_bind_ret in X as (x & t1 & t2 & -> & H1 & H2). destruct x; [|exfalso; eapply W; eauto].
    destruct (request_decode _ _ _ _); [|exfalso; eapply W; eauto].
    apply reach_bind_ret in H2 as (x & t3 & t4 & -> & H3 & H4). destruct (gr_err x); [exfalso; eapply W; eauto|].
    apply reach_ret_inv in H4 as [_ H4]. discriminate.
  - unfold device_authorization_handler in X. destruct (negb _); [exfalso; eapply W; eauto|].
    apply reach_bind_ret in X as (x & t1 & t2 & -> & H1 & H2). destruct (dv_err x); [exfalso; eapply W; eauto|].
    apply reach_ret_inv in H2 as [_ H2]. discriminate.
Qed.

Lemma C116_errors_proof : forall S w xs describe text i e r hd resp,
  let hh := http_history S w xs in
  delivered S describe text hh i e r hd resp ->
  (forall status x, resp = HError status x ->
     header_get hd "Content-Type" = json_type /\ header_get hd "WWW-Authenticate" = bearer_challenge describe x) /\
  (status_of resp = 401%N -> header_get hd "WWW-Authenticate" <> "").
Proof.
  intros S w xs desc text i e r hd resp hh [[Hs Hd] H]. subst hh.
  destruct (http_started _ _ _ _ _ _ Hs) as (_ & Hr & _). specialize (Hr _ Hd).
  apply sent_written in H as [[He ->]|[(_ & -> & -> & _)|(_ & _ & -> & Hk)]].
  - split; [intros st x ->; split; reflexivity|]. intros Hst. destruct resp; cbn in Hst; try discriminate. subst status.
    apply text_statuses in Hr; [destruct Hr; discriminate|exact He].
  - split; [discriminate|]. discriminate.
  - split; [intros st x ->; split; reflexivity|]. intros Hst. destruct resp; cbn in Hst; try discriminate. destruct Hk as [(? & ? & ?)|[(? & ? & ?)|[?|?]]]; discriminate.
Qed.

(** A redirect leads where the theorems on redirects say. *)
Lemma C116_location_proof : forall S w xs describe text i e r hd resp url,
  let hh := http_history S w xs in
  delivered S describe text hh i e r hd resp -> location text resp = Some url -> header_get hd "Location" = url.
Proof.
  intros S w xs desc text i e r hd resp url hh [_ H] Hl.
  apply sent_written in H as [[_ ->]|[(_ & _ & -> & _)|(_ & _ & -> & _)]]; [|discriminate|];
  destruct resp; try discriminate Hl; unfold written; rewrite Hl; reflexivity.
Qed.

(** Nothing keeps a cache from storing tokens, or what is known of a token: RFC 6749 5.1 wants Cache-Control: no-store. *)
Lemma C116_token_headers_proof : forall S w xs describe text i e r hd resp,
  let hh := http_history S w xs in
  delivered S describe text hh i e r hd resp -> carries_token resp -> hd = [("Content-Type", json_type)].
Proof.
  intros S w xs desc text i e r hd resp hh [_ H] Hc.
  apply sent_written in H as [[_ ->]|[(_ & _ & -> & _)|(_ & _ & -> & Hk)]]; [|destruct Hc|].
  - destruct resp; try destruct Hc; reflexivity.
  - exfalso. destruct Hk as [(? & ? & ->)|[(? & ? & ->)|[->| ->]]]; exact Hc.
Qed.
Lemma C116_no_store_refuted_proof : exists S w xs, forall describe text, exists i r hd at_ n ty rt sc,
  let hh := http_history S w xs in
  registry_ok w /\ hno_faults xs /\ delivered S describe text hh i EToken r hd (HToken at_ n ty rt sc) /\
  header_get hd "Cache-Control" = "" /\ header_get hd "Pragma" = "".
Proof.
  exists web_server, (web_world true), x_http_code. intros desc text. exists 1%nat, (redeem_r dpop1).
  assert (R : exists at_ n ty rt sc, responded (http_history web_server (web_world true) x_http_code) 1 EToken (redeem_r dpop1) (HToken at_ n ty rt sc)).
  { do 5 eexists. split; [apply nth_error_In with (n := 7%nat); vm_compute; reflexivity|].
    first [eapply nth_error_In with (n := 26%nat); vm_compute; reflexivity | eapply nth_error_In with (n := 27%nat); vm_compute; reflexivity]. }
  destruct R as (at_ & n & ty & rt & sc & R). pose proof (C116_every_response_proof _ _ _ desc text _ _ _ _ R) as (hd & D & _).
  exists hd, at_, n, ty, rt, sc. cbv zeta. split; [apply registry_web|]. split; [repeat constructor|]. split; [exact D|].
  apply C116_token_headers_proof in D; [|exact I]. subst hd. split; reflexivity.
Qed.

(** The page that asks for a password carries none of the security headers: the middleware that adds them runs after the login. *)
Lemma C116_login_page_refuted_proof : forall S w xs describe text i e r hd resp,
  let hh := http_history S w xs in
  delivered S describe text hh i e r hd resp -> for_users e -> (forall user, ~ user_logged_in r user) ->
  resp = HText 401 /\ hd = [("WWW-Authenticate", "Basic realm=Restricted")].
Proof.
  intros S w xs desc text i e r hd resp hh [_ H] Hu Hl.
  apply sent_written in H as [[He _]|[(_ & -> & -> & _)|(_ & (user & L) & _)]]; [tauto|auto|exfalso; eapply Hl; eauto].
Qed.
