(** * Proofs: every request of a history runs the program of its endpoint *)

From Verif Require Export PfHttp4.
From Coq Require Import Lia.

(** Request [i], which runs the program of [e] and [r], has come to [q]; [over]: it has answered. *)
Definition followed (S : http_server) (h : list hevent) (i : nat) (t : option (prog http_response)) : Prop :=
  exists e r q, (forall e' r', In (HvStart i e' r') h <-> e' = e /\ r' = r) /\
    reach (answer_http S e r) (hcalls i h) q /\
    match t with
    | Some p => q = p /\ (forall o, ~ In (HvDone i o) h)
    | None => forall o, In (HvDone i o) h -> match o with Done x => q = Ret x | Crashed => q = Panic end
    end.
Definition all_followed (S : http_server) (w : world) (h : list hevent) (s : hsys) : Prop :=
  (forall i t, nth_error (hs_threads s) i = Some t -> followed S h i t) /\
  (forall i, (List.length (hs_threads s) <= i)%nat ->
     hcalls i h = [] /\ (forall e r, ~ In (HvStart i e r) h) /\ (forall o, ~ In (HvDone i o) h)) /\
  w_clients (hs_world s) = w_clients w /\
  (forall i id c, In (HvCall i (CClientGet id) (AClient (SOk c))) h -> w_clients w id = Some c).

Lemma in_snoc {A} (h : list A) e x : In x (h ++ [e])%list <-> In x h \/ x = e.
Proof. rewrite in_app_iff. cbn. intuition. Qed.

Definition about (i : nat) (e : hevent) : Prop :=
  match e with HvStart j _ _ | HvCall j _ _ | HvDone j _ => j = i | HvTick _ => False end.
Lemma followed_other S h i t e : followed S h i t -> ~ about i e -> followed S (h ++ [e]) i t.
Proof.
  intros (ep & r & q & H1 & H2 & H3) Hn. exists ep, r, q. split; [|split].
  - intros e' r'. rewrite in_snoc, H1. split; [intros [X|X]; auto; subst e; exfalso; apply Hn; reflexivity|auto].
  - rewrite hcalls_app. cbn. destruct e; try (rewrite app_nil_r; exact H2).
    destruct (Nat.eqb_spec i0 i); [exfalso; apply Hn; cbn; auto|rewrite app_nil_r; exact H2].
  - destruct t; [destruct H3 as [H3 H4]; split; auto|]; intros o Ho; rewrite in_snoc in Ho; destruct Ho as [Ho|Ho];
      solve [eapply H4; eauto|apply H3; auto|subst e; exfalso; apply Hn; reflexivity].
Qed.
Lemma started_other S w h s e : all_followed S w h s -> forall i, (List.length (hs_threads s) <= i)%nat -> ~ about i e ->
  hcalls i (h ++ [e]) = [] /\ (forall ep r, ~ In (HvStart i ep r) (h ++ [e])%list) /\ (forall o, ~ In (HvDone i o) (h ++ [e])%list).
Proof.
  intros (_ & H2 & _) i Hi Hn. destruct (H2 i Hi) as (A & B & C). split; [|split].
  - rewrite hcalls_app, A. cbn. destruct e; auto. destruct (Nat.eqb_spec i0 i); auto. exfalso; apply Hn; cbn; auto.
  - intros ep r X. rewrite in_snoc in X. destruct X as [X|X]; [eapply B; eauto|subst e; apply Hn; reflexivity].
  - intros o X. rewrite in_snoc in X. destruct X as [X|X]; [eapply C; eauto|subst e; apply Hn; reflexivity].
Qed.

Lemma followed_step S w h s x e s' : all_followed S w h s -> hstep S s x = Some (e, s') -> all_followed S w (h ++ [e]) s'.
Proof.
  intros K Hx. pose proof K as (H1 & H2 & H3 & H4). destruct x as [ep r|j o|d]; cbn in Hx.
  - injection Hx as <- <-. unfold all_followed; cbn [hs_threads hs_world]. split; [|split; [|split; [exact H3|]]].
    + intros i t Hi. destruct (Nat.eq_dec i (List.length (hs_threads s))) as [->|Hn].
      * rewrite nth_error_app2, Nat.sub_diag in Hi by lia. injection Hi as <-.
        destruct (H2 _ (le_n _)) as (A & B & C). exists ep, r, (answer_http S ep r). split; [|split; [|split; [reflexivity|]]].
        -- intros e' r'. rewrite in_snoc. split; [intros [X|[= -> ->]]; [exfalso; eapply B; eauto|auto]|intros [-> ->]; auto].
        -- rewrite hcalls_app, A. constructor.
        -- intros o X. rewrite in_snoc in X. destruct X as [X|X]; [eapply C; eauto|discriminate].
      * assert (Hl : (i < List.length (hs_threads s))%nat).
        { assert (X : nth_error (hs_threads s ++ [Some (answer_http S ep r)])%list i <> None) by congruence.
          apply nth_error_Some in X. rewrite app_length in X; cbn in X; lia. }
        rewrite nth_error_app1 in Hi by lia. apply followed_other; [apply H1; exact Hi|]. cbn. auto.
    + intros i Hi. rewrite app_length in Hi; cbn in Hi. apply (started_other _ _ _ _ _ K); [lia|]. cbn. lia.
    + intros i id c Hin. rewrite in_snoc in Hin. destruct Hin as [Hin|Hin]; [eauto|discriminate].
  - destruct (nth_error (hs_threads s) j) as [[p|]|] eqn:Hj; try discriminate. destruct p as [a| | |c k]; try discriminate.
    + injection Hx as <- <-. unfold all_followed; cbn [hs_threads hs_world]. split; [|split; [|split; [exact H3|]]].
      * intros i t Hi. destruct (Nat.eq_dec j i) as [->|Hn].
        { rewrite (nth_set_nth_eq _ _ _ _ Hj) in Hi. injection Hi as <-.
          destruct (H1 _ _ Hj) as (e & r & q & A & B & -> & C). exists e, r, (Ret a). split; [|split].
          - intros e' r'. rewrite in_snoc, A. split; [intros [X|X]; [auto|discriminate]|auto].
          - rewrite hcalls_app, app_nil_r. exact B.
          - intros o' X. rewrite in_snoc in X. destruct X as [X|[= ->]]; [exfalso; eapply C; eauto|reflexivity]. }
        rewrite nth_set_nth_neq in Hi by auto. apply followed_other; auto.
      * intros i Hi. rewrite set_nth_length in Hi. apply (started_other _ _ _ _ _ K); [lia|]. cbn. intros ->.
        apply nth_error_None in Hi. congruence.
      * intros i id c Hin. rewrite in_snoc in Hin. destruct Hin as [Hin|Hin]; [eauto|discriminate].
    + injection Hx as <- <-. unfold all_followed; cbn [hs_threads hs_world]. split; [|split; [|split; [exact H3|]]].
      * intros i t Hi. destruct (Nat.eq_dec j i) as [->|Hn].
        { rewrite (nth_set_nth_eq _ _ _ _ Hj) in Hi. injection Hi as <-.
          destruct (H1 _ _ Hj) as (e & r & q & A & B & -> & C). exists e, r, Panic. split; [|split].
          - intros e' r'. rewrite in_snoc, A. split; [intros [X|X]; [auto|discriminate]|auto].
          - rewrite hcalls_app, app_nil_r. exact B.
          - intros o' X. rewrite in_snoc in X. destruct X as [X|[= ->]]; [exfalso; eapply C; eauto|reflexivity]. }
        rewrite nth_set_nth_neq in Hi by auto. apply followed_other; auto.
      * intros i Hi. rewrite set_nth_length in Hi. apply (started_other _ _ _ _ _ K); [lia|]. cbn. intros ->.
        apply nth_error_None in Hi. congruence.
      * intros i id c Hin. rewrite in_snoc in Hin. destruct Hin as [Hin|Hin]; [eauto|discriminate].
    + destruct (exec (sv_ext S) (hs_world s) o c) as [a w'] eqn:He. injection Hx as <- <-.
      destruct (exec_const _ _ _ _ _ _ He) as (_ & Hc & _ & _).
      unfold all_followed; cbn [hs_threads hs_world]. split; [|split; [|split; [congruence|]]].
      * intros i t Hi. destruct (Nat.eq_dec j i) as [->|Hn].
        { rewrite (nth_set_nth_eq _ _ _ _ Hj) in Hi. injection Hi as <-.
          destruct (H1 _ _ Hj) as (e & r & q & A & B & -> & C). exists e, r, (k a). split; [|split; [|split; [reflexivity|]]].
          - intros e' r'. rewrite in_snoc, A. split; [intros [X|X]; [auto|discriminate]|auto].
          - rewrite hcalls_app. cbn. rewrite Nat.eqb_refl. eapply reach_app; [exact B|]. constructor. constructor.
          - intros o' X. rewrite in_snoc in X. destruct X as [X|X]; [eapply C; eauto|discriminate]. }
        rewrite nth_set_nth_neq in Hi by auto. apply followed_other; auto.
      * intros i Hi. rewrite set_nth_length in Hi. apply (started_other _ _ _ _ _ K); [lia|]. cbn. intros ->.
        apply nth_error_None in Hi. congruence.
      * intros i id c0 Hin. rewrite in_snoc in Hin. destruct Hin as [Hin|[= -> <- <-]]; [eauto|].
        cbn in He. injection He as He _. rewrite <- H3. revert He. unfold answer_read.
        destruct (o_fault o); try discriminate. destruct (w_clients (hs_world s) id); congruence.
  - injection Hx as <- <-. unfold all_followed; cbn [hs_threads hs_world]. split; [|split; [|split; [exact H3|]]].
    + intros i t Hi. apply followed_other; auto.
    + intros i Hi. apply (started_other _ _ _ _ _ K); auto.
    + intros i id c0 Hin. rewrite in_snoc in Hin. destruct Hin as [Hin|Hin]; [eauto|discriminate].
Qed.

Lemma http_followed S w xs : exists s, all_followed S w (http_history S w xs) s.
Proof.
  exists (snd (hrun S (mkHsys w []) xs)). change (http_history S w xs) with ([] ++ http_history S w xs)%list.
  apply (hrun_inv S (all_followed S w)); [intros; eapply followed_step; eauto|].
  split; [intros [|?] ? X; discriminate|]. split; [|split; [reflexivity|intros ? ? ? []]].
  intros i _. repeat split; intros; intros [].
Qed.

Lemma http_started S w xs i e r : In (HvStart i e r) (http_history S w xs) ->
  (exists q, reach (answer_http S e r) (hcalls i (http_history S w xs)) q) /\
  (forall o, In (HvDone i o) (http_history S w xs) -> runs (answer_http S e r) (hcalls i (http_history S w xs)) o) /\
  (forall e' r', In (HvStart i e' r') (http_history S w xs) -> e' = e /\ r' = r).
Proof.
  intros Hin. destruct (http_followed S w xs) as (s & H1 & H2 & _).
  destruct (nth_error (hs_threads s) i) as [t|] eqn:Hi.
  - destruct (H1 _ _ Hi) as (e0 & r0 & q & A & B & C). destruct (proj1 (A e r) Hin) as [-> ->].
    split; [eauto|]. split; [|intros e' r' X; apply A in X; exact X].
    intros o Ho. destruct t; [destruct C as [_ C]; exfalso; eapply C; eauto|].
    specialize (C _ Ho). destruct o; subst q; exact B.
  - apply nth_error_None in Hi. exfalso. destruct (H2 _ Hi) as (_ & X & _). eapply X; eauto.
Qed.
Lemma http_has_start S w xs i e : In e (http_history S w xs) -> about i e -> exists ep r, In (HvStart i ep r) (http_history S w xs).
Proof.
  intros Hin Ha. destruct (http_followed S w xs) as (s & H1 & H2 & _).
  destruct (nth_error (hs_threads s) i) as [t|] eqn:Hi.
  - destruct (H1 _ _ Hi) as (e0 & r0 & q & A & B & C). exists e0, r0. apply A. auto.
  - apply nth_error_None in Hi. exfalso. destruct (H2 _ Hi) as (Hc & X & Y). destruct e as [j ep r|j c a|j o|d]; cbn in Ha; subst.
    + eapply X; eauto. + apply in_hcalls in Hin. rewrite Hc in Hin. destruct Hin. + eapply Y; eauto. + destruct Ha.
Qed.
Lemma http_client S w xs i id c : In (HvCall i (CClientGet id) (AClient (SOk c))) (http_history S w xs) -> w_clients w id = Some c.
Proof. destruct (http_followed S w xs) as (s & _ & _ & _ & H). apply H. Qed.

(** ** Codes and pushed requests *)

Lemma never_wp {A} E rq c (p : prog A) Pr : wp (may_write E rq) Pr [] p ->
  (forall u, ~ may_write E rq u c) -> never c p.
Proof. intros Hw Hn tr q a Hr Hin. destruct (wp_in _ _ _ _ _ _ _ Hw Hr Hin) as (u & v & _ & H). exact (Hn _ H). Qed.
Ltac never_svc := eapply never_wp; [first
  [apply token_wp|apply introspect_wp|apply revoke_wp|apply dpop_wp|apply register_wp|apply authorize_wp|apply dev_authorize_wp
  |match goal with S : http_server |- _ => apply (dev_validate_wp (sv_ext S)) end]
  |intros ? X; cbn in X; repeat match goal with X : ex _ |- _ => destruct X | X : _ /\ _ |- _ => destruct X end; discriminate].

Lemma authentication_then E next r tr q c a :
  reach (client_authentication E next r) tr q -> In (c, a) tr -> c <> CNow -> (forall id, c <> CClientGet id) ->
  exists oc tr1 tr2, tr = (tr1 ++ tr2)%list /\ reach (next oc) tr2 q /\ In (c, a) tr2.
Proof.
  intros H Hin H1 H2. destruct (authentication_call _ _ _ _ _ _ _ H Hin H1 H2) as (oc & t1 & t2 & A & B & C & _). eauto 8.
Qed.

Lemma serve_http_session S e r tr q i code s a :
  reach (answer_http S e r) tr q -> In (CSessReg i code s, a) tr ->
  e = EAuthorize /\ exists user password, hq_basic r = Some (user, password) /\
    reach (authorization_handler (sv_ext S) (sv_issuer S) (sv_decoder S) (sv_serializer S) (sv_salt S) r user) tr q.
Proof.
  unfold answer_http, serve_http. intros H Hin.
  destruct e;
    try (destruct (authentication_then _ _ _ _ _ _ _ H Hin) as (oc & t1 & t2 & -> & H2 & Hi); [discriminate|discriminate|]).
  - exfalso. refine ((_ : never (CSessReg i code s) _) _ _ _ H2 Hi). unfold token_handler, token_answer. never_tac; never_svc.
  - exfalso. refine ((_ : never (CSessReg i code s) _) _ _ _ H2 Hi). unfold introspection_handler. never_tac; never_svc.
  - exfalso. refine ((_ : never (CSessReg i code s) _) _ _ _ H2 Hi). unfold revocation_handler. never_tac; never_svc.
  - exfalso. refine ((_ : never (CSessReg i code s) _) _ _ _ H2 Hi). unfold par_handler. never_tac; never_svc.
  - split; [reflexivity|]. unfold basic_authentication in H.
    destruct (hq_basic r) as [[u p]|]; [|inversion H; subst; destruct Hin].
    destruct (Nat.ltb _ _ || Nat.ltb _ _); [inversion H; subst; destruct Hin|].
    destruct (negb _ || negb _); [inversion H; subst; destruct Hin|]. eauto.
  - exfalso. refine ((_ : never (CSessReg i code s) _) _ _ _ H2 Hi). unfold device_authorization_handler. never_tac; never_svc.
  - exfalso. refine ((_ : never (CSessReg i code s) _) _ _ _ H Hin).
    unfold basic_authentication, device_handler. never_tac; never_svc.
Qed.

(** A client whose own signed request was used knows the user by the subject meant for it. *)
Lemma C68_pairwise_partial_proof : forall S w xs i e r iss code s a granted c,
  let h := http_history S w xs in
  In (HvStart i e r) h -> In (HvCall i (CSessReg iss code s) a) h -> as_request s = Some granted ->
  ar_client_id granted = query_get r "client_id" -> w_clients w (ar_client_id granted) = Some c ->
  exists user password, hq_basic r = Some (user, password) /\
    subject_for (sv_ext S) (sv_salt S) c user (as_subject s).
Proof.
  intros S w xs i e r iss code s a granted c h Hs Hc Hg Hid Hcl.
  destruct (http_started _ _ _ _ _ _ Hs) as ((q & Hr) & _).
  assert (Hin : In (CSessReg iss code s, a) (hcalls i h)) by (apply in_hcalls; exact Hc).
  destruct (serve_http_session _ _ _ _ _ _ _ _ _ Hr Hin) as (-> & user & password & Hb & Hr').
  destruct (C64_signed_requests_partial_proof _ _ _ _ _ _ _ _ _ _ _ _ _ Hr' Hin) as (c' & asked & sub & g & Hget & _ & _ & _ & -> & Hsub & _).
  apply in_hcalls, http_client in Hget. rewrite <- Hid, Hcl in Hget. injection Hget as <-.
  exists user, password. auto.
Qed.
