(** * Proofs: histories of the HTTP server *)

From Verif Require Export PfHttp2.
From Coq Require Import ZArith Lia.

(** ** Histories *)

Lemma hrun_inv (S : http_server) (P : list hevent -> hsys -> Prop) :
  (forall h s x e s', P h s -> hstep S s x = Some (e, s') -> P (h ++ [e])%list s') ->
  forall xs h s, P h s -> P (h ++ fst (hrun S s xs))%list (snd (hrun S s xs)).
Proof.
  intros Hs. induction xs as [|x xs IH]; intros h s H; cbn; [rewrite app_nil_r; exact H|].
  destruct (hstep S s x) as [[e s1]|] eqn:Hx; [|apply IH; exact H].
  specialize (IH (h ++ [e])%list s1 (Hs _ _ _ _ _ H Hx)).
  destruct (hrun S s1 xs) as [h2 s2]; cbn in *. rewrite <- app_assoc in IH. exact IH.
Qed.

Lemma hcalls_app i h1 h2 : hcalls i (h1 ++ h2) = (hcalls i h1 ++ hcalls i h2)%list.
Proof.
  induction h1 as [|e h1 IH]; cbn; auto. destruct e; auto. destruct (Nat.eqb i0 i); cbn; rewrite IH; auto.
Qed.
Lemma in_hcalls i h c a : In (c, a) (hcalls i h) <-> In (HvCall i c a) h.
Proof.
  induction h as [|e h IH]; cbn; [tauto|].
  destruct e; cbn; rewrite <- ?IH; try (split; [tauto|intros [X|X]; [discriminate|auto]]).
  destruct (Nat.eqb_spec i0 i); subst; cbn; rewrite <- ?IH.
  - split; intros [X|X]; auto; left; congruence.
  - split; auto. intros [X|X]; auto. congruence.
Qed.
Lemma set_nth_length {A} (l : list A) i x : List.length (set_nth l i x) = List.length l.
Proof. revert i; induction l; destruct i; cbn; auto. Qed.

(** Every running request has come to where it is by the calls recorded for it. *)
Definition tracked (S : http_server) (h : list hevent) (s : hsys) : Prop :=
  (forall i p, nth_error (hs_threads s) i = Some (Some p) ->
     exists e r, In (HvStart i e r) h /\ reach (answer_http S e r) (hcalls i h) p) /\
  (forall i, (List.length (hs_threads s) <= i)%nat -> hcalls i h = []).

Lemma tracked_step S h s x e s' : tracked S h s -> hstep S s x = Some (e, s') -> tracked S (h ++ [e]) s'.
Proof.
  intros [H1 H2] Hx. destruct x as [ep r|j o|d]; cbn in Hx.
  - injection Hx as <- <-. unfold tracked; cbn [hs_threads hs_world]. split.
    + intros i p Hi. rewrite hcalls_app. cbn. rewrite app_nil_r.
      destruct (Nat.lt_trichotomy i (List.length (hs_threads s))) as [Hl|[->|Hl]].
      * rewrite nth_error_app1 in Hi by lia. destruct (H1 _ _ Hi) as (e & r' & Hin & Hr).
        exists e, r'. split; [apply in_or_app; auto|exact Hr].
      * rewrite nth_error_app2 in Hi by lia. rewrite Nat.sub_diag in Hi. cbn in Hi. injection Hi as <-.
        exists ep, r. split; [apply in_or_app; right; left; auto|]. rewrite H2 by lia. constructor.
      * exfalso. assert (X : nth_error (hs_threads s ++ [Some (answer_http S ep r)])%list i = None)
          by (apply nth_error_None; rewrite app_length; cbn; lia). congruence.
    + intros i Hi. rewrite app_length in Hi. cbn in Hi. rewrite hcalls_app, H2 by lia. reflexivity.
  - destruct (nth_error (hs_threads s) j) as [[p|]|] eqn:Hj; try discriminate. destruct p as [a| | |c k]; try discriminate.
    + injection Hx as <- <-. unfold tracked; cbn [hs_threads hs_world]. split.
      * intros i p Hi. destruct (Nat.eq_dec j i) as [->|Hn].
        { rewrite (nth_set_nth_eq _ _ _ _ Hj) in Hi. discriminate. }
        rewrite nth_set_nth_neq in Hi by auto. destruct (H1 _ _ Hi) as (e & r' & Hin & Hr).
        exists e, r'. rewrite hcalls_app. cbn. rewrite app_nil_r. split; [apply in_or_app; auto|exact Hr].
      * intros i Hi. rewrite set_nth_length in Hi. rewrite hcalls_app, H2 by lia. reflexivity.
    + injection Hx as <- <-. unfold tracked; cbn [hs_threads hs_world]. split.
      * intros i p Hi. destruct (Nat.eq_dec j i) as [->|Hn].
        { rewrite (nth_set_nth_eq _ _ _ _ Hj) in Hi. discriminate. }
        rewrite nth_set_nth_neq in Hi by auto. destruct (H1 _ _ Hi) as (e & r' & Hin & Hr).
        exists e, r'. rewrite hcalls_app. cbn. rewrite app_nil_r. split; [apply in_or_app; auto|exact Hr].
      * intros i Hi. rewrite set_nth_length in Hi. rewrite hcalls_app, H2 by lia. reflexivity.
    + destruct (exec (sv_ext S) (hs_world s) o c) as [a w'] eqn:He. injection Hx as <- <-. unfold tracked; cbn [hs_threads hs_world]. split.
      * intros i p Hi. rewrite hcalls_app. cbn. destruct (Nat.eqb_spec j i) as [->|Hn].
        { rewrite (nth_set_nth_eq _ _ _ _ Hj) in Hi. injection Hi as <-.
          destruct (H1 _ _ Hj) as (e & r' & Hin & Hr). exists e, r'. split; [apply in_or_app; auto|].
          eapply reach_app; [exact Hr|]. constructor. constructor. }
        rewrite nth_set_nth_neq in Hi by auto. destruct (H1 _ _ Hi) as (e & r' & Hin & Hr).
        exists e, r'. rewrite app_nil_r. split; [apply in_or_app; auto|exact Hr].
      * intros i Hi. rewrite set_nth_length in Hi. rewrite hcalls_app, H2 by lia. cbn.
        destruct (Nat.eqb_spec j i) as [->|Hn]; [|reflexivity].
        exfalso. assert (nth_error (hs_threads s) i = None) by (apply nth_error_None; lia). congruence.
  - injection Hx as <- <-. unfold tracked; cbn [hs_threads hs_world]. split.
    + intros i p Hi. destruct (H1 _ _ Hi) as (e & r' & Hin & Hr).
      exists e, r'. rewrite hcalls_app. cbn. rewrite app_nil_r. split; [apply in_or_app; auto|exact Hr].
    + intros i Hi. rewrite hcalls_app, H2 by lia. reflexivity.
Qed.

(** ** Which request creates tokens *)

Lemma authentication_call E next r tr q c a :
  reach (client_authentication E next r) tr q -> In (c, a) tr -> c <> CNow -> (forall id, c <> CClientGet id) ->
  exists oc tr1 tr2, tr = (tr1 ++ tr2)%list /\ reach (next oc) tr2 q /\ In (c, a) tr2 /\
    forall cl, oc = Some cl -> exists id, In (CClientGet id, AClient (SOk cl)) tr1.
Proof.
  intros H Hin Hn Hc.
  assert (Hq : forall tr' : list (call * answer), Forall (fun x => fst x = CNow \/ exists id, fst x = CClientGet id) tr' ->
            In (c, a) tr' -> False).
  { intros tr' F Hi. rewrite Forall_forall in F. apply F in Hi. cbn in Hi. destruct Hi as [Hi|[id Hi]]; [auto|].
    apply (Hc id Hi). }
  assert (Hw : forall st e t1 q', reach (with_error st e) t1 q' -> In (c, a) t1 -> False).
  { intros st e t1 q' Hr Hi. unfold with_error in Hr. destruct e; inversion Hr; subst; destruct Hi. }
  unfold client_authentication in H. cbv zeta in H.
  destruct (is_empty (query_get r "client_id")) eqn:He; cbn [negb] in H.
  - destruct (String.eqb_spec (post_value r "client_assertion_type") assertion_bearer) as [Hb|Hb];
    [|destruct (String.eqb_spec (post_value r "client_assertion_type") assertion_attestation) as [Ha|Ha];
      [|exfalso; eapply Hw; eauto]].
    + destruct (bind_call _ _ _ _ _ _ H Hin) as [(t1 & t2 & p' & -> & Hr & Hi)|(x & t1 & t2 & -> & Hr & Hr2 & Hi)].
      { exfalso. eapply Hq; [|exact Hi]. eapply quiet_reach; [apply quiet_assertion|exact Hr]. }
      destruct (aa_err x) eqn:Hx; [exfalso; eapply Hw; eauto|].
      exists (aa_client x), t1, t2. repeat (split; [solve [auto]|]).
      intros cl Hcl. apply private_key_jwt_ok in Hr; [|exact Hx].
      destruct Hr as (a0 & cl0 & t & c0 & keys & k & Hr).
      repeat match goal with X : _ /\ _ |- _ => destruct X end. subst. cbn in Hcl. injection Hcl as ->.
      exists (c_iss cl0). cbn; auto.
    + destruct (bind_call _ _ _ _ _ _ H Hin) as [(t1 & t2 & p' & -> & Hr & Hi)|(x & t1 & t2 & -> & Hr & Hr2 & Hi)].
      { exfalso. eapply Hq; [|exact Hi]. eapply quiet_reach; [apply quiet_attestation|exact Hr]. }
      destruct (aa_err x) eqn:Hx; [exfalso; eapply Hw; eauto|].
      exists (aa_client x), t1, t2. repeat (split; [solve [auto]|]).
      intros cl Hcl. apply client_attestation_ok in Hr; [|exact Hx].
      destruct Hr as (a0 & att & pop & k & tr1 & cl0 & x1 & x2 & rc & Hr).
      repeat match goal with X : _ /\ _ |- _ => destruct X end.
      match goal with X : _ \/ _ |- _ => destruct X as [(c0 & -> & ->)|(-> & ->)] end; cbn in Hcl; [|discriminate].
      injection Hcl as ->. exists (c_iss cl0). subst t1. apply in_or_app. right. cbn; auto.
  - unfold client_get in H. apply reach_do_inv in H as [[-> ->]|(an & t' & -> & H)]; [destruct Hin|].
    destruct Hin as [[= <- <-]|Hin]; [exfalso; eapply Hc; reflexivity|].
    destruct an as [| | |x| | | | | | | |]; try (inversion H; subst; destruct Hin; fail).
    destruct x as [c0| | |]; try (exfalso; eapply Hw; eauto; fail); [|inversion H; subst; destruct Hin].
    destruct (cl_type c0) eqn:Ht; try (exfalso; eapply Hw; eauto; fail).
    exists (Some c0), [(CClientGet (query_get r "client_id"), AClient (SOk c0))], t'.
    split; [reflexivity|]. split; [exact H|]. split; [exact Hin|].
    intros cl [= ->]. exists (query_get r "client_id"). left. reflexivity.
Qed.

(** A program that makes no call [c]. *)
Definition never {A} (c : call) (p : prog A) : Prop := forall tr q a, reach p tr q -> ~ In (c, a) tr.
Lemma never_bind {A B} c (p : prog A) (f : A -> prog B) : never c p -> (forall a, never c (f a)) -> never c (bind p f).
Proof.
  intros Hp Hf tr q a H Hin.
  destruct (bind_call _ _ _ _ _ _ H Hin) as [(t1 & t2 & p' & -> & Hr & Hi)|(x & t1 & t2 & -> & Hr & Hr2 & Hi)].
  - exact (Hp _ _ _ Hr Hi).
  - exact (Hf _ _ _ _ Hr2 Hi).
Qed.
Lemma never_error c status e : never c (with_error status e).
Proof. intros tr q a H Hin. unfold with_error in H. destruct e; inversion H; subst; destruct Hin. Qed.
Lemma never_ret {A} c (x : A) : never c (Ret x).
Proof. intros tr q a H Hin. inversion H; subst; destruct Hin. Qed.
Lemma never_panic {A} c : never c (@Panic A).
Proof. intros tr q a H Hin. inversion H; subst; destruct Hin. Qed.
Lemma never_now {A} c (k : N -> prog A) : c <> CNow -> (forall t, never c (k t)) -> never c (now k).
Proof.
  intros Hc Hk tr q a H Hin. apply reach_do_inv in H as [[-> ->]|(an & t' & -> & H)]; [destruct Hin|].
  destruct Hin as [[= <- <-]|Hin]; [congruence|].
  destruct an; try (inversion H; subst; destruct Hin; fail). exact (Hk _ _ _ _ H Hin).
Qed.
Lemma never_client {A} c id (k : sres client -> prog A) :
  (forall id, c <> CClientGet id) -> (forall t, never c (k t)) -> never c (client_get id k).
Proof.
  intros Hc Hk tr q a H Hin. apply reach_do_inv in H as [[-> ->]|(an & t' & -> & H)]; [destruct Hin|].
  destruct Hin as [[= <- <-]|Hin]; [eapply Hc; reflexivity|].
  destruct an; try (inversion H; subst; destruct Hin; fail). exact (Hk _ _ _ _ H Hin).
Qed.
Lemma never_may {A} E rq i t (p : prog A) Pr : wp (may_write E rq) Pr [] p -> (forall x, rq <> RToken x) -> never (CTokCreate i t) p.
Proof.
  intros Hw Hn tr q a Hr Hin. destruct (wp_in _ _ _ _ _ _ _ Hw Hr Hin) as (u & v & _ & req & H & _). apply (Hn _ H).
Qed.

Ltac never_tac := repeat first
  [ apply never_error | apply never_ret | apply never_panic
  | apply never_bind; [|intros ?]
  | apply never_now; [discriminate|intros ?]
  | apply never_client; [discriminate|intros ?]
  | match goal with |- never _ (match ?x with _ => _ end) => destruct x end ].

Lemma serve_http_create S e r tr q i t a :
  reach (answer_http S e r) tr q -> In (CTokCreate i t, a) tr ->
  e = EToken /\ exists id c tr1 tr2, tr = (tr1 ++ tr2)%list /\ In (CClientGet id, AClient (SOk c)) tr1 /\
    reach (token_handler (sv_ext S) (sv_issuer S) r (Some c)) tr2 q /\ In (CTokCreate i t, a) tr2.
Proof.
  unfold answer_http, serve_http. intros H Hin.
  destruct e;
    try (destruct (authentication_call _ _ _ _ _ _ _ H Hin) as (oc & t1 & t2 & -> & H2 & Hi & Hoc); [discriminate|discriminate|]).
  - split; [reflexivity|]. destruct oc as [c|].
    + destruct (Hoc c eq_refl) as (id & Hid). exists id, c, t1, t2. auto.
    + exfalso. refine ((_ : never (CTokCreate i t) _) _ _ _ H2 Hi). unfold token_handler. never_tac.
  - exfalso. refine ((_ : never (CTokCreate i t) _) _ _ _ H2 Hi). unfold introspection_handler. never_tac.
    eapply never_may; [apply introspect_wp|discriminate].
  - exfalso. refine ((_ : never (CTokCreate i t) _) _ _ _ H2 Hi). unfold revocation_handler. never_tac.
    eapply never_may; [apply revoke_wp|discriminate].
  - exfalso. refine ((_ : never (CTokCreate i t) _) _ _ _ H2 Hi). unfold par_handler. never_tac.
    + eapply never_may; [apply dpop_wp|discriminate].
    + eapply never_may; [apply register_wp|discriminate].
  - exfalso. refine ((_ : never (CTokCreate i t) _) _ _ _ H Hin).
    unfold basic_authentication, authorization_handler, respond_in_mode, respond_jwt, respond_code. cbv zeta. never_tac.
    all: eapply never_may; [apply authorize_wp|discriminate].
  - exfalso. refine ((_ : never (CTokCreate i t) _) _ _ _ H2 Hi). unfold device_authorization_handler. never_tac.
    eapply never_may; [apply dev_authorize_wp|discriminate].
  - exfalso. refine ((_ : never (CTokCreate i t) _) _ _ _ H Hin).
    unfold basic_authentication, device_handler. never_tac.
    all: eapply never_may; [apply (dev_validate_wp (sv_ext S))|discriminate].
Qed.

(** The token is for the client that was looked up. *)
Lemma justified_client E req u i t : justified E req u i t ->
  exists auth c m, tq_client req = Some auth /\ did u (CClientGet (cl_id auth)) (AClient (SOk c)) /\
    t_meta t = Some m /\ m_client_id m = cl_id c.
Proof.
  intros (auth & c & m & tm & Ha & Hc & _ & Hm & _ & _ & _ & _ & _ & Hj).
  exists auth, c, m. repeat (split; [assumption|]).
  unfold grant_just in Hj. destruct (tq_grant req); [destruct Hj|..].
  - destruct Hj as (s & ar & rd & _ & _ & _ & _ & _ & _ & [Ht|[_ Ht]]); rewrite Ht in Hm; injection Hm as <-; reflexivity.
  - destruct Hj as (_ & _ & Ht & _). rewrite Ht in Hm; injection Hm as <-; reflexivity.
  - destruct Hj as (s & dr & dc & sub & t0 & _ & _ & _ & _ & _ & _ & _ & _ & _ & _ & [Ht|[_ Ht]]); rewrite Ht in Hm; injection Hm as <-; reflexivity.
  - destruct Hj as (rt & m0 & t0 & _ & _ & _ & _ & _ & _ & _ & _ & _ & [Ht|Ht]); rewrite Ht in Hm; injection Hm as <-; reflexivity.
  - destruct Hj as (st & m0 & t0 & sc & aud & _ & _ & _ & _ & _ & _ & _ & _ & _ & Ht); rewrite Ht in Hm; injection Hm as <-; reflexivity.
Qed.

(** ** Tokens of clients that require DPoP *)

Definition origin (h : list hevent) (t : token) : Prop :=
  exists i iss t0 a, In (HvCall i (CTokCreate iss t0) a) h /\ t_meta t = t_meta t0 /\ t_cnf t = t_cnf t0.
Definition bound_ok (S : http_server) (w : world) (h : list hevent) (t : token) : Prop :=
  forall m c, t_meta t = Some m -> w_clients w (m_client_id m) = Some c -> cl_dpop_bound c = true ->
  exists j e r thumb, In (HvStart j e r) h /\ proof_accepted (sv_ext S) r None (hcalls j h) thumb /\ t_cnf t = Some thumb.

Definition kept (S : http_server) (w : world) (h : list hevent) (s : hsys) : Prop :=
  tracked S h s /\ w_clients (hs_world s) = w_clients w /\
  (forall i id c, In (HvCall i (CClientGet id) (AClient (SOk c))) h -> w_clients w id = Some c) /\
  (forall k t, w_tid (hs_world s) k = Some t \/ w_tval (hs_world s) k = Some t -> origin h t) /\
  (forall i iss v t, In (HvCall i (CTokGet iss v) (ATok (SOk t))) h -> origin h t) /\
  (forall i iss t a, In (HvCall i (CTokCreate iss t) a) h -> bound_ok S w h t).

Lemma origin_mono h h' t : origin h t -> origin (h ++ h') t.
Proof. intros (i & iss & t0 & a & H & H1 & H2). exists i, iss, t0, a. split; [apply in_or_app; auto|auto]. Qed.
Lemma proof_accepted_mono E r tv tr tr' thumb : proof_accepted E r tv tr thumb -> proof_accepted E r tv (tr ++ tr') thumb.
Proof. intros (a & b & c & -> & H). exists a, b, (c ++ tr')%list. rewrite <- !app_assoc. auto. Qed.
Lemma proof_accepted_pre E r tv tr tr' thumb : proof_accepted E r tv tr thumb -> proof_accepted E r tv (tr' ++ tr) thumb.
Proof. intros (a & b & c & -> & H). exists (tr' ++ a)%list, b, c. rewrite <- !app_assoc. auto. Qed.
Lemma bound_mono S w h h' t : bound_ok S w h t -> bound_ok S w (h ++ h') t.
Proof.
  intros H m c H1 H2 H3. destruct (H m c H1 H2 H3) as (j & e & r & thumb & A & B & C).
  exists j, e, r, thumb. split; [apply in_or_app; auto|]. split; [|auto].
  rewrite hcalls_app. apply proof_accepted_mono. exact B.
Qed.

Lemma exec_tokens E w o c a w1 k t : exec E w o c = (a, w1) -> w_tid w1 k = Some t \/ w_tval w1 k = Some t ->
  (w_tid w k = Some t \/ w_tval w k = Some t) \/
  (exists iss t0, c = CTokCreate iss t0 /\ t_meta t = t_meta t0 /\ t_cnf t = t_cnf t0) \/
  (exists k' t0, w_tid w k' = Some t0 /\ t_meta t = t_meta t0 /\ t_cnf t = t_cnf t0).
Proof.
  intros Hx H. pose proof (tid_exec E _ _ _ _ _ Hx) as Hi. pose proof (tval_exec E _ _ _ _ _ Hx) as Hv.
  assert (K : forall m m' k0 (v : option token), (m' = upd m k0 v \/ (m' = m /\ ans_ok a = false)) -> m' k = Some t ->
              m k = Some t \/ v = Some t).
  { intros m m' k0 v [->|[-> _]] Hk; [|auto]. destruct (upd_cases m k0 v k) as [[-> X]|[_ X]]; rewrite X in Hk; auto. }
  destruct c; cbn in Hi, Hv; try (rewrite ?Hi, ?Hv in H; left; exact H).
  - destruct H as [H|H]; [destruct (K _ _ _ _ Hi H) as [X|X]|destruct (K _ _ _ _ Hv H) as [X|X]]; auto;
      right; left; exists issuer, t0; injection X as <-; auto.
  - destruct (w_tid w id) as [t0|] eqn:Hid; [|rewrite ?Hi, ?Hv in H; left; exact H].
    destruct H as [H|H]; [destruct (K _ _ _ _ Hi H) as [X|X]|destruct (K _ _ _ _ Hv H) as [X|X]]; auto;
      right; right; exists id, t0; injection X as <-; auto.
Qed.

Lemma kept_quiet S w h s e s' : kept S w h s -> tracked S (h ++ [e]) s' ->
  w_clients (hs_world s') = w_clients (hs_world s) -> w_tid (hs_world s') = w_tid (hs_world s) ->
  w_tval (hs_world s') = w_tval (hs_world s) -> (forall i c a, e <> HvCall i c a) -> kept S w (h ++ [e]) s'.
Proof.
  intros (K1 & K2 & K3 & K4 & K5 & K6) Ht E1 E2 E3 Hn.
  assert (Hin : forall i c a, In (HvCall i c a) (h ++ [e])%list -> In (HvCall i c a) h).
  { intros i c a Hi. apply in_app_or in Hi as [Hi|[Hi|[]]]; auto. exfalso. eapply Hn; eauto. }
  split; [exact Ht|]. split; [congruence|]. split; [intros; eapply K3; eauto|].
  split; [intros k t; rewrite E2, E3; intros; apply origin_mono; eauto|].
  split; [intros; apply origin_mono; eauto|intros; apply bound_mono; eauto].
Qed.

Lemma kept_step S w h s x e s' : registry_ok w -> kept S w h s -> hstep S s x = Some (e, s') -> kept S w (h ++ [e]) s'.
Proof.
  intros Hreg K Hx. pose proof K as (K1 & K2 & K3 & K4 & K5 & K6).
  pose proof (tracked_step _ _ _ _ _ _ K1 Hx) as Ht.
  destruct x as [ep r|j o|d]; cbn in Hx.
  - injection Hx as <- <-. eapply kept_quiet; eauto. discriminate.
  - destruct (nth_error (hs_threads s) j) as [[p|]|] eqn:Hj; try discriminate. destruct p as [a| | |c k]; try discriminate.
    + injection Hx as <- <-. eapply kept_quiet; eauto. discriminate.
    + injection Hx as <- <-. eapply kept_quiet; eauto. discriminate.
    + destruct (exec (sv_ext S) (hs_world s) o c) as [a w'] eqn:He. injection Hx as <- <-.
      destruct (exec_const _ _ _ _ _ _ He) as (_ & Hc & _ & _).
      destruct (proj1 K1 _ _ Hj) as (ep & r & Hst & Hr).
      assert (Hr' : reach (answer_http S ep r) (hcalls j (h ++ [HvCall j c a])) (k a)).
      { rewrite hcalls_app. cbn. rewrite Nat.eqb_refl. eapply reach_app; [exact Hr|]. constructor. constructor. }
      split; [exact Ht|]. cbn [hs_world]. split; [congruence|].
      assert (K3' : forall i id c0, In (HvCall i (CClientGet id) (AClient (SOk c0))) (h ++ [HvCall j c a])%list -> w_clients w id = Some c0).
      { intros i id c0 Hin. apply in_app_or in Hin as [Hin|[Hin|[]]]; [eauto|]. injection Hin as -> -> ->.
        cbn in He. injection He as He _. rewrite <- K2. revert He. unfold answer_read.
        destruct (o_fault o); try discriminate. destruct (w_clients (hs_world s) id); congruence. }
      split; [exact K3'|].
      split.
      { intros k0 t Hk. destruct (exec_tokens _ _ _ _ _ _ _ _ He Hk) as [X|[(iss & t0 & -> & X1 & X2)|(k' & t0 & X & X1 & X2)]].
        - apply origin_mono. eauto.
        - exists j, iss, t0, a. split; [apply in_or_app; right; left; auto|auto].
        - destruct (K4 k' t0 (or_introl X)) as (i1 & iss1 & t1 & a1 & Y & Y1 & Y2).
          exists i1, iss1, t1, a1. split; [apply in_or_app; auto|]. split; congruence. }
      assert (K5' : forall i iss v t, In (HvCall i (CTokGet iss v) (ATok (SOk t))) (h ++ [HvCall j c a])%list -> origin h t).
      { intros i iss v t Hin. apply in_app_or in Hin as [Hin|[Hin|[]]]; [eauto|]. injection Hin as -> -> ->.
        cbn in He. injection He as He _. unfold answer_read in He. destruct (o_fault o); try discriminate.
        destruct (w_tval (hs_world s) (tok_key (sv_ext S) iss v)) as [t'|] eqn:Hv; [|discriminate].
        injection He as ->. eauto. }
      split; [intros; apply origin_mono; eauto|].
      intros i iss t a0 Hin. apply in_app_or in Hin as [Hin|[Hin|[]]]; [apply bound_mono; eauto|].
      injection Hin as -> -> ->. intros m cb Hm Hcb Hb.
      assert (Hcr : In (CTokCreate iss t, a0) (hcalls i (h ++ [HvCall i (CTokCreate iss t) a0])))
        by (apply in_hcalls, in_or_app; right; left; auto).
      destruct (serve_http_create _ _ _ _ _ _ _ _ Hr' Hcr) as (-> & id & c & t1 & t2 & Htr & Hid & Hth & Hi).
      assert (HC : w_clients w id = Some c).
      { apply (K3' i). apply in_hcalls. rewrite Htr. apply in_or_app. auto. }
      pose proof (Hreg _ _ HC) as Hcid.
      destruct (token_handler_create _ _ _ _ _ _ _ _ _ Hth Hi) as (_ & cnf & u1 & u2 & Hu & _ & u & v & Hu2 & Hj2).
      destruct (justified_client _ _ _ _ _ Hj2) as (auth & c' & m' & [= <-] & Hdid & Hm' & Hmc).
      assert (HC' : w_clients w (cl_id c) = Some c').
      { apply (K3' i). apply in_hcalls. rewrite Htr, Hu, Hu2. apply in_or_app. right. apply in_or_app. right.
        apply in_or_app. left. exact Hdid. }
      rewrite Hcid, HC in HC'. injection HC' as <-. rewrite Hm in Hm'. injection Hm' as <-.
      rewrite Hmc, Hcid, HC in Hcb. injection Hcb as <-.
      destruct (C57_bound_tokens_partial_proof _ _ _ _ _ _ _ _ _ Hth Hi (or_introl Hb)) as (thumb & Hp & Hn & Hrf).
      destruct (String.eqb_spec (form_value r "grant_type") "refresh_token") as [Hg|Hg].
      * destruct (Hrf Hg) as (old & Hold & _ & Hcnf & mo & m' & Hmo & Hm1 & Hid1). rewrite Hcnf. rewrite Hm in Hm1. injection Hm1 as <-.
        assert (Ho : origin h old).
        { eapply K5' with (i := i). apply in_hcalls. rewrite Htr. apply in_or_app. right. exact Hold. }
        destruct Ho as (i1 & iss1 & told & a1 & Y & Y1 & Y2). rewrite Y2.
        apply (bound_mono S w h [HvCall i (CTokCreate iss t) a0] told (K6 _ _ _ _ Y) mo c);
          [congruence|rewrite <- Hid1, Hmc, Hcid; exact HC|exact Hb].
      * exists i, EToken, r, thumb. split; [apply in_or_app; auto|]. split; [|auto].
        rewrite Htr. apply proof_accepted_pre. exact Hp.
  - injection Hx as <- <-. eapply kept_quiet; eauto. discriminate.
Qed.

Lemma C57_bound_tokens_proof : forall S w xs i iss t a m c,
  registry_ok w -> no_tokens w ->
  In (HvCall i (CTokCreate iss t) a) (http_history S w xs) ->
  t_meta t = Some m -> w_clients w (m_client_id m) = Some c -> cl_dpop_bound c = true ->
  exists j e r thumb, In (HvStart j e r) (http_history S w xs) /\
    proof_accepted (sv_ext S) r None (hcalls j (http_history S w xs)) thumb /\ t_cnf t = Some thumb.
Proof.
  intros S w xs i iss t a m c Hreg [Hn1 Hn2] Hin Hm Hc Hb.
  assert (K : kept S w ([] ++ http_history S w xs) (snd (hrun S (mkHsys w []) xs))).
  { apply (hrun_inv S (kept S w)); [intros; eapply kept_step; eauto|].
    split; [split; [intros [|?] p X; discriminate|reflexivity]|]. split; [reflexivity|].
    split; [intros ? ? ? []|]. split; [|split; intros ? ? ? ? []].
    cbn. intros k t0 [X|X]; [rewrite Hn1 in X|rewrite Hn2 in X]; discriminate. }
  destruct K as (_ & _ & _ & _ & _ & K6). exact (K6 _ _ _ _ Hin m c Hm Hc Hb).
Qed.
