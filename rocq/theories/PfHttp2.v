(** * Proofs: the endpoints of the authorization server *)

From Verif Require Export PfHttp.
From Coq Require Import ZArith Lia.

(** ** Tools *)

Lemma bind_call {A B} (p : prog A) (f : A -> prog B) tr q c a :
  reach (bind p f) tr q -> In (c, a) tr ->
  (exists tr1 tr2 p', tr = (tr1 ++ tr2)%list /\ reach p tr1 p' /\ In (c, a) tr1) \/
  (exists x tr1 tr2, tr = (tr1 ++ tr2)%list /\ reach p tr1 (Ret x) /\ reach (f x) tr2 q /\ In (c, a) tr2).
Proof.
  intros H Hin. apply reach_bind in H as [(p' & H & _)|(x & t1 & t2 & -> & H1 & H2)].
  - left. exists tr, [], p'. rewrite app_nil_r. auto.
  - apply in_app_or in Hin as [Hin|Hin]; [left; eauto 8|right; eauto 8].
Qed.

Lemma wp_in {A} Pc Pr (p q : prog A) tr c a :
  wp Pc Pr [] p -> reach p tr q -> In (c, a) tr -> exists u v, tr = (u ++ (c, a) :: v)%list /\ Pc u c.
Proof.
  intros Hw Hr Hin. apply in_split in Hin as (u & v & ->). exists u, v. split; auto. eapply wp_call; eauto.
Qed.

(** A program that only reads the clock and looks up clients. *)
Fixpoint quiet {A} (p : prog A) : Prop :=
  match p with
  | Do c k => (c = CNow \/ exists id, c = CClientGet id) /\ forall a, quiet (k a)
  | _ => True
  end.
Lemma quiet_reach {A} (p q : prog A) tr : quiet p -> reach p tr q ->
  Forall (fun x => fst x = CNow \/ exists id, fst x = CClientGet id) tr.
Proof. intros Hq H. induction H; [constructor|]. destruct Hq as [H1 H2]. constructor; auto. Qed.
Lemma quiet_bind {A B} (p : prog A) (f : A -> prog B) : quiet p -> (forall a, quiet (f a)) -> quiet (bind p f).
Proof. induction p as [a| | |c k IH]; cbn; auto. intros [H1 H2] Hf. split; auto. Qed.
Ltac quiet_tac := repeat first
  [ exact I
  | apply quiet_bind; [|intros ?]
  | split; [solve [eauto]|intros []]
  | match goal with |- quiet (match ?x with _ => _ end) => destruct x end
  | match goal with |- quiet (now _) => unfold now end
  | match goal with |- quiet (client_get _ _) => unfold client_get end ].

Lemma quiet_assertion E r : quiet (private_key_jwt E r).
Proof. unfold private_key_jwt. quiet_tac. Qed.
Lemma quiet_attestation E r : quiet (client_attestation E r).
Proof. unfold client_attestation, validate_attestation. quiet_tac. Qed.

(** ** The client authentication middleware *)

Lemma with_error_ret status e tr resp : reach (with_error status e) tr (Ret resp) ->
  tr = [] /\ exists e', e = Some e' /\ resp = HError status e'.
Proof. unfold with_error. intros H. destruct e; rstep H. eauto. Qed.

Lemma C58_authenticated_clients_proof : forall E next r tr resp,
  runs (client_authentication E next r) tr (Done resp) ->
  (exists e, resp = HError 401 e /\ Forall (fun x => fst x = CNow \/ exists id, fst x = CClientGet id) tr) \/
  exists client tr1 tr2, tr = (tr1 ++ tr2)%list /\ runs (next client) tr2 (Done resp) /\
    ((exists c, client = Some c /\ query_get r "client_id" <> ""%string /\ cl_type c = CtPublic /\
        tr1 = [(CClientGet (query_get r "client_id"), AClient (SOk c))]) \/
     (query_get r "client_id" = ""%string /\
      (client = None -> exists id, In (CClientGet id, AClient SNil) tr1) /\
      exists res, aa_err res = false /\ aa_client res = client /\
        let msg kind := Some (mkAuthn (Some kind) (Some (post_value r "client_assertion"))) in
        ((post_value r "client_assertion_type" = assertion_bearer /\
          runs (private_key_jwt E (msg assertion_bearer)) tr1 (Done res)) \/
         (post_value r "client_assertion_type" = assertion_attestation /\
          runs (client_attestation E (msg assertion_attestation)) tr1 (Done res))))).
Proof.
  intros E next r tr resp H. cbn [runs] in H. unfold client_authentication in H. cbv zeta in H.
  destruct (is_empty (query_get r "client_id")) eqn:Hq; cbn [negb] in H.
  - apply is_empty_true in Hq.
    destruct (String.eqb_spec (post_value r "client_assertion_type") assertion_bearer) as [Hb|Hb].
    + rewrite Hb in H. apply reach_bind_ret in H as (res & t1 & t2 & -> & H1 & H).
      destruct (aa_err res) eqn:He.
      * left. apply with_error_ret in H as (-> & e & [= <-] & ->). eexists. split; [reflexivity|].
        rewrite app_nil_r. eapply quiet_reach; [apply quiet_assertion|exact H1].
      * right. exists (aa_client res), t1, t2. split; [reflexivity|]. split; [exact H|]. right.
        split; [exact Hq|]. split.
        { intros Hn. exfalso. apply private_key_jwt_ok in H1; [|exact He].
          repeat match goal with X : exists _, _ |- _ => destruct X | X : _ /\ _ |- _ => destruct X end. subst.
          cbn in Hn; discriminate. }
        exists res. repeat split; auto.
    + destruct (String.eqb_spec (post_value r "client_assertion_type") assertion_attestation) as [Ha|Ha].
      * rewrite Ha in H. apply reach_bind_ret in H as (res & t1 & t2 & -> & H1 & H).
        destruct (aa_err res) eqn:He.
        -- left. apply with_error_ret in H as (-> & e & [= <-] & ->). eexists. split; [reflexivity|].
           rewrite app_nil_r. eapply quiet_reach; [apply quiet_attestation|exact H1].
        -- right. exists (aa_client res), t1, t2. split; [reflexivity|]. split; [exact H|]. right.
           split; [exact Hq|]. split.
           { intros Hn. apply client_attestation_ok in H1; [|exact He].
             destruct H1 as (a & att & pop & k & tr1 & cl & x1 & x2 & rc & H1).
             repeat match goal with X : _ /\ _ |- _ => destruct X end.
             repeat match goal with X : _ \/ _ |- _ => destruct X end;
             repeat match goal with X : exists _, _ |- _ => destruct X | X : _ /\ _ |- _ => destruct X end; subst;
             try (cbn in Hn; discriminate).
             eexists. rewrite in_app_iff. cbn [In]. right. auto. }
           exists res. repeat split; auto.
      * apply with_error_ret in H as (-> & e & [= <-] & ->). left. eexists. split; [reflexivity|constructor].
  - apply is_empty_false in Hq. rstep H. subst tr. destruct x as [c| | |].
    + destruct (cl_type c) eqn:Ht;
        try (apply with_error_ret in H as (-> & e & [= <-] & ->); left; eexists; split; [reflexivity|];
             constructor; [right; cbn; eauto|constructor]).
      right. exists (Some c), [(CClientGet (query_get r "client_id"), AClient (SOk c))], x0.
      split; [reflexivity|]. split; [exact H|]. left. exists c. auto.
    + rstep H.
    + apply with_error_ret in H as (-> & e & [= <-] & ->). left. eexists. split; [reflexivity|].
      constructor; [right; cbn; eauto|constructor].
    + apply with_error_ret in H as (-> & e & [= <-] & ->). left. eexists. split; [reflexivity|].
      constructor; [right; cbn; eauto|constructor].
Qed.

(** ** The token endpoint *)

Lemma dpop_no_write E htm htu proof tv tc tr q c a :
  reach (dpop_verify E htm htu proof tv tc) tr q -> In (c, a) tr ->
  may_write E (RDpop htm htu proof tv tc) [] c \/ True -> forall i t, c <> CTokCreate i t.
Proof.
  intros Hr Hin _ i t ->. destruct (wp_in _ _ _ _ _ _ _ (dpop_wp E htm htu proof tv tc) Hr Hin) as (u & v & _ & H).
  cbn in H. destruct H as (req & H & _). discriminate.
Qed.

Lemma answer_calls r res tr q c a : reach (token_answer r res) tr q -> In (c, a) tr -> c = CNow.
Proof.
  unfold token_answer, with_error, now. intros H Hin.
  destruct (tr_err res); [destruct (tr_error res); inversion H; subst; destruct Hin|].
  destruct (tr_at res) as [t|]; [|inversion H; subst; destruct Hin].
  inversion H; subst; [destruct Hin|]. destruct Hin as [[= -> <-]|Hin]; auto.
  destruct a0; try match goal with X : reach Stuck _ _ |- _ => inversion X; subst; destruct Hin end.
  destruct (t_meta t); match goal with X : reach _ tr0 _ |- _ => inversion X; subst; destruct Hin end.
Qed.

(** The message the token endpoint sends to the service. *)
Lemma token_handler_create E issuer r c tr q i t a :
  reach (token_handler E issuer r (Some c)) tr q -> In (CTokCreate i t, a) tr ->
  hq_method r = "POST"%string /\
  exists cnf tr1 tr2, tr = (tr1 ++ tr2)%list /\
    (cnf = None /\ tr1 = [] /\ hq_header r "DPoP" = ""%string /\ cl_dpop_bound c = false \/
     exists thumb, cnf = Some thumb /\ hq_header r "DPoP" <> ""%string /\
       runs (dpop_verify E (hq_method r) (url_of r) (hq_header r "DPoP") None None) tr1 (Done (Some thumb))) /\
    exists u v, tr2 = (u ++ (CTokCreate i t, a) :: v)%list /\
      justified E (token_message issuer r c cnf) u i t.
Proof.
  intros H Hin. unfold token_handler in H.
  destruct (String.eqb_spec (hq_method r) "POST") as [Hm|Hm]; cbn [negb] in H;
    [|unfold with_error in H; inversion H; subst; destruct Hin].
  split; [exact Hm|].
  destruct (is_empty (hq_header r "DPoP")) eqn:Hp.
  - apply is_empty_true in Hp.
    destruct (cl_dpop_bound c) eqn:Hb; [unfold with_error in H; inversion H; subst; destruct Hin|].
    destruct (bind_call _ _ _ _ _ _ H Hin) as [(t1 & t2 & p' & -> & Hr & Hi)|(x & t1 & t2 & -> & Hr & Hr2 & Hi)].
    2:{ apply answer_calls with (1 := Hr2) in Hi. discriminate. }
    destruct (wp_in _ _ _ _ _ _ _ (token_wp E _) Hr Hi) as (u & v & -> & Hw).
    destruct Hw as (req & [= <-] & Hj).
    exists None, [], ((u ++ (CTokCreate i t, a) :: v) ++ t2)%list. split; [reflexivity|]. split; [auto|].
    exists u, (v ++ t2)%list. rewrite <- app_assoc. auto.
  - apply is_empty_false in Hp.
    destruct (bind_call _ _ _ _ _ _ H Hin) as [(t1 & t2 & p' & -> & Hr & Hi)|(x & t1 & t2 & -> & Hr & Hr2 & Hi)].
    { exfalso. eapply (dpop_no_write E _ _ _ _ _ _ _ _ _ Hr Hi); eauto. }
    destruct x as [jkt|]; [|unfold with_error in Hr2; inversion Hr2; subst; destruct Hi].
    destruct (bind_call _ _ _ _ _ _ Hr2 Hi) as [(s1 & s2 & p' & -> & Hs & Hsi)|(y & s1 & s2 & -> & Hs & Hs2 & Hsi)].
    2:{ apply answer_calls with (1 := Hs2) in Hsi. discriminate. }
    destruct (wp_in _ _ _ _ _ _ _ (token_wp E _) Hs Hsi) as (u & v & -> & Hw).
    destruct Hw as (req & [= <-] & Hj).
    exists (Some jkt), t1, ((u ++ (CTokCreate i t, a) :: v) ++ s2)%list. split; [reflexivity|]. split; [right; eauto|].
    exists u, (v ++ s2)%list. rewrite <- app_assoc. auto.
Qed.

(** Which grant the message carries. *)
Lemma message_grant issuer r c cnf :
  (tq_grant (token_message issuer r c cnf) =
     GAuthorizationCode (form_value r "code") (form_value r "redirect_uri") (form_value r "code_verifier")) \/
  (tq_grant (token_message issuer r c cnf) = GClientCredentials) \/
  (tq_grant (token_message issuer r c cnf) = GDeviceCode (form_value r "device_code")) \/
  (form_value r "grant_type" = gt_refresh /\
   tq_grant (token_message issuer r c cnf) = GRefreshToken (form_value r "refresh_token")) \/
  (tq_grant (token_message issuer r c cnf) = GNone).
Proof.
  unfold token_message. cbn [tq_grant].
  destruct (String.eqb_spec (form_value r "grant_type") gt_code); [auto|].
  destruct (String.eqb_spec (form_value r "grant_type") gt_cc); [auto|].
  destruct (String.eqb_spec (form_value r "grant_type") gt_device); [auto|].
  destruct (String.eqb_spec (form_value r "grant_type") gt_refresh); [auto 6|auto 6].
Qed.

Lemma C57_bound_tokens_partial_proof : forall E issuer r c tr q i t a,
  reach (token_handler E issuer r (Some c)) tr q -> In (CTokCreate i t, a) tr ->
  cl_dpop_bound c = true \/ hq_header r "DPoP" <> ""%string ->
  exists thumb, proof_accepted E r None tr thumb /\
    (form_value r "grant_type" <> "refresh_token"%string -> t_cnf t = Some thumb) /\
    (form_value r "grant_type" = "refresh_token"%string ->
     exists old, In (CTokGet issuer (form_value r "refresh_token"), ATok (SOk old)) tr /\
       t_type old = TtRefresh /\ t_cnf t = t_cnf old /\
       exists mo m, t_meta old = Some mo /\ t_meta t = Some m /\ m_client_id m = m_client_id mo).
Proof.
  intros E issuer r c tr q i t a Hr Hin Hb.
  destruct (token_handler_create _ _ _ _ _ _ _ _ _ Hr Hin) as (Hm & cnf & t1 & t2 & -> & Hc & u & v & -> & Hj).
  destruct Hc as [(-> & -> & Hp & Hb')|(thumb & -> & Hp & Hd)].
  { exfalso. destruct Hb; congruence. }
  exists thumb. split; [exists [], t1, (u ++ (CTokCreate i t, a) :: v)%list; auto|].
  destruct Hj as (auth & c' & m & tm & _ & _ & _ & _ & _ & _ & _ & _ & _ & Hj). unfold grant_just in Hj.
  pose proof (message_grant issuer r c (Some thumb)) as [Hg|[Hg|[Hg|[[Hf Hg]|Hg]]]]; rewrite Hg in Hj; split; intros Hgt.
  - destruct Hj as (s & ar & rd & _ & _ & _ & _ & _ & _ & [->|[_ ->]]); reflexivity.
  - unfold token_message in Hg. cbn [tq_grant] in Hg. rewrite Hgt in Hg. discriminate Hg.
  - destruct Hj as (_ & _ & -> & _). reflexivity.
  - unfold token_message in Hg. cbn [tq_grant] in Hg. rewrite Hgt in Hg. discriminate Hg.
  - destruct Hj as (s & dr & dc & sub & t0 & _ & _ & _ & _ & _ & _ & _ & _ & _ & _ & [->|[_ ->]]); reflexivity.
  - unfold token_message in Hg. cbn [tq_grant] in Hg. rewrite Hgt in Hg. discriminate Hg.
  - contradiction.
  - destruct Hj as (rt & m0 & t0 & Hdid & _ & _ & Ht & Hm0 & _ & Hcid & _ & _ & Hj). exists rt.
    split; [apply in_or_app; right; apply in_or_app; left; exact Hdid|]. split; [exact Ht|].
    split; [destruct Hj as [->| ->]; reflexivity|]. exists m0.
    destruct Hj as [->| ->]; eexists; (split; [exact Hm0|]); (split; [reflexivity|]); cbn; auto.
  - destruct Hj.
  - destruct Hj.
Qed.

(** ** What the token endpoint answers *)

(** The tokens of a successful answer of the service were stored. *)
Lemma response_stored E req tr res : reach (token_svc E (Some req)) tr (Ret res) -> tr_err res = false ->
  (forall at_, tr_at res = Some at_ -> stored tr at_ /\ t_type at_ = TtAccess) /\
  (forall rt, tr_rt res = Some rt -> stored tr rt /\ t_type rt = TtRefresh).
Proof.
  intros H He. destruct (token_svc_ok _ _ _ _ H He) as (auth & c & tr' & _ & -> & _ & Hg & Hd).
  assert (Hin : forall x i r, In (CTokCreate i x, AUnit r) tr' -> is_ok r = true ->
                stored ((CClientGet (cl_id auth), AClient (SOk c)) :: tr') x).
  { intros x i r Hi Hr. exists i, r. split; [right; exact Hi|exact Hr]. }
  apply dispatch_grant in Hd; [|exact Hg]. destruct (tq_grant req) eqn:Hq; [destruct Hd|..]; destruct Hd as [_ Hd].
  - apply authorization_code_ok in Hd as (s & ar & ? & ? & ? & rd & tr2 & _ & _ & -> & D); [|exact He].
    destruct D as [(_ & _ & ->)|(_ & t & id & v & r & _ & Hr & [(_ & -> & ->)|(_ & t2 & id2 & v2 & r2 & _ & Hr2 & -> & ->)])];
      cbn [tr_at tr_rt tok]; split; intros ? [=]; subst.
    + split; [|reflexivity]. eapply Hin; [|exact Hr]. cbn [In]. eauto 10.
    + split; [|reflexivity]. eapply Hin; [|exact Hr]. cbn [In app]. eauto 10.
    + split; [|reflexivity]. eapply Hin; [|exact Hr2]. cbn [In app]. auto 14.
  - apply client_credentials_ok in Hd as (_ & _ & _ & t & id & v & r & _ & Hr & -> & ->); [|exact He].
    cbn [tr_at tr_rt tok]; split; [intros ? [= <-]|intros ? [=]]. split; [|reflexivity].
    eapply Hin; [|exact Hr]. cbn [In]. auto 10.
  - apply device_code_ok in Hd as (? & s & dr & dc & sub & t0 & t & id & v & r & tr2 & _ & _ & _ & _ & _ & _ & _ & _ & _ & _ & _ & Hr & -> & D); [|exact He].
    destruct D as [(-> & -> & _)|(_ & t2 & id2 & v2 & r2 & _ & Hr2 & -> & ->)]; cbn [tr_at tr_rt tok];
      split; intros ? [=]; subst.
    all: split; [|reflexivity];
      first [solve [eapply Hin; [|exact Hr]; cbn [In]; auto 16]|solve [eapply Hin; [|exact Hr2]; cbn [In]; auto 16]].
  - apply refresh_token_ok in Hd as (? & rt & m & t0 & t & id & v & r & tr2 & _ & _ & _ & _ & _ & _ & _ & _ & _ & _ & Hr & -> & D); [|exact He].
    destruct D as [(_ & -> & ->)|(_ & t2 & id2 & v2 & r2 & r3 & _ & Hr2 & _ & -> & ->)]; cbn [tr_at tr_rt tok];
      split; intros ? [=]; subst.
    all: split; [|reflexivity];
      first [solve [eapply Hin; [|exact Hr]; cbn [In]; auto 16]|solve [eapply Hin; [|exact Hr2]; cbn [In]; auto 16]].
  - apply token_exchange_ok in Hd as (? & st & m & t0 & t & id & v & r & aud & tra & _ & _ & _ & _ & _ & _ & _ & _ & _ & Hr & _ & -> & ->); [|exact He].
    cbn [tr_at tr_rt]; split; [intros ? [= <-]|intros ? [=]]. split; [|reflexivity].
    eapply Hin; [|exact Hr]. cbn [In]. do 4 right. apply in_or_app. right. cbn [In]. auto.
Qed.
