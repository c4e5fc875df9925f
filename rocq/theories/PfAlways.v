(** * What always goes wrong (proofs): the refutations that hold of all histories *)

From Verif Require Export PfLive2 PfGate PfDev2.
From Coq Require Import Lia.

(** ** C03: every redemption that looks the code up in time succeeds *)

(** The general case: any client with the redirect URI. *)
Lemma reader_redeems :
  forall E w xs h0 h1 h2 k q zres eff i req verifier o auth c',
  no_faults xs ->
  history E w xs = (h0 ++ h1 ++ h2)%list -> (elapsed (h1 ++ h2) <= 60 * second)%N ->
  authorize_ok_at h1 k q zres -> effective h1 k q eff -> asks E (ar_scope eff) "openid" ->
  In (EvStart i (RToken (Some req))) h2 -> In (EvDone i o) h2 ->
  tq_client req = Some auth -> w_clients w (cl_id auth) = Some c' ->
  listed E (cl_grant_types c') "authorization_code" -> listed E (cl_redirect_uris c') (zr_redirect_uri zres) ->
  tq_issuer req = zq_issuer q -> x_request_uri E (tq_issuer req) = true ->
  tq_grant_type req = "authorization_code"%string ->
  tq_grant req = GAuthorizationCode (zr_code zres) (zr_redirect_uri zres) verifier ->
  (43 <= String.length verifier <= 128)%nat -> b64url (x_sha256 E verifier) = ar_code_challenge eff ->
  zr_code zres <> ""%string -> (rune_count (zr_code zres) <= 1024)%nat ->
  generators_work (history E w xs) i ->
  (forall k' iss' code' s a, In (EvCall k' (CSessReg iss' code' s) a) (h1 ++ h2) ->
     sess_key E iss' code' = sess_key E (zq_issuer q) (zr_code zres) -> k' = k) ->
  (forall l1 a l2, history E w xs = (l1 ++ EvCall i (CSessGet (tq_issuer req) (zr_code zres)) a :: l2)%list ->
     forall j iss' code' b, In (EvCall j (CSessDel iss' code') b) l1 ->
     sess_key E iss' code' <> sess_key E (zq_issuer q) (zr_code zres)) ->
  exists ar res, request_facts E eff ar /\ o = Done (PToken res) /\ tr_err res = false /\ tr_at res <> None /\
    (asks E (ar_scope ar) "offline_access" <-> tr_rt res <> None) /\
    (forall t, In t (tokens_of res) -> exists m, t_meta t = Some m /\ m_subject m = zq_subject q /\
       m_scope m = ar_scope ar /\ m_client_id m = cl_id c').
Proof.
  intros E w xs h0 h1 h2 k q zres eff i req verifier o auth c' Hf Hh Hsh Hz Heff Hopen Hi1 Hi2 Hc1 Hc2 Hl1 Hl2
    Hiss Huri Hgt Hg Hlen Hch Hne Hrc Hgen Honce Honly.
  assert (Hz' : authorize_ok_at (history E w xs) k q zres).
  { destruct Hz as [[Z1 Z2] Z3]. split; auto. split; rewrite Hh, !in_app_iff; auto. }
  assert (Heff' : effective (history E w xs) k q eff).
  { destruct Heff as (r0 & R1 & [R2|(uri & R2 & R3)]); exists r0; split; auto.
    right. exists uri. split; auto. rewrite Hh, !in_app_iff; auto. }
  destruct (authorize_facts _ _ _ _ _ _ Hz') as (eff2 & ar & c & code & n & F1 & F2 & F3 & F4 & F5 & F6 & F7 & F8 & F9 & Hres & _).
  assert (eff2 = eff) as -> by (eapply effective_unique; eauto). clear F1.
  pose proof (facts_normalized _ _ _ F2) as Hn. destruct Hn as (Hp & _ & Hsc1 & Hsc2 & Hsc3).
  destruct Hp as (P1 & P2 & P3 & P4 & P5 & P6 & P7 & P8 & P9 & P10 & _).
  rewrite Hres in *. cbn [zr_code zr_client_id zr_redirect_uri] in *.
  set (s := mkSess (zq_issuer q) (zq_subject q) (Some ar)) in *.
  assert (Hi1' : In (EvStart i (RToken (Some req))) (history E w xs)) by (rewrite Hh; rewrite !in_app_iff; auto).
  assert (Hi2' : In (EvDone i o) (history E w xs)) by (rewrite Hh; rewrite !in_app_iff; auto).
  assert (Hh3 : history E w xs = ((h0 ++ h1) ++ h2)%list) by (rewrite Hh; list_eq).
  (* the registration is in h1 *)
  apply in_split in F7 as (A & B & HA).
  assert (HAp : exists u', A = (h0 ++ u')%list).
  { eapply (later_prefix E w xs h0 (h1 ++ h2)); [exact Hh| |exact HA]. apply in_or_app; left; apply Hz. }
  destruct HAp as (u' & ->).
  destruct (call_in_done E w xs (h0 ++ h1)%list h2 k _ _ _ _ _ Hh3 (in_or_app _ _ _ (or_intror (proj2 (proj1 Hz)))) HA)
    as (u & Hu1 & ->).
  assert (Hu2 : h1 = (u' ++ EvCall k (CSessReg (zq_issuer q) code s) (ANum n) :: u)%list).
  { rewrite <- app_assoc in Hu1. apply app_inv_head in Hu1. exact Hu1. }
  (* what the redemption reads *)
  assert (Hread : forall rd, In (EvCall i (CSessGet (tq_issuer req) code) (ASess rd)) (history E w xs) -> rd = SOk s).
  { intros rd Hrd. destruct (call_in_later _ _ _ _ _ _ _ _ _ Hh3 Hi1 Hrd) as (l1 & l2 & ->).
    assert (HB : history E w xs = ((h0 ++ u') ++ EvCall k (CSessReg (zq_issuer q) code s) (ANum n) ::
        (u ++ l1) ++ EvCall i (CSessGet (tq_issuer req) code) (ASess rd) :: l2)%list).
    { rewrite HA. list_eq. }
    eapply (C07_codes_retrievable_proof E w xs _ _ _ _ s n (u ++ l1)%list i (tq_issuer req) code rd l2 Hf HB); [congruence| |].
    - intros (j & cc & a & J1 & J2 & [(i2 & c2 & s2 & -> & J3)|(i2 & c2 & -> & J3)]).
      + rewrite Hiss in J3.
        assert (j = k) as ->.
        { eapply Honce; [|exact J3]. rewrite Hu2. apply in_app_or in J1. rewrite !in_app_iff. cbn [In].
          destruct J1 as [J1|J1]; [left; right; right|right; left]; exact J1. }
        (* k registers once *)
        assert (Hk1 : In (EvCall k (CSessReg i2 c2 s2) a) u).
        { apply in_app_or in J1 as [J1|J1]; auto. exfalso.
          destruct (trace_history E w xs) as (sy & Ht & _). rewrite Hh3 in Ht.
          assert (Hd : In (EvDone k (Done (PAuthorize zres))) (h0 ++ h1)%list).
          { apply in_or_app; right; rewrite Hres; apply Hz. }
          pose proof (done_earlier _ _ _ _ _ _ _ Ht Hd) as Hnone.
          assert (X : In (CSessReg i2 c2 s2, a) (calls_of k (l1 ++ EvCall i (CSessGet (tq_issuer req) code) (ASess rd) :: l2)%list)).
          { apply in_calls_of. apply in_or_app; auto. }
          rewrite Hnone in X. destruct X. }
        clear J1.
        pose proof (answered_runs _ _ _ _ _ _ (proj1 Hz')) as Hr. cbn in Hr.
        apply reach_pmap_ret in Hr as (res' & X & Hr). injection X as <-.
        assert (Hcount : (2 <= List.length (filter (fun p : call * answer => match fst p with CSessReg _ _ _ => true | _ => false end)
            (calls_of k (history E w xs))))%nat).
        { rewrite HA, (calls_of_app k (h0 ++ u')). cbn [calls_of]. rewrite Nat.eqb_refl.
          apply in_calls_of in Hk1. apply in_split in Hk1 as (x1 & x2 & X1).
          rewrite (calls_of_app k u), X1, !filter_app. cbn [filter fst]. rewrite !filter_app. cbn [filter fst].
          rewrite !app_length. cbn [List.length]. rewrite !app_length. cbn [List.length]. lia. }
        destruct (authorize_ok _ _ _ _ Hr eq_refl) as (_ & _ & r0 & _ & [[_ Z]|(uri & pushed & d & tr' & _ & _ & _ & Z0 & Z)]).
        * apply authorize_with_ok in Z as (? & ? & ? & ? & ? & _ & _ & _ & _ & Z & _); auto.
          rewrite Z in Hcount. cbn in Hcount. lia.
        * apply authorize_with_ok in Z as (? & ? & ? & ? & ? & _ & _ & _ & _ & Z & _); auto.
          rewrite Z0, Z in Hcount. cbn in Hcount. lia.
      + rewrite Hiss in J3.
        eapply (Honly ((h0 ++ u') ++ EvCall k (CSessReg (zq_issuer q) code s) (ANum n) :: u ++ l1)%list _ l2); [|..|exact J3].
        * rewrite HB. list_eq.
        * apply in_or_app. right. right. exact J1.
    - rewrite Hu2 in Hsh. revert Hsh. rewrite !elapsed_app. cbn [elapsed]. lia. }
  (* the program *)
  pose (Pz := fun o : outcome response => match o with
     | Done (PToken res) => tr_err res = false /\ tr_at res <> None /\ (asks E (ar_scope ar) scope_offline <-> tr_rt res <> None)
     | _ => False end).
  assert (Hfin : Pz o).
  { eapply (ends_history E w xs i (RToken (Some req)) o Pz (redeem_good (cl_id auth) c' (tq_issuer req) code s) Hi1' Hi2').
    - intros c0 a Hin. split; [eapply history_typed; exact Hin|].
      pose proof Hin as Hin'. apply in_split in Hin' as (l1 & l2 & Hl12).
      pose proof (history_ftrace E w xs Hf) as Ht. rewrite Hl12 in Ht.
      destruct (ftrace_at _ _ _ _ _ _ _ _ Ht) as (wm & oo & w1 & T1 & T2 & T3 & T4). apply ftrace_wtrace in T1.
      destruct c0; auto; destruct a; auto.
      + destruct (Hgen _ _ (or_introl Hin)) as (v & X & Hv). injection X as ->. eauto.
      + destruct (Hgen _ _ (or_intror Hin)) as (v & X & Hv). injection X as ->. eauto.
      + intros ->. cbn in T2. rewrite T3 in T2. cbn in T2. injection T2 as <- _.
        apply wtrace_const in T1 as (X & _). rewrite X, Hc2. reflexivity.
      + intros -> ->. apply Hread. exact Hin.
      + pose proof (full_write _ _ _ _ T3 _ _ T2) as Hok. cbn in Hok.
        destruct Hok as [Hok|(x & y & X & _)]; [exact Hok|discriminate].
      + pose proof (full_write _ _ _ _ T3 _ _ T2) as Hok. cbn in Hok.
        destruct Hok as [Hok|(x & y & X & _)]; [exact Hok|discriminate].
    - cbn [serve]. unfold pmap. apply ends_bind. eapply ends_weaken.
      2: { eapply (redeem_ends E auth c' code _ verifier s ar req); try eassumption; try congruence; auto.
           - apply (rf_nonempty _ _ _ F2).
           - rewrite P10. apply F2.
           - apply Hsc1; auto. intros X. apply (f_equal (@List.length N)) in X. rewrite !map_length in X. discriminate X. }
      intros [o'|]; cbn; auto. }
  destruct o as [[res| | | | | | | |]|]; try (destruct Hfin; fail). destruct Hfin as (G1 & G2 & G3).
  exists ar, res. split; [exact F2|]. split; [reflexivity|]. split; [exact G1|]. split; [exact G2|]. split; [exact G3|].
  assert (Hok : token_ok (history E w xs) i req res) by (split; [split; assumption|exact G1]).
  destruct (code_redeemed _ _ _ _ _ _ Hok Hgt) as (code2 & redirect2 & verif2 & c2 & s2 & ar2 & rd2 & g1 & g2 & g3 &
    K1 & K2 & K3 & _ & _ & K4 & _).
  pose proof (cf_grant _ _ _ _ _ _ _ _ K2) as K5. rewrite Hg in K5. injection K5 as <- _ _.
  assert (K6 : SOk s2 = SOk s).
  { apply Hread. rewrite K3. apply in_or_app. right. left. reflexivity. }
  injection K6 as ->. pose proof (cf_req _ _ _ _ _ _ _ _ K2) as K7. cbn in K7. injection K7 as <-.
  destruct K1 as (auth2 & Y1 & Y2). rewrite Hc1 in Y1. injection Y1 as <-. rewrite Hc2 in Y2. injection Y2 as <-.
  intros t Ht. destruct (K4 t Ht) as (m & r & B1 & _ & B3 & B4 & _ & B6 & _). exists m. auto.
Qed.

(** The client an authorization was for may redeem codes. *)
Lemma authorized_client E w xs h0 h1 h2 k q zres eff :
  history E w xs = (h0 ++ h1 ++ h2)%list -> authorize_ok_at h1 k q zres -> effective h1 k q eff ->
  exists c, w_clients w (zr_client_id zres) = Some c /\ listed E (cl_grant_types c) "authorization_code" /\
    listed E (cl_redirect_uris c) (zr_redirect_uri zres).
Proof.
  intros Hh Hz Heff.
  assert (Hz' : authorize_ok_at (history E w xs) k q zres).
  { destruct Hz as [[Z1 Z2] Z3]. split; auto. split; rewrite Hh, !in_app_iff; auto. }
  assert (Heff' : effective (history E w xs) k q eff).
  { destruct Heff as (r0 & R1 & [R2|(uri & R2 & R3)]); exists r0; split; auto.
    right. exists uri. split; auto. rewrite Hh, !in_app_iff; auto. }
  destruct (authorize_facts _ _ _ _ _ _ Hz') as (eff2 & ar & c & code & n & F1 & F2 & F3 & F4 & F5 & F6 & F7 & F8 & F9 & Hres & _).
  assert (eff2 = eff) as -> by (eapply effective_unique; eauto).
  pose proof (facts_normalized _ _ _ F2) as Hn. destruct Hn as (Hp & _).
  destruct Hp as (P1 & P2 & P3 & _).
  rewrite Hres. cbn [zr_client_id zr_redirect_uri]. exists c. split; [congruence|]. split; [apply F3|]. rewrite <- ?P3. apply F3.
Qed.

Lemma C03_every_reader_refuted_proof :
  forall E w xs h0 h1 h2 k q zres eff i req verifier o,
  no_faults xs ->
  history E w xs = (h0 ++ h1 ++ h2)%list -> (elapsed (h1 ++ h2) <= 60 * second)%N ->
  (* a user authorizes a client to act for them, for a scope with openid *)
  authorize_ok_at h1 k q zres -> effective h1 k q eff -> asks E (ar_scope eff) "openid" ->
  (* within a minute that client redeems the code *)
  In (EvStart i (RToken (Some req))) h2 -> In (EvDone i o) h2 ->
  by_client req (zr_client_id zres) -> tq_issuer req = zq_issuer q -> x_request_uri E (tq_issuer req) = true ->
  tq_grant_type req = "authorization_code"%string ->
  tq_grant req = GAuthorizationCode (zr_code zres) (zr_redirect_uri zres) verifier ->
  (43 <= String.length verifier <= 128)%nat -> b64url (x_sha256 E verifier) = ar_code_challenge eff ->
  zr_code zres <> ""%string -> (rune_count (zr_code zres) <= 1024)%nat ->
  generators_work (history E w xs) i ->
  (* nobody else was given that code *)
  (forall k' iss' code' s a, In (EvCall k' (CSessReg iss' code' s) a) (h1 ++ h2) ->
     sess_key E iss' code' = sess_key E (zq_issuer q) (zr_code zres) -> k' = k) ->
  (* and it is looked up before it is deleted, whoever else has looked it up *)
  (forall l1 a l2, history E w xs = (l1 ++ EvCall i (CSessGet (tq_issuer req) (zr_code zres)) a :: l2)%list ->
     forall j iss' code' b, In (EvCall j (CSessDel iss' code') b) l1 ->
     sess_key E iss' code' <> sess_key E (zq_issuer q) (zr_code zres)) ->
  exists res, o = Done (PToken res) /\ tr_err res = false /\ tr_at res <> None /\
    (asks E (ar_scope eff) "offline_access" -> ar_prompt eff = Some "consent"%string -> tr_rt res <> None).
Proof.
  intros E w xs h0 h1 h2 k q zres eff i req verifier o Hf Hh Hsh Hz Heff Hopen Hi1 Hi2 (auth & Hc1 & Hc2)
    Hiss Huri Hgt Hg Hlen Hch Hne Hrc Hgen Honce Honly.
  destruct (authorized_client E w xs h0 h1 h2 k q zres eff Hh Hz Heff) as (c & W1 & W2 & W3).
  rewrite <- Hc2 in W1.
  destruct (reader_redeems E w xs h0 h1 h2 k q zres eff i req verifier o auth c) as (ar & res & F & R1 & R2 & R3 & R4 & _); auto.
  exists res. do 3 (split; auto). intros G4 G5. apply R4.
  destruct (facts_normalized _ _ _ F) as (_ & _ & _ & _ & N). apply N; auto.
Qed.

(** ** C06: every client with that redirect URI can redeem the code *)

Lemma C06_any_client_refuted_proof :
  forall E w xs h0 h1 h2 k q zres eff i req c verifier o,
  registry_ok w -> no_faults xs ->
  history E w xs = (h0 ++ h1 ++ h2)%list -> (elapsed (h1 ++ h2) <= 60 * second)%N ->
  (* a user authorizes a client to act for them, for a scope with openid *)
  authorize_ok_at h1 k q zres -> effective h1 k q eff -> asks E (ar_scope eff) "openid" ->
  (* within a minute a client with the same redirect URI redeems the code *)
  In (EvStart i (RToken (Some req))) h2 -> In (EvDone i o) h2 ->
  client_of w req c -> listed E (cl_grant_types c) "authorization_code" ->
  listed E (cl_redirect_uris c) (zr_redirect_uri zres) ->
  tq_issuer req = zq_issuer q -> x_request_uri E (tq_issuer req) = true ->
  tq_grant_type req = "authorization_code"%string ->
  tq_grant req = GAuthorizationCode (zr_code zres) (zr_redirect_uri zres) verifier ->
  (43 <= String.length verifier <= 128)%nat -> b64url (x_sha256 E verifier) = ar_code_challenge eff ->
  zr_code zres <> ""%string -> (rune_count (zr_code zres) <= 1024)%nat ->
  generators_work (history E w xs) i ->
  (* nobody else was given that code, and it is looked up before it is deleted *)
  (forall k' iss' code' s a, In (EvCall k' (CSessReg iss' code' s) a) (h1 ++ h2) ->
     sess_key E iss' code' = sess_key E (zq_issuer q) (zr_code zres) -> k' = k) ->
  (forall l1 a l2, history E w xs = (l1 ++ EvCall i (CSessGet (tq_issuer req) (zr_code zres)) a :: l2)%list ->
     forall j iss' code' b, In (EvCall j (CSessDel iss' code') b) l1 ->
     sess_key E iss' code' <> sess_key E (zq_issuer q) (zr_code zres)) ->
  (* it gets an access token for that user, whichever client was authorized *)
  exists res t m, o = Done (PToken res) /\ tr_err res = false /\ tr_at res = Some t /\ t_meta t = Some m /\
    m_subject m = zq_subject q /\ by_client req (m_client_id m).
Proof.
  intros E w xs h0 h1 h2 k q zres eff i req c verifier o Hreg Hf Hh Hsh Hz Heff Hopen Hi1 Hi2 (auth & Hc1 & Hc2) Hl1 Hl2
    Hiss Huri Hgt Hg Hlen Hch Hne Hrc Hgen Honce Honly.
  destruct (reader_redeems E w xs h0 h1 h2 k q zres eff i req verifier o auth c) as (ar & res & F & R1 & R2 & R3 & R4 & R5); auto.
  destruct (tr_at res) as [t|] eqn:Ht; [|destruct (R3 eq_refl)].
  destruct (R5 t) as (m & M1 & M2 & _ & M3); [unfold tokens_of; rewrite Ht; left; reflexivity|].
  exists res, t, m. split; [exact R1|]. split; [exact R2|]. split; [exact Ht|]. split; [exact M1|]. split; [exact M2|]. exists auth. split; auto. rewrite M3. symmetry. apply Hreg. exact Hc2.
Qed.

(** ** C27: offline_access listed twice is granted without consent *)

Lemma remove_first_leaves f l x l1 a l2 b l3 : l = (l1 ++ a :: l2 ++ b :: l3)%list -> fold_eq f x a -> fold_eq f x b ->
  exists y, In y (remove_first f l x) /\ fold_eq f x y.
Proof.
  intros -> Ha Hb. induction l1 as [|z l1 IH]; cbn [remove_first app].
  - destruct (equal_fold f x a) eqn:Hz; exists b.
    + split; auto. apply in_or_app. right. left. reflexivity.
    + apply equal_fold_iff in Ha. congruence.
  - destruct (equal_fold f x z).
    + exists b. split; auto. apply in_or_app. right. right. apply in_or_app. right. left. reflexivity.
    + destruct IH as (y & Y1 & Y2). exists y. split; auto. right. exact Y1.
Qed.

Lemma C27_listed_twice_refuted_proof :
  forall E w xs h0 h1 h2 k q zres eff i req verifier o,
  no_faults xs ->
  history E w xs = (h0 ++ h1 ++ h2)%list -> (elapsed (h1 ++ h2) <= 60 * second)%N ->
  (* a user authorizes a client, which names offline_access twice and need not ask for consent *)
  authorize_ok_at h1 k q zres -> effective h1 k q eff -> asks E (ar_scope eff) "openid" ->
  asks_twice E (ar_scope eff) "offline_access" ->
  (* within a minute that client redeems the code *)
  In (EvStart i (RToken (Some req))) h2 -> In (EvDone i o) h2 ->
  by_client req (zr_client_id zres) -> tq_issuer req = zq_issuer q -> x_request_uri E (tq_issuer req) = true ->
  tq_grant_type req = "authorization_code"%string ->
  tq_grant req = GAuthorizationCode (zr_code zres) (zr_redirect_uri zres) verifier ->
  (43 <= String.length verifier <= 128)%nat -> b64url (x_sha256 E verifier) = ar_code_challenge eff ->
  zr_code zres <> ""%string -> (rune_count (zr_code zres) <= 1024)%nat ->
  generators_work (history E w xs) i ->
  (* nobody else was given that code, and it is looked up before it is deleted *)
  (forall k' iss' code' s a, In (EvCall k' (CSessReg iss' code' s) a) (h1 ++ h2) ->
     sess_key E iss' code' = sess_key E (zq_issuer q) (zr_code zres) -> k' = k) ->
  (forall l1 a l2, history E w xs = (l1 ++ EvCall i (CSessGet (tq_issuer req) (zr_code zres)) a :: l2)%list ->
     forall j iss' code' b, In (EvCall j (CSessDel iss' code') b) l1 ->
     sess_key E iss' code' <> sess_key E (zq_issuer q) (zr_code zres)) ->
  exists res t m, o = Done (PToken res) /\ tr_err res = false /\ tr_rt res = Some t /\ t_meta t = Some m /\
    m_subject m = zq_subject q /\ asks E (m_scope m) "offline_access".
Proof.
  intros E w xs h0 h1 h2 k q zres eff i req verifier o Hf Hh Hsh Hz Heff Hopen Htw Hi1 Hi2 (auth & Hc1 & Hc2)
    Hiss Huri Hgt Hg Hlen Hch Hne Hrc Hgen Honce Honly.
  destruct (authorized_client E w xs h0 h1 h2 k q zres eff Hh Hz Heff) as (c & W1 & W2 & W3).
  rewrite <- Hc2 in W1.
  destruct (reader_redeems E w xs h0 h1 h2 k q zres eff i req verifier o auth c) as (ar & res & F & R1 & R2 & R3 & R4 & R5); auto.
  assert (Hoff : asks E (ar_scope ar) "offline_access").
  { destruct Htw as (l1 & a & l2 & b & l3 & T1 & T2 & T3). destruct F as [_ _ _ _ _ _ _ _ ->]. cbn [ar_scope set_scope].
    unfold asks. cbn. rewrite clean_scope_fields. match goal with |- context[if ?b then _ else _] => destruct b end.
    - destruct (remove_first_leaves (x_fold E) _ "offline_access"%string l1 a l2 b l3 T1 T2 T3) as (y & Y1 & Y2).
      exists y. auto.
    - exists a. split; auto. rewrite T1. apply in_or_app. right. left. reflexivity. }
  pose proof (proj1 R4 Hoff) as R6. destruct (tr_rt res) as [t|] eqn:Ht; [|destruct (R6 eq_refl)].
  destruct (R5 t) as (m & M1 & M2 & M3 & _).
  { unfold tokens_of. rewrite Ht. apply in_or_app. right. left. reflexivity. }
  exists res, t, m. split; [exact R1|]. split; [exact R2|]. split; [exact Ht|]. split; [exact M1|]. split; [exact M2|].
  rewrite M3. exact Hoff.
Qed.

(** ** C09: a refresh token works until it is revoked *)

Lemma C09_unrevoked_refuted_proof :
  forall E w xs h1 h2 k req0 res0 t m i req c o,
  no_tokens w -> no_faults xs -> no_reuse E (history E w xs) -> history E w xs = (h1 ++ h2)%list ->
  (* a refresh token was handed out *)
  token_ok h1 k req0 res0 -> In t (tokens_of res0) -> t_type t = TtRefresh -> t_meta t = Some m ->
  (* later its client presents it, where it was issued and before it expires *)
  In (EvStart i (RToken (Some req))) h2 -> In (EvDone i o) h2 ->
  tq_grant_type req = "refresh_token"%string -> tq_grant req = GRefreshToken (t_value t) ->
  tq_issuer req = m_issuer m -> tq_issuer req <> ""%string -> x_request_uri E (tq_issuer req) = true ->
  client_of w req c -> cl_id c = m_client_id m -> listed E (cl_grant_types c) "refresh_token" ->
  (unix (clock w (history E w xs)) <= m_expires_at m)%N -> generators_work (history E w xs) i ->
  (* and it is looked up before it is revoked, however often it was used *)
  (forall l1 a l2, history E w xs = (l1 ++ EvCall i (CTokGet (tq_issuer req) (t_value t)) a :: l2)%list ->
     forall j iss' b, ~ In (EvCall j (CTokRevoke iss' (t_id t)) b) l1) ->
  exists res, o = Done (PToken res) /\ tr_err res = false /\ tr_at res <> None.
Proof.
  intros E w xs h1 h2 k req0 res0 t m i req c o Hn Hf Hu Hh Hok0 Ht Hty Hm Hi1 Hi2 Hgt Hg Hiss Hie Huri (auth & Hc1 & Hc2) Hcid Hl
    Hexp Hgen Honly.
  assert (Hok : token_ok (history E w xs) k req0 res0).
  { destruct Hok0 as [[Z1 Z2] Z3]. split; auto. split; rewrite Hh, in_app_iff; auto. }
  assert (Hi1' : In (EvStart i (RToken (Some req))) (history E w xs)) by (rewrite Hh; rewrite in_app_iff; auto).
  assert (Hi2' : In (EvDone i o) (history E w xs)) by (rewrite Hh; rewrite in_app_iff; auto).
  destruct (response_created _ _ _ _ _ _ _ Hok Ht) as (iss & m' & r & R1 & R2 & R3 & R4 & _ & _ & _ & _).
  assert (m' = m) as -> by congruence. clear R3.
  pose proof R1 as R1'. apply in_split in R1' as (A & B & HA).
  destruct (write_reason _ _ _ _ _ _ _ _ HA) as (rq & _ & req1 & _ & J).
  pose proof (refresh_issuer _ _ _ _ _ _ J Hty Hm) as <-. clear J.
  pose proof (created_active _ _ _ _ _ _ _ _ _ HA) as Hact.
  destruct (call_in_done E w xs h1 h2 k _ _ _ _ _ Hh (proj2 (proj1 Hok0)) HA) as (u & Hu1 & ->).
  (* what i reads *)
  assert (Hread : forall rd, In (EvCall i (CTokGet (tq_issuer req) (t_value t)) (ATok rd)) (history E w xs) ->
    exists t', rd = SOk t' /\ copy_of t t' /\ t_status t' = TsActive).
  { intros rd Hrd. destruct (call_in_later _ _ _ _ _ _ _ _ _ Hh Hi1 Hrd) as (l1 & l2 & ->).
    assert (HB : history E w xs = ((A ++ EvCall k (CTokCreate (m_issuer m) t) (AUnit r) :: (u ++ l1)) ++
       EvCall i (CTokGet (tq_issuer req) (t_value t)) (ATok rd) :: l2)%list) by (rewrite HA; list_eq).
    pose proof (history_ftrace E w xs Hf) as Tf. rewrite HB in Tf.
    destruct (ftrace_at _ _ _ _ _ _ _ _ Tf) as (wm & oo & w1 & T1 & T2 & T3 & T4).
    destruct (full_tok _ _ _ _ T3 _ _ _ T2) as (_ & Hrt). rewrite HB in Hu. apply no_reuse_app in Hu.
    destruct (created_stays _ _ _ _ _ _ _ _ _ Hn Hu (ftrace_wtrace _ _ _ _ T1)) as (t' & S1 & S2 & S3); auto.
    rewrite Hiss, S1 in Hrt. exists t'. split; auto. split; auto. destruct S3 as [S3|(_ & j & is2 & a2 & S3)]; auto. exfalso.
    eapply (Honly _ _ _ HB). apply in_or_app; right; right. exact S3. }
  pose (Pz := fun o : outcome response => match o with
     | Done (PToken res) => tr_err res = false /\ tr_at res <> None
     | _ => False end).
  assert (Hfin : Pz o).
  { eapply (ends_history E w xs i (RToken (Some req)) o Pz
       (refresh_good (cl_id auth) c (tq_issuer req) (t_value t) (t_id t) m (unix (clock w (history E w xs)))) Hi1' Hi2').
    - intros c0 a Hin. split; [eapply history_typed; exact Hin|].
      pose proof Hin as Hin'. apply in_split in Hin' as (l1 & l2 & Hl12).
      pose proof (history_ftrace E w xs Hf) as Tf. rewrite Hl12 in Tf.
      destruct (ftrace_at _ _ _ _ _ _ _ _ Tf) as (wm & oo & w1 & T1 & T2 & T3 & T4). apply ftrace_wtrace in T1.
      destruct c0; auto; destruct a; auto.
      + apply read_now in T2 as [-> _]. rewrite (wtrace_now _ _ _ _ T1). fold (clock w l1).
        apply unix_mono. rewrite Hl12. apply clock_app.
      + destruct (Hgen _ _ (or_introl Hin)) as (v & X & Hv). injection X as ->. eauto.
      + destruct (Hgen _ _ (or_intror Hin)) as (v & X & Hv). injection X as ->. eauto.
      + intros ->. cbn in T2. rewrite T3 in T2. cbn in T2. injection T2 as <- _.
        apply wtrace_const in T1 as (X & _). rewrite X, Hc2. reflexivity.
      + intros -> ->. destruct (Hread _ Hin) as (t' & -> & (C1 & C2 & C3 & C4) & Hs). exists t'. repeat split; congruence.
      + pose proof (full_write _ _ _ _ T3 _ _ T2) as Hwk. cbn in Hwk.
        destruct Hwk as [Hwk|(x & y & X & _)]; [exact Hwk|discriminate].
      + intros ->. pose proof (history_ftrace E w xs Hf) as Tf'. rewrite HA in Tf'.
        change (ans_ok (AUnit r0) = true). eapply (revoke_succeeds _ _ _ _ _ _ _ _ _ _ _ _ Tf').
        destruct (call_in_later _ _ _ _ _ _ _ _ _ Hh Hi1 Hin) as (e1 & e2 & ->).
        apply in_or_app; right. apply in_or_app; right; left. reflexivity.
    - cbn [serve]. unfold pmap. apply ends_bind. eapply ends_weaken.
      2: { eapply (refresh_ends E auth c (t_value t) (t_id t) m _ req); try eassumption; try congruence; auto. }
      intros [o'|]; cbn; auto. }
  destruct o as [[res| | | | | | | |]|]; try (destruct Hfin; fail). destruct Hfin as (G1 & G2). eauto.
Qed.

(** ** C11: anybody revokes *)

Lemma revoke_ends E auth req id0 :
  vq_client req = Some auth -> vq_issuer req <> ""%string -> x_request_uri E (vq_issuer req) = true -> vq_token req <> ""%string ->
  ends (fun c a => typed c a /\ match c, a with
     | CClientGet id, AClient r => id = cl_id auth -> exists c, r = SOk c
     | CTokGet iss v, ATok r => iss = vq_issuer req -> v = vq_token req -> exists t, r = SOk t /\ t_id t = id0
     | CTokRevoke _ id, AUnit r => id = id0 -> is_ok r = true
     | _, _ => True end)
    (fun o => match o with Done res => rr_err res = false | Crashed => False end) (revoke_svc E (Some req)).
Proof.
  intros H1 H2 H3 H4. apply is_empty_false in H2, H4. unfold revoke_svc. rewrite H2, H3, H1, H4. cbn [negb].
  intros a [Ha1 Ha2]; destruct a; cbn in Ha1; try destruct Ha1. destruct (Ha2 eq_refl) as (c & ->).
  clear Ha2. intros a [Ha1 Ha2]; destruct a; cbn in Ha1; try destruct Ha1. destruct (Ha2 eq_refl eq_refl) as (t & -> & Ht).
  clear Ha2. intros a [Ha1 Ha2]; destruct a; cbn in Ha1; try destruct Ha1. cbn in Ha2. rewrite (Ha2 Ht). reflexivity.
Qed.

Lemma C11_anyone_refuted_proof : forall E w xs h1 h2 t i q auth c o,
  no_tokens w -> no_faults xs -> no_reuse E (history E w xs) -> history E w xs = (h1 ++ h2)%list ->
  (* whatever token is stored, and whoever's *)
  stored_as E h1 (vq_issuer q) (vq_token q) t ->
  (* any registered client that presents its value *)
  In (EvStart i (RRevoke (Some q))) h2 -> In (EvDone i o) h2 ->
  vq_client q = Some auth -> w_clients w (cl_id auth) = Some c ->
  vq_token q <> ""%string -> vq_issuer q <> ""%string -> x_request_uri E (vq_issuer q) = true ->
  (* revokes it *)
  exists res, o = Done (PRevoke res) /\ rr_err res = false.
Proof.
  intros E w xs h1 h2 t i q auth c o Hn Hf Hu Hh (k & iss & a & Hc & Hkey) Hi1 Hi2 Hq1 Hq2 Hq3 Hq4 Hq5.
  assert (Hi1' : In (EvStart i (RRevoke (Some q))) (history E w xs)) by (rewrite Hh; apply in_or_app; auto).
  assert (Hi2' : In (EvDone i o) (history E w xs)) by (rewrite Hh; apply in_or_app; auto).
  assert (Hc' : In (EvCall k (CTokCreate iss t) a) (history E w xs)) by (rewrite Hh; apply in_or_app; auto).
  pose proof (history_reliable _ _ _ _ _ _ Hf Hc') as [Ty Hok]. destruct a as [| | | | | | | | | | |ru]; try (destruct Ty; fail). cbn in Hok.
  apply in_split in Hc as (A & u & ->).
  assert (HA : history E w xs = (A ++ EvCall k (CTokCreate iss t) (AUnit ru) :: u ++ h2)%list) by (rewrite Hh; list_eq).
  pose proof (created_active _ _ _ _ _ _ _ _ _ HA) as Hact.
  assert (Hread : forall rd, In (EvCall i (CTokGet (vq_issuer q) (vq_token q)) (ATok rd)) (history E w xs) ->
    exists t', rd = SOk t' /\ t_id t' = t_id t).
  { intros rd Hrd. destruct (call_in_later _ _ _ _ _ _ _ _ _ Hh Hi1 Hrd) as (l1 & l2 & ->).
    assert (HB : history E w xs = ((A ++ EvCall k (CTokCreate iss t) (AUnit ru) :: (u ++ l1)) ++
       EvCall i (CTokGet (vq_issuer q) (vq_token q)) (ATok rd) :: l2)%list) by (rewrite HA; list_eq).
    pose proof (history_ftrace E w xs Hf) as Tf. rewrite HB in Tf.
    destruct (ftrace_at _ _ _ _ _ _ _ _ Tf) as (wm & oo & w1 & T1 & T2 & T3 & T4).
    destruct (full_tok _ _ _ _ T3 _ _ _ T2) as (_ & Hrt). rewrite HB in Hu. apply no_reuse_app in Hu.
    destruct (created_stays _ _ _ _ _ _ _ _ _ Hn Hu (ftrace_wtrace _ _ _ _ T1)) as (t' & S1 & S2 & S3); auto.
    rewrite <- Hkey, S1 in Hrt. exists t'. split; auto. destruct S2 as (C1 & C2 & C3 & C4). congruence. }
  pose (Pz := fun o : outcome response => match o with Done (PRevoke res) => rr_err res = false | _ => False end).
  assert (Hfin : Pz o).
  { eapply (ends_history E w xs i (RRevoke (Some q)) o Pz _ Hi1' Hi2').
    2: { cbn [serve]. unfold pmap. apply ends_bind. eapply ends_weaken.
         2: apply (revoke_ends E auth q (t_id t) Hq1 Hq4 Hq5 Hq3).
         intros [o'|]; cbn; auto. }
    intros c0 b Hin. pose proof (history_reliable _ _ _ _ _ _ Hf Hin) as [T R]. split; [exact T|].
    destruct c0; auto; destruct b; auto.
    - intros ->. rewrite R, Hq2. eauto.
    - intros -> ->. apply Hread. exact Hin.
    - intros ->. pose proof (history_ftrace E w xs Hf) as Tf. rewrite HA in Tf.
      change (ans_ok (AUnit r) = true). eapply (revoke_succeeds _ _ _ _ _ _ _ _ _ _ _ _ Tf).
      destruct (call_in_later _ _ _ _ _ _ _ _ _ Hh Hi1 Hin) as (e1 & e2 & ->).
      apply in_or_app; right. apply in_or_app; right; left. reflexivity. }
  destruct o as [[| |res| | | | | |]|]; try (destruct Hfin; fail). eauto.
Qed.

(** ** C13: the requested scope is granted, whatever it is *)

Lemma C13_any_scope_refuted_proof : forall E w xs i req res scope,
  token_ok (history E w xs) i req res ->
  tq_grant_type req = "urn:ietf:params:oauth:grant-type:token-exchange"%string -> tq_scope req = Some scope ->
  exists nt mt, tr_at res = Some nt /\ tokens_of res = [nt] /\ t_meta nt = Some mt /\ m_scope mt = scope.
Proof.
  intros E w xs i req res scope Hok Hgt Hsc.
  destruct (exchange_facts _ _ _ _ _ _ Hok Hgt) as (value & c & st & m & h1 & h2 & nt & r & mt &
    F1 & F2 & F3 & F4 & F5 & F6 & F7 & F8 & F9 & F10 & F11 & F12 & F13 & F14 & F15 & F16 & F17 & F18 & F19 & F20 & _).
  exists nt, mt. rewrite F20, Hsc. auto.
Qed.

(** ** C33: an assertion is accepted as long as it has not expired *)

Lemma assertion_again E req tr res a cl c :
  reach (private_key_jwt E (Some req)) tr (Ret res) -> aa_err res = false -> aa_client res = Some c ->
  aq_assertion req = Some a -> x_payload E KAssertion a = Some cl ->
  ends (fun k b => typed k b /\ match k, b with
     | CNow, ATime t => (unix t <= c_exp cl)%N
     | CClientGet id, AClient r => id = c_iss cl -> r = SOk c
     | _, _ => True end)
    (fun o => o = Done (aok (Some c))) (private_key_jwt E (Some req)).
Proof.
  intros H Hok Hcl Ha Hp. unfold private_key_jwt in *.
  destruct (assertion_of assertion_bearer req) as [a'|] eqn:Has; [|rstep H; subst; discriminate].
  apply assertion_of_ok in Has as (_ & Ha2 & _). assert (a' = a) as -> by congruence.
  destruct (negb (x_parse_jose E a)); [rstep H; subst; discriminate|]. rewrite Hp in *.
  match type of H with reach (if ?b then _ else _) _ _ => destruct b; [rstep H; subst; discriminate|] end.
  destruct (negb (String.eqb (c_iss cl) (c_sub cl))); [rstep H; subst; discriminate|].
  rcall H t. destruct (c_exp cl <? unix t)%N; [rstep H; subst; discriminate|].
  rcall H rc. destruct rc as [c'| | |]; try (rstep H; subst; discriminate).
  destruct (is_empty (cl_jwks c')) eqn:E1; [rstep H; subst; discriminate|].
  destruct (x_jwks E (cl_jwks c')) as [keys|] eqn:E2; [|rstep H; subst; discriminate].
  destruct (validate_signature E keys a) eqn:E3; [|rstep H; subst; discriminate].
  rstep H. subst. cbn in Hcl. injection Hcl as ->.
  intros b [T1 T2]; destruct b; cbn in T1; try destruct T1. cbn in T2. apply N.ltb_ge in T2. rewrite T2. clear T2.
  intros b [T1 T2]; destruct b; cbn in T1; try destruct T1. rewrite (T2 eq_refl), E1, E2, E3. reflexivity.
Qed.

Lemma C33_until_expiry_refuted_proof : forall E w xs i j req a cl c o,
  no_faults xs -> authenticates (history E w xs) i (RAssertion (Some req)) c ->
  aq_assertion req = Some a -> x_payload E KAssertion a = Some cl -> (unix (clock w (history E w xs)) <= c_exp cl)%N ->
  (* whoever presents it again, before or after *)
  In (EvStart j (RAssertion (Some req))) (history E w xs) -> In (EvDone j o) (history E w xs) ->
  authenticates (history E w xs) j (RAssertion (Some req)) c.
Proof.
  intros E w xs i j req a cl c o Hf (res & Hans & Hok & Hcl) Ha Hp Hexp Hj1 Hj2.
  pose proof (answered_runs _ _ _ _ _ _ Hans) as Hr. cbn in Hr. apply reach_pmap_ret in Hr as (res' & X & Hr). injection X as <-.
  destruct (private_key_jwt_ok _ _ _ _ Hr Hok) as (a' & cl' & t & c' & keys & k & _ & G1 & _ & G2 & _ & _ & _ & _ & _ & _ & _ & _ & _ & G3 & G4).
  assert (a' = a) as -> by congruence. assert (cl' = cl) as -> by congruence.
  rewrite G4 in Hcl. cbn in Hcl. injection Hcl as ->.
  assert (Hget : In (EvCall i (CClientGet (c_iss cl)) (AClient (SOk c))) (history E w xs)).
  { apply in_calls_of. rewrite G3. right; left; reflexivity. }
  pose proof (history_reliable _ _ _ _ _ _ Hf Hget) as [_ R]. cbn in R.
  assert (Hw : w_clients w (c_iss cl) = Some c) by (destruct (w_clients w (c_iss cl)); congruence).
  assert (Hfin : o = Done (PAuthn (aok (Some c)))).
  { eapply (ends_history E w xs j (RAssertion (Some req)) o (fun o => o = Done (PAuthn (aok (Some c)))) _ Hj1 Hj2).
    2: { cbn [serve]. unfold pmap. apply ends_bind. eapply ends_weaken.
         2: { eapply (assertion_again E req _ res a cl c Hr); auto. rewrite G4. reflexivity. }
         intros ? ->. reflexivity. }
    intros c0 b Hin. pose proof (history_reliable _ _ _ _ _ _ Hf Hin) as [T R0]. split; [exact T|].
    destruct c0; auto; destruct b; auto.
    - apply in_split in Hin as (l1 & l2 & Hl). pose proof (history_ftrace E w xs Hf) as Tf. rewrite Hl in Tf.
      destruct (ftrace_at _ _ _ _ _ _ _ _ Tf) as (wm & oo & w1 & T1 & T2 & T3 & T4). apply ftrace_wtrace in T1.
      apply read_now in T2 as [-> _]. rewrite (wtrace_now _ _ _ _ T1). fold (clock w l1).
      eapply N.le_trans; [|exact Hexp]. apply unix_mono. rewrite Hl. apply clock_app.
    - intros ->. rewrite R0, Hw. reflexivity. }
  subst o. exists (aok (Some c)). split; [split; auto|]. split; reflexivity.
Qed.

(** ** C37: a proof is accepted by every verification that finds it new *)

Lemma proof_again E htm htu proof tv tc tr thumb cl :
  reach (dpop_verify E htm htu proof tv tc) tr (Ret (Some thumb)) -> x_payload E KDpop proof = Some cl ->
  ends (fun k b => typed k b /\ match k, b with
     | CNow, ATime t => (unix (t - dpop_threshold) <= c_iat cl <= unix (t + dpop_threshold))%N
     | CProofExists id, ABool r => id = proof_id E cl -> r = SOk false
     | CProofReg _, AUnit r => is_ok r = true
     | _, _ => True end)
    (fun o => o = Done (Some thumb)) (dpop_verify E htm htu proof tv tc).
Proof.
  intros H Hp. unfold dpop_verify in *.
  destruct (is_empty htm || is_empty htu || is_empty proof); [rstep H; discriminate|].
  destruct (negb (x_request_uri E htu)); [rstep H; discriminate|].
  match type of H with reach (if ?b then _ else _) _ _ => destruct b; [rstep H; discriminate|] end.
  destruct (x_parse E proof) as [t|]; [|rstep H; discriminate].
  destruct (j_typ t) as [typ|]; [|rstep H; discriminate].
  destruct (j_jwk t) as [k|]; [|rstep H; discriminate].
  destruct (negb (String.eqb typ dpop_type)); [rstep H; discriminate|].
  unfold token_claims, token_decode in *. destruct (x_verify E k proof); [|rstep H; discriminate]. rewrite Hp in *.
  destruct (is_empty (x_url_string E htu)); [rstep H; discriminate|].
  destruct (negb (String.eqb (c_htm cl) htm)); [rstep H; discriminate|].
  destruct (negb (String.eqb (c_htu cl) (x_url_string E htu))); [rstep H; discriminate|].
  rcall H t1. destruct (c_iat cl <? unix (t1 - dpop_threshold))%N; [rstep H; discriminate|].
  rcall H t2. destruct (unix (t2 + dpop_threshold) <? c_iat cl)%N; [rstep H; discriminate|].
  cbv zeta in *. rcall H e.
  assert (Hd : dpop_finish E k cl tv tc = Some thumb).
  { destruct e as [[]| | |]; try (rstep H; discriminate); rcall H r; (destruct (is_ok r); [|rstep H; discriminate]); rstep H; congruence. }
  clear H.
  intros b [T1 T2]; destruct b; cbn in T1; try destruct T1. cbn in T2. destruct T2 as [T2 _]. apply N.ltb_ge in T2. rewrite T2. clear T2.
  intros b [T1 T2]; destruct b; cbn in T1; try destruct T1. cbn in T2. destruct T2 as [_ T2]. apply N.ltb_ge in T2. rewrite T2. clear T2.
  intros b [T1 T2]; destruct b; cbn in T1; try destruct T1. rewrite (T2 eq_refl). clear T2.
  intros b [T1 T2]; destruct b; cbn in T1; try destruct T1. cbn in T2. rewrite T2. cbn. congruence.
Qed.

Lemma C37_every_checker_refuted_proof : forall E w xs i j htm htu proof tv tc thumb cl o,
  no_faults xs -> dpop_accepts (history E w xs) i htm htu proof tv tc thumb -> x_payload E KDpop proof = Some cl ->
  (* another verification of that proof, while it is fresh, *)
  In (EvStart j (RDpop htm htu proof tv tc)) (history E w xs) -> In (EvDone j o) (history E w xs) ->
  (forall t, In (EvCall j CNow (ATime t)) (history E w xs) ->
     unix (t - 15 * second) <= c_iat cl <= unix (t + 15 * second))%N ->
  (* that finds it new *)
  (forall a, In (EvCall j (CProofExists (proof_id E cl)) a) (history E w xs) -> a = ABool (SOk false)) ->
  dpop_accepts (history E w xs) j htm htu proof tv tc thumb.
Proof.
  intros E w xs i j htm htu proof tv tc thumb cl o Hf Hacc Hp Hj1 Hj2 Htime Hnew.
  pose proof (answered_runs _ _ _ _ _ _ Hacc) as Hr. cbn in Hr. apply reach_pmap_ret in Hr as (res' & X & Hr). injection X as <-.
  assert (Hfin : o = Done (PDpop (Some thumb))).
  { eapply (ends_history E w xs j (RDpop htm htu proof tv tc) o (fun o => o = Done (PDpop (Some thumb))) _ Hj1 Hj2).
    2: { cbn [serve]. unfold pmap. apply ends_bind. eapply ends_weaken; [|eapply (proof_again E htm htu proof tv tc _ thumb cl Hr Hp)].
         intros ? ->. reflexivity. }
    intros c0 b Hin. pose proof (history_reliable _ _ _ _ _ _ Hf Hin) as [T R0]. split; [exact T|].
    destruct c0; auto; destruct b; auto.
    intros ->. pose proof (Hnew _ Hin) as X. injection X. auto. }
  subst o. split; auto.
Qed.

(** ** C16: every poll for an approved code gives tokens *)

Lemma C16_every_poll_refuted_proof : forall E w xs h0 h1 h2 d dq dres k q vres req c code polls,
  blank w -> no_faults xs -> no_reuse E (history E w xs) ->
  (* the store marks new device sessions as pending, valid for 120 s *)
  w_stamp w = stamping 120 ->
  history E w xs = (h0 ++ h1 ++ h2)%list -> (elapsed (h1 ++ h2) <= 120 * second)%N ->
  device_codes_apart E (history E w xs) ->
  (* a device asks for codes, a user approves *)
  answered h1 d (RDevAuthorize (Some dq)) (PDevAuthorize dres) -> dv_err dres = false ->
  answered h1 k (RDevValidate (Some q)) (PDevValidate vres) -> vr_err vres = false ->
  vv_issuer q = dr_issuer dq -> vv_user_code q = dv_user_code dres ->
  (* then the device polls, any number of times *)
  NoDup polls ->
  (forall i, In i polls -> In (EvStart i (RToken (Some req))) h2 /\ (exists o, In (EvDone i o) h2) /\
     generators_work (history E w xs) i) ->
  tq_grant_type req = "urn:ietf:params:oauth:grant-type:device_code"%string ->
  tq_grant req = GDeviceCode code -> code = dv_device_code dres -> code <> ""%string ->
  tq_issuer req = dr_issuer dq -> x_request_uri E (tq_issuer req) = true ->
  client_of w req c -> cl_id c = dr_client_id dq -> listed E (cl_grant_types c) "urn:ietf:params:oauth:grant-type:device_code" ->
  (* and gets as many different tokens *)
  exists tokens, Forall2 (fun i t => exists res, token_ok (history E w xs) i req res /\ tr_at res = Some t) polls tokens /\
    NoDup (map t_id tokens).
Proof.
  intros E w xs h0 h1 h2 d dq dres k q vres req c code polls Hb Hf Hu Hst Hh Hel Hap Hd1 Hd2 Hk1 Hk2 Hq1 Hq2 Hnd Hpolls
    Hgt Hg Hco Hne Hiss Huri Hc Hcid Hl.
  assert (One : forall i, In i polls -> exists t res, token_ok (history E w xs) i req res /\ tr_at res = Some t).
  { intros i Hi. destruct (Hpolls i Hi) as (P1 & (o & P2) & P3).
    destruct (C15_approved_device_gets_tokens_partial_proof E w xs h0 h1 h2 d dq dres k q vres i req c code o)
      as (res & -> & R1 & R2); try assumption.
    destruct (tr_at res) as [t|] eqn:Ht; [|congruence]. exists t, res. split; [|exact Ht].
    split; [|exact R1]. split; rewrite Hh, !in_app_iff; auto. }
  clear Hpolls. induction polls as [|i polls IH]; [exists []; split; constructor|].
  apply NoDup_cons_iff in Hnd as [Hn Hnd]. destruct IH as (ts & F & N); [exact Hnd|intros j Hj; apply One; right; exact Hj|].
  destruct (One i (or_introl eq_refl)) as (t & res & T1 & T2). exists (t :: ts). split; [constructor; eauto|].
  cbn [map]. constructor; [|exact N]. intros Hin. apply in_map_iff in Hin as (t' & Hid & Hin).
  assert (Y : exists j res', In j polls /\ token_ok (history E w xs) j req res' /\ tr_at res' = Some t').
  { clear - F Hin. induction F as [|j x l l' (r & A & B) F IH]; [destruct Hin|].
    destruct Hin as [->|Hin]; [exists j, r; split; [left; reflexivity|auto]|].
    destruct (IH Hin) as (j' & r' & X & Y). exists j', r'. split; [right; exact X|exact Y]. }
  destruct Y as (j & res' & Hj & U1 & U2).
  assert (In t (tokens_of res)) as I1 by (unfold tokens_of; rewrite T2; left; reflexivity).
  assert (In t' (tokens_of res')) as I2 by (unfold tokens_of; rewrite U2; left; reflexivity).
  destruct (response_created _ _ _ _ _ _ _ T1 I1) as (iss & m & r & R1 & _).
  destruct (response_created _ _ _ _ _ _ _ U1 I2) as (iss' & m' & r' & R1' & _).
  pose proof (same_creation _ _ _ _ _ _ _ _ _ _ Hu R1 R1' (eq_sym Hid)) as X. injection X as -> _ _ _. contradiction.
Qed.
