(** * What is bound to succeed over HTTP: refresh tokens and codes (proofs) *)

From Verif Require Export PfWebLive3.
From Coq Require Import Lia.

(** A service request of an HTTP request received later ends later. *)
Lemma done_later S w xs ys own (R : refined S w xs ys own) hh1 hh2 h1 h2 i e r j o :
  http_history S w xs = (hh1 ++ hh2)%list -> history (sv_ext S) w ys = (h1 ++ h2)%list ->
  explained S own hh1 h1 -> In (HvStart i e r) hh2 -> nth_error own j = Some i ->
  In (EvDone j o) (history (sv_ext S) w ys) -> In (EvDone j o) h2.
Proof.
  intros Hh Hy X Hi Hj Hd. rewrite Hy in Hd. apply in_app_or in Hd as [Hd|Hd]; auto. exfalso.
  destruct (trace_history (sv_ext S) w ys) as (sy & Ht & _). rewrite Hy in Ht. apply trace_app in Ht as (s1 & Ht & _).
  destruct (done_started _ _ _ _ _ _ Ht Hd) as (x & Hx).
  destruct (ex_start _ _ _ _ X _ _ Hx) as (i' & e' & r' & d' & O' & A' & _). rewrite Hj in O'. injection O' as <-.
  exact (not_again _ _ _ _ _ _ _ _ _ _ Hh A' Hi).
Qed.

(** The clients of the requests in a history are registered. *)
Lemma comes_registered S w hh i r c : registry_ok w -> comes_from S w hh i r c -> w_clients w (cl_id c) = Some c.
Proof.
  intros Hreg [(_ & H & _)|[(_ & _ & _ & _ & cl & keys & k & _ & _ & _ & _ & _ & _ & _ & H & _)|(_ & _ & e & h0 & h1 & _ & _ & A)]];
    [| |destruct A as (att & pop & ca & cp & attester & keys & k & key & A); assert (H : w_clients w (c_iss cp) = Some c) by apply A];
    rewrite (Hreg _ _ H); exact H.
Qed.

Lemma C99_web_refresh_works_proof :
  forall S w xs hh0 hh1 hh2 k r0 access0 expires0 type0 value scope0 i r c cnf o,
  let hh := http_history S w xs in
  registry_ok w -> no_tokens w -> hno_faults xs -> web_no_reuse (sv_ext S) hh -> hh = (hh0 ++ hh1 ++ hh2)%list ->
  (* client [c] is given a refresh token *)
  In (HvStart k EToken r0) hh1 -> In (HvDone k (Done (HToken access0 expires0 type0 value scope0))) hh1 ->
  value <> ""%string -> (forall c0, authenticated S w hh k r0 c0 -> c0 = c) ->
  (* it presents it within a week *)
  In (HvStart i EToken r) hh2 -> In (HvDone i o) hh2 -> (time_in (hh1 ++ hh2) <= 604800 * second)%N ->
  sends_refresh r value -> comes_from S w hh i r c -> holds S w hh i r c cnf ->
  listed (sv_ext S) (cl_grant_types c) "refresh_token" -> web_generators_work hh i ->
  (* nobody else uses it *)
  (forall j e r', In (HvStart j e r') hh -> web_uses_up S e r' value -> j = i) ->
  exists access expires refresh scope, access <> ""%string /\ o = Done (HToken access expires (type_sent cnf) refresh scope).
Proof.
  intros S w xs hh0 hh1 hh2 k r0 access0 expires0 type0 value scope0 i r c cnf o hh Hreg Hn Hf Hu Hh Hk1 Hk2 Hv Hown Hi1 Hi2
    Htime Hr Hc Hb Hl Hgen Honly. subst hh.
  destruct (http_refines S w xs) as (ys & own & R). pose proof (rf_faults _ _ _ _ _ R Hf) as Hf'.
  destruct (behind S w xs ys own R Hn _ _ _ _ _ _ _ _ _ _ Hreg Hh Hk1 Hk2)
    as (h0 & h1 & h2 & n & c0 & cnf0 & res & at_ & m & Hy & X0 & X1 & O & T & B1 & B2 & B3 & B4 & Erf & B5 & B6 & B7 & B8).
  assert (c0 = c) as -> by auto.
  destruct (tr_rt res) as [rt|] eqn:Hrt; [|congruence].
  assert (Hin : In rt (tokens_of res)) by (unfold tokens_of; rewrite Hrt; apply in_or_app; cbn; auto).
  destruct (B8 rt Hin) as (mt & a & C1 & C2 & C3 & C4 & C5 & C6 & C7 & C8 & C9).
  assert (Hy01 : history (sv_ext S) w ys = ((h0 ++ h1) ++ h2)%list) by (rewrite Hy; list_eq).
  assert (Hh01 : http_history S w xs = ((hh0 ++ hh1) ++ hh2)%list) by (rewrite Hh; list_eq).
  assert (T' : token_ok (history (sv_ext S) w ys) n (token_message (sv_issuer S) r0 c cnf0) res).
  { destruct T as [[T1 T2] T3]. split; auto. split; rewrite Hy01, in_app_iff; auto. }
  assert (Hty : t_type rt = TtRefresh).
  { pose proof (answered_runs _ _ _ _ _ _ (proj1 T')) as Hrun. cbn in Hrun. apply reach_pmap_ret in Hrun as (res' & [= <-] & Hrun).
    apply (response_stored _ _ _ _ Hrun (proj2 T')). exact Hrt. }
  rewrite Hty in C9.
  assert (Hreuse : no_reuse (sv_ext S) (history (sv_ext S) w ys)).
  { eapply same_reuse; [apply (ex_effects _ _ _ _ (rf_explained _ _ _ _ _ R))|exact Hu]. }
  assert (Hs : In (HvStart i EToken r) (http_history S w xs)) by (rewrite Hh01; apply in_or_app; auto).
  destruct (token_live S w xs ys own R Hf i r c cnf o Hc Hb) as (j & res2 & at2 & m2 & t2 & O2 & T2 & Hat2 & Hm2 & _ & ->).
  { exact Hs. }
  { rewrite Hh01; apply in_or_app; auto. }
  { intros j o' Oj H1 H2.
    eapply (C83_live_refresh_token_works_proof (sv_ext S) w ys (h0 ++ h1) h2 n _ res rt mt j _ c o' Hn Hf' Hreuse Hy01 T Hin Hty C4).
    - eapply made_later; eauto. rewrite <- Hy01; exact H1.
    - eapply done_later; eauto.
    - apply (proj1 Hr).
    - rewrite (message_refresh _ _ _ _ _ Hr). congruence.
    - cbn. congruence.
    - exact B6.
    - exact B7.
    - exists c. split; [reflexivity|]. eapply comes_registered; eauto.
    - congruence.
    - exact Hl.
    - rewrite (same_clock _ _ _ _ _ R), Hh, !time_app, C9. rewrite !time_app in Htime.
      assert (Q : (unix (w_now w + (time_in hh0 + (time_in hh1 + time_in hh2))) <= unix ((w_now w + time_in hh0) + 604800 * second))%N)
        by (apply unix_mono; lia).
      rewrite plus_seconds in Q. lia.
    - eapply same_generators; eauto.
    - intros j' rq Ha Hu'. destruct (made_for _ _ _ _ _ R _ _ Ha) as (i' & e' & r' & d' & O' & A' & _ & St).
      assert (Hii : i' = i).
      { apply (Honly i' e' r' A'). unfold uses_up in Hu'. destruct rq as [q|q|q|q|q|q|q|q|q|]; try contradiction; destruct q as [q|]; try contradiction; cbn [stage] in St.
        - destruct Hu' as (v & Hg & Hkey). destruct St as (-> & _ & c' & cnf' & _ & [= ->] & _). cbn [web_uses_up].
          rewrite C6, <- Erf in Hkey. cbn [token_message tq_issuer] in Hkey.
          unfold token_message in Hg. cbn [tq_grant] in Hg.
          repeat match type of Hg with context[if String.eqb ?a ?b then _ else _] => destruct (String.eqb_spec a b) as [?E|?E] end;
            try discriminate. injection Hg as <-. auto.
        - destruct St as (-> & c' & _ & [= ->]). cbn [web_uses_up]. cbn in Hu'. congruence. }
      subst i'. unfold uses_up in Hu'.
      destruct (started_one S w xs _ _ _ _ _ Hs A') as [-> ->].
      destruct rq as [q|q|q|q|q|q|q|q|q|]; try contradiction; cbn [stage] in St.
      + eapply (ex_once _ _ _ _ (rf_explained _ _ _ _ _ R)); eauto.
      + destruct St as [St _]; discriminate. }
  do 4 eexists. split; [|reflexivity].
  destruct (response_created (sv_ext S) w ys j (token_message (sv_issuer S) r c cnf) res2 at2) as (iss & m' & rr & _ & _ & _ & Hv2 & _); auto.
  unfold tokens_of. rewrite Hat2. cbn; auto.
Qed.

(** ** Codes *)

Lemma same_rest own hh1 hh2 h1 h2 : heffects hh1 = effects own h1 -> heffects (hh1 ++ hh2) = effects own (h1 ++ h2) ->
  heffects hh2 = effects own h2.
Proof.
  intros H1 H2. unfold heffects, effects in *. rewrite !flat_map_app in H2. rewrite H1 in H2. apply app_inv_head in H2. exact H2.
Qed.

Lemma asks_more E a b s : normalized E a b -> asks E (ar_scope b) s -> asks E (ar_scope a) s.
Proof.
  intros (_ & _ & H1 & H2 & _) Hs. destruct (equal_fold (x_fold E) "offline_access" s) eqn:Hq.
  - apply equal_fold_iff in Hq. destruct Hs as (y & Y1 & Y2). destruct H2 as (z & Z1 & Z2).
    + exists y. split; auto. unfold fold_eq in *. congruence.
    + exists z. split; auto. unfold fold_eq in *. congruence.
  - apply H1; auto. intros Q. apply equal_fold_iff in Q. congruence.
Qed.

Lemma C100_web_code_redeemed_proof :
  forall S w xs hh0 hh1 hh2 k q code subject ar a i r c cnf o,
  let hh := http_history S w xs in
  let E := sv_ext S in
  let verifier := form_value r "code_verifier" in
  registry_ok w -> hno_faults xs -> hh = (hh0 ++ hh1 ++ hh2)%list -> (time_in (hh1 ++ hh2) <= 60 * second)%N ->
  (* a user authorizes a client, which is sent a code *)
  In (HvStart k EAuthorize q) hh1 -> got_code hh1 k q ->
  In (HvCall k (CSessReg (sv_issuer S) code (mkSess (sv_issuer S) subject (Some ar))) a) hh1 ->
  asks E (ar_scope ar) "openid" ->
  (* within a minute this client redeems it *)
  In (HvStart i EToken r) hh2 -> In (HvDone i o) hh2 ->
  sends_code r code -> form_value r "redirect_uri" = ar_redirect_uri ar ->
  (43 <= String.length verifier <= 128)%nat -> b64url (x_sha256 E verifier) = ar_code_challenge ar ->
  comes_from S w hh i r c -> cl_id c = ar_client_id ar -> holds S w hh i r c cnf ->
  x_request_uri E (sv_issuer S) = true -> code <> ""%string -> (rune_count code <= 1024)%nat ->
  web_generators_work hh i ->
  (* nobody else has that code *)
  (forall k' iss' code' s a', In (HvCall k' (CSessReg iss' code' s) a') (hh1 ++ hh2) ->
     sess_key E iss' code' = sess_key E (sv_issuer S) code -> k' = k) ->
  (forall j r' code', In (HvStart j EToken r') hh -> sends_code r' code' ->
     sess_key E (sv_issuer S) code' = sess_key E (sv_issuer S) code -> j = i) ->
  exists access expires refresh scope, access <> ""%string /\ o = Done (HToken access expires (type_sent cnf) refresh scope) /\
    (asks E (ar_scope ar) "offline_access" -> ar_prompt ar = Some "consent"%string -> refresh <> ""%string).
Proof.
  intros S w xs hh0 hh1 hh2 k q code subject ar a i r c cnf o hh E verifier Hreg Hf Hh Htime Hk1 Hk2 Hcall Hopen Hi1 Hi2 [Hgt Hcode]
    Hred Hlen Hch Hc Hcid Hb Huri Hne Hrc Hgen Honce Honly. subst hh E verifier.
  destruct (http_refines S w xs) as (ys & own & R). pose proof (rf_faults _ _ _ _ _ R Hf) as Hf'.
  pose proof (rf_explained _ _ _ _ _ R) as X.
  destruct (rf_points _ _ _ _ _ R hh0 hh1 hh2 Hh) as (h0 & h1 & h2 & Hy & X0 & X1).
  assert (Hy01 : history (sv_ext S) w ys = ((h0 ++ h1) ++ h2)%list) by (rewrite Hy; list_eq).
  assert (Hh01 : http_history S w xs = ((hh0 ++ hh1) ++ hh2)%list) by (rewrite Hh; list_eq).
  pose proof (same_rest _ _ _ _ _ (ex_effects _ _ _ _ X0) (ex_effects _ _ _ _ X1)) as E1.
  pose proof (ex_effects _ _ _ _ X) as EX. rewrite Hh, Hy in EX.
  pose proof (same_rest _ _ _ _ _ (ex_effects _ _ _ _ X0) EX) as E12.
  assert (Hks : In (HvStart k EAuthorize q) (http_history S w xs)) by (rewrite Hh, !in_app_iff; auto).
  assert (Hk2' : got_code (hh0 ++ hh1) k q).
  { destruct Hk2 as (resp & [G1 G2] & G3). exists resp. split; auto. split; apply in_or_app; auto. }
  destruct (authorize_served _ _ _ _ _ _ X1 (one_start_history _ _ _ _ _ Hh01) Hk2')
    as (n & c0 & user & sub & front & zres & d & O & Z & P & L & _).
  assert (Hn1 : In (EvStart n (RAuthorize (Some (mkAuthzReq (sv_issuer S) sub (Some front))))) h1).
  { eapply (made_later S w xs own hh0 (hh1 ++ hh2) h0 h1 k EAuthorize q n _ Hh X0); [apply in_or_app; auto|exact O|apply Z]. }
  assert (Z1 : authorize_ok_at h1 n (mkAuthzReq (sv_issuer S) sub (Some front)) zres).
  { destruct Z as [[Za Zb] Zc]. split; auto. split; auto. apply in_app_or in Zb as [Zb|Zb]; auto. exfalso.
    destruct (trace_history (sv_ext S) w ys) as (sy & Ht & _). rewrite Hy in Ht. apply trace_app in Ht as (s1 & Ht & _).
    destruct (done_started _ _ _ _ _ _ Ht Zb) as (x & Hx).
    destruct (ex_start _ _ _ _ X0 _ _ Hx) as (i' & e' & r' & d' & O' & A' & _). rewrite O in O'. injection O' as <-.
    eapply (not_again _ _ _ _ _ _ _ _ _ _ Hh A'). apply in_or_app; left; exact Hk1. }
  assert (Z' : authorize_ok_at (history (sv_ext S) w ys) n (mkAuthzReq (sv_issuer S) sub (Some front)) zres).
  { destruct Z as [[Za Zb] Zc]. split; auto. split; rewrite Hy01; apply in_or_app; auto. }
  destruct (authorize_facts _ _ _ _ _ _ Z') as (eff & ar' & cc & code' & num' & F1 & F2 & F3 & F4 & F5 & F6 & F7 & F8 & F9 & Hres & _).
  cbn [zq_issuer zq_subject] in *.
  (* what makes a session for HTTP request k *)
  assert (Mine : forall k' iss' code'' s a', In (EvCall k' (CSessReg iss' code'' s) a') (history (sv_ext S) w ys) ->
     nth_error own k' = Some k -> k' = n).
  { intros k' iss' code'' s a' Hin O'. apply in_split in Hin as (l1 & l2 & Hl).
    destruct (write_reason _ _ _ _ _ _ _ _ Hl) as (rq & W1 & req & r0 & r1 & c1 & -> & _).
    eapply (ex_once _ _ _ _ X k' _ n); [rewrite Hl; apply in_or_app; eauto|apply Z'|exact O'|exact O|reflexivity]. }
  apply in_heffects in Hcall; [|reflexivity]. rewrite E1 in Hcall. apply in_effects in Hcall as (n' & On & Hcall); [|reflexivity].
  assert (Hcall' : In (EvCall n' (CSessReg (sv_issuer S) code (mkSess (sv_issuer S) subject (Some ar))) a) (history (sv_ext S) w ys))
    by (rewrite Hy; rewrite !in_app_iff; auto).
  assert (n' = n) as -> by eauto.
  destruct (F9 _ _ _ _ Hcall') as (_ & -> & Q). injection Q as <- <-.
  pose proof (facts_normalized _ _ _ F2) as Hnorm. destruct (proj1 Hnorm) as (P1 & P2 & P3 & P4 & P5 & P6 & P7 & P8 & P9 & _).
  assert (Hefe : effective h1 n (mkAuthzReq (sv_issuer S) subject (Some front)) eff).
  { destruct F1 as (r0 & R1 & [R2|(uri & R2 & R3)]); exists r0; split; auto. right. exists uri. split; auto.
    apply in_split in R3 as (l1 & l2 & Hl).
    destruct (later_prefix _ _ _ _ _ _ _ _ _ _ _ Hy (in_or_app _ _ _ (or_introl Hn1)) Hl) as (u & ->).
    destruct (call_in_done _ _ _ _ _ _ _ _ _ _ _ Hy01 (proj2 (proj1 Z)) Hl) as (v & Hv & _).
    rewrite <- app_assoc in Hv. apply app_inv_head in Hv. rewrite Hv. apply in_or_app; cbn; auto. }
  assert (Hi1' : In (HvStart i EToken r) (http_history S w xs)) by (rewrite Hh01; apply in_or_app; auto).
  assert (Hgr : tq_grant (token_message (sv_issuer S) r c cnf) =
     GAuthorizationCode code' (ar_redirect_uri eff) (form_value r "code_verifier")).
  { unfold token_message. rewrite Hgt. replace (String.eqb "authorization_code" gt_code) with true by reflexivity.
    cbn [tq_grant]. rewrite Hcode, Hred, P3. reflexivity. }
  assert (Go : forall j o', nth_error own j = Some i ->
     In (EvStart j (RToken (Some (token_message (sv_issuer S) r c cnf)))) (history (sv_ext S) w ys) ->
     In (EvDone j o') (history (sv_ext S) w ys) ->
     exists res, o' = Done (PToken res) /\ tr_err res = false /\ tr_at res <> None /\
       (asks (sv_ext S) (ar_scope eff) "offline_access" -> ar_prompt eff = Some "consent"%string -> tr_rt res <> None)).
  { intros j o' Oj H1 H2.
    eapply (C82_fresh_code_is_redeemed_proof (sv_ext S) w ys h0 h1 h2 n (mkAuthzReq (sv_issuer S) subject (Some front)) zres eff j
      (token_message (sv_issuer S) r c cnf) (form_value r "code_verifier") o' Hf' Hy); rewrite ?Hres; cbn [zr_code zr_client_id zr_redirect_uri zq_issuer].
    - rewrite <- (same_time own (hh1 ++ hh2) (h1 ++ h2)); auto.
    - rewrite <- Hres. exact Z1.
    - exact Hefe.
    - eapply asks_more; eauto.
    - rewrite Hy01 in H1. eapply (made_later S w xs own (hh0 ++ hh1) hh2 (h0 ++ h1) h2 i); eauto.
    - eapply (done_later S w xs ys own R (hh0 ++ hh1) hh2 (h0 ++ h1) h2 i); eauto.
    - exists c. split; [reflexivity|congruence].
    - reflexivity.
    - exact Huri.
    - exact Hgt.
    - exact Hgr.
    - exact Hlen.
    - congruence.
    - exact Hne.
    - exact Hrc.
    - eapply same_generators; eauto.
    - intros k' iss' code'' s a' Hin Hkey. 
      pose proof Hin as Hin'. assert (Hcl : calm (CSessReg iss' code'' s) = false) by reflexivity.
      assert (Hin2 : In (EvCall k' (CSessReg iss' code'' s) a') (history (sv_ext S) w ys)) by (rewrite Hy; apply in_or_app; auto).
      destruct (aligned_call _ _ _ _ _ _ E12 Hin' Hcl) as (k2 & Ok & Hk'). apply Honce in Hk'; auto. subst k2. eauto.
    - intros j' req' code'' Ha (_ & rd & vf & Hg) Hkey.
      destruct (made_for _ _ _ _ _ R _ _ Ha) as (i' & e' & r' & d' & O' & A' & _ & St).
      pose proof St as St'. cbn [stage] in St'. destruct St' as (-> & _ & c' & cnf' & _ & [= ->] & _).
      assert (Hs' : sends_code r' code'').
      { unfold token_message in Hg. cbn [tq_grant] in Hg.
        repeat match type of Hg with context[if String.eqb ?a ?b then _ else _] => destruct (String.eqb_spec a b) as [?E|?E] end;
            try discriminate. injection Hg as <- _ _. split; auto. }
      assert (i' = i) as -> by (eapply Honly; eauto).
      eapply (ex_once _ _ _ _ X j' _ j); eauto. }
  destruct (token_live S w xs ys own R Hf i r c cnf o Hc Hb Hi1') as (j & res2 & at2 & m2 & t2 & O2 & T2 & Hat2 & Hm2 & _ & ->).
  { rewrite Hh01; apply in_or_app; auto. }
  { intros j o' Oj H1 H2. destruct (Go j o' Oj H1 H2) as (res & A & B & C & _). eauto. }
  do 4 eexists. split; [|split; [reflexivity|]].
  - destruct (response_created (sv_ext S) w ys j (token_message (sv_issuer S) r c cnf) res2 at2) as (iss & m' & rr & _ & _ & _ & Hv2 & _); auto.
    unfold tokens_of. rewrite Hat2. cbn; auto.
  - intros Hoff Hp. destruct (Go _ _ O2 (proj1 (proj1 T2)) (proj2 (proj1 T2))) as (res & [= <-] & _ & _ & G).
    destruct (tr_rt res2) as [rt|] eqn:Hrt.
    + destruct (response_created (sv_ext S) w ys j (token_message (sv_issuer S) r c cnf) res2 rt) as (iss & m' & rr & _ & _ & _ & Hv2 & _); auto.
      unfold tokens_of. rewrite Hrt. apply in_or_app; cbn; auto.
    + exfalso. apply G; [eapply asks_more; eauto|congruence|reflexivity].
Qed.
