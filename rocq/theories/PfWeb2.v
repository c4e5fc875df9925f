(** * Proofs about whole HTTP histories: authentication and authorization codes *)

From Verif Require Export PfWeb.
From Coq Require Import Lia.

Definition one_start (hh : list hevent) : Prop :=
  forall i e r e' r', In (HvStart i e r) hh -> In (HvStart i e' r') hh -> e' = e /\ r' = r.

Lemma one_start_history S w xs h1 h2 : http_history S w xs = (h1 ++ h2)%list -> one_start h1.
Proof.
  intros H i e r e' r' H1 H2. eapply (started_one S w xs i); rewrite H; apply in_or_app; auto.
Qed.

(** A request is received once. *)
Fixpoint starts (hh : list hevent) : nat :=
  match hh with [] => O | HvStart _ _ _ :: hh => Datatypes.S (starts hh) | _ :: hh => starts hh end.
Lemma starts_app a b : starts (a ++ b) = (starts a + starts b)%nat.
Proof. induction a as [|[]]; cbn; auto. Qed.
Lemma starts_in_order S w xs g1 i e r g2 : http_history S w xs = (g1 ++ HvStart i e r :: g2)%list -> i = starts g1.
Proof.
  assert (X : (fun hh s => List.length (hs_threads s) = starts hh /\
    forall g1 i e r g2, hh = (g1 ++ HvStart i e r :: g2)%list -> i = starts g1)
    ([] ++ http_history S w xs)%list (snd (hrun S (mkHsys w []) xs))).
  { apply (hrun_inv S (fun hh s => List.length (hs_threads s) = starts hh /\
      forall g1 i e r g2, hh = (g1 ++ HvStart i e r :: g2)%list -> i = starts g1)).
    - intros h s x ev s' [A B] Hx. split.
      + rewrite starts_app. destruct x as [e' r'|j o|dt]; cbn in Hx.
        * injection Hx as <- <-. cbn. rewrite app_length. cbn. lia.
        * destruct (nth_error (hs_threads s) j) as [[[a| | |c k]|]|]; try discriminate.
          -- injection Hx as <- <-. cbn. rewrite set_nth_length. lia.
          -- injection Hx as <- <-. cbn. rewrite set_nth_length. lia.
          -- destruct (exec _ _ _ _). injection Hx as <- <-. cbn. rewrite set_nth_length. lia.
        * injection Hx as <- <-. cbn. lia.
      + intros u i' e' r' v Hv. destruct v as [|z v] using rev_ind.
        * apply app_inj_tail in Hv as [<- Hv]. subst ev. destruct x as [e1 r1|j o|dt]; cbn in Hx.
          -- injection Hx as <- _ _ _. exact A.
          -- destruct (nth_error (hs_threads s) j) as [[[a| | |c k]|]|]; try discriminate.
             destruct (exec _ _ _ _). discriminate.
          -- discriminate.
        * rewrite app_comm_cons, app_assoc in Hv. apply app_inj_tail in Hv as [-> _]. eapply B; eauto.
    - split; [reflexivity|]. intros [|? ?] ? ? ? ? X; discriminate. }
  cbn in X. destruct X as [_ X]. eauto.
Qed.
Lemma not_again S w xs h1 h2 i e r e' r' : http_history S w xs = (h1 ++ h2)%list ->
  In (HvStart i e r) h1 -> In (HvStart i e' r') h2 -> False.
Proof.
  intros H H1 H2. apply in_split in H1 as (a & b & ->). apply in_split in H2 as (c & d & ->).
  assert (X1 : i = starts a) by (eapply starts_in_order; rewrite H, <- app_assoc; reflexivity).
  assert (X2 : i = starts ((a ++ HvStart i e r :: b) ++ c)) by (eapply starts_in_order; rewrite H, app_assoc; reflexivity).
  rewrite !starts_app in X2. cbn in X2. lia.
Qed.

Lemma message_code issuer r c cnf code : form_value r "grant_type" = "authorization_code"%string -> form_value r "code" = code ->
  exists redirect verifier, tq_grant (token_message issuer r c cnf) = GAuthorizationCode code redirect verifier.
Proof.
  intros H1 H2. unfold token_message. rewrite H1. replace (String.eqb "authorization_code" gt_code) with true by reflexivity.
  cbn [tq_grant]. rewrite H2. eauto.
Qed.

(** The service request behind an answer of the token endpoint. *)
Lemma token_served S own hh h i r access expires type refresh scope :
  explained S own hh h -> one_start hh -> responded hh i EToken r (HToken access expires type refresh scope) ->
  exists j c cnf res at_ m t d, nth_error own j = Some i /\
    token_ok h j (token_message (sv_issuer S) r c cnf) res /\ tr_at res = Some at_ /\ t_meta at_ = Some m /\
    In (HvCall i CNow (ATime t)) hh /\ access = t_value at_ /\ expires = sub64 (m_expires_at m) (unix t) /\
    type = (if is_empty (hq_header r "DPoP") then "Bearer" else "DPoP")%string /\
    refresh = (match tr_rt res with Some rt => t_value rt | None => ""%string end) /\ scope = m_scope m /\
    past own hh h i d /\ logged_in r d (Some c) /\ hq_method r = "POST"%string /\
    ((hq_header r "DPoP" = ""%string /\ cnf = None /\ cl_dpop_bound c = false) \/
     (exists jkt, cnf = Some jkt /\ served d (proof_check r) (PDpop (Some jkt)))).
Proof.
  intros X U [Hs Hd]. destruct (ex_done _ _ _ _ X _ _ Hd) as (e0 & r0 & d0 & A & P & B).
  destruct (U _ _ _ _ _ Hs A) as [-> ->]. cbn [ending] in B.
  destruct B as (_ & q & res & at_ & m & t & (j & Hj) & B1 & B2 & B3 & B4 & B5 & B6 & B7 & B8 & B9).
  destruct (P _ Hj) as (O & P1 & P2).
  destruct (ex_start _ _ _ _ X _ _ P1) as (i' & e' & r' & d & O' & A' & Pd & St).
  rewrite O in O'. injection O' as <-. destruct (U _ _ _ _ _ Hs A') as [-> ->]. cbn [stage] in St.
  destruct St as (_ & Hm & c & cnf & L & -> & D).
  exists j, c, cnf, res, at_, m, t, d. split; auto. split; [split; [split|]; auto|]. repeat (split; auto).
  exact (P _ B4).
Qed.

Section Lift.
Context (S : http_server) (w : world) (xs : list hsched) (ys : list sched) (own : list nat).
Context (R : refined S w xs ys own).
Notation E := (sv_ext S).
Notation hh := (http_history S w xs).
Notation h := (history E w ys).

Lemma valid_then j x g1 g2 i expiry : h = (g1 ++ g2)%list -> In (EvStart j x) g1 -> nth_error own j = Some i ->
  (unix (clock w g1) <= expiry)%N -> valid_during w hh i expiry.
Proof.
  intros Hg Hin Hj Ht. destruct (http_times _ _ _ _ _ R _ _ Hg) as (b1 & b2 & A & [B _] & C & _).
  exists b1, b2. split; auto. split; [|rewrite C; exact Ht].
  destruct (B _ _ Hin) as (i' & e & r & O & Hi). rewrite Hj in O. injection O as <-. eauto.
Qed.

Lemma logged_authenticated i d r c : past own hh h i d -> logged_in r d (Some c) -> authenticated S w hh i r c.
Proof.
  intros P [(c0 & [= <-] & Hq & Hs & Ht)|(Hq & res & He & Hc & [[Hs Ht]|[Hs Ht]])].
  - left. split; auto. split; auto. eapply http_client. exact (P _ Hs).
  - right; left. split; auto. split; auto. destruct (past_served _ _ _ _ _ _ _ _ _ P Hs) as (j & O & Ha).
    destruct (C32_private_key_jwt_proof _ _ _ _ _ _ Ha He) as (a & cl & c' & keys & k & g1 & g2 & A1 & A2 & A3 & A4 & A5 & _ & A6 & A7 & _ & A8 & _ & _ & A9 & A10 & A11).
    cbn in A2. injection A2 as <-. rewrite Hc in A4. injection A4 as <-.
    exists cl, keys, k. repeat (split; auto). eapply valid_then; eauto.
  - right; right. split; auto. split; auto. destruct (past_served _ _ _ _ _ _ _ _ _ P Hs) as (j & O & Ha).
    assert (Hau : authenticates h j (RAttestation (credentials r)) c) by (exists res; auto).
    destruct (C34_attestation_partial_proof E w ys j _ c Hau)
      as (att & pop & ca & cp & attester & keys & k & key & g1 & g2 & g3 & g4 & A).
    destruct A as (_ & A2 & A3 & A4 & A5 & A6 & _ & A7 & A8 & _ & A9 & A10 & A11 & A12 & A13 & A14 & _ & _ & A15 & A16 & A17).
    cbn in A2. injection A2 as A2. exists att, pop, ca, cp, attester, keys, k, key.
    split; [exact A2|]. split; [exact A3|]. split; [exact A4|]. split; [exact A5|]. split; [exact A6|]. split; [exact A7|].
    split; [exact A8|]. split; [eapply valid_then; [exact A9|exact A10|exact O|exact A11]|].
    split; [exact A12|]. split; [exact A13|]. split; [exact A14|]. eapply valid_then; [exact A15|exact A16|exact O|exact A17].
Qed.
End Lift.

(** ** C69 *)
Lemma C69_web_code_once_proof : forall S w xs hh1 hh2 i j r1 r2 code,
  http_history S w xs = (hh1 ++ hh2)%list ->
  got_tokens hh1 i r1 -> sends_code r1 code ->
  In (HvStart j EToken r2) hh2 -> sends_code r2 code -> got_tokens (http_history S w xs) j r2 ->
  exists g1 g2, http_history S w xs = (g1 ++ g2)%list /\ In (HvStart i EToken r1) g1 /\
    web_handed_out (sv_ext S) g2 (sv_issuer S) code.
Proof.
  intros S w xs hh1 hh2 i j r1 r2 code Hh (a1 & x1 & t1 & f1 & s1 & G1) [Hg1 Hc1] Hj [Hg2 Hc2] (a2 & x2 & t2 & f2 & s2 & G2).
  destruct (http_refines S w xs) as (ys & own & R).
  destruct (rf_prefix _ _ _ _ _ R _ _ Hh) as (h1 & h2 & Hy & X1).
  destruct (token_served _ _ _ _ _ _ _ _ _ _ _ X1 (one_start_history _ _ _ _ _ Hh) G1) as (j1 & c1 & cnf1 & res1 & _ & _ & _ & _ & O1 & T1 & _).
  assert (U : one_start (http_history S w xs)) by (apply (one_start_history S w xs _ []); rewrite app_nil_r; auto).
  destruct (token_served _ _ _ _ _ _ _ _ _ _ _ (rf_explained _ _ _ _ _ R) U G2) as (j2 & c2 & cnf2 & res2 & _ & _ & _ & _ & O2 & T2 & _).
  assert (Hin : In (EvStart j2 (RToken (Some (token_message (sv_issuer S) r2 c2 cnf2)))) h2).
  { destruct T2 as [[T2 _] _]. rewrite Hy in T2. apply in_app_or in T2 as [T2|T2]; auto. exfalso.
    destruct (ex_start _ _ _ _ X1 _ _ T2) as (i' & e' & r' & d' & O' & A' & _). rewrite O2 in O'. injection O' as <-.
    exact (not_again _ _ _ _ _ _ _ _ _ _ Hh A' Hj). }
  destruct (C02_code_redeemed_once_proof _ _ _ _ _ _ _ _ _ _ res2 (sv_issuer S) code Hy T1 Hin) with (3 := T2)
    as (g1 & g2 & Hg & D & Ho).
  { split; [reflexivity|]. apply message_code; auto. }
  { split; [reflexivity|]. apply message_code; auto. }
  destruct (http_times _ _ _ _ _ R _ _ Hg) as (b1 & b2 & A & [B _] & C & D2).
  exists b1, b2. split; auto. split.
  - destruct (B _ _ D) as (i' & e' & r' & O' & Hi). rewrite O1 in O'. injection O' as <-.
    destruct G1 as [G1 _]. destruct (U i EToken r1 e' r') as [-> ->]; [rewrite Hh; apply in_or_app; auto|rewrite A; apply in_or_app; auto|auto].
  - destruct Ho as (k & iss' & code' & s & a & Hk & Hkey).
    assert (X : In (Effect (nth_error own k) (CSessReg iss' code' s) a) (heffects b2)) by (rewrite D2; apply in_effects; eauto).
    apply in_split in X as (l1 & l2 & X). destruct (hsplit _ _ _ _ _ _ X) as (k' & c1' & c2' & _ & -> & _).
    exists k', iss', code', s, a. split; auto. apply in_or_app; cbn; auto.
Qed.

(** ** C70 *)

Lemma web_authorized_of S w xs ys own (R : refined S w xs ys own) g1 g2 b1 b2 code subject ar :
  history (sv_ext S) w ys = (g1 ++ g2)%list -> http_history S w xs = (b1 ++ b2)%list -> aligned own b1 g1 ->
  authorized (sv_ext S) g1 (sv_issuer S) code subject ar -> exists user, web_authorized S w b1 code user subject ar.
Proof.
  intros Hg Hb [_ Al] (u & k & q & code' & a & v & -> & Hin & Hs & Hkey & Ht & Hn).
  destruct (made_for _ _ _ _ _ R k (RAuthorize (Some q))) as (i & e & r & d & O & Hst & P & St).
  { rewrite Hg, <- app_assoc. apply in_or_app; auto. }
  cbn [stage] in St. destruct St as (-> & Hm & c & user & sub & ar0 & [Hb0 _] & Hsaw & Hsub & Hdec & Hq).
  injection Hq as ->. cbn in Hs, Hkey, Al. subst sub.
  rewrite effects_app in Al. cbn in Al. rewrite O in Al.
  destruct (hsplit _ _ _ _ _ _ Al) as (i' & c1 & c2 & Hi & -> & A1 & A2). injection Hi as <-.
  exists user, c1, i, r, code', a, c2, c. split; [reflexivity|].
  split. { eapply (start_before S w xs c1 i _ (c2 ++ b2)); [rewrite Hb, <- app_assoc; reflexivity|reflexivity|discriminate|exact Hst]. }
  split; auto. split; [eexists; eauto|].
  split. { eapply http_client. exact (P _ Hsaw). }
  split; [apply (request_decode_some _ _ _ _ _ Hdec)|]. split; auto. split; auto.
  split. { rewrite (same_time own c2 v); auto. }
  intros (j & cc & aa & H1 & H2 & H3). apply Hn.
  assert (Hcalm : calm cc = false) by (destruct H3 as [(? & ? & ? & -> & _)|(? & ? & -> & _)]; reflexivity).
  apply in_heffects in H1; auto. rewrite A2 in H1. apply in_effects in H1 as (j' & _ & H1); auto.
  exists j', cc, aa. auto.
Qed.

Lemma registered_client S w hh i r c : registry_ok w -> authenticated S w hh i r c -> w_clients w (cl_id c) = Some c.
Proof.
  intros Hreg [(_ & H & _)|[(_ & _ & cl & keys & k & _ & H & _)|(_ & _ & att & pop & ca & cp & at' & keys & k & key & H)]].
  - rewrite (Hreg _ _ H). exact H.
  - rewrite (Hreg _ _ H). exact H.
  - decompose [and] H. match goal with X : w_clients w (c_iss cp) = Some c |- _ => rewrite (Hreg _ _ X); exact X end.
Qed.

Lemma C70_web_code_grant_proof : forall S w xs i r access expires type refresh scope,
  let hh := http_history S w xs in
  registry_ok w -> blank w ->
  responded hh i EToken r (HToken access expires type refresh scope) ->
  form_value r "grant_type" = "authorization_code"%string ->
  exists c user subject ar t m h1 h2 iss a,
    (* the client is who it says it is *)
    hq_method r = "POST"%string /\ authenticated S w hh i r c /\
    (* a user authorized this, less than a minute before the code was looked up *)
    hh = (h1 ++ h2)%list /\ In (HvStart i EToken r) h1 /\
    web_authorized S w h1 (form_value r "code") user subject ar /\
    (* the sender knows the code verifier and the redirect URI *)
    ar_code_challenge_method ar = "S256"%string /\
    b64url (x_sha256 (sv_ext S) (form_value r "code_verifier")) = ar_code_challenge ar /\
    ar_redirect_uri ar = form_value r "redirect_uri" /\
    listed (sv_ext S) (cl_redirect_uris c) (form_value r "redirect_uri") /\
    (* and gets a token for exactly what was authorized *)
    In (HvCall i (CTokCreate iss t) a) hh /\ ans_ok a = true /\ t_value t = access /\ t_type t = TtAccess /\
    t_meta t = Some m /\ m_subject m = subject /\ m_client_id m = cl_id c /\ m_issuer m = sv_issuer S /\
    m_audience m = ar_audience ar /\ m_scope m = ar_scope ar /\ scope = ar_scope ar /\
    asks (sv_ext S) scope "openid" /\ (refresh <> ""%string -> asks (sv_ext S) scope "offline_access").
Proof.
  intros S w xs i r access expires type refresh scope hh Hreg Hbl G Hgt. subst hh.
  destruct (http_refines S w xs) as (ys & own & R).
  assert (U : one_start (http_history S w xs)) by (apply (one_start_history S w xs _ []); rewrite app_nil_r; auto).
  destruct (token_served _ _ _ _ _ _ _ _ _ _ _ (rf_explained _ _ _ _ _ R) U G)
    as (j & c & cnf & res & at_ & m & t & d & O & T & Hat & Hm & _ & -> & _ & _ & -> & -> & P & L & Hpost & _).
  destruct (code_redeemed _ _ _ _ _ _ T) as (code & redirect & verif & c' & s & ar & rd & g1 & g2 & g3 & Hcl & Hf & Hh & Hrd & Hst & Ht & (A1 & A2 & A3) & A4 & _).
  { exact Hgt. }
  destruct (during_authorized _ _ _ _ _ _ _ _ _ Hbl Hh) as (ar' & Har & Hau).
  rewrite (cf_req _ _ _ _ _ _ _ _ Hf) in Har. injection Har as <-.
  pose proof (cf_grant _ _ _ _ _ _ _ _ Hf) as Hg. unfold token_message in Hg. rewrite Hgt in Hg.
  replace (String.eqb "authorization_code" gt_code) with true in Hg by reflexivity. cbn [tq_grant] in Hg. injection Hg as <- <- <-.
  assert (Hau' : authenticated S w (http_history S w xs) i r c) by (eapply logged_authenticated; eauto).
  pose proof (registered_client _ _ _ _ _ _ Hreg Hau') as Hrc.
  assert (c' = c) as ->.
  { destruct Hcl as (au & Hau1 & Hau2). cbn in Hau1. injection Hau1 as <-. congruence. }
  destruct (http_times _ _ _ _ _ R _ _ Hh) as (b1 & b2 & B1 & B2 & _ & _).
  destruct (web_authorized_of _ _ _ _ _ R _ _ _ _ _ _ _ Hh B1 B2 Hau) as (user & Hweb).
  destruct (Ht at_) as (m' & rr & D1 & D2 & D3 & D4 & D5 & D6 & D7 & _ & D8 & D9).
  { unfold tokens_of. rewrite Hat. cbn; auto. }
  rewrite Hm in D1. injection D1 as <-.
  destruct (http_call _ _ _ _ _ R j (CTokCreate (sv_issuer S) at_) (AUnit rr)) as (i' & O' & Hcall); [reflexivity| |].
  { rewrite Hh. apply in_or_app; right; right. apply in_or_app; right; right. exact D8. }
  rewrite O in O'. injection O' as <-.
  exists c, user, (as_subject s), ar, at_, m, b1, b2, (sv_issuer S), (AUnit rr). destruct Hf.
  split; auto. split; auto. split; auto.
  split. { destruct B2 as [B2 _]. destruct (B2 _ _ Hst) as (i0 & e0 & r0 & O0 & H0). rewrite O in O0. injection O0 as <-.
    destruct G as [G _]. destruct (U i EToken r e0 r0) as [-> ->]; auto. rewrite B1. apply in_or_app; auto. }
  split; auto. split; [tauto|]. split; [tauto|]. split; [tauto|]. split; [tauto|]. split; auto. split; auto.
  split; auto. split; auto. split; auto. split; auto. split; auto. split; auto. split; auto. split; auto. split; auto.
  rewrite D4. split; [apply A1; congruence|].
  intros Hr. apply A2. intros Hn. rewrite Hn in Hr. auto.
Qed.
