(** * What a successful service call did, continued (proofs only) *)

From Verif Require Export ProgFacts.

(** One call backwards, naming its answer. *)
Ltac rcall H a :=
  let tr' := fresh "tr'" in let Htr := fresh "Htr" in
  cbn [negb] in H;
  lazymatch type of H with
  | reach (now _) _ _ => apply inv_now in H; destruct H as (a & tr' & Htr & H)
  | reach (gen _ _) _ _ => apply inv_gen in H; destruct H as (a & tr' & Htr & H)
  | reach (client_get _ _) _ _ => apply inv_client_get in H; destruct H as (a & tr' & Htr & H)
  | reach (dev_get _ _) _ _ => apply inv_dev_get in H; destruct H as (a & tr' & Htr & H)
  | reach (proof_exists _ _) _ _ => apply inv_proof_exists in H; destruct H as (a & tr' & Htr & H)
  | reach (reg _ _) _ _ => apply inv_reg in H; destruct H as (a & tr' & Htr & H)
  | reach (write _ _) _ _ => apply inv_write in H; destruct H as (a & tr' & Htr & H)
  end; subst.

Lemma introspect_ok E req tr res :
  reach (introspect_svc E (Some req)) tr (Ret res) -> ir_err res = false ->
  exists auth rc rt, vq_client req = Some auth /\ vq_token req <> ""%string /\
    vq_issuer req <> ""%string /\ x_request_uri E (vq_issuer req) = true /\ is_ok rc = true /\
    tr = [(CClientGet (cl_id auth), AClient rc); (CTokGet (vq_issuer req) (vq_token req), ATok rt)] /\
    res = mkIntro false None
      (match rt with
       | SOk t => Some t
       | SNotFound => Some (mkToken (vq_issuer req) TtUnspecified "" None TsUnknown (vq_token req) None)
       | _ => None
       end) /\ rt <> SErr.
Proof.
  unfold introspect_svc. intros H Hok.
  rstep H; [rstep H; subst; discriminate|]. rename Heqb into Hi.
  rstep H; [rstep H; subst; discriminate|]. rename Heqb into Hu.
  destruct (vq_client req) as [auth|] eqn:Hc; [|rstep H; subst; discriminate].
  rstep H; [rstep H; subst; discriminate|]. rename Heqb into Ht.
  norm_bool. apply is_empty_false in Hi, Ht.
  rstep H. subst tr. rename x into rc.
  assert (Hrc : is_ok rc = true) by (destruct rc; auto; rstep H; subst; discriminate).
  assert (H' : exists rt tr', x0 = (CTokGet (vq_issuer req) (vq_token req), ATok rt) :: tr' /\
     tr' = [] /\ rt <> SErr /\ res = mkIntro false None
      (match rt with
       | SOk t => Some t
       | SNotFound => Some (mkToken (vq_issuer req) TtUnspecified "" None TsUnknown (vq_token req) None)
       | _ => None
       end)).
  { destruct rc; try discriminate; rstep H; destruct x; rstep H; subst; try discriminate;
      eexists _, _; repeat split; eauto; discriminate. }
  destruct H' as (rt & tr' & -> & -> & Hn & ->). exists auth, rc, rt. repeat split; auto.
Qed.

Lemma revoke_ok E req tr res :
  reach (revoke_svc E (Some req)) tr (Ret res) -> rr_err res = false ->
  exists auth rc t r, vq_client req = Some auth /\ vq_token req <> ""%string /\
    vq_issuer req <> ""%string /\ x_request_uri E (vq_issuer req) = true /\
    is_ok rc = true /\ is_ok r = true /\
    tr = [(CClientGet (cl_id auth), AClient rc); (CTokGet (vq_issuer req) (vq_token req), ATok (SOk t));
          (CTokRevoke (vq_issuer req) (t_id t), AUnit r)] /\
    res = mkRevoke false None.
Proof.
  unfold revoke_svc. intros H Hok.
  rstep H; [rstep H; subst; discriminate|]. rename Heqb into Hi.
  rstep H; [rstep H; subst; discriminate|]. rename Heqb into Hu.
  destruct (vq_client req) as [auth|] eqn:Hc; [|rstep H; subst; discriminate].
  rstep H; [rstep H; subst; discriminate|]. rename Heqb into Ht.
  norm_bool. apply is_empty_false in Hi, Ht.
  rstep H. subst tr. rename x into rc.
  assert (Hrc : is_ok rc = true) by (destruct rc; auto; rstep H; subst; discriminate).
  assert (H' : exists t r, x0 = [(CTokGet (vq_issuer req) (vq_token req), ATok (SOk t));
          (CTokRevoke (vq_issuer req) (t_id t), AUnit r)] /\ is_ok r = true /\
     res = mkRevoke false None).
  { destruct rc; try discriminate; rstep H; destruct x; rstep H; subst; try discriminate;
      destruct (is_ok x) eqn:Hx; rstep H; subst; try discriminate; eexists _, _; repeat split; eauto. }
  destruct H' as (t & r & -> & Hr & ->). exists auth, rc, t, r. repeat split; auto.
Qed.

(** ** Authorization service *)

(** The checks every accepted authorization request went through. *)
Record request_facts (E : ext) (r0 r : authreq) : Prop := mkReqFacts {
  rf_state : (32 <= String.length (ar_state r0))%nat;
  rf_nonce : (8 <= String.length (ar_nonce r0))%nat;
  rf_method : ar_code_challenge_method r0 = s256;
  rf_challenge : String.length (ar_code_challenge r0) = 43%nat;
  rf_uri : x_request_uri E (ar_redirect_uri r0) = true;
  rf_type : ar_response_type r0 = "code"%string \/ ar_response_type r0 = "token"%string;
  rf_nonempty : ar_scope r0 <> ""%string /\ ar_client_id r0 <> ""%string /\ ar_audience r0 <> ""%string /\
    ar_redirect_uri r0 <> ""%string;
  rf_mode : ar_response_mode r0 = None \/ exists m, ar_response_mode r0 = Some m /\ In m response_modes;
  rf_result : r = set_scope (set_response_mode r0 (expand_mode (ar_response_type r0) (ar_response_mode r0)))
                    (clean_scope E (ar_scope r0) (ar_prompt r0))
}.

Lemma str_in_iff s l : str_in s l = true <-> In s l.
Proof.
  unfold str_in. rewrite existsb_exists. split.
  - intros (x & H1 & H2). apply String.eqb_eq in H2; subst; auto.
  - intros H. exists s. split; auto. apply String.eqb_refl.
Qed.

Lemma validate_local_ok E r0 r : validate_local E r0 = inr r -> request_facts E r0 r.
Proof.
  unfold validate_local. cbv zeta.
  destruct (is_empty (ar_state r0)) eqn:H0; [discriminate|].
  destruct (Nat.ltb (String.length (ar_state r0)) min_state) eqn:H1; [discriminate|].
  match goal with |- (if ?b then _ else _) = _ -> _ => destruct b eqn:H2; [discriminate|] end.
  destruct (Nat.ltb (String.length (ar_nonce r0)) min_nonce) eqn:H3; [discriminate|].
  destruct (negb (String.eqb (ar_code_challenge_method r0) s256)) eqn:H4; [discriminate|].
  destruct (negb (Nat.eqb (String.length (ar_code_challenge r0)) challenge_length)) eqn:H5; [discriminate|].
  destruct (negb (x_request_uri E (ar_redirect_uri r0))) eqn:H6; [discriminate|].
  destruct (negb (str_in (ar_response_type r0) [rt_code; rt_token])) eqn:H7; [discriminate|].
  match goal with |- (if ?b then _ else _) = _ -> _ => destruct b eqn:H8; [discriminate|] end.
  intros H; injection H as <-. norm_bool.
  constructor; auto; try (apply is_empty_false; assumption).
  - apply str_in_iff in H7. cbn in H7. destruct H7 as [<-|[<-|[]]]; auto.
  - repeat split; apply is_empty_false; assumption.
  - destruct (ar_response_mode r0) as [m|]; auto. right. exists m. split; auto.
    apply negb_false_iff in H8. apply str_in_iff; auto.
Qed.

(** The client allows the request. *)
Record client_allows (E : ext) (c : client) (r : authreq) : Prop := mkAllows {
  ca_grant : listed E (cl_grant_types c) gt_code;
  ca_type : listed E (cl_response_types c) (ar_response_type r);
  ca_uri : listed E (cl_redirect_uris c) (ar_redirect_uri r);
  ca_mode : forall m, ar_response_mode r = Some m -> listed E (cl_response_modes c) m
}.

Lemma check_client_ok E c r : check_client E c r = None -> client_allows E c r.
Proof.
  unfold check_client.
  destruct (has E (cl_grant_types c) gt_code) eqn:H1; [|discriminate].
  destruct (has E (cl_response_types c) (ar_response_type r)) eqn:H2; [|discriminate].
  destruct (has E (cl_redirect_uris c) (ar_redirect_uri r)) eqn:H3; [|discriminate].
  cbn. intros H. constructor; try (apply has_iff; auto).
  intros m Hm. rewrite Hm in H. destruct (has E (cl_response_modes c) m) eqn:H4; [|discriminate].
  apply has_iff; auto.
Qed.

Lemma validate_ok E r0 tr r :
  reach (validate E r0) tr (Ret (inr r)) ->
  exists r1 c, r0 = Some r1 /\ request_facts E r1 r /\ client_allows E c r /\
    tr = [(CClientGet (ar_client_id r1), AClient (SOk c))].
Proof.
  unfold validate. intros H. destruct r0 as [r1|]; [|rstep H; discriminate].
  destruct (validate_local E r1) as [e|r'] eqn:Hv; [rstep H; discriminate|].
  pose proof (validate_local_ok _ _ _ Hv) as Hf.
  rstep H. subst. destruct x as [c| | |]; try (rstep H; discriminate).
  destruct (check_client E c r') eqn:Hc; [rstep H; discriminate|].
  rstep H. injection H as ->. subst. exists r1, c. repeat split; auto; try apply Hf.
  - apply check_client_ok in Hc. apply Hc.
  - apply check_client_ok in Hc. apply Hc.
  - apply check_client_ok in Hc. apply Hc.
  - apply check_client_ok in Hc. apply Hc.
  - destruct Hf as [? ? ? ? ? ? ? ? ->]. reflexivity.
Qed.

Lemma authorize_with_ok E issuer subject r0 tr res :
  reach (authorize_with E issuer subject r0) tr (Ret res) -> zr_err res = false ->
  exists r1 r c code n, r0 = Some r1 /\ request_facts E r1 r /\ client_allows E c r /\ is_ok n = true /\
    tr = [(CClientGet (ar_client_id r1), AClient (SOk c)); (CGenCode issuer, AGen (Some code));
          (CSessReg issuer code (mkSess issuer subject (Some r)), ANum n)] /\
    res = mkAuthzRes false None code (ar_state r) (ar_redirect_uri r) (ar_client_id r) (num n) issuer "".
Proof.
  unfold authorize_with. intros H Hok.
  apply reach_bind_ret in H as (v & t1 & t2 & -> & Hv & H).
  destruct v as [e|r]; [rstep H; subst; discriminate|].
  apply validate_ok in Hv as (r1 & c & -> & Hf & Hc & ->).
  rstep H. subst. destruct x as [code|]; [|rstep H; subst; discriminate].
  rstep H. subst. destruct (is_ok x) eqn:Hx; [|rstep H; subst; discriminate].
  rstep H. subst. exists r1, r, c, code, x. split; [auto|]. split; [exact Hf|]. split; [exact Hc|].
  repeat split; auto.
Qed.

Lemma authorize_ok E req tr res :
  reach (authorize_svc E (Some req)) tr (Ret res) -> zr_err res = false ->
  zq_issuer req <> ""%string /\ zq_subject req <> ""%string /\
  exists r0, zq_request req = Some r0 /\
  ((ar_request_uri r0 = None /\ reach (authorize_with E (zq_issuer req) (zq_subject req) (Some r0)) tr (Ret res))
   \/ exists uri pushed d tr', ar_request_uri r0 = Some uri /\ x_uri_valid E uri = true /\ is_ok d = true /\
        tr = (CReqGet (zq_issuer req) uri, AReq (SOk pushed)) :: (CReqDel (zq_issuer req) uri, AUnit d) :: tr' /\
        reach (authorize_with E (zq_issuer req) (zq_subject req) (Some pushed)) tr' (Ret res)).
Proof.
  unfold authorize_svc. intros H Hok.
  destruct (zq_request req) as [r0|] eqn:Hr; [|rstep H; subst; discriminate].
  rstep H; [rstep H; subst; discriminate|]. apply is_empty_false in Heqb.
  rstep H; [rstep H; subst; discriminate|]. apply is_empty_false in Heqb0.
  split; auto. split; auto. exists r0. split; auto.
  destruct (ar_request_uri r0) as [uri|] eqn:Hu; [right|left; auto].
  rstep H; [rstep H; subst; discriminate|]. norm_bool.
  rstep H. subst tr. rename x into rr, x0 into tr1.
  destruct rr as [pushed| | |].
  - rstep H. subst tr1. rename x into d, x0 into tr2.
    exists uri, pushed, d, tr2. split; auto. split; auto.
    destruct d; try (rstep H; subst; discriminate); auto.
  - rstep H. subst tr1. destruct x; try (rstep H; subst; discriminate);
      apply authorize_with_ok in H as (r1 & ? & ? & ? & ? & X & _); try discriminate; auto.
  - rstep H; subst; discriminate.
  - rstep H; subst; discriminate.
Qed.

Lemma register_ok E req tr res :
  reach (register_svc E (Some req)) tr (Ret res) -> gr_err res = false ->
  exists c0 r0 r c uri n, gq_client req = Some c0 /\ gq_request req = Some r0 /\
    gq_issuer req <> ""%string /\ ar_request_uri r0 = None /\
    request_facts E r0 r /\ client_allows E c r /\ ar_client_id r0 = cl_id c0 /\ is_ok n = true /\
    tr = [(CClientGet (ar_client_id r0), AClient (SOk c)); (CGenURI (gq_issuer req), AGen (Some uri));
          (CReqReg (gq_issuer req) uri r, ANum n)] /\
    res = mkRegRes false None uri (num n) (gq_issuer req).
Proof.
  unfold register_svc. intros H Hok.
  rstep H; [rstep H; subst; discriminate|]. apply is_empty_false in Heqb.
  destruct (gq_client req) as [c0|]; [|rstep H; subst; discriminate].
  destruct (gq_request req) as [r0|]; [|rstep H; subst; discriminate].
  destruct (ar_request_uri r0) eqn:Hu; [rstep H; subst; discriminate|].
  apply reach_bind_ret in H as (v & t1 & t2 & -> & Hv & H).
  destruct v as [e|r]; [rstep H; subst; discriminate|].
  apply validate_ok in Hv as (r1 & c & Heq & Hf & Hc & ->). injection Heq as <-.
  rstep H; [rstep H; subst; discriminate|]. norm_bool.
  rstep H. subst. destruct x as [uri|]; [|rstep H; subst; discriminate].
  rstep H. subst. destruct (is_ok x) eqn:Hx; [|rstep H; subst; discriminate].
  rstep H. subst. exists c0, r0, r, c, uri, x.
  repeat (split; [solve [auto]|]).
  split; [destruct Hf as [? ? ? ? ? ? ? ? ->]; assumption|]. repeat split; auto.
Qed.

(** ** Device service *)

Lemma dev_authorize_ok E req tr res :
  reach (dev_authorize_svc E (Some req)) tr (Ret res) -> dv_err res = false ->
  exists c dc uc n, dr_issuer req <> ""%string /\ dr_client_id req <> ""%string /\
    listed E (cl_grant_types c) gt_device /\ is_ok n = true /\
    tr = [(CClientGet (dr_client_id req), AClient (SOk c)); (CGenDev (dr_issuer req), AGen (Some dc));
          (CGenUser (dr_issuer req), AGen (Some uc));
          (CDevReg (dr_issuer req) uc (mkDev (Some c) (dr_issuer req) 0 (Some req) DsUnspecified dc
             None (dr_scope req) (dr_audience req)), ANum n)] /\
    res = mkDevRes false None dc uc (num n) 5 (dr_issuer req).
Proof.
  unfold dev_authorize_svc. intros H Hok.
  rstep H; [rstep H; subst; discriminate|]. apply is_empty_false in Heqb.
  rstep H; [rstep H; subst; discriminate|]. apply is_empty_false in Heqb0.
  rstep H. subst. destruct x as [c| | |]; try (rstep H; subst; discriminate).
  rstep H; [rstep H; subst; discriminate|]. norm_bool.
  rstep H. subst. destruct x as [dc|]; [|rstep H; subst; discriminate].
  rstep H. subst. destruct x as [uc|]; [|rstep H; subst; discriminate].
  cbv zeta in H. rstep H. subst. destruct (is_ok x) eqn:Hx; [|rstep H; subst; discriminate].
  rstep H. subst. exists c, dc, uc, x. repeat split; auto. apply has_iff; auto.
Qed.

Lemma dev_validate_ok req tr res :
  reach (dev_validate_svc (Some req)) tr (Ret res) -> vr_err res = false ->
  exists s dr dc t r1 r2, vv_issuer req <> ""%string /\ vv_user_code req <> ""%string /\
    vv_subject req <> ""%string /\ ds_request s = Some dr /\ ds_client s = Some dc /\
    (unix t <= ds_expires_at s)%N /\ ds_status s = DsPending /\ is_ok r1 = true /\ is_ok r2 = true /\
    tr = [(CDevGetUser (vv_issuer req) (vv_user_code req), ADev (SOk s)); (CNow, ATime t);
          (CDevVal (vv_issuer req) (vv_user_code req) (approve s (vv_subject req)), AUnit r1);
          (CDevDel (vv_issuer req) (vv_user_code req), AUnit r2)] /\
    res = mkDevValRes false None.
Proof.
  unfold dev_validate_svc. intros H Hok.
  rstep H; [rstep H; subst; discriminate|]. apply is_empty_false in Heqb.
  rstep H; [rstep H; subst; discriminate|]. apply is_empty_false in Heqb0.
  rstep H; [rstep H; subst; discriminate|]. apply is_empty_false in Heqb1.
  rstep H. subst. destruct x as [s| | |]; try (rstep H; subst; discriminate).
  destruct (ds_request s) as [dr|] eqn:Hdr; try (rstep H; subst; discriminate).
  destruct (ds_client s) as [dc|] eqn:Hdc; try (rstep H; subst; discriminate).
  rstep H. subst. rstep H; [rstep H; subst; discriminate|]. norm_bool.
  destruct (ds_status s) eqn:Hst; try (rstep H; subst; discriminate).
  rstep H. subst. rstep H; [|rstep H; subst; discriminate].
  rstep H. subst. rstep H; [|rstep H; subst; discriminate].
  rstep H. subst. exists s, dr, dc, x, x0, x1. repeat split; auto.
Qed.

(** ** Client authentication *)

Lemma validate_signature_ok E keys raw :
  validate_signature E keys raw = true ->
  exists k, In k keys /\ k_use k <> "enc"%string /\ x_verify E k raw = true.
Proof.
  unfold validate_signature. destruct keys as [|k0 keys]; [discriminate|].
  generalize (k0 :: keys). intros l. induction l as [|k l IH]; cbn; [discriminate|].
  destruct (String.eqb_spec (k_use k) "enc").
  - intros H. destruct (IH H) as (k' & ? & ?). exists k'. auto.
  - destruct (x_verify E k raw) eqn:Hv; [intros _; exists k; auto|].
    intros H. destruct (IH H) as (k' & ? & ?). exists k'. auto.
Qed.

Lemma assertion_of_ok kind req a :
  assertion_of kind req = Some a -> aq_type req = Some kind /\ aq_assertion req = Some a /\ a <> ""%string.
Proof.
  unfold assertion_of. destruct (aq_type req) as [t|]; [|discriminate].
  destruct (String.eqb_spec t kind); [|discriminate]. cbn. subst.
  destruct (aq_assertion req) as [a'|]; [|discriminate].
  destruct (is_empty a') eqn:He; [discriminate|]. intros H; injection H as ->.
  repeat split; auto. apply is_empty_false; auto.
Qed.

Lemma private_key_jwt_ok E req tr res :
  reach (private_key_jwt E (Some req)) tr (Ret res) -> aa_err res = false ->
  exists a cl t c keys k, aq_type req = Some assertion_bearer /\ aq_assertion req = Some a /\
    x_parse_jose E a = true /\ x_payload E KAssertion a = Some cl /\
    c_iss cl <> ""%string /\ c_sub cl = c_iss cl /\ c_aud cl <> ""%string /\ c_jti cl <> ""%string /\
    (unix t <= c_exp cl)%N /\ x_jwks E (cl_jwks c) = Some keys /\
    In k keys /\ k_use k <> "enc"%string /\ x_verify E k a = true /\
    tr = [(CNow, ATime t); (CClientGet (c_iss cl), AClient (SOk c))] /\ res = aok (Some c).
Proof.
  unfold private_key_jwt. intros H Hok.
  destruct (assertion_of assertion_bearer req) as [a|] eqn:Ha; [|rstep H; subst; discriminate].
  apply assertion_of_ok in Ha as (Ha1 & Ha2 & Ha3).
  rstep H; [rstep H; subst; discriminate|]. norm_bool.
  destruct (x_payload E KAssertion a) as [cl|] eqn:Hp; [|rstep H; subst; discriminate].
  rstep H; [rstep H; subst; discriminate|]. norm_bool.
  rstep H; [rstep H; subst; discriminate|]. norm_bool.
  rcall H t. rstep H; [rstep H; subst; discriminate|]. norm_bool.
  rcall H rc. destruct rc as [c| | |]; try (rstep H; subst; discriminate).
  rstep H; [rstep H; subst; discriminate|].
  destruct (x_jwks E (cl_jwks c)) as [keys|] eqn:Hk; [|rstep H; subst; discriminate].
  rstep H; [|rstep H; subst; discriminate].
  match goal with X : validate_signature _ _ _ = true |- _ => apply validate_signature_ok in X as (k & K1 & K2 & K3) end.
  rstep H. subst.
  exists a, cl, t, c, keys, k.
  repeat match goal with |- _ /\ _ => split end; auto; apply is_empty_false; auto.
Qed.

Lemma validate_attestation_ok E a tr key :
  reach (validate_attestation E a) tr (Ret (Some key)) ->
  exists cl t1 t2 c keys k, x_parse_jose E a = true /\ x_payload E KAttestation a = Some cl /\
    c_cnf_jwk cl = Some key /\ c_iss cl <> ""%string /\ c_sub cl <> ""%string /\
    (unix t1 <= c_exp cl)%N /\ (c_nbf cl <= unix t2)%N /\
    x_jwks E (cl_jwks c) = Some keys /\ In k keys /\ k_use k <> "enc"%string /\ x_verify E k a = true /\
    tr = [(CNow, ATime t1); (CNow, ATime t2); (CClientGet (c_iss cl), AClient (SOk c))].
Proof.
  unfold validate_attestation. intros H.
  rstep H; [rstep H; discriminate|]. norm_bool.
  destruct (x_payload E KAttestation a) as [cl|] eqn:Hp; [|rstep H; discriminate].
  destruct (c_cnf_jwk cl) as [key'|] eqn:Hc; [|rstep H; discriminate].
  rstep H; [rstep H; discriminate|]. norm_bool.
  rcall H t1. rstep H; [rstep H; discriminate|]. norm_bool.
  rcall H t2. rstep H; [rstep H; discriminate|]. norm_bool.
  rcall H rc. destruct rc as [c| | |]; try (rstep H; discriminate).
  rstep H; [rstep H; discriminate|].
  destruct (x_jwks E (cl_jwks c)) as [keys|] eqn:Hk; [|rstep H; discriminate].
  rstep H; [|rstep H; discriminate].
  match goal with X : validate_signature _ _ _ = true |- _ => apply validate_signature_ok in X as (k & K1 & K2 & K3) end.
  rstep H. injection H as ->. subst.
  exists cl, t1, t2, c, keys, k.
  repeat match goal with |- _ /\ _ => split end; auto; apply is_empty_false; auto.
Qed.

Lemma client_attestation_ok E req tr res :
  reach (client_attestation E (Some req)) tr (Ret res) -> aa_err res = false ->
  exists a att pop k tr1 cl t1 t2 rc, aq_type req = Some assertion_attestation /\ aq_assertion req = Some a /\
    split_tilde a = Some (att, pop) /\
    reach (validate_attestation E att) tr1 (Ret (Some (Some k))) /\
    x_verify E k pop = true /\ x_payload E KPop pop = Some cl /\
    c_iss cl <> ""%string /\ c_jti cl <> ""%string /\ c_aud cl <> ""%string /\
    (unix t1 <= c_exp cl)%N /\ (c_nbf cl <= unix t2)%N /\
    tr = (tr1 ++ [(CNow, ATime t1); (CNow, ATime t2); (CClientGet (c_iss cl), AClient rc)])%list /\
    ((exists c, rc = SOk c /\ res = aok (Some c)) \/ rc = SNil /\ res = aok None).
Proof.
  unfold client_attestation. intros H Hok.
  destruct (assertion_of assertion_attestation req) as [a|] eqn:Ha; [|rstep H; subst; discriminate].
  apply assertion_of_ok in Ha as (Ha1 & Ha2 & Ha3).
  destruct (split_tilde a) as [[att pop]|] eqn:Hs; [|rstep H; subst; discriminate].
  apply reach_bind_ret in H as (v & tr1 & tr2 & -> & Hv & H).
  destruct v as [key|]; [|rstep H; subst; discriminate].
  destruct (x_parse_pop E pop) eqn:Hpp; cbn [negb] in H; [|rstep H; subst; discriminate].
  destruct key as [k|]; [|rstep H].
  unfold token_claims, token_decode in H. destruct (x_verify E k pop) eqn:Hver; [|rstep H; subst; discriminate].
  destruct (x_payload E KPop pop) as [cl|] eqn:Hpay; [|rstep H; subst; discriminate].
  rstep H; [rstep H; subst; discriminate|]. norm_bool.
  rcall H t1. rstep H; [rstep H; subst; discriminate|]. norm_bool.
  rcall H t2. rstep H; [rstep H; subst; discriminate|]. norm_bool.
  rcall H rc.
  exists a, att, pop, k, tr1, cl, t1, t2, rc.
  repeat (split; [solve [auto | apply is_empty_false; auto]|]).
  destruct rc as [c| | |]; rstep H; subst; try discriminate; split; eauto.
Qed.

(** ** DPoP *)

Lemma dpop_ok E htm htu proof tv tc tr thumb :
  reach (dpop_verify E htm htu proof tv tc) tr (Ret (Some thumb)) ->
  exists t k cl t1 t2 r e, x_parse E proof = Some t /\ j_typ t = Some dpop_type /\ j_jwk t = Some k /\
    x_verify E k proof = true /\ x_payload E KDpop proof = Some cl /\
    htm <> ""%string /\ htu <> ""%string /\ proof <> ""%string /\
    c_htm cl = htm /\ x_request_uri E htu = true /\ c_htu cl = x_url_string E htu /\
    In (x_upper E htm) http_methods /\
    (unix (t1 - dpop_threshold) <= c_iat cl)%N /\ (c_iat cl <= unix (t2 + dpop_threshold))%N /\
    (e = SOk false \/ e = SNil) /\ is_ok r = true /\
    tr = [(CNow, ATime t1); (CNow, ATime t2); (CProofExists (jti_hash E (c_jti cl)), ABool e);
          (CProofReg (jti_hash E (c_jti cl)), AUnit r)] /\
    dpop_finish E k cl tv tc = Some thumb.
Proof.
  unfold dpop_verify. intros H.
  rstep H; [rstep H; discriminate|]. norm_bool.
  rstep H; [rstep H; discriminate|]. norm_bool.
  rstep H; [rstep H; discriminate|]. norm_bool.
  destruct (x_parse E proof) as [t|] eqn:Hp; [|rstep H; discriminate].
  destruct (j_typ t) as [typ|] eqn:Ht; [|rstep H; discriminate].
  destruct (j_jwk t) as [k|] eqn:Hk; [|rstep H; discriminate].
  rstep H; [rstep H; discriminate|]. norm_bool. subst typ.
  unfold token_claims, token_decode in H. destruct (x_verify E k proof) eqn:Hver; [|rstep H; discriminate].
  destruct (x_payload E KDpop proof) as [cl|] eqn:Hpay; [|rstep H; discriminate].
  rstep H; [rstep H; discriminate|].
  rstep H; [rstep H; discriminate|]. norm_bool.
  rstep H; [rstep H; discriminate|]. norm_bool.
  rcall H t1. rstep H; [rstep H; discriminate|]. norm_bool.
  rcall H t2. rstep H; [rstep H; discriminate|]. norm_bool.
  cbv zeta in H. rcall H e.
  assert (He : e = SOk false \/ e = SNil).
  { destruct e as [[]| | |]; auto; rstep H; discriminate. }
  match type of H with reach _ ?t _ => assert (H' : reach (write (CProofReg (jti_hash E (c_jti cl))) (fun r =>
       if is_ok r then Ret (dpop_finish E k cl tv tc) else Ret None)) t (Ret (Some thumb))) end.
  { destruct He as [-> | ->]; exact H. }
  clear H. rcall H' r. rstep H'; [|rstep H'; discriminate]. rstep H'. subst.
  exists t, k, cl, t1, t2, r, e.
  repeat (split; [solve [auto | apply is_empty_false; auto]|]).
  split.
  { match goal with X : existsb _ _ = true |- _ => apply existsb_exists in X as (m & M1 & M2) end.
    apply String.eqb_eq in M2. rewrite M2. exact M1. }
  repeat (split; [solve [auto]|]). auto.
Qed.
