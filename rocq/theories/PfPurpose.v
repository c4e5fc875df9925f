(** * What a signed object was made for, and what it is taken for: proofs *)

From Verif Require Export SpecPurpose PfJsonReq PfTok ProgFacts2.

Definition lowerb (s : string) : bool :=
  forallb (fun c => (Nat.ltb (nat_of_ascii c) 65 || (Nat.ltb 90 (nat_of_ascii c) && Nat.ltb (nat_of_ascii c) 128))%bool) (list_ascii_of_string s).
Lemma lowerb_ok s : lowerb s = true -> lower s.
Proof.
  intros H c Hc. unfold lowerb in H. rewrite forallb_forall in H. specialize (H c Hc). apply orb_prop in H as [H|H].
  - left. apply Nat.ltb_lt, H.
  - right. apply andb_prop in H as [H1 H2]. split; apply Nat.ltb_lt; assumption.
Qed.

Fixpoint distinctb (l : list string) : bool :=
  match l with [] => true | x :: l => negb (existsb (String.eqb x) l) && distinctb l end.
Lemma distinctb_ok l : distinctb l = true -> NoDup l.
Proof.
  induction l as [|x l IH]; cbn; intros H; constructor; apply andb_prop in H as [H1 H2]; auto.
  intros Hin. apply negb_true_iff in H1. assert (existsb (String.eqb x) l = true) by (apply existsb_exists; exists x; split; [exact Hin|apply String.eqb_refl]).
  congruence.
Qed.
Lemma plainb d : distinctb (map fst d) = true -> forallb lowerb (map fst d) = true -> plain d.
Proof.
  intros H1 H2. split; [apply distinctb_ok, H1|]. intros n Hn. apply lowerb_ok. rewrite forallb_forall in H2. auto.
Qed.
Lemma plain_perm d d' : Permutation d d' -> plain d -> plain d'.
Proof.
  intros P [H1 H2]. split; [eapply Permutation_NoDup; [apply Permutation_map, P|exact H1]|].
  intros n Hn. apply H2. eapply Permutation_in; [apply Permutation_sym, Permutation_map, P|exact Hn].
Qed.

(** What tells the documents of each purpose from the others. *)
Definition shape (p : purpose) (d : jdoc) : Prop :=
  plain d /\
  match p with
  | MProof => ~ In "iss"%string (map fst d) /\ In "jti"%string (map fst d)
  | MResponse => ~ In "sub"%string (map fst d) /\ ~ In "jti"%string (map fst d) /\ (In "code"%string (map fst d) \/ In "error"%string (map fst d))
  | MRequest => ~ In "sub"%string (map fst d) /\ ~ In "jti"%string (map fst d)
  | MAssertion => ~ In "cnf"%string (map fst d) /\ In "jti"%string (map fst d)
  | MAccessToken | MRefreshToken => In "jti"%string (map fst d) /\
      forall j, In ("cnf"%string, j) d -> j = JsObj [] \/ j = JsObj ["jkt"%string]
  | MIntrospection => ~ In "sub"%string (map fst d) /\ ~ In "jti"%string (map fst d) /\ In "token_introspection"%string (map fst d)
  end.

Lemma shape_perm p d d' : Permutation d d' -> shape p d -> shape p d'.
Proof.
  intros P [H1 H2]. split; [eapply plain_perm; eauto|].
  assert (I : forall n, In n (map fst d) <-> In n (map fst d')).
  { intros n. split; apply Permutation_in; [|apply Permutation_sym]; apply Permutation_map, P. }
  assert (J : forall j, In ("cnf"%string, j) d' -> In ("cnf"%string, j) d) by (intros j; apply Permutation_in, Permutation_sym, P).
  destruct p; rewrite <- ?I; try exact H2; destruct H2 as (H2 & H3); (split; [exact H2|]); intros j Hj; apply H3, J, Hj.
Qed.

Ltac absent := cbn; intros X; repeat (destruct X as [X|X]; [discriminate X|]); exact X.

Lemma proof_shape c : shape MProof (proof_doc c).
Proof.
  unfold proof_doc. destruct (c_ath c); (split; [apply plainb; reflexivity|]); split; try absent; cbn; auto.
Qed.
Lemma response_shape c : jm_code c <> ""%string \/ jm_error c <> ""%string -> shape MResponse (response_doc c).
Proof.
  intros H. unfold response_doc, jtext_opt, jnumber_opt.
  assert (Hc : jm_code c <> ""%string -> is_empty (jm_code c) = false) by (apply is_empty_false).
  assert (He : jm_error c <> ""%string -> is_empty (jm_error c) = false) by (apply is_empty_false).
  destruct (is_empty (jm_iss c)), (is_empty (jm_aud c)), (jm_exp c =? 0)%N, (is_empty (jm_code c)), (is_empty (jm_state c)),
    (is_empty (jm_error c)), (is_empty (jm_description c));
    (split; [apply plainb; reflexivity|]); (split; [absent|]); (split; [absent|]);
    first [left; cbn; tauto|right; cbn; tauto|exfalso; destruct H as [H|H]; [specialize (Hc H); discriminate|specialize (He H); discriminate]].
Qed.
Lemma assertion_shape c : c_jti c <> ""%string -> shape MAssertion (assertion_doc c).
Proof.
  intros H. apply is_empty_false in H. unfold assertion_doc, jtext_opt, jnumber_opt. rewrite H.
  destruct (is_empty (c_iss c)), (is_empty (c_sub c)), (is_empty (c_aud c)), (c_exp c =? 0)%N, (c_nbf c =? 0)%N, (c_iat c =? 0)%N;
    (split; [apply plainb; reflexivity|]); (split; [absent|]); cbn; tauto.
Qed.
Lemma token_shape p c : jc_jti c <> ""%string -> p = MAccessToken \/ p = MRefreshToken -> shape p (token_doc c).
Proof.
  intros H Hp. apply is_empty_false in H.
  assert (Hs : plain (token_doc c) /\ In "jti"%string (map fst (token_doc c))).
  { unfold token_doc, jtext_opt, jnumber_opt. rewrite H.
    destruct (is_empty (jc_iss c)), (is_empty (jc_sub c)), (is_empty (jc_aud c)), (jc_exp c =? 0)%N, (jc_nbf c =? 0)%N, (jc_iat c =? 0)%N,
      (is_empty (jc_client_id c)), (is_empty (jc_scope c)), (jc_cnf c); (split; [apply plainb; reflexivity|]); cbn; tauto. }
  assert (Hc : forall j, In ("cnf"%string, j) (token_doc c) -> j = JsObj [] \/ j = JsObj ["jkt"%string]).
  { intros j Hj. unfold token_doc, jtext_opt, jnumber_opt, jtext, jnumber in Hj. repeat (apply in_app_or in Hj as [Hj|Hj];
      [match type of Hj with In _ (if ?b then _ else _) => destruct b end; [destruct Hj|destruct Hj as [Hj|[]]; discriminate Hj]|]).
    destruct (jc_cnf c) as [k|]; [|destruct Hj]. destruct Hj as [Hj|[]]. injection Hj as <-. destruct (is_empty k); auto. }
  destruct Hs as (Hs1 & Hs2). destruct Hp as [-> | ->]; (split; [exact Hs1|]); (split; [exact Hs2|exact Hc]).
Qed.
Lemma request_shape utf8 vs d : write_values utf8 JsonReq.fields vs = Some d -> shape MRequest d.
Proof.
  intros H. assert (I : forall n, In n (map fst d) -> In n (map (fun f => fst (fst f)) JsonReq.fields)).
  { intros n Hn. apply in_map_iff in Hn as ([m j] & <- & Hin). destruct (write_in _ _ _ _ H _ _ Hin) as (i & c & k & v & A & _).
    apply nth_error_In in A. apply (in_map (fun f => fst (fst f))) in A. exact A. }
  split; [split|split].
  - exact (write_names _ _ _ _ H field_names).
  - intros n Hn. apply lowerb_ok. apply I in Hn. revert n Hn. apply forallb_forall. reflexivity.
  - intros X. apply I in X. revert X. absent.
  - intros X. apply I in X. revert X. absent.
Qed.

Section Purpose.
Context (E : ext) (K : checks) (utf8 : string -> bool) (read_u64 : string -> option N).
Context (sign : jose_sign jdoc) (payload : string -> option jdoc).
Context (Hsign : signs_documents E sign payload) (Hdec : decodes_members E payload).

Lemma made_shape p raw : made_for E K utf8 sign p raw ->
  exists d, payload raw = Some d /\ shape p d /\ forall t, x_parse E raw = Some t -> exists typ, j_typ t = Some typ /\ In typ (types_of p).
Proof.
  intros (typ & embed & provider & Ht & H).
  assert (Hgo : forall d, jwt_serialize sign typ embed provider d = Some raw -> shape p d ->
    exists d, payload raw = Some d /\ shape p d /\ forall t, x_parse E raw = Some t -> exists typ, j_typ t = Some typ /\ In typ (types_of p)).
  { intros d Hd Hs. apply serialize_inv in Hd as (k & _ & _ & Hd). apply Hsign in Hd as (Hp & d' & Hd' & P).
    exists d'. split; [exact Hd'|]. split; [eapply shape_perm; eauto|]. eauto. }
  destruct p; cbv zeta in H.
  - destruct H as (clean & htm & htu & tv & jti & now & H). unfold dpop_prove in H.
    destruct (is_empty htm || is_empty htu)%bool; [discriminate|]. destruct (negb (x_request_uri E htu)); [discriminate|].
    destruct (negb (existsb _ _)); [discriminate|]. eapply Hgo; [exact H|apply proof_shape].
  - destruct H as (issuer & resp & now & Hne & H). unfold jarm_encode in H. destruct (is_empty issuer); [discriminate|].
    destruct resp as [r|]; [|discriminate]. destruct (jr_error r) as [[code desc]|] eqn:He.
    + eapply Hgo; [exact H|]. apply response_shape. right. cbn. intros ->. exact (Hne r desc eq_refl He).
    + destruct (is_empty (jr_client_id r)); [discriminate|]. destruct (is_empty (jr_code r)) eqn:Hc; [discriminate|].
      destruct (_ || _)%bool; [discriminate|]. eapply Hgo; [exact H|]. apply response_shape. left. cbn. apply is_empty_false, Hc.
  - destruct H as (r & H). apply encode_inv in H as (d & Hd & H).
    eapply Hgo; [exact H|]. eapply request_shape; eauto.
  - destruct H as ([t|] & now & H); [|discriminate]. cbn [client_assertion_generate] in H. destruct (is_empty (t_id t)) eqn:Hi; [discriminate|].
    destruct (t_meta t); [|discriminate]. destruct (negb _); [discriminate|]. eapply Hgo; [exact H|]. apply assertion_shape. apply is_empty_false, Hi.
  - destruct H as ([t|] & now & H); [|discriminate]. cbn [access_token_generate] in H. destruct (is_empty (t_id t)) eqn:Hi; [discriminate|].
    destruct (t_meta t); [|discriminate]. destruct (negb _); [discriminate|]. eapply Hgo; [exact H|]. apply token_shape; auto. apply is_empty_false, Hi.
  - destruct H as ([t|] & now & H); [|discriminate]. cbn [refresh_token_generate] in H. destruct (is_empty (t_id t)) eqn:Hi; [discriminate|].
    destruct (t_meta t); [|discriminate]. destruct (negb _); [discriminate|]. eapply Hgo; [exact H|]. apply token_shape; auto. apply is_empty_false, Hi.
  - destruct H as ([t|] & n1 & n2 & H); [|discriminate]. cbn [introspection_generate] in H. destruct (t_meta t) as [m|]; [|discriminate].
    eapply Hgo; [exact H|]. split; [apply plainb; reflexivity|]. split; [absent|]. split; [absent|]. cbn; tauto.
Qed.

(** Every member of an accepted request is a member of the message. *)
Lemma request_known raw d verify r n : payload raw = Some d -> In n (map fst d) -> lookup JsonReq.fields n = None ->
  (forall d, verify raw = Some d -> exists d', payload raw = Some d' /\ Permutation d d') -> decode_request read_u64 verify raw = Some r -> False.
Proof.
  intros Hp Hn Hl Hv H. unfold decode_request in H. destruct (String.eqb raw ""); [discriminate|].
  destruct (verify raw) as [d0|] eqn:Hd; [|discriminate]. destruct (Hv _ eq_refl) as (d' & Hp' & P). rewrite Hp in Hp'. injection Hp' as <-.
  destruct (read_members read_u64 [] _ d0) as [vs|] eqn:Hr; [|discriminate]. apply read_from in Hr as (H1 & _).
  apply in_map_iff in Hn as ([n' j] & <- & Hin). apply (Permutation_in _ (Permutation_sym P)) in Hin. destruct (H1 _ _ Hin) as (i & k & X).
  cbn [fst] in Hl. rewrite Hl in X. discriminate.
Qed.

Lemma proof_typ raw : taken_as E read_u64 payload UProof raw -> exists t, x_parse E raw = Some t /\ j_typ t = Some "dpop+jwt"%string.
Proof. intros (htm & htu & tv & tc & tr & th & H). apply dpop_ok in H as (t & k & cl & t1 & t2 & r & e & A & B & _). eauto. Qed.
Lemma response_typ raw : taken_as E read_u64 payload UResponse raw -> exists t, x_parse E raw = Some t /\ j_typ t = Some "jarm+jwt"%string.
Proof.
  intros (dec & keys & issuer & audience & now & r & H). unfold jarm_decode in H. destruct (_ || _)%bool; [discriminate|].
  destruct (x_parse E raw) as [t|]; [|discriminate]. destruct (j_typ t) as [typ|] eqn:Ht; [|discriminate].
  destruct (String.eqb_spec typ jarm_type) as [->|]; [|discriminate]. eauto.
Qed.
Lemma assertion_claims raw : taken_as E read_u64 payload UAssertion raw -> exists cl, x_payload E KAssertion raw = Some cl /\
  c_iss cl <> ""%string /\ c_sub cl = c_iss cl /\ c_jti cl <> ""%string.
Proof.
  intros (req & tr & res & Ha & H & He). apply private_key_jwt_ok in H; [|exact He].
  destruct H as (a & cl & t & c & keys & k & _ & Ha' & _ & Hp & H1 & H2 & _ & H3 & _). rewrite Ha in Ha'. injection Ha' as <-. eauto.
Qed.
Lemma attestation_claims raw : taken_as E read_u64 payload UAttestation raw -> exists cl, x_payload E KAttestation raw = Some cl /\
  c_iss cl <> ""%string /\ c_sub cl <> ""%string /\ exists key, c_cnf_jwk cl = Some (Some key).
Proof.
  intros (req & both & pop & tr & res & Ha & Hs & H & He). apply client_attestation_ok in H; [|exact He].
  destruct H as (a & att & pop' & k & tr1 & cl & t1 & t2 & rc & _ & Ha' & Hs' & Hv & _).
  rewrite Ha in Ha'. injection Ha' as <-. rewrite Hs in Hs'. injection Hs' as <- <-. apply validate_attestation_ok in Hv.
  destruct Hv as (ca & u1 & u2 & c & keys & k' & _ & Hp & Hc & H1 & H2 & _). exists ca. repeat split; auto. eauto.
Qed.
Lemma possession_claims raw : taken_as E read_u64 payload UPossession raw -> exists cl, x_payload E KPop raw = Some cl /\
  c_iss cl <> ""%string /\ c_jti cl <> ""%string.
Proof.
  intros (req & both & att & tr & res & Ha & Hs & H & He). apply client_attestation_ok in H; [|exact He].
  destruct H as (a & att' & pop & k & tr1 & cl & t1 & t2 & rc & _ & Ha' & Hs' & _ & _ & Hp & H1 & H2 & _).
  rewrite Ha in Ha'. injection Ha' as <-. rewrite Hs in Hs'. injection Hs' as <- <-. eauto.
Qed.

Lemma told_apart p u raw : made_for E K utf8 sign p raw -> taken_as E read_u64 payload u raw ->
  match p, u with
  | MProof, UProof | MResponse, UResponse | MRequest, URequest | MAssertion, UAssertion | MAssertion, UPossession => True
  | MAccessToken, (UAssertion | UPossession) => True
  | MRefreshToken, (UAssertion | UPossession) => True
  | _, _ => False
  end.
Proof.
  intros Hm Hu. destruct (made_shape _ _ Hm) as (d & Hp & (Hpl & Hs) & Ht). clear Hm.
  assert (Htyp : forall t s, x_parse E raw = Some t -> j_typ t = Some s -> In s (types_of p)).
  { intros t s A B. destruct (Ht t A) as (s' & B' & C). congruence. }
  clear Ht. destruct u.
  - destruct (proof_typ _ Hu) as (t & A & B). specialize (Htyp _ _ A B). destruct p; [exact I|exfalso..]; revert Htyp; absent.
  - destruct (response_typ _ Hu) as (t & A & B). specialize (Htyp _ _ A B). destruct p; [exfalso|exact I|exfalso..]; revert Htyp; absent.
  - destruct Hu as (verify & r & Hv & Hr).
    assert (Hk : forall n, In n (map fst d) -> lookup JsonReq.fields n = None -> False) by (intros n H1 H2; exact (request_known _ _ _ _ _ Hp H1 H2 Hv Hr)).
    destruct p; try exact I; cbn in Hs.
    + destruct Hs as (_ & Hs). exact (Hk _ Hs eq_refl).
    + destruct Hs as (_ & _ & [Hs|Hs]); exact (Hk _ Hs eq_refl).
    + destruct Hs as (_ & Hs). exact (Hk _ Hs eq_refl).
    + destruct Hs as (Hs & _). exact (Hk _ Hs eq_refl).
    + destruct Hs as (Hs & _). exact (Hk _ Hs eq_refl).
    + destruct Hs as (_ & _ & Hs). exact (Hk _ Hs eq_refl).
  - destruct (assertion_claims _ Hu) as (cl & A & B1 & B2 & B3). destruct (Hdec _ _ _ _ Hp Hpl A) as ((Q1 & _) & (Q2 & _) & _ & (Q4 & _) & _).
    destruct p; try exact I; cbn in Hs.
    + destruct Hs as (Hs & _). exact (B1 (Q1 Hs)).
    + destruct Hs as (_ & Hs & _). exact (B3 (Q4 Hs)).
    + destruct Hs as (_ & Hs). exact (B3 (Q4 Hs)).
    + destruct Hs as (_ & Hs & _). exact (B3 (Q4 Hs)).
  - destruct (attestation_claims _ Hu) as (cl & A & B1 & B2 & key & B3). destruct (Hdec _ _ _ _ Hp Hpl A) as ((Q1 & _) & (Q2 & _) & _ & (Q4 & _) & Q5 & Q6).
    assert (Htok : (forall j, In ("cnf"%string, j) d -> j = JsObj [] \/ j = JsObj ["jkt"%string]) -> False).
    { intros Hc. destruct (in_dec string_dec "cnf"%string (map fst d)) as [Hin|Hin]; [|specialize (Q5 Hin); congruence].
      apply in_map_iff in Hin as ([n j] & X & Hin). cbn in X. subst n.
      assert (exists names, j = JsObj names /\ (forall n, In n names -> lower n) /\ ~ In "jwk"%string names) as (names & -> & L1 & L2).
      { destruct (Hc _ Hin) as [-> | ->]; eexists; (split; [reflexivity|]); split.
        - intros n [].
        - intros [].
        - intros n [<-|[]]. apply lowerb_ok. reflexivity.
        - absent. }
      exact (Q6 names key Hin L1 L2 B3). }
    destruct p; try exact I; cbn in Hs.
    + destruct Hs as (Hs & _). exact (B1 (Q1 Hs)).
    + destruct Hs as (Hs & _ & _). exact (B2 (Q2 Hs)).
    + destruct Hs as (Hs & _). exact (B2 (Q2 Hs)).
    + destruct Hs as (Hs & _). specialize (Q5 Hs). congruence.
    + destruct Hs as (_ & Hs). exact (Htok Hs).
    + destruct Hs as (_ & Hs). exact (Htok Hs).
    + destruct Hs as (Hs & _ & _). exact (B2 (Q2 Hs)).
  - destruct (possession_claims _ Hu) as (cl & A & B1 & B3). destruct (Hdec _ _ _ _ Hp Hpl A) as ((Q1 & _) & _ & _ & (Q4 & _) & _).
    destruct p; try exact I; cbn in Hs.
    + destruct Hs as (Hs & _). exact (B1 (Q1 Hs)).
    + destruct Hs as (_ & Hs & _). exact (B3 (Q4 Hs)).
    + destruct Hs as (_ & Hs). exact (B3 (Q4 Hs)).
    + destruct Hs as (_ & Hs & _). exact (B3 (Q4 Hs)).
Qed.
End Purpose.

(** Made for its own use, or one of three crossings. *)
Lemma C111_one_purpose_partial_proof : forall E K utf8 read_u64 sign payload p u raw,
  signs_documents E sign payload -> decodes_members E payload ->
  made_for E K utf8 sign p raw -> taken_as E read_u64 payload u raw ->
  (p = MProof /\ u = UProof) \/ (p = MResponse /\ u = UResponse) \/ (p = MRequest /\ u = URequest) \/ (p = MAssertion /\ u = UAssertion) \/
  (* the code lets these pass; see the next theorems *)
  (p = MAssertion /\ u = UPossession) \/ ((p = MAccessToken \/ p = MRefreshToken) /\ (u = UAssertion \/ u = UPossession)).
Proof.
  intros E K utf8 read_u64 sign payload p u raw Hs Hd Hm Hu.
  pose proof (told_apart E K utf8 read_u64 sign payload Hs Hd p u raw Hm Hu) as H.
  destruct p, u; try contradiction; tauto.
Qed.

Lemma token_subject payload E sign typ embed provider m t max K now cnf raw cl :
  signs_documents E sign payload -> decodes_members E payload ->
  meta_valid K max now m = true -> t_id t <> ""%string ->
  jwt_serialize sign typ embed provider (token_doc (claims_literal (t_id t) m cnf)) = Some raw ->
  x_payload E KAssertion raw = Some cl -> c_iss cl = m_issuer m /\ c_sub cl = m_subject m.
Proof.
  intros Hs Hd Hv Hi H Hp. apply serialize_inv in H as (k & _ & _ & H). apply Hs in H as (_ & d & Hpd & P).
  assert (Hsh : shape MAccessToken (token_doc (claims_literal (t_id t) m cnf))) by (apply token_shape; auto).
  apply (shape_perm _ _ _ P) in Hsh as (Hpl & _). destruct (Hd _ _ _ _ Hpd Hpl Hp) as ((_ & Q1) & (_ & Q2) & _).
  unfold meta_valid, str_ok in Hv. repeat (apply andb_prop in Hv as [Hv ?]).
  repeat match goal with X : (negb (is_empty _) && _)%bool = true |- _ => apply andb_prop in X as [X _]; apply negb_true_iff in X end.
  split; [apply Q1|apply Q2]; apply (Permutation_in _ P); unfold token_doc; cbn [jc_iss jc_sub claims_literal]; unfold jtext_opt;
    repeat match goal with X : is_empty _ = false |- _ => rewrite X; clear X end; unfold jtext; cbn; tauto.
Qed.

(** Tokens are no proof, response or request, and an assertion only when their subject is their
    issuer. *)
Lemma C111_tokens_partial_proof : forall E K read_u64 sign payload typ embed provider t now raw u,
  signs_documents E sign payload -> decodes_members E payload ->
  let ser c := jwt_serialize sign typ embed provider (token_doc c) in
  In typ (types_of MAccessToken) /\ access_token_generate K (Some ser) (Some t) now = Some raw \/
  In typ (types_of MRefreshToken) /\ refresh_token_generate K (Some ser) (Some t) now = Some raw ->
  taken_as E read_u64 payload u raw ->
  (u = UAssertion \/ u = UPossession) /\
  (u = UAssertion -> exists m, t_meta t = Some m /\ m_subject m = m_issuer m).
Proof.
  intros E K read_u64 sign payload typ embed provider t now raw u Hs Hd ser Hm Hu.
  assert (Hmade : made_for E K (fun _ => true) sign MAccessToken raw \/ made_for E K (fun _ => true) sign MRefreshToken raw).
  { destruct Hm as [(Ht & Hm)|(Ht & Hm)]; [left|right]; exists typ, embed, provider; split; eauto. }
  assert (Hno : u = UAssertion \/ u = UPossession).
  { destruct Hmade as [Hmade|Hmade]; pose proof (told_apart _ _ _ read_u64 _ payload Hs Hd _ u raw Hmade Hu) as H;
      destruct u; try contradiction; auto. }
  split; [exact Hno|]. intros ->.
  destruct (assertion_claims _ _ _ _ Hu) as (cl & A & _ & B & _).
  destruct Hm as [(_ & Hm)|(_ & Hm)]; cbn [access_token_generate refresh_token_generate] in Hm;
    (destruct (is_empty (t_id t)) eqn:Hi; [discriminate|]); (destruct (t_meta t) as [m|]; [|discriminate]);
    (destruct (meta_valid _ _ _ _) eqn:Hv; [|discriminate]); cbn [negb] in Hm; exists m; (split; [reflexivity|]);
    destruct (fun X => token_subject payload E sign typ embed provider m t _ K now _ raw cl Hs Hd Hv X Hm A) as (X1 & X2);
    try (apply is_empty_false, Hi); congruence.
Qed.

Lemma reach_bound {A B} (p : prog A) (f : A -> prog B) t1 t2 a q : reach p t1 (Ret a) -> reach (f a) t2 q -> reach (bind p f) (t1 ++ t2) q.
Proof.
  revert t1. induction p as [b| | |c k IH]; intros t1 H1 H2.
  - apply reach_ret_inv in H1 as [-> H1]. injection H1 as ->. exact H2.
  - apply reach_panic_inv in H1 as [_ H1]. discriminate.
  - apply reach_stuck_inv in H1 as [_ H1]. discriminate.
  - apply reach_do_inv in H1 as [[-> H1]|(x & t & -> & H1)]; [discriminate|]. cbn. constructor. apply IH; assumption.
Qed.

(** The assertion of a client passes for the proof that it holds the key of an attestation. *)
Lemma possession_accepted E key raw att tr cl t1 t2 (c : client) read_u64 payload :
  x_parse_pop E raw = true -> (forall x, In x (list_ascii_of_string att) -> x <> "~"%char) ->
  runs (validate_attestation E att) tr (Done (Some (Some key))) ->
  x_verify E key raw = true -> x_payload E KPop raw = Some cl ->
  is_empty (c_iss cl) = false -> is_empty (c_aud cl) = false -> is_empty (c_jti cl) = false -> (c_exp cl =? 0)%N = false ->
  (unix t1 <= c_exp cl)%N -> (c_nbf cl <= unix t2)%N ->
  taken_as E read_u64 payload UPossession raw /\
  runs (client_attestation E (Some (mkAuthn (Some assertion_attestation) (Some (att ++ "~" ++ raw)%string))))
    (tr ++ [(CNow, ATime t1); (CNow, ATime t2); (CClientGet (c_iss cl), AClient (SOk c))])%list (Done (aok (Some c))).
Proof.
  intros Hpp Hatt Hv Hver Hpay Z1 Z2 Z3 Z4 H1 H2.
  assert (Hsplit : split_tilde (att ++ "~" ++ raw)%string = Some (att, raw)).
  { clear - Hatt. change ("~" ++ raw)%string with (String "~" raw). induction att as [|a att IH]; [reflexivity|].
    change (String a att ++ String "~" raw)%string with (String a (att ++ String "~" raw)).
    assert (Ha : Ascii.eqb a "~" = false) by (apply Ascii.eqb_neq, Hatt; left; reflexivity).
    remember (att ++ String "~" raw)%string as rest eqn:Hr. cbn [split_tilde]. rewrite Ha, IH; [reflexivity|].
    intros x Hx. apply Hatt. right; exact Hx. }
  assert (Hne : is_empty (att ++ "~" ++ raw)%string = false) by (destruct att; reflexivity).
  assert (Hrun : runs (client_attestation E (Some (mkAuthn (Some assertion_attestation) (Some (att ++ "~" ++ raw)%string))))
    (tr ++ [(CNow, ATime t1); (CNow, ATime t2); (CClientGet (c_iss cl), AClient (SOk c))])%list (Done (aok (Some c)))).
  { cbn [runs]. unfold client_attestation, assertion_of. cbn [aq_type aq_assertion]. rewrite String.eqb_refl, Hne. cbn [negb]. rewrite Hsplit.
    eapply reach_bound; [exact Hv|]. rewrite Hpp. cbn [negb]. unfold token_claims, token_decode. rewrite Hver, Hpay.
    rewrite Z1, Z2, Z3, Z4. cbn [orb].
    apply reach_call. cbn. destruct (N.ltb_spec (c_exp cl) (unix t1)); [lia|].
    apply reach_call. cbn. destruct (N.ltb_spec (unix t2) (c_nbf cl)); [lia|].
    apply reach_call. apply reach_nil. }
  split; [|exact Hrun]. eexists (mkAuthn _ _), _, att, _, _. split; [reflexivity|]. split; [exact Hsplit|]. split; [exact Hrun|reflexivity].
Qed.

Lemma C111_assertion_as_possession_refuted_proof : forall E sign pub K k t now raw att tr m t1 t2 (c : client) read_u64 payload,
  jose_works E (x_payload E KPop) pub sign ->
  client_assertion_generate K (Some (jwt_serialize sign "client-assertion" false (Some (KKey k)))) (Some t) now = Some raw ->
  x_parse_pop E raw = true -> (forall x, In x (list_ascii_of_string att) -> x <> "~"%char) ->
  runs (validate_attestation E att) tr (Done (Some (Some (pub k)))) ->
  t_meta t = Some m -> (unix t1 <= m_expires_at m)%N -> (m_not_before m <= unix t2)%N ->
  taken_as E read_u64 payload UPossession raw /\
  runs (client_attestation E (Some (mkAuthn (Some assertion_attestation) (Some (att ++ "~" ++ raw)%string))))
    (tr ++ [(CNow, ATime t1); (CNow, ATime t2); (CClientGet (m_issuer m), AClient (SOk c))])%list (Done (aok (Some c))).
Proof.
  intros E sign pub K k t now raw att tr m t1 t2 c read_u64 payload (_ & Hw) Hg Hpp Hatt Hv Hm H1 H2.
  cbn [client_assertion_generate] in Hg. destruct (is_empty (t_id t)) eqn:Hi; [discriminate|]. rewrite Hm in Hg.
  destruct (assertion_meta_valid K now m) eqn:Hmv; [|discriminate]. cbn [negb] in Hg.
  apply serialize_inv in Hg as (k' & X & _ & Hg). injection X as <-. apply Hw in Hg as (_ & Hver & Hpay).
  unfold assertion_meta_valid, str_ok, num_ok in Hmv. repeat (apply andb_prop in Hmv as [Hmv ?]).
  repeat match goal with X : (_ && _)%bool = true |- _ => apply andb_prop in X as [X ?] end.
  repeat match goal with X : negb _ = true |- _ => apply negb_true_iff in X end.
  exact (possession_accepted E (pub k) raw att tr _ t1 t2 c read_u64 payload Hpp Hatt Hv Hver Hpay
           ltac:(assumption) ltac:(assumption) Hi ltac:(assumption) H1 H2).
Qed.

(** So is an access token, when the attested key is the one that signs tokens; [dec] reads what was
    signed, of which the reader of proofs takes the members it knows. *)
Lemma C111_token_as_possession_refuted_proof : forall E sign dec pub K k t now raw att tr m t1 t2 (c : client) read_u64 payload,
  jose_works E dec pub sign ->
  (forall s j, dec s = Some j ->
     x_payload E KPop s = Some (mkClaims (jc_iss j) "" (jc_aud j) (jc_jti j) (jc_exp j) (jc_nbf j) (jc_iat j) None "" "" None)) ->
  access_token_generate K (Some (jwt_serialize sign "at" false (Some (KKey k)))) (Some t) now = Some raw ->
  x_parse_pop E raw = true -> (forall x, In x (list_ascii_of_string att) -> x <> "~"%char) ->
  runs (validate_attestation E att) tr (Done (Some (Some (pub k)))) ->
  t_meta t = Some m -> (unix t1 <= m_expires_at m)%N -> (m_not_before m <= unix t2)%N ->
  taken_as E read_u64 payload UPossession raw /\
  runs (client_attestation E (Some (mkAuthn (Some assertion_attestation) (Some (att ++ "~" ++ raw)%string))))
    (tr ++ [(CNow, ATime t1); (CNow, ATime t2); (CClientGet (m_issuer m), AClient (SOk c))])%list (Done (aok (Some c))).
Proof.
  intros E sign dec pub K k t now raw att tr m t1 t2 c read_u64 payload (_ & Hw) Hd Hg Hpp Hatt Hv Hm H1 H2.
  cbn [access_token_generate] in Hg. destruct (is_empty (t_id t)) eqn:Hi; [discriminate|]. rewrite Hm in Hg.
  destruct (meta_valid K _ now m) eqn:Hmv; [|discriminate]. cbn [negb] in Hg.
  apply serialize_inv in Hg as (k' & X & _ & Hg). injection X as <-. apply Hw in Hg as (_ & Hver & Hpay). apply Hd in Hpay.
  unfold meta_valid, str_ok, num_ok in Hmv. repeat (apply andb_prop in Hmv as [Hmv ?]).
  repeat match goal with X : (_ && _)%bool = true |- _ => apply andb_prop in X as [X ?] end.
  repeat match goal with X : negb _ = true |- _ => apply negb_true_iff in X end.
  exact (possession_accepted E (pub k) raw att tr _ t1 t2 c read_u64 payload Hpp Hatt Hv Hver Hpay
           ltac:(assumption) ltac:(assumption) Hi ltac:(assumption) H1 H2).
Qed.

(** A token whose subject is its issuer passes as a client assertion, for the client of that name if its
    keys include the one that signed it. *)
Lemma C111_token_as_assertion_refuted_proof : forall E sign dec pub K k t now raw m t1 (c : client) keys read_u64 payload,
  jose_works E dec pub sign ->
  (forall s j, dec s = Some j ->
     x_payload E KAssertion s = Some (mkClaims (jc_iss j) (jc_sub j) (jc_aud j) (jc_jti j) (jc_exp j) (jc_nbf j) (jc_iat j) None "" "" None)) ->
  access_token_generate K (Some (jwt_serialize sign "at" false (Some (KKey k)))) (Some t) now = Some raw ->
  raw <> ""%string -> x_parse_jose E raw = true ->
  t_meta t = Some m -> m_subject m = m_issuer m -> (unix t1 <= m_expires_at m)%N ->
  cl_jwks c <> ""%string -> x_jwks E (cl_jwks c) = Some keys -> validate_signature E keys raw = true ->
  taken_as E read_u64 payload UAssertion raw /\
  runs (private_key_jwt E (Some (mkAuthn (Some assertion_bearer) (Some raw))))
    [(CNow, ATime t1); (CClientGet (m_issuer m), AClient (SOk c))] (Done (aok (Some c))).
Proof.
  intros E sign dec pub K k t now raw m t1 c keys read_u64 payload (_ & Hw) Hd Hg Hne Hpj Hm Hs H1 Hcj Hj Hk.
  cbn [access_token_generate] in Hg. destruct (is_empty (t_id t)) eqn:Hi; [discriminate|]. rewrite Hm in Hg.
  destruct (meta_valid K _ now m) eqn:Hmv; [|discriminate]. cbn [negb] in Hg.
  apply serialize_inv in Hg as (k' & X & _ & Hg). injection X as <-. apply Hw in Hg as (_ & Hver & Hpay). apply Hd in Hpay.
  unfold meta_valid, str_ok, num_ok in Hmv. repeat (apply andb_prop in Hmv as [Hmv ?]).
  repeat match goal with X : (_ && _)%bool = true |- _ => apply andb_prop in X as [X ?] end.
  repeat match goal with X : negb _ = true |- _ => apply negb_true_iff in X end.
  assert (Hrun : runs (private_key_jwt E (Some (mkAuthn (Some assertion_bearer) (Some raw))))
    [(CNow, ATime t1); (CClientGet (m_issuer m), AClient (SOk c))] (Done (aok (Some c)))).
  { cbn [runs]. unfold private_key_jwt, assertion_of. cbn [aq_type aq_assertion]. rewrite String.eqb_refl.
    apply is_empty_false in Hne. rewrite Hne. cbn [negb]. rewrite Hpj. cbn [negb]. rewrite Hpay. cbn [c_iss c_sub c_aud c_jti c_exp jc_iss jc_sub jc_aud jc_jti jc_exp claims_literal].
    rewrite Hs in *. rewrite Hi, String.eqb_refl.
    repeat match goal with X : is_empty (_ m) = false |- _ => rewrite X; clear X end.
    match goal with X : (m_expires_at m =? 0)%N = false |- _ => rewrite X end. cbn [orb negb].
    apply reach_call. cbn. destruct (N.ltb_spec (m_expires_at m) (unix t1)); [lia|].
    apply reach_call. cbn. apply is_empty_false in Hcj. rewrite Hcj, Hj, Hk. apply reach_nil. }
  split; [|exact Hrun]. eexists (mkAuthn _ _), _, _. split; [reflexivity|]. split; [exact Hrun|reflexivity].
Qed.
