(** * DPoP proofs made by the SDK: proofs *)

From Verif Require Export PfTok PfAuthn.

(** ** C80 *)

(** Fault-free answers to the verification of a proof with this id. *)
Definition fresh_good (id : string) (lo hi : N) (c : call) (a : answer) : Prop :=
  typed c a /\
  match c, a with
  | CNow, ATime t => (lo <= t <= hi)%N
  | CProofExists id', ABool r => id' = id -> r = SOk false
  | CProofReg _, AUnit r => is_ok r = true
  | _, _ => True
  end.

Lemma proof_fresh E w h w' : wtrace E w h w' -> forall id, w_proof w id = None ->
  (forall k a, ~ In (EvCall k (CProofReg id) a) h) -> w_proof w' id = None.
Proof.
  induction 1 as [|w i r h w' Ht IH|w i o h w' Ht IH|w d h w' Ht IH|w i c a o w1 h w' Hx Ht IH]; intros id H0 Hn; auto.
  1,2,3: apply IH; auto; intros k a Hin; eapply Hn; right; exact Hin.
  apply IH; [|intros k a' Hin; eapply Hn; right; exact Hin].
  pose proof (proof_exec E _ _ _ _ _ Hx) as Hp.
  destruct (wr_proof w c) as [[k' v']|] eqn:Hw; [|rewrite Hp; auto].
  destruct Hp as [->|[-> _]]; auto.
  destruct (upd_cases (w_proof w) k' v' id) as [[-> ->]|[_ ->]]; auto.
  exfalso. destruct c; cbn in Hw; try discriminate. injection Hw as <- _. eapply Hn. left. reflexivity.
Qed.

Lemma fresh_ends E pub sign clean k htm htu tv tc jti made proof th lo hi :
  jose_works E (x_payload E KDpop) pub sign ->
  dpop_prove E clean (Some (jwt_serialize sign "dpop+jwt" true (Some (KKey k)))) htm htu tv jti made = Some proof ->
  proof <> ""%string -> clean htu = x_url_string E htu -> x_url_string E htu <> ""%string ->
  x_thumb E (pub k) = Some th -> (tc = None \/ tc = Some (b64url th)) ->
  (unix (hi - 15 * second) <= made)%N -> (made <= unix (lo + 15 * second))%N ->
  ends (fresh_good (b64url (x_blake E "" jti)) lo hi)
    (fun o => o = Done (Some (b64url th))) (dpop_verify E htm htu proof tv tc).
Proof.
  intros (Hpub & Hjose) Hp Hne Hcl Hu Hth Htc Hhi Hlo.
  unfold dpop_prove in Hp.
  destruct (is_empty htm || is_empty htu) eqn:H1; [discriminate|].
  destruct (negb (x_request_uri E htu)) eqn:H2; [discriminate|].
  destruct (negb (existsb _ _)) eqn:H3; [discriminate|].
  apply serialize_inv in Hp as (k' & X & Hid & Hs). injection X as <-.
  apply Hjose in Hs as (Hpa & Hv & Hd).
  unfold dpop_verify. rewrite H1, (proj2 (is_empty_false proof) Hne), H2, H3, Hpa. cbn [orb j_typ j_jwk].
  change (String.eqb "dpop+jwt" dpop_type) with true. cbn [negb].
  unfold token_claims, token_decode. rewrite Hv, Hd.
  rewrite (proj2 (is_empty_false _) Hu). cbn [c_htm c_htu c_iat c_jti]. rewrite String.eqb_refl, Hcl, String.eqb_refl. cbn [negb].
  intros a [Ha1 Ha2]; destruct a; cbn in Ha1; try destruct Ha1. cbn in Ha2.
  destruct (N.ltb_spec made (unix (t - dpop_threshold))) as [B|_].
  { exfalso. assert (unix (t - dpop_threshold) <= unix (hi - 15 * second))%N by (apply unix_mono; unfold dpop_threshold; lia). lia. }
  clear Ha2. intros a [Ha1 Ha2]; destruct a; cbn in Ha1; try destruct Ha1. cbn in Ha2.
  destruct (N.ltb_spec (unix (t0 + dpop_threshold)) made) as [B|_].
  { exfalso. assert (unix (lo + 15 * second) <= unix (t0 + dpop_threshold))%N by (apply unix_mono; unfold dpop_threshold; lia). lia. }
  clear Ha2. intros a [Ha1 Ha2]; destruct a; cbn in Ha1; try destruct Ha1. cbn in Ha2. rewrite (Ha2 eq_refl).
  clear Ha2. intros a [Ha1 Ha2]; destruct a; cbn in Ha1; try destruct Ha1. cbn in Ha2. rewrite Ha2. cbn [ends]. f_equal.
  unfold dpop_finish, thumbprint. rewrite Hth. cbn [c_ath].
  destruct tv as [v|]; [|reflexivity]. rewrite (proj2 (C39_secure_compare_proof _ _) eq_refl). cbn [negb].
  destruct Htc as [->| ->]; [reflexivity|]. rewrite (proj2 (C39_secure_compare_proof _ _) eq_refl). reflexivity.
Qed.

(** A verification asks before it registers. *)
Definition asks_first (tr : list (call * answer)) (c : call) : Prop :=
  match c with CProofExists _ => forall y b, ~ In (CProofReg y, b) tr | _ => True end.

Lemma asks_first_wp E htm htu proof tv tc : wp asks_first (fun _ _ => True) [] (dpop_verify E htm htu proof tv tc).
Proof.
  unfold dpop_verify.
  repeat match goal with |- wp _ _ _ (if ?b then _ else _) => destruct b; [exact I|] end.
  destruct (x_parse E proof) as [t|]; [|exact I].
  destruct (j_typ t); [|exact I]. destruct (j_jwk t) as [k|]; [|exact I].
  repeat match goal with |- wp _ _ _ (if ?b then _ else _) => destruct b; [exact I|] end.
  destruct (token_claims E KDpop k proof) as [cl|]; [|exact I].
  repeat match goal with |- wp _ _ _ (if ?b then _ else _) => destruct b; [exact I|] end.
  wcall t1. match goal with |- wp _ _ _ (if ?b then _ else _) => destruct b; [exact I|] end.
  wcall t2. match goal with |- wp _ _ _ (if ?b then _ else _) => destruct b; [exact I|] end.
  cbv zeta. wcall e.
  { intros y b [Hin|[Hin|[]]]; discriminate. }
  destruct e as [[]| | |]; try exact I; (wcall r; destruct (is_ok r); exact I).
Qed.

Lemma proof_order E w xs i htm htu proof tv tc l1 x a l2 y b :
  In (EvStart i (RDpop htm htu proof tv tc)) (history E w xs) ->
  history E w xs = (l1 ++ EvCall i (CProofExists x) a :: l2)%list -> ~ In (EvCall i (CProofReg y) b) l1.
Proof.
  intros H1 Hs Hin. apply in_calls_of in Hin.
  destruct (trace_history E w xs) as (s & Ht & _).
  destruct (started_reach _ _ _ _ _ _ Ht H1) as [q Hr].
  rewrite Hs, calls_of_app in Hr. cbn [calls_of] in Hr. rewrite Nat.eqb_refl in Hr. cbn [serve] in Hr.
  pose proof (wp_call asks_first (fun _ _ => True) _ _ _ _ _ _ (pmap_wp _ _ _ _ (asks_first_wp E htm htu proof tv tc)) Hr) as X.
  exact (X y b Hin).
Qed.

Lemma C80_honest_proof_accepted_partial_proof :
  forall E w xs i o pub sign clean k htm htu tv tc jti made proof th,
  (* the JOSE library works; the proof is made by the SDK's prover with a signer that sets the
     type "dpop+jwt"; the URL has neither query nor fragment *)
  jose_works E (x_payload E KDpop) pub sign ->
  dpop_prove E clean (Some (jwt_serialize sign "dpop+jwt" true (Some (KKey k)))) htm htu tv jti made = Some proof ->
  proof <> ""%string -> clean htu = x_url_string E htu -> x_url_string E htu <> ""%string ->
  x_thumb E (pub k) = Some th -> (tc = None \/ tc = Some (b64url th)) ->
  (* the verification runs at most 15 seconds before or after that, without faults *)
  blank w -> no_faults xs ->
  (made <= unix (w_now w + 15 * second))%N -> (unix (clock w (history E w xs) - 15 * second) <= made)%N ->
  (* and no other request registers a proof with this id *)
  (forall j a, In (EvCall j (CProofReg (b64url (x_blake E "" jti))) a) (history E w xs) -> j = i) ->
  In (EvStart i (RDpop htm htu proof tv tc)) (history E w xs) -> In (EvDone i o) (history E w xs) ->
  o = Done (PDpop (Some (b64url th))).
Proof.
  intros E w xs i o pub sign clean k htm htu tv tc jti made proof th Hj Hp Hne Hcl Hu Hth Htc Hb Hf Hlo Hhi Hone Hi1 Hi2.
  set (id := b64url (x_blake E "" jti)) in *.
  pose (Pz := fun o : outcome response => o = Done (PDpop (Some (b64url th)))).
  change (Pz o).
  apply (ends_history E w xs i (RDpop htm htu proof tv tc) o Pz (fresh_good id (w_now w) (clock w (history E w xs))) Hi1 Hi2).
  - intros c a Hin. split; [eapply history_typed; exact Hin|].
    pose proof Hin as Hin'. apply in_split in Hin' as (l1 & l2 & Hl12).
    pose proof (history_ftrace E w xs Hf) as Ht. rewrite Hl12 in Ht.
    destruct (ftrace_at _ _ _ _ _ _ _ _ Ht) as (wm & oo & w1 & T1 & T2 & T3 & T4). apply ftrace_wtrace in T1.
    destruct c; auto; destruct a; auto.
    + apply read_now in T2 as [-> _]. rewrite (wtrace_now _ _ _ _ T1). fold (clock w l1). split; [unfold clock; lia|].
      rewrite Hl12. apply clock_app.
    + intros ->. cbn in T2. rewrite T3 in T2. cbn in T2. injection T2 as <- _. 
      unfold cache_get. rewrite (proof_fresh _ _ _ _ T1 id); [reflexivity|apply Hb|].
      intros j a Hj'. assert (j = i) as ->.
      { apply (Hone j a). rewrite Hl12. apply in_or_app; auto. }
      exact (proof_order E w xs i htm htu proof tv tc l1 id _ l2 id a Hi1 Hl12 Hj').
    + apply full_write in T2; auto. destruct T2 as [T2|(x & y & T2 & _)]; [exact T2|discriminate].
  - cbn [serve]. unfold pmap. apply ends_bind. eapply ends_weaken.
    2: eapply fresh_ends; eauto.
    intros ? ->. reflexivity.
Qed.

(** The SDK's own signer writes another type: no verification accepts its proofs, whatever the store answers. *)
Lemma C80_sdk_signer_refuted_proof : forall E pub sign clean provider htm htu tv jti made proof htm' htu' tv' tc tr o,
  jose_works E (x_payload E KDpop) pub sign ->
  dpop_prove E clean (Some (dpop_signer sign provider)) htm htu tv jti made = Some proof ->
  runs (dpop_verify E htm' htu' proof tv' tc) tr o -> o = Done None.
Proof.
  intros E pub sign clean provider htm htu tv jti made proof htm' htu' tv' tc tr o (Hpub & Hjose) Hp Hr.
  unfold dpop_prove in Hp.
  destruct (is_empty htm || is_empty htu) eqn:H1; [discriminate|].
  destruct (negb (x_request_uri E htu)) eqn:H2; [discriminate|].
  destruct (negb (existsb _ _)) eqn:H3; [discriminate|].
  unfold dpop_signer in Hp.
  apply serialize_inv in Hp as (k' & X & Hid & Hs).
  apply Hjose in Hs as (Hpa & Hv & Hd).
  unfold dpop_verify in Hr. rewrite Hpa in Hr. cbn [j_typ j_jwk] in Hr.
  change (String.eqb type_dpop dpop_type) with false in Hr. cbn [negb] in Hr.
  assert (X1 : reach (Ret None) tr (match o with Done a => Ret a | Crashed => Panic end) -> o = Done None).
  { destruct o; intros Y; [apply inv_ret in Y as [_ ->]; reflexivity|]. apply reach_ret_inv in Y as [_ Y]; discriminate. }
  apply X1. clear X1.
  repeat match type of Hr with context [if ?b then _ else _] => destruct b; [destruct o; exact Hr|] end.
  destruct o; exact Hr.
Qed.
