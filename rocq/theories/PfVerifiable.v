(** * Verifiable tokens: proofs *)

From Verif Require Export PfBase62 PfCompare Verifiable.
Local Open Scope N_scope.

Local Opaque be_bytes N.pow.

Lemma is_alnum_digit a : is_alnum a <-> is_digit a.
Proof.
  unfold is_alnum, is_digit, val62. rewrite <- !range_iff. split.
  - intros H. destruct (in_range (byte a) 48 57); eauto. destruct (in_range (byte a) 97 122); eauto.
    destruct (in_range (byte a) 65 90); eauto. intuition discriminate.
  - intros (d & H). destruct (in_range (byte a) 48 57); auto. destruct (in_range (byte a) 97 122); auto.
    destruct (in_range (byte a) 65 90); auto. discriminate.
Qed.
Lemma alnum_is a : alnum a = true <-> is_alnum a.
Proof. unfold alnum, is_alnum. rewrite !orb_true_iff, !range_iff. tauto. Qed.

Lemma every_iff P Q s : (forall a, P a <-> Q a) -> every_char P s <-> every_char Q s.
Proof. intros H. induction s as [|a s IH]; cbn; [tauto|]. rewrite H, IH. tauto. Qed.
Lemma every_alnum s : every_char is_alnum s <-> every_char is_digit s.
Proof. apply every_iff, is_alnum_digit. Qed.
Lemma all_alnum s : all_chars alnum s = true <-> every_char is_alnum s.
Proof. induction s as [|a s IH]; cbn; [tauto|]. rewrite andb_true_iff, alnum_is, IH. tauto. Qed.

Lemma cut_app x y : no_underscore x -> cut (x ++ "_" ++ y) = Some (x, y).
Proof.
  induction x as [|a x IH]; intros H; [reflexivity|]. rewrite sapp_cons. cbn [cut]. destruct H as [Ha H].
  destruct (N.eqb_spec (byte a) 95); [congruence|]. rewrite IH; auto.
Qed.
Lemma cut_inv s x y : cut s = Some (x, y) -> s = (x ++ "_" ++ y)%string /\ no_underscore x.
Proof.
  revert x y; induction s as [|a s IH]; intros x y; cbn [cut]; [discriminate|].
  destruct (N.eqb_spec (byte a) 95) as [E|E].
  - intros H; injection H as <- <-. split; [|exact I]. rewrite <- (of_byte a), E. reflexivity.
  - destruct (cut s) as [[u v]|]; [|discriminate]. intros H; injection H as <- <-.
    destruct (IH u v eq_refl) as [-> Hu]. rewrite sapp_cons. split; [reflexivity|split; auto].
Qed.
Lemma cut_none s : no_underscore s -> cut s = None.
Proof.
  induction s as [|a s IH]; intros H; [reflexivity|]. cbn [cut]. destruct H as [Ha H].
  destruct (N.eqb_spec (byte a) 95); [congruence|]. rewrite IH; auto.
Qed.

Lemma every_impl (P Q : ascii -> Prop) s : (forall a, P a -> Q a) -> every_char P s -> every_char Q s.
Proof. intros H. induction s; cbn; intuition. Qed.
Lemma digit_not_sep a : is_digit a -> byte a <> 95.
Proof. intros (d & H) E. unfold val62 in H. rewrite E in H. discriminate. Qed.
Lemma digits_no_sep s : every_char is_digit s -> no_underscore s.
Proof. apply every_impl. apply digit_not_sep. Qed.
Lemma alnum_no_sep s : every_char is_alnum s -> no_underscore s.
Proof. rewrite every_alnum. apply digits_no_sep. Qed.

Lemma wrapped_ok s : wrapped_format s = true <-> exists u m, s = (u ++ "_" ++ m)%string /\ wrapped u m.
Proof.
  unfold wrapped_format, wrapped. split.
  - destruct (cut s) as [[u m]|] eqn:E; [|discriminate]. apply cut_inv in E as [-> _].
    rewrite !andb_true_iff, orb_true_iff, !Nat.eqb_eq, !all_alnum. intros [[[A B] C] D]. exists u, m. auto.
  - intros (u & m & -> & A & B & C & D). rewrite cut_app by (apply alnum_no_sep; auto).
    rewrite !andb_true_iff, orb_true_iff, !Nat.eqb_eq, !all_alnum. auto.
Qed.

Lemma spelled_split s prefix u m : spelled s prefix u m -> split_prefix s = (prefix, (u ++ "_" ++ m)%string).
Proof.
  intros (-> & (Lu & Du & Lm & Dm) & [->|(p & -> & Hp)]); unfold split_prefix.
  - rewrite nil_sapp, cut_app by (apply alnum_no_sep; auto). rewrite cut_none by (apply alnum_no_sep; auto). reflexivity.
  - rewrite sapp_assoc, cut_app by auto. rewrite cut_app by (apply alnum_no_sep; auto). reflexivity.
Qed.

Lemma split_spelled s prefix rest : split_prefix s = (prefix, rest) -> wrapped_format rest = true ->
  exists u m, spelled s prefix u m /\ rest = (u ++ "_" ++ m)%string.
Proof.
  intros H W. apply wrapped_ok in W as (u & m & -> & W). exists u, m. split; auto.
  unfold spelled. split; [|split; auto]; unfold split_prefix in H.
  - destruct (cut s) as [[a r]|] eqn:E.
    + apply cut_inv in E as [-> _]. destruct (cut r); injection H as <- <-; [rewrite sapp_assoc|]; reflexivity.
    + injection H as <- <-. reflexivity.
  - destruct (cut s) as [[a r]|] eqn:E.
    + apply cut_inv in E as [-> Ha]. destruct (cut r); injection H as <- _; eauto.
    + injection H as <- _. auto.
Qed.

Section Uuid.
Context (C : crypto).

Lemma parse_digits s l : every_char is_digit s -> s <> ""%string ->
  exists n, num62 0 s = Some n /\
    parse_padded_base62 s l = if n <? 256 ^ N.of_nat l then Done (Some (be_bytes l n "")) else Crashed.
Proof.
  intros D Hn. destruct (num62_some s 0 D) as (n & En). exists n. split; auto.
  unfold parse_padded_base62. rewrite set_string_digits, En by auto. unfold fill_bytes.
  destruct (n <? 256 ^ N.of_nat l); reflexivity.
Qed.

Lemma extract_spelled secret s prefix u m : spelled s prefix u m ->
  exists nu nm, num62 0 u = Some nu /\ num62 0 m = Some nm /\
  uuid_extract C secret s =
    if (nu <? 256 ^ 16) && (nm <? 256 ^ 44) then
      let uuid := be_bytes 16 nu "" in
      let sig := be_bytes 44 nm "" in
      if String.eqb (substring 12 32 sig) (uuid_mac C secret (substring 0 12 sig) prefix uuid)
      then Done (Some uuid) else Done None
    else Crashed.
Proof.
  intros S. pose proof (spelled_split _ _ _ _ S) as Hs. destruct S as (-> & W & _).
  assert (W' := W). destruct W as (Lu & Du & Lm & Dm).
  assert (Hu : u <> ""%string) by (intros ->; discriminate).
  assert (Hm : m <> ""%string) by (intros ->; destruct Lm; discriminate).
  rewrite every_alnum in Du, Dm.
  destruct (parse_digits u 16 Du Hu) as (nu & Eu & Pu). destruct (parse_digits m 44 Dm Hm) as (nm & Em & Pm).
  exists nu, nm. split; auto. split; auto.
  unfold uuid_extract. rewrite Hs. assert (wrapped_format (u ++ "_" ++ m) = true) as -> by (apply wrapped_ok; eauto).
  cbn [negb]. rewrite cut_app by (apply digits_no_sep; auto). rewrite Pu.
  change (256 ^ N.of_nat 16) with (256 ^ 16). change (256 ^ N.of_nat 44) with (256 ^ 44) in Pm.
  destruct (nu <? 256 ^ 16); cbn [andb]; auto. rewrite Pm. destruct (nm <? 256 ^ 44); auto.
  cbv zeta. rewrite ct_compare_ok. destruct (String.eqb _ _); reflexivity.
Qed.

Lemma extract_some secret s : (forall prefix u m, ~ spelled s prefix u m) -> uuid_extract C secret s = Done None.
Proof.
  intros H. unfold uuid_extract. destruct (split_prefix s) as [prefix rest] eqn:E.
  destruct (wrapped_format rest) eqn:W; [|reflexivity].
  destruct (split_spelled _ _ _ E W) as (u & m & S & _). exfalso. eapply H; eauto.
Qed.

Lemma spelled_dec s : (exists prefix u m, spelled s prefix u m) \/ (forall prefix u m, ~ spelled s prefix u m).
Proof.
  destruct (split_prefix s) as [prefix rest] eqn:E. destruct (wrapped_format rest) eqn:W.
  - left. destruct (split_spelled _ _ _ E W) as (u & m & S & _). eauto.
  - right. intros p u m S. pose proof (spelled_split _ _ _ _ S) as X. rewrite X in E. injection E as <- <-.
    destruct S as (_ & S & _). assert (wrapped_format (u ++ "_" ++ m) = true) by (apply wrapped_ok; eauto). congruence.
Qed.

Lemma spelled_unique s p u m p' u' m' : spelled s p u m -> spelled s p' u' m' -> p = p' /\ u = u' /\ m = m'.
Proof.
  intros S S'. pose proof (spelled_split _ _ _ _ S) as A. rewrite (spelled_split _ _ _ _ S') in A. injection A as -> A.
  destruct S as (_ & (L & _) & _), S' as (_ & (L' & _) & _). split; auto.
  assert (forall x y x' y', String.length x = String.length x' -> (x ++ "_" ++ y = x' ++ "_" ++ y')%string -> x = x' /\ y = y') as Hx.
  { clear. induction x as [|a x IH]; intros y [|a' x'] y' Hl H; try discriminate.
    - rewrite !nil_sapp in H. injection H as H. auto.
    - rewrite (sapp_cons a), (sapp_cons a') in H. injection H as <- H. injection Hl as Hl. destruct (IH _ _ _ Hl H); subst; auto. }
  destruct (Hx u' m' u m) as [-> ->]; auto. congruence.
Qed.

Lemma substring_app a b n k : String.length a = n -> String.length b = k -> substring n k (a ++ b) = b.
Proof.
  intros <- <-. induction a as [|x a IH]; [rewrite nil_sapp|rewrite sapp_cons; exact IH].
  induction b as [|x b IH]; [reflexivity|]. cbn. f_equal. exact IH.
Qed.
Lemma substring_pre a b n : String.length a = n -> substring 0 n (a ++ b) = a.
Proof.
  intros <-. induction a as [|x a IH]; [destruct b; reflexivity|]. rewrite sapp_cons. cbn. f_equal. exact IH.
Qed.
Lemma substring_split n k : forall s, String.length s = (n + k)%nat -> s = (substring 0 n s ++ substring n k s)%string.
Proof.
  induction n as [|n IH]; intros s H.
  - cbn. destruct s as [|a s]; [destruct k; [reflexivity|discriminate]|]. cbn in H. subst k.
    assert (forall t, substring 0 (String.length t) t = t) as Ht by (clear; induction t; cbn; congruence).
    change (String a s = substring 0 (String.length (String a s)) (String a s)). rewrite Ht. reflexivity.
  - destruct s as [|a s]; [discriminate|]. cbn in H. injection H as H. cbn. rewrite sapp_cons. f_equal. apply IH; auto.
Qed.

(** ** Round trip *)

Lemma prefix_no_sep s : all_chars prefix_char s = true -> no_underscore s.
Proof.
  unfold no_underscore. induction s as [|a s IH]; cbn; auto. rewrite andb_true_iff. intros [Ha H]. split; auto.
  intros E. unfold prefix_char in Ha. rewrite E in Ha. discriminate.
Qed.

Lemma generated_spelled secret value uuid nonce s :
  String.length uuid = 16%nat -> String.length nonce = 12%nat -> (forall k m, String.length (cr_hmac C k m) = 32%nat) ->
  uuid_generate C secret value (Some uuid) (Some nonce) = Some s ->
  exists prefix, let sig := ((nonce ++ uuid_mac C secret nonce prefix uuid)%string) in
    spelled s prefix (to_padded_base62 uuid 22) (to_padded_base62 sig 59) /\ String.length sig = 44%nat /\
    all_chars prefix_char (token_prefix C value) = true /\
    prefix = (if is_empty (token_prefix C value) then ""%string else (token_prefix C value ++ "_")%string).
Proof.
  intros Lu Ln Lh H. unfold uuid_generate in H.
  assert (Ls : forall prefix, String.length (nonce ++ uuid_mac C secret nonce prefix uuid) = 44%nat).
  { intros p. rewrite slen_app. unfold uuid_mac. rewrite Lh, Ln. reflexivity. }
  assert (W : forall prefix, wrapped (to_padded_base62 uuid 22) (to_padded_base62 (nonce ++ uuid_mac C secret nonce prefix uuid) 59)).
  { intros p. unfold wrapped. rewrite !every_alnum. split; [apply C41_uuid_width_proof; auto|].
    split; [apply padded_digits|]. split; [|apply padded_digits].
    pose proof (C41_mac_width_partial_proof _ (Ls p)). lia. }
  destruct (is_empty (token_prefix C value)) eqn:Ep.
  - injection H as <-. exists ""%string. cbv zeta. split; [split; [reflexivity|split; auto]|]. split; auto. split; auto.
    destruct (token_prefix C value); [reflexivity|discriminate].
  - destruct (all_chars prefix_char (token_prefix C value)) eqn:Ec; [|discriminate]. injection H as <-.
    exists (token_prefix C value ++ "_")%string. cbv zeta. split; [|split; auto].
    split; [reflexivity|]. split; auto. right. eexists; split; [reflexivity|]. apply prefix_no_sep; auto.
Qed.

Lemma extract_generated secret value uuid nonce s :
  String.length uuid = 16%nat -> String.length nonce = 12%nat -> (forall k m, String.length (cr_hmac C k m) = 32%nat) ->
  uuid_generate C secret value (Some uuid) (Some nonce) = Some s -> uuid_extract C secret s = Done (Some uuid).
Proof.
  intros Lu Ln Lh H. destruct (generated_spelled _ _ _ _ _ Lu Ln Lh H) as (prefix & S & Ls & _). cbv zeta in S.
  set (sig := (nonce ++ uuid_mac C secret nonce prefix uuid)%string) in *.
  destruct (extract_spelled secret _ _ _ _ S) as (nu & nm & Eu & Em & ->).
  rewrite padded_num in Eu, Em. injection Eu as <-. injection Em as <-.
  pose proof (be_num_lt uuid) as Hu. rewrite Lu in Hu. pose proof (be_num_lt sig) as Hm. rewrite Ls in Hm.
  change (256 ^ N.of_nat 16) with (256 ^ 16) in Hu. change (256 ^ N.of_nat 44) with (256 ^ 44) in Hm.
  apply N.ltb_lt in Hu, Hm. rewrite Hu, Hm. cbn [andb]. cbv zeta.
  pose proof (be_bytes_be_num uuid) as Bu. rewrite Lu in Bu. rewrite Bu.
  pose proof (be_bytes_be_num sig) as Bs. rewrite Ls in Bs. rewrite Bs. unfold sig.
  rewrite substring_pre by auto. rewrite substring_app by (auto; apply Lh). rewrite String.eqb_refl. reflexivity.
Qed.

Lemma extract_inv secret s uuid : uuid_extract C secret s = Done (Some uuid) ->
  exists prefix u m nonce mac, spelled s prefix u m /\ String.length uuid = 16%nat /\ denotes u uuid /\
    String.length nonce = 12%nat /\ String.length mac = 32%nat /\ denotes m (nonce ++ mac) /\
    mac = uuid_mac C secret nonce prefix uuid.
Proof.
  intros H. destruct (spelled_dec s) as [(prefix & u & m & S)|N]; [|rewrite (extract_some _ _ N) in H; discriminate].
  destruct (extract_spelled secret _ _ _ _ S) as (nu & nm & Eu & Em & E). rewrite E in H. clear E.
  destruct (N.ltb_spec nu (256 ^ 16)) as [Hu|]; [|discriminate]. destruct (N.ltb_spec nm (256 ^ 44)) as [Hm|]; [|discriminate].
  cbn [andb] in H. cbv zeta in H. set (sig := be_bytes 44 nm "") in *.
  destruct (String.eqb_spec (substring 12 32 sig) (uuid_mac C secret (substring 0 12 sig) prefix (be_bytes 16 nu ""))) as [X|]; [|discriminate].
  injection H as <-. exists prefix, u, m, (substring 0 12 sig), (substring 12 32 sig).
  assert (Lsig : String.length sig = 44%nat) by (unfold sig; rewrite be_bytes_len; reflexivity).
  assert (Sp : sig = (substring 0 12 sig ++ substring 12 32 sig)%string) by (apply substring_split; exact Lsig).
  split; auto. split; [rewrite be_bytes_len; reflexivity|]. split.
  { unfold denotes. rewrite Eu, be_num_bytes. cbn [be_num]. rewrite N.mul_0_l, N.add_0_l. f_equal. symmetry. apply N.mod_small. exact Hu. }
  assert (forall n k t, (n + k <= String.length t)%nat -> String.length (substring n k t) = k) as Hsub.
  { clear. induction n as [|n IH]; intros k t Ht.
    - revert t Ht. induction k as [|k IHk]; intros t Ht; [destruct t; reflexivity|]. destruct t as [|a t]; cbn in Ht; [lia|]. cbn. f_equal. apply IHk. lia.
    - destruct t as [|a t]; cbn in Ht; [lia|]. cbn. apply IH. lia. }
  split; [apply Hsub; lia|]. split; [apply Hsub; lia|]. split; [|exact X].
  unfold denotes. rewrite <- Sp. rewrite Em. unfold sig. rewrite be_num_bytes. cbn [be_num].
  rewrite N.mul_0_l, N.add_0_l. f_equal. symmetry. apply N.mod_small. exact Hm.
Qed.

Lemma extract_crash secret s : uuid_extract C secret s = Crashed <->
  exists prefix u m nu nm, spelled s prefix u m /\ num62 0 u = Some nu /\ num62 0 m = Some nm /\
    (256 ^ 16 <= nu \/ 256 ^ 44 <= nm).
Proof.
  split.
  - intros H. destruct (spelled_dec s) as [(prefix & u & m & S)|N]; [|rewrite (extract_some _ _ N) in H; discriminate].
    destruct (extract_spelled secret _ _ _ _ S) as (nu & nm & Eu & Em & E). rewrite E in H.
    exists prefix, u, m, nu, nm. split; auto. split; auto. split; auto.
    destruct (N.ltb_spec nu (256 ^ 16)); auto. destruct (N.ltb_spec nm (256 ^ 44)); auto. exfalso.
    cbn [andb] in H. cbv zeta in H. destruct (String.eqb _ _) in H; discriminate.
  - intros (prefix & u & m & nu & nm & S & Eu & Em & Hor).
    destruct (extract_spelled secret _ _ _ _ S) as (nu' & nm' & Eu' & Em' & ->).
    rewrite Eu in Eu'. rewrite Em in Em'. injection Eu' as <-. injection Em' as <-.
    destruct (N.ltb_spec nu (256 ^ 16)), (N.ltb_spec nm (256 ^ 44)); auto. lia.
Qed.
End Uuid.

Lemma C42_round_trip_proof : forall C secret value uuid nonce s,
  String.length uuid = 16%nat -> String.length nonce = 12%nat -> (forall k m, String.length (cr_hmac C k m) = 32%nat) ->
  uuid_generate C secret value (Some uuid) (Some nonce) = Some s ->
  uuid_extract C secret s = Done (Some uuid) /\ uuid_verify C secret s = Done true.
Proof.
  intros C secret value uuid nonce s Lu Ln Lh H. pose proof (extract_generated _ _ _ _ _ _ Lu Ln Lh H) as E.
  split; auto. unfold uuid_verify. rewrite E. reflexivity.
Qed.

(** Generation fails only if a source fails or the prefix has a forbidden character. *)
Lemma C42_generation_proof : forall C secret value uuid nonce,
  (exists s, uuid_generate C secret value (Some uuid) (Some nonce) = Some s) <->
  every_char (fun a => 97 <= byte a <= 122 \/ 48 <= byte a <= 57 \/ byte a = 45) (trim_space (cr_lower C value)).
Proof.
  intros C secret value uuid nonce. unfold uuid_generate. fold (token_prefix C value).
  assert (forall p, all_chars prefix_char p = true <-> every_char (fun a => 97 <= byte a <= 122 \/ 48 <= byte a <= 57 \/ byte a = 45) p) as Hp.
  { induction p as [|a p IH]; cbn; [tauto|]. rewrite andb_true_iff, IH. unfold prefix_char.
    rewrite !orb_true_iff, !range_iff, N.eqb_eq. tauto. }
  rewrite <- Hp. destruct (is_empty (token_prefix C value)) eqn:Ee.
  - destruct (token_prefix C value); [|discriminate]. split; [reflexivity|eauto].
  - destruct (all_chars prefix_char (token_prefix C value)); cbn; split; eauto; try discriminate. intros (s & X); discriminate.
Qed.

Lemma C43_accepted_is_authentic_proof : forall C secret s uuid,
  uuid_extract C secret s = Done (Some uuid) ->
  exists prefix u m nonce mac,
    spelled s prefix u m /\ String.length uuid = 16%nat /\ denotes u uuid /\
    String.length nonce = 12%nat /\ String.length mac = 32%nat /\ denotes m (nonce ++ mac) /\
    mac = cr_hmac C (cr_hkdf C secret nonce "solid-uuid-wrapper-mac-v1")
            ("solid-uuid-protected-token-v1" ++ prefix ++ uuid)%string.
Proof. intros C secret s uuid H. exact (extract_inv _ _ _ _ H). Qed.

Lemma app_sep_inj x : forall m x' m', no_underscore m -> no_underscore m' -> (x ++ "_" ++ m = x' ++ "_" ++ m')%string -> x = x' /\ m = m'.
Proof.
  assert (forall x m y, no_underscore m -> m = (x ++ "_" ++ y)%string -> False) as Hno.
  { clear. induction x as [|a x IH]; intros m y Hm ->.
    - destruct Hm as [Hm _]. apply Hm. reflexivity.
    - rewrite sapp_cons in Hm. destruct Hm as [_ Hm]. eapply IH; eauto. }
  induction x as [|a x IH]; intros m [|a' x'] m' Hm Hm' H.
  - rewrite !nil_sapp in H. injection H as ->. auto.
  - rewrite nil_sapp, sapp_cons in H. injection H as _ H. exfalso. eapply (Hno x' m m'); eauto.
  - rewrite nil_sapp, sapp_cons in H. injection H as _ H. exfalso. eapply (Hno x m' m); eauto.
  - rewrite !sapp_cons in H. injection H as <- H. destruct (IH _ _ _ Hm Hm' H) as [-> ->]. auto.
Qed.

Lemma app_len_inj x : forall y x' y', String.length y = String.length y' -> (x ++ y = x' ++ y')%string -> x = x' /\ y = y'.
Proof.
  induction x as [|a x IH]; intros y [|a' x'] y' L H; rewrite ?nil_sapp, ?sapp_cons in H.
  - auto.
  - exfalso. subst y. cbn in L. rewrite slen_app in L. lia.
  - exfalso. subst y'. cbn in L. rewrite slen_app in L. lia.
  - injection H as <- H. destruct (IH _ _ _ L H) as [-> ->]. auto.
Qed.

Lemma sapp_left x y z : (x ++ y = x ++ z)%string -> y = z.
Proof. induction x as [|a x IH]; [auto|]. rewrite !sapp_cons. intros H; injection H as H; auto. Qed.

Lemma C43_relabelled_is_rejected_proof : forall C secret value uuid nonce s prefix body other uuid',
  String.length uuid = 16%nat -> String.length nonce = 12%nat -> (forall k m, String.length (cr_hmac C k m) = 32%nat) ->
  uuid_generate C secret value (Some uuid) (Some nonce) = Some s ->
  (* [s] with its prefix (with separator) replaced by [other] *)
  s = (prefix ++ body)%string ->
  prefix = (if is_empty (trim_space (cr_lower C value)) then ""%string else (trim_space (cr_lower C value) ++ "_")%string) ->
  uuid_extract C secret (other ++ body) = Done (Some uuid') ->
  (* is accepted only for the same UUID, and only if the codes of both prefixes collide *)
  uuid' = uuid /\
  let key := cr_hkdf C secret nonce "solid-uuid-wrapper-mac-v1" in
  cr_hmac C key ("solid-uuid-protected-token-v1" ++ prefix ++ uuid)%string =
  cr_hmac C key ("solid-uuid-protected-token-v1" ++ other ++ uuid)%string.
Proof.
  intros C secret value uuid nonce s prefix body other uuid' Lu Ln Lh H Es Ep Hx. fold (token_prefix C value) in Ep.
  destruct (generated_spelled _ _ _ _ _ _ Lu Ln Lh H) as (p & S & Ls & _ & Ep'). cbv zeta in S.
  rewrite <- Ep' in Ep. subst p. set (sig := (nonce ++ uuid_mac C secret nonce prefix uuid)%string) in *.
  destruct S as (Es' & W & _).
  assert (body = to_padded_base62 uuid 22 ++ "_" ++ to_padded_base62 sig 59)%string as ->.
  { rewrite Es in Es'. apply sapp_left in Es'. exact Es'. }
  apply extract_inv in Hx as (p & u & m & nonce' & mac & S2 & Lu' & Du & Ln' & Lm & Dm & Em).
  destruct S2 as (E2 & W2 & _).
  assert (E3 : (other ++ to_padded_base62 uuid 22)%string = (p ++ u)%string /\ to_padded_base62 sig 59 = m).
  { apply app_sep_inj; [apply alnum_no_sep, W|apply alnum_no_sep, W2|]. rewrite !sapp_assoc. exact E2. }
  destruct E3 as [E3 <-]. apply app_len_inj in E3; [|destruct W as [-> _], W2 as [-> _]; reflexivity].
  destruct E3 as [<- <-]. unfold denotes in Du, Dm. rewrite padded_num in Du, Dm. injection Du as Du. injection Dm as Dm.
  assert (uuid' = uuid) as -> by (rewrite <- (be_bytes_be_num uuid'), <- (be_bytes_be_num uuid), Lu, Lu', Du; reflexivity).
  split; auto. cbv zeta.
  assert (sig = (nonce' ++ mac)%string) as Esig.
  { rewrite <- (be_bytes_be_num sig), <- (be_bytes_be_num (nonce' ++ mac)), Ls, slen_app, Ln', Lm, Dm. reflexivity. }
  unfold sig in Esig. apply app_len_inj in Esig; [|unfold uuid_mac; rewrite Lh; auto].
  destruct Esig as [<- Em2]. rewrite Em in Em2. exact Em2.
Qed.

Lemma C44_crash_refuted_proof : forall C secret, exists s, uuid_extract C secret s = Crashed.
Proof.
  intros C secret. exists "ZZZZZZZZZZZZZZZZZZZZZZ_00000000000000000000000000000000000000000000000000000000000"%string.
  apply extract_crash. exists ""%string, "ZZZZZZZZZZZZZZZZZZZZZZ"%string, (zeros 59), (62 ^ 22 - 1), 0.
  split; [|split; [vm_compute; reflexivity|split; [vm_compute; reflexivity|left; vm_compute; discriminate]]].
  split; [reflexivity|]. split; [|left; reflexivity]. unfold wrapped. rewrite !every_alnum.
  split; [reflexivity|]. split; [|split; [left; reflexivity|apply zeros_digits]].
  repeat (split; [eexists; reflexivity|]). exact I.
Qed.

Lemma C44_crash_exactly_partial_proof : forall C secret s,
  uuid_extract C secret s = Crashed <->
  (* well spelled, but a number too large for its 16 or 44 bytes *)
  exists prefix u m nu nm, spelled s prefix u m /\ num62 0 u = Some nu /\ num62 0 m = Some nm /\
    (256 ^ 16 <= nu \/ 256 ^ 44 <= nm).
Proof. intros C secret s. apply extract_crash. Qed.

Lemma C45_leading_zero_refuted_proof : forall C secret s prefix u m uuid,
  spelled s prefix u m -> String.length m = 59%nat -> uuid_extract C secret s = Done (Some uuid) ->
  uuid_extract C secret (prefix ++ u ++ "_" ++ "0" ++ m) = Done (Some uuid).
Proof.
  intros C secret s prefix u m uuid S L H.
  assert (S' : spelled (prefix ++ u ++ "_" ++ "0" ++ m) prefix u ("0" ++ m)).
  { destruct S as (-> & (A & B & _ & D) & P). split; [reflexivity|]. split; auto. split; auto. split; auto. split.
    - right. rewrite slen_app, L. reflexivity.
    - rewrite sapp_cons. split; auto. right. right. vm_compute. split; discriminate. }
  destruct (extract_spelled C secret _ _ _ _ S) as (nu & nm & Eu & Em & E).
  destruct (extract_spelled C secret _ _ _ _ S') as (nu' & nm' & Eu' & Em' & ->).
  rewrite Eu in Eu'. injection Eu' as <-. rewrite sapp_cons, nil_sapp in Em'. cbn [num62] in Em'.
  change (val62 "0") with (Some 0) in Em'. cbn iota in Em'. change (0 * 62 + 0) with 0 in Em'. rewrite Em in Em'. injection Em' as <-.
  rewrite <- H, E. reflexivity.
Qed.

Lemma C45_one_spelling_partial_proof : forall s prefix u m s' u' m' uuid sig,
  (* two spellings of the same token with the same prefix ... *)
  spelled s prefix u m -> denotes u uuid -> denotes m sig ->
  spelled s' prefix u' m' -> denotes u' uuid -> denotes m' sig ->
  (* ... and of the same length are the same *)
  String.length s = String.length s' -> s = s'.
Proof.
  intros s prefix u m s' u' m' uuid sig (-> & (L & _) & _) D1 D2 (-> & (L' & _) & _) D1' D2' Hl.
  unfold denotes in *. rewrite !slen_app in Hl. cbn in Hl.
  assert (u = u') as <- by (eapply num62_inj; eauto; lia). assert (m = m') as <- by (eapply num62_inj; eauto; lia).
  reflexivity.
Qed.
