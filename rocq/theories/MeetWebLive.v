(** * Concrete cases for the examples of [PropsWebLive] *)

From Verif Require Export MeetWeb MeetLive PfWebLive7.

(** The SDK of client "app" signs one assertion. *)
Definition sdk_claims : claims := mkClaims "app" "app" "https://as.example" "jti-9" 1030 0 1000 None "" "" None.
Definition claims_dec (a b : claims) : {a = b} + {a <> b}.
Proof. repeat decide equality. Defined.
Definition sdk_sign (c : claims) : option string := if claims_dec c sdk_claims then Some "sdk-assertion"%string else None.
Lemma sdk_uses b : uses_sdk web_server (web_world b) (happ b) sdk_sign.
Proof.
  split; [reflexivity|]. split; [discriminate|]. split; [discriminate|].
  eexists. eexists. split; [reflexivity|]. split; [right; left; reflexivity|]. split; [discriminate|].
  intros cl raw. unfold sdk_sign. destruct (claims_dec cl sdk_claims) as [->|]; [|discriminate].
  intros H. injection H as <-. repeat split; try discriminate; reflexivity.
Qed.
Lemma sdk_signed b : sdk_assertion (happ b) sdk_sign "sdk-assertion" (1000 * second).
Proof.
  exists "https://as.example"%string, "jti-9"%string, (1000 * second)%N. split; [discriminate|]. split; [discriminate|]. vm_compute. reflexivity.
Qed.

Definition sdk_token_r : http_request := credentials_request true "as.example" "/token" "sdk-assertion".
Definition sdk_introspect_r : http_request := introspection_request true "as.example" "/introspect" "sdk-assertion" "at-1".
Definition x_sdk_token : list hsched := hfull 0 EToken sdk_token_r (os_assertion ++ [ok] ++ os_tok "id-1" "at-1" ++ [ok]).
Definition x_sdk_two (wait : N) : list hsched :=
  (x_sdk_token ++ HTick wait :: hfull 1 EIntrospect sdk_introspect_r (os_assertion ++ [ok; ok; ok]))%list.

(** Requests of client "app" with either of its assertions. *)
Lemma from_app b hh i r : query_get r "client_id" = ""%string -> post_value r "client_assertion_type" = assertion_bearer ->
  (post_value r "client_assertion" = "assertion"%string /\ (unix (w_now (web_world b) + time_in hh) <= 2000)%N \/
   post_value r "client_assertion" = "assertion-2"%string /\ (unix (w_now (web_world b) + time_in hh) <= 700000)%N) ->
  comes_from web_server (web_world b) hh i r (happ b).
Proof.
  intros H1 H2 H3. right; left. split; [exact H1|]. split; [exact H2|].
  destruct H3 as [[-> H]|[-> H]]; (split; [discriminate|]; split; [reflexivity|]; do 3 eexists; split; [reflexivity|];
    cbn [c_iss c_sub c_aud c_jti c_exp];
    split; [discriminate|]; split; [reflexivity|]; split; [discriminate|]; split; [discriminate|]; split; [reflexivity|];
    split; [exact H|]; split; [reflexivity|]; split; [discriminate|]; split; [reflexivity|];
    split; [right; left; reflexivity|]; split; [discriminate|reflexivity]).
Qed.
Definition x_web_refresh : list hsched :=
  (x_web_code ++ HTick (603000 * second) ::
   hfull 2 EToken (refresh2_r) (os_assertion ++ [ok; ok; ok] ++ os_tok "id-3" "at-2" ++ os_tok "id-4" "rt-2" ++ [ok; ok]))%list.
Definition h_refresh := http_history web_server (web_world false) x_web_refresh.
Definition h_code := http_history web_server (web_world false) x_web_code.

(** ** Deciding what nobody else does *)
Lemma generators_demo hh i : forallb (fun e => match e with
    | HvCall j (CGenAT _) a | HvCall j (CGenRT _) a =>
        negb (Nat.eqb j i) || match a with AGen (Some v) => negb (String.eqb v "") | _ => false end
    | _ => true end) hh = true -> web_generators_work hh i.
Proof.
  rewrite forallb_forall. intros H t a [Hin|Hin]; apply H in Hin; rewrite Nat.eqb_refl in Hin; cbn in Hin;
    destruct a as [| | | | | | | | | | |]; try discriminate; match goal with o : option string |- _ => destruct o as [v|] end; try discriminate; exists v; (split; [reflexivity|]); intros ->; discriminate.
Qed.
Lemma starts_demo f hh : forallb (fun e => match e with HvStart j e r => f j e r | _ => true end) hh = true ->
  forall j e r, In (HvStart j e r) hh -> f j e r = true.
Proof. rewrite forallb_forall. intros H j e r Hin. apply (H _ Hin). Qed.
Lemma sessions_demo f hh : forallb (fun e => match e with HvCall j (CSessReg a b c) _ => f j a b c | _ => true end) hh = true ->
  forall j a b c x, In (HvCall j (CSessReg a b c) x) hh -> f j a b c = true.
Proof. rewrite forallb_forall. intros H j a b c x Hin. apply (H _ Hin). Qed.
Lemma codes_demo hh i : forallb (fun e => match e with
    | HvCall j (CGenCode _) a | HvCall j (CGenURI _) a =>
        negb (Nat.eqb j i) || match a with AGen (Some v) => negb (String.eqb v "") | _ => false end
    | _ => true end) hh = true -> web_codes_work hh i.
Proof.
  rewrite forallb_forall. intros H t a [Hin|Hin]; apply H in Hin; rewrite Nat.eqb_refl in Hin; cbn in Hin;
    destruct a as [| | | | | | | | | | |]; try discriminate; match goal with o : option string |- _ => destruct o as [v|] end; try discriminate; exists v; (split; [reflexivity|]); intros ->; discriminate.
Qed.
Lemma requests_demo f hh : forallb (fun e => match e with HvCall j (CReqReg a b c) _ => f j a b c | _ => true end) hh = true ->
  forall j a b c x, In (HvCall j (CReqReg a b c) x) hh -> f j a b c = true.
Proof. rewrite forallb_forall. intros H j a b c x Hin. apply (H _ Hin). Qed.
Lemma proofs_demo f hh : forallb (fun e => match e with HvCall j (CProofReg a) _ => f j a | _ => true end) hh = true ->
  forall j a x, In (HvCall j (CProofReg a) x) hh -> f j a = true.
Proof. rewrite forallb_forall. intros H j a x Hin. apply (H _ Hin). Qed.

(** ** Proofs and signed requests *)
Lemma proof_good raw jti path : (raw, jti, path) = ("proof", "jti-3", "/token")%string \/ (raw, jti, path) = ("proof-par", "jti-6", "/par")%string ->
  proof_by web_ext raw "POST" ("https://as.example" ++ path) jti 1000 "thumb:instance-key".
Proof.
  intros [[= -> -> ->]|[= -> -> ->]]; (split; [discriminate|]; split; [reflexivity|]; split; [cbn; auto 20|]; split; [discriminate|]; split; [discriminate|];
    split; [discriminate|]; do 3 eexists; repeat split; reflexivity).
Qed.
Lemma app_signed b raw : str_in raw ["req-app"; "req-by-uri"]%string = true -> signed_by web_ext (happ b) raw.
Proof.
  intros H. eexists. split; [reflexivity|].
  assert (raw = "req-app" \/ raw = "req-by-uri")%string as [-> | ->].
  { apply existsb_exists in H as (x & [<-|[<-|[]]] & H); apply String.eqb_eq in H; auto. }
  all: do 2 eexists; (split; [reflexivity|]; split; [right; left; reflexivity|]; split; [discriminate|]; split; [auto|reflexivity]).
Qed.
Lemma areq_good b : SpecLive.well_formed web_ext (areq "openid profile offline_access" (Some "consent"%string)) /\
  SpecLive.permitted web_ext (happ b) (areq "openid profile offline_access" (Some "consent"%string)).
Proof.
  split; [|split; [apply has_iff; reflexivity|]; split; [apply has_iff; reflexivity|]; split; [apply has_iff; reflexivity|]].
  - split; [apply Nat.leb_le; vm_compute; reflexivity|]. split; [apply Nat.leb_le; vm_compute; reflexivity|].
    split; [reflexivity|]. split; [vm_compute; reflexivity|]. split; [auto|]. split; [discriminate|]. split; [reflexivity|].
    split; [discriminate|]. split; [discriminate|]. split; [discriminate|].
    intros m [= <-]. cbn; auto 10.
  - intros m [= <-]. apply has_iff; reflexivity.
Qed.
Definition h_par := http_history web_server (web_world true) x_http_par.
Definition h_bound := http_history web_server (web_world true) x_http_code.

(** ** The device flow *)
Definition h_device := http_history web_server web_worlds x_web_device.
Lemma device_codes_demo hh i : forallb (fun e => match e with
    | HvCall j (CGenDev _) a | HvCall j (CGenUser _) a =>
        negb (Nat.eqb j i) || match a with AGen (Some v) => negb (String.eqb v "") | _ => false end
    | _ => true end) hh = true -> web_device_codes_work hh i.
Proof.
  rewrite forallb_forall. intros H t a [Hin|Hin]; apply H in Hin; rewrite Nat.eqb_refl in Hin; cbn in Hin;
    destruct a as [| | | | | | | | | | |]; try discriminate; match goal with o : option string |- _ => destruct o as [v|] end; try discriminate; exists v; (split; [reflexivity|]); intros ->; discriminate.
Qed.
Lemma device_one_demo E hh i : forallb (fun e => match e with HvCall j (CDevReg _ _ _) _ => Nat.eqb j i | _ => true end) hh = true ->
  web_device_codes_apart E hh.
Proof.
  rewrite forallb_forall. intros H d1 i1 u1 s1 a1 d2 i2 u2 s2 a2 H1 H2 _. apply H in H1, H2. apply Nat.eqb_eq in H1, H2. congruence.
Qed.
