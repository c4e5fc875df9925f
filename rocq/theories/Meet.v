(** * Concrete histories and tactics for the examples beside the theorems *)

From Verif Require Export PfStore3 PfErr2 PfDev2 PfIssuer PfAuthn.

(** ** Deciding on concrete histories *)

Definition creates (E : ext) (h : list event) : list (string * string) :=
  flat_map (fun e => match e with EvCall _ (CTokCreate i t) _ => [(t_id t, tok_key E i (t_value t))] | _ => [] end) h.
Fixpoint apartb (l : list (string * string)) : bool :=
  match l with
  | [] => true
  | (a, b) :: l => forallb (fun p => negb (String.eqb a (fst p)) && negb (String.eqb b (snd p))) l && apartb l
  end.

Lemma apartb_ok l1 a b l2 a' b' l3 : apartb (l1 ++ (a, b) :: l2 ++ (a', b') :: l3)%list = true -> a <> a' /\ b <> b'.
Proof.
  induction l1 as [|[x y] l1 IH]; cbn; intros H; apply andb_true_iff in H as [H1 H2]; auto.
  rewrite forallb_forall in H1. specialize (H1 (a', b')). cbn in H1.
  assert (Hin : In (a', b') (l2 ++ (a', b') :: l3)%list) by (apply in_or_app; right; left; auto).
  apply H1 in Hin. apply andb_true_iff in Hin as [A B]. apply negb_true_iff in A, B.
  apply String.eqb_neq in A, B. auto.
Qed.

Lemma no_reuse_demo E h : apartb (creates E h) = true -> no_reuse E h.
Proof.
  intros H h1 i iss0 t a h2 j iss' t' a' h3 ->. unfold creates in H. rewrite flat_map_app in H.
  cbn [flat_map] in H. rewrite flat_map_app in H. cbn in H. apply apartb_ok in H. exact H.
Qed.

Definition code_rewrittenb (E : ext) (h : list event) (issuer code : string) : bool :=
  existsb (fun e => match e with
    | EvCall _ (CSessReg i c _) _ | EvCall _ (CSessDel i c) _ => String.eqb (sess_key E i c) (sess_key E issuer code)
    | _ => false end) h.
Definition uri_rewrittenb (E : ext) (h : list event) (issuer uri : string) : bool :=
  existsb (fun e => match e with
    | EvCall _ (CReqReg i c _) _ | EvCall _ (CReqDel i c) _ => String.eqb (req_key E i c) (req_key E issuer uri)
    | _ => false end) h.

Lemma code_rewritten_dec E h issuer code : code_rewritten E h issuer code -> code_rewrittenb E h issuer code = true.
Proof.
  intros (j & c & a & Hin & _ & [(i & k & s & -> & Hk)|(i & k & -> & Hk)]); apply existsb_exists; eexists; (split; [exact Hin|]);
  cbn; rewrite Hk; apply String.eqb_refl.
Qed.
Lemma uri_rewritten_dec E h issuer uri : uri_rewritten E h issuer uri -> uri_rewrittenb E h issuer uri = true.
Proof.
  intros (j & c & a & Hin & _ & [(i & k & s & -> & Hk)|(i & k & -> & Hk)]); apply existsb_exists; eexists; (split; [exact Hin|]);
  cbn; rewrite Hk; apply String.eqb_refl.
Qed.

Lemma split2 (h : list event) n e : nth_error h n = Some e -> h = (firstn n h ++ e :: skipn (S n) h)%list.
Proof. revert h; induction n; intros [|x h]; cbn; try discriminate; intros H; [injection H as ->|rewrite <- IHn]; auto. Qed.
Lemma split3 (h : list event) n m e : nth_error h n = Some e ->
  h = (firstn n h ++ e :: firstn m (skipn (S n) h) ++ skipn m (skipn (S n) h))%list.
Proof. intros H. rewrite firstn_skipn. apply split2; auto. Qed.
Lemma split4 (h : list event) n m e e' : nth_error h n = Some e -> nth_error (skipn (S n) h) m = Some e' ->
  h = (firstn n h ++ e :: firstn m (skipn (S n) h) ++ e' :: skipn (S m) (skipn (S n) h))%list.
Proof. intros H H'. rewrite <- (split2 _ _ _ H'). apply split2; auto. Qed.
Lemma split_3 (h : list event) n m : h = (firstn n h ++ firstn m (skipn n h) ++ skipn m (skipn n h))%list.
Proof. rewrite !firstn_skipn. reflexivity. Qed.

Lemma in_demo (h : list event) n e : nth_error h n = Some e -> In e h.
Proof. apply nth_error_In. Qed.

(** What an event is, in short. *)
Definition tag (e : event) : nat * string :=
  match e with
  | EvStart i _ => (i, "start"%string)
  | EvDone i _ => (i, "done"%string)
  | EvTick _ => (0%nat, "tick"%string)
  | EvCall i c _ => (i, match c with
      | CNow => "now" | CRand _ => "rand" | CGenAT _ => "genat" | CGenRT _ => "genrt" | CGenCode _ => "gencode"
      | CGenURI _ => "genuri" | CGenDev _ => "gendev" | CGenUser _ => "genuser" | CClientGet _ => "client"
      | CResGet _ => "res" | CSessGet _ _ => "sessget" | CSessDel _ _ => "sessdel" | CSessReg _ _ _ => "sessreg"
      | CReqGet _ _ => "reqget" | CReqDel _ _ => "reqdel" | CReqReg _ _ _ => "reqreg" | CDevGetDev _ _ => "devget"
      | CDevGetUser _ _ => "userget" | CDevReg _ _ _ => "devreg" | CDevVal _ _ _ => "devval" | CDevDel _ _ => "devdel"
      | CTokGet _ _ => "tokget" | CTokCreate _ _ => "tokcreate" | CTokRevoke _ _ => "tokrevoke"
      | CProofExists _ => "proofexists" | CProofReg _ => "proofreg" end%string)
  end.

(** ** More histories *)

Definition x_cc : list sched := full 0 (RToken (Some (ccreq webapp))) ([ok] ++ os_tok "id-1" "at-1").

(** alice authorizes app, app redeems; the generator repeats itself and all happens again. *)
Definition x_again : list sched :=
  (x_code ++ full 2 (authz all_scope (Some "consent")) (os_authz "code-1") ++
   full 3 (RToken (Some (redeem webapp "code-1"))) ([ok; ok; ok] ++ os_tok "id-3" "at-2" ++ os_tok "id-4" "rt-2"))%list.

Definition uri1 := "urn:solid:12345678901234567890123456789012".
Definition pushreq : registration_request := mkRegReq iss (Some webapp) (Some (areq all_scope (Some "consent"))).
(** The front-channel request: other parameters and the request_uri. *)
Definition frontreq : authreq :=
  mkAuthReq "admin" "token" "evil" "https://evil.example" "x" None "y" None None (Some uri1) "" "" "" "".
Definition byuri : authorize_request := mkAuthzReq iss "alice" (Some frontreq).
Definition x_par : list sched :=
  (full 0 (RRegister (Some pushreq)) [ok; say uri1; ok] ++
   full 1 (RAuthorize (Some byuri)) [ok; ok; ok; say "code-1"; ok])%list.
Definition x_par2 : list sched :=
  (x_par ++ full 2 (RRegister (Some pushreq)) [ok; say uri1; ok] ++
   full 3 (RAuthorize (Some byuri)) [ok; ok; ok; say "code-2"; ok])%list.

Definition x_refresh : list sched :=
  (x_code ++ full 2 (RToken (Some (refreshreq webapp "rt-1"))) ([ok; ok; ok] ++ os_tok "id-3" "at-2"))%list.
(** Half an hour before its expiry the refresh token is replaced. *)
Definition x_rotate : list sched :=
  (x_code ++ STick (603000 * second) ::
   full 2 (RToken (Some (refreshreq webapp "rt-1"))) ([ok; ok; ok] ++ os_tok "id-3" "at-2" ++ os_tok "id-4" "rt-2" ++ [ok]) ++
   full 3 (RToken (Some (refreshreq webapp "rt-1"))) [ok; ok; ok])%list.
(** app revokes its refresh token, then tries it. *)
Definition x_revoked : list sched :=
  (x_code ++ full 2 (RRevoke (Some (mkValReq iss (Some webapp) "rt-1"))) [ok; ok; ok] ++
   full 3 (RToken (Some (refreshreq webapp "rt-1"))) [ok; ok; ok] ++
   full 4 (RIntrospect (Some (mkValReq iss (Some webapp) "rt-1"))) [ok; ok])%list.
Definition x_exchange : list sched :=
  (x_code ++ full 2 (RToken (Some (exchangereq webapp "at-1" None)))
     [ok; ok; ok; ok; say "id-3"; ok; say "at-2"; ok])%list.
Definition x_intro : list sched :=
  (x_code ++ full 2 (RIntrospect (Some (mkValReq iss (Some webapp) "at-1"))) [ok; ok])%list.
Definition y_intro : list sched := full 2 (RIntrospect (Some (mkValReq iss (Some webapp) "at-1"))) [ok; ok].
Definition x_assert : list sched := full 0 (assertion_req "assertion") [ok; ok].
Definition x_attest_ok : list sched := full 0 (attestation_req "attestation~pop") [ok; ok; ok; ok; ok; ok].
Definition boundreq : request :=
  RDpop "POST" "https://as.example/token" "proof" (Some "token-value"%string) (Some (b64url "thumb:instance-key")).
Definition x_dpop : list sched := full 0 boundreq [ok; ok; ok; ok].
Definition x_dpop2 : list sched := (full 0 dpopreq [ok; ok; ok; ok] ++ full 1 dpopreq [ok; ok; ok; ok])%list.

(** Two clients with different redirect URIs. *)
Definition w_apart : world :=
  init_world (1000 * second) (upd (upd empty "app" (Some webapp)) "spa" (Some spa)).
Lemma blank_apart : blank w_apart.
Proof. repeat split; reflexivity. Qed.
Lemma apart_apart : redirects_apart demo_ext w_apart.
Proof.
  intros id1 id2 c1 c2 u1 u2 H1 H2 I1 I2 Hf. cbn in H1, H2. unfold upd, empty in H1, H2.
  destruct (String.eqb_spec id1 "spa") as [->|]; [|destruct (String.eqb_spec id1 "app") as [->|]; [|discriminate]];
  (destruct (String.eqb_spec id2 "spa") as [->|]; [|destruct (String.eqb_spec id2 "app") as [->|]; [|discriminate]]);
  injection H1 as <-; injection H2 as <-; auto; cbn in I1, I2; destruct I1 as [<-|[]]; destruct I2 as [<-|[]];
  exfalso; vm_compute in Hf; discriminate.
Qed.

(** The code is presented 61 seconds after it was issued. *)
Definition x_late : list sched :=
  (x_authz ++ STick (61 * second) :: full 1 (RToken (Some (redeem webapp "code-1"))) [ok; ok; ok])%list.

(** Requests to two issuers. *)
Definition x_two_issuers : list sched :=
  (x_refresh ++ full 3 (RIntrospect (Some (mkValReq "https://other.example" (Some webapp) "rt-1"))) [ok; ok] ++
   full 4 (RRevoke (Some (mkValReq iss (Some webapp) "rt-1"))) [ok; ok; ok])%list.

Definition issuers (h : list event) : list string :=
  flat_map (fun e => match e with EvStart _ r => match issuer_of r with Some a => [a] | None => [] end | _ => [] end) h.
Lemma prefix_app a c : String.prefix a (a ++ c) = true.
Proof. induction a as [|x a IH]; [destruct c; reflexivity|]. change (String.prefix (String x a) (String x (a ++ c)) = true). simpl. destruct (ascii_dec x x); [exact IH|congruence]. Qed.
Lemma string_length_app a b : String.length (a ++ b) = (String.length a + String.length b)%nat.
Proof. induction a as [|x a IH]; [reflexivity|]. change (S (String.length (a ++ b)) = S (String.length a + String.length b)). rewrite IH. reflexivity. Qed.
Lemma issuers_in h i r a : asked h i r -> issuer_of r = Some a -> In a (issuers h).
Proof. intros H E. apply in_flat_map. exists (EvStart i r). split; auto. rewrite E. left; auto. Qed.
Lemma issuers_apart_demo h :
  forallb (fun a => forallb (fun b => negb (String.prefix a b) || Nat.eqb (String.length a) (String.length b)) (issuers h)) (issuers h) = true ->
  issuers_apart h.
Proof.
  intros H i r a j r' b Ha Ea Hb Eb (c & Nc & ->).
  eapply issuers_in in Ha; eauto. eapply issuers_in in Hb; eauto.
  rewrite forallb_forall in H. specialize (H _ Ha). rewrite forallb_forall in H. specialize (H _ Hb).
  rewrite prefix_app in H. cbn in H. apply Nat.eqb_eq in H. rewrite string_length_app in H.
  destruct c; [congruence|cbn in H; lia].
Qed.

Lemma takes_demo h j d : (elapsed h <= d)%N -> takes_at_most h j d.
Proof.
  intros H g1 r g2 o g3 ->. rewrite elapsed_app in H. cbn [elapsed] in H. rewrite elapsed_app in H. lia.
Qed.

Definition devregs (h : list event) : list nat :=
  flat_map (fun e => match e with EvCall d (CDevReg _ _ _) _ => [d] | _ => [] end) h.
Lemma device_codes_demo E h d : devregs h = [d] -> device_codes_apart E h.
Proof.
  intros H d1 i1 u1 s1 a1 d2 i2 u2 s2 a2 H1 H2 _.
  assert (I1 : In d1 (devregs h)) by (apply in_flat_map; eexists; split; [exact H1|left; auto]).
  assert (I2 : In d2 (devregs h)) by (apply in_flat_map; eexists; split; [exact H2|left; auto]).
  rewrite H in I1, I2. destruct I1 as [<-|[]], I2 as [<-|[]]. auto.
Qed.

(** Operations on a token store. *)
Definition demo_tok (id value : string) : token := mkToken iss TtAccess id None TsActive value None.
Definition demo_tops : list top :=
  [TCreate iss (demo_tok "id-1" "at-1"); TCreate iss (demo_tok "id-2" "at-2"); TRevoke iss "id-1"; TDelete iss "id-2"].
Definition tcreates (E : ext) (os : list top) : list (string * string) :=
  flat_map (fun o => match o with TCreate i t => [(t_id t, tok_key E i (t_value t))] | _ => [] end) os.
Lemma tops_apart E os : apartb (tcreates E os) = true -> top_no_reuse E os.
Proof.
  intros H os1 i1 t1 os2 i2 t2 os3 ->. unfold tcreates in H. rewrite flat_map_app in H.
  cbn [flat_map] in H. rewrite flat_map_app in H. cbn in H. apply apartb_ok in H. exact H.
Qed.

(** ** Tactics *)

(** Looking at every event of a history. *)
Lemma every_event (f : event -> bool) h e : forallb f h = true -> In e h -> f e = true.
Proof. intros H. rewrite forallb_forall in H. apply H. Qed.
Lemma reads_demo h i :
  forallb (fun e => match e with EvCall j _ a => negb (Nat.eqb j i && nil_read a) | _ => true end) h = true ->
  forall c a, In (EvCall i c a) h -> nil_read a = false.
Proof.
  intros H c a Hin. apply (every_event _ _ _ H) in Hin; cbn beta iota in Hin. rewrite Nat.eqb_refl in Hin. cbn in Hin.
  apply negb_true_iff in Hin. auto.
Qed.
Lemma resources_demo h i :
  forallb (fun e => match e with EvCall j (CResGet _) (ARes SErr) => negb (Nat.eqb j i) | _ => true end) h = true ->
  forall urn, ~ In (EvCall i (CResGet urn) (ARes SErr)) h.
Proof. intros H urn Hin. apply (every_event _ _ _ H) in Hin; cbn beta iota in Hin. rewrite Nat.eqb_refl in Hin. discriminate. Qed.
Lemma unread_demo h i issuer code :
  forallb (fun e => match e with EvCall j (CSessGet _ _) _ => negb (Nat.eqb j i) | _ => true end) h = true ->
  forall a, ~ In (EvCall i (CSessGet issuer code) a) h.
Proof. intros H a Hin. apply (every_event _ _ _ H) in Hin; cbn beta iota in Hin. rewrite Nat.eqb_refl in Hin. discriminate. Qed.
Lemma unasked_demo h j :
  forallb (fun e => match e with EvStart i _ => negb (Nat.eqb i j) | _ => true end) h = true ->
  forall r, ~ asked h j r.
Proof. intros H r Hin. apply (every_event _ _ _ H) in Hin; cbn beta iota in Hin. rewrite Nat.eqb_refl in Hin. discriminate. Qed.
Lemma generators_demo h i :
  forallb (fun e => match e with
    | EvCall j (CGenAT _) a | EvCall j (CGenRT _) a =>
        negb (Nat.eqb j i) || match a with AGen (Some v) => negb (String.eqb v "") | _ => false end
    | _ => true end) h = true -> generators_work h i.
Proof.
  intros H t a [Hin|Hin]; apply (every_event _ _ _ H) in Hin; cbn beta iota in Hin; rewrite Nat.eqb_refl in Hin; cbn in Hin;
  destruct a; try discriminate; match goal with r : option string |- _ => destruct r as [v|]; [|discriminate] end; exists v; split; auto; intros ->; discriminate.
Qed.
Ltac every := first [apply reads_demo | apply resources_demo | apply unread_demo | apply unasked_demo]; vm_compute; reflexivity.

Ltac vmr := vm_compute; reflexivity.
Ltac meet1 :=
  lazymatch goal with
  | |- blank _ => first [apply blank_w0 | apply blank_w0s | apply blank_apart]
  | |- no_tokens _ => first [apply blank_w0 | apply blank_w0s]
  | |- registry_ok _ => exact registry_demo
  | |- stamp_ok _ => first [apply stamp_w0s | apply stamp_w0]
  | |- redirects_apart _ _ => apply apart_apart
  | |- collision_free _ => apply demo_collision_free
  | |- no_faults _ => repeat (constructor; [exact I || reflexivity|]); constructor
  | |- no_reuse _ _ => apply no_reuse_demo; vmr
  | |- token_ok _ _ _ _ => demo_ok
  | |- answered _ _ _ _ => demo_ans
  | |- dpop_accepts _ _ _ _ _ _ _ _ => unfold dpop_accepts; demo_ans
  | |- authenticates _ _ _ _ => eexists; split; [demo_ans|split; reflexivity]
  | |- authorize_ok_at _ _ _ _ => demo_authz
  | |- presents_code _ _ _ => split; [reflexivity|do 2 eexists; reflexivity]
  | |- presents_refresh _ _ _ => split; reflexivity
  | |- presents_subject _ _ _ => split; [reflexivity|eexists; reflexivity]
  | |- history _ _ _ = (firstn ?n _ ++ skipn ?n _)%list => symmetry; apply firstn_skipn
  | |- history _ _ _ = (firstn ?n _ ++ firstn _ _ ++ skipn _ _)%list => apply split_3
  | |- history _ _ _ = (firstn ?n _ ++ _ :: firstn _ _ ++ _ :: _)%list => apply split4; vmr
  | |- history _ _ _ = (firstn ?n _ ++ _ :: firstn _ _ ++ _)%list => apply split3; vmr
  | |- history _ _ _ = (firstn ?n _ ++ _ :: _)%list => apply split2; vmr
  | |- asked _ _ _ => unfold asked; vm_compute; repeat (first [left; reflexivity|right])
  | |- In _ _ => vm_compute; repeat (first [left; reflexivity|right])
  | |- ~ code_rewritten ?E ?h ?i ?c => intros X; apply code_rewritten_dec in X; vm_compute in X; discriminate X
  | |- ~ uri_rewritten ?E ?h ?i ?c => intros X; apply uri_rewritten_dec in X; vm_compute in X; discriminate X
  | |- oauth_service _ => exact I
  | |- generators_work _ _ => apply generators_demo; vmr
  | |- forall r, ~ asked _ _ r => every
  | |- forall c a, In (EvCall _ c a) _ -> _ => every
  | |- issuers_apart _ => apply issuers_apart_demo; vmr
  | |- takes_at_most _ _ _ => apply takes_demo; vm_compute; discriminate
  | |- device_codes_apart _ _ => eapply device_codes_demo; vmr
  | |- _ <> _ => vm_compute; discriminate
  | |- ~ _ => vm_compute; discriminate
  | |- _ = _ => vmr
  | |- (_ <= _)%N => vm_compute; discriminate
  | |- (_ < _)%N => vmr
  end.
Ltac meet := repeat match goal with |- _ /\ _ => split end; try meet1.
