(** * Concrete cases for C117 *)

From Verif Require Export MeetWebLive PfMint.
Local Open Scope nat_scope.

(** Stand-ins for the primitives: codes of 32 bytes. *)
Definition toy : crypto := mkCrypto (fun s n i => (s ++ n)%string) (fun _ _ => "0123456789abcdef0123456789abcdef"%string) (fun s => s).
Lemma toy_ok : primitives_ok toy.
Proof. split; reflexivity. Qed.

Definition toy_nonce : string := "nonce-nonce-".
Definition toy_source (n : nat) : string := String (ascii_of_nat n) "uuuuuuuuuuuuuuu".
Definition toy_value (secret : string) (ty : token_type) (n : nat) : string :=
  match token_value toy (Some secret) (Some (mkToken "" ty "" None TsActive "" None)) (Some (toy_source n)) (Some toy_nonce) with
  | Some v => v | None => "" end.
Lemma toy_unique len : len <= 256 -> unique_uuids toy_source len.
Proof.
  intros H. split; [reflexivity|]. intros n m Hn Hm E. injection E as E.
  rewrite <- (nat_ascii_embedding n), <- (nat_ascii_embedding m), E by lia. reflexivity.
Qed.

(** Two redemptions, with the values the generators of the package make. *)
Definition A := toy_value access_secret TtAccess.
Definition R := toy_value refresh_secret TtRefresh.
Definition x_mint : list sched :=
  (full 0 (authz all_scope (Some "consent")) (os_authz "code-1") ++
   full 1 (RToken (Some (redeem webapp "code-1"))) ([ok; ok; ok] ++ os_tok "id-1" (A 11) ++ os_tok "id-2" (R 15)) ++
   full 2 (authz all_scope (Some "consent")) (os_authz "code-2") ++
   full 3 (RToken (Some (redeem webapp "code-2"))) ([ok; ok; ok] ++ os_tok "id-3" (A 29) ++ os_tok "id-4" (R 33)))%list.
Notation h_mint := (history demo_ext w0 x_mint).

Definition x_web_mint : list hsched :=
  (hfull 0 EAuthorize (authorize_r "app" "req-app") (os_authorize "code-1") ++
   hfull 1 EToken (redeem_r dpop1)
     (os_assertion ++ os_proof ++ [ok; ok; ok] ++ os_tok "id-1" (A 19) ++ os_tok "id-2" (R 23) ++ [ok]) ++
   hfull 2 EToken (post "/token" [] (auth_params ++ [("grant_type", "refresh_token"); ("refresh_token", R 23)])%list dpop2)
     (os_assertion ++ os_proof ++ [ok; ok; ok] ++ os_tok "id-3" (A 39) ++ [ok]))%list.
Notation hh_mint := (http_history web_server (web_world true) x_web_mint).

Definition gen_check (n : nat) (e : option (nat * call * answer)) : bool :=
  match e with
  | Some (_, CGenAT t, AGen (Some v)) =>
      String.eqb v (A n) && match t_type t with TtAccess => true | _ => false end
  | Some (_, CGenRT t, AGen (Some v)) =>
      String.eqb v (R n) && match t_type t with TtRefresh => true | _ => false end
  | _ => true
  end.
Fixpoint gens_check (n : nat) (l : list (option (nat * call * answer))) : bool :=
  match l with [] => true | e :: l => gen_check n e && gens_check (S n) l end.
Definition ids_of (l : list (option (nat * call * answer))) : list string :=
  flat_map (fun e => match e with Some (_, CRand 8, AStr x) => [x] | _ => [] end) l.
Fixpoint once (l : list string) : bool :=
  match l with [] => true | x :: l => negb (existsb (String.eqb x) l) && once l end.

Lemma gens_at l : forall n k e, gens_check n l = true -> nth_error l k = Some e -> gen_check (n + k) e = true.
Proof.
  induction l as [|x l IH]; intros n [|k] e H Hk; try discriminate Hk; cbn in H; apply andb_prop in H as [H1 H2].
  - injection Hk as <-. rewrite Nat.add_0_r. exact H1.
  - rewrite <- Nat.add_succ_comm. apply IH; auto.
Qed.
Lemma a_made n t : t_type t = TtAccess -> made toy access_secret t (toy_source n) (A n).
Proof. intros H. exists toy_nonce. split; [reflexivity|]. cbn [token_value]. rewrite H. reflexivity. Qed.
Lemma r_made n t : t_type t = TtRefresh -> made toy refresh_secret t (toy_source n) (R n).
Proof. intros H. exists toy_nonce. split; [reflexivity|]. cbn [token_value]. rewrite H. reflexivity. Qed.
Lemma gens_both l n i t v : gens_check 0 l = true ->
  (nth_error l n = Some (Some (i, CGenAT t, AGen (Some v))) -> made toy access_secret t (toy_source n) v) /\
  (nth_error l n = Some (Some (i, CGenRT t, AGen (Some v))) -> made toy refresh_secret t (toy_source n) v).
Proof.
  intros H. split; intros Hn; apply (gens_at _ _ _ _ H) in Hn; cbn in Hn; apply andb_prop in Hn as [V T];
    apply String.eqb_eq in V; subst v; destruct (t_type t) eqn:E; try discriminate T; [apply a_made|apply r_made]; exact E.
Qed.
Lemma ids_in x l : forall n i, nth_error l n = Some (Some (i, CRand 8, AStr x)) -> In x (ids_of l).
Proof. intros n i H. apply nth_error_In in H. apply in_flat_map. eexists. split; [exact H|]. left. reflexivity. Qed.
Lemma ids_once l : once (ids_of l) = true -> forall n m i j x,
  nth_error l n = Some (Some (i, CRand 8, AStr x)) -> nth_error l m = Some (Some (j, CRand 8, AStr x)) -> n = m.
Proof.
  assert (K : forall y x l', once (y :: l') = true -> y = x -> In x l' -> False).
  { intros y x l' H -> Hin. cbn in H. apply andb_prop in H as [H _]. apply negb_true_iff in H.
    assert (existsb (String.eqb x) l' = true) by (apply existsb_exists; exists x; split; [auto|apply String.eqb_refl]). congruence. }
  assert (T : forall e l', once (ids_of (e :: l')) = true -> once (ids_of l') = true).
  { intros e l' H. unfold ids_of in H. cbn [flat_map] in H. fold (ids_of l') in H. revert H.
    match goal with |- once (?q ++ _) = true -> _ => generalize q end. intros p. induction p as [|y p IHp]; [auto|].
    cbn. intros H. apply andb_prop in H as [_ H]. auto. }
  induction l as [|e l IH]; intros H n m i j x Hn Hm; [destruct n; discriminate Hn|].
  destruct n as [|n], m as [|m]; cbn in Hn, Hm.
  - reflexivity.
  - exfalso. injection Hn as ->. cbn in H. refine (K x x (ids_of l) H eq_refl _). eapply ids_in; eauto.
  - exfalso. injection Hm as ->. cbn in H. refine (K x x (ids_of l) H eq_refl _). eapply ids_in; eauto.
  - f_equal. eapply IH; eauto.
Qed.

Lemma mint_gens : package_generators toy access_secret refresh_secret toy_source h_mint.
Proof.
  assert (H : gens_check 0 (map event_view h_mint) = true) by (vm_compute; reflexivity).
  intros n i t v. destruct (gens_both _ n i t v H) as [X Y].
  split; intros Hn; apply (map_nth_error event_view) in Hn; auto.
Qed.
Lemma mint_ids : unique_ids h_mint.
Proof.
  assert (H : once (ids_of (map event_view h_mint)) = true) by (vm_compute; reflexivity).
  intros n m i j x Hn Hm. apply (map_nth_error event_view) in Hn, Hm. exact (ids_once _ H _ _ _ _ _ Hn Hm).
Qed.
Lemma mint_collisions : slots_collision_free demo_ext h_mint.
Proof. intros i is t a j is' t' a' _ _ H. cbn [x_blake demo_ext] in H. unfold demo_blake in H. apply sapp_left in H. exact H. Qed.
Lemma web_mint_gens : web_package_generators toy access_secret refresh_secret toy_source hh_mint.
Proof.
  assert (H : gens_check 0 (map hevent_view hh_mint) = true) by (vm_compute; reflexivity).
  intros n i t v. destruct (gens_both _ n i t v H) as [X Y].
  split; intros Hn; apply (map_nth_error hevent_view) in Hn; auto.
Qed.
Lemma web_mint_ids : web_unique_ids hh_mint.
Proof.
  assert (H : once (ids_of (map hevent_view hh_mint)) = true) by (vm_compute; reflexivity).
  intros n m i j x Hn Hm. apply (map_nth_error hevent_view) in Hn, Hm. exact (ids_once _ H _ _ _ _ _ Hn Hm).
Qed.
Lemma web_mint_collisions : web_slots_collision_free (sv_ext web_server) hh_mint.
Proof.
  intros i is t a j is' t' a' _ _ H.
  change (("solid:token:v1" ++ is ++ t_value t)%string = ("solid:token:v1" ++ is' ++ t_value t')%string) in H.
  apply sapp_left in H. exact H.
Qed.
(** Four and three tokens are stored. *)
Lemma mint_count : List.length (filter (fun e => match e with EvCall _ (CTokCreate _ _) (AUnit (SOk _)) => true | _ => false end) h_mint) = 4.
Proof. vm_compute. reflexivity. Qed.
Lemma web_mint_count : List.length (filter (fun e => match e with HvCall _ (CTokCreate _ _) (AUnit (SOk _)) => true | _ => false end) hh_mint) = 3.
Proof. vm_compute. reflexivity. Qed.
