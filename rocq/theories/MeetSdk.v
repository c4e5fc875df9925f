(** * Concrete cases for the examples beside the SDK theorems *)

From Verif Require Export Meet SpecSdk.
From Verif Require Export PfBase62 PfVerifiable PfSdk.

(** Stand-ins for the cryptography: functions with the right output lengths. *)
Definition demo_hash (n : nat) (s : string) : string := be_bytes n (be_num 0 s mod 256 ^ N.of_nat n) "".
Definition demo_crypto : crypto :=
  mkCrypto (fun secret nonce info => (secret ++ nonce ++ info)%string)
    (fun k m => demo_hash 32 (k ++ m)%string) (fun s => s).

Lemma demo_hash_len n s : String.length (demo_hash n s) = n.
Proof. unfold demo_hash. rewrite be_bytes_len. cbn [String.length]. apply Nat.add_0_r. Qed.

Definition uuid1 : string := "0123456789abcdef".
Definition nonce1 : string := "nonce-number".
Definition token1 : string :=
  match uuid_generate demo_crypto "secret" "user" (Some uuid1) (Some nonce1) with Some s => s | None => "" end.

(** The characters of the set in order, over and over. *)
Fixpoint cycle (n : nat) (rest all : string) : string :=
  match n, rest with
  | O, _ => EmptyString
  | S n, EmptyString => match all with EmptyString => EmptyString | String a r => String a (cycle n r all) end
  | S n, String a r => String a (cycle n r all)
  end.
Definition demo_draw (n : nat) (charset : string) : string := cycle n charset charset.

Lemma demo_draws : draws_from_charset demo_draw.
Proof.
  intros n charset H. unfold demo_draw.
  assert (K : forall n rest, (forall a, has_char a rest -> has_char a charset) ->
    String.length (cycle n rest charset) = n /\ every_char (fun a => has_char a charset) (cycle n rest charset)).
  { clear n. induction n as [|n IH]; intros rest R; cbn [cycle]; [split; [reflexivity|exact I]|].
    destruct rest as [|a r].
    - destruct charset as [|b s] eqn:E; [congruence|]. destruct (IH s) as (A & B); [intros a F; right; exact F|].
      cbn [String.length every_char]. rewrite A. split; [reflexivity|split; [left; reflexivity|exact B]].
    - destruct (IH r) as (A & B); [intros b F; apply R; right; exact F|].
      cbn [String.length every_char]. rewrite A. split; [reflexivity|split; [apply R; left; reflexivity|exact B]]. }
  apply K. auto.
Qed.

Definition random96 : string := demo_draw 96 "0123456789".

Lemma token1_spelled : spelled token1 "user_" (substring 5 22 token1) (substring 28 100 token1).
Proof.
  split; [vm_compute; reflexivity|]. split.
  - split; [vm_compute; reflexivity|]. split; [apply (proj1 (all_alnum _))|split; [left; vm_compute; reflexivity|apply (proj1 (all_alnum _))]];
      vm_compute; reflexivity.
  - right. exists "user"%string. split; [reflexivity|]. repeat (split; [vm_compute; discriminate|]). exact I.
Qed.
