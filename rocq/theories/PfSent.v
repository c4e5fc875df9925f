(** * Who is sent a token (proofs) *)

From Verif Require Export SpecSent PfMint PfAnnounced.
From Coq Require Import Lia.

(** What a token response carries was stored for that request. *)
Lemma sent_stored S w xs i r access expires type refresh scope :
  responded (http_history S w xs) i EToken r (HToken access expires type refresh scope) ->
  access <> ""%string /\
  (exists iss t x, In (HvCall i (CTokCreate iss t) (AUnit x)) (http_history S w xs) /\ is_ok x = true /\
     t_type t = TtAccess /\ t_value t = access) /\
  (refresh <> ""%string -> exists iss t x, In (HvCall i (CTokCreate iss t) (AUnit x)) (http_history S w xs) /\ is_ok x = true /\
     t_type t = TtRefresh /\ t_value t = refresh).
Proof.
  intros H. destruct (served_passed _ _ _ _ _ _ _ _ H I eq_refl) as (cl & t1 & t2 & Ht & Hr & _).
  destruct cl as [c|].
  2:{ exfalso. cbn [runs] in Hr. unfold token_handler in Hr.
      destruct (negb _); apply with_error_ret in Hr as (_ & e & _ & Hr); discriminate. }
  destruct (C62_token_response_partial_proof _ _ _ _ _ _ _ _ _ _ Hr)
    as (t & m & nw & reg & (iss & x & K1 & K2) & Ty & Ev & Hne & _ & _ & _ & _ & _ & _ & Hrf & _).
  assert (L : forall c0 a0, In (c0, a0) t2 -> In (HvCall i c0 a0) (http_history S w xs)).
  { intros c0 a0 X. apply in_hcalls. rewrite Ht. apply in_or_app. auto. }
  split; [exact Hne|]. split; [exists iss, t, x; auto|].
  intros X. destruct (Hrf X) as (u & (iss' & y & Q1 & Q2) & Q3 & Q4). exists iss', u, y. auto.
Qed.

(** The values stored by two calls differ. *)
Lemma stored_apart C sa sr source S w xs h1 i iss t a h2 j iss' t' a' h3 :
  let hh := http_history S w xs in
  primitives_ok C -> web_package_generators C sa sr source hh -> unique_uuids source (List.length hh) ->
  hh = (h1 ++ HvCall i (CTokCreate iss t) a :: h2 ++ HvCall j (CTokCreate iss' t') a' :: h3)%list -> t_value t <> t_value t'.
Proof.
  intros hh HC Hg [Ls Hu] Hh Ev.
  assert (M : minted (hcalls i h1) t) by (eapply web_create_minted; exact Hh).
  assert (M' : minted (hcalls j (h1 ++ HvCall i (CTokCreate iss t) a :: h2)%list) t').
  { eapply (web_create_minted S w xs _ j iss' t' a' h3). fold hh. rewrite Hh, <- app_assoc. reflexivity. }
  rewrite <- thread_hcalls in M, M'.
  destruct (two_creates hevent_view _ _ _ _ _ _ _ _ _ _ _ _ _ _ Hh eq_refl eq_refl M M')
    as (n & n' & m & m' & g & g' & Hn & Hm & Lm & Lm' & _ & _ & S2 & S2' & G & G').
  rewrite hevent_seen in S2, S2'.
  assert (X : forall k q u v, nth_error hh k = Some (HvCall q u (AGen (Some (t_value v)))) ->
    (u = CGenAT (set_value v "") /\ t_type v = TtAccess) \/ (u = CGenRT (set_value v "") /\ t_type v = TtRefresh) ->
    exists s, marked (t_type v) /\ made C s v (source k) (t_value v)).
  { intros k q u v Hk [[-> T]|[-> T]]; [exists sa|exists sr]; (split; [unfold marked; auto|]);
      destruct (Hg k q (set_value v "") (t_value v)) as [X Y]; eapply made_value; [apply X|apply Y]; exact Hk. }
  destruct (X _ _ _ _ S2 G) as (s1 & M1 & D1). destruct (X _ _ _ _ S2' G') as (s2 & M2 & D2). rewrite Ev in D1.
  destruct (made_same _ _ _ _ _ _ _ _ HC (Ls m) (Ls m') M1 M2 D1 D2) as [_ U]. exact (Hm (Hu _ _ Lm Lm' U)).
Qed.

Lemma two_in {A} (l : list A) x y : In x l -> In y l -> x <> y ->
  exists l1 l2 l3, l = (l1 ++ x :: l2 ++ y :: l3)%list \/ l = (l1 ++ y :: l2 ++ x :: l3)%list.
Proof.
  intros Hx Hy Hn. apply in_split in Hx as (l1 & l2 & ->). apply in_app_or in Hy as [Hy|[Hy|Hy]].
  - apply in_split in Hy as (a & b & ->). exists a, b, l2. right. rewrite <- app_assoc. reflexivity.
  - contradiction.
  - apply in_split in Hy as (a & b & ->). exists l1, a, b. left. reflexivity.
Qed.
Lemma stored_once C sa sr source S w xs i iss t a j iss' t' a' :
  let hh := http_history S w xs in
  primitives_ok C -> web_package_generators C sa sr source hh -> unique_uuids source (List.length hh) ->
  In (HvCall i (CTokCreate iss t) a) hh -> In (HvCall j (CTokCreate iss' t') a') hh -> t_value t = t_value t' ->
  i = j /\ t = t'.
Proof.
  intros hh HC Hg Hu H H' Ev.
  assert (N : forall e e' : hevent, e = HvCall i (CTokCreate iss t) a -> e' = HvCall j (CTokCreate iss' t') a' -> e <> e' -> False).
  { intros e e' -> -> Hne. destruct (two_in _ _ _ H H' Hne) as (l1 & l2 & l3 & [X|X]).
    - exact (stored_apart C sa sr source S w xs _ _ _ _ _ _ _ _ _ _ _ HC Hg Hu X Ev).
    - exact (stored_apart C sa sr source S w xs _ _ _ _ _ _ _ _ _ _ _ HC Hg Hu X (eq_sym Ev)). }
  assert (T : i = j).
  { destruct (Nat.eq_dec i j) as [|Hne]; [auto|exfalso]. refine (N _ _ eq_refl eq_refl _). intros X. injection X. auto. }
  split; [exact T|].
  apply in_split in H as (l1 & l2 & H). rewrite H in H'. apply in_app_or in H' as [H'|[H'|H']].
  - exfalso. apply in_split in H' as (b1 & b2 & ->). rewrite <- app_assoc in H.
    exact (stored_apart C sa sr source S w xs _ _ _ _ _ _ _ _ _ _ _ HC Hg Hu H (eq_sym Ev)).
  - injection H'. auto.
  - exfalso. apply in_split in H' as (b1 & b2 & ->).
    exact (stored_apart C sa sr source S w xs _ _ _ _ _ _ _ _ _ _ _ HC Hg Hu H Ev).
Qed.

Lemma C119_sent_once_proof : forall C sa sr source S w xs i j v,
  let hh := http_history S w xs in
  primitives_ok C -> web_package_generators C sa sr source hh -> unique_uuids source (List.length hh) ->
  sent_token hh i v -> sent_token hh j v -> i = j.
Proof.
  intros C sa sr source S w xs i j v hh HC Hg Hu H H'.
  assert (X : forall k, sent_token hh k v -> exists iss t a, In (HvCall k (CTokCreate iss t) a) hh /\ t_value t = v).
  { intros k (r & ac & ex & ty & rf & sc & Hr & Hne & D). destruct (sent_stored _ _ _ _ _ _ _ _ _ _ Hr) as (_ & (iss & t & x & K1 & _ & _ & K2) & K3).
    destruct D as [-> | ->]; [eauto 6|]. destruct (K3 Hne) as (iss' & t' & x' & Q1 & _ & _ & Q2). eauto 6. }
  destruct (X _ H) as (iss & t & a & K1 & K2). destruct (X _ H') as (iss' & t' & a' & K1' & K2').
  rewrite <- K2' in K2. apply (stored_once C sa sr source S w xs _ _ _ _ _ _ _ _ HC Hg Hu K1 K1' K2).
Qed.

Lemma C119_two_values_proof : forall C sa sr source S w xs i r access expires type refresh scope,
  let hh := http_history S w xs in
  primitives_ok C -> web_package_generators C sa sr source hh -> unique_uuids source (List.length hh) ->
  responded hh i EToken r (HToken access expires type refresh scope) -> access <> ""%string /\ access <> refresh.
Proof.
  intros C sa sr source S w xs i r access expires type refresh scope hh HC Hg Hu H.
  destruct (sent_stored _ _ _ _ _ _ _ _ _ _ H) as (Hne & (iss & t & x & K1 & _ & T1 & V1) & K). split; [exact Hne|].
  intros <-. destruct (K Hne) as (iss' & t' & x' & K1' & _ & T2 & V2). rewrite <- V1 in V2.
  destruct (stored_once C sa sr source S w xs _ _ _ _ _ _ _ _ HC Hg Hu K1 K1' (eq_sym V2)) as [_ <-]. congruence.
Qed.

(** The token that can be used with a value is the one made for the request that was sent the value. *)
Lemma C119_own_token_proof : forall C sa sr source S w xs i v j iss t a,
  let hh := http_history S w xs in
  primitives_ok C -> web_package_generators C sa sr source hh -> unique_uuids source (List.length hh) ->
  sent_token hh i v -> In (HvCall j (CTokCreate iss t) a) hh -> t_value t = v -> j = i.
Proof.
  intros C sa sr source S w xs i v j iss t a hh HC Hg Hu (r & ac & ex & ty & rf & sc & Hr & Hne & D) Hc Hv.
  destruct (sent_stored _ _ _ _ _ _ _ _ _ _ Hr) as (_ & (iss' & t' & x & K1 & _ & _ & K2) & K3).
  destruct D as [-> | ->].
  - apply (stored_once C sa sr source S w xs _ _ _ _ _ _ _ _ HC Hg Hu Hc K1). congruence.
  - destruct (K3 Hne) as (iss2 & t2 & x2 & Q1 & _ & _ & Q2).
    apply (stored_once C sa sr source S w xs _ _ _ _ _ _ _ _ HC Hg Hu Hc Q1). congruence.
Qed.
