(** * What is bound to succeed over HTTP: the device flow (proofs) *)

From Verif Require Export PfWebLive6.
From Coq Require Import Lia.

(** The request to a service that was made for an HTTP request received, and answered, in the middle of the history. *)
Lemma settle S w xs ys own hh0 hh1 hh2 h0 h1 h2 i e r j x o : refined S w xs ys own ->
  http_history S w xs = (hh0 ++ hh1 ++ hh2)%list -> history (sv_ext S) w ys = (h0 ++ h1 ++ h2)%list ->
  explained S own hh0 h0 -> In (HvStart i e r) hh1 -> nth_error own j = Some i ->
  In (EvStart j x) (h0 ++ h1)%list -> In (EvDone j o) (h0 ++ h1)%list -> In (EvStart j x) h1 /\ In (EvDone j o) h1.
Proof.
  intros R Hh Hy X0 Hi O H1 H2. split.
  - eapply (made_later S w xs own hh0 (hh1 ++ hh2)%list h0 h1 i e r j x Hh X0); auto. apply in_or_app; auto.
  - apply in_app_or in H2 as [H2|H2]; auto. exfalso.
    destruct (trace_history (sv_ext S) w ys) as (sy & Ht & _). rewrite Hy in Ht. apply trace_app in Ht as (s1 & Ht & _).
    destruct (done_started _ _ _ _ _ _ Ht H2) as (x' & Hx).
    destruct (ex_start _ _ _ _ X0 _ _ Hx) as (i' & e' & r' & d' & O' & A' & _). rewrite O in O'. injection O' as <-.
    eapply (not_again _ _ _ _ _ _ _ _ _ _ Hh A'). apply in_or_app; left; exact Hi.
Qed.

(** ** The service *)

Lemma dev_authorize_live E w ys j q c o : no_faults ys ->
  In (EvStart j (RDevAuthorize (Some q))) (history E w ys) -> In (EvDone j o) (history E w ys) ->
  dr_issuer q <> ""%string -> dr_client_id q <> ""%string -> w_clients w (dr_client_id q) = Some c ->
  listed E (cl_grant_types c) gt_device ->
  (forall a, In (EvCall j (CGenDev (dr_issuer q)) a) (history E w ys) \/ In (EvCall j (CGenUser (dr_issuer q)) a) (history E w ys) ->
     exists v, a = AGen (Some v) /\ v <> ""%string) ->
  exists res, o = Done (PDevAuthorize res) /\ dv_err res = false /\ dv_device_code res <> ""%string /\ dv_user_code res <> ""%string /\
    dv_expires_in res = 120%N /\ dv_interval res = 5%N.
Proof.
  intros Hf Hs Hd Hi Hc Hr Hl Hg.
  pose (Pz := fun o : outcome response => match o with
     | Done (PDevAuthorize res) => dv_err res = false /\ dv_device_code res <> ""%string /\ dv_user_code res <> ""%string /\
         dv_interval res = 5%N /\ (exists n, dv_expires_in res = num n /\
          exists u s, In (EvCall j (CDevReg (dr_issuer q) u s) (ANum n)) (history E w ys))
     | _ => False end).
  assert (Hfin : Pz o).
  { apply (ends_history E w ys j (RDevAuthorize (Some q)) o Pz (fun c a => reliable w c a /\ In (EvCall j c a) (history E w ys)) Hs Hd).
    - intros c0 a Hin. split; [eapply history_reliable; eauto|exact Hin].
    - cbn [serve]. unfold pmap. apply ends_bind. unfold dev_authorize_svc.
      apply is_empty_false in Hi. apply is_empty_false in Hc. rewrite Hi, Hc.
      intros a [[Ha1 Ha2] _]. destruct a; cbn in Ha1; try destruct Ha1. cbn in Ha2. rewrite Hr in Ha2. subst.
      apply has_iff in Hl. rewrite Hl. cbn [negb].
      intros a [[Ha1 _] Ha3]. destruct a; cbn in Ha1; try destruct Ha1.
      destruct (Hg _ (or_introl Ha3)) as (v1 & [= ->] & Hv1).
      intros a [[Ha1 _] Ha4]. destruct a; cbn in Ha1; try destruct Ha1.
      destruct (Hg _ (or_intror Ha4)) as (v2 & [= ->] & Hv2).
      intros a [[Ha1 Ha2] Ha5]. destruct a; cbn in Ha1; try destruct Ha1. cbn in Ha2. rewrite Ha2.
      cbn. split; [reflexivity|]. split; auto. split; auto. split; auto. eexists. split; [reflexivity|]. eauto. }
  destruct o as [[ | | | | |res| | | ]|]; try (destruct Hfin; fail).
  destruct Hfin as (F1 & F2 & F3 & F4 & n & F5 & u & s & F6).
  exists res. split; [reflexivity|]. split; [exact F1|]. split; auto. split; auto. split; auto. rewrite F5.
  apply in_split in F6 as (l1 & l2 & Hx).
  pose proof (history_ftrace E w ys Hf) as Ht. rewrite Hx in Ht.
  destruct (ftrace_at _ _ _ _ _ _ _ _ Ht) as (wm & oo & w1 & T1 & T2 & T3 & T4).
  cbn in T2. rewrite T3 in T2. cbn in T2. injection T2 as <- _. reflexivity.
Qed.

Section Devices.
Context (S : http_server) (w : world) (xs : list hsched) (ys : list sched) (own : list nat).
Context (R : refined S w xs ys own) (Hf : hno_faults xs).
Notation E := (sv_ext S).
Notation hh := (http_history S w xs).
Notation h := (history E w ys).

Definition dev_message (r : http_request) : dev_request :=
  mkDevReq (sv_issuer S) (form_value r "client_id") (optional_string (form_value r "scope")) (optional_string (form_value r "audience")).

Lemma device_stages i r c j x : comes_from S w hh i r c ->
  In (HvStart i EDeviceAuthorize r) hh -> nth_error own j = Some i -> In (EvStart j x) h ->
  login r x \/ x = RDevAuthorize (Some (dev_message r)).
Proof.
  intros Hc Hs O Hx. destruct (made_by _ _ _ _ _ R _ _ _ _ _ Hs O Hx) as (d & P & St).
  destruct x; cbn [stage] in St; try (destruct St as (X & _); discriminate).
  - destruct St as (_ & _ & _ & ->). auto.
  - destruct St as (_ & _ & -> & _). left; left; reflexivity.
  - destruct St as (_ & _ & -> & _). left; right; reflexivity.
  - destruct St as ([X|X] & _); discriminate.
Qed.

Lemma device_live i r c o : comes_from S w hh i r c -> hq_method r = "POST"%string ->
  In (HvStart i EDeviceAuthorize r) hh -> In (HvDone i o) hh ->
  (forall j o', nth_error own j = Some i -> In (EvStart j (RDevAuthorize (Some (dev_message r)))) h -> In (EvDone j o') h ->
     exists res, o' = Done (PDevAuthorize res) /\ dv_err res = false) ->
  exists j res, nth_error own j = Some i /\
    answered h j (RDevAuthorize (Some (dev_message r))) (PDevAuthorize res) /\ dv_err res = false /\
    o = Done (HDevice (dv_device_code res) (dv_user_code res) (sv_issuer S ++ "/device") (dv_expires_in res) (dv_interval res)).
Proof.
  intros Hc Hpost Hs Hd Hok. pose proof (rf_faults _ _ _ _ _ R Hf) as Hf'.
  pose proof (rf_explained _ _ _ _ _ R) as X. pose proof (one_start_all S w xs) as U.
  assert (Reg : forall j q y d, past own hh h i d -> In (Served j (RDevAuthorize q) y) d ->
    exists res, y = PDevAuthorize res /\ dv_err res = false /\ nth_error own j = Some i /\
      answered h j (RDevAuthorize (Some (dev_message r))) (PDevAuthorize res)).
  { intros j q y d P Hin. destruct (P _ Hin) as (O & P1 & P2).
    destruct (device_stages _ _ _ _ _ Hc Hs O P1) as [[Q|Q]|Q]; [discriminate|discriminate|]. injection Q as ->.
    destruct (Hok _ _ O P1 P2) as (res & Q & Q1). injection Q as ->. exists res.
    split; auto. split; auto. split; auto. split; auto. }
  assert (Oth : forall j x y d, past own hh h i d -> In (Served j x y) d ->
    match x with RDevAuthorize _ | RAssertion _ | RAttestation _ => True | _ => False end).
  { intros j x y d P Hin. destruct (P _ Hin) as (O & P1 & P2).
    destruct (device_stages _ _ _ _ _ Hc Hs O P1) as [[->| ->]| ->]; exact I. }
  destruct o as [resp|].
  - destruct (ex_done _ _ _ _ X _ _ Hd) as (e0 & r0 & d & A & P & B).
    destruct (U _ _ _ _ _ Hs A) as [-> ->]. destruct (passes _ _ _ _ _ R Hf _ _ _ _ Hc P) as [Hl Hl'].
    destruct resp; cbn [ending] in B; try (destruct B as (B & _); discriminate).
    + exfalso. destruct B as [B|[B|[B|[B|[B|[B|[B|B]]]]]]].
      6: { destruct B as (q & res & (j & Hj) & He & _). destruct (Reg _ _ _ _ P Hj) as (res' & [= <-] & He' & _). congruence. }
      1-6: destruct B as (q & res & (j & Hj) & _); exact (Oth _ _ _ _ P Hj).
      destruct B as [_ B]. inversion B; subst.
      * contradiction.
      * contradiction.
      * match goal with Q : In _ _ |- _ => destruct Q as [Q|[Q|[]]]; discriminate end.
    + exfalso. destruct B as [(B & _)|([B|B] & _)]; discriminate.
    + destruct B as [(B & _)|(B & _)]; discriminate.
    + destruct B as (_ & q & res & (j & Hj) & He & -> & -> & -> & -> & ->).
      destruct (Reg _ _ _ _ P Hj) as (res' & [= <-] & _ & O & T). exists j, res. auto.
  - exfalso. destruct (ex_crash _ _ _ _ X _ Hd) as [(j & O & Hj)|(e & r0 & d & A & P & B)].
    + destruct (trace_history E w ys) as (sy & Ht & _). destruct (done_started _ _ _ _ _ _ Ht Hj) as (x & Hx).
      destruct (device_stages _ _ _ _ _ Hc Hs O Hx) as [Hx'| ->].
      * pose proof (login_served _ _ _ _ _ R Hf _ _ _ _ _ _ _ Hc Hs O Hx' Hx Hj). discriminate.
      * destruct (Hok _ _ O Hx Hj) as (res & Q & _). discriminate.
    + destruct (U _ _ _ _ _ Hs A) as [-> ->]. cbn [ending] in B.
      destruct B as [(id & B)|[B|[B|[B|[B|[B|[B|B]]]]]]].
      1: { pose proof (P _ B) as B'. cbn in B'. apply (saw_client _ _ _ Hf) in B'. destruct (w_clients w id); discriminate. }
      6: { destruct B as (q & res & (j & Hj) & B); destruct (Reg _ _ _ _ P Hj) as (res' & [= <-] & He' & _).
           destruct B; congruence. }
      all: destruct B as (q & res & (j & Hj) & _); exact (Oth _ _ _ _ P Hj).
Qed.

Lemma approval_stages i r j x :
  In (HvStart i EDevice r) hh -> nth_error own j = Some i -> In (EvStart j x) h ->
  x = RDevValidate (Some (mkDevVal (sv_issuer S) (post_value r "user_code") "hello")) /\ user_logged_in r "hello".
Proof.
  intros Hs O Hx. destruct (made_by _ _ _ _ _ R _ _ _ _ _ Hs O Hx) as (d & P & St).
  destruct x; cbn [stage] in St; try (destruct St as (X & _); discriminate).
  - destruct St as (_ & _ & user & [L ->] & ->). split; auto. split; auto.
  - destruct St as (_ & X & _). contradiction.
  - destruct St as (_ & X & _). contradiction.
  - destruct St as ([X|X] & _); discriminate.
Qed.

Lemma approval_live i r o : user_logged_in r "hello" -> hq_method r = "POST"%string ->
  In (HvStart i EDevice r) hh -> In (HvDone i o) hh ->
  (forall j o', nth_error own j = Some i ->
     In (EvStart j (RDevValidate (Some (mkDevVal (sv_issuer S) (post_value r "user_code") "hello")))) h -> In (EvDone j o') h ->
     exists res, o' = Done (PDevValidate res) /\ vr_err res = false) -> o = Done HEmpty.
Proof.
  intros Hu Hpost Hs Hd Hok. pose proof (rf_faults _ _ _ _ _ R Hf) as Hf'.
  pose proof (rf_explained _ _ _ _ _ R) as X. pose proof (one_start_all S w xs) as U.
  assert (Az : forall j x y d, past own hh h i d -> In (Served j x y) d ->
    exists q res, x = RDevValidate q /\ y = PDevValidate res /\ vr_err res = false).
  { intros j x y d P Hin. destruct (P _ Hin) as (O & P1 & P2). destruct (approval_stages _ _ _ _ Hs O P1) as [-> _].
    destruct (Hok _ _ O P1 P2) as (res & Q & Q1). injection Q as ->. eauto. }
  destruct o as [resp|].
  - destruct (ex_done _ _ _ _ X _ _ Hd) as (e0 & r0 & d & A & P & B).
    destruct (U _ _ _ _ _ Hs A) as [-> ->].
    destruct resp; cbn [ending] in B; try (destruct B as (B & _); discriminate).
    + exfalso. destruct B as [B|[B|[B|[B|[B|[B|[B|B]]]]]]].
      1-7: destruct B as (q & res & (j & Hj) & He & _); destruct (Az _ _ _ _ P Hj) as (q' & res' & Q & Q' & He'); congruence.
      destruct B as [_ B]. inversion B; subst; try contradiction.
      match goal with Q : In _ _ |- _ => destruct Q as [Q|[Q|[]]]; discriminate end.
    + exfalso. destruct B as [(B & _)|(_ & B)]; [discriminate|]. exact (B _ Hu).
    + reflexivity.
    + destruct B as (_ & B). congruence.
  - exfalso. destruct (ex_crash _ _ _ _ X _ Hd) as [(j & O & Hj)|(e & r0 & d & A & P & B)].
    + destruct (trace_history E w ys) as (sy & Ht & _). destruct (done_started _ _ _ _ _ _ Ht Hj) as (x & Hx).
      destruct (approval_stages _ _ _ _ Hs O Hx) as [-> _].
      destruct (Hok _ _ O Hx Hj) as (res & Q & _). discriminate.
    + destruct (U _ _ _ _ _ Hs A) as [-> ->]. cbn [ending] in B.
      destruct B as [(id & B)|B].
      1: { pose proof (P _ B) as B'. cbn in B'. apply (saw_client _ _ _ Hf) in B'. destruct (w_clients w id); discriminate. }
      repeat (destruct B as [B|B]);
      destruct B as (q & res & (j & Hj) & B); destruct (Az _ _ _ _ P Hj) as (q' & res' & Q & Q' & He');
        try discriminate Q; injection Q' as <-; destruct B; congruence.
Qed.

(** The codes are apart at the services if they are over HTTP. *)
Lemma codes_apart : web_device_codes_apart E hh -> device_codes_apart E h.
Proof.
  intros Ha d1 i1 u1 s1 a1 d2 i2 u2 s2 a2 H1 H2 Hk.
  destruct (http_call _ _ _ _ _ R d1 (CDevReg i1 u1 s1) a1 eq_refl H1) as (k1 & O1 & C1).
  destruct (http_call _ _ _ _ _ R d2 (CDevReg i2 u2 s2) a2 eq_refl H2) as (k2 & O2 & C2).
  pose proof (Ha _ _ _ _ _ _ _ _ _ _ C1 C2 Hk). subst k2.
  assert (Y : forall d i u s a, In (EvCall d (CDevReg i u s) a) h -> exists q, In (EvStart d (RDevAuthorize q)) h).
  { intros d i u s a Hin. apply in_split in Hin as (l1 & l2 & Hl). destruct (write_reason _ _ _ _ _ _ _ _ Hl) as (x & W1 & W2).
    cbn in W2. destruct W2 as (q & c0 & dc0 & -> & _). exists (Some q). rewrite Hl. apply in_or_app; auto. }
  destruct (Y _ _ _ _ _ H1) as (q1 & Y1). destruct (Y _ _ _ _ _ H2) as (q2 & Y2).
  eapply (ex_once _ _ _ _ (rf_explained _ _ _ _ _ R) d1 _ d2 _ k1 Y1 Y2 O1 O2). reflexivity.
Qed.
End Devices.

(** ** C104 *)

(** A device is given codes. *)
Lemma C104_web_device_starts_proof : forall S w xs i r c c' o,
  let hh := http_history S w xs in
  hno_faults xs -> In (HvStart i EDeviceAuthorize r) hh -> In (HvDone i o) hh ->
  (* the request comes from a client and names one that may use the device flow *)
  hq_method r = "POST"%string -> comes_from S w hh i r c -> form_value r "client_id" <> ""%string ->
  w_clients w (form_value r "client_id") = Some c' ->
  listed (sv_ext S) (cl_grant_types c') "urn:ietf:params:oauth:grant-type:device_code" ->
  sv_issuer S <> ""%string -> web_device_codes_work hh i ->
  exists device_code user_code, device_code <> ""%string /\ user_code <> ""%string /\
    o = Done (HDevice device_code user_code (sv_issuer S ++ "/device") 120 5).
Proof.
  intros S w xs i r c c' o hh Hf Hs Hd Hpost Hc Hne Hr Hl Hiss Hg. subst hh.
  destruct (http_refines S w xs) as (ys & own & R). pose proof (rf_faults _ _ _ _ _ R Hf) as Hf'.
  assert (L : forall j o', nth_error own j = Some i -> In (EvStart j (RDevAuthorize (Some (dev_message S r)))) (history (sv_ext S) w ys) ->
    In (EvDone j o') (history (sv_ext S) w ys) -> exists res, o' = Done (PDevAuthorize res) /\ dv_err res = false /\
      dv_device_code res <> ""%string /\ dv_user_code res <> ""%string /\ dv_expires_in res = 120%N /\ dv_interval res = 5%N).
  { intros j o' O H1 H2. eapply (dev_authorize_live (sv_ext S) w ys j (dev_message S r) c'); eauto.
    intros a Ha. apply (Hg (sv_issuer S)).
    assert (Q : forall c, calm c = false -> In (EvCall j c a) (history (sv_ext S) w ys) -> In (HvCall i c a) (http_history S w xs)).
    { intros c0 Hc0 H. destruct (http_call _ _ _ _ _ R _ _ _ Hc0 H) as (i' & O' & H'). congruence. }
    destruct Ha as [Ha|Ha]; [left|right]; apply Q; auto. }
  destruct (device_live S w xs ys own R Hf i r c o Hc Hpost Hs Hd) as (j & res & O & [T1 T2] & He & ->).
  { intros j o' O H1 H2. destruct (L j o' O H1 H2) as (res & A & B & _). eauto. }
  destruct (L j _ O T1 T2) as (res' & [= <-] & _ & A1 & A2 & -> & ->). eauto.
Qed.

(** The service requests behind an answer with codes. *)
Lemma device_behind S w xs ys own (R : refined S w xs ys own) hh0 hh1 hh2 d r dc uc uri ex iv h0 h1 h2 :
  http_history S w xs = (hh0 ++ hh1 ++ hh2)%list -> history (sv_ext S) w ys = (h0 ++ h1 ++ h2)%list ->
  explained S own hh0 h0 -> explained S own (hh0 ++ hh1) (h0 ++ h1) ->
  In (HvStart d EDeviceAuthorize r) hh1 -> In (HvDone d (Done (HDevice dc uc uri ex iv))) hh1 ->
  exists j res, answered h1 j (RDevAuthorize (Some (dev_message S r))) (PDevAuthorize res) /\ dv_err res = false /\
    dc = dv_device_code res /\ uc = dv_user_code res.
Proof.
  intros Hh Hy X0 X1 Hs Hd.
  destruct (ex_done _ _ _ _ X1 d _ (in_or_app _ _ _ (or_intror Hd))) as (e & r' & p & A & P & B). cbn [ending] in B.
  destruct B as (-> & q & res & (j & Hj) & He & -> & -> & _).
  destruct (P _ Hj) as (O & P1 & P2).
  assert (U : one_start (hh0 ++ hh1)). { eapply one_start_history. rewrite app_assoc in Hh. exact Hh. }
  assert (Hs' : In (HvStart d EDeviceAuthorize r) (hh0 ++ hh1)%list) by (apply in_or_app; auto).
  destruct (U _ _ _ _ _ Hs' A) as [_ ->].
  destruct (ex_start _ _ _ _ X1 _ _ P1) as (i' & e' & r'' & d' & O' & A' & _ & St).
  rewrite O in O'. injection O' as <-. cbn [stage] in St. destruct St as (-> & _ & _ & ->).
  destruct (U _ _ _ _ _ Hs' A') as [_ ->].
  exists j, res. split; [|auto]. eapply settle; eauto.
Qed.

(** A user approves the device; the in-memory store gives sessions no lifetime (C15), so this is said of stores that do. *)
Lemma C104_web_device_approved_partial_proof : forall S w xs hh0 hh1 hh2 d rd device_code user_code uri expires interval i r o,
  let hh := http_history S w xs in
  hno_faults xs ->
  (* the store marks new device sessions as pending, valid for 120 s *)
  w_stamp w = stamping 120 -> sv_issuer S <> ""%string ->
  hh = (hh0 ++ hh1 ++ hh2)%list -> (time_in (hh1 ++ hh2) <= 120 * second)%N ->
  web_device_codes_apart (sv_ext S) hh ->
  (* a device is given codes *)
  In (HvStart d EDeviceAuthorize rd) hh1 ->
  In (HvDone d (Done (HDevice device_code user_code uri expires interval))) hh1 ->
  (* then a user logs in and sends the user code *)
  In (HvStart i EDevice r) hh2 -> In (HvDone i o) hh2 ->
  hq_method r = "POST"%string -> hq_basic r = Some ("hello", "world")%string ->
  post_value r "user_code" = user_code -> user_code <> ""%string ->
  (* nobody else sends it *)
  (forall k r' issuer, In (HvStart k EDevice r') hh ->
     user_key (sv_ext S) issuer (post_value r' "user_code") = user_key (sv_ext S) (sv_issuer S) user_code -> k = i) ->
  o = Done HEmpty.
Proof.
  intros S w xs hh0 hh1 hh2 d rd dc uc uri ex iv i r o hh Hf Hst Hiss Hh Ht Hap Hd1 Hd2 Hi1 Hi2 Hpost Hb Huc Hne Honly. subst hh.
  destruct (http_refines S w xs) as (ys & own & R). pose proof (rf_faults _ _ _ _ _ R Hf) as Hf'.
  destruct (rf_points _ _ _ _ _ R hh0 hh1 hh2 Hh) as (h0 & h1 & h2 & Hy & X0 & X1).
  pose proof (rf_explained _ _ _ _ _ R) as X.
  destruct (device_behind S w xs ys own R hh0 hh1 hh2 d rd dc uc uri ex iv h0 h1 h2 Hh Hy X0 X1 Hd1 Hd2) as (n & res & Hn & He & -> & ->).
  assert (Hs : In (HvStart i EDevice r) (http_history S w xs)) by (rewrite Hh, !in_app_iff; auto).
  eapply (approval_live S w xs ys own R Hf i r o); auto.
  { split; auto. }
  { rewrite Hh, !in_app_iff; auto. }
  intros j o' O H1 H2.
  assert (Hh01 : http_history S w xs = ((hh0 ++ hh1) ++ hh2)%list) by (rewrite Hh; list_eq).
  assert (Hy01 : history (sv_ext S) w ys = ((h0 ++ h1) ++ h2)%list) by (rewrite Hy; list_eq).
  eapply (C85_approval_succeeds_partial_proof (sv_ext S) w ys h0 h1 h2 n (dev_message S rd) res j
            (mkDevVal (sv_issuer S) (post_value r "user_code") "hello") o' Hf' Hst Hy); auto.
  - pose proof (ex_effects _ _ _ _ X0) as F0. pose proof (ex_effects _ _ _ _ X) as F. rewrite Hh, Hy in F.
    rewrite <- (same_time own (hh1 ++ hh2)%list (h1 ++ h2)%list); [exact Ht|]. exact (same_rest _ _ _ _ _ F0 F).
  - eapply codes_apart; eauto.
  - rewrite Hy01 in H1. eapply made_later; eauto.
  - eapply done_later; eauto.
  - cbn [vv_user_code]. rewrite Huc. exact Hne.
  - discriminate.
  - intros k' q' issuer Hk Hkey. destruct (made_for _ _ _ _ _ R _ _ Hk) as (i' & e' & r' & p & O' & A' & _ & St).
    cbn [stage] in St. destruct St as (-> & _ & user & _ & [= ->]). cbn [vv_user_code] in Hkey.
    assert (i' = i) as -> by (eapply Honly; eauto).
    eapply (ex_once _ _ _ _ X k' _ j _ i Hk H1 O' O). reflexivity.
Qed.

(** The device polls after the approval. *)
Lemma C104_web_device_tokens_partial_proof : forall S w xs hh0 hh1 hh2 d rd device_code user_code uri expires interval k rk i r c cnf o,
  let hh := http_history S w xs in
  registry_ok w -> blank w -> hno_faults xs ->
  (* the store marks new device sessions as pending, valid for 120 s *)
  w_stamp w = stamping 120 -> x_request_uri (sv_ext S) (sv_issuer S) = true ->
  hh = (hh0 ++ hh1 ++ hh2)%list -> (time_in (hh1 ++ hh2) <= 120 * second)%N ->
  web_device_codes_apart (sv_ext S) hh ->
  (* a device is given codes, a user approves *)
  In (HvStart d EDeviceAuthorize rd) hh1 ->
  In (HvDone d (Done (HDevice device_code user_code uri expires interval))) hh1 ->
  In (HvStart k EDevice rk) hh1 -> In (HvDone k (Done HEmpty)) hh1 -> post_value rk "user_code" = user_code ->
  (* then the device polls for the client it named *)
  In (HvStart i EToken r) hh2 -> In (HvDone i o) hh2 ->
  comes_from S w hh i r c -> holds S w hh i r c cnf ->
  form_value r "grant_type" = "urn:ietf:params:oauth:grant-type:device_code"%string ->
  form_value r "device_code" = device_code -> device_code <> ""%string -> cl_id c = form_value rd "client_id" ->
  listed (sv_ext S) (cl_grant_types c) "urn:ietf:params:oauth:grant-type:device_code" ->
  web_generators_work hh i ->
  exists access expires' refresh scope, o = Done (HToken access expires' (type_sent cnf) refresh scope).
Proof.
  intros S w xs hh0 hh1 hh2 d rd dc uc uri ex iv k rk i r c cnf o hh Hreg Hbl Hf Hst Hur Hh Ht Hap Hd1 Hd2 Hk1 Hk2 Huc
    Hi1 Hi2 Hc Hho Hgt Hdc Hne Hid Hl Hg. subst hh.
  destruct (http_refines S w xs) as (ys & own & R). pose proof (rf_faults _ _ _ _ _ R Hf) as Hf'.
  destruct (rf_points _ _ _ _ _ R hh0 hh1 hh2 Hh) as (h0 & h1 & h2 & Hy & X0 & X1).
  pose proof (rf_explained _ _ _ _ _ R) as X.
  destruct (device_behind S w xs ys own R hh0 hh1 hh2 d rd dc uc uri ex iv h0 h1 h2 Hh Hy X0 X1 Hd1 Hd2) as (n & res & Hn & He & Edc & Euc).
  assert (Hh01 : http_history S w xs = ((hh0 ++ hh1) ++ hh2)%list) by (rewrite Hh; list_eq).
  assert (Hy01 : history (sv_ext S) w ys = ((h0 ++ h1) ++ h2)%list) by (rewrite Hy; list_eq).
  (* the approval *)
  assert (exists kk vres, answered h1 kk (RDevValidate (Some (mkDevVal (sv_issuer S) uc "hello"))) (PDevValidate vres) /\ vr_err vres = false)
    as (kk & vres & Hv & Hve).
  { destruct (ex_done _ _ _ _ X1 k _ (in_or_app _ _ _ (or_intror Hk2))) as (e & r' & p & A & P & B).
    pose proof (one_start_history _ _ _ _ _ Hh01) as U.
    assert (Hk1' : In (HvStart k EDevice rk) (hh0 ++ hh1)%list) by (apply in_or_app; auto).
    destruct (U _ _ _ _ _ Hk1' A) as [-> ->]. cbn [ending] in B.
    destruct B as [(B & _)|(_ & q & vres & (j & Hj) & Hve)]; [discriminate|].
    destruct (P _ Hj) as (O & P1 & P2).
    assert (P1' : In (EvStart j (RDevValidate q)) (history (sv_ext S) w ys)) by (rewrite Hy01; apply in_or_app; auto).
    destruct (approval_stages S w xs ys own R k rk j (RDevValidate q)) as [Q _]; auto.
    { rewrite Hh01; apply in_or_app; auto. }
    injection Q as ->. rewrite Huc in *. exists j, vres. split; auto. eapply settle; eauto. }
  assert (Hs : In (HvStart i EToken r) (http_history S w xs)) by (rewrite Hh, !in_app_iff; auto).
  assert (Hd : In (HvDone i o) (http_history S w xs)) by (rewrite Hh, !in_app_iff; auto).
  destruct (token_live S w xs ys own R Hf i r c cnf o Hc Hho Hs Hd) as (j & tres & at_ & m & t & _ & _ & _ & _ & _ & ->); [|eauto 6].
  intros j o' O H1 H2.
  eapply (C15_approved_device_gets_tokens_partial_proof (sv_ext S) w ys h0 h1 h2 n (dev_message S rd) res kk
    (mkDevVal (sv_issuer S) uc "hello") vres j (token_message (sv_issuer S) r c cnf) c dc o' Hbl Hf' Hst Hy); auto.
  - pose proof (ex_effects _ _ _ _ X0) as F0. pose proof (ex_effects _ _ _ _ X) as F. rewrite Hh, Hy in F.
    rewrite <- (same_time own (hh1 ++ hh2)%list (h1 ++ h2)%list); [exact Ht|]. exact (same_rest _ _ _ _ _ F0 F).
  - eapply codes_apart; eauto.
  - rewrite Hy01 in H1. eapply made_later; eauto.
  - eapply done_later; eauto.
  - unfold token_message. cbn [tq_grant]. rewrite Hgt, Hdc. reflexivity.
  - exists c. split; [reflexivity|]. eapply comes_registered; eauto.
  - eapply same_generators; eauto.
Qed.

(** Together. *)
Lemma C104_web_device_flow_partial_proof : forall S w xs hh0 hh1 hh2 hh3 d rd cd cd' od k rk ok i r c cnf o,
  let hh := http_history S w xs in
  registry_ok w -> blank w -> hno_faults xs ->
  (* the store marks new device sessions as pending, valid for 120 s *)
  w_stamp w = stamping 120 -> sv_issuer S <> ""%string -> x_request_uri (sv_ext S) (sv_issuer S) = true ->
  hh = (hh0 ++ hh1 ++ hh2 ++ hh3)%list -> (time_in (hh1 ++ hh2 ++ hh3) <= 120 * second)%N ->
  web_device_codes_apart (sv_ext S) hh ->
  (* a device asks for codes, for a client that may use the device flow *)
  In (HvStart d EDeviceAuthorize rd) hh1 -> In (HvDone d od) hh1 -> hq_method rd = "POST"%string ->
  comes_from S w hh d rd cd -> form_value rd "client_id" <> ""%string -> w_clients w (form_value rd "client_id") = Some cd' ->
  listed (sv_ext S) (cl_grant_types cd') "urn:ietf:params:oauth:grant-type:device_code" -> web_device_codes_work hh d ->
  exists device_code user_code, device_code <> ""%string /\ user_code <> ""%string /\
    od = Done (HDevice device_code user_code (sv_issuer S ++ "/device") 120 5) /\
    ((* then a user logs in and sends the user code, and nobody else does *)
     In (HvStart k EDevice rk) hh2 -> In (HvDone k ok) hh2 -> hq_method rk = "POST"%string ->
     hq_basic rk = Some ("hello", "world")%string -> post_value rk "user_code" = user_code ->
     (forall k' r' issuer, In (HvStart k' EDevice r') hh ->
        user_key (sv_ext S) issuer (post_value r' "user_code") = user_key (sv_ext S) (sv_issuer S) user_code -> k' = k) ->
     ok = Done HEmpty /\
     ((* then the device polls *)
      In (HvStart i EToken r) hh3 -> In (HvDone i o) hh3 -> comes_from S w hh i r c -> holds S w hh i r c cnf ->
      form_value r "grant_type" = "urn:ietf:params:oauth:grant-type:device_code"%string ->
      form_value r "device_code" = device_code -> cl_id c = form_value rd "client_id" -> web_generators_work hh i ->
      exists access expires refresh scope, o = Done (HToken access expires (type_sent cnf) refresh scope))).
Proof.
  intros S w xs hh0 hh1 hh2 hh3 d rd cd cd' od k rk ok i r c cnf o hh Hreg Hbl Hf Hst Hiss Hur Hh Ht Hap Hd1 Hd2 Hdp Hdc Hdn Hdr Hdl Hdg.
  assert (Hs : In (HvStart d EDeviceAuthorize rd) hh) by (rewrite Hh, !in_app_iff; auto).
  assert (Hd : In (HvDone d od) hh) by (rewrite Hh, !in_app_iff; auto).
  destruct (C104_web_device_starts_proof S w xs d rd cd cd' od Hf Hs Hd Hdp Hdc Hdn Hdr Hdl Hiss Hdg) as (dc & uc & N1 & N2 & ->).
  exists dc, uc. split; auto. split; auto. split; auto. intros Hk1 Hk2 Hkp Hkb Hku Hko.
  assert (ok = Done HEmpty) as ->.
  { eapply (C104_web_device_approved_partial_proof S w xs hh0 hh1 (hh2 ++ hh3)%list d rd dc uc); eauto; apply in_or_app; auto. }
  split; auto. intros Hi1 Hi2 Hc Hho Hgt Hdv Hid Hg.
  assert (cd' = c) as ->. { apply (comes_registered _ _ _ _ _ _ Hreg) in Hc. rewrite Hid in Hc. congruence. }
  eapply (C104_web_device_tokens_partial_proof S w xs hh0 (hh1 ++ hh2)%list hh3 d rd dc uc _ _ _ k rk i r c cnf o); eauto; try (apply in_or_app; auto; fail).
  - fold hh. rewrite Hh. list_eq.
  - rewrite <- app_assoc. exact Ht.
  - apply in_or_app; left; exact Hd2.
Qed.

(** With the in-memory store it never works. *)
Lemma C104_web_device_flow_refuted_proof : forall S w xs,
  let hh := http_history S w xs in
  blank w -> (forall t s, w_stamp w t s = s) ->
  (forall i r, ~ responded hh i EDevice r HEmpty) /\
  (forall i r access expires type refresh scope, responded hh i EToken r (HToken access expires type refresh scope) ->
     form_value r "grant_type" <> "urn:ietf:params:oauth:grant-type:device_code"%string).
Proof.
  intros S w xs hh Hbl Hst. subst hh. destruct (http_refines S w xs) as (ys & own & R).
  pose proof (rf_explained _ _ _ _ _ R) as X. pose proof (one_start_all S w xs) as U.
  destruct (C15_in_memory_never_refuted_proof (sv_ext S) w ys Hbl Hst) as [N1 N2]. split.
  - intros i r [Hs Hd]. destruct (ex_done _ _ _ _ X _ _ Hd) as (e0 & r0 & d & A & P & B).
    destruct (U _ _ _ _ _ Hs A) as [-> ->]. cbn [ending] in B.
    destruct B as [(B & _)|(_ & q & res & (j & Hj) & He)]; [discriminate|].
    destruct (P _ Hj) as (O & P1 & P2). destruct (approval_stages S w xs ys own R i r j _ Hs O P1) as [[= ->] _].
    pose proof (N1 _ _ _ (conj P1 P2)). congruence.
  - intros i r access expires type refresh scope G Hgt.
    destruct (token_served _ _ _ _ _ _ _ _ _ _ _ X U G) as (j & c & cnf & res & at_ & m & t & d & O & T & _).
    apply (N2 _ _ _ T). unfold token_message. cbn [tq_grant_type]. exact Hgt.
Qed.
