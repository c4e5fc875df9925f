(** * The token store under concurrency: the theorems

    Written by tools/gen_props.py: the statements are those of the lemmas proved in
    PfSteps, PfSteps2, PfSteps3, PfSteps4.
    Below each theorem, a concrete case that meets its hypotheses. *)

From Verif Require Import MeetSteps.

(** ** C105 The in-memory token store is safe for concurrent use *)

Theorem C105_linearizable_partial : forall E w xs,
  let h := shistory E xs in
  no_tokens w -> creations_apart E h -> ids_learnt h -> no_deletions h -> as_if_atomic E w h.
Proof. exact C105_linearizable_partial_proof. Qed.
Print Assumptions C105_linearizable_partial.
Example C105_linearizable_partial_met : exists w, let h := shistory demo_ext x_steps in
  no_tokens w /\ creations_apart demo_ext h /\ ids_learnt h /\ no_deletions h /\
  In (SvReturn 2 (SGetByValue iss "at-1") SrMissing) h /\
  In (SvReturn 2 (SGetByValue iss "at-1") (SrToken (hashed demo_ext iss tok1))) h /\
  In (SvReturn 0 (SGetByValue iss "at-1") (SrToken (set_status (hashed demo_ext iss tok1) TsRevoked))) h.
Proof.
  exists w0. split; [apply blank_w0|]. split; [apply creations_demo; vm_compute; reflexivity|].
  split; [apply learnt_demo; vm_compute; reflexivity|]. split; [apply deletions_demo; vm_compute; reflexivity|].
  vm_compute. intuition.
Qed.

Theorem C105_found_by_id_refuted : forall E w issuer t, no_tokens w ->
  let xs := [Enter 0 (SCreate issuer t); Advance 0; Enter 1 (SGet issuer (t_id t)); Advance 1; Advance 1; Advance 1;
             Enter 1 (SGetByValue issuer (t_value t)); Advance 1; Advance 1] in
  shistory E xs = [SvCall 0 (SCreate issuer t); SvCall 1 (SGet issuer (t_id t));
                   SvReturn 1 (SGet issuer (t_id t)) (SrToken (hashed E issuer t));
                   SvCall 1 (SGetByValue issuer (t_value t)); SvReturn 1 (SGetByValue issuer (t_value t)) SrMissing] /\
  ~ as_if_atomic E w (shistory E xs).
Proof. exact C105_found_by_id_refuted_proof. Qed.
Print Assumptions C105_found_by_id_refuted.
Example C105_found_by_id_refuted_met : no_tokens w0.
Proof. apply blank_w0. Qed.

Theorem C105_deleted_returns_refuted : forall E w issuer t, no_tokens w ->
  let id := t_id t in
  let xs := [Enter 0 (SCreate issuer t); Advance 0; Advance 0; Advance 0;
             Enter 1 (SRevoke issuer id); Advance 1;
             Enter 2 (SDelete issuer id); Advance 2; Advance 2; Advance 2; Advance 2;
             Advance 1; Advance 1; Advance 1; Advance 1;
             Enter 2 (SGet issuer id); Advance 2; Advance 2; Advance 2] in
  shistory E xs = [SvCall 0 (SCreate issuer t); SvReturn 0 (SCreate issuer t) SrOk;
                   SvCall 1 (SRevoke issuer id); SvCall 2 (SDelete issuer id); SvReturn 2 (SDelete issuer id) SrOk;
                   SvReturn 1 (SRevoke issuer id) SrOk;
                   SvCall 2 (SGet issuer id); SvReturn 2 (SGet issuer id) (SrToken (set_status (hashed E issuer t) TsRevoked))] /\
  ~ as_if_atomic E w (shistory E xs).
Proof. exact C105_deleted_returns_refuted_proof. Qed.
Print Assumptions C105_deleted_returns_refuted.
Example C105_deleted_returns_refuted_met : no_tokens w0.
Proof. apply blank_w0. Qed.

Theorem C105_revoked_stays : forall E xs h1 th i id h2 th' c t h3,
  let h := shistory E xs in
  creations_apart E h ->
  h = (h1 ++ SvReturn th (SRevoke i id) SrOk :: h2 ++ SvReturn th' c (SrToken t) :: h3)%list ->
  (exists c', In (SvCall th' c') h2) -> t_id t = id -> t_status t = TsRevoked.
Proof. exact C105_revoked_stays_proof. Qed.
Print Assumptions C105_revoked_stays.
Example C105_revoked_stays_met : exists h1 h2 t, let h := shistory demo_ext x_deleted in
  creations_apart demo_ext h /\
  h = (h1 ++ SvReturn 1 (SRevoke iss "id-1") SrOk :: h2 ++ SvReturn 2 (SGetByValue iss "at-1") (SrToken t) :: [])%list /\
  (exists c, In (SvCall 2 c) h2) /\ t_id t = "id-1"%string.
Proof.
  exists (firstn 5 (shistory demo_ext x_deleted)), (firstn 1 (skipn 6 (shistory demo_ext x_deleted))). eexists.
  split; [apply creations_demo; vm_compute; reflexivity|]. split; [vm_compute; reflexivity|].
  split; [eexists; vm_compute; left; reflexivity|vm_compute; reflexivity].
Qed.

Theorem C105_one_at_a_time : forall E w xs,
  let h := shistory E xs in no_tokens w -> one_at_a_time h -> as_if_atomic E w h.
Proof. exact C105_one_at_a_time_proof. Qed.
Print Assumptions C105_one_at_a_time.
Example C105_one_at_a_time_met : let h := shistory demo_ext x_alone in
  no_tokens w0 /\ one_at_a_time h /\
  In (SvReturn 1 (SGetByValue iss "at-1") (SrToken (hashed demo_ext iss tok1))) h /\
  In (SvReturn 2 (SDelete iss "id-1") SrOk) h /\ In (SvReturn 1 (SGetByValue iss "at-1") SrMissing) h /\
  In (SvReturn 2 (SDelete iss "id-1") SrMissing) h /\
  In (SvReturn 0 (SGet iss "id-1") (SrToken (set_status (hashed demo_ext iss tok1) TsRevoked))) h.
Proof.
  split; [apply blank_w0|]. split; [apply alone_demo; vm_compute; repeat split; eexists; reflexivity|]. vm_compute. tauto.
Qed.
