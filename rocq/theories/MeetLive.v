(** * Tactics for the examples of [PropsLive] *)

From Verif Require Export Meet PfLive2 PfGate.

Ltac scan H := vm_compute in H; repeat (destruct H as [H|H]; [try discriminate H; inversion H; subst; clear H|]); [..|destruct H].

(** Nobody else does that: look at all events. *)
Ltac alone := unfold asked;
  repeat match goal with |- forall _, _ => let x := fresh "x" in intros x end;
  match goal with H : In _ _ |- _ => scan H end;
  repeat match goal with
  | H : presents_code _ _ _ |- _ => destruct H as (_ & ? & ? & ?)
  | H : uses_up _ _ _ |- _ => vm_compute in H
  | H : exists _, _ |- _ => destruct H
  | H : _ /\ _ |- _ => destruct H
  end;
  try reflexivity; try discriminate; try contradiction; auto.

Ltac meet_live := repeat match goal with |- _ /\ _ => split end;
  lazymatch goal with
  | |- effective _ _ _ _ => eexists; split; [reflexivity|left; split; reflexivity]
  | |- asks _ _ _ => apply has_iff; vmr
  | |- listed _ _ _ => apply has_iff; vmr
  | |- by_client _ _ => eexists; split; reflexivity
  | |- client_of _ _ _ => eexists; split; reflexivity
  | |- (_ <= _)%nat => apply Nat.leb_le; vmr
  | |- codes_work _ _ => let H := fresh in intros ? ? [H|H]; scan H; eexists; reflexivity
  | |- well_formed _ _ => unfold well_formed; meet_live
  | |- permitted _ _ _ => unfold permitted; meet_live
  | |- cl_type _ = _ \/ _ => left; reflexivity
  | |- ar_response_type _ = _ \/ _ => left; reflexivity
  | |- forall m, _ = Some m -> listed _ _ m => let H := fresh in intros ? H; vm_compute in H; injection H as <-; apply has_iff; vmr
  | |- forall m, _ = Some m -> In m _ => let H := fresh in intros ? H; vm_compute in H; injection H as <-; cbn; tauto
  | |- forall _, _ => alone
  | |- _ => meet1
  end.

(** The refresh token of [x_code]. *)
Definition rt_demo : token :=
  mkToken "" TtRefresh "id-2" (Some (mkMeta iss "alice" 1000 1001 605800 "app" all_scope "https://api.example")) TsActive "rt-1" (Some "jkt"%string).

(** A user code that is handed out and approved a second time. *)
Definition x_reapprove : list sched :=
  (full 0 devreq [ok; say "device-1"; say "user-1"; ok] ++ full 1 (approval_by "alice") [ok; ok; ok; ok] ++
   full 2 devreq [ok; say "device-2"; say "user-1"; ok] ++ full 3 (approval_by "bob") [ok; ok; ok; ok])%list.
