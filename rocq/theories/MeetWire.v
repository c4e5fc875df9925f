(** * Concrete messages for the examples *)

From Verif Require Export Wire Schemas SpecWire PfWire.
From Verif Require Import WireFacts5 WireFacts6 WireFacts7.
Local Open Scope Z_scope.
Local Open Scope list_scope.

Lemma built_empty name : In name message_types -> built name (empty name).
Proof.
  intros H. apply vt_known in H as [s H]. apply zero_message; [reflexivity|]. unfold known. rewrite H. reflexivity.
Qed.
Lemma built_set name m s k sl v : built name m -> vt_env name = Some s -> nth_error s k = Some sl ->
  member_of vt_env (fun _ u => u = []) sl v -> built name (set_field m k v).
Proof.
  intros H He Hk Hv. inversion H as [name' s' fs u He' Hfs Hu]; subst. rewrite He in He'. injection He' as <-.
  unfold set_field. cbn [msg_fields msg_unknown]. econstructor; [exact He| |reflexivity]. eapply members_set; eassumption.
Qed.
Ltac build := first
  [ apply built_empty; vm_compute; tauto
  | eapply built_set; [build|reflexivity|reflexivity|] ].

(** A client with a negative enumeration value and flags, its metadata with two translations, and a
    token request that carries the client and an authorization code. *)
Definition text (l : list N) : bytes := map b8 l.
Definition a_client : msg :=
  set_field (set_field (set_field (empty "client.Client") 0 (FStr (text [97; 98; 255]%N))) 1 (FNum (-1))) 27 (FNum 1).
Definition a_grant : msg := set_field (empty "flow.GrantAuthorizationCode") 0 (FStr (text [99]%N)).
Definition a_request : msg :=
  set_field (set_field (set_field (set_field (empty "flow.TokenRequest")
    1 (FMsg (Some a_client))) 3 (FOptStr (Some []))) 5 (FRepStr [text [120%N]; []; text [121%N]])) 7 (FOneof (Some (10, Some a_grant))).
Definition a_meta : msg := named [en; fr].
Definition an_actor : msg :=
  set_field (empty "token.Actor") 1 (FMsg (Some (set_field (empty "token.Actor") 0 (FStr (text [98]%N))))).

Lemma a_client_built : built "client.Client" a_client.
Proof.
  unfold a_client. eapply built_set; [eapply built_set; [eapply built_set; [build|reflexivity|reflexivity|]|reflexivity|reflexivity|]|reflexivity|reflexivity|].
  - constructor. reflexivity.
  - econstructor; [reflexivity|]. cbn. lia.
  - econstructor; [reflexivity|]. cbn. lia.
Qed.
Lemma a_grant_built : built "flow.GrantAuthorizationCode" a_grant.
Proof. unfold a_grant. eapply built_set; [build|reflexivity|reflexivity|]. constructor. reflexivity. Qed.
Lemma a_request_built : built "flow.TokenRequest" a_request.
Proof.
  unfold a_request.
  eapply built_set; [eapply built_set; [eapply built_set; [eapply built_set; [build|reflexivity|reflexivity|]|reflexivity|reflexivity|]|reflexivity|reflexivity|]|reflexivity|reflexivity|].
  - eapply m_msg; [reflexivity|exact a_client_built].
  - constructor. reflexivity.
  - constructor. reflexivity.
  - eapply (m_oneof _ _ _ (mkField "AuthorizationCode" (TMsg "flow.GrantAuthorizationCode") [82%N] 1%N 10 2%N)).
    + left. reflexivity.
    + reflexivity.
    + exact a_grant_built.
Qed.
Lemma a_meta_built : built "client.ClientMeta" a_meta.
Proof.
  unfold a_meta, named. eapply built_set; [build|reflexivity|reflexivity|]. constructor; [reflexivity|].
  vm_compute. constructor; [intros [H|[]]; discriminate H|]. constructor; [intros []|constructor].
Qed.
