(** * Cases that meet the hypotheses: the client registry *)

From Verif Require Export PfRegistry.

(** A caller fills two records and registers each. *)
Definition newcomer (n : string) : client := mkClient "" CtConfidential ["https://app"]%string [] [] [] n "jwks" "" "" false.
Definition two_registrations : list reg_event :=
  [Fill 6 (newcomer "one"); Enrol (Some 6) "aaaaaaaaaaaaaaaa"; Fill 7 (newcomer "two"); Enrol None "cccccccccccccccc";
   Enrol (Some 7) "bbbbbbbbbbbbbbbb"]%string.

Lemma two_alone : leave_alone clients two_registrations.
Proof.
  intros before e later a He Ha [id Hid].
  do 5 (destruct before as [|? before]; [injection He as <- _; (discriminate Ha || injection Ha as <-); cbn in Hid; unfold upd in Hid;
    repeat match type of Hid with context[String.eqb id ?x] => destruct (String.eqb id x); [discriminate Hid|] end; discriminate Hid
    |injection He as <- He]).
  destruct before; discriminate He.
Qed.
Lemma other_never : never_drawn "public-client"%string two_registrations.
Proof. intros p H. cbn in H. repeat destruct H as [H|H]; try discriminate. destruct H. Qed.
Definition names_some : registry := mkRegistry builtin (fun id => if String.eqb id "public-client" then Some 3 else None)%string.
Lemma some_distinct fold : distinct_names fold names_some.
Proof.
  intros i j c d. unfold reg_get. cbn. destruct (String.eqb_spec i "public-client") as [->|]; [|discriminate].
  destruct (String.eqb_spec j "public-client") as [->|]; [|discriminate]. reflexivity.
Qed.
Lemma some_order : an_order names_some ["public-client"]%string.
Proof.
  split; [repeat constructor; intros []|]. intros id. unfold reg_get. cbn. split.
  - intros [<-|[]]. discriminate.
  - destruct (String.eqb_spec id "public-client") as [->|]; [left; reflexivity|congruence].
Qed.
