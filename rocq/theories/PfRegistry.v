(** * Proofs: the client registry *)

From Verif Require Export SpecRegistry.

Lemma after_app st es es' : reg_after st (es ++ es') = reg_after (reg_after st es) es'.
Proof. apply fold_left_app. Qed.
Lemma leave_cons st e es : leave_alone st (e :: es) -> (forall a, touched e = Some a -> ~ held st a) /\ leave_alone (reg_step st e) es.
Proof.
  intros H. split.
  - intros a Ha. exact (H [] e es a eq_refl Ha).
  - intros before e' later a -> Ha. exact (H (e :: before) e' later a eq_refl Ha).
Qed.

Lemma step_kept st e id c :
  (forall a, touched e = Some a -> ~ held st a) -> (forall p, e <> Enrol p id) ->
  reg_get st id = Some c -> reg_get (reg_step st e) id = Some c.
Proof.
  intros Ha Hn. unfold reg_get. destruct (rg_backend st id) as [b|] eqn:Hb; [|discriminate]. intros [= <-].
  assert (Hw : forall a d, touched e = Some a -> write_at (rg_heap st) a d b = rg_heap st b).
  { intros a d Ht. unfold write_at. destruct (Nat.eqb_spec b a) as [->|]; [|reflexivity].
    exfalso. apply (Ha a Ht). exists id. exact Hb. }
  destruct e as [a d|[a|] id']; cbn -[write_at] in *.
  - rewrite Hb, Hw; reflexivity.
  - unfold upd. destruct (String.eqb_spec id id') as [->|]; [exfalso; exact (Hn _ eq_refl)|]. rewrite Hb, Hw; reflexivity.
  - rewrite Hb. reflexivity.
Qed.

Lemma C113_kept_proof : forall st es id c,
  leave_alone st es -> never_drawn id es ->
  reg_get st id = Some c -> reg_get (reg_after st es) id = Some c.
Proof.
  intros st es. revert st. induction es as [|e es IH]; intros st id c Hl Hn Hg; [exact Hg|].
  apply leave_cons in Hl as [Ha Hl]. apply (IH _ _ _ Hl).
  - intros p Hp. apply (Hn p). right. exact Hp.
  - apply step_kept; [exact Ha| |exact Hg]. intros p ->. apply (Hn p). left. reflexivity.
Qed.

Lemma C113_registered_proof : forall st a id st' id',
  reg_register st (Some a) id = Done (st', id') ->
  id' = id /\ exists c, reg_get st' id' = Some c /\ cl_id c = id' /\ same_registration c (rg_heap st a).
Proof.
  intros st a id st' id'. cbn. intros [= <- <-]. split; [reflexivity|]. eexists. unfold reg_get. cbn. unfold upd, write_at.
  rewrite String.eqb_refl, Nat.eqb_refl. split; [reflexivity|]. repeat split.
Qed.

Lemma C113_only_registered_proof : forall st es id c,
  reg_get (reg_after st es) id = Some c -> reg_get st id <> None \/ exists a, In (Enrol (Some a) id) es.
Proof.
  intros st es. revert st. induction es as [|e es IH]; intros st id c; cbn.
  - intros H. left. congruence.
  - intros H. destruct (IH _ _ _ H) as [Hs|[a Ha]]; [|right; exists a; right; exact Ha].
    destruct e as [a d|[a|] id']; cbn in Hs; unfold reg_get in *; cbn in Hs.
    + left. destruct (rg_backend st id); [discriminate|exact Hs].
    + unfold upd in Hs. destruct (String.eqb_spec id id') as [->|]; [right; exists a; left; reflexivity|].
      left. destruct (rg_backend st id); [discriminate|exact Hs].
    + left. exact Hs.
Qed.

Lemma C113_own_identifiers_proof : forall st es,
  own_identifiers st -> leave_alone st es -> own_identifiers (reg_after st es).
Proof.
  intros st es. revert st. induction es as [|e es IH]; intros st Ho Hl; [exact Ho|].
  apply leave_cons in Hl as [Ha Hl]. apply IH; [|exact Hl]. intros id c Hg.
  assert (Hk : (forall p, e <> Enrol p id) -> cl_id c = id).
  { intros Hn. apply Ho. destruct (reg_get st id) as [d|] eqn:Hd.
    - rewrite (step_kept st e id d Ha Hn Hd) in Hg. exact Hg.
    - destruct (C113_only_registered_proof st [e] id c Hg) as [H|[a [H|[]]]]; [congruence|]. exfalso. exact (Hn _ H). }
  destruct e as [a d|[a|] id']; [apply Hk; discriminate| |exact (Ho _ _ Hg)].
  destruct (String.eqb_spec id id') as [->|Hne]; [|apply Hk; congruence].
  unfold reg_get in Hg. cbn in Hg. unfold upd, write_at in Hg. rewrite String.eqb_refl, Nat.eqb_refl in Hg.
  injection Hg as <-. reflexivity.
Qed.

Lemma clients_own : own_identifiers clients.
Proof.
  intros id c. unfold reg_get. cbn.
  repeat match goal with |- context[String.eqb id ?x] => destruct (String.eqb_spec id x) as [->|_] end;
    intros H; inversion H; reflexivity.
Qed.

Lemma C113_servers_registry_proof : forall w es,
  leave_alone clients es -> w_clients w = reg_get (reg_after clients es) -> registry_ok w.
Proof.
  intros w es Hl Hw id c. rewrite Hw. apply C113_own_identifiers_proof; [exact clients_own|exact Hl].
Qed.

Lemma fold_spec fold a b : equal_fold fold a b = true <-> same_name fold a b.
Proof.
  unfold equal_fold, same_name. generalize (map fold (runes a)) (map fold (runes b)). clear.
  induction l as [|x l IH]; intros [|y m]; cbn; try (split; congruence).
  rewrite Bool.andb_true_iff, N.eqb_eq, IH. split; [intros [-> ->]; reflexivity|intros [= -> ->]; split; reflexivity].
Qed.

Lemma by_name_some fold st order name c :
  reg_by_name fold st order name = Some c -> exists id, In id order /\ reg_get st id = Some c /\ same_name fold (cl_name c) name.
Proof.
  induction order as [|id order IH]; cbn; [discriminate|].
  destruct (rg_backend st id) as [a|] eqn:Hb.
  - destruct (equal_fold fold _ name) eqn:Hf.
    + intros [= <-]. exists id. split; [left; reflexivity|]. split; [|apply fold_spec; exact Hf]. unfold reg_get. rewrite Hb. reflexivity.
    + intros H. destruct (IH H) as [i [Hi Hr]]. exists i. split; [right; exact Hi|exact Hr].
  - intros H. destruct (IH H) as [i [Hi Hr]]. exists i. split; [right; exact Hi|exact Hr].
Qed.
Lemma by_name_none fold st order name id c :
  reg_by_name fold st order name = None -> In id order -> reg_get st id = Some c -> ~ same_name fold (cl_name c) name.
Proof.
  unfold reg_get. induction order as [|i order IH]; cbn; [intros _ []|]. intros H [->|Hi] Hg.
  - destruct (rg_backend st id); [|discriminate]. injection Hg as <-. rewrite <- fold_spec.
    destruct (equal_fold _ _ _); [discriminate H|discriminate].
  - apply IH; try assumption. destruct (rg_backend st i); [|exact H]. destruct (equal_fold _ _ _); [discriminate H|exact H].
Qed.

Lemma C113_by_name_proof : forall fold st order name,
  an_order st order ->
  match reg_by_name fold st order name with
  | Some c => exists id, reg_get st id = Some c /\ same_name fold (cl_name c) name
  | None => forall id c, reg_get st id = Some c -> ~ same_name fold (cl_name c) name
  end.
Proof.
  intros fold st order name [_ Ho]. destruct (reg_by_name _ _ _ _) as [c|] eqn:H.
  - destruct (by_name_some _ _ _ _ _ H) as [id [_ Hr]]. exists id. exact Hr.
  - intros id c Hg. apply (by_name_none _ _ _ _ id _ H); [apply Ho; congruence|exact Hg].
Qed.

Lemma C113_one_name_proof : forall fold st order order' name,
  an_order st order -> an_order st order' -> distinct_names fold st ->
  reg_by_name fold st order name = reg_by_name fold st order' name.
Proof.
  intros fold st order order' name H H' Hd. apply (C113_by_name_proof fold st _ name) in H, H'.
  destruct (reg_by_name fold st order name) as [c|], (reg_by_name fold st order' name) as [d|].
  - destruct H as [i [Hi Hn]], H' as [j [Hj Hm]].
    assert (i = j) as -> by (apply (Hd i j c d Hi Hj); unfold same_name in *; congruence). congruence.
  - destruct H as [i [Hi Hn]]. exfalso. exact (H' _ _ Hi Hn).
  - destruct H' as [i [Hi Hn]]. exfalso. exact (H _ _ Hi Hn).
  - reflexivity.
Qed.

Definition names_front : list string :=
  ["public-client"; "attestation-client"; "t8p9duw4n2klximkv3kagaud796ul67g"; "5stz52n91hr7aw9q1h5hbuvkt2ovevdw";
   "6779ef20e75817b79602"; "urn:solid:attestation-server"]%string.
Definition names_back : list string :=
  ["attestation-client"; "public-client"; "t8p9duw4n2klximkv3kagaud796ul67g"; "5stz52n91hr7aw9q1h5hbuvkt2ovevdw";
   "6779ef20e75817b79602"; "urn:solid:attestation-server"]%string.
Lemma order_ok l : (l = names_front \/ l = names_back) -> an_order clients l.
Proof.
  intros Hl. split.
  - destruct Hl as [->| ->]; repeat constructor; cbn; intuition discriminate.
  - intros id. unfold reg_get. cbn.
    assert (Hin : In id l <-> In id names_front).
    { destruct Hl as [->| ->]; [reflexivity|]. cbn. tauto. }
    rewrite Hin. clear. split.
    + intros H. repeat (destruct H as [<-|H]; [cbn; discriminate|]). destruct H.
    + repeat match goal with |- context[String.eqb id ?x] => destruct (String.eqb_spec id x) as [->|_]; [intros _; cbn; auto 10|] end.
      intros H. exfalso. apply H. reflexivity.
Qed.

Lemma C113_one_name_refuted_proof : exists order order' c c', forall fold,
  an_order clients order /\ an_order clients order' /\
  reg_by_name fold clients order "cli-public-client"%string = Some c /\
  reg_by_name fold clients order' "cli-public-client"%string = Some c' /\
  cl_type c = CtPublic /\ cl_type c' = CtCredentialed.
Proof.
  exists names_front, names_back, (builtin 3), (builtin 4). intros fold.
  split; [apply order_ok; left; reflexivity|]. split; [apply order_ok; right; reflexivity|].
  assert (H : equal_fold fold "cli-public-client" "cli-public-client" = true) by (apply fold_spec; reflexivity).
  split; [|split; [|split; reflexivity]]; lazy -[equal_fold]; rewrite H; reflexivity.
Qed.

Lemma C113_own_identifiers_refuted_proof : exists st es id c,
  (* one record, registered twice *)
  own_identifiers st /\ (forall e, In e es -> touched e = Some 6) /\
  reg_get (reg_after st es) id = Some c /\ cl_id c <> id.
Proof.
  exists clients, [Enrol (Some 6) "aaaaaaaaaaaaaaaa"; Enrol (Some 6) "bbbbbbbbbbbbbbbb"]%string, "aaaaaaaaaaaaaaaa"%string.
  eexists. split; [exact clients_own|]. split; [intros e [<-|[<-|[]]]; reflexivity|]. split; [reflexivity|discriminate].
Qed.
