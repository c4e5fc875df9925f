(** * Concurrent use of the token store: what does not hold *)

From Verif Require Export PfSteps.

(** Reveal the events of a history with moments, one after the other. *)
Ltac reveal := repeat match goal with
  | W : without_moments ?l = _, T : in_turn _ ?l |- _ =>
      is_var l; inversion T; subst; clear T; cbn [without_moments moments] in *; try discriminate;
      repeat match goal with
      | K : _ :: _ = _ :: _ |- _ => injection K as ?; subst
      end;
      repeat match goal with
      | K : ?q ?th = Happened _ _ |- _ => unfold set_thread in K; cbn in K; try discriminate; injection K as ?; subst
      | K : ?q ?th = Outside |- _ => unfold set_thread in K; cbn in K; try discriminate; clear K
      | K : ?q ?th = Called _ |- _ => is_var th; unfold set_thread in K; destruct th as [|[|[|th]]]; cbn in K; try discriminate; try injection K as ?; subst
      end
  end.

Lemma C105_found_by_id_refuted_proof : forall E w issuer t, no_tokens w ->
  let xs := [Enter 0 (SCreate issuer t); Advance 0; Enter 1 (SGet issuer (t_id t)); Advance 1; Advance 1; Advance 1;
             Enter 1 (SGetByValue issuer (t_value t)); Advance 1; Advance 1] in
  shistory E xs = [SvCall 0 (SCreate issuer t); SvCall 1 (SGet issuer (t_id t));
                   SvReturn 1 (SGet issuer (t_id t)) (SrToken (hashed E issuer t));
                   SvCall 1 (SGetByValue issuer (t_value t)); SvReturn 1 (SGetByValue issuer (t_value t)) SrMissing] /\
  ~ as_if_atomic E w (shistory E xs).
Proof.
  intros E w issuer t [N1 N2] xs.
  assert (Hh : shistory E xs = [SvCall 0 (SCreate issuer t); SvCall 1 (SGet issuer (t_id t));
                   SvReturn 1 (SGet issuer (t_id t)) (SrToken (hashed E issuer t));
                   SvCall 1 (SGetByValue issuer (t_value t)); SvReturn 1 (SGetByValue issuer (t_value t)) SrMissing]).
  { subst xs. unfold shistory. cbn. rewrite upd_same. cbn. reflexivity. }
  split; [exact Hh|]. rewrite Hh. intros (l & W & T & X).
  reveal; cbn [explains at_once fst snd exec ok o_fault do_write answer_read] in X.
  all: unfold store_token in X; cbn [w_tid w_tval with_tok] in X;
    repeat match type of X with _ /\ _ => let Y := fresh "Y" in destruct X as (Y & X) end;
    repeat match goal with
    | Y : context [w_tid _ _] |- _ => rewrite N1 in Y
    | Y : context [w_tval _ _] |- _ => rewrite N2 in Y
    | Y : context [upd _ ?k _ ?k] |- _ => rewrite upd_same in Y
    end; try discriminate.
  all: match goal with Y : context [w_tval] |- _ => cbn in Y; rewrite upd_same in Y; discriminate | Y : _ |- _ => cbn in Y; rewrite upd_same in Y; discriminate end.
Qed.

Lemma C105_deleted_returns_refuted_proof : forall E w issuer t, no_tokens w ->
  let id := t_id t in
  let xs := [Enter 0 (SCreate issuer t); Advance 0; Advance 0; Advance 0;
             Enter 1 (SRevoke issuer id); Advance 1;
             Enter 2 (SDelete issuer id); Advance 2; Advance 2; Advance 2; Advance 2;
             Advance 1; Advance 1; Advance 1; Advance 1;
             Enter 2 (SGet issuer id); Advance 2; Advance 2; Advance 2] in
  shistory E xs = [SvCall 0 (SCreate issuer t); SvReturn 0 (SCreate issuer t) SrOk;
                   SvCall 1 (SRevoke issuer id); SvCall 2 (SDelete issuer id); SvReturn 2 (SDelete issuer id) SrOk;
                   SvReturn 1 (SRevoke issuer id) SrOk;
                   SvCall 2 (SGet issuer id); SvReturn 2 (SGet issuer id) (SrToken (set_status (hashed E issuer t) TsRevoked))] /\
  ~ as_if_atomic E w (shistory E xs).
Proof.
  intros E w issuer t [N1 N2] id xs.
  assert (Hh : shistory E xs = [SvCall 0 (SCreate issuer t); SvReturn 0 (SCreate issuer t) SrOk;
                   SvCall 1 (SRevoke issuer id); SvCall 2 (SDelete issuer id); SvReturn 2 (SDelete issuer id) SrOk;
                   SvReturn 1 (SRevoke issuer id) SrOk;
                   SvCall 2 (SGet issuer id); SvReturn 2 (SGet issuer id) (SrToken (set_status (hashed E issuer t) TsRevoked))]).
  { subst xs id. unfold shistory. cbn. repeat (rewrite upd_same; cbn). reflexivity. }
  split; [exact Hh|]. rewrite Hh. clear Hh xs. subst id. intros (l & W & T & X).
  reveal.
  all: cbn [explains at_once fst snd exec ok o_fault do_write answer_read] in X;
    repeat (unfold store_token, delete_token in X; cbn [w_tid w_tval with_tok fst snd t_id t_value hashed set_value set_status do_write] in X;
       rewrite ?upd_same, ?N1, ?N2 in X; cbn [fst snd] in X);
    repeat match type of X with _ /\ _ => let Y := fresh "Y" in destruct X as (Y & X); cbn in Y; rewrite ?upd_same, ?N1, ?N2 in Y; cbn in Y; try discriminate end.
Qed.
