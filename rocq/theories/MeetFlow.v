(** * Concrete cases for C110 and C114 *)

From Verif Require Export MeetWebLive PfFlow2.

(** A server whose signed responses show the code. *)
Definition flow_server : http_server := mkServer web_ext iss web_dec (fun cl => Some ("jarm:" ++ jm_code cl)%string) web_salt.
Definition ask_r : http_request := token_r "/introspect" "at-1".
Definition x_flow : list hsched :=
  (x_http_code ++ HTick (2 * second) :: hfull 2 EIntrospect ask_r (os_assertion ++ [ok; ok; ok]))%list.
Definition h_flow := http_history flow_server (web_world true) x_flow.
Lemma revokes_demo hh id : forallb (fun e => match e with HvCall _ (CTokRevoke _ _) _ => false | _ => true end) hh = true ->
  ~ web_revoked_in hh id.
Proof. rewrite forallb_forall. intros H (j & i & a & Hin & _). specialize (H _ Hin). discriminate. Qed.

(** The same with a pushed request, for C114. *)
Definition x_pushed : list hsched :=
  (x_http_par ++
   hfull 2 EToken (redeem_r dpop1)
     (os_assertion ++ os_proof ++ [ok; ok; ok] ++ os_tok "id-1" "at-1" ++ os_tok "id-2" "rt-1" ++ [ok]) ++
   HTick (2 * second) :: hfull 3 EIntrospect ask_r (os_assertion ++ [ok; ok; ok]))%list.
Definition h_pushed := http_history flow_server (web_world true) x_pushed.
Lemma proofs_of_id id hh i :
  forallb (fun e => match e with HvCall j (CProofReg a) _ => negb (String.eqb a (b64url (x_blake web_ext "" id))) || Nat.eqb j i | _ => true end) hh = true ->
  forall j a, In (HvCall j (CProofReg (b64url (x_blake web_ext "" id))) a) hh -> j = i.
Proof.
  rewrite forallb_forall. intros H j a Hin. specialize (H _ Hin). cbn -[b64url] in H. rewrite String.eqb_refl in H. apply Nat.eqb_eq. exact H.
Qed.
