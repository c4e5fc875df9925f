(** * Concrete cases for C118 *)

From Verif Require Export MeetForm PfAnnounced.

(** A proof signed with the announced algorithm. *)
Definition demo_alg (raw : string) : string := if String.eqb raw "proof-es256" then "ES256" else "ES384".
Lemma demo_es384 : parses_es384_only (sv_ext web_server) demo_alg.
Proof.
  intros raw t H. unfold demo_alg. destruct (String.eqb_spec raw "proof-es256") as [->|_]; [|reflexivity].
  exfalso. vm_compute in H. discriminate.
Qed.
Definition x_es256 : list hsched := hfull 0 EToken (redeem_r [("DPoP", "proof-es256")]) os_assertion.
Definition exchange_r : http_request :=
  post "/token" [] (auth_params ++ [("grant_type", "urn:ietf:params:oauth:grant-type:token-exchange"); ("subject_token", "at-1")])%list [].
Definition x_exchange : list hsched := hfull 0 EToken exchange_r os_assertion.

Lemma authorize_answer : exists resp,
  responded (http_history web_server (web_world true) x_http_code) 0 EAuthorize (authorize_r "app" "req-app") resp /\ fulfilled resp.
Proof.
  eexists. split; [split; [eapply nth_error_In with (n := 0%nat); vm_compute; reflexivity|]; eapply nth_error_In with (n := 6%nat); vm_compute; reflexivity|exact I].
Qed.
Lemma authorize_stores : exists iss code s a ar,
  In (HvCall 0 (CSessReg iss code s) a) (http_history web_server (web_world true) x_http_code) /\ as_request s = Some ar.
Proof. do 5 eexists. split; [eapply nth_error_In with (n := 4%nat); vm_compute; reflexivity|reflexivity]. Qed.
Lemma evil_stores : exists iss code s a,
  In (HvCall 0 (CSessReg iss code s) a) (http_history web_server (web_world true) x_http_evil).
Proof. do 4 eexists. eapply nth_error_In with (n := 4%nat). vm_compute. reflexivity. Qed.
Lemma es256_refused : responded (http_history web_server (web_world true) x_es256) 0 EToken (redeem_r [("DPoP", "proof-es256")])
  (HError 400 (err invalid_dpop_proof)).
Proof. split; [eapply nth_error_In with (n := 0%nat); vm_compute; reflexivity|]. eapply nth_error_In with (n := 3%nat). vm_compute. reflexivity. Qed.
Lemma exchange_refused : responded (http_history web_server (web_world false) x_exchange) 0 EToken exchange_r
  (HError 400 (err invalid_grant)).
Proof. split; [eapply nth_error_In with (n := 0%nat); vm_compute; reflexivity|]. eapply nth_error_In with (n := 3%nat). vm_compute. reflexivity. Qed.
Lemma spa_answer : exists resp, responded (http_history web_server (web_world true) x_spa) 0 EDeviceAuthorize spa_r resp /\ fulfilled resp.
Proof. eexists. split; [split; [eapply nth_error_In with (n := 0%nat); vm_compute; reflexivity|]; eapply nth_error_In with (n := 6%nat); vm_compute; reflexivity|exact I]. Qed.
