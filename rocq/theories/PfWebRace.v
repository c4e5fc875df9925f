(** * Two refreshes with one refresh token at the same time *)

From Verif Require Export MeetWeb.

(** Half an hour before its expiry two requests replace the refresh token; each has
    read it before the other one revokes it. *)
Definition x_web_race : list hsched :=
  (x_web_code ++ HTick (603000 * second) ::
   HNew EToken refresh2_r :: HNew EToken refresh2_r :: hgo 2 (os_assertion ++ [ok; ok; ok]) ++
   hgo 3 (os_assertion ++ [ok; ok; ok] ++ os_tok "id-3" "at-2" ++ os_tok "id-4" "rt-2" ++ [ok; ok; ok]) ++
   hgo 2 (os_tok "id-5" "at-3" ++ os_tok "id-6" "rt-3" ++ [ok; ok; ok]))%list.
Definition h_race := http_history web_server (web_world false) x_web_race.

Lemma C77_in_flight_refuted_proof : exists S w xs hh1 hh2 i j r1 r2 value,
  exists access expires type refresh scope access' expires' type' refresh' scope' iss t a,
  let hh := http_history S w xs in
  blank w /\ registry_ok w /\ hno_faults xs /\ web_no_reuse (sv_ext S) hh /\ hh = (hh1 ++ hh2)%list /\ i <> j /\
  responded hh1 i EToken r1 (HToken access expires type refresh scope) /\ sends_refresh r1 value /\ refresh <> ""%string /\
  responded hh j EToken r2 (HToken access' expires' type' refresh' scope') /\ sends_refresh r2 value /\
  (* another pair of tokens, created after the first pair was handed out *)
  In (HvCall j (CTokCreate iss t) a) hh2 /\ t_value t = refresh' /\ t_type t = TtRefresh /\ refresh' <> refresh.
Proof.
  exists web_server, (web_world false), x_web_race, (firstn 47 h_race), (skipn 47 h_race), 3%nat, 2%nat, refresh2_r, refresh2_r,
    "rt-1"%string. do 13 eexists. cbv zeta.
  split; [apply blank_web|]. split; [apply registry_web|]. split; [by_faults|]. split; [by_reuse|]. split; [by_cut|].
  split; [discriminate|]. split; [split; [by_start 25%nat|by_nth 46%nat]|]. split; [split; reflexivity|]. split; [discriminate|].
  split; [split; [by_start 24%nat|by_nth 57%nat]|]. split; [split; reflexivity|].
  split; [by_nth 7%nat|]. split; [reflexivity|]. split; [reflexivity|discriminate].
Qed.
