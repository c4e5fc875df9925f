(** * The authorization server of the example: concurrent HTTP requests over shared storage *)

From Verif Require Export Http System.

(** What main.go:40-77 wires together: the issuer, the decoder of signed requests, the JARM
    serializer, the salt of the pairwise encoder and the library functions. *)
Record http_server := mkServer {
  sv_ext : ext; sv_issuer : string; sv_decoder : string -> option authreq;
  sv_serializer : jarm_claims -> option string; sv_salt : string
}.

(** The program a request runs (main.go:66-77). *)
Definition answer_http (S : http_server) (e : endpoint) (r : http_request) : prog http_response :=
  serve_http (sv_ext S) (sv_issuer S) (sv_decoder S) (sv_serializer S) (sv_salt S) e r.

(** net/http runs every request in its own goroutine and recovers its panics: the environment
    sends requests, lets request number [i] make its next call, lets time pass. *)
Inductive hsched := HNew (e : endpoint) (r : http_request) | HStep (i : nat) (o : orc) | HTick (ns : N).

Inductive hevent :=
| HvStart (i : nat) (e : endpoint) (r : http_request)
| HvCall (i : nat) (c : call) (a : answer)
| HvDone (i : nat) (o : outcome http_response)
| HvTick (ns : N).

(** The storage and what is left of every request; [None] once it has answered. *)
Record hsys := mkHsys { hs_world : world; hs_threads : list (option (prog http_response)) }.

Definition hstep (S : http_server) (s : hsys) (x : hsched) : option (hevent * hsys) :=
  match x with
  | HNew e r =>
      Some (HvStart (List.length (hs_threads s)) e r,
            mkHsys (hs_world s) (hs_threads s ++ [Some (answer_http S e r)])%list)
  | HStep i o =>
      match nth_error (hs_threads s) i with
      | Some (Some (Do c k)) =>
          let '(a, w') := exec (sv_ext S) (hs_world s) o c in
          Some (HvCall i c a, mkHsys w' (set_nth (hs_threads s) i (Some (k a))))
      | Some (Some (Ret r)) =>
          Some (HvDone i (Done r), mkHsys (hs_world s) (set_nth (hs_threads s) i None))
      | Some (Some Panic) =>
          Some (HvDone i Crashed, mkHsys (hs_world s) (set_nth (hs_threads s) i None))
      | _ => None
      end
  | HTick d =>
      Some (HvTick d, mkHsys (with_now (hs_world s) (w_now (hs_world s) + d)) (hs_threads s))
  end.

Fixpoint hrun (S : http_server) (s : hsys) (xs : list hsched) : list hevent * hsys :=
  match xs with
  | [] => ([], s)
  | x :: xs =>
      match hstep S s x with
      | None => hrun S s xs
      | Some (e, s1) => let '(h, s2) := hrun S s1 xs in (e :: h, s2)
      end
  end.

(** The history of the server started on storage [w]. *)
Definition http_history (S : http_server) (w : world) (xs : list hsched) : list hevent :=
  fst (hrun S (mkHsys w []) xs).
