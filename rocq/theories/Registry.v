(** * The client registry: server/storage/inmemory/client.go

    The registry is a Go map from identifiers to pointers.  Records live in a heap: whoever passed a
    pointer to Register, or got one from Get, still holds it. *)

From Verif Require Export Strs System.

(** client.go:30-32; the fields of the client records no service reads (contacts, application type,
    logo, ...) are not in [client].  Addresses are numbers. *)
Record registry := mkRegistry {
  rg_heap : nat -> client;
  rg_backend : fmap nat
}.

Definition with_id (c : client) (id : string) : client :=
  mkClient id (cl_type c) (cl_redirect_uris c) (cl_response_types c) (cl_response_modes c) (cl_grant_types c)
    (cl_name c) (cl_jwks c) (cl_subject_type c) (cl_sector c) (cl_dpop_bound c).
Definition write_at (h : nat -> client) (a : nat) (c : client) : nat -> client :=
  fun b => if Nat.eqb b a then c else h b.

(** client.go:174-183 Get; [None] is storage.ErrNotFound *)
Definition reg_get (st : registry) (id : string) : option client :=
  match rg_backend st id with
  | None => None
  | Some a => Some (rg_heap st a)
  end.

(** client.go:185-195 GetByName; [order] is the order in which this call visits the map *)
Fixpoint reg_by_name (fold : N -> N) (st : registry) (order : list string) (name : string) : option client :=
  match order with
  | [] => None
  | id :: rest =>
      match rg_backend st id with
      | None => reg_by_name fold st rest name
      | Some a => if equal_fold fold (cl_name (rg_heap st a)) name then Some (rg_heap st a)
                  else reg_by_name fold st rest name
      end
  end.

(** client.go:199-208 Register; [id] is what uniuri.NewLen(16) draws; no pointer: a panic at :201,
    before the map is touched *)
Definition reg_register (st : registry) (p : option nat) (id : string) : outcome (registry * string) :=
  match p with
  | None => Crashed
  | Some a =>
      let c := with_id (rg_heap st a) id in
      Done (mkRegistry (write_at (rg_heap st) a c) (upd (rg_backend st) id (Some a)), id)
  end.

(** What changes a registry: its callers fill or change the records they hold, and register them. *)
Inductive reg_event := Fill (a : nat) (c : client) | Enrol (p : option nat) (id : string).

Definition reg_step (st : registry) (e : reg_event) : registry :=
  match e with
  | Fill a c => mkRegistry (write_at (rg_heap st) a c) (rg_backend st)
  | Enrol p id => match reg_register st p id with Done (st', _) => st' | Crashed => st end
  end.
Definition reg_after (st : registry) (es : list reg_event) : registry := fold_left reg_step es st.

(** client.go:35-170 Clients(); the JWKS documents are named, not copied *)
Definition builtin (a : nat) : client :=
  (match a with
  | 0 => mkClient "t8p9duw4n2klximkv3kagaud796ul67g" CtConfidential [] [] [] ["client_credentials"] "test-client"
           "jwks:t8p9" "pairwise" "http://127.0.0.1:8085" true
  | 1 => mkClient "5stz52n91hr7aw9q1h5hbuvkt2ovevdw" CtConfidential [] [] []
           ["client_credentials"; "urn:ietf:params:oauth:grant-type:token-exchange"] "resource-server"
           "jwks:5stz" "pairwise" "http://127.0.0.1:8085" false
  | 2 => mkClient "6779ef20e75817b79602" CtConfidential ["http://127.0.0.1:8085/oidc/as/127.0.0.1"] ["code"] ["query.jwt"]
           ["authorization_code"; "client_credentials"; "urn:ietf:params:oauth:grant-type:device_code"; "refresh_token";
            "urn:ietf:params:oauth:grant-type:token-exchange"] "foo-test-client"
           "jwks:6779" "pairwise" "http://127.0.0.1:8085" false
  | 3 => mkClient "public-client" CtPublic [] [] [] ["urn:ietf:params:oauth:grant-type:device_code"; "refresh_token"]
           "cli-public-client" "" "pairwise" "http://127.0.0.1:8085" false
  | 4 => mkClient "attestation-client" CtCredentialed [] [] [] ["client_credentials"] "cli-public-client" "" "" "" false
  | 5 => mkClient "urn:solid:attestation-server" CtPublic [] [] [] [] "Remote Attestation Server" "jwks:sV78" "" "" false
  | _ => mkClient "" CtUnspecified [] [] [] [] "" "" "" "" false
  end)%string.
Definition clients : registry :=
  mkRegistry builtin
    (fun id =>
       if String.eqb id "t8p9duw4n2klximkv3kagaud796ul67g" then Some 0
       else if String.eqb id "5stz52n91hr7aw9q1h5hbuvkt2ovevdw" then Some 1
       else if String.eqb id "6779ef20e75817b79602" then Some 2
       else if String.eqb id "public-client" then Some 3
       else if String.eqb id "attestation-client" then Some 4
       else if String.eqb id "urn:solid:attestation-server" then Some 5
       else None)%string.
