(** * Vocabulary of the statements about signed tokens *)

From Verif Require Export Spec Jarm.

(** One of the keys verifies the JWT: it is not an encryption key and, when the JWT names a
    key, it has that name. *)
Definition verified_with (E : ext) (keys : list jwk) (raw : string) : Prop :=
  exists t k, x_parse E raw = Some t /\ In k keys /\ k_use k <> "enc"%string /\
    (j_kid t = ""%string \/ k_id k = j_kid t) /\ x_verify E k raw = true.

(** What is expected of the JOSE library: signing puts the type and the key id in the header,
    and the public key when asked; the result verifies with the public key and its payload
    decodes to what was signed. *)
Definition jose_works {A} (E : ext) (dec : string -> option A) (pub : jwk -> jwk) (sign : jose_sign A) : Prop :=
  (forall k, k_id (pub k) = k_id k /\ k_use (pub k) = k_use k) /\
  forall typ k embed c raw, sign typ k embed c = Some raw ->
    x_parse E raw = Some (mkJws (Some typ) (k_id k) (if embed then Some (pub k) else None)) /\
    x_verify E (pub k) raw = true /\ dec raw = Some c.

(** The value of a member of a JSON document. *)
Fixpoint member (name : string) (d : doc) : option jval :=
  match d with
  | [] => None
  | (n, v) :: d => if String.eqb n name then Some v else member name d
  end.

(** At [now], the token is neither revoked nor otherwise marked inactive, has started and has
    not ended. *)
Definition usable_at (t : token) (now : N) : Prop :=
  t_status t = TsActive /\ exists m, t_meta t = Some m /\ (m_not_before m <= now <= m_expires_at m)%N.

(** The claims name all parties, follow the order iat <= nbf <= exp, are not issued in the
    future and last at most [max] seconds. *)
Definition well_formed (max now : N) (c : jwt_claims) : Prop :=
  jc_iss c <> ""%string /\ jc_sub c <> ""%string /\ jc_aud c <> ""%string /\
  jc_client_id c <> ""%string /\ jc_scope c <> ""%string /\ jc_jti c <> ""%string /\
  (jc_iat c <= jc_nbf c)%N /\ (jc_nbf c <= jc_exp c)%N /\ (0 < jc_iat c <= now)%N /\
  (jc_exp c <= jc_iat c + max)%N.

(** The claims are those of the token. *)
Definition describes (t : token) (c : jwt_claims) : Prop :=
  exists m, t_meta t = Some m /\ jc_iss c = m_issuer m /\ jc_sub c = m_subject m /\
    jc_aud c = m_audience m /\ jc_client_id c = m_client_id m /\ jc_scope c = m_scope m /\
    jc_iat c = m_issued_at m /\ jc_nbf c = m_not_before m /\ jc_exp c = m_expires_at m /\ jc_jti c = t_id t.
