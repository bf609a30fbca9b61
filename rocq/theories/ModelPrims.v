(** aeonflux/src/parameters.rs, nonces.rs, pedersen.rs, elgamal.rs *)
From Verif Require Export ModelAmacs.

(** ** parameters.rs *)

(** [SystemParameters]; aeonflux/src/parameters.rs:45-49. *)
Record SystemParameters {E : Ext} : Type := { sp_g : point E; sp_h : point E }.
Arguments SystemParameters : clear implicits.

Section parameters.
  Context {E : Ext}.

  (** [SystemParameters::from_bytes]; aeonflux/src/parameters.rs:52-81. *)
  Definition system_parameters_from_bytes (b : bytes) : outcome CredentialError (SystemParameters E) :=
    if negb (List.length b =? 64)%nat then Err NoSystemParameters else
    do g_bytes <- or_panic (slice 0 32 b);
    do h_bytes <- or_panic (slice 32 64 b);
    do g <- ok_or PointDecompressionError (decompress g_bytes);
    do h <- ok_or PointDecompressionError (decompress h_bytes);
    Ok {| sp_g := g; sp_h := h |}.

  (** [SystemParameters::to_bytes]; aeonflux/src/parameters.rs:83-90. *)
  Definition system_parameters_to_bytes (p : SystemParameters E) : bytes :=
    (compress (sp_g p) ++ compress (sp_h p))%list.

  (** One iteration of the loop of [hunt_and_peck]; aeonflux/src/parameters.rs:112-117. *)
  Definition peck (tmp : bytes) : option (point E) :=
    if bytes_eqb tmp (compress (@basepoint E)) then None else decompress tmp.

  (** [SystemParameters::hunt_and_peck]; aeonflux/src/parameters.rs:102-124.  The loop may
      not end, so the model runs at most [fuel] iterations ([None]: still
      looping). *)
  Fixpoint hunt_and_peck (fuel : nat) (r : rng) : option (SystemParameters E * rng) :=
    match fuel with
    | O => None
    | S f =>
      let (tmp, r) := fill_bytes 32 r in
      match peck tmp with
      | Some h => Some ({| sp_g := basepoint; sp_h := h |}, r)
      | None => hunt_and_peck f r
      end
    end.

  (** [From<RistrettoPoint> for SystemParameters]; aeonflux/src/parameters.rs:139-146. *)
  Definition system_parameters_from_point (h : point E) : outcome unit (SystemParameters E) :=
    if debug_build E && peqb h basepoint then Panic
    else Ok {| sp_g := basepoint; sp_h := h |}.

  (** [From<[u8; 32]> for SystemParameters]; aeonflux/src/parameters.rs:165-172. *)
  Definition system_parameters_from_array (b : bytes) : outcome unit (SystemParameters E) :=
    if debug_build E && bytes_eqb b (compress (@basepoint E)) then Panic else
    do h <- or_panic (decompress b);
    Ok {| sp_g := basepoint; sp_h := h |}.
End parameters.

(** ** nonces.rs.  [Ephemeral] (aeonflux/src/nonces.rs:33-34) wraps a scalar, [Nonces]
    (aeonflux/src/nonces.rs:157-158) a vector of them; the model uses the contents. *)
Section nonces.
  (** [Ephemeral::new]; aeonflux/src/nonces.rs:42-49. *)
  Definition ephemeral_new (r : rng) : scalar * rng := scalar_random r.

  (** [Neg for Ephemeral]; aeonflux/src/nonces.rs:149-155. *)
  Definition ephemeral_neg (s : scalar) : scalar := s_neg s.

  (** [Nonces::new]; aeonflux/src/nonces.rs:177-191. *)
  Definition nonces_new (r : rng) (size : nat) : list scalar * rng := scalars_random size r.
End nonces.

(** ** pedersen.rs.  [Commitment] (aeonflux/src/pedersen.rs:36) wraps a point. *)
Section pedersen.
  Context {E : Ext}.

  (** [Commitment::from_bytes]; aeonflux/src/pedersen.rs:67-73. *)
  Definition commitment_from_bytes (b : bytes) : outcome CredentialError (point E) :=
    do tmp <- or_panic (slice 0 32 b);
    ok_or none_credential (decompress tmp).

  (** [Commitment::to_bytes]; aeonflux/src/pedersen.rs:75-81. *)
  Definition commitment_to_bytes (c : point E) : bytes := compress c.

  (** [Commitment::to]; aeonflux/src/pedersen.rs:94-96. *)
  Definition commitment_to (value : point E) (nonce : scalar) (base : point E) : point E :=
    padd value (smul nonce base).

  (** [Commitment::open]; aeonflux/src/pedersen.rs:98-109. *)
  Definition commitment_open (c value : point E) (nonce : scalar) (base : point E) : outcome unit unit :=
    if peqb value (psub c (smul nonce base)) then Ok tt else Err tt.
End pedersen.

(** ** elgamal.rs.  [PublicKey] (a point) and [SecretKey] (a scalar) are
    newtypes; aeonflux/src/elgamal.rs:33-58. *)
Record Encryption {E : Ext} : Type := { enc_commitment : point E; enc_encryption : point E }.
Arguments Encryption : clear implicits.
Record ElgamalKeypair {E : Ext} : Type := { eg_secret : scalar; eg_public : point E }.
Arguments ElgamalKeypair : clear implicits.

Section elgamal.
  Context {E : Ext}.

  (** [From<&Scalar> for Message]; aeonflux/src/elgamal.rs:74-78. *)
  Definition elgamal_message (source : scalar) : point E := smul source basepoint.

  (** [Add for &Encryption]; aeonflux/src/elgamal.rs:86-95. *)
  Definition encryption_add (a b : Encryption E) : Encryption E :=
    {| enc_commitment := padd (enc_commitment a) (enc_commitment b);
       enc_encryption := padd (enc_encryption a) (enc_encryption b) |}.

  (** [PublicKey::from_bytes]; aeonflux/src/elgamal.rs:98-108. *)
  Definition elgamal_public_from_bytes (b : bytes) : outcome CredentialError (point E) :=
    if negb (List.length b =? 32)%nat then Panic else
    ok_or none_credential (decompress b).

  (** [PublicKey::to_bytes]; aeonflux/src/elgamal.rs:110-116. *)
  Definition elgamal_public_to_bytes (k : point E) : bytes := compress k.

  (** [PublicKey::encrypt]; aeonflux/src/elgamal.rs:122-130. *)
  Definition elgamal_encrypt (k message : point E) (nonce : scalar) : Encryption E :=
    {| enc_commitment := smul nonce basepoint;
       enc_encryption := padd message (smul nonce k) |}.

  (** [From<&SecretKey> for PublicKey]; aeonflux/src/elgamal.rs:139-143. *)
  Definition elgamal_public_of_secret (s : scalar) : point E := smul s basepoint.

  (** [SecretKey::from_bytes]; aeonflux/src/elgamal.rs:146-156. *)
  Definition elgamal_secret_from_bytes (b : bytes) : outcome CredentialError scalar :=
    if negb (List.length b =? 32)%nat then Panic else
    ok_or none_credential (from_canonical_bytes b).

  (** [SecretKey::to_bytes]; aeonflux/src/elgamal.rs:158-164. *)
  Definition elgamal_secret_to_bytes (s : scalar) : bytes := scalar_to_bytes s.

  (** [SecretKey::generate]; aeonflux/src/elgamal.rs:170-175. *)
  Definition elgamal_secret_generate (r : rng) : scalar * rng := scalar_random r.

  (** [SecretKey::decrypt]; aeonflux/src/elgamal.rs:177-181. *)
  Definition elgamal_decrypt (s : scalar) (e : Encryption E) : point E :=
    psub (enc_encryption e) (smul s (enc_commitment e)).

  (** [Keypair::from_bytes]; aeonflux/src/elgamal.rs:198-205. *)
  Definition elgamal_keypair_from_bytes (b : bytes) : outcome CredentialError (ElgamalKeypair E) :=
    if negb (List.length b =? 64)%nat then Panic else
    do s <- or_panic (slice 0 32 b);
    do secret <- elgamal_secret_from_bytes s;
    do p <- or_panic (slice 32 64 b);
    do public <- elgamal_public_from_bytes p;
    Ok {| eg_secret := secret; eg_public := public |}.

  (** [Keypair::to_bytes]; aeonflux/src/elgamal.rs:207-214. *)
  Definition elgamal_keypair_to_bytes (k : ElgamalKeypair E) : bytes :=
    (elgamal_secret_to_bytes (eg_secret k) ++ elgamal_public_to_bytes (eg_public k))%list.

  (** [Keypair::generate]; aeonflux/src/elgamal.rs:220-228. *)
  Definition elgamal_keypair_generate (r : rng) : ElgamalKeypair E * rng :=
    let (s, r) := elgamal_secret_generate r in
    ({| eg_secret := s; eg_public := elgamal_public_of_secret s |}, r).
End elgamal.
