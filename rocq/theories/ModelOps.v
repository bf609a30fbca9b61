(** The operators and conversions of nonces.rs, pedersen.rs, amacs.rs, elgamal.rs
    and phone_number.rs *)
From Verif Require Export ModelPhone.

(** [&v[i]] on a vector or an array: [None] is the panic. *)
Definition index {A} (l : list A) (i : nat) : option A := nth_error l i.

(** ** nonces.rs *)
Section nonces.
  Context {E : Ext}.

  (** [From<Scalar> for Ephemeral]; aeonflux/src/nonces.rs:36-40.  [From<&Ephemeral> for
      &Scalar]; aeonflux/src/nonces.rs:57-61. *)
  Definition ephemeral_of_scalar (source : scalar) : scalar := source.
  Definition scalar_of_ephemeral (source : scalar) : scalar := source.
  (** [Ephemeral::to_bytes]; aeonflux/src/nonces.rs:51-53. *)
  Definition ephemeral_to_bytes (e : scalar) : bytes := scalar_to_bytes e.
  (** [Mul<&RistrettoBasepointTable> for &Ephemeral]; aeonflux/src/nonces.rs:70-76.  A table
      is the table of its base point. *)
  Definition ephemeral_mul_table (e : scalar) (base : point E) : point E := smul e base.
  (** [Mul<&Ephemeral> for &RistrettoBasepointTable]; aeonflux/src/nonces.rs:78-84. *)
  Definition table_mul_ephemeral (base : point E) (e : scalar) : point E := smul e base.
  (** [Mul<&Ephemeral> for &RistrettoPoint]; aeonflux/src/nonces.rs:86-92. *)
  Definition ref_point_mul_ref_ephemeral (P : point E) (e : scalar) : point E := smul e P.
  (** [Mul<&RistrettoPoint> for &Ephemeral]; aeonflux/src/nonces.rs:94-100. *)
  Definition ref_ephemeral_mul_ref_point (e : scalar) (P : point E) : point E := smul e P.
  (** [Mul<&Ephemeral> for RistrettoPoint]; aeonflux/src/nonces.rs:102-108. *)
  Definition point_mul_ref_ephemeral (P : point E) (e : scalar) : point E := smul e P.
  (** [Mul<&RistrettoPoint> for Ephemeral]; aeonflux/src/nonces.rs:110-116. *)
  Definition ephemeral_mul_ref_point (e : scalar) (P : point E) : point E := smul e P.
  (** [Mul<RistrettoPoint> for &Ephemeral]; aeonflux/src/nonces.rs:118-124. *)
  Definition ref_ephemeral_mul_point (e : scalar) (P : point E) : point E := smul e P.
  (** [Mul<Ephemeral> for &RistrettoPoint]; aeonflux/src/nonces.rs:126-132. *)
  Definition ref_point_mul_ephemeral (P : point E) (e : scalar) : point E := smul e P.
  (** [Mul<RistrettoPoint> for Ephemeral]; aeonflux/src/nonces.rs:134-140. *)
  Definition ephemeral_mul_point (e : scalar) (P : point E) : point E := smul e P.
  (** [Mul<Ephemeral> for RistrettoPoint]; aeonflux/src/nonces.rs:142-148. *)
  Definition point_mul_ephemeral (P : point E) (e : scalar) : point E := smul e P.

  (** [Index<usize> for Nonces]; aeonflux/src/nonces.rs:168-174. *)
  Definition nonces_index (n : list scalar) (idx : nat) : outcome unit scalar := or_panic (index n idx).
  (** [Nonces::iter]; aeonflux/src/nonces.rs:193-195. *)
  Definition nonces_iter (n : list scalar) : list scalar := n.
End nonces.

(** ** pedersen.rs *)
Section pedersen.
  Context {E : Ext}.
  (** [From<Commitment> for RistrettoPoint]; aeonflux/src/pedersen.rs:38-42. *)
  Definition point_of_commitment (source : point E) : point E := source.
  (** [Mul<&Scalar> for &Commitment]; aeonflux/src/pedersen.rs:44-50. *)
  Definition commitment_mul_scalar (c : point E) (s : scalar) : point E := smul s c.
  (** [Mul<&Commitment> for &Scalar]; aeonflux/src/pedersen.rs:52-58. *)
  Definition scalar_mul_commitment (s : scalar) (c : point E) : point E := smul s c.
  (** [SubAssign<Commitment> for RistrettoPoint]; aeonflux/src/pedersen.rs:60-64. *)
  Definition point_sub_assign (P : point E) (c : point E) : point E := psub P c.
End pedersen.

(** ** amacs.rs *)
Section amacs.
  Context {E : Ext}.
  (** [From<Vec<Scalar>> for Message]; aeonflux/src/amacs.rs:97-101.  [From<Message> for
      Vec<Scalar>]; aeonflux/src/amacs.rs:103-107. *)
  Definition message_of_vec (source : list scalar) : Message := source.
  Definition vec_of_message (source : Message) : list scalar := source.
  (** [Index<usize> for Message]; aeonflux/src/amacs.rs:109-115. *)
  Definition message_index (m : Message) (i : nat) : outcome unit scalar := or_panic (index m i).
  (** [Mul<&Rerandomization> for &Tag]; aeonflux/src/amacs.rs:402-411. *)
  Definition tag_mul_rerandomization (t : Tag E) (r : scalar) : Tag E :=
    {| tag_nonce := smul r (tag_nonce t); tag_mac := smul r (tag_mac t) |}.
  (** [Mul<&Tag> for &Rerandomization]; aeonflux/src/amacs.rs:413-422. *)
  Definition rerandomization_mul_tag (r : scalar) (t : Tag E) : Tag E :=
    {| tag_nonce := smul r (tag_nonce t); tag_mac := smul r (tag_mac t) |}.
End amacs.

(** ** elgamal.rs *)
Section elgamal.
  Context {E : Ext}.
  (** [From<PublicKey> for RistrettoPoint]; aeonflux/src/elgamal.rs:133-137.  [From<SecretKey>
      for Scalar]; aeonflux/src/elgamal.rs:184-188. *)
  Definition point_of_elgamal_public (k : point E) : point E := k.
  Definition scalar_of_elgamal_secret (s : scalar) : scalar := s.
  (** [Keypair::encrypt]; aeonflux/src/elgamal.rs:230-233. *)
  Definition elgamal_keypair_encrypt (k : ElgamalKeypair E) (message : point E) (nonce : scalar) : Encryption E :=
    elgamal_encrypt (eg_public k) message nonce.
End elgamal.

(** ** phone_number.rs *)
Section phone.
  Context {E : Ext}.
  (** [Index<usize> for PhoneNumber]; signal-credential/src/phone_number.rs:58-65. *)
  Definition phone_number_index (n : PhoneNumber) (i : nat) : outcome unit byte :=
    or_panic (index (scalar_to_bytes n) i).
  (** [From<EncryptedPhoneNumber> for Vec<EncryptedAttribute>];
      signal-credential/src/phone_number.rs:265-273. *)
  Definition attributes_of_encrypted (e : Encryption E) : list (Encryption E) := [e].
End phone.
