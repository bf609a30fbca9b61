(** Blind issuance as the two proofs of aeonflux/src/proofs.rs would serve it (C116).  The code has the
    proofs and the messages (aeonflux/src/credential.rs:126-155); what a user and an issuer do with
    them is there only as comments (signal-credential/src/issuer.rs:186-360, signal-credential/src/user.rs:145-255). *)
From Verif Require Export SpecProofs ModelPrims ModelAmacs.

Section blind.
  Context {E : Ext}.

  (** The publics [p] of an answer to the request [q]: the same points, the key and the encrypted
      attribute of the request, and ristretto's basepoint as [B]. *)
  Definition answers (q : ab_Publics E) (p : ib_Publics E) : Prop :=
    abp_B q = basepoint /\ ibp_B p = basepoint /\ ibp_A p = abp_A q /\ ibp_D p = abp_D q /\
    ibp_encrypted_attribute_0_0 p = abp_encrypted_attribute_0_0 q /\
    ibp_encrypted_attribute_0_1 p = abp_encrypted_attribute_0_1 q.

  (** The tag a user whose ElGamal key is [d] makes of the answer: the nonce as it came, the rest decrypted. *)
  Definition encrypted_mac (p : ib_Publics E) : Encryption E :=
    {| enc_commitment := ibp_EQ_commitment p; enc_encryption := ibp_EQ_encryption p |}.
  Definition obtained (d : scalar) (p : ib_Publics E) : Tag E :=
    {| tag_nonce := ibp_P p; tag_mac := elgamal_decrypt d (encrypted_mac p) |}.

  (** The issuer's key that the witness of the answer speaks of. *)
  Definition key_in (w : ib_Scalars) : SecretKey := {| sk_x0 := ibs_x0 w; sk_xn := [ibs_x1 w] |}.
End blind.
