(** What an encoding looks like and which values have one: plain predicates over
    the records of the model, used to state the properties of the encodings. *)
From Verif Require Export Spec.

(** [len] bytes from offset [off]. *)
Definition field (off len : nat) (b : bytes) : bytes := firstn len (skipn off b).
(** A scalar as 32 little-endian bytes. *)
Definition le32 (s : Z) : bytes := le_encode 32 s.
(** The length prefix bincode puts before 32 bytes. *)
Definition prefix32 : bytes := [x20; x00; x00; x00; x00; x00; x00; x00].
(** The scalars [l], each reduced and prefixed, at offset [off]. *)
Fixpoint prefixed_scalars (off : nat) (l : list Z) (b : bytes) : Prop :=
  match l with
  | [] => True
  | s :: l' =>
    field off 8 b = prefix32 /\ field (off + 8) 32 b = le32 (s mod ell) /\
    prefixed_scalars (off + 40) l' b
  end.

(** Values whose scalars are reduced and whose numbers of attributes are those
    of the code's constants. *)
Section wf.
  Context {E : Ext}.
  Definition wf_secret_key (k : SecretKey) : Prop :=
    canonical (sk_x0 k) /\ Forall canonical (sk_xn k).
  Definition wf_keypair (k : Keypair E) : Prop :=
    wf_secret_key (kp_secret k) /\
    List.length (pk_Xn (kp_public k)) = List.length (sk_xn (kp_secret k)).
  Definition wf_credential (c : Credential E) : Prop :=
    exists m, canonical m /\ cr_attributes c = [m].
  Definition wf_issuance (i : CredentialIssuance E) : Prop :=
    wf_credential (is_credential i) /\
    canonical (ir_challenge (is_proof i)) /\ ir_canonical (ir_responses (is_proof i)).
  Definition wf_presentation (p : CredentialPresentation E) : Prop :=
    pr_attributes_revealed p = [] /\ (exists C, pr_attributes_blinded p = [C]) /\
    canonical (vc_challenge (pr_proof p)) /\ vc_canonical (vc_responses (pr_proof p)).
  Definition wf_issuer (i : Issuer E) : Prop :=
    wf_keypair (iss_keypair i) /\ pk_Xn (kp_public (iss_keypair i)) <> [].
  (** A key pair or credential whose encoding is all zeros reads as none. *)
  Definition wf_user (u : User E) : Prop :=
    (exists X, pk_Xn (us_issuer_parameters u) = [X]) /\
    (forall k, us_key u = Some k ->
       canonical (eg_secret k) /\ ~ (eg_secret k = 0 /\ eg_public k = pzero)) /\
    (forall c, us_credential u = Some c ->
       wf_credential c /\
       ~ (tag_nonce (cr_mac c) = pzero /\ tag_mac (cr_mac c) = pzero /\ cr_attributes c = [0])).
  Definition wf_signal_presentation (p : SignalCredentialPresentation E) : Prop :=
    wf_presentation (sc_presentation p) /\
    canonical (ce_challenge (sc_roster_membership_proof p)) /\
    ce_canonical (ce_responses (sc_roster_membership_proof p)).
  (** What [Scalar::from_bits] can return. *)
  Definition bits255 (s : Z) : Prop := 0 <= s < 2 ^ 255.
End wf.
