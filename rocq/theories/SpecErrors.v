(** How a decoder that does not return a value ends, read off the bytes alone:
    for every format, the things that can be wrong with an input in the order in
    which they are met, each with what the caller gets for it. *)
From Verif Require Export SpecCodec.

(** A decoder that returns no value returns an error or does not return. *)
Inductive ending (Er : Type) : Type :=
| Reject (e : Er)
| Crash.
Arguments Reject {Er}.
Arguments Crash {Er}.

(** Something that may be wrong, and what happens then. *)
Definition fault (Er : Type) : Type := (Prop * ending Er)%type.

(** [v] belongs to the first fault of the list that is there. *)
Fixpoint first_fault {Er} (l : list (fault Er)) (v : ending Er) : Prop :=
  match l with
  | [] => False
  | (wrong, v') :: l' => (wrong /\ v = v') \/ (~ wrong /\ first_fault l' v)
  end.
Fixpoint no_fault {Er} (l : list (fault Er)) : Prop :=
  match l with
  | [] => True
  | (wrong, _) :: l' => ~ wrong /\ no_fault l'
  end.

(** The outcome is the one the list of faults gives. *)
Definition ends_by {Er A} (o : outcome Er A) (l : list (fault Er)) : Prop :=
  ((exists a, o = Ok a) <-> no_fault l) /\
  (forall e, o = Err e <-> first_fault l (Reject e)) /\
  (o = Panic <-> first_fault l Crash).

Section faults.
  Context (E : Ext).

  (** The 32 bytes at [off] encode no point; no reduced scalar. *)
  Definition bad_point (off : nat) (b : bytes) : Prop :=
    ~ exists P : point E, field off 32 b = compress P.
  Definition bad_scalar (off : nat) (b : bytes) : Prop :=
    ~ exists s, canonical s /\ field off 32 b = le32 s.
  (** One of the [n] items of 32 bytes from [off] does not. *)
  Definition bad_points (off n : nat) (b : bytes) : Prop :=
    exists i, (i < n)%nat /\ bad_point (off + 32 * i) b.
  Definition bad_scalars (off n : nat) (b : bytes) : Prop :=
    exists i, (i < n)%nat /\ bad_scalar (off + 32 * i) b.
  (** The bytes from [off] do not start with [n] reduced scalars, each prefixed
      with its length. *)
  Definition bad_proof (n off : nat) (b : bytes) : Prop :=
    ~ exists l, List.length l = n /\ Forall canonical l /\ prefixed_scalars off l b.
  (** The [n] bytes at [off] are not all zero. *)
  Definition present (off n : nat) (b : bytes) : Prop := field off n b <> zeros n.

  Definition system_parameters_faults (b : bytes) : list (fault CredentialError) :=
    [ (List.length b <> 64%nat, Reject NoSystemParameters);
      (bad_point 0 b, Reject PointDecompressionError);
      (bad_point 32 b, Reject PointDecompressionError) ].
  Definition tag_faults (b : bytes) : list (fault MacError) :=
    [ (List.length b <> 64%nat, Reject MacPointDecompressionError);
      (bad_point 0 b, Reject MacPointDecompressionError);
      (bad_point 32 b, Reject MacPointDecompressionError) ].
  Definition public_key_faults (b : bytes) : list (fault MacError) :=
    let n := List.length b in
    [ (Nat.modulo n 32 <> 0%nat, Reject (MessageLengthError n));
      (bad_points 0 (n / 32) b, Reject MacPointDecompressionError) ].
  Definition secret_key_faults (b : bytes) : list (fault MacError) :=
    let n := List.length b in
    [ (Nat.modulo n 32 <> 0%nat, Reject (MessageLengthError n));
      (b = [], Crash);
      (bad_scalars 0 (n / 32) b, Reject MacScalarFormatError) ].
  (** [k] points, then [k + 1] scalars. *)
  Definition keypair_faults (b : bytes) : list (fault MacError) :=
    let k := ((List.length b - 32) / 64)%nat in
    [ ((List.length b < 32)%nat, if debug_build E then Crash else Reject KeypairDeserialisation);
      (Nat.modulo (List.length b) 64 <> 32%nat, Reject KeypairDeserialisation);
      (bad_points 0 k b, Reject MacPointDecompressionError);
      (bad_scalars (32 * k) (k + 1) b, Reject MacScalarFormatError) ].
  Definition commitment_faults (b : bytes) : list (fault CredentialError) :=
    [ ((List.length b < 32)%nat, Crash); (bad_point 0 b, Reject MissingData) ].
  Definition elgamal_public_faults (b : bytes) : list (fault CredentialError) :=
    [ (List.length b <> 32%nat, Crash); (bad_point 0 b, Reject MissingData) ].
  Definition elgamal_secret_faults (b : bytes) : list (fault CredentialError) :=
    [ (List.length b <> 32%nat, Crash); (bad_scalar 0 b, Reject MissingData) ].
  Definition elgamal_keypair_faults (b : bytes) : list (fault CredentialError) :=
    [ (List.length b <> 64%nat, Crash);
      (bad_scalar 0 b, Reject MissingData);
      (bad_point 32 b, Reject MissingData) ].
  (** A tag that is no pair of points is reported as missing issuer
      parameters. *)
  Definition credential_faults (b : bytes) : list (fault CredentialError) :=
    [ (List.length b <> 96%nat, Reject WrongNumberOfBytes);
      (bad_point 0 b, Reject NoIssuerParameters);
      (bad_point 32 b, Reject NoIssuerParameters);
      (bad_scalar 64 b, Reject ScalarFormatError) ].
  Definition request_faults (b : bytes) : list (fault CredentialError) :=
    let n := List.length b in
    [ (Nat.modulo n 32 <> 0%nat, Reject WrongNumberOfBytes);
      (bad_scalars 0 (n / 32) b, Reject ScalarFormatError) ].
  Definition issuance_faults (b : bytes) : list (fault CredentialError) :=
    [ ((List.length b < 32)%nat, Crash);
      (bad_point 0 b, Reject MissingData);
      ((List.length b < 128)%nat, Crash);
      (bad_point 32 b, Reject NoIssuerParameters);
      (bad_point 64 b, Reject NoIssuerParameters);
      (bad_scalar 96 b, Reject ScalarFormatError);
      (bad_proof 5 128 b, Reject MissingData) ].
  Definition presentation_faults (b : bytes) : list (fault CredentialError) :=
    [ (Nat.modulo (List.length b) 32 <> 0%nat, Reject WrongNumberOfBytes);
      ((List.length b < 32)%nat, Crash);
      (bad_point 0 b, Reject MissingData);
      ((List.length b < 64)%nat, Crash);
      (bad_point 32 b, Reject MissingData);
      ((List.length b < 96)%nat, Crash);
      (bad_point 64 b, Reject PointDecompressionError);
      (bad_proof 4 96 b, Reject MissingData) ].
  Definition issuer_faults (b : bytes) : list (fault CredentialError) :=
    let k := ((List.length b - 96) / 64)%nat in
    [ ((List.length b < 160)%nat, Reject MissingData);
      (bad_point 0 b, Reject PointDecompressionError);
      (bad_point 32 b, Reject PointDecompressionError);
      (Nat.modulo (List.length b) 64 <> 32%nat, Reject NoIssuerKey);
      (bad_points 64 k b, Reject NoIssuerParameters);
      (bad_scalars (64 + 32 * k) (k + 1) b, Reject ScalarFormatError) ].
  (** The user record at [off], up to the end of the input. *)
  Definition user_faults (off : nat) (b : bytes) : list (fault CredentialError) :=
    [ (List.length b <> (off + 256)%nat, Reject MissingData);
      (bad_point off b, Reject PointDecompressionError);
      (bad_point (off + 32) b, Reject PointDecompressionError);
      (bad_point (off + 64) b, Reject NoIssuerParameters);
      (present (off + 96) 64 b /\ bad_scalar (off + 96) b, Reject MissingData);
      (present (off + 96) 64 b /\ bad_point (off + 128) b, Reject MissingData);
      (present (off + 160) 96 b /\ bad_point (off + 160) b, Reject NoIssuerParameters);
      (present (off + 160) 96 b /\ bad_point (off + 192) b, Reject NoIssuerParameters);
      (present (off + 160) 96 b /\ bad_scalar (off + 224) b, Reject ScalarFormatError) ].
  Definition phone_number_faults (b : bytes) : list (fault PhoneNumberError) :=
    [ (List.length b <> 32%nat, Reject LengthExceeded) ].
  Definition committed_faults (b : bytes) : list (fault PhoneNumberError) :=
    [ ((List.length b < 32)%nat, Crash); (bad_point 0 b, Reject InvalidPhoneNumber) ].
  Definition roster_faults (b : bytes) : list (fault PhoneNumberError) :=
    [ ((List.length b < 32)%nat, Crash);
      (bad_point 0 b, Reject InvalidPhoneNumber);
      (List.length b <> 64%nat, Crash) ].
  Definition signal_presentation_faults (b : bytes) : list (fault CredentialError) :=
    [ ((List.length b < 288)%nat, Reject MissingData);
      (bad_point 0 b, Reject MissingData);
      (bad_point 32 b, Reject MissingData);
      (bad_point 64 b, Reject MissingData);
      (bad_point 96 b, Reject PointDecompressionError);
      (bad_proof 4 128 b, Reject MissingData);
      (bad_proof 4 288 b, Reject MissingData) ].
  Definition signal_user_faults (b : bytes) : list (fault CredentialError) :=
    ((List.length b < 32)%nat, Crash) :: user_faults 32 b.
End faults.
