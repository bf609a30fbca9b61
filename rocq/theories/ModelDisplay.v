(** The texts of the errors: [Display] of aeonflux/src/errors.rs and
    signal-credential/src/errors.rs *)
From Verif Require Export ModelErrors.
From Coq Require Import String DecimalString.
Local Open Scope string_scope.

(** [{}] of a [usize]: decimal digits without leading zeros. *)
Definition usize_text (n : nat) : string := NilZero.string_of_uint (Nat.to_uint n).

(** [Display for MacError]; aeonflux/src/errors.rs:38-53. *)
Definition mac_error_text (e : MacError) : string :=
  match e with
  | KeypairDeserialisation => "Cannot deserialise keypair"
  | MacPointDecompressionError => "Cannot decompress Ristretto point"
  | MacScalarFormatError => "Cannot use scalar with high-bit set"
  | MessageLengthError l => "Message must be " ++ usize_text l ++ " bytes in length"
  | AuthenticationError => "MAC could not be authenticated"
  end.

(** [Display for CredentialError]; aeonflux/src/errors.rs:80-109. *)
Definition credential_error_text (e : CredentialError) : string :=
  match e with
  | BadAttribute => "An attribute was unacceptable"
  | CredentialIssuanceError => "Failed to get a credential issued"
  | MacCreation => "Could not create a MAC"
  | MacVerification => "Could not verify a MAC"
  | MissingData => "Some data, such as a key or zkproof, was missing"
  | NoIssuerKey => "The issuer was not initialised properly and has no secret key"
  | NoIssuerParameters => "The issuer was not initialised properly and has no parameters"
  | NoSystemParameters => "The system parameters were not initialised"
  | PointDecompressionError => "Cannot decompress Ristretto point"
  | ScalarFormatError => "Cannot use scalar with high-bit set"
  | WrongNumberOfAttributes => "The credential did not have the correct number of attributes"
  | WrongNumberOfBytes => "The credential could not be deserialised because it was not a multiple of 32 bytes"
  | VerificationFailure => "The proof could not be verified"
  end.

(** [Display for PhoneNumberError]; signal-credential/src/errors.rs:30-39. *)
Definition phone_error_text (e : PhoneNumberError) : string :=
  match e with
  | LengthExceeded => "A canonicalised phone number cannot be more than 32 bytes"
  | InvalidPhoneNumber => "The user's proof of roster membership could not be verified"
  end.
