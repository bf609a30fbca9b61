(** aeonflux/src/errors.rs and signal-credential/src/errors.rs *)
From Verif Require Export External.

(** [MacError]; aeonflux/src/errors.rs:25-36. *)
Inductive MacError : Type :=
| KeypairDeserialisation
| MacPointDecompressionError
| MacScalarFormatError
| MessageLengthError (length : nat)
| AuthenticationError.

(** [CredentialError]; aeonflux/src/errors.rs:63-78. *)
Inductive CredentialError : Type :=
| BadAttribute
| CredentialIssuanceError          (* CredentialError::CredentialIssuance *)
| MacCreation
| MacVerification
| MissingData
| NoIssuerKey
| NoIssuerParameters
| NoSystemParameters
| PointDecompressionError
| ScalarFormatError
| WrongNumberOfAttributes
| WrongNumberOfBytes
| VerificationFailure.

(** [From<MacError> for CredentialError]; aeonflux/src/errors.rs:119-134. *)
Definition mac_to_credential_error (e : MacError) : CredentialError :=
  match e with
  | KeypairDeserialisation => NoIssuerKey
  | MacPointDecompressionError => NoIssuerParameters
  | MacScalarFormatError => ScalarFormatError
  | MessageLengthError _ => MacCreation
  | AuthenticationError => MacVerification
  end.

(** [From<NoneError> for MacError]; aeonflux/src/errors.rs:57-61. *)
Definition none_mac : MacError := MacPointDecompressionError.

(** [From<NoneError> for CredentialError]; aeonflux/src/errors.rs:113-117. *)
Definition none_credential : CredentialError := MissingData.

(** [PhoneNumberError]; signal-credential/src/errors.rs:24-28.  [From<NoneError>
    for PhoneNumberError]; signal-credential/src/errors.rs:43-47, is the constant
    [InvalidPhoneNumber]. *)
Inductive PhoneNumberError : Type :=
| LengthExceeded
| InvalidPhoneNumber.

(** [From<PhoneNumberError> for CredentialError];
    signal-credential/src/errors.rs:49-53. *)
Definition phone_to_credential_error (_ : PhoneNumberError) : CredentialError := MissingData.

(** [From<CredentialError> for PhoneNumberError];
    signal-credential/src/errors.rs:55-59. *)
Definition credential_to_phone_error (_ : CredentialError) : PhoneNumberError := InvalidPhoneNumber.
