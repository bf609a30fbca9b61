(** build-test/electron: the crate and its JavaScript; and what [#[derive(Debug)]] and
    [#[derive(PartialEq)]] give for the error types.

    [format!] is given a block by the allocator of the WebAssembly module, in which the
    text is; how often the block has been enlarged on the way is not modelled. *)
From Verif Require Import ModelBuildTest ModelDerived ModelDisplay ModelMemory.
From Coq Require Import String.
Local Open Scope string_scope.

(** [Debug for CompressedRistretto] of curve25519-dalek:
    ["CompressedRistretto: {:?}"] of the 32 bytes. *)
Definition compressed_debug (b : bytes) : string := "CompressedRistretto: " ++ debug_list (map byte_text b).

(** A text and its bytes in UTF-8, for characters below 128. *)
Definition text_bytes (t : string) : bytes := list_byte_of_string t.

Section electron.
  Context {E : Ext} (A : allocator) (decode : bytes -> string).

  (** [getStringFromWasm]; build-test/electron/site/electron.js:18-20 with [getUint8Memory],
      build-test/electron/site/electron.js:10-16.  [subarray] of a view of a buffer that is
      no longer the memory is empty. *)
  Definition get_string (s : page) (ptr len : nat) : string * page :=
    let v := get_memory_view (mem s) (view s) in
    let b := if Nat.eqb v (buffer (mem s)) then mem_slice (mem s) ptr len else [] in
    (decode b, {| mem := mem s; view := Some v |}).

  (** [do_things_with_maths]; build-test/electron/src/lib.rs:24-27, with [__wbg_alert],
      build-test/electron/site/electron.js:22-25.  The result is what is passed to [alert];
      [None]: there is no memory for the text. *)
  Definition electron_do_things (s : page) (os : rng) : option string * page * rng :=
    let (point, os) := @do_things_with_maths E os in
    let text := text_bytes (compressed_debug point) in
    match malloc A (mem s) (List.length text) with
    | None => (None, s, os)
    | Some (ptr, m) =>
      let m := {| cells := overwrite (cells m) ptr text; buffer := buffer m; allocated := allocated m |} in
      let (shown, s) := get_string {| mem := m; view := view s |} ptr (List.length text) in
      (Some shown, {| mem := free A (mem s) ptr (List.length text); view := view s |}, os)
    end.
End electron.

(** ** Errors *)

(** [Debug for MacError]; aeonflux/src/errors.rs:24-36. *)
Definition debug_mac_error (e : MacError) : string :=
  match e with
  | KeypairDeserialisation => "KeypairDeserialisation"
  | MacPointDecompressionError => "PointDecompressionError"
  | MacScalarFormatError => "ScalarFormatError"
  | MessageLengthError l => debug_struct "MessageLengthError" [("length", usize_text l)]
  | AuthenticationError => "AuthenticationError"
  end.

(** [Debug for CredentialError]; aeonflux/src/errors.rs:63-78. *)
Definition debug_credential_error (e : CredentialError) : string :=
  match e with
  | BadAttribute => "BadAttribute"
  | CredentialIssuanceError => "CredentialIssuance"
  | MacCreation => "MacCreation"
  | MacVerification => "MacVerification"
  | MissingData => "MissingData"
  | NoIssuerKey => "NoIssuerKey"
  | NoIssuerParameters => "NoIssuerParameters"
  | NoSystemParameters => "NoSystemParameters"
  | PointDecompressionError => "PointDecompressionError"
  | ScalarFormatError => "ScalarFormatError"
  | WrongNumberOfAttributes => "WrongNumberOfAttributes"
  | WrongNumberOfBytes => "WrongNumberOfBytes"
  | VerificationFailure => "VerificationFailure"
  end.

(** [Debug for PhoneNumberError]; signal-credential/src/errors.rs:24-28. *)
Definition debug_phone_error (e : PhoneNumberError) : string :=
  match e with LengthExceeded => "LengthExceeded" | InvalidPhoneNumber => "InvalidPhoneNumber" end.

(** Derived [==]: the variants are compared by their numbers, then the fields;
    aeonflux/src/errors.rs:24, 63; signal-credential/src/errors.rs:24. *)
Definition mac_error_variant (e : MacError) : nat :=
  match e with
  | KeypairDeserialisation => 0 | MacPointDecompressionError => 1 | MacScalarFormatError => 2
  | MessageLengthError _ => 3 | AuthenticationError => 4
  end.
Definition mac_error_eqb (e e' : MacError) : bool :=
  if negb (Nat.eqb (mac_error_variant e) (mac_error_variant e')) then false else
  match e, e' with
  | MessageLengthError l, MessageLengthError l' => Nat.eqb l l'
  | _, _ => true
  end.
Definition credential_error_variant (e : CredentialError) : nat :=
  match e with
  | BadAttribute => 0 | CredentialIssuanceError => 1 | MacCreation => 2 | MacVerification => 3 | MissingData => 4
  | NoIssuerKey => 5 | NoIssuerParameters => 6 | NoSystemParameters => 7 | PointDecompressionError => 8
  | ScalarFormatError => 9 | WrongNumberOfAttributes => 10 | WrongNumberOfBytes => 11 | VerificationFailure => 12
  end.
Definition credential_error_eqb (e e' : CredentialError) : bool :=
  Nat.eqb (credential_error_variant e) (credential_error_variant e').
Definition phone_error_variant (e : PhoneNumberError) : nat := match e with LengthExceeded => 0 | InvalidPhoneNumber => 1 end.
Definition phone_error_eqb (e e' : PhoneNumberError) : bool := Nat.eqb (phone_error_variant e) (phone_error_variant e').
