(** The tests of the C interface; ffi/src/c.rs:286-529.  They call the functions
    as Rust functions and read the results through the pointers returned. *)
From Verif Require Import ModelFfi.
Local Open Scope Z_scope.

(** How a test ends. *)
Inductive test_end : Type :=
| Passed
| Failed
| ReadsInvalidMemory
| StillRunning.

(** A constant of the test module: where it is, and its [len()]. *)
Record constant : Type := { at_ : pointer; size : Z }.

(** The constants; ffi/src/c.rs:290-377. *)
Record constants : Type := {
  SEED : pointer;
  PHONE_NUMBER : constant;
  SYSTEM_PARAMETERS : constant;
  ISSUER_PARAMETERS : constant;
  ISSUER_KEYPAIR : constant;
  ISSUANCE : constant;
  USER_WITH_CREDENTIAL : constant;
  PRESENTATION : constant;
}.

(** ffi/src/c.rs:55-63. *)
Definition LENGTH_SYSTEM_PARAMETERS : Z := 64.
Definition LENGTH_ISSUER : Z := 160.
Definition LENGTH_ISSUER_PARAMETERS : Z := 32.
Definition LENGTH_ISSUER_KEYPAIR : Z := 96.
Definition LENGTH_USER : Z := 288.
Definition LENGTH_CREDENTIAL_ISSUANCE : Z := 328.
Definition LENGTH_CREDENTIAL_PRESENTATION : Z := 448.
Definition LENGTH_VERIFIED_CREDENTIAL : Z := 448.

(** A call in a test; a panic fails the test. *)
Definition calling (r : call_result) (k : buf_t -> memory -> rng -> test_end) : test_end :=
  match r with
  | Returns b m os => k b m os
  | Unwinds => Failed
  | UndefinedBehaviour => ReadsInvalidMemory
  | Running => StillRunning
  end.

Definition asserting (b : bool) (k : test_end) : test_end := if b then k else Failed.

(** [assert!(b.len != 0); assert!(b.len == length);] *)
Definition asserting_length (b : buf_t) (length : Z) (k : test_end) : test_end :=
  asserting (negb (buf_len b =? 0)) (asserting (buf_len b =? length) k).

Section tests.
  Context {E : Ext}.

  (** [assert_deserialized!]; ffi/src/c.rs:379-393. *)
  Definition assert_deserialized {Er A} (from_bytes : bytes -> outcome Er A)
      (m : memory) (len : Z) (p : pointer) (k : A -> test_end) : test_end :=
    match read m p (@as_size_t E len) with
    | None => ReadsInvalidMemory
    | Some b => match from_bytes b with Ok t => k t | _ => Failed end
    end.

  Definition is_basepoint (g : point E) : bool := bytes_eqb (compress g) (compress (@basepoint E)).

  Context (c : constants).

  (** ffi/src/c.rs:396-407. *)
  Definition test_system_parameters_create (fuel : nat) (m : memory) (os : rng) : test_end :=
    calling (@c_system_parameters_create E fuel m os (SEED c)) (fun b m os =>
    asserting_length b LENGTH_SYSTEM_PARAMETERS (
    assert_deserialized (@system_parameters_from_bytes E) m (buf_len b) (buf_ptr b) (fun deserialized =>
    asserting (is_basepoint (sp_g deserialized)) Passed))).

  (** ffi/src/c.rs:409-419. *)
  Definition test_issuer_create (m : memory) (os : rng) : test_end :=
    calling (@c_issuer_create E m os (at_ (SYSTEM_PARAMETERS c)) (size (SYSTEM_PARAMETERS c)) (SEED c)) (fun b m os =>
    asserting_length b LENGTH_ISSUER_KEYPAIR (
    assert_deserialized (@keypair_from_bytes E) m (buf_len b) (buf_ptr b) (fun _ => Passed))).

  Definition issuer_of_constants (m : memory) (os : rng) : call_result :=
    @c_issuer_new E m os (at_ (SYSTEM_PARAMETERS c)) (size (SYSTEM_PARAMETERS c))
      (at_ (ISSUER_KEYPAIR c)) (size (ISSUER_KEYPAIR c)).

  (** ffi/src/c.rs:421-436. *)
  Definition test_issuer_new (m : memory) (os : rng) : test_end :=
    calling (issuer_of_constants m os) (fun b m os =>
    asserting_length b LENGTH_ISSUER (
    assert_deserialized (@signal_issuer_from_bytes E) m (buf_len b) (buf_ptr b) (fun deserialized =>
    asserting (is_basepoint (sp_g (iss_system_parameters deserialized))) Passed))).

  (** ffi/src/c.rs:439-456. *)
  Definition test_issuer_get_issuer_parameters (m : memory) (os : rng) : test_end :=
    calling (issuer_of_constants m os) (fun issuer m os =>
    calling (@c_issuer_get_issuer_parameters E m os (buf_ptr issuer) (buf_len issuer)) (fun b m os =>
    asserting_length b LENGTH_ISSUER_PARAMETERS (
    assert_deserialized (@public_key_from_bytes E) m (buf_len b) (buf_ptr b) (fun deserialized =>
    asserting (match nth_error (pk_Xn deserialized) 0 with Some _ => true | None => false end) Passed)))).

  (** ffi/src/c.rs:459-473. *)
  Definition test_issuer_issue (m : memory) (os : rng) : test_end :=
    calling (issuer_of_constants m os) (fun issuer m os =>
    calling (@c_issuer_issue E m os (buf_ptr issuer) (buf_len issuer)
               (at_ (PHONE_NUMBER c)) (size (PHONE_NUMBER c)) (SEED c)) (fun b m os =>
    asserting_length b LENGTH_CREDENTIAL_ISSUANCE Passed)).

  (** ffi/src/c.rs:477-490. *)
  Definition test_issuer_verify (m : memory) (os : rng) : test_end :=
    calling (issuer_of_constants m os) (fun issuer m os =>
    calling (@c_issuer_verify E m os (buf_ptr issuer) (buf_len issuer)
               (at_ (PRESENTATION c)) (size (PRESENTATION c))) (fun b m os =>
    asserting_length b LENGTH_VERIFIED_CREDENTIAL (
    assert_deserialized (@verified_signal_from_bytes E) m (buf_len b) (buf_ptr b) (fun _ => Passed)))).

  (** ffi/src/c.rs:494-507. *)
  Definition test_user_obtain_finish (m : memory) (os : rng) : test_end :=
    calling (@c_user_obtain_finish E m os (at_ (PHONE_NUMBER c)) (size (PHONE_NUMBER c))
               (at_ (SYSTEM_PARAMETERS c)) (size (SYSTEM_PARAMETERS c))
               (at_ (ISSUER_PARAMETERS c)) (size (ISSUER_PARAMETERS c))
               (at_ (ISSUANCE c)) (size (ISSUANCE c))) (fun b m os =>
    asserting_length b LENGTH_USER Passed).

  (** ffi/src/c.rs:510-528. *)
  Definition test_user_show (m : memory) (os : rng) : test_end :=
    calling (@c_roster_entry_commitment_create E m os (at_ (PHONE_NUMBER c)) (size (PHONE_NUMBER c))
               (at_ (SYSTEM_PARAMETERS c)) (size (SYSTEM_PARAMETERS c)) (SEED c)) (fun entry m os =>
    calling (@c_user_show E m os (at_ (USER_WITH_CREDENTIAL c)) (size (USER_WITH_CREDENTIAL c))
               (buf_ptr entry) (buf_len entry) (SEED c)) (fun b m os =>
    asserting_length b LENGTH_CREDENTIAL_PRESENTATION (
    assert_deserialized (@signal_presentation_from_bytes E) m (buf_len b) (buf_ptr b) (fun _ => Passed)))).
End tests.
