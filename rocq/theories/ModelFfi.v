(** ffi/src/macros.rs and ffi/src/c.rs: the C API over an explicit memory *)
From Verif Require Export ModelSignal.

(** ** Memory *)

(** A raw pointer.  [Static] is the address of an empty constant (what
    [&[]] promotes to, and also what an empty [Vec] points to): not null, and
    no byte may be read through it. *)
Inductive pointer : Type :=
| Null
| Static
| Block (id : nat) (offset : nat).

(** A block of memory is not there yet, live, or was freed.  A freed block
    remembers what it held when it was freed; reading it is still an error. *)
Inductive block_state : Type :=
| Absent
| Live (contents : bytes)
| Freed (contents : bytes).

Record memory : Type := { mem_block : nat -> block_state; mem_next : nat }.

Definition mem_set (m : memory) (id : nat) (s : block_state) : nat -> block_state :=
  fun j => if (j =? id)%nat then s else mem_block m j.

(** [slice::from_raw_parts(p, n)] followed by reading it.  [None]: undefined
    behaviour. *)
Definition read (m : memory) (p : pointer) (n : nat) : option bytes :=
  match p with
  | Null => None
  | Static => if (n =? 0)%nat then Some [] else None
  | Block id offset =>
    if (n =? 0)%nat then Some [] else
    match mem_block m id with
    | Live contents => slice offset (offset + n) contents
    | _ => None
    end
  end.

(** [let serialized: Vec<u8> = ..]: an empty vector does not allocate. *)
Definition vec_new (m : memory) (contents : bytes) : pointer * memory :=
  match contents with
  | [] => (Static, m)
  | _ => (Block (mem_next m) 0,
          {| mem_block := mem_set m (mem_next m) (Live contents); mem_next := S (mem_next m) |})
  end.

(** The end of the scope of the vector at [p]. *)
Definition vec_drop (m : memory) (p : pointer) : memory :=
  match p with
  | Block id _ =>
    match mem_block m id with
    | Live contents => {| mem_block := mem_set m id (Freed contents); mem_next := mem_next m |}
    | _ => m
    end
  | _ => m
  end.

(** [buf_t]; ffi/src/c.rs:65-69. *)
Record buf_t : Type := { buf_len : Z; buf_ptr : pointer }.

(** ** What a statement of a C function does: go on, return from the function,
    unwind, perform undefined behaviour, or not end (within the fuel given to
    [hunt_and_peck]). *)
Inductive step (A : Type) : Type :=
| Next (a : A)
| Return (b : buf_t)
| Unwinding
| Undefined
| Looping.
Arguments Next {A} a.
Arguments Return {A} b.
Arguments Unwinding {A}.
Arguments Undefined {A}.
Arguments Looping {A}.

Definition then_ {A B} (s : step A) (k : A -> step B) : step B :=
  match s with
  | Next a => k a
  | Return b => Return b
  | Unwinding => Unwinding
  | Undefined => Undefined
  | Looping => Looping
  end.
Notation "'let!' x := e 'in' k" := (then_ e (fun x => k))
  (at level 200, x pattern, e at level 100, k at level 200, right associativity).

(** How a call ends: with the value returned, the memory and what is left of
    [thread_rng]; or not. *)
Inductive call_result : Type :=
| Returns (b : buf_t) (m : memory) (os : rng)
| Unwinds
| UndefinedBehaviour
| Running.

Definition call (m : memory) (os : rng) (s : step (buf_t * memory * rng)) : call_result :=
  match s with
  | Next (b, m', os') => Returns b m' os'
  | Return b => Returns b m os
  | Unwinding => Unwinds
  | Undefined => UndefinedBehaviour
  | Looping => Running
  end.

(** ** macros.rs *)

(** [slice_to_len_and_ptr!]; ffi/src/macros.rs:10-20. *)
Definition slice_to_len_and_ptr (p : pointer) (length : nat) : buf_t :=
  {| buf_len := Z.of_nat length; buf_ptr := p |}.

(** [zero_len_and_ptr!]; ffi/src/macros.rs:22-27. *)
Definition zero_len_and_ptr : buf_t := slice_to_len_and_ptr Static 0.

Section ffi.
  Context {E : Ext}.

  (** [len as size_t] *)
  Definition as_size_t (len : Z) : nat := Z.to_nat (len mod 2 ^ usize_bits E).

  Definition is_null (p : pointer) : bool := match p with Null => true | _ => false end.

  Definition or_undefined {A} (o : option A) : step A :=
    match o with Some a => Next a | None => Undefined end.

  (** [len_and_ptr_to_slice!]; ffi/src/macros.rs:29-38. *)
  Definition len_and_ptr_to_slice (m : memory) (len : Z) (p : pointer) : step bytes :=
    if is_null p || (len =? 0) then Return zero_len_and_ptr
    else or_undefined (read m p (as_size_t len)).

  (** [ok_or_return!]; ffi/src/macros.rs:40-52. *)
  Definition ok_or_return {Er A} (o : outcome Er A) : step A :=
    match o with
    | Ok a => Next a
    | Err _ => Return zero_len_and_ptr
    | Panic => Unwinding
    end.

  Definition LENGTH_SEED : nat := 32.

  (** [uint8_to_array!]; ffi/src/macros.rs:63-84. *)
  Definition uint8_to_array (m : memory) (p : pointer) (array_length : nat) : step (outcome unit bytes) :=
    if is_null p || (array_length =? 0)%nat then Next (Err tt) else
    let! b := or_undefined (read m p (as_size_t (Z.of_nat array_length))) in
    if negb (List.length b =? array_length)%nat then Next (Err tt)
    else Next (or_panic (to_array array_length b)).

  (** [csprng_from_seed!]; ffi/src/macros.rs:54-61. *)
  Definition csprng_from_seed (m : memory) (seed : pointer) : step rng :=
    let! o := uint8_to_array m seed LENGTH_SEED in
    let! seed_array := ok_or_return o in
    Next (@chacha E seed_array).

  (** [deserialize_or_return!]; ffi/src/macros.rs:86-93. *)
  Definition deserialize_or_return {Er A} (from_bytes : bytes -> outcome Er A)
      (m : memory) (len : Z) (p : pointer) : step A :=
    let! b := len_and_ptr_to_slice m len p in
    ok_or_return (from_bytes b).

  (** The last two lines of the C functions,
        [let serialized = serialize_or_return!(..);
         slice_to_len_and_ptr!(&serialized[..])]:
      the pointer is taken, and the vector goes out of scope. *)
  Definition return_serialized (m : memory) (os : rng) (serialized : bytes) : step (buf_t * memory * rng) :=
    let (p, m) := vec_new m serialized in
    let b := slice_to_len_and_ptr p (List.length serialized) in
    Next (b, vec_drop m p, os).

  (** ** c.rs *)

  (** [system_parameters_create]; ffi/src/c.rs:71-81. *)
  Definition c_system_parameters_create (fuel : nat) (m : memory) (os : rng) (seed : pointer) : call_result :=
    call m os (
      let! csprng := csprng_from_seed m seed in
      match @hunt_and_peck E fuel csprng with
      | None => Looping
      | Some (system_parameters, _) =>
        return_serialized m os (system_parameters_to_bytes system_parameters)
      end).

  (** [issuer_create]; ffi/src/c.rs:84-97. *)
  Definition c_issuer_create (m : memory) (os : rng) (system_parameters : pointer)
      (system_parameters_length : Z) (seed : pointer) : call_result :=
    call m os (
      let! csprng := csprng_from_seed m seed in
      let! system_params := deserialize_or_return (@system_parameters_from_bytes E) m system_parameters_length system_parameters in
      let (issuer, _) := signal_issuer_create system_params csprng in
      return_serialized m os (keypair_to_bytes (iss_keypair issuer))).

  (** [issuer_new]; ffi/src/c.rs:99-113. *)
  Definition c_issuer_new (m : memory) (os : rng) (system_parameters : pointer) (system_parameters_length : Z)
      (keypair : pointer) (keypair_length : Z) : call_result :=
    call m os (
      let! system_params := deserialize_or_return (@system_parameters_from_bytes E) m system_parameters_length system_parameters in
      let! keys := deserialize_or_return (@keypair_from_bytes E) m keypair_length keypair in
      return_serialized m os (signal_issuer_to_bytes (signal_issuer_new system_params keys))).

  (** [issuer_get_issuer_parameters]; ffi/src/c.rs:115-126. *)
  Definition c_issuer_get_issuer_parameters (m : memory) (os : rng) (issuer : pointer) (issuer_length : Z) : call_result :=
    call m os (
      let! deserialized := deserialize_or_return (@signal_issuer_from_bytes E) m issuer_length issuer in
      return_serialized m os (public_key_to_bytes (get_issuer_parameters deserialized))).

  (** [issuer_issue]; ffi/src/c.rs:128-144. *)
  Definition c_issuer_issue (m : memory) (os : rng) (issuer : pointer) (issuer_length : Z)
      (phone_number : pointer) (phone_number_length : Z) (seed : pointer) : call_result :=
    call m os (
      let! issuer := deserialize_or_return (@signal_issuer_from_bytes E) m issuer_length issuer in
      let! csprng := csprng_from_seed m seed in
      let! user_number := len_and_ptr_to_slice m phone_number_length phone_number in
      let! (issuance, _, os) := ok_or_return (signal_issue issuer user_number csprng os) in
      return_serialized m os (issuance_to_bytes issuance)).

  (** [issuer_verify]; ffi/src/c.rs:146-162. *)
  Definition c_issuer_verify (m : memory) (os : rng) (issuer : pointer) (issuer_length : Z)
      (presentation : pointer) (presentation_length : Z) : call_result :=
    call m os (
      let! issuer_deserialized := deserialize_or_return (@signal_issuer_from_bytes E) m issuer_length issuer in
      let! presentation_deserialized := deserialize_or_return (@signal_presentation_from_bytes E) m presentation_length presentation in
      let! verified := ok_or_return (signal_verify issuer_deserialized presentation_deserialized) in
      return_serialized m os (verified_signal_to_bytes verified)).

  (** [issuer_verify_roster_membership]; ffi/src/c.rs:164-180. *)
  Definition c_issuer_verify_roster_membership (m : memory) (os : rng) (issuer : pointer) (issuer_length : Z)
      (verified_credential : pointer) (verified_credential_length : Z) : call_result :=
    call m os (
      let! issuer_deserialized := deserialize_or_return (@signal_issuer_from_bytes E) m issuer_length issuer in
      let! verified := deserialize_or_return (@verified_signal_from_bytes E) m verified_credential_length verified_credential in
      let! roster_entry_commitment := ok_or_return (verify_roster_membership issuer_deserialized verified) in
      return_serialized m os (committed_to_bytes roster_entry_commitment)).

  (** [user_obtain_finish]; ffi/src/c.rs:182-208. *)
  Definition c_user_obtain_finish (m : memory) (os : rng) (phone_number : pointer) (phone_number_length : Z)
      (system_parameters : pointer) (system_parameters_length : Z)
      (issuer_parameters : pointer) (issuer_parameters_length : Z)
      (issuance : pointer) (issuance_length : Z) : call_result :=
    call m os (
      let! system_params := deserialize_or_return (@system_parameters_from_bytes E) m system_parameters_length system_parameters in
      let! issuer_params := deserialize_or_return (@public_key_from_bytes E) m issuer_parameters_length issuer_parameters in
      let! issuance_deserialized := deserialize_or_return (@issuance_from_bytes E) m issuance_length issuance in
      let! phone_number_bytes := len_and_ptr_to_slice m phone_number_length phone_number in
      let! user := ok_or_return (signal_user_new system_params issuer_params None phone_number_bytes) in
      let (user, result) := signal_obtain_finish user (Some issuance_deserialized) in
      let! _ := ok_or_return result in
      return_serialized m os (signal_user_to_bytes user)).

  (** [user_show]; ffi/src/c.rs:210-228. *)
  Definition c_user_show (m : memory) (os : rng) (user : pointer) (user_length : Z)
      (roster_entry_commitment : pointer) (roster_entry_commitment_length : Z) (seed : pointer) : call_result :=
    call m os (
      let! csprng := csprng_from_seed m seed in
      let! user_deserialized := deserialize_or_return (@signal_user_from_bytes E) m user_length user in
      let! entry := deserialize_or_return (@roster_from_bytes E) m roster_entry_commitment_length roster_entry_commitment in
      let! (presentation, _, os) := ok_or_return (signal_show user_deserialized csprng os entry) in
      return_serialized m os (signal_presentation_to_bytes presentation)).

  (** [roster_entry_commitment_create]; ffi/src/c.rs:230-246. *)
  Definition c_roster_entry_commitment_create (m : memory) (os : rng) (phone_number : pointer)
      (phone_number_length : Z) (system_parameters : pointer) (system_parameters_length : Z) (seed : pointer) : call_result :=
    call m os (
      let! csprng := csprng_from_seed m seed in
      let! number := len_and_ptr_to_slice m phone_number_length phone_number in
      let! system_params := deserialize_or_return (@system_parameters_from_bytes E) m system_parameters_length system_parameters in
      let! (roster_entry, _) := ok_or_return (roster_create number system_params csprng) in
      return_serialized m os (roster_to_bytes roster_entry)).

  (** [roster_entry_commitment_remove_opening]; ffi/src/c.rs:248-260. *)
  Definition c_roster_entry_commitment_remove_opening (m : memory) (os : rng)
      (roster_entry_commitment : pointer) (roster_entry_commitment_length : Z) : call_result :=
    call m os (
      let! deserialized := deserialize_or_return (@roster_from_bytes E) m roster_entry_commitment_length roster_entry_commitment in
      return_serialized m os (committed_to_bytes (re_commitment deserialized))).

  (** [roster_entry_commitment_open]; ffi/src/c.rs:262-284. *)
  Definition c_roster_entry_commitment_open (m : memory) (os : rng)
      (roster_entry_commitment : pointer) (roster_entry_commitment_length : Z)
      (phone_number : pointer) (phone_number_length : Z)
      (system_parameters : pointer) (system_parameters_length : Z) : call_result :=
    call m os (
      let! number := len_and_ptr_to_slice m phone_number_length phone_number in
      let! system_params := deserialize_or_return (@system_parameters_from_bytes E) m system_parameters_length system_parameters in
      let! roster_entry := deserialize_or_return (@roster_from_bytes E) m roster_entry_commitment_length roster_entry_commitment in
      match roster_open roster_entry number system_params with
      | Ok _ => Next ({| buf_ptr := Null; buf_len := 1 |}, m, os)
      | Err _ => Next ({| buf_ptr := Null; buf_len := 0 |}, m, os)
      | Panic => Unwinding
      end).

  (** The C API: one constructor per exported function, with the function's
      arguments in order. *)
  Inductive c_function : Type :=
  | SystemParametersCreate (seed : pointer)
  | IssuerCreate (params : pointer) (params_len : Z) (seed : pointer)
  | IssuerNew (params : pointer) (params_len : Z) (keypair : pointer) (keypair_len : Z)
  | IssuerGetIssuerParameters (issuer : pointer) (issuer_len : Z)
  | IssuerIssue (issuer : pointer) (issuer_len : Z) (number : pointer) (number_len : Z) (seed : pointer)
  | IssuerVerify (issuer : pointer) (issuer_len : Z) (presentation : pointer) (presentation_len : Z)
  | IssuerVerifyRosterMembership (issuer : pointer) (issuer_len : Z) (verified : pointer) (verified_len : Z)
  | UserObtainFinish (number : pointer) (number_len : Z) (params : pointer) (params_len : Z)
      (issuer_params : pointer) (issuer_params_len : Z) (issuance : pointer) (issuance_len : Z)
  | UserShow (user : pointer) (user_len : Z) (entry : pointer) (entry_len : Z) (seed : pointer)
  | RosterEntryCommitmentCreate (number : pointer) (number_len : Z) (params : pointer) (params_len : Z) (seed : pointer)
  | RosterEntryCommitmentRemoveOpening (entry : pointer) (entry_len : Z)
  | RosterEntryCommitmentOpen (entry : pointer) (entry_len : Z) (number : pointer) (number_len : Z)
      (params : pointer) (params_len : Z).

  Definition c_run (fuel : nat) (m : memory) (os : rng) (f : c_function) : call_result :=
    match f with
    | SystemParametersCreate seed => c_system_parameters_create fuel m os seed
    | IssuerCreate p l s => c_issuer_create m os p l s
    | IssuerNew p l k kl => c_issuer_new m os p l k kl
    | IssuerGetIssuerParameters i l => c_issuer_get_issuer_parameters m os i l
    | IssuerIssue i l n nl s => c_issuer_issue m os i l n nl s
    | IssuerVerify i l p pl => c_issuer_verify m os i l p pl
    | IssuerVerifyRosterMembership i l v vl => c_issuer_verify_roster_membership m os i l v vl
    | UserObtainFinish n nl p pl ip ipl s sl => c_user_obtain_finish m os n nl p pl ip ipl s sl
    | UserShow u ul e el s => c_user_show m os u ul e el s
    | RosterEntryCommitmentCreate n nl p pl s => c_roster_entry_commitment_create m os n nl p pl s
    | RosterEntryCommitmentRemoveOpening e el => c_roster_entry_commitment_remove_opening m os e el
    | RosterEntryCommitmentOpen e el n nl p pl => c_roster_entry_commitment_open m os e el n nl p pl
    end.
End ffi.
