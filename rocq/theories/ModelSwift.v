(** swift/Credential/Credential.swift: the Swift wrapper over the C API

    An object is modelled by the contents of its [data] array (and its keypair,
    for an issuer).  Swift's own memory management is not modelled: an array
    which is passed to C is put into a block of memory for the call. *)
From Verif Require Export ModelFfi.

(** credential.h:10-20. *)
Definition SW_LENGTH_SYSTEM_PARAMETERS : nat := 64.
Definition SW_LENGTH_ISSUER : nat := 160.
Definition SW_LENGTH_ISSUER_PARAMETERS : nat := 32.
Definition SW_LENGTH_ISSUER_KEYPAIR : nat := 96.
Definition SW_LENGTH_USER : nat := 288.
Definition SW_LENGTH_CREDENTIAL_ISSUANCE : nat := 328.
Definition SW_LENGTH_CREDENTIAL_PRESENTATION : nat := 448.
Definition SW_LENGTH_VERIFIED_CREDENTIAL : nat := 448.
Definition SW_LENGTH_ROSTER_ENTRY_COMMITMENT : nat := 64.

(** How a Swift function ends: it returns a value (leaving [os] of
    [thread_rng]), traps, is unwound through by a Rust panic, or goes on for
    longer than the fuel; or the C function had undefined behaviour. *)
Inductive sw_result (A : Type) : Type :=
| SwReturns (a : A) (os : rng)
| SwTraps
| SwUnwinds
| SwUndefined
| SwRunning.
Arguments SwReturns {A} a os.
Arguments SwTraps {A}.
Arguments SwUnwinds {A}.
Arguments SwUndefined {A}.
Arguments SwRunning {A}.

Definition sw_after {A} (r : call_result) (k : buf_t -> memory -> rng -> sw_result A) : sw_result A :=
  match r with
  | Returns b m os => k b m os
  | Unwinds => SwUnwinds
  | UndefinedBehaviour => SwUndefined
  | Running => SwRunning
  end.

(** What is found where a freed block was: [reuse id c i] is the byte at offset
    [i] of the block [id], which held [c] when it was freed. *)
Definition reuse_of_freed : Type := nat -> bytes -> nat -> byte.

(** [buffer.ptr.withMemoryRebound(to: UInt8.self, ..) {
       Array(UnsafeBufferPointer(start: $0, count: Int(buffer.len))) }];
    [buffer.ptr] is implicitly unwrapped, so a null pointer traps.  [None] also
    for a read outside the block. *)
Definition sw_array (reuse : reuse_of_freed) (m : memory) (b : buf_t) : option bytes :=
  let n := Z.to_nat (buf_len b) in
  match buf_ptr b with
  | Null => None
  | Static => if (n =? 0)%nat then Some [] else None
  | Block id offset =>
    match mem_block m id with
    | Live contents => slice offset (offset + n) contents
    | Freed contents => Some (map (fun i => reuse id contents (offset + i)%nat) (seq 0 n))
    | Absent => None
    end
  end.

Definition sw_read {A} (reuse : reuse_of_freed) (m : memory) (b : buf_t) (k : bytes -> sw_result A) : sw_result A :=
  match sw_array reuse m b with Some data => k data | None => SwTraps end.

(** The length passed for an array: [UInt64(x.count)]. *)
Definition sw_count (b : bytes) : Z := Z.of_nat (List.length b).

(** [guard bytes.count == length else { return }; self.data = bytes] in a
    failable initialiser.  The [return] is not [return nil]: the object is
    there, and its data is what the declaration initialised it with.
    swift/Credential/Credential.swift:14-20, 35-41, 45-51, 85-91, 95-101, 105-111, 115-121. *)
Definition sw_init_with_bytes (initial : nat) (length : nat) (b : bytes) : option bytes :=
  if (List.length b =? length)%nat then Some b else Some (zeros initial).

Definition SwSystemParameters_withBytes := sw_init_with_bytes SW_LENGTH_SYSTEM_PARAMETERS SW_LENGTH_SYSTEM_PARAMETERS.
Definition SwKeypair_withBytes := sw_init_with_bytes SW_LENGTH_ISSUER_KEYPAIR SW_LENGTH_ISSUER_KEYPAIR.
Definition SwRosterEntry_withBytes := sw_init_with_bytes SW_LENGTH_ROSTER_ENTRY_COMMITMENT SW_LENGTH_ROSTER_ENTRY_COMMITMENT.
(** [LENGTH_ISSUER_KEYPAIR], not [LENGTH_ISSUER_PARAMETERS]; swift/Credential/Credential.swift:88. *)
Definition SwIssuerParameters_withBytes := sw_init_with_bytes SW_LENGTH_ISSUER_PARAMETERS SW_LENGTH_ISSUER_KEYPAIR.
Definition SwIssuance_withBytes := sw_init_with_bytes SW_LENGTH_CREDENTIAL_ISSUANCE SW_LENGTH_CREDENTIAL_ISSUANCE.
Definition SwPresentation_withBytes := sw_init_with_bytes SW_LENGTH_CREDENTIAL_PRESENTATION SW_LENGTH_CREDENTIAL_PRESENTATION.
Definition SwVerified_withBytes := sw_init_with_bytes SW_LENGTH_VERIFIED_CREDENTIAL SW_LENGTH_VERIFIED_CREDENTIAL.

(** [SignalIssuer]; swift/Credential/Credential.swift:124-126. *)
Record SwIssuer : Type := { sw_keypair : bytes; sw_data : bytes }.

Section swift.
  Context {E : Ext} (reuse : reuse_of_freed).

  (** [SystemParameters.create]; swift/Credential/Credential.swift:22-31. *)
  Definition sw_system_parameters_create (fuel : nat) (m : memory) (os : rng) (seed : bytes) : sw_result (option bytes) :=
    if negb (List.length seed =? 32)%nat then SwReturns None os else
    let (s, m) := vec_new m seed in
    sw_after (@c_system_parameters_create E fuel m os s) (fun buffer m os =>
    sw_read reuse m buffer (fun data => SwReturns (Some data) os)).

  (** [RosterEntryCommitment.init?(withSeed:phone_number:system_parameters:)];
      swift/Credential/Credential.swift:53-66. *)
  Definition sw_roster_entry_with_seed (m : memory) (os : rng) (seed phone_number system_parameters : bytes)
      : sw_result (option bytes) :=
    if negb (List.length seed =? 32)%nat then SwReturns None os else
    let (n, m) := vec_new m phone_number in
    let (p, m) := vec_new m system_parameters in
    let (s, m) := vec_new m seed in
    sw_after (@c_roster_entry_commitment_create E m os n (sw_count phone_number) p (sw_count system_parameters) s)
      (fun buffer m os => sw_read reuse m buffer (fun data => SwReturns (Some data) os)).

  (** [RosterEntryCommitment.open]; swift/Credential/Credential.swift:68-81. *)
  Definition sw_roster_entry_open (m : memory) (os : rng) (entry phone_number system_parameters : bytes) : sw_result bool :=
    let (e, m) := vec_new m entry in
    let (n, m) := vec_new m phone_number in
    let (p, m) := vec_new m system_parameters in
    sw_after (@c_roster_entry_commitment_open E m os e (sw_count entry) n (sw_count phone_number) p (sw_count system_parameters))
      (fun buffer _ os => SwReturns (buf_len buffer =? 1) os).

  (** [SignalIssuer.init(withKeypair:system_parameters:)]; swift/Credential/Credential.swift:145-152. *)
  Definition sw_issuer_with_keypair (m : memory) (os : rng) (keypair system_parameters : bytes) : sw_result SwIssuer :=
    let (p, m) := vec_new m system_parameters in
    let (k, m) := vec_new m keypair in
    sw_after (@c_issuer_new E m os p (sw_count system_parameters) k (sw_count keypair)) (fun buffer m os =>
    sw_read reuse m buffer (fun data => SwReturns {| sw_keypair := keypair; sw_data := data |} os)).

  (** [SignalIssuer.init?(withSeed:system_parameters:)]; swift/Credential/Credential.swift:128-143. *)
  Definition sw_issuer_with_seed (m : memory) (os : rng) (seed system_parameters : bytes) : sw_result (option SwIssuer) :=
    if negb (List.length seed =? 32)%nat then SwReturns None os else
    let (p, m1) := vec_new m system_parameters in
    let (s, m1) := vec_new m1 seed in
    sw_after (@c_issuer_create E m1 os p (sw_count system_parameters) s) (fun keypair_buffer m1 os =>
    sw_read reuse m1 keypair_buffer (fun data =>
    match SwKeypair_withBytes data with
    | None => SwTraps
    | Some keypair =>
      let (p, m2) := vec_new m1 system_parameters in
      let (k, m2) := vec_new m2 keypair in
      sw_after (@c_issuer_new E m2 os p (sw_count system_parameters) k (sw_count keypair)) (fun buffer m2 os =>
      sw_read reuse m2 buffer (fun data => SwReturns (Some {| sw_keypair := keypair; sw_data := data |}) os))
    end)).

  (** [SignalIssuer.get_parameters]; swift/Credential/Credential.swift:154-162. *)
  Definition sw_get_parameters (m : memory) (os : rng) (issuer : SwIssuer) : sw_result (option bytes) :=
    let (i, m) := vec_new m (sw_data issuer) in
    sw_after (@c_issuer_get_issuer_parameters E m os i (sw_count (sw_data issuer))) (fun buffer m os =>
    sw_read reuse m buffer (fun data => SwReturns (SwIssuerParameters_withBytes data) os)).

  (** [SignalIssuer.issue]; swift/Credential/Credential.swift:164-175. *)
  Definition sw_issue (m : memory) (os : rng) (issuer : SwIssuer) (phone_number seed : bytes) : sw_result (option bytes) :=
    if negb (List.length seed =? 32)%nat then SwReturns None os else
    let (i, m) := vec_new m (sw_data issuer) in
    let (n, m) := vec_new m phone_number in
    let (s, m) := vec_new m seed in
    sw_after (@c_issuer_issue E m os i (sw_count (sw_data issuer)) n (sw_count phone_number) s) (fun buffer m os =>
    sw_read reuse m buffer (fun data => SwReturns (SwIssuance_withBytes data) os)).

  (** [SignalIssuer.verify]; swift/Credential/Credential.swift:177-186. *)
  Definition sw_verify (m : memory) (os : rng) (issuer : SwIssuer) (presentation : bytes) : sw_result (option bytes) :=
    let (i, m) := vec_new m (sw_data issuer) in
    let (p, m) := vec_new m presentation in
    sw_after (@c_issuer_verify E m os i (sw_count (sw_data issuer)) p (sw_count presentation)) (fun buffer m os =>
    sw_read reuse m buffer (fun data => SwReturns (SwVerified_withBytes data) os)).

  (** [User.init?]; swift/Credential/Credential.swift:193-205. *)
  Definition sw_user_init (m : memory) (os : rng) (phone_number system_parameters issuer_parameters issuance : bytes)
      : sw_result (option bytes) :=
    let (n, m) := vec_new m phone_number in
    let (p, m) := vec_new m system_parameters in
    let (ip, m) := vec_new m issuer_parameters in
    let (is, m) := vec_new m issuance in
    sw_after (@c_user_obtain_finish E m os n (sw_count phone_number) p (sw_count system_parameters)
                ip (sw_count issuer_parameters) is (sw_count issuance)) (fun buffer m os =>
    sw_read reuse m buffer (fun data => SwReturns (Some data) os)).

  (** [User.show]; swift/Credential/Credential.swift:207-218. *)
  Definition sw_show (m : memory) (os : rng) (user roster_entry_commitment seed : bytes) : sw_result (option bytes) :=
    if negb (List.length seed =? 32)%nat then SwReturns None os else
    let (u, m) := vec_new m user in
    let (e, m) := vec_new m roster_entry_commitment in
    let (s, m) := vec_new m seed in
    sw_after (@c_user_show E m os u (sw_count user) e (sw_count roster_entry_commitment) s) (fun buffer m os =>
    sw_read reuse m buffer (fun data => SwReturns (SwPresentation_withBytes data) os)).
End swift.
