(** What running time shows of a call through the C interface, and of a value
    which crosses to JavaScript.

    [ModelTiming] times the library; here are the encoders and the decoders which
    it leaves out, ffi/src/macros.rs, the functions of ffi/src/c.rs, and the JSON
    text in which wasm/src/js.rs hands values over.

    Taken from the documentation of the external crates, not proved: seeding
    ChaCha20 and drawing from it show nothing; bincode shows how many scalars it
    writes, and which of its checks fail when it reads; allocating a vector
    shows its length. *)
From Verif Require Export ModelTiming ModelSerde ModelFfi.

(** ** Encoders *)

(** [for x in l.iter() { v.extend(f(x)) }] *)
Fixpoint t_flat_map {A} (f : A -> bytes) (l : list A) : timed bytes :=
  match l with
  | [] => seen (Branch false) []
  | x :: l' => time! _ <- t_if true; time! b <- t_flat_map f l'; now (f x ++ b)%list
  end.

Section encoders.
  Context {E : Ext}.

  (** [PublicKey::to_bytes]; aeonflux/src/amacs.rs:187-195. *)
  Definition t_public_key_to_bytes (k : PublicKey E) : timed bytes :=
    t_flat_map compress (pk_Xn k).

  (** [SecretKey::to_bytes]; aeonflux/src/amacs.rs:272-282. *)
  Definition t_secret_key_to_bytes (k : SecretKey) : timed bytes :=
    time! xn <- t_flat_map scalar_to_bytes (sk_xn k);
    now (scalar_to_bytes (sk_x0 k) ++ xn)%list.

  (** [Keypair::to_bytes]; aeonflux/src/amacs.rs:369-376. *)
  Definition t_keypair_to_bytes (k : Keypair E) : timed bytes :=
    time! public <- t_public_key_to_bytes (kp_public k);
    time! secret <- t_secret_key_to_bytes (kp_secret k);
    now (public ++ secret)%list.

  (** [Issuer::to_bytes]; aeonflux/src/issuer.rs:66-73. *)
  Definition t_issuer_to_bytes (i : Issuer E) : timed bytes :=
    time! keypair <- t_keypair_to_bytes (iss_keypair i);
    now (system_parameters_to_bytes (iss_system_parameters i) ++ keypair)%list.

  (** [Credential::to_bytes]; aeonflux/src/credential.rs:104-114. *)
  Definition t_credential_to_bytes (c : Credential E) : timed bytes :=
    time! attributes <- t_flat_map scalar_to_bytes (cr_attributes c);
    now (tag_to_bytes (cr_mac c) ++ attributes)%list.

  (** [bincode::serialize] of a proof. *)
  Definition t_bincode_serialize (l : list scalar) : timed bytes :=
    seen (Length (List.length l)) (bincode_serialize l).

  (** [CredentialIssuance::to_bytes]; aeonflux/src/credential.rs:226-242. *)
  Definition t_issuance_to_bytes (i : CredentialIssuance E) : timed bytes :=
    time! credential <- t_credential_to_bytes (is_credential i);
    time! proof <- t_bincode_serialize (ir_proof_scalars (is_proof i));
    time! _ <- t_if true;
    now (commitment_to_bytes (is_secret_key_commitment i) ++ credential ++ proof)%list.

  (** [CredentialPresentation::to_bytes]; aeonflux/src/credential.rs:323-346. *)
  Definition t_presentation_to_bytes (p : CredentialPresentation E) : timed bytes :=
    time! revealed <- t_flat_map scalar_to_bytes (pr_attributes_revealed p);
    time! blinded <- t_flat_map commitment_to_bytes (pr_attributes_blinded p);
    time! proof <- t_bincode_serialize (vc_proof_scalars (pr_proof p));
    time! _ <- t_if true;
    now (commitment_to_bytes (pr_rerandomized_mac_commitment p)
         ++ compress (pr_rerandomized_nonce p) ++ revealed ++ blinded ++ proof)%list.

  (** [SignalCredentialPresentation::to_bytes]; signal-credential/src/credential.rs:91-108. *)
  Definition t_signal_presentation_to_bytes (p : SignalCredentialPresentation E) : timed bytes :=
    time! presentation <- t_presentation_to_bytes (sc_presentation p);
    time! proof <- t_bincode_serialize (ce_proof_scalars (sc_roster_membership_proof p));
    time! _ <- t_if true;
    now (committed_to_bytes (sc_roster_entry_commitment p) ++ presentation ++ proof)%list.

  (** [User::to_bytes]; aeonflux/src/user.rs:87-104. *)
  Definition t_user_to_bytes (u : User E) : timed bytes :=
    time! issuer_parameters <- t_public_key_to_bytes (us_issuer_parameters u);
    time! key <- match us_key u with
                 | None => seen (Branch false) (zeros 64)
                 | Some k => seen (Branch true) (elgamal_keypair_to_bytes k)
                 end;
    time! credential <- match us_credential u with
                        | None => seen (Branch false) (zeros 96)
                        | Some c => time! _ <- t_if true; t_credential_to_bytes c
                        end;
    now (system_parameters_to_bytes (us_system_parameters u) ++ issuer_parameters ++ key ++ credential)%list.

  (** [SignalUser::to_bytes]; signal-credential/src/user.rs:53-60. *)
  Definition t_signal_user_to_bytes (u : SignalUser E) : timed bytes :=
    time! user <- t_user_to_bytes (su_user u);
    now (phone_number_to_bytes (su_phone_number u) ++ user)%list.

  (** ** Decoders *)

  (** [Commitment::from_bytes]; aeonflux/src/pedersen.rs:67-73. *)
  Definition t_commitment_from_bytes (b : bytes) : timed (outcome CredentialError (point E)) :=
    try! tmp <- now (or_panic (slice 0 32 b));
    attempt (now (ok_or none_credential (decompress tmp))).

  (** [CommittedPhoneNumber::from_bytes]; signal-credential/src/phone_number.rs:279-281. *)
  Definition t_committed_from_bytes (b : bytes) : timed (outcome PhoneNumberError (point E)) :=
    attempt (t_map_err credential_to_phone_error (t_commitment_from_bytes b)).

  (** [RosterEntryCommitment::from_bytes]; signal-credential/src/phone_number.rs:325-335. *)
  Definition t_roster_from_bytes (b : bytes) : timed (outcome PhoneNumberError (RosterEntryCommitment E)) :=
    try! cb <- now (or_panic (slice 0 32 b));
    try! commitment <- t_committed_from_bytes cb;
    try! ob <- now (or_panic (slice_from 32 b));
    try! tmp <- now (or_panic (to_array 32 ob));
    now (Ok {| re_commitment := commitment; re_opening := from_bits tmp |}).

  (** [bincode::deserialize], one scalar: the length before it, that there are as
      many bytes, and that they are canonical. *)
  Definition t_bincode_read_scalar (b : bytes) : timed (option (scalar * bytes)) :=
    time! short <- t_if (List.length b <? 8)%nat;
    if short then now None else
    let len := le_decode (firstn 8 b) in
    let b := skipn 8 b in
    time! bad <- t_if (negb (len =? 32));
    if bad then now None else
    time! short <- t_if (List.length b <? 32)%nat;
    if short then now None else
    match from_canonical_bytes (firstn 32 b) with
    | Some s => seen (Branch true) (Some (s, skipn 32 b))
    | None => seen (Branch false) None
    end.
  Fixpoint t_bincode_read_scalars (n : nat) (b : bytes) : timed (option (list scalar * bytes)) :=
    match n with
    | O => now (Some ([], b))
    | S n' =>
      time! o <- t_bincode_read_scalar b;
      match o with
      | Some (s, b) =>
        time! o <- t_bincode_read_scalars n' b;
        now (match o with Some (l, b) => Some (s :: l, b) | None => None end)
      | None => now None
      end
    end.
  Definition t_bincode_deserialize {P} (n : nat) (of_scalars : list scalar -> option P) (b : bytes)
    : timed (option P) :=
    time! o <- t_bincode_read_scalars n b;
    now (match o with Some (l, _) => of_scalars l | None => None end).

  (** [match deserialize(..) { Ok(x) => x, Err(_x) => return Err(MissingData) }] *)
  Definition t_proof {P} (n : nat) (of_scalars : list scalar -> option P) (b : bytes)
    : timed (outcome CredentialError P) :=
    time! o <- t_bincode_deserialize n of_scalars b; now (ok_or MissingData o).

  (** [CredentialIssuance::from_bytes]; aeonflux/src/credential.rs:211-224. *)
  Definition t_issuance_from_bytes (b : bytes) : timed (outcome CredentialError (CredentialIssuance E)) :=
    try! cb <- now (or_panic (slice 0 32 b));
    try! secret_key_commitment <- t_commitment_from_bytes cb;
    try! kb <- now (or_panic (slice 32 (32 + SIZEOF_CREDENTIAL) b));
    try! credential <- t_credential_from_bytes kb;
    try! pb <- now (or_panic (slice_from (32 + SIZEOF_CREDENTIAL) b));
    try! proof <- t_proof 5 ir_proof_of_scalars pb;
    now (Ok {| is_secret_key_commitment := secret_key_commitment;
               is_credential := credential;
               is_proof := proof |}).

  (** The loop over the attribute chunks of [CredentialPresentation::from_bytes];
      aeonflux/src/credential.rs:284-302. *)
  Fixpoint t_presentation_attributes (processed : nat) (cs : list bytes)
    : timed (outcome CredentialError (list scalar * list (point E))) :=
    match cs with
    | [] => seen (Branch false) (Ok ([], []))
    | chunk :: cs' =>
      time! _ <- t_if true;
      time! in_clear <- t_if (processed <? PRESENTATION_NUMBER_OF_REVEALED_ATTRIBUTES)%nat;
      if in_clear then
        pass! x <- t_attribute_from_chunk chunk;
        pass! (revealed, blinded) <- t_presentation_attributes (S processed) cs';
        now (Ok (x :: revealed, blinded))
      else
        try! x <- t_map_err (fun _ => PointDecompressionError) (t_commitment_from_bytes chunk);
        pass! (revealed, blinded) <- t_presentation_attributes (S processed) cs';
        now (Ok (revealed, x :: blinded))
    end.

  (** [CredentialPresentation::from_bytes]; aeonflux/src/credential.rs:267-321. *)
  Definition t_presentation_from_bytes (b : bytes) : timed (outcome CredentialError (CredentialPresentation E)) :=
    let length := List.length b in
    time! bad <- t_if (negb (Nat.modulo length 32 =? 0)%nat);
    if bad then now (Err WrongNumberOfBytes) else
    try! cb <- now (or_panic (slice 0 32 b));
    try! mac_commitment <- t_commitment_from_bytes cb;
    try! nb <- now (or_panic (slice 32 64 b));
    try! nonce <- now (ok_or none_credential (decompress nb));
    let attributes_offset :=
      (32 * (PRESENTATION_NUMBER_OF_REVEALED_ATTRIBUTES
             + PRESENTATION_NUMBER_OF_BLINDED_ATTRIBUTES))%nat in
    try! ab <- now (or_panic (slice 64 (64 + attributes_offset) b));
    pass! (revealed, blinded) <- t_presentation_attributes 0 (chunks 32 ab);
    try! pb <- now (or_panic (slice_from (64 + attributes_offset) b));
    try! proof <- t_proof 4 vc_proof_of_scalars pb;
    now (Ok {| pr_rerandomized_mac_commitment := mac_commitment;
               pr_rerandomized_nonce := nonce;
               pr_attributes_revealed := revealed;
               pr_attributes_blinded := blinded;
               pr_proof := proof |}).

  (** [SignalCredentialPresentation::from_bytes]; signal-credential/src/credential.rs:65-89. *)
  Definition t_signal_presentation_from_bytes (b : bytes)
    : timed (outcome CredentialError (SignalCredentialPresentation E)) :=
    time! short <- t_if (List.length b <? 32 + SIZEOF_CREDENTIAL_PRESENTATION)%nat;
    if short then now (Err MissingData) else
    try! rb <- now (or_panic (slice 0 32 b));
    try! roster_entry_commitment <- t_map_err phone_to_credential_error (t_committed_from_bytes rb);
    try! pb <- now (or_panic (slice 32 (32 + SIZEOF_CREDENTIAL_PRESENTATION) b));
    try! presentation <- t_presentation_from_bytes pb;
    try! fb <- now (or_panic (slice_from (32 + SIZEOF_CREDENTIAL_PRESENTATION) b));
    try! proof <- t_proof 4 ce_proof_of_scalars fb;
    now (Ok {| sc_roster_entry_commitment := roster_entry_commitment;
               sc_presentation := presentation;
               sc_roster_membership_proof := proof |}).

  (** [VerifiedSignalCredential::from_bytes]; signal-credential/src/credential.rs:129-131. *)
  Definition t_verified_signal_from_bytes (b : bytes)
    : timed (outcome CredentialError (VerifiedSignalCredential E)) :=
    try! p <- t_signal_presentation_from_bytes b;
    now (Ok {| vs_presentation := p |}).

  (** [SystemParameters::hunt_and_peck]; aeonflux/src/parameters.rs:102-124. *)
  Fixpoint t_hunt_and_peck (fuel : nat) (r : rng) : timed (option (SystemParameters E * rng)) :=
    match fuel with
    | O => now None
    | S f =>
      time! _ <- t_if true;
      let (tmp, r) := fill_bytes 32 r in
      time! same <- t_bytes_eqb tmp (compress (@basepoint E));
      match (if same then None else decompress tmp) with
      | Some h => seen (Branch false) (Some ({| sp_g := basepoint; sp_h := h |}, r))
      | None => t_hunt_and_peck f r
      end
    end.
End encoders.

(** ** macros.rs *)

Definition t_then {A B} (m : timed (step A)) (k : A -> timed (step B)) : timed (step B) :=
  time! s <- m;
  match s with
  | Next a => k a
  | Return b => now (Return b)
  | Unwinding => now Unwinding
  | Undefined => now Undefined
  | Looping => now Looping
  end.
Notation "'go!' x <- e ; k" := (t_then e (fun x => k))
  (at level 200, x pattern, e at level 100, k at level 200, right associativity).

Section ffi.
  Context {E : Ext}.

  (** [len_and_ptr_to_slice!]; ffi/src/macros.rs:29-38. *)
  Definition t_len_and_ptr_to_slice (m : memory) (len : Z) (p : pointer) : timed (step bytes) :=
    time! none <- t_or (is_null p) (len =? 0);
    if none then now (Return zero_len_and_ptr)
    else now (or_undefined (read m p (@as_size_t E len))).

  (** [ok_or_return!]; ffi/src/macros.rs:40-52. *)
  Definition t_ok_or_return {Er A} (m : timed (outcome Er A)) : timed (step A) :=
    time! o <- attempt m; now (ok_or_return o).

  (** [uint8_to_array!]; ffi/src/macros.rs:63-84. *)
  Definition t_uint8_to_array (m : memory) (p : pointer) (array_length : nat)
    : timed (step (outcome unit bytes)) :=
    time! none <- t_or (is_null p) (array_length =? 0)%nat;
    if none then now (Next (Err tt)) else
    go! b <- now (or_undefined (read m p (@as_size_t E (Z.of_nat array_length))));
    time! bad <- t_if (negb (List.length b =? array_length)%nat);
    if bad then now (Next (Err tt)) else
    time! o <- attempt (now (or_panic (to_array array_length b)));
    now (Next o).

  (** [csprng_from_seed!]; ffi/src/macros.rs:54-61. *)
  Definition t_csprng_from_seed (m : memory) (seed : pointer) : timed (step rng) :=
    go! o <- t_uint8_to_array m seed LENGTH_SEED;
    go! seed_array <- t_ok_or_return (now o);
    now (Next (@chacha E seed_array)).

  (** [deserialize_or_return!]; ffi/src/macros.rs:86-93. *)
  Definition t_deserialize_or_return {Er A} (from_bytes : bytes -> timed (outcome Er A))
      (m : memory) (len : Z) (p : pointer) : timed (step A) :=
    go! b <- t_len_and_ptr_to_slice m len p;
    t_ok_or_return (from_bytes b).

  (** [serialize_or_return!] and [slice_to_len_and_ptr!] at the end of a function;
      ffi/src/macros.rs:10-20, 95-100. *)
  Definition t_return_serialized (m : memory) (os : rng) (serialized : timed bytes)
    : timed (step (buf_t * memory * rng)) :=
    time! b <- serialized;
    seen (Length (List.length b)) (return_serialized m os b).

  Definition t_call (m : memory) (os : rng) (s : timed (step (buf_t * memory * rng))) : timed call_result :=
    time! r <- s; now (call m os r).

  (** ** c.rs *)

  (** [system_parameters_create]; ffi/src/c.rs:71-81. *)
  Definition t_c_system_parameters_create (fuel : nat) (m : memory) (os : rng) (seed : pointer) : timed call_result :=
    t_call m os (
      go! csprng <- t_csprng_from_seed m seed;
      time! found <- @t_hunt_and_peck E fuel csprng;
      match found with
      | None => now Looping
      | Some (system_parameters, _) =>
        t_return_serialized m os (now (system_parameters_to_bytes system_parameters))
      end).

  (** [issuer_create]; ffi/src/c.rs:84-97. *)
  Definition t_c_issuer_create (m : memory) (os : rng) (system_parameters : pointer)
      (system_parameters_length : Z) (seed : pointer) : timed call_result :=
    t_call m os (
      go! csprng <- t_csprng_from_seed m seed;
      go! system_params <- t_deserialize_or_return (@t_system_parameters_from_bytes E) m system_parameters_length system_parameters;
      time! (issuer, _) <- t_issuer_create system_params csprng;
      t_return_serialized m os (t_keypair_to_bytes (iss_keypair issuer))).

  (** [issuer_new]; ffi/src/c.rs:99-113. *)
  Definition t_c_issuer_new (m : memory) (os : rng) (system_parameters : pointer) (system_parameters_length : Z)
      (keypair : pointer) (keypair_length : Z) : timed call_result :=
    t_call m os (
      go! system_params <- t_deserialize_or_return (@t_system_parameters_from_bytes E) m system_parameters_length system_parameters;
      go! keys <- t_deserialize_or_return (@t_keypair_from_bytes E) m keypair_length keypair;
      t_return_serialized m os (t_issuer_to_bytes (signal_issuer_new system_params keys))).

  (** [issuer_get_issuer_parameters]; ffi/src/c.rs:115-126. *)
  Definition t_c_issuer_get_issuer_parameters (m : memory) (os : rng) (issuer : pointer) (issuer_length : Z) : timed call_result :=
    t_call m os (
      go! deserialized <- t_deserialize_or_return (@t_issuer_from_bytes E) m issuer_length issuer;
      t_return_serialized m os (t_public_key_to_bytes (get_issuer_parameters deserialized))).

  (** [issuer_issue]; ffi/src/c.rs:128-144. *)
  Definition t_c_issuer_issue (m : memory) (os : rng) (issuer : pointer) (issuer_length : Z)
      (phone_number : pointer) (phone_number_length : Z) (seed : pointer) : timed call_result :=
    t_call m os (
      go! issuer <- t_deserialize_or_return (@t_issuer_from_bytes E) m issuer_length issuer;
      go! csprng <- t_csprng_from_seed m seed;
      go! user_number <- t_len_and_ptr_to_slice m phone_number_length phone_number;
      go! (issuance, _, os) <- t_ok_or_return (t_signal_issue issuer user_number csprng os);
      t_return_serialized m os (t_issuance_to_bytes issuance)).

  (** [issuer_verify]; ffi/src/c.rs:146-162. *)
  Definition t_c_issuer_verify (m : memory) (os : rng) (issuer : pointer) (issuer_length : Z)
      (presentation : pointer) (presentation_length : Z) : timed call_result :=
    t_call m os (
      go! issuer_deserialized <- t_deserialize_or_return (@t_issuer_from_bytes E) m issuer_length issuer;
      go! presentation_deserialized <- t_deserialize_or_return (@t_signal_presentation_from_bytes E) m presentation_length presentation;
      go! verified <- t_ok_or_return (t_signal_verify issuer_deserialized presentation_deserialized);
      t_return_serialized m os (t_signal_presentation_to_bytes (vs_presentation verified))).

  (** [issuer_verify_roster_membership]; ffi/src/c.rs:164-180. *)
  Definition t_c_issuer_verify_roster_membership (m : memory) (os : rng) (issuer : pointer) (issuer_length : Z)
      (verified_credential : pointer) (verified_credential_length : Z) : timed call_result :=
    t_call m os (
      go! issuer_deserialized <- t_deserialize_or_return (@t_issuer_from_bytes E) m issuer_length issuer;
      go! verified <- t_deserialize_or_return (@t_verified_signal_from_bytes E) m verified_credential_length verified_credential;
      go! roster_entry_commitment <- t_ok_or_return (t_verify_roster_membership issuer_deserialized verified);
      t_return_serialized m os (now (committed_to_bytes roster_entry_commitment))).

  (** [user_obtain_finish]; ffi/src/c.rs:182-208. *)
  Definition t_c_user_obtain_finish (m : memory) (os : rng) (phone_number : pointer) (phone_number_length : Z)
      (system_parameters : pointer) (system_parameters_length : Z)
      (issuer_parameters : pointer) (issuer_parameters_length : Z)
      (issuance : pointer) (issuance_length : Z) : timed call_result :=
    t_call m os (
      go! system_params <- t_deserialize_or_return (@t_system_parameters_from_bytes E) m system_parameters_length system_parameters;
      go! issuer_params <- t_deserialize_or_return (@t_public_key_from_bytes E) m issuer_parameters_length issuer_parameters;
      go! issuance_deserialized <- t_deserialize_or_return (@t_issuance_from_bytes E) m issuance_length issuance;
      go! phone_number_bytes <- t_len_and_ptr_to_slice m phone_number_length phone_number;
      go! user <- t_ok_or_return (t_signal_user_new system_params issuer_params None phone_number_bytes);
      time! (user, result) <- t_signal_obtain_finish user (Some issuance_deserialized);
      go! _ <- t_ok_or_return (now result);
      t_return_serialized m os (t_signal_user_to_bytes user)).

  (** [user_show]; ffi/src/c.rs:210-228. *)
  Definition t_c_user_show (m : memory) (os : rng) (user : pointer) (user_length : Z)
      (roster_entry_commitment : pointer) (roster_entry_commitment_length : Z) (seed : pointer) : timed call_result :=
    t_call m os (
      go! csprng <- t_csprng_from_seed m seed;
      go! user_deserialized <- t_deserialize_or_return (@t_signal_user_from_bytes E) m user_length user;
      go! entry <- t_deserialize_or_return (@t_roster_from_bytes E) m roster_entry_commitment_length roster_entry_commitment;
      go! (presentation, _, os) <- t_ok_or_return (t_signal_show user_deserialized csprng os entry);
      t_return_serialized m os (t_signal_presentation_to_bytes presentation)).

  (** [roster_entry_commitment_create]; ffi/src/c.rs:230-246. *)
  Definition t_c_roster_entry_commitment_create (m : memory) (os : rng) (phone_number : pointer)
      (phone_number_length : Z) (system_parameters : pointer) (system_parameters_length : Z) (seed : pointer) : timed call_result :=
    t_call m os (
      go! csprng <- t_csprng_from_seed m seed;
      go! number <- t_len_and_ptr_to_slice m phone_number_length phone_number;
      go! system_params <- t_deserialize_or_return (@t_system_parameters_from_bytes E) m system_parameters_length system_parameters;
      go! (roster_entry, _) <- t_ok_or_return (t_roster_create number system_params csprng);
      t_return_serialized m os (now (roster_to_bytes roster_entry))).

  (** [roster_entry_commitment_remove_opening]; ffi/src/c.rs:248-260. *)
  Definition t_c_roster_entry_commitment_remove_opening (m : memory) (os : rng)
      (roster_entry_commitment : pointer) (roster_entry_commitment_length : Z) : timed call_result :=
    t_call m os (
      go! deserialized <- t_deserialize_or_return (@t_roster_from_bytes E) m roster_entry_commitment_length roster_entry_commitment;
      t_return_serialized m os (now (committed_to_bytes (re_commitment deserialized)))).

  (** [roster_entry_commitment_open]; ffi/src/c.rs:262-284. *)
  Definition t_c_roster_entry_commitment_open (m : memory) (os : rng)
      (roster_entry_commitment : pointer) (roster_entry_commitment_length : Z)
      (phone_number : pointer) (phone_number_length : Z)
      (system_parameters : pointer) (system_parameters_length : Z) : timed call_result :=
    t_call m os (
      go! number <- t_len_and_ptr_to_slice m phone_number_length phone_number;
      go! system_params <- t_deserialize_or_return (@t_system_parameters_from_bytes E) m system_parameters_length system_parameters;
      go! roster_entry <- t_deserialize_or_return (@t_roster_from_bytes E) m roster_entry_commitment_length roster_entry_commitment;
      time! opened <- attempt (t_roster_open roster_entry number system_params);
      now (match opened with
           | Ok _ => Next ({| buf_ptr := Null; buf_len := 1 |}, m, os)
           | Err _ => Next ({| buf_ptr := Null; buf_len := 0 |}, m, os)
           | Panic => Unwinding
           end)).

  Definition t_c_run (fuel : nat) (m : memory) (os : rng) (f : c_function) : timed call_result :=
    match f with
    | SystemParametersCreate seed => t_c_system_parameters_create fuel m os seed
    | IssuerCreate p l s => t_c_issuer_create m os p l s
    | IssuerNew p l k kl => t_c_issuer_new m os p l k kl
    | IssuerGetIssuerParameters i l => t_c_issuer_get_issuer_parameters m os i l
    | IssuerIssue i l n nl s => t_c_issuer_issue m os i l n nl s
    | IssuerVerify i l p pl => t_c_issuer_verify m os i l p pl
    | IssuerVerifyRosterMembership i l v vl => t_c_issuer_verify_roster_membership m os i l v vl
    | UserObtainFinish n nl p pl ip ipl s sl => t_c_user_obtain_finish m os n nl p pl ip ipl s sl
    | UserShow u ul e el s => t_c_user_show m os u ul e el s
    | RosterEntryCommitmentCreate n nl p pl s => t_c_roster_entry_commitment_create m os n nl p pl s
    | RosterEntryCommitmentRemoveOpening e el => t_c_roster_entry_commitment_remove_opening m os e el
    | RosterEntryCommitmentOpen e el n nl p pl => t_c_roster_entry_commitment_open m os e el n nl p pl
    end.
End ffi.

(** ** wasm/src/js.rs: [JsValue::from_serde] writes the value as JSON text, and
    [into_serde] reads one. *)

(** serde_json (external crate) writes a byte in decimal; how many digits there
    are is found by comparing with 100 and with 10. *)
Definition digit (z : Z) : byte := zb (48 + z mod 10).
Definition t_decimal (b : byte) : timed bytes :=
  let z := bz b in
  time! three <- t_if (100 <=? z);
  if three then now [digit (z / 100); digit (z / 10); digit z] else
  time! two <- t_if (10 <=? z);
  now (if two then [digit (z / 10); digit z] else [digit z]).

(** The text of an array of bytes. *)
Fixpoint t_json_rest (b : bytes) : timed bytes :=
  match b with
  | [] => seen (Branch false) (str "]")
  | x :: b' =>
    time! _ <- t_if true;
    time! d <- t_decimal x;
    time! rest <- t_json_rest b';
    now (str "," ++ d ++ rest)%list
  end.
Definition t_json_array (b : bytes) : timed bytes :=
  match b with
  | [] => seen (Branch false) (str "[]")
  | x :: b' =>
    time! _ <- t_if true;
    time! d <- t_decimal x;
    time! rest <- t_json_rest b';
    now (str "[" ++ d ++ rest)%list
  end.

(** [JsValue::from_serde(&x)] at the type [t], once [x] is bytes; the uses are at
    wasm/src/js.rs:106, 136, 159, 196, 227, 252, 278, 317, 346. *)
Definition t_from_serde (E : Ext) (t : serde_type) (x : cd_value (codec_of E t)) : timed bytes :=
  time! text <- t_json_array (serialized_bytes (codec_of E t) x);
  seen (Length (List.length text)) text.
