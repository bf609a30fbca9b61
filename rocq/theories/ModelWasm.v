(** wasm/src/js.rs: the WebAssembly API

    A [JsValue] is modelled by the JSON value it is ([JSON.stringify] and
    [JSON.parse] are what [into_serde] and [from_serde] use); [undefined] and
    other values without a JSON form are not modelled.  A panic becomes a
    WebAssembly trap. *)
From Verif Require Export ModelSerde.

(** How a statement of a WASM function ends, as in ModelFfi. *)
Inductive js_step (A : Type) : Type :=
| JsNext (a : A)
| JsReturn (v : json)
| JsTrap
| JsLooping.
Arguments JsNext {A} a.
Arguments JsReturn {A} v.
Arguments JsTrap {A}.
Arguments JsLooping {A}.

Definition js_then {A B} (s : js_step A) (k : A -> js_step B) : js_step B :=
  match s with
  | JsNext a => k a
  | JsReturn v => JsReturn v
  | JsTrap => JsTrap
  | JsLooping => JsLooping
  end.
Notation "'js!' x := e 'in' k" := (js_then e (fun x => k))
  (at level 200, x pattern, e at level 100, k at level 200, right associativity).

Inductive js_result : Type :=
| JsReturns (v : json) (os : rng)
| JsTraps
| JsRunning.

Definition js_call (os : rng) (s : js_step (json * rng)) : js_result :=
  match s with
  | JsNext (v, os') => JsReturns v os'
  | JsReturn v => JsReturns v os
  | JsTrap => JsTraps
  | JsLooping => JsRunning
  end.

(** [JsValue::from(0)] *)
Definition js_zero : json := JNumber 0.

Section wasm.
  Context {E : Ext}.

  (** [slice_to_array!]; wasm/src/js.rs:29-42. *)
  Definition js_slice_to_array (slice : bytes) (length : nat) : outcome unit bytes :=
    if negb (List.length slice =? length)%nat then Err tt
    else or_panic (to_array length slice).

  (** [ok_or_return!]; wasm/src/js.rs:44-56. *)
  Definition js_ok_or_return {Er A} (o : outcome Er A) : js_step A :=
    match o with
    | Ok a => JsNext a
    | Err _ => JsReturn js_zero
    | Panic => JsTrap
    end.

  (** [csprng_from_seed!]; wasm/src/js.rs:72-78. *)
  Definition js_csprng_from_seed (seed : bytes) : js_step rng :=
    js! seed_array := js_ok_or_return (js_slice_to_array seed 32) in
    JsNext (@chacha E seed_array).

  (** [ok_or_return!(value.into_serde())] at the type [t]. *)
  Definition into_serde (t : serde_type) (v : json) : js_step (cd_value (codec_of E t)) :=
    js_ok_or_return (json_deserialize (codec_of E t) v).

  (** [ok_or_return!(JsValue::from_serde(&x))] at the type [t]; it does not fail. *)
  Definition from_serde (t : serde_type) (os : rng) (x : cd_value (codec_of E t)) : js_step (json * rng) :=
    JsNext (json_serialize (codec_of E t) x, os).

  (** [system_parameters_create]; wasm/src/js.rs:95-106. *)
  Definition js_system_parameters_create (fuel : nat) (os : rng) (seed : bytes) : js_result :=
    js_call os (
      if negb (List.length seed =? 32)%nat then JsReturn js_zero else
      js! csprng := js_csprng_from_seed seed in
      match @hunt_and_peck E fuel csprng with
      | None => JsLooping
      | Some (system_parameters, _) => from_serde TSystemParameters os system_parameters
      end).

  (** [issuer_create]; wasm/src/js.rs:126-137. *)
  Definition js_issuer_create (os : rng) (system_parameters : json) (seed : bytes) : js_result :=
    js_call os (
      js! csprng := js_csprng_from_seed seed in
      js! system_params := into_serde TSystemParameters system_parameters in
      let (issuer, _) := signal_issuer_create (E := E) system_params csprng in
      from_serde TKeypair os (iss_keypair issuer)).

  (** [issuer_get_issuer_parameters]; wasm/src/js.rs:152-160. *)
  Definition js_issuer_get_issuer_parameters (os : rng) (issuer : json) : js_result :=
    js_call os (
      js! issuer := into_serde TSignalIssuer issuer in
      from_serde TPublicKey os (get_issuer_parameters (E := E) issuer)).

  (** [issuer_new]; wasm/src/js.rs:186-197. *)
  Definition js_issuer_new (os : rng) (system_parameters keypair : json) : js_result :=
    js_call os (
      js! system_params := into_serde TSystemParameters system_parameters in
      js! keys := into_serde TKeypair keypair in
      from_serde TSignalIssuer os (signal_issuer_new (E := E) system_params keys)).

  (** [issuer_issue]; wasm/src/js.rs:216-228. *)
  Definition js_issuer_issue (os : rng) (issuer : json) (phone_number seed : bytes) : js_result :=
    js_call os (
      js! csprng := js_csprng_from_seed seed in
      js! issuer := into_serde TSignalIssuer issuer in
      js! (issuance, _, os) := js_ok_or_return (signal_issue (E := E) issuer phone_number csprng os) in
      from_serde TCredentialIssuance os issuance).

  (** [issuer_verify]; wasm/src/js.rs:242-253. *)
  Definition js_issuer_verify (os : rng) (issuer presentation : json) : js_result :=
    js_call os (
      js! issuer := into_serde TSignalIssuer issuer in
      js! presentation := into_serde TSignalCredentialPresentation presentation in
      js! verified := js_ok_or_return (signal_verify (E := E) issuer presentation) in
      from_serde TVerifiedSignalCredential os verified).

  (** [issuer_verify_roster_membership]; wasm/src/js.rs:268-279. *)
  Definition js_issuer_verify_roster_membership (os : rng) (issuer verified_credential : json) : js_result :=
    js_call os (
      js! issuer := into_serde TSignalIssuer issuer in
      js! verified := into_serde TVerifiedSignalCredential verified_credential in
      js! roster_entry_commitment := js_ok_or_return (verify_roster_membership (E := E) issuer verified) in
      from_serde TCommittedPhoneNumber os roster_entry_commitment).

  (** [user_obtain_finish]; wasm/src/js.rs:301-318. *)
  Definition js_user_obtain_finish (os : rng) (phone_number : bytes)
      (system_parameters issuer_parameters issuance : json) : js_result :=
    js_call os (
      js! system_params := into_serde TSystemParameters system_parameters in
      js! issuer_params := into_serde TPublicKey issuer_parameters in
      js! user := js_ok_or_return (signal_user_new (E := E) system_params issuer_params None phone_number) in
      js! issuance := into_serde TCredentialIssuance issuance in
      let (user, result) := signal_obtain_finish user (Some issuance) in
      js! _ := js_ok_or_return result in
      from_serde TSignalUser os user).

  (** [user_show]; wasm/src/js.rs:334-347. *)
  Definition js_user_show (os : rng) (user roster_entry_commitment : json) (seed : bytes) : js_result :=
    js_call os (
      js! csprng := js_csprng_from_seed seed in
      js! user := into_serde TSignalUser user in
      js! entry := into_serde TRosterEntryCommitment roster_entry_commitment in
      js! (presentation, _, os) := js_ok_or_return (signal_show (E := E) user csprng os entry) in
      from_serde TSignalCredentialPresentation os presentation).

  (** The API: one constructor per exported function. *)
  Inductive js_function : Type :=
  | JsSystemParametersCreate (seed : bytes)
  | JsIssuerCreate (params : json) (seed : bytes)
  | JsIssuerGetIssuerParameters (issuer : json)
  | JsIssuerNew (params keypair : json)
  | JsIssuerIssue (issuer : json) (number seed : bytes)
  | JsIssuerVerify (issuer presentation : json)
  | JsIssuerVerifyRosterMembership (issuer verified : json)
  | JsUserObtainFinish (number : bytes) (params issuer_params issuance : json)
  | JsUserShow (user entry : json) (seed : bytes).

  Definition js_run (fuel : nat) (os : rng) (f : js_function) : js_result :=
    match f with
    | JsSystemParametersCreate seed => js_system_parameters_create fuel os seed
    | JsIssuerCreate p s => js_issuer_create os p s
    | JsIssuerGetIssuerParameters i => js_issuer_get_issuer_parameters os i
    | JsIssuerNew p k => js_issuer_new os p k
    | JsIssuerIssue i n s => js_issuer_issue os i n s
    | JsIssuerVerify i p => js_issuer_verify os i p
    | JsIssuerVerifyRosterMembership i v => js_issuer_verify_roster_membership os i v
    | JsUserObtainFinish n p ip i => js_user_obtain_finish os n p ip i
    | JsUserShow u e s => js_user_show os u e s
    end.

  (** The JsValue arguments of a call. *)
  Definition js_arguments (f : js_function) : list json :=
    match f with
    | JsSystemParametersCreate _ => []
    | JsIssuerCreate p _ => [p]
    | JsIssuerGetIssuerParameters i => [i]
    | JsIssuerNew p k => [p; k]
    | JsIssuerIssue i _ _ => [i]
    | JsIssuerVerify i p => [i; p]
    | JsIssuerVerifyRosterMembership i v => [i; v]
    | JsUserObtainFinish _ p ip i => [p; ip; i]
    | JsUserShow u e _ => [u; e]
    end.
End wasm.
