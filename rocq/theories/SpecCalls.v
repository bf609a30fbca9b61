(** What the calls of the API compute on byte strings, whichever language they
    are made from: decode the arguments, apply the function of the Rust
    library, encode the result. *)
From Verif Require Export ModelWasm SpecFfi SpecSwift ModelSwift.

Inductive api_call : Type :=
| MakeParameters (seed : bytes)
| MakeKeypair (params seed : bytes)
| MakeIssuer (params keypair : bytes)
| GetParameters (issuer : bytes)
| Issue (issuer number seed : bytes)
| Verify (issuer presentation : bytes)
| VerifyRoster (issuer verified : bytes)
| Obtain (number params issuer_params issuance : bytes)
| Show (user entry seed : bytes)
| MakeEntry (number params seed : bytes)
| RemoveOpening (entry : bytes).

Definition seed_of (a : api_call) : option bytes :=
  match a with
  | MakeParameters s | MakeKeypair _ s | Issue _ _ s | Show _ _ s | MakeEntry _ _ s => Some s
  | _ => None
  end.
(** The other arguments. *)
Definition strings_of (a : api_call) : list bytes :=
  match a with
  | MakeParameters _ => []
  | MakeKeypair p _ => [p]
  | MakeIssuer p k => [p; k]
  | GetParameters i => [i]
  | Issue i n _ => [i; n]
  | Verify i p => [i; p]
  | VerifyRoster i v => [i; v]
  | Obtain n p ip s => [n; p; ip; s]
  | Show u e _ => [u; e]
  | MakeEntry n p _ => [n; p]
  | RemoveOpening e => [e]
  end.

Definition seeded (a : api_call) : Prop := forall s, seed_of a = Some s -> List.length s = 32%nat.

Section gives.
  Context (E : Ext).

  (** With a seed of 32 bytes, [a] computes the bytes [ser], and leaves [os'] of
      the operating system's randomness [os]. *)
  Definition gives (fuel : nat) (os : rng) (a : api_call) (ser : bytes) (os' : rng) : Prop :=
    match a with
    | MakeParameters s =>
      exists params rest, @hunt_and_peck E fuel (@chacha E s) = Some (params, rest) /\
        ser = system_parameters_to_bytes params /\ os' = os
    | MakeKeypair p s =>
      exists params, @system_parameters_from_bytes E p = Ok params /\
        ser = keypair_to_bytes (iss_keypair (fst (signal_issuer_create params (@chacha E s)))) /\ os' = os
    | MakeIssuer p k =>
      exists params keys, @system_parameters_from_bytes E p = Ok params /\ @keypair_from_bytes E k = Ok keys /\
        ser = signal_issuer_to_bytes (signal_issuer_new params keys) /\ os' = os
    | GetParameters i =>
      exists issuer, @signal_issuer_from_bytes E i = Ok issuer /\
        ser = public_key_to_bytes (get_issuer_parameters issuer) /\ os' = os
    | Issue i n s =>
      exists issuer issuance rest, @signal_issuer_from_bytes E i = Ok issuer /\
        signal_issue issuer n (@chacha E s) os = Ok (issuance, rest, os') /\ ser = issuance_to_bytes issuance
    | Verify i p =>
      exists issuer presentation verified, @signal_issuer_from_bytes E i = Ok issuer /\
        @signal_presentation_from_bytes E p = Ok presentation /\ signal_verify issuer presentation = Ok verified /\
        ser = verified_signal_to_bytes verified /\ os' = os
    | VerifyRoster i v =>
      exists issuer verified commitment, @signal_issuer_from_bytes E i = Ok issuer /\
        @verified_signal_from_bytes E v = Ok verified /\ verify_roster_membership issuer verified = Ok commitment /\
        ser = committed_to_bytes commitment /\ os' = os
    | Obtain n p ip s =>
      exists params keys issuance user user', @system_parameters_from_bytes E p = Ok params /\
        @public_key_from_bytes E ip = Ok keys /\ @issuance_from_bytes E s = Ok issuance /\
        signal_user_new params keys None n = Ok user /\ signal_obtain_finish user (Some issuance) = (user', Ok tt) /\
        ser = signal_user_to_bytes user' /\ os' = os
    | Show u e s =>
      exists user entry presentation rest, @signal_user_from_bytes E u = Ok user /\ @roster_from_bytes E e = Ok entry /\
        signal_show user (@chacha E s) os entry = Ok (presentation, rest, os') /\
        ser = signal_presentation_to_bytes presentation
    | MakeEntry n p s =>
      exists params entry rest, @system_parameters_from_bytes E p = Ok params /\
        roster_create n params (@chacha E s) = Ok (entry, rest) /\ ser = roster_to_bytes entry /\ os' = os
    | RemoveOpening e =>
      exists entry, @roster_from_bytes E e = Ok entry /\ ser = committed_to_bytes (re_commitment entry) /\ os' = os
    end.

  (** [a] computes nothing. *)
  Definition gives_nothing (fuel : nat) (os : rng) (a : api_call) : Prop := forall ser os', ~ gives fuel os a ser os'.

  (** The C call [f] is the call [a] with its arguments in memory. *)
  Definition c_is (m : memory) (f : c_function) (a : api_call) : Prop :=
    match f, a with
    | SystemParametersCreate s, MakeParameters sb => given_seed m s sb
    | IssuerCreate p pl s, MakeKeypair pb sb => @given E m p pl pb /\ given_seed m s sb
    | IssuerNew p pl k kl, MakeIssuer pb kb => @given E m p pl pb /\ @given E m k kl kb
    | IssuerGetIssuerParameters i il, GetParameters ib => @given E m i il ib
    | IssuerIssue i il n nl s, Issue ib nb sb => @given E m i il ib /\ @given E m n nl nb /\ given_seed m s sb
    | IssuerVerify i il p pl, Verify ib pb => @given E m i il ib /\ @given E m p pl pb
    | IssuerVerifyRosterMembership i il v vl, VerifyRoster ib vb => @given E m i il ib /\ @given E m v vl vb
    | UserObtainFinish n nl p pl ip ipl s sl, Obtain nb pb ipb sb =>
      @given E m n nl nb /\ @given E m p pl pb /\ @given E m ip ipl ipb /\ @given E m s sl sb
    | UserShow u ul e el s, Show ub eb sb => @given E m u ul ub /\ @given E m e el eb /\ given_seed m s sb
    | RosterEntryCommitmentCreate n nl p pl s, MakeEntry nb pb sb =>
      @given E m n nl nb /\ @given E m p pl pb /\ given_seed m s sb
    | RosterEntryCommitmentRemoveOpening e el, RemoveOpening eb => @given E m e el eb
    | _, _ => False
    end.
End gives.

(** The JavaScript call [f] is the call [a]: its [JsValue]s are strings, and its
    seed has 32 bytes. *)
Definition text (v : json) (b : bytes) : Prop := exists s, v = JString s /\ b = utf8 s.
Definition js_is (f : js_function) (a : api_call) : Prop :=
  seeded a /\
  match f, a with
  | JsSystemParametersCreate s, MakeParameters sb => s = sb
  | JsIssuerCreate p s, MakeKeypair pb sb => text p pb /\ s = sb
  | JsIssuerGetIssuerParameters i, GetParameters ib => text i ib
  | JsIssuerNew p k, MakeIssuer pb kb => text p pb /\ text k kb
  | JsIssuerIssue i n s, Issue ib nb sb => text i ib /\ n = nb /\ s = sb
  | JsIssuerVerify i p, Verify ib pb => text i ib /\ text p pb
  | JsIssuerVerifyRosterMembership i v, VerifyRoster ib vb => text i ib /\ text v vb
  | JsUserObtainFinish n p ip s, Obtain nb pb ipb sb => n = nb /\ text p pb /\ text ip ipb /\ text s sb
  | JsUserShow u e s, Show ub eb sb => text u ub /\ text e eb /\ s = sb
  | _, _ => False
  end.
(** Bytes as an array of numbers. *)
Definition numbers (b : bytes) : json := JArray (map (fun x => JNumber (bz x)) b).

(** What a Swift function does which makes the call [a] and makes its result of
    the bytes returned with [k]: if [a] computes [ser], [k] is given what is
    found where [ser] was; if not, or with an empty argument, [k] is given no
    bytes; or a panic passes through, or the search goes on. *)
Definition sw_does {A} (E : Ext) (reuse : reuse_of_freed) (fuel : nat) (os : rng) (a : api_call) (k : bytes -> A)
    (r : sw_result A) : Prop :=
  (exists id ser os', Forall (fun b => b <> []) (strings_of a) /\ gives E fuel os a ser os' /\
     r = SwReturns (k (found reuse id ser)) os') \/
  ((r = SwReturns (k []) os \/ r = SwUnwinds) /\
     (Exists (fun b => b = []) (strings_of a) \/ gives_nothing E fuel os a)) \/
  (r = SwRunning /\ exists s, a = MakeParameters s /\ @hunt_and_peck E fuel (@chacha E s) = None).

(** The result has the length which the header gives for it (credential.h:10-20),
    when the issuer has one key. *)
Definition header_length (a : api_call) (ser : bytes) : Prop :=
  match a with
  | MakeParameters _ => List.length ser = SW_LENGTH_SYSTEM_PARAMETERS
  | MakeKeypair _ _ => List.length ser = SW_LENGTH_ISSUER_KEYPAIR
  | MakeIssuer _ k => List.length ser = SW_LENGTH_ISSUER <-> List.length k = SW_LENGTH_ISSUER_KEYPAIR
  | GetParameters i => List.length ser = SW_LENGTH_ISSUER_PARAMETERS <-> List.length i = SW_LENGTH_ISSUER
  | Issue _ _ _ => List.length ser = SW_LENGTH_CREDENTIAL_ISSUANCE
  | Verify _ _ => List.length ser = SW_LENGTH_VERIFIED_CREDENTIAL
  | VerifyRoster _ _ => List.length ser = 32%nat
  | Obtain _ _ ip _ => List.length ser = SW_LENGTH_USER <-> List.length ip = SW_LENGTH_ISSUER_PARAMETERS
  | Show _ _ _ => List.length ser = SW_LENGTH_CREDENTIAL_PRESENTATION
  | MakeEntry _ _ _ => List.length ser = SW_LENGTH_ROSTER_ENTRY_COMMITMENT
  | RemoveOpening _ => List.length ser = 32%nat
  end.
