(** signal-credential/src/credential.rs, issuer.rs, user.rs *)
From Verif Require Export ModelPhone.
Local Open Scope string_scope.

(** ** credential.rs *)

(** [SignalCredentialPresentation]; signal-credential/src/credential.rs:52-62. *)
Record SignalCredentialPresentation {E : Ext} : Type := {
  sc_roster_entry_commitment : point E;
  sc_presentation : CredentialPresentation E;
  sc_roster_membership_proof : ce_Proof;
}.
Arguments SignalCredentialPresentation : clear implicits.

(** [VerifiedSignalCredential]; signal-credential/src/credential.rs:125-126. *)
Record VerifiedSignalCredential {E : Ext} : Type := {
  vs_presentation : SignalCredentialPresentation E
}.
Arguments VerifiedSignalCredential : clear implicits.

Section signal_credential.
  Context {E : Ext}.

  (** [SignalCredentialPresentation::from_bytes]; signal-credential/src/credential.rs:65-89. *)
  Definition signal_presentation_from_bytes (b : bytes)
    : outcome CredentialError (SignalCredentialPresentation E) :=
    if (List.length b <? 32 + SIZEOF_CREDENTIAL_PRESENTATION)%nat then Err MissingData else
    do rb <- or_panic (slice 0 32 b);
    do roster_entry_commitment <- map_err phone_to_credential_error (committed_from_bytes rb);
    do pb <- or_panic (slice 32 (32 + SIZEOF_CREDENTIAL_PRESENTATION) b);
    do presentation <- presentation_from_bytes pb;
    do fb <- or_panic (slice_from (32 + SIZEOF_CREDENTIAL_PRESENTATION) b);
    do proof <- ok_or MissingData (ce_deserialize fb);
    Ok {| sc_roster_entry_commitment := roster_entry_commitment;
          sc_presentation := presentation;
          sc_roster_membership_proof := proof |}.

  (** [SignalCredentialPresentation::to_bytes]; signal-credential/src/credential.rs:91-108. *)
  Definition signal_presentation_to_bytes (p : SignalCredentialPresentation E) : bytes :=
    (committed_to_bytes (sc_roster_entry_commitment p)
     ++ presentation_to_bytes (sc_presentation p)
     ++ ce_serialize (sc_roster_membership_proof p))%list.

  (** [VerifiedSignalCredential::from_bytes]; signal-credential/src/credential.rs:129-131. *)
  Definition verified_signal_from_bytes (b : bytes)
    : outcome CredentialError (VerifiedSignalCredential E) :=
    do p <- signal_presentation_from_bytes b;
    Ok {| vs_presentation := p |}.

  (** [VerifiedSignalCredential::to_bytes]; signal-credential/src/credential.rs:133-135. *)
  Definition verified_signal_to_bytes (v : VerifiedSignalCredential E) : bytes :=
    signal_presentation_to_bytes (vs_presentation v).
End signal_credential.

(** ** issuer.rs.  [SignalIssuer] (signal-credential/src/issuer.rs:42-44) wraps an [Issuer]. *)
Section signal_issuer.
  Context {E : Ext}.

  (** [SignalIssuer::from_bytes]; signal-credential/src/issuer.rs:47-51. *)
  Definition signal_issuer_from_bytes (b : bytes) : outcome CredentialError (Issuer E) :=
    issuer_from_bytes b.

  (** [SignalIssuer::to_bytes]; signal-credential/src/issuer.rs:53-55. *)
  Definition signal_issuer_to_bytes (i : Issuer E) : bytes := issuer_to_bytes i.

  (** [SignalIssuer::create]; signal-credential/src/issuer.rs:63-73. *)
  Definition signal_issuer_create (params : SystemParameters E) (r : rng) : Issuer E * rng :=
    issuer_create params r.

  (** [SignalIssuer::new]; signal-credential/src/issuer.rs:83-91. *)
  Definition signal_issuer_new (params : SystemParameters E) (keypair : Keypair E) : Issuer E :=
    issuer_new params keypair.

  (** [SignalIssuer::issue]; signal-credential/src/issuer.rs:130-147. *)
  Definition signal_issue (i : Issuer E) (phone_number : bytes) (r os : rng)
    : outcome CredentialError (CredentialIssuance E * rng * rng) :=
    do number <- map_err phone_to_credential_error (try_from_bytes phone_number);
    issue i {| rq_attributes_revealed := [number] |} r os.

  (** [SignalIssuer::verify]; signal-credential/src/issuer.rs:149-155. *)
  Definition signal_verify (i : Issuer E) (p : SignalCredentialPresentation E)
    : outcome CredentialError (VerifiedSignalCredential E) :=
    do _ <- issuer_verify i (sc_presentation p);
    Ok {| vs_presentation := p |}.

  (** [SignalIssuer::verify_roster_membership]; signal-credential/src/issuer.rs:162-181. *)
  Definition verify_roster_membership (i : Issuer E) (credential : VerifiedSignalCredential E)
    : outcome CredentialError (point E) :=
    let p := vs_presentation credential in
    do Cm0 <- or_panic (index (pr_attributes_blinded (sc_presentation p)) 0);
    let publics := {| cep_B := sp_g (iss_system_parameters i);
                      cep_A := sp_h (iss_system_parameters i);
                      cep_P := pr_rerandomized_nonce (sc_presentation p);
                      cep_Cm0 := Cm0;
                      cep_Cm1 := sc_roster_entry_commitment p |} in
    let t := transcript_new "SIGNAL GROUP MEMBERSHIP" in
    do _ <- map_err (fun _ => VerificationFailure)
              (ce_verify (sc_roster_membership_proof p) t publics);
    Ok (sc_roster_entry_commitment p).
End signal_issuer.

(** ** user.rs *)

(** [SignalUser]; signal-credential/src/user.rs:39-43. *)
Record SignalUser {E : Ext} : Type := { su_phone_number : PhoneNumber; su_user : User E }.
Arguments SignalUser : clear implicits.

Section signal_user.
  Context {E : Ext}.

  (** [SignalUser::from_bytes]; signal-credential/src/user.rs:46-51. *)
  Definition signal_user_from_bytes (b : bytes) : outcome CredentialError (SignalUser E) :=
    do nb <- or_panic (slice 0 32 b);
    do number <- map_err phone_to_credential_error (phone_number_from_bytes nb);
    do ub <- or_panic (slice_from 32 b);
    do user <- user_from_bytes ub;
    Ok {| su_phone_number := number; su_user := user |}.

  (** [SignalUser::to_bytes]; signal-credential/src/user.rs:53-60. *)
  Definition signal_user_to_bytes (u : SignalUser E) : bytes :=
    (phone_number_to_bytes (su_phone_number u) ++ user_to_bytes (su_user u))%list.

  (** [SignalUser::new]; signal-credential/src/user.rs:68-84. *)
  Definition signal_user_new (params : SystemParameters E) (issuer_params : IssuerParameters E)
      (key : option (ElgamalKeypair E)) (phone_number : bytes)
    : outcome CredentialError (SignalUser E) :=
    let user := user_new params issuer_params key in
    do number <- map_err phone_to_credential_error (try_from_bytes phone_number);
    Ok {| su_phone_number := number; su_user := user |}.

  (** [SignalUser::obtain_finish]; signal-credential/src/user.rs:87-93. *)
  Definition signal_obtain_finish (u : SignalUser E) (issuance : option (CredentialIssuance E))
    : SignalUser E * outcome CredentialError unit :=
    let (user, res) := obtain_finish (su_user u) issuance in
    ({| su_phone_number := su_phone_number u; su_user := user |}, res).

  (** The roster membership statement of [SignalUser::show]; signal-credential/src/user.rs:118-130. *)
  Definition roster_statement (u : SignalUser E) (credential : Credential E) (nonces : list scalar)
      (presentation : CredentialPresentation E) (entry : RosterEntryCommitment E)
    : outcome CredentialError (ce_Publics E * ce_Scalars) :=
    do m0 <- or_panic (index (cr_attributes credential) 0);
    do z0 <- or_panic (index nonces 0);
    do Cm0 <- or_panic (index (pr_attributes_blinded presentation) 0);
    Ok ({| cep_B := sp_g (us_system_parameters (su_user u));
           cep_A := sp_h (us_system_parameters (su_user u));
           cep_P := pr_rerandomized_nonce presentation;
           cep_Cm0 := Cm0;
           cep_Cm1 := re_commitment entry |},
        {| ces_m0 := m0; ces_z0 := z0; ces_z1 := re_opening entry |}).

  (** [SignalUser::show]; signal-credential/src/user.rs:99-140. *)
  Definition signal_show (u : SignalUser E) (r os : rng) (entry : RosterEntryCommitment E)
    : outcome CredentialError (SignalCredentialPresentation E * rng * rng) :=
    do credential <- ok_or MissingData (us_credential (su_user u));
    let (nonces, r) := nonces_new r NUMBER_OF_ATTRIBUTES in
    do (presentation, r, os) <- show (su_user u) nonces r os;
    let t := transcript_new "SIGNAL GROUP MEMBERSHIP" in
    do (publics, secrets) <- roster_statement u credential nonces presentation entry;
    let (proof, os) := ce_create t publics secrets os in
    Ok ({| sc_roster_entry_commitment := re_commitment entry;
           sc_presentation := presentation;
           sc_roster_membership_proof := proof |}, r, os).
End signal_user.
