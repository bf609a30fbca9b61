(** [issue] and [show] with [thread_rng] for the caller's generator

    All handles of [thread_rng] in a thread read one generator, so [rng] and the
    [thread_rng] of [Proof::create] are then one stream, read in the order of the
    code. *)
From Verif Require Export ModelSignal.

Section thread.
  Context {E : Ext}.

  (** [Issuer::issue]; aeonflux/src/issuer.rs:136-195. *)
  Definition issue_thread (i : Issuer E) (request : CredentialRequest) (r : rng)
    : outcome CredentialError (CredentialIssuance E * rng) :=
    do X1 <- ok_or NoIssuerParameters (nth_error (pk_Xn (kp_public (iss_keypair i))) 0);
    do x1 <- ok_or NoIssuerKey (nth_error (sk_xn (kp_secret (iss_keypair i))) 0);
    let attributes := rq_attributes_revealed request in
    let t := transcript_new "AEONFLUX ISSUANCE" in
    let (csprng, r) := @reseed E t [] r in
    do (tag, csprng) <- map_err (fun _ => MacCreation)
                          (mac (kp_secret (iss_keypair i)) attributes csprng);
    let (x0_tilde, csprng) := ephemeral_new csprng in
    do (publics, secrets) <- issue_statement i X1 x1 attributes tag x0_tilde;
    let (proof, r) := ir_create t publics secrets r in
    Ok ({| is_secret_key_commitment := irp_Cx0 publics;
           is_credential := {| cr_mac := tag; cr_attributes := attributes |};
           is_proof := proof |}, r).

  (** [SignalIssuer::issue]; signal-credential/src/issuer.rs:130-147. *)
  Definition signal_issue_thread (i : Issuer E) (phone_number : bytes) (r : rng)
    : outcome CredentialError (CredentialIssuance E * rng) :=
    do number <- map_err phone_to_credential_error (try_from_bytes phone_number);
    issue_thread i {| rq_attributes_revealed := [number] |} r.

  (** [User::show]; aeonflux/src/user.rs:176-251. *)
  Definition show_thread (u : User E) (nonces : list scalar) (r : rng)
    : outcome CredentialError (CredentialPresentation E * rng) :=
    do credential <- ok_or MissingData (us_credential u);
    let t := transcript_new "AEONFLUX SHOW" in
    let (csprng, r) := @reseed E t [] r in
    let (rerandomization, csprng) := scalar_random csprng in
    let (zQ, csprng) := ephemeral_new csprng in
    do (CQ, commitments, publics, secrets) <-
      show_statement u credential nonces rerandomization zQ;
    let (proof, r) := vc_create t publics secrets r in
    Ok (show_presentation CQ commitments publics proof, r).

  (** [SignalUser::show]; signal-credential/src/user.rs:99-140. *)
  Definition signal_show_thread (u : SignalUser E) (r : rng) (entry : RosterEntryCommitment E)
    : outcome CredentialError (SignalCredentialPresentation E * rng) :=
    do credential <- ok_or MissingData (us_credential (su_user u));
    let (nonces, r) := nonces_new r NUMBER_OF_ATTRIBUTES in
    do (presentation, r) <- show_thread (su_user u) nonces r;
    let t := transcript_new "SIGNAL GROUP MEMBERSHIP" in
    do (publics, secrets) <- roster_statement u credential nonces presentation entry;
    let (proof, r) := ce_create t publics secrets r in
    Ok ({| sc_roster_entry_commitment := re_commitment entry;
           sc_presentation := presentation;
           sc_roster_membership_proof := proof |}, r).
End thread.
