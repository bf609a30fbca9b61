(** aeonflux/src/user.rs *)
From Verif Require Export ModelIssuer.
Local Open Scope string_scope.

(** [User]; aeonflux/src/user.rs:46-52. *)
Record User {E : Ext} : Type := {
  us_system_parameters : SystemParameters E;
  us_issuer_parameters : IssuerParameters E;
  us_key : option (ElgamalKeypair E);
  us_credential : option (Credential E);
}.
Arguments User : clear implicits.

Section user.
  Context {E : Ext}.

  (** [User::from_bytes]; aeonflux/src/user.rs:55-85. *)
  Definition user_from_bytes (b : bytes) : outcome CredentialError (User E) :=
    if negb (List.length b =? 256)%nat then Err MissingData else
    do pb <- or_panic (slice 0 64 b);
    do params <- system_parameters_from_bytes pb;
    do ib <- or_panic (slice 64 96 b);
    do issuer_params <- map_err mac_to_credential_error (public_key_from_bytes ib);
    do kb <- or_panic (slice 96 160 b);
    do key <- (if bytes_eqb kb (zeros 64) then Ok None
               else do k <- elgamal_keypair_from_bytes kb; Ok (Some k));
    do cb <- or_panic (slice 160 256 b);
    do credential <- (if bytes_eqb cb (zeros 96) then Ok None
                      else do cb <- or_panic (slice_from 160 b);
                           do c <- credential_from_bytes cb; Ok (Some c));
    Ok {| us_system_parameters := params; us_issuer_parameters := issuer_params;
          us_key := key; us_credential := credential |}.

  (** [User::to_bytes]; aeonflux/src/user.rs:87-104. *)
  Definition user_to_bytes (u : User E) : bytes :=
    (system_parameters_to_bytes (us_system_parameters u)
     ++ public_key_to_bytes (us_issuer_parameters u)
     ++ match us_key u with None => zeros 64 | Some k => elgamal_keypair_to_bytes k end
     ++ match us_credential u with None => zeros 96 | Some c => credential_to_bytes c end)%list.

  (** [User::new]; aeonflux/src/user.rs:111-123. *)
  Definition user_new (params : SystemParameters E) (issuer_params : IssuerParameters E)
      (key : option (ElgamalKeypair E)) : User E :=
    {| us_system_parameters := params; us_issuer_parameters := issuer_params;
       us_key := key; us_credential := None |}.

  (** [User::obtain]; aeonflux/src/user.rs:129-137. *)
  Definition obtain (u : User E) (attributes_revealed : list scalar) : CredentialRequest :=
    {| rq_attributes_revealed := attributes_revealed |}.

  (** [self.credential = Some(c)] *)
  Definition set_credential (u : User E) (c : Credential E) : User E :=
    {| us_system_parameters := us_system_parameters u;
       us_issuer_parameters := us_issuer_parameters u;
       us_key := us_key u; us_credential := Some c |}.

  (** [User::obtain_finish]; aeonflux/src/user.rs:140-172.  [&mut self] becomes the returned
      user; on [Err] the user is unchanged. *)
  Definition obtain_finish (u : User E) (issuance : option (CredentialIssuance E))
    : User E * outcome CredentialError unit :=
    let t := transcript_new "AEONFLUX ISSUANCE" in
    match issuance with
    | None => (u, Err CredentialIssuanceError)
    | Some issue =>
      match nth_error (pk_Xn (us_issuer_parameters u)) 0 with
      | None => (u, Err NoIssuerParameters)
      | Some X1 =>
        let publics := {| irp_P := tag_nonce (cr_mac (is_credential issue));
                          irp_Q := tag_mac (cr_mac (is_credential issue));
                          irp_Cx0 := is_secret_key_commitment issue;
                          irp_B := sp_g (us_system_parameters u);
                          irp_A := sp_h (us_system_parameters u);
                          irp_X1 := X1 |} in
        match ir_verify (is_proof issue) t publics with
        | Ok _ => (set_credential u (is_credential issue), Ok tt)
        | Err _ => (u, Err CredentialIssuanceError)
        | Panic => (u, Panic)
        end
      end
    end.

  (** [for (zi, mi) in nonces.iter().zip(attributes)]; aeonflux/src/user.rs:210-214. *)
  Definition show_commitments (P A : point E) (nonces attributes : list scalar) : list (point E) :=
    map (fun zm => commitment_to (smul (snd zm) P) (fst zm) A) (combine nonces attributes).

  (** [for (index, zi) in nonces.iter().enumerate()]; aeonflux/src/user.rs:219-221.
      [Xn[index]] may panic. *)
  Fixpoint show_error_factor (Xn : list (point E)) (index0 : nat) (nonces : list scalar) (V : point E)
    : outcome CredentialError (point E) :=
    match nonces with
    | [] => Ok V
    | z :: nonces' =>
      do X <- or_panic (index Xn index0);
      show_error_factor Xn (S index0) nonces' (padd V (smul z X))
    end.

  (** What [User::show] publishes and proves, given the rerandomisation scalar
      and [zQ]; aeonflux/src/user.rs:192-240. *)
  Definition show_statement (u : User E) (credential : Credential E) (nonces : list scalar)
      (rerandomization zQ : scalar)
    : outcome CredentialError (point E * list (point E) * vc_Publics E * vc_Scalars) :=
    let A := sp_h (us_system_parameters u) in
    let B := sp_g (us_system_parameters u) in
    let tag := apply_to_tag rerandomization (cr_mac credential) in
    let P := tag_nonce tag in
    let CQ := commitment_to (tag_mac tag) zQ A in
    let commitments := show_commitments P A nonces (cr_attributes credential) in
    do V <- show_error_factor (pk_Xn (us_issuer_parameters u)) 0 nonces pzero;
    let V := psub V (smul zQ A) in
    let minus_zQ := ephemeral_neg zQ in
    do m0 <- or_panic (index (cr_attributes credential) 0);
    do z0 <- or_panic (index nonces 0);
    do X0 <- or_panic (index (pk_Xn (us_issuer_parameters u)) 0);
    do Cm0 <- or_panic (index commitments 0);
    Ok (CQ, commitments,
        {| vcp_B := B; vcp_A := A; vcp_X0 := X0; vcp_P := P; vcp_V := V; vcp_Cm0 := Cm0 |},
        {| vcs_m0 := m0; vcs_z0 := z0; vcs_minus_zQ := minus_zQ |}).

  (** The [CredentialPresentation] returned; aeonflux/src/user.rs:244-250. *)
  Definition show_presentation (CQ : point E) (commitments : list (point E))
      (publics : vc_Publics E) (proof : vc_Proof) : CredentialPresentation E :=
    {| pr_rerandomized_mac_commitment := CQ;
       pr_rerandomized_nonce := vcp_P publics;
       pr_attributes_revealed := [];
       pr_attributes_blinded := commitments;
       pr_proof := proof |}.

  (** [User::show]; aeonflux/src/user.rs:176-251. *)
  Definition show (u : User E) (nonces : list scalar) (r os : rng)
    : outcome CredentialError (CredentialPresentation E * rng * rng) :=
    do credential <- ok_or MissingData (us_credential u);
    let t := transcript_new "AEONFLUX SHOW" in
    let (csprng, r) := @reseed E t [] r in
    let (rerandomization, csprng) := scalar_random csprng in
    let (zQ, csprng) := ephemeral_new csprng in
    do (CQ, commitments, publics, secrets) <-
      show_statement u credential nonces rerandomization zQ;
    let (proof, os) := vc_create t publics secrets os in
    Ok (show_presentation CQ commitments publics proof, r, os).
End user.

(** [User::blind_request] (aeonflux/src/user.rs:255-267) ends in [unimplemented!()] and does
    not type-check against [elgamal::Keypair::generate]; it is not modelled. *)
