(** aeonflux/src/issuer.rs *)
From Verif Require Export ModelCredential.
Local Open Scope string_scope.

(** [IssuerParameters]; aeonflux/src/issuer.rs:33 ([pub type IssuerParameters = amacs::PublicKey]). *)
Definition IssuerParameters (E : Ext) := PublicKey E.

(** [Issuer]; aeonflux/src/issuer.rs:43-49. *)
Record Issuer {E : Ext} : Type := {
  iss_system_parameters : SystemParameters E;
  iss_keypair : Keypair E;
}.
Arguments Issuer : clear implicits.

Section issuer.
  Context {E : Ext}.

  (** [Issuer::from_bytes]; aeonflux/src/issuer.rs:52-61. *)
  Definition issuer_from_bytes (b : bytes) : outcome CredentialError (Issuer E) :=
    if (List.length b <? 64 + 96)%nat then Err MissingData else
    do pb <- or_panic (slice 0 64 b);
    do params <- system_parameters_from_bytes pb;
    do kb <- or_panic (slice_from 64 b);
    do keypair <- map_err mac_to_credential_error (keypair_from_bytes kb);
    Ok {| iss_system_parameters := params; iss_keypair := keypair |}.

  (** [Issuer::to_bytes]; aeonflux/src/issuer.rs:63-70. *)
  Definition issuer_to_bytes (i : Issuer E) : bytes :=
    (system_parameters_to_bytes (iss_system_parameters i)
     ++ keypair_to_bytes (iss_keypair i))%list.

  (** [Issuer::create]; aeonflux/src/issuer.rs:86-96. *)
  Definition issuer_create (params : SystemParameters E) (r : rng) : Issuer E * rng :=
    let (keypair, r) := keypair_new (sp_h params) r in
    ({| iss_system_parameters := params; iss_keypair := keypair |}, r).

  (** [Issuer::new]; aeonflux/src/issuer.rs:99-105. *)
  Definition issuer_new (params : SystemParameters E) (keypair : Keypair E) : Issuer E :=
    {| iss_system_parameters := params; iss_keypair := keypair |}.

  (** [Issuer::get_issuer_parameters]; aeonflux/src/issuer.rs:108-110. *)
  Definition get_issuer_parameters (i : Issuer E) : IssuerParameters E :=
    kp_public (iss_keypair i).

  (** The statement proved and the commitment published by [Issuer::issue], once
      the tag is made and [x0_tilde] drawn; aeonflux/src/issuer.rs:163-182.
      [attributes[0]] may panic. *)
  Definition issue_statement (i : Issuer E) (X1 : point E) (x1 : scalar)
      (attributes : list scalar) (tag : Tag E) (x0_tilde : scalar)
    : outcome CredentialError (ir_Publics E * ir_Scalars) :=
    let g := sp_g (iss_system_parameters i) in
    let h := sp_h (iss_system_parameters i) in
    let x0 := sk_x0 (kp_secret (iss_keypair i)) in
    let Cx0 := commitment_to (smul x0 g) x0_tilde h in
    do m1 <- or_panic (index attributes 0);
    Ok ({| irp_P := tag_nonce tag; irp_Q := tag_mac tag; irp_Cx0 := Cx0;
           irp_B := g; irp_A := h; irp_X1 := X1 |},
        {| irs_x0 := x0; irs_x1 := x1; irs_x0_tilde := x0_tilde;
           irs_m1x1 := s_mul m1 x1 |}).

  (** [Issuer::issue]; aeonflux/src/issuer.rs:136-195.  [rng] is the caller's random source,
      [os] is [thread_rng]; both remainders are returned on success. *)
  Definition issue (i : Issuer E) (request : CredentialRequest) (r os : rng)
    : outcome CredentialError (CredentialIssuance E * rng * rng) :=
    do X1 <- ok_or NoIssuerParameters (nth_error (pk_Xn (kp_public (iss_keypair i))) 0);
    do x1 <- ok_or NoIssuerKey (nth_error (sk_xn (kp_secret (iss_keypair i))) 0);
    let attributes := rq_attributes_revealed request in
    let t := transcript_new "AEONFLUX ISSUANCE" in
    let (csprng, r) := @reseed E t [] r in
    do (tag, csprng) <- map_err (fun _ => MacCreation)
                          (mac (kp_secret (iss_keypair i)) attributes csprng);
    let (x0_tilde, csprng) := ephemeral_new csprng in
    do (publics, secrets) <- issue_statement i X1 x1 attributes tag x0_tilde;
    let (proof, os) := ir_create t publics secrets os in
    Ok ({| is_secret_key_commitment := irp_Cx0 publics;
           is_credential := {| cr_mac := tag; cr_attributes := attributes |};
           is_proof := proof |}, r, os).

  (** The loops of [Issuer::verify]; aeonflux/src/issuer.rs:205-211.  [xn[index]] may panic. *)
  Fixpoint verify_revealed (xn : list scalar) (P : point E) (index0 : nat)
      (attributes : list scalar) (V : point E) : outcome CredentialError (point E) :=
    match attributes with
    | [] => Ok V
    | m :: attributes' =>
      do x <- or_panic (index xn index0);
      verify_revealed xn P (S index0) attributes' (padd V (smul (s_mul x m) P))
    end.
  Fixpoint verify_blinded (xn : list scalar) (index0 : nat)
      (attributes : list (point E)) (V : point E) : outcome CredentialError (point E) :=
    match attributes with
    | [] => Ok V
    | C :: attributes' =>
      do x <- or_panic (index xn index0);
      verify_blinded xn (S index0) attributes' (padd V (smul x C))
    end.

  (** The statement checked by [Issuer::verify]; aeonflux/src/issuer.rs:200-222. *)
  Definition verify_statement (i : Issuer E) (p : CredentialPresentation E)
    : outcome CredentialError (vc_Publics E) :=
    let P := pr_rerandomized_nonce p in
    let secret := kp_secret (iss_keypair i) in
    do V <- verify_revealed (sk_xn secret) P 0 (pr_attributes_revealed p) (smul (sk_x0 secret) P);
    do V <- verify_blinded (sk_xn secret) 0 (pr_attributes_blinded p) V;
    let V := psub V (pr_rerandomized_mac_commitment p) in
    do X0 <- or_panic (index (pk_Xn (kp_public (iss_keypair i))) 0);
    do Cm0 <- or_panic (index (pr_attributes_blinded p) 0);
    Ok {| vcp_B := sp_g (iss_system_parameters i);
          vcp_A := sp_h (iss_system_parameters i);
          vcp_X0 := X0; vcp_P := P; vcp_V := V; vcp_Cm0 := Cm0 |}.

  (** [Issuer::verify]; aeonflux/src/issuer.rs:197-229. *)
  Definition issuer_verify (i : Issuer E) (p : CredentialPresentation E)
    : outcome CredentialError (VerifiedCredential E) :=
    do publics <- verify_statement i p;
    let t := transcript_new "AEONFLUX SHOW" in
    do _ <- map_err (fun _ => MacVerification) (vc_verify (pr_proof p) t publics);
    Ok {| vf_presentation := p |}.
End issuer.
