(** aeonflux/src/proofs.rs: the transcript each [Proof::create] and
    [Proof::verify] leaves behind in its argument [transcript: &mut Transcript].

    [ModelProofs] returns what these functions return; here is what they do to
    the transcript.  Nothing in /repo uses a transcript after a proof, but the
    functions are public and take it by mutable reference. *)
From Verif Require Export ModelProofs.

Local Open Scope string_scope.

(** merlin: [challenge_bytes label dest] changes the transcript too: it absorbs
    the label and the length of [dest] and squeezes.  Only that the operation
    took place matters to what comes after, so it is recorded as one more entry,
    under a label [commit_bytes] is never called with in /repo. *)
Definition squeezed (t : transcript) (label : string) (n : nat) : transcript :=
  commit_bytes t ("challenge_bytes " ++ label) (le_encode 4 (Z.of_nat n)).

(** The block closing every [create] and [verify], e.g. aeonflux/src/proofs.rs:123-127, 166-170:
    [transcript.challenge_bytes(b"chal", &mut bytes)] with 64 bytes. *)
Definition chal_taken (t : transcript) : transcript := squeezed t "chal" 64%nat.

(** ** mod issuance_revealed *)
Section issuance_revealed.
  Context {E : Ext}.

  (** aeonflux/src/proofs.rs:87-135, the transcript after the randomness [rand] is drawn;
      [t] is the transcript after [ir_create_absorb]. *)
  Definition ir_create_with_left (t : transcript) (publics : ir_Publics E) (rand : ir_Scalars) : transcript :=
    let commitments := {|
      irc_Q := multiscalar_mul [irs_x0 rand; irs_m1x1 rand]
                  [irp_P publics; irp_P publics];
      irc_Cx0 := multiscalar_mul [irs_x0 rand; irs_x0_tilde rand]
                  [irp_B publics; irp_A publics];
      irc_X1 := multiscalar_mul [irs_x1 rand]
                  [irp_A publics]
    |} in
    let t := commit_bytes t "com Q" (compress (irc_Q commitments)) in
    let t := commit_bytes t "com Cx0" (compress (irc_Cx0 commitments)) in
    let t := commit_bytes t "com X1" (compress (irc_X1 commitments)) in
    chal_taken t.

  (** [Proof::create]; aeonflux/src/proofs.rs:87-135: the proof, the transcript left, the rest of [thread_rng].
      [fork_transcript] works on a copy. *)
  Definition ir_create_left (t : transcript) (publics : ir_Publics E) (secrets : ir_Scalars)
      (os : rng) : ir_Proof * transcript * rng :=
    let t := ir_create_absorb t publics in
    let (rand, os) := @ir_randomness E t secrets os in
    (ir_create_with t publics secrets rand, ir_create_with_left t publics rand, os).

  (** [Proof::verify]; aeonflux/src/proofs.rs:139-176: the answer and the transcript left,
      which does not depend on the answer. *)
  Definition ir_verify_left (proof : ir_Proof) (t : transcript) (publics : ir_Publics E)
    : outcome unit unit * transcript :=
    (ir_verify proof t publics,
    let commitments := ir_recompute proof publics in
    let t := commit_bytes t "domain-sep" (str "issuance_revealed") in
    let t := commit_bytes t "P" (compress (irp_P publics)) in
    let t := commit_bytes t "Q" (compress (irp_Q publics)) in
    let t := commit_bytes t "Cx0" (compress (irp_Cx0 publics)) in
    let t := commit_bytes t "B" (compress (irp_B publics)) in
    let t := commit_bytes t "A" (compress (irp_A publics)) in
    let t := commit_bytes t "X1" (compress (irp_X1 publics)) in
    let t := commit_bytes t "com Q" (compress (irc_Q commitments)) in
    let t := commit_bytes t "com Cx0" (compress (irc_Cx0 commitments)) in
    let t := commit_bytes t "com X1" (compress (irc_X1 commitments)) in
    chal_taken t).
End issuance_revealed.

(** ** mod attributes_blinded *)
Section attributes_blinded.
  Context {E : Ext}.

  (** aeonflux/src/proofs.rs:230-288, the transcript after the randomness [rand] is drawn;
      [t] is the transcript after [ab_create_absorb]. *)
  Definition ab_create_with_left (t : transcript) (publics : ab_Publics E) (rand : ab_Scalars) : transcript :=
    let commitments := {|
      abc_D := multiscalar_mul [abs_d rand]
                  [abp_B publics];
      abc_encrypted_attribute_0_0 := multiscalar_mul [abs_e0 rand]
                  [abp_B publics];
      abc_encrypted_attribute_0_1 := multiscalar_mul [abs_m0 rand; abs_e0 rand]
                  [abp_B publics; abp_D publics]
    |} in
    let t := commit_bytes t "com D" (compress (abc_D commitments)) in
    let t := commit_bytes t "com encrypted_attribute_0_0" (compress (abc_encrypted_attribute_0_0 commitments)) in
    let t := commit_bytes t "com encrypted_attribute_0_1" (compress (abc_encrypted_attribute_0_1 commitments)) in
    chal_taken t.

  (** [Proof::create]; aeonflux/src/proofs.rs:230-288: the proof, the transcript left, the rest of [thread_rng].
      [fork_transcript] works on a copy. *)
  Definition ab_create_left (t : transcript) (publics : ab_Publics E) (secrets : ab_Scalars)
      (os : rng) : ab_Proof * transcript * rng :=
    let t := ab_create_absorb t publics in
    let (rand, os) := @ab_randomness E t secrets os in
    (ab_create_with t publics secrets rand, ab_create_with_left t publics rand, os).

  (** [Proof::verify]; aeonflux/src/proofs.rs:291-343: the answer and the transcript left,
      which does not depend on the answer. *)
  Definition ab_verify_left (proof : ab_Proof) (t : transcript) (publics : ab_Publics E)
    : outcome unit unit * transcript :=
    (ab_verify proof t publics,
    let commitments := ab_recompute proof publics in
    let t := commit_bytes t "domain-sep" (str "attributes_blinded") in
    let t := commit_bytes t "B" (compress (abp_B publics)) in
    let t := commit_bytes t "A" (compress (abp_A publics)) in
    let t := commit_bytes t "D" (compress (abp_D publics)) in
    let t := commit_bytes t "encrypted_attribute_0_0" (compress (abp_encrypted_attribute_0_0 publics)) in
    let t := commit_bytes t "encrypted_attribute_0_1" (compress (abp_encrypted_attribute_0_1 publics)) in
    let t := commit_bytes t "com D" (compress (abc_D commitments)) in
    let t := commit_bytes t "com encrypted_attribute_0_0" (compress (abc_encrypted_attribute_0_0 commitments)) in
    let t := commit_bytes t "com encrypted_attribute_0_1" (compress (abc_encrypted_attribute_0_1 commitments)) in
    chal_taken t).
End attributes_blinded.

(** ** mod issuance_blinded *)
Section issuance_blinded.
  Context {E : Ext}.

  (** aeonflux/src/proofs.rs:414-502, the transcript after the randomness [rand] is drawn;
      [t] is the transcript after [ib_create_absorb]. *)
  Definition ib_create_with_left (t : transcript) (publics : ib_Publics E) (rand : ib_Scalars) : transcript :=
    let commitments := {|
      ibc_X0 := multiscalar_mul [ibs_x0 rand; ibs_x0_tilde rand]
                  [ibp_B publics; ibp_A publics];
      ibc_X1 := multiscalar_mul [ibs_x1 rand]
                  [ibp_A publics];
      ibc_P := multiscalar_mul [ibs_b rand]
                  [ibp_B publics];
      ibc_T0_0 := multiscalar_mul [ibs_b rand]
                  [ibp_X0 publics];
      ibc_T0_1 := multiscalar_mul [ibs_t0 rand]
                  [ibp_A publics];
      ibc_EQ_commitment := multiscalar_mul [ibs_s rand; ibs_t0 rand]
                  [ibp_B publics; ibp_encrypted_attribute_0_0 publics];
      ibc_EQ_encryption := multiscalar_mul [ibs_s rand; ibs_t0 rand]
                  [ibp_D publics; ibp_encrypted_attribute_0_1 publics]
    |} in
    let t := commit_bytes t "com X0" (compress (ibc_X0 commitments)) in
    let t := commit_bytes t "com X1" (compress (ibc_X1 commitments)) in
    let t := commit_bytes t "com P" (compress (ibc_P commitments)) in
    let t := commit_bytes t "com T0_0" (compress (ibc_T0_0 commitments)) in
    let t := commit_bytes t "com T0_1" (compress (ibc_T0_1 commitments)) in
    let t := commit_bytes t "com EQ_commitment" (compress (ibc_EQ_commitment commitments)) in
    let t := commit_bytes t "com EQ_encryption" (compress (ibc_EQ_encryption commitments)) in
    chal_taken t.

  (** [Proof::create]; aeonflux/src/proofs.rs:414-502: the proof, the transcript left, the rest of [thread_rng].
      [fork_transcript] works on a copy. *)
  Definition ib_create_left (t : transcript) (publics : ib_Publics E) (secrets : ib_Scalars)
      (os : rng) : ib_Proof * transcript * rng :=
    let t := ib_create_absorb t publics in
    let (rand, os) := @ib_randomness E t secrets os in
    (ib_create_with t publics secrets rand, ib_create_with_left t publics rand, os).

  (** [Proof::verify]; aeonflux/src/proofs.rs:506-591: the answer and the transcript left,
      which does not depend on the answer. *)
  Definition ib_verify_left (proof : ib_Proof) (t : transcript) (publics : ib_Publics E)
    : outcome unit unit * transcript :=
    (ib_verify proof t publics,
    let commitments := ib_recompute proof publics in
    let t := commit_bytes t "domain-sep" (str "issuance_blinded") in
    let t := commit_bytes t "B" (compress (ibp_B publics)) in
    let t := commit_bytes t "A" (compress (ibp_A publics)) in
    let t := commit_bytes t "X0" (compress (ibp_X0 publics)) in
    let t := commit_bytes t "X1" (compress (ibp_X1 publics)) in
    let t := commit_bytes t "D" (compress (ibp_D publics)) in
    let t := commit_bytes t "P" (compress (ibp_P publics)) in
    let t := commit_bytes t "T0_0" (compress (ibp_T0_0 publics)) in
    let t := commit_bytes t "T0_1" (compress (ibp_T0_1 publics)) in
    let t := commit_bytes t "EQ_commitment" (compress (ibp_EQ_commitment publics)) in
    let t := commit_bytes t "EQ_encryption" (compress (ibp_EQ_encryption publics)) in
    let t := commit_bytes t "encrypted_attribute_0_0" (compress (ibp_encrypted_attribute_0_0 publics)) in
    let t := commit_bytes t "encrypted_attribute_0_1" (compress (ibp_encrypted_attribute_0_1 publics)) in
    let t := commit_bytes t "com X0" (compress (ibc_X0 commitments)) in
    let t := commit_bytes t "com X1" (compress (ibc_X1 commitments)) in
    let t := commit_bytes t "com P" (compress (ibc_P commitments)) in
    let t := commit_bytes t "com T0_0" (compress (ibc_T0_0 commitments)) in
    let t := commit_bytes t "com T0_1" (compress (ibc_T0_1 commitments)) in
    let t := commit_bytes t "com EQ_commitment" (compress (ibc_EQ_commitment commitments)) in
    let t := commit_bytes t "com EQ_encryption" (compress (ibc_EQ_encryption commitments)) in
    chal_taken t).
End issuance_blinded.

(** ** mod valid_credential *)
Section valid_credential.
  Context {E : Ext}.

  (** aeonflux/src/proofs.rs:642-684, the transcript after the randomness [rand] is drawn;
      [t] is the transcript after [vc_create_absorb]. *)
  Definition vc_create_with_left (t : transcript) (publics : vc_Publics E) (rand : vc_Scalars) : transcript :=
    let commitments := {|
      vcc_Cm0 := multiscalar_mul [vcs_m0 rand; vcs_z0 rand]
                  [vcp_P publics; vcp_A publics];
      vcc_V := multiscalar_mul [vcs_z0 rand; vcs_minus_zQ rand]
                  [vcp_X0 publics; vcp_A publics]
    |} in
    let t := commit_bytes t "com Cm0" (compress (vcc_Cm0 commitments)) in
    let t := commit_bytes t "com V" (compress (vcc_V commitments)) in
    chal_taken t.

  (** [Proof::create]; aeonflux/src/proofs.rs:642-684: the proof, the transcript left, the rest of [thread_rng].
      [fork_transcript] works on a copy. *)
  Definition vc_create_left (t : transcript) (publics : vc_Publics E) (secrets : vc_Scalars)
      (os : rng) : vc_Proof * transcript * rng :=
    let t := vc_create_absorb t publics in
    let (rand, os) := @vc_randomness E t secrets os in
    (vc_create_with t publics secrets rand, vc_create_with_left t publics rand, os).

  (** [Proof::verify]; aeonflux/src/proofs.rs:688-720: the answer and the transcript left,
      which does not depend on the answer. *)
  Definition vc_verify_left (proof : vc_Proof) (t : transcript) (publics : vc_Publics E)
    : outcome unit unit * transcript :=
    (vc_verify proof t publics,
    let commitments := vc_recompute proof publics in
    let t := commit_bytes t "domain-sep" (str "valid_credential") in
    let t := commit_bytes t "B" (compress (vcp_B publics)) in
    let t := commit_bytes t "A" (compress (vcp_A publics)) in
    let t := commit_bytes t "X0" (compress (vcp_X0 publics)) in
    let t := commit_bytes t "P" (compress (vcp_P publics)) in
    let t := commit_bytes t "V" (compress (vcp_V publics)) in
    let t := commit_bytes t "Cm0" (compress (vcp_Cm0 publics)) in
    let t := commit_bytes t "com Cm0" (compress (vcc_Cm0 commitments)) in
    let t := commit_bytes t "com V" (compress (vcc_V commitments)) in
    chal_taken t).
End valid_credential.

(** ** mod committed_values_equal *)
Section committed_values_equal.
  Context {E : Ext}.

  (** aeonflux/src/proofs.rs:770-810, the transcript after the randomness [rand] is drawn;
      [t] is the transcript after [ce_create_absorb]. *)
  Definition ce_create_with_left (t : transcript) (publics : ce_Publics E) (rand : ce_Scalars) : transcript :=
    let commitments := {|
      cec_Cm0 := multiscalar_mul [ces_m0 rand; ces_z0 rand]
                  [cep_P publics; cep_A publics];
      cec_Cm1 := multiscalar_mul [ces_m0 rand; ces_z1 rand]
                  [cep_A publics; cep_B publics]
    |} in
    let t := commit_bytes t "com Cm0" (compress (cec_Cm0 commitments)) in
    let t := commit_bytes t "com Cm1" (compress (cec_Cm1 commitments)) in
    chal_taken t.

  (** [Proof::create]; aeonflux/src/proofs.rs:770-810: the proof, the transcript left, the rest of [thread_rng].
      [fork_transcript] works on a copy. *)
  Definition ce_create_left (t : transcript) (publics : ce_Publics E) (secrets : ce_Scalars)
      (os : rng) : ce_Proof * transcript * rng :=
    let t := ce_create_absorb t publics in
    let (rand, os) := @ce_randomness E t secrets os in
    (ce_create_with t publics secrets rand, ce_create_with_left t publics rand, os).

  (** [Proof::verify]; aeonflux/src/proofs.rs:814-845: the answer and the transcript left,
      which does not depend on the answer. *)
  Definition ce_verify_left (proof : ce_Proof) (t : transcript) (publics : ce_Publics E)
    : outcome unit unit * transcript :=
    (ce_verify proof t publics,
    let commitments := ce_recompute proof publics in
    let t := commit_bytes t "domain-sep" (str "committed_values_equal") in
    let t := commit_bytes t "B" (compress (cep_B publics)) in
    let t := commit_bytes t "A" (compress (cep_A publics)) in
    let t := commit_bytes t "P" (compress (cep_P publics)) in
    let t := commit_bytes t "Cm0" (compress (cep_Cm0 publics)) in
    let t := commit_bytes t "Cm1" (compress (cep_Cm1 publics)) in
    let t := commit_bytes t "com Cm0" (compress (cec_Cm0 commitments)) in
    let t := commit_bytes t "com Cm1" (compress (cec_Cm1 commitments)) in
    chal_taken t).
End committed_values_equal.
