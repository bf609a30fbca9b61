(** aeonflux/src/proofs.rs: the five non-interactive zero-knowledge proofs.

    Each Rust module has a [Secrets], a [Publics], a [Commitments], a
    [Randomnesses] and a [Responses] struct.  The three structs of scalars have
    the same fields and are one record here ([.._Scalars]).

    [create] draws its randomness from merlin's [TranscriptRng], which is keyed
    with the transcript, the secrets and 32 bytes of [thread_rng]; the model
    makes the [thread_rng] stream an argument ([os]) and splits [create] into
    drawing the randomness ([.._randomness]) and the rest ([.._create_with]).

    Simplification: the Rust functions also leave the (mutated) transcript
    behind; no caller in /repo uses it again, so it is not returned here but
    modelled apart, in [ModelLeft]. *)
From Verif Require Export External.

Local Open Scope string_scope.

(** [Scalar::from_bytes_mod_order_wide(challenge_bytes(b"chal", 64))]:
    the block closing every [create] and [verify], e.g. aeonflux/src/proofs.rs:123-127, 166-170. *)
Definition get_challenge {E : Ext} (t : transcript) : scalar :=
  from_bytes_mod_order_wide (@tr_challenge E t "chal" 64%nat).

(** ** mod issuance_revealed, aeonflux/src/proofs.rs:36-178 *)

(** [Secrets], [Randomnesses], [Responses]; aeonflux/src/proofs.rs:40-45. *)
Record ir_Scalars : Type := {
  irs_x0 : scalar;
  irs_x1 : scalar;
  irs_x0_tilde : scalar;
  irs_m1x1 : scalar;
}.

(** [Publics]; aeonflux/src/proofs.rs:48-55. *)
Record ir_Publics {E : Ext} : Type := {
  irp_P : point E;
  irp_Q : point E;
  irp_Cx0 : point E;
  irp_B : point E;
  irp_A : point E;
  irp_X1 : point E;
}.
Arguments ir_Publics : clear implicits.

(** [Commitments]. *)
Record ir_Commitments {E : Ext} : Type := {
  irc_Q : point E;
  irc_Cx0 : point E;
  irc_X1 : point E;
}.
Arguments ir_Commitments : clear implicits.

(** [Proof]. *)
Record ir_Proof : Type := {
  ir_challenge : scalar;
  ir_responses : ir_Scalars;
}.

Section issuance_revealed.
  Context {E : Ext}.

  (** The randomness drawn in [create] once the public values are absorbed. *)
  Definition ir_randomness (t : transcript) (secrets : ir_Scalars) (os : rng) : ir_Scalars * rng :=
    let witness := [("x0", scalar_to_bytes (irs_x0 secrets));
                    ("x1", scalar_to_bytes (irs_x1 secrets));
                    ("x0_tilde", scalar_to_bytes (irs_x0_tilde secrets));
                    ("m1x1", scalar_to_bytes (irs_m1x1 secrets))] in
    let (r, os) := @reseed E t witness os in
    let (x0, r) := scalar_random r in
    let (x1, r) := scalar_random r in
    let (x0_tilde, r) := scalar_random r in
    let (m1x1, r) := scalar_random r in
    ({| irs_x0 := x0;
        irs_x1 := x1;
        irs_x0_tilde := x0_tilde;
        irs_m1x1 := m1x1 |}, os).

  (** aeonflux/src/proofs.rs:87-135, absorption of the public values. *)
  Definition ir_create_absorb (t : transcript) (publics : ir_Publics E) : transcript :=
    let t := commit_bytes t "domain-sep" (str "issuance_revealed") in
    let t := commit_bytes t "P" (compress (irp_P publics)) in
    let t := commit_bytes t "Q" (compress (irp_Q publics)) in
    let t := commit_bytes t "Cx0" (compress (irp_Cx0 publics)) in
    let t := commit_bytes t "B" (compress (irp_B publics)) in
    let t := commit_bytes t "A" (compress (irp_A publics)) in
    let t := commit_bytes t "X1" (compress (irp_X1 publics)) in
    t.

  (** aeonflux/src/proofs.rs:87-135, the part after drawing the randomness [rand];
      [t] is the transcript after [ir_create_absorb]. *)
  Definition ir_create_with (t : transcript) (publics : ir_Publics E)
      (secrets rand : ir_Scalars) : ir_Proof :=
    let commitments := {|
      irc_Q := multiscalar_mul [irs_x0 rand; irs_m1x1 rand]
                  [irp_P publics; irp_P publics];
      irc_Cx0 := multiscalar_mul [irs_x0 rand; irs_x0_tilde rand]
                  [irp_B publics; irp_A publics];
      irc_X1 := multiscalar_mul [irs_x1 rand]
                  [irp_A publics]
    |} in
    let t := commit_bytes t "com Q" (compress (irc_Q commitments)) in
    let t := commit_bytes t "com Cx0" (compress (irc_Cx0 commitments)) in
    let t := commit_bytes t "com X1" (compress (irc_X1 commitments)) in
    let challenge := @get_challenge E t in
    {| ir_challenge := challenge;
       ir_responses := {|
         irs_x0 := s_add (s_mul challenge (irs_x0 secrets)) (irs_x0 rand);
         irs_x1 := s_add (s_mul challenge (irs_x1 secrets)) (irs_x1 rand);
         irs_x0_tilde := s_add (s_mul challenge (irs_x0_tilde secrets)) (irs_x0_tilde rand);
         irs_m1x1 := s_add (s_mul challenge (irs_m1x1 secrets)) (irs_m1x1 rand)
       |} |}.

  (** [Proof::create]; aeonflux/src/proofs.rs:87-135. *)
  Definition ir_create (t : transcript) (publics : ir_Publics E) (secrets : ir_Scalars)
      (os : rng) : ir_Proof * rng :=
    let t := ir_create_absorb t publics in
    let (rand, os) := ir_randomness t secrets os in
    (ir_create_with t publics secrets rand, os).

  (** The commitments [Proof::verify] recomputes; aeonflux/src/proofs.rs:139-176. *)
  Definition ir_recompute (proof : ir_Proof) (publics : ir_Publics E) : ir_Commitments E :=
    let responses := ir_responses proof in
    let minus_c := s_neg (ir_challenge proof) in
    {|
      irc_Q := multiscalar_mul [irs_x0 responses; irs_m1x1 responses; minus_c]
                  [irp_P publics; irp_P publics; irp_Q publics];
      irc_Cx0 := multiscalar_mul [irs_x0 responses; irs_x0_tilde responses; minus_c]
                  [irp_B publics; irp_A publics; irp_Cx0 publics];
      irc_X1 := multiscalar_mul [irs_x1 responses; minus_c]
                  [irp_A publics; irp_X1 publics]
    |}.

  (** [Proof::verify]; aeonflux/src/proofs.rs:139-176. *)
  Definition ir_verify (proof : ir_Proof) (t : transcript) (publics : ir_Publics E) : outcome unit unit :=
    let commitments := ir_recompute proof publics in
    let t := commit_bytes t "domain-sep" (str "issuance_revealed") in
    let t := commit_bytes t "P" (compress (irp_P publics)) in
    let t := commit_bytes t "Q" (compress (irp_Q publics)) in
    let t := commit_bytes t "Cx0" (compress (irp_Cx0 publics)) in
    let t := commit_bytes t "B" (compress (irp_B publics)) in
    let t := commit_bytes t "A" (compress (irp_A publics)) in
    let t := commit_bytes t "X1" (compress (irp_X1 publics)) in
    let t := commit_bytes t "com Q" (compress (irc_Q commitments)) in
    let t := commit_bytes t "com Cx0" (compress (irc_Cx0 commitments)) in
    let t := commit_bytes t "com X1" (compress (irc_X1 commitments)) in
    let challenge := @get_challenge E t in
    if scalar_eqb challenge (ir_challenge proof) then Ok tt else Err tt.

End issuance_revealed.

(** ** mod attributes_blinded, aeonflux/src/proofs.rs:180-345 *)

(** [Secrets], [Randomnesses], [Responses]; aeonflux/src/proofs.rs:184-189. *)
Record ab_Scalars : Type := {
  abs_d : scalar;
  abs_e0 : scalar;
  abs_m0 : scalar;
  abs_nonce : scalar;
}.

(** [Publics]; aeonflux/src/proofs.rs:192-198. *)
Record ab_Publics {E : Ext} : Type := {
  abp_B : point E;
  abp_A : point E;
  abp_D : point E;
  abp_encrypted_attribute_0_0 : point E;
  abp_encrypted_attribute_0_1 : point E;
}.
Arguments ab_Publics : clear implicits.

(** [Commitments]. *)
Record ab_Commitments {E : Ext} : Type := {
  abc_D : point E;
  abc_encrypted_attribute_0_0 : point E;
  abc_encrypted_attribute_0_1 : point E;
}.
Arguments ab_Commitments : clear implicits.

(** [Proof]. *)
Record ab_Proof : Type := {
  ab_challenge : scalar;
  ab_responses : ab_Scalars;
}.

Section attributes_blinded.
  Context {E : Ext}.

  (** The randomness drawn in [create] once the public values are absorbed. *)
  Definition ab_randomness (t : transcript) (secrets : ab_Scalars) (os : rng) : ab_Scalars * rng :=
    let witness := [("d", scalar_to_bytes (abs_d secrets));
                    ("e0", scalar_to_bytes (abs_e0 secrets));
                    ("m0", scalar_to_bytes (abs_m0 secrets));
                    ("nonce", scalar_to_bytes (abs_nonce secrets))] in
    let (r, os) := @reseed E t witness os in
    let (d, r) := scalar_random r in
    let (e0, r) := scalar_random r in
    let (m0, r) := scalar_random r in
    let (nonce, r) := scalar_random r in
    ({| abs_d := d;
        abs_e0 := e0;
        abs_m0 := m0;
        abs_nonce := nonce |}, os).

  (** aeonflux/src/proofs.rs:230-288, absorption of the public values. *)
  Definition ab_create_absorb (t : transcript) (publics : ab_Publics E) : transcript :=
    let t := commit_bytes t "domain-sep" (str "attributes_blinded") in
    let t := commit_bytes t "B" (compress (abp_B publics)) in
    let t := commit_bytes t "A" (compress (abp_A publics)) in
    let t := commit_bytes t "D" (compress (abp_D publics)) in
    let t := commit_bytes t "encrypted_attribute_0_0" (compress (abp_encrypted_attribute_0_0 publics)) in
    let t := commit_bytes t "encrypted_attribute_0_1" (compress (abp_encrypted_attribute_0_1 publics)) in
    t.

  (** aeonflux/src/proofs.rs:230-288, the part after drawing the randomness [rand];
      [t] is the transcript after [ab_create_absorb]. *)
  Definition ab_create_with (t : transcript) (publics : ab_Publics E)
      (secrets rand : ab_Scalars) : ab_Proof :=
    let commitments := {|
      abc_D := multiscalar_mul [abs_d rand]
                  [abp_B publics];
      abc_encrypted_attribute_0_0 := multiscalar_mul [abs_e0 rand]
                  [abp_B publics];
      abc_encrypted_attribute_0_1 := multiscalar_mul [abs_m0 rand; abs_e0 rand]
                  [abp_B publics; abp_D publics]
    |} in
    let t := commit_bytes t "com D" (compress (abc_D commitments)) in
    let t := commit_bytes t "com encrypted_attribute_0_0" (compress (abc_encrypted_attribute_0_0 commitments)) in
    let t := commit_bytes t "com encrypted_attribute_0_1" (compress (abc_encrypted_attribute_0_1 commitments)) in
    let challenge := @get_challenge E t in
    {| ab_challenge := challenge;
       ab_responses := {|
         abs_d := s_add (s_mul challenge (abs_d secrets)) (abs_d rand);
         abs_e0 := s_add (s_mul challenge (abs_e0 secrets)) (abs_e0 rand);
         abs_m0 := s_add (s_mul challenge (abs_m0 secrets)) (abs_m0 rand);
         abs_nonce := s_add (s_mul challenge (abs_nonce secrets)) (abs_nonce rand)
       |} |}.

  (** [Proof::create]; aeonflux/src/proofs.rs:230-288. *)
  Definition ab_create (t : transcript) (publics : ab_Publics E) (secrets : ab_Scalars)
      (os : rng) : ab_Proof * rng :=
    let t := ab_create_absorb t publics in
    let (rand, os) := ab_randomness t secrets os in
    (ab_create_with t publics secrets rand, os).

  (** The commitments [Proof::verify] recomputes; aeonflux/src/proofs.rs:291-343. *)
  Definition ab_recompute (proof : ab_Proof) (publics : ab_Publics E) : ab_Commitments E :=
    let responses := ab_responses proof in
    let minus_c := s_neg (ab_challenge proof) in
    {|
      abc_D := multiscalar_mul [abs_d responses; minus_c]
                  [abp_B publics; abp_D publics];
      abc_encrypted_attribute_0_0 := multiscalar_mul [abs_e0 responses; minus_c]
                  [abp_B publics; abp_encrypted_attribute_0_0 publics];
      abc_encrypted_attribute_0_1 := multiscalar_mul [abs_m0 responses; abs_e0 responses; minus_c]
                  [abp_B publics; abp_D publics; abp_encrypted_attribute_0_1 publics]
    |}.

  (** [Proof::verify]; aeonflux/src/proofs.rs:291-343. *)
  Definition ab_verify (proof : ab_Proof) (t : transcript) (publics : ab_Publics E) : outcome unit unit :=
    let commitments := ab_recompute proof publics in
    let t := commit_bytes t "domain-sep" (str "attributes_blinded") in
    let t := commit_bytes t "B" (compress (abp_B publics)) in
    let t := commit_bytes t "A" (compress (abp_A publics)) in
    let t := commit_bytes t "D" (compress (abp_D publics)) in
    let t := commit_bytes t "encrypted_attribute_0_0" (compress (abp_encrypted_attribute_0_0 publics)) in
    let t := commit_bytes t "encrypted_attribute_0_1" (compress (abp_encrypted_attribute_0_1 publics)) in
    let t := commit_bytes t "com D" (compress (abc_D commitments)) in
    let t := commit_bytes t "com encrypted_attribute_0_0" (compress (abc_encrypted_attribute_0_0 commitments)) in
    let t := commit_bytes t "com encrypted_attribute_0_1" (compress (abc_encrypted_attribute_0_1 commitments)) in
    let challenge := @get_challenge E t in
    if scalar_eqb challenge (ab_challenge proof) then Ok tt else Err tt.

End attributes_blinded.

(** ** mod issuance_blinded, aeonflux/src/proofs.rs:347-593 *)

(** [Secrets], [Randomnesses], [Responses]; aeonflux/src/proofs.rs:351-358. *)
Record ib_Scalars : Type := {
  ibs_x0_tilde : scalar;
  ibs_x0 : scalar;
  ibs_x1 : scalar;
  ibs_s : scalar;
  ibs_b : scalar;
  ibs_t0 : scalar;
}.

(** [Publics]; aeonflux/src/proofs.rs:361-374. *)
Record ib_Publics {E : Ext} : Type := {
  ibp_B : point E;
  ibp_A : point E;
  ibp_X0 : point E;
  ibp_X1 : point E;
  ibp_D : point E;
  ibp_P : point E;
  ibp_T0_0 : point E;
  ibp_T0_1 : point E;
  ibp_EQ_commitment : point E;
  ibp_EQ_encryption : point E;
  ibp_encrypted_attribute_0_0 : point E;
  ibp_encrypted_attribute_0_1 : point E;
}.
Arguments ib_Publics : clear implicits.

(** [Commitments]. *)
Record ib_Commitments {E : Ext} : Type := {
  ibc_X0 : point E;
  ibc_X1 : point E;
  ibc_P : point E;
  ibc_T0_0 : point E;
  ibc_T0_1 : point E;
  ibc_EQ_commitment : point E;
  ibc_EQ_encryption : point E;
}.
Arguments ib_Commitments : clear implicits.

(** [Proof]. *)
Record ib_Proof : Type := {
  ib_challenge : scalar;
  ib_responses : ib_Scalars;
}.

Section issuance_blinded.
  Context {E : Ext}.

  (** The randomness drawn in [create] once the public values are absorbed. *)
  Definition ib_randomness (t : transcript) (secrets : ib_Scalars) (os : rng) : ib_Scalars * rng :=
    let witness := [("x0_tilde", scalar_to_bytes (ibs_x0_tilde secrets));
                    ("x0", scalar_to_bytes (ibs_x0 secrets));
                    ("x1", scalar_to_bytes (ibs_x1 secrets));
                    ("s", scalar_to_bytes (ibs_s secrets));
                    ("b", scalar_to_bytes (ibs_b secrets));
                    ("t0", scalar_to_bytes (ibs_t0 secrets))] in
    let (r, os) := @reseed E t witness os in
    let (x0_tilde, r) := scalar_random r in
    let (x0, r) := scalar_random r in
    let (x1, r) := scalar_random r in
    let (s, r) := scalar_random r in
    let (b, r) := scalar_random r in
    let (t0, r) := scalar_random r in
    ({| ibs_x0_tilde := x0_tilde;
        ibs_x0 := x0;
        ibs_x1 := x1;
        ibs_s := s;
        ibs_b := b;
        ibs_t0 := t0 |}, os).

  (** aeonflux/src/proofs.rs:414-502, absorption of the public values. *)
  Definition ib_create_absorb (t : transcript) (publics : ib_Publics E) : transcript :=
    let t := commit_bytes t "domain-sep" (str "issuance_blinded") in
    let t := commit_bytes t "B" (compress (ibp_B publics)) in
    let t := commit_bytes t "A" (compress (ibp_A publics)) in
    let t := commit_bytes t "X0" (compress (ibp_X0 publics)) in
    let t := commit_bytes t "X1" (compress (ibp_X1 publics)) in
    let t := commit_bytes t "D" (compress (ibp_D publics)) in
    let t := commit_bytes t "P" (compress (ibp_P publics)) in
    let t := commit_bytes t "T0_0" (compress (ibp_T0_0 publics)) in
    let t := commit_bytes t "T0_1" (compress (ibp_T0_1 publics)) in
    let t := commit_bytes t "EQ_commitment" (compress (ibp_EQ_commitment publics)) in
    let t := commit_bytes t "EQ_encryption" (compress (ibp_EQ_encryption publics)) in
    let t := commit_bytes t "encrypted_attribute_0_0" (compress (ibp_encrypted_attribute_0_0 publics)) in
    let t := commit_bytes t "encrypted_attribute_0_1" (compress (ibp_encrypted_attribute_0_1 publics)) in
    t.

  (** aeonflux/src/proofs.rs:414-502, the part after drawing the randomness [rand];
      [t] is the transcript after [ib_create_absorb]. *)
  Definition ib_create_with (t : transcript) (publics : ib_Publics E)
      (secrets rand : ib_Scalars) : ib_Proof :=
    let commitments := {|
      ibc_X0 := multiscalar_mul [ibs_x0 rand; ibs_x0_tilde rand]
                  [ibp_B publics; ibp_A publics];
      ibc_X1 := multiscalar_mul [ibs_x1 rand]
                  [ibp_A publics];
      ibc_P := multiscalar_mul [ibs_b rand]
                  [ibp_B publics];
      ibc_T0_0 := multiscalar_mul [ibs_b rand]
                  [ibp_X0 publics];
      ibc_T0_1 := multiscalar_mul [ibs_t0 rand]
                  [ibp_A publics];
      ibc_EQ_commitment := multiscalar_mul [ibs_s rand; ibs_t0 rand]
                  [ibp_B publics; ibp_encrypted_attribute_0_0 publics];
      ibc_EQ_encryption := multiscalar_mul [ibs_s rand; ibs_t0 rand]
                  [ibp_D publics; ibp_encrypted_attribute_0_1 publics]
    |} in
    let t := commit_bytes t "com X0" (compress (ibc_X0 commitments)) in
    let t := commit_bytes t "com X1" (compress (ibc_X1 commitments)) in
    let t := commit_bytes t "com P" (compress (ibc_P commitments)) in
    let t := commit_bytes t "com T0_0" (compress (ibc_T0_0 commitments)) in
    let t := commit_bytes t "com T0_1" (compress (ibc_T0_1 commitments)) in
    let t := commit_bytes t "com EQ_commitment" (compress (ibc_EQ_commitment commitments)) in
    let t := commit_bytes t "com EQ_encryption" (compress (ibc_EQ_encryption commitments)) in
    let challenge := @get_challenge E t in
    {| ib_challenge := challenge;
       ib_responses := {|
         ibs_x0_tilde := s_add (s_mul challenge (ibs_x0_tilde secrets)) (ibs_x0_tilde rand);
         ibs_x0 := s_add (s_mul challenge (ibs_x0 secrets)) (ibs_x0 rand);
         ibs_x1 := s_add (s_mul challenge (ibs_x1 secrets)) (ibs_x1 rand);
         ibs_s := s_add (s_mul challenge (ibs_s secrets)) (ibs_s rand);
         ibs_b := s_add (s_mul challenge (ibs_b secrets)) (ibs_b rand);
         ibs_t0 := s_add (s_mul challenge (ibs_t0 secrets)) (ibs_t0 rand)
       |} |}.

  (** [Proof::create]; aeonflux/src/proofs.rs:414-502. *)
  Definition ib_create (t : transcript) (publics : ib_Publics E) (secrets : ib_Scalars)
      (os : rng) : ib_Proof * rng :=
    let t := ib_create_absorb t publics in
    let (rand, os) := ib_randomness t secrets os in
    (ib_create_with t publics secrets rand, os).

  (** The commitments [Proof::verify] recomputes; aeonflux/src/proofs.rs:506-591. *)
  Definition ib_recompute (proof : ib_Proof) (publics : ib_Publics E) : ib_Commitments E :=
    let responses := ib_responses proof in
    let minus_c := s_neg (ib_challenge proof) in
    {|
      ibc_X0 := multiscalar_mul [ibs_x0 responses; ibs_x0_tilde responses; minus_c]
                  [ibp_B publics; ibp_A publics; ibp_X0 publics];
      ibc_X1 := multiscalar_mul [ibs_x1 responses; minus_c]
                  [ibp_A publics; ibp_X1 publics];
      ibc_P := multiscalar_mul [ibs_b responses; minus_c]
                  [ibp_B publics; ibp_P publics];
      ibc_T0_0 := multiscalar_mul [ibs_b responses; minus_c]
                  [ibp_X0 publics; ibp_T0_0 publics];
      ibc_T0_1 := multiscalar_mul [ibs_t0 responses; minus_c]
                  [ibp_A publics; ibp_T0_1 publics];
      ibc_EQ_commitment := multiscalar_mul [ibs_s responses; ibs_t0 responses; minus_c]
                  [ibp_B publics; ibp_encrypted_attribute_0_0 publics; ibp_EQ_commitment publics];
      ibc_EQ_encryption := multiscalar_mul [ibs_s responses; ibs_t0 responses; minus_c]
                  [ibp_D publics; ibp_encrypted_attribute_0_1 publics; ibp_EQ_encryption publics]
    |}.

  (** [Proof::verify]; aeonflux/src/proofs.rs:506-591. *)
  Definition ib_verify (proof : ib_Proof) (t : transcript) (publics : ib_Publics E) : outcome unit unit :=
    let commitments := ib_recompute proof publics in
    let t := commit_bytes t "domain-sep" (str "issuance_blinded") in
    let t := commit_bytes t "B" (compress (ibp_B publics)) in
    let t := commit_bytes t "A" (compress (ibp_A publics)) in
    let t := commit_bytes t "X0" (compress (ibp_X0 publics)) in
    let t := commit_bytes t "X1" (compress (ibp_X1 publics)) in
    let t := commit_bytes t "D" (compress (ibp_D publics)) in
    let t := commit_bytes t "P" (compress (ibp_P publics)) in
    let t := commit_bytes t "T0_0" (compress (ibp_T0_0 publics)) in
    let t := commit_bytes t "T0_1" (compress (ibp_T0_1 publics)) in
    let t := commit_bytes t "EQ_commitment" (compress (ibp_EQ_commitment publics)) in
    let t := commit_bytes t "EQ_encryption" (compress (ibp_EQ_encryption publics)) in
    let t := commit_bytes t "encrypted_attribute_0_0" (compress (ibp_encrypted_attribute_0_0 publics)) in
    let t := commit_bytes t "encrypted_attribute_0_1" (compress (ibp_encrypted_attribute_0_1 publics)) in
    let t := commit_bytes t "com X0" (compress (ibc_X0 commitments)) in
    let t := commit_bytes t "com X1" (compress (ibc_X1 commitments)) in
    let t := commit_bytes t "com P" (compress (ibc_P commitments)) in
    let t := commit_bytes t "com T0_0" (compress (ibc_T0_0 commitments)) in
    let t := commit_bytes t "com T0_1" (compress (ibc_T0_1 commitments)) in
    let t := commit_bytes t "com EQ_commitment" (compress (ibc_EQ_commitment commitments)) in
    let t := commit_bytes t "com EQ_encryption" (compress (ibc_EQ_encryption commitments)) in
    let challenge := @get_challenge E t in
    if scalar_eqb challenge (ib_challenge proof) then Ok tt else Err tt.

End issuance_blinded.

(** ** mod valid_credential, aeonflux/src/proofs.rs:595-722 *)

(** [Secrets], [Randomnesses], [Responses]; aeonflux/src/proofs.rs:599-603. *)
Record vc_Scalars : Type := {
  vcs_m0 : scalar;
  vcs_z0 : scalar;
  vcs_minus_zQ : scalar;
}.

(** [Publics]; aeonflux/src/proofs.rs:606-613. *)
Record vc_Publics {E : Ext} : Type := {
  vcp_B : point E;
  vcp_A : point E;
  vcp_X0 : point E;
  vcp_P : point E;
  vcp_V : point E;
  vcp_Cm0 : point E;
}.
Arguments vc_Publics : clear implicits.

(** [Commitments]. *)
Record vc_Commitments {E : Ext} : Type := {
  vcc_Cm0 : point E;
  vcc_V : point E;
}.
Arguments vc_Commitments : clear implicits.

(** [Proof]. *)
Record vc_Proof : Type := {
  vc_challenge : scalar;
  vc_responses : vc_Scalars;
}.

Section valid_credential.
  Context {E : Ext}.

  (** The randomness drawn in [create] once the public values are absorbed. *)
  Definition vc_randomness (t : transcript) (secrets : vc_Scalars) (os : rng) : vc_Scalars * rng :=
    let witness := [("m0", scalar_to_bytes (vcs_m0 secrets));
                    ("z0", scalar_to_bytes (vcs_z0 secrets));
                    ("minus_zQ", scalar_to_bytes (vcs_minus_zQ secrets))] in
    let (r, os) := @reseed E t witness os in
    let (m0, r) := scalar_random r in
    let (z0, r) := scalar_random r in
    let (minus_zQ, r) := scalar_random r in
    ({| vcs_m0 := m0;
        vcs_z0 := z0;
        vcs_minus_zQ := minus_zQ |}, os).

  (** aeonflux/src/proofs.rs:642-684, absorption of the public values. *)
  Definition vc_create_absorb (t : transcript) (publics : vc_Publics E) : transcript :=
    let t := commit_bytes t "domain-sep" (str "valid_credential") in
    let t := commit_bytes t "B" (compress (vcp_B publics)) in
    let t := commit_bytes t "A" (compress (vcp_A publics)) in
    let t := commit_bytes t "X0" (compress (vcp_X0 publics)) in
    let t := commit_bytes t "P" (compress (vcp_P publics)) in
    let t := commit_bytes t "V" (compress (vcp_V publics)) in
    let t := commit_bytes t "Cm0" (compress (vcp_Cm0 publics)) in
    t.

  (** aeonflux/src/proofs.rs:642-684, the part after drawing the randomness [rand];
      [t] is the transcript after [vc_create_absorb]. *)
  Definition vc_create_with (t : transcript) (publics : vc_Publics E)
      (secrets rand : vc_Scalars) : vc_Proof :=
    let commitments := {|
      vcc_Cm0 := multiscalar_mul [vcs_m0 rand; vcs_z0 rand]
                  [vcp_P publics; vcp_A publics];
      vcc_V := multiscalar_mul [vcs_z0 rand; vcs_minus_zQ rand]
                  [vcp_X0 publics; vcp_A publics]
    |} in
    let t := commit_bytes t "com Cm0" (compress (vcc_Cm0 commitments)) in
    let t := commit_bytes t "com V" (compress (vcc_V commitments)) in
    let challenge := @get_challenge E t in
    {| vc_challenge := challenge;
       vc_responses := {|
         vcs_m0 := s_add (s_mul challenge (vcs_m0 secrets)) (vcs_m0 rand);
         vcs_z0 := s_add (s_mul challenge (vcs_z0 secrets)) (vcs_z0 rand);
         vcs_minus_zQ := s_add (s_mul challenge (vcs_minus_zQ secrets)) (vcs_minus_zQ rand)
       |} |}.

  (** [Proof::create]; aeonflux/src/proofs.rs:642-684. *)
  Definition vc_create (t : transcript) (publics : vc_Publics E) (secrets : vc_Scalars)
      (os : rng) : vc_Proof * rng :=
    let t := vc_create_absorb t publics in
    let (rand, os) := vc_randomness t secrets os in
    (vc_create_with t publics secrets rand, os).

  (** The commitments [Proof::verify] recomputes; aeonflux/src/proofs.rs:688-720. *)
  Definition vc_recompute (proof : vc_Proof) (publics : vc_Publics E) : vc_Commitments E :=
    let responses := vc_responses proof in
    let minus_c := s_neg (vc_challenge proof) in
    {|
      vcc_Cm0 := multiscalar_mul [vcs_m0 responses; vcs_z0 responses; minus_c]
                  [vcp_P publics; vcp_A publics; vcp_Cm0 publics];
      vcc_V := multiscalar_mul [vcs_z0 responses; vcs_minus_zQ responses; minus_c]
                  [vcp_X0 publics; vcp_A publics; vcp_V publics]
    |}.

  (** [Proof::verify]; aeonflux/src/proofs.rs:688-720. *)
  Definition vc_verify (proof : vc_Proof) (t : transcript) (publics : vc_Publics E) : outcome unit unit :=
    let commitments := vc_recompute proof publics in
    let t := commit_bytes t "domain-sep" (str "valid_credential") in
    let t := commit_bytes t "B" (compress (vcp_B publics)) in
    let t := commit_bytes t "A" (compress (vcp_A publics)) in
    let t := commit_bytes t "X0" (compress (vcp_X0 publics)) in
    let t := commit_bytes t "P" (compress (vcp_P publics)) in
    let t := commit_bytes t "V" (compress (vcp_V publics)) in
    let t := commit_bytes t "Cm0" (compress (vcp_Cm0 publics)) in
    let t := commit_bytes t "com Cm0" (compress (vcc_Cm0 commitments)) in
    let t := commit_bytes t "com V" (compress (vcc_V commitments)) in
    let challenge := @get_challenge E t in
    if scalar_eqb challenge (vc_challenge proof) then Ok tt else Err tt.

End valid_credential.

(** ** mod committed_values_equal, aeonflux/src/proofs.rs:724-847 *)

(** [Secrets], [Randomnesses], [Responses]; aeonflux/src/proofs.rs:728-732. *)
Record ce_Scalars : Type := {
  ces_m0 : scalar;
  ces_z0 : scalar;
  ces_z1 : scalar;
}.

(** [Publics]; aeonflux/src/proofs.rs:735-741. *)
Record ce_Publics {E : Ext} : Type := {
  cep_B : point E;
  cep_A : point E;
  cep_P : point E;
  cep_Cm0 : point E;
  cep_Cm1 : point E;
}.
Arguments ce_Publics : clear implicits.

(** [Commitments]. *)
Record ce_Commitments {E : Ext} : Type := {
  cec_Cm0 : point E;
  cec_Cm1 : point E;
}.
Arguments ce_Commitments : clear implicits.

(** [Proof]. *)
Record ce_Proof : Type := {
  ce_challenge : scalar;
  ce_responses : ce_Scalars;
}.

Section committed_values_equal.
  Context {E : Ext}.

  (** The randomness drawn in [create] once the public values are absorbed. *)
  Definition ce_randomness (t : transcript) (secrets : ce_Scalars) (os : rng) : ce_Scalars * rng :=
    let witness := [("m0", scalar_to_bytes (ces_m0 secrets));
                    ("z0", scalar_to_bytes (ces_z0 secrets));
                    ("z1", scalar_to_bytes (ces_z1 secrets))] in
    let (r, os) := @reseed E t witness os in
    let (m0, r) := scalar_random r in
    let (z0, r) := scalar_random r in
    let (z1, r) := scalar_random r in
    ({| ces_m0 := m0;
        ces_z0 := z0;
        ces_z1 := z1 |}, os).

  (** aeonflux/src/proofs.rs:770-810, absorption of the public values. *)
  Definition ce_create_absorb (t : transcript) (publics : ce_Publics E) : transcript :=
    let t := commit_bytes t "domain-sep" (str "committed_values_equal") in
    let t := commit_bytes t "B" (compress (cep_B publics)) in
    let t := commit_bytes t "A" (compress (cep_A publics)) in
    let t := commit_bytes t "P" (compress (cep_P publics)) in
    let t := commit_bytes t "Cm0" (compress (cep_Cm0 publics)) in
    let t := commit_bytes t "Cm1" (compress (cep_Cm1 publics)) in
    t.

  (** aeonflux/src/proofs.rs:770-810, the part after drawing the randomness [rand];
      [t] is the transcript after [ce_create_absorb]. *)
  Definition ce_create_with (t : transcript) (publics : ce_Publics E)
      (secrets rand : ce_Scalars) : ce_Proof :=
    let commitments := {|
      cec_Cm0 := multiscalar_mul [ces_m0 rand; ces_z0 rand]
                  [cep_P publics; cep_A publics];
      cec_Cm1 := multiscalar_mul [ces_m0 rand; ces_z1 rand]
                  [cep_A publics; cep_B publics]
    |} in
    let t := commit_bytes t "com Cm0" (compress (cec_Cm0 commitments)) in
    let t := commit_bytes t "com Cm1" (compress (cec_Cm1 commitments)) in
    let challenge := @get_challenge E t in
    {| ce_challenge := challenge;
       ce_responses := {|
         ces_m0 := s_add (s_mul challenge (ces_m0 secrets)) (ces_m0 rand);
         ces_z0 := s_add (s_mul challenge (ces_z0 secrets)) (ces_z0 rand);
         ces_z1 := s_add (s_mul challenge (ces_z1 secrets)) (ces_z1 rand)
       |} |}.

  (** [Proof::create]; aeonflux/src/proofs.rs:770-810. *)
  Definition ce_create (t : transcript) (publics : ce_Publics E) (secrets : ce_Scalars)
      (os : rng) : ce_Proof * rng :=
    let t := ce_create_absorb t publics in
    let (rand, os) := ce_randomness t secrets os in
    (ce_create_with t publics secrets rand, os).

  (** The commitments [Proof::verify] recomputes; aeonflux/src/proofs.rs:814-845. *)
  Definition ce_recompute (proof : ce_Proof) (publics : ce_Publics E) : ce_Commitments E :=
    let responses := ce_responses proof in
    let minus_c := s_neg (ce_challenge proof) in
    {|
      cec_Cm0 := multiscalar_mul [ces_m0 responses; ces_z0 responses; minus_c]
                  [cep_P publics; cep_A publics; cep_Cm0 publics];
      cec_Cm1 := multiscalar_mul [ces_m0 responses; ces_z1 responses; minus_c]
                  [cep_A publics; cep_B publics; cep_Cm1 publics]
    |}.

  (** [Proof::verify]; aeonflux/src/proofs.rs:814-845. *)
  Definition ce_verify (proof : ce_Proof) (t : transcript) (publics : ce_Publics E) : outcome unit unit :=
    let commitments := ce_recompute proof publics in
    let t := commit_bytes t "domain-sep" (str "committed_values_equal") in
    let t := commit_bytes t "B" (compress (cep_B publics)) in
    let t := commit_bytes t "A" (compress (cep_A publics)) in
    let t := commit_bytes t "P" (compress (cep_P publics)) in
    let t := commit_bytes t "Cm0" (compress (cep_Cm0 publics)) in
    let t := commit_bytes t "Cm1" (compress (cep_Cm1 publics)) in
    let t := commit_bytes t "com Cm0" (compress (cec_Cm0 commitments)) in
    let t := commit_bytes t "com Cm1" (compress (cec_Cm1 commitments)) in
    let challenge := @get_challenge E t in
    if scalar_eqb challenge (ce_challenge proof) then Ok tt else Err tt.

End committed_values_equal.
