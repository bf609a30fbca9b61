(** What each of the five proof systems of aeonflux/src/proofs.rs is meant to
    establish, what it hashes, and how a witness is extracted from two proofs.

    These definitions do not use the prover or the verifier of the model. *)
From Verif Require Export Algebra ModelProofs.
Local Open Scope string_scope.

(** A scalar in its canonical range. *)
Definition canonical (s : scalar) : Prop := 0 <= s < ell.

(** The 64 bytes squeezed from a transcript, as a scalar. *)
Definition challenge_of {E : Ext} (t : transcript) : scalar :=
  le_decode (@tr_challenge E t "chal" 64%nat) mod ell.

(** The challenge function gives one answer on two different transcripts. *)
Definition challenge_collision {E : Ext} (t1 t2 : transcript) : Prop :=
  t1 <> t2 /\ @challenge_of E t1 = @challenge_of E t2.

(** A transcript extended with labelled messages. *)
Definition extend (t : transcript) (l : list (string * bytes)) : transcript :=
  (fst t, snd t ++ l)%list.

(** The secret [x] of the line [r = c * x + k] through [(c1, r1)] and [(c2, r2)]. *)
Definition extract (c1 c2 r1 r2 : scalar) : scalar :=
  ((r1 - r2) * s_inv (c1 - c2)) mod ell.

(** ** issuance_revealed; aeonflux/src/proofs.rs:36-178 *)
Section issuance_revealed.
  Context {E : Ext}.

  (** The relations between the public points and the secret scalars. *)
  Definition ir_relation (p : ir_Publics E) (s : ir_Scalars) : Prop :=
    irp_Q p = padd (smul (irs_x0 s) (irp_P p)) (smul (irs_m1x1 s) (irp_P p)) /\
    irp_Cx0 p = padd (smul (irs_x0 s) (irp_B p)) (smul (irs_x0_tilde s) (irp_A p)) /\
    irp_X1 p = smul (irs_x1 s) (irp_A p).

  (** The left-hand sides computed from other scalars [s]. *)
  Definition ir_image (p : ir_Publics E) (s : ir_Scalars) : ir_Commitments E := {|
    irc_Q := padd (smul (irs_x0 s) (irp_P p)) (smul (irs_m1x1 s) (irp_P p));
    irc_Cx0 := padd (smul (irs_x0 s) (irp_B p)) (smul (irs_x0_tilde s) (irp_A p));
    irc_X1 := smul (irs_x1 s) (irp_A p) |}.

  (** What is hashed, in order. *)
  Definition ir_messages (p : ir_Publics E) (c : ir_Commitments E) : list (string * bytes) :=
    [("domain-sep", str "issuance_revealed");
     ("P", compress (irp_P p));
     ("Q", compress (irp_Q p));
     ("Cx0", compress (irp_Cx0 p));
     ("B", compress (irp_B p));
     ("A", compress (irp_A p));
     ("X1", compress (irp_X1 p));
     ("com Q", compress (irc_Q c));
     ("com Cx0", compress (irc_Cx0 c));
     ("com X1", compress (irc_X1 c))].

  (** The witness computed from two proofs. *)
  Definition ir_extract (p1 p2 : ir_Proof) : ir_Scalars :=
    let e f := extract (ir_challenge p1) (ir_challenge p2) (f (ir_responses p1)) (f (ir_responses p2)) in
    {| irs_x0 := e irs_x0;
       irs_x1 := e irs_x1;
       irs_x0_tilde := e irs_x0_tilde;
       irs_m1x1 := e irs_m1x1 |}.

  Definition ir_canonical (s : ir_Scalars) : Prop :=
    canonical (irs_x0 s) /\ canonical (irs_x1 s) /\ canonical (irs_x0_tilde s) /\ canonical (irs_m1x1 s).
End issuance_revealed.

(** ** attributes_blinded; aeonflux/src/proofs.rs:180-345 *)
Section attributes_blinded.
  Context {E : Ext}.

  (** The relations between the public points and the secret scalars. *)
  Definition ab_relation (p : ab_Publics E) (s : ab_Scalars) : Prop :=
    abp_D p = smul (abs_d s) (abp_B p) /\
    abp_encrypted_attribute_0_0 p = smul (abs_e0 s) (abp_B p) /\
    abp_encrypted_attribute_0_1 p = padd (smul (abs_m0 s) (abp_B p)) (smul (abs_e0 s) (abp_D p)).

  (** The left-hand sides computed from other scalars [s]. *)
  Definition ab_image (p : ab_Publics E) (s : ab_Scalars) : ab_Commitments E := {|
    abc_D := smul (abs_d s) (abp_B p);
    abc_encrypted_attribute_0_0 := smul (abs_e0 s) (abp_B p);
    abc_encrypted_attribute_0_1 := padd (smul (abs_m0 s) (abp_B p)) (smul (abs_e0 s) (abp_D p)) |}.

  (** What is hashed, in order. *)
  Definition ab_messages (p : ab_Publics E) (c : ab_Commitments E) : list (string * bytes) :=
    [("domain-sep", str "attributes_blinded");
     ("B", compress (abp_B p));
     ("A", compress (abp_A p));
     ("D", compress (abp_D p));
     ("encrypted_attribute_0_0", compress (abp_encrypted_attribute_0_0 p));
     ("encrypted_attribute_0_1", compress (abp_encrypted_attribute_0_1 p));
     ("com D", compress (abc_D c));
     ("com encrypted_attribute_0_0", compress (abc_encrypted_attribute_0_0 c));
     ("com encrypted_attribute_0_1", compress (abc_encrypted_attribute_0_1 c))].

  (** The witness computed from two proofs. *)
  Definition ab_extract (p1 p2 : ab_Proof) : ab_Scalars :=
    let e f := extract (ab_challenge p1) (ab_challenge p2) (f (ab_responses p1)) (f (ab_responses p2)) in
    {| abs_d := e abs_d;
       abs_e0 := e abs_e0;
       abs_m0 := e abs_m0;
       abs_nonce := e abs_nonce |}.

  Definition ab_canonical (s : ab_Scalars) : Prop :=
    canonical (abs_d s) /\ canonical (abs_e0 s) /\ canonical (abs_m0 s) /\ canonical (abs_nonce s).
End attributes_blinded.

(** ** issuance_blinded; aeonflux/src/proofs.rs:347-593 *)
Section issuance_blinded.
  Context {E : Ext}.

  (** The relations between the public points and the secret scalars. *)
  Definition ib_relation (p : ib_Publics E) (s : ib_Scalars) : Prop :=
    ibp_X0 p = padd (smul (ibs_x0 s) (ibp_B p)) (smul (ibs_x0_tilde s) (ibp_A p)) /\
    ibp_X1 p = smul (ibs_x1 s) (ibp_A p) /\
    ibp_P p = smul (ibs_b s) (ibp_B p) /\
    ibp_T0_0 p = smul (ibs_b s) (ibp_X0 p) /\
    ibp_T0_1 p = smul (ibs_t0 s) (ibp_A p) /\
    ibp_EQ_commitment p = padd (smul (ibs_s s) (ibp_B p)) (smul (ibs_t0 s) (ibp_encrypted_attribute_0_0 p)) /\
    ibp_EQ_encryption p = padd (smul (ibs_s s) (ibp_D p)) (smul (ibs_t0 s) (ibp_encrypted_attribute_0_1 p)).

  (** The left-hand sides computed from other scalars [s]. *)
  Definition ib_image (p : ib_Publics E) (s : ib_Scalars) : ib_Commitments E := {|
    ibc_X0 := padd (smul (ibs_x0 s) (ibp_B p)) (smul (ibs_x0_tilde s) (ibp_A p));
    ibc_X1 := smul (ibs_x1 s) (ibp_A p);
    ibc_P := smul (ibs_b s) (ibp_B p);
    ibc_T0_0 := smul (ibs_b s) (ibp_X0 p);
    ibc_T0_1 := smul (ibs_t0 s) (ibp_A p);
    ibc_EQ_commitment := padd (smul (ibs_s s) (ibp_B p)) (smul (ibs_t0 s) (ibp_encrypted_attribute_0_0 p));
    ibc_EQ_encryption := padd (smul (ibs_s s) (ibp_D p)) (smul (ibs_t0 s) (ibp_encrypted_attribute_0_1 p)) |}.

  (** What is hashed, in order. *)
  Definition ib_messages (p : ib_Publics E) (c : ib_Commitments E) : list (string * bytes) :=
    [("domain-sep", str "issuance_blinded");
     ("B", compress (ibp_B p));
     ("A", compress (ibp_A p));
     ("X0", compress (ibp_X0 p));
     ("X1", compress (ibp_X1 p));
     ("D", compress (ibp_D p));
     ("P", compress (ibp_P p));
     ("T0_0", compress (ibp_T0_0 p));
     ("T0_1", compress (ibp_T0_1 p));
     ("EQ_commitment", compress (ibp_EQ_commitment p));
     ("EQ_encryption", compress (ibp_EQ_encryption p));
     ("encrypted_attribute_0_0", compress (ibp_encrypted_attribute_0_0 p));
     ("encrypted_attribute_0_1", compress (ibp_encrypted_attribute_0_1 p));
     ("com X0", compress (ibc_X0 c));
     ("com X1", compress (ibc_X1 c));
     ("com P", compress (ibc_P c));
     ("com T0_0", compress (ibc_T0_0 c));
     ("com T0_1", compress (ibc_T0_1 c));
     ("com EQ_commitment", compress (ibc_EQ_commitment c));
     ("com EQ_encryption", compress (ibc_EQ_encryption c))].

  (** The witness computed from two proofs. *)
  Definition ib_extract (p1 p2 : ib_Proof) : ib_Scalars :=
    let e f := extract (ib_challenge p1) (ib_challenge p2) (f (ib_responses p1)) (f (ib_responses p2)) in
    {| ibs_x0_tilde := e ibs_x0_tilde;
       ibs_x0 := e ibs_x0;
       ibs_x1 := e ibs_x1;
       ibs_s := e ibs_s;
       ibs_b := e ibs_b;
       ibs_t0 := e ibs_t0 |}.

  Definition ib_canonical (s : ib_Scalars) : Prop :=
    canonical (ibs_x0_tilde s) /\ canonical (ibs_x0 s) /\ canonical (ibs_x1 s) /\ canonical (ibs_s s) /\ canonical (ibs_b s) /\ canonical (ibs_t0 s).
End issuance_blinded.

(** ** valid_credential; aeonflux/src/proofs.rs:595-722 *)
Section valid_credential.
  Context {E : Ext}.

  (** The relations between the public points and the secret scalars. *)
  Definition vc_relation (p : vc_Publics E) (s : vc_Scalars) : Prop :=
    vcp_Cm0 p = padd (smul (vcs_m0 s) (vcp_P p)) (smul (vcs_z0 s) (vcp_A p)) /\
    vcp_V p = padd (smul (vcs_z0 s) (vcp_X0 p)) (smul (vcs_minus_zQ s) (vcp_A p)).

  (** The left-hand sides computed from other scalars [s]. *)
  Definition vc_image (p : vc_Publics E) (s : vc_Scalars) : vc_Commitments E := {|
    vcc_Cm0 := padd (smul (vcs_m0 s) (vcp_P p)) (smul (vcs_z0 s) (vcp_A p));
    vcc_V := padd (smul (vcs_z0 s) (vcp_X0 p)) (smul (vcs_minus_zQ s) (vcp_A p)) |}.

  (** What is hashed, in order. *)
  Definition vc_messages (p : vc_Publics E) (c : vc_Commitments E) : list (string * bytes) :=
    [("domain-sep", str "valid_credential");
     ("B", compress (vcp_B p));
     ("A", compress (vcp_A p));
     ("X0", compress (vcp_X0 p));
     ("P", compress (vcp_P p));
     ("V", compress (vcp_V p));
     ("Cm0", compress (vcp_Cm0 p));
     ("com Cm0", compress (vcc_Cm0 c));
     ("com V", compress (vcc_V c))].

  (** The witness computed from two proofs. *)
  Definition vc_extract (p1 p2 : vc_Proof) : vc_Scalars :=
    let e f := extract (vc_challenge p1) (vc_challenge p2) (f (vc_responses p1)) (f (vc_responses p2)) in
    {| vcs_m0 := e vcs_m0;
       vcs_z0 := e vcs_z0;
       vcs_minus_zQ := e vcs_minus_zQ |}.

  Definition vc_canonical (s : vc_Scalars) : Prop :=
    canonical (vcs_m0 s) /\ canonical (vcs_z0 s) /\ canonical (vcs_minus_zQ s).
End valid_credential.

(** ** committed_values_equal; aeonflux/src/proofs.rs:724-847 *)
Section committed_values_equal.
  Context {E : Ext}.

  (** The relations between the public points and the secret scalars. *)
  Definition ce_relation (p : ce_Publics E) (s : ce_Scalars) : Prop :=
    cep_Cm0 p = padd (smul (ces_m0 s) (cep_P p)) (smul (ces_z0 s) (cep_A p)) /\
    cep_Cm1 p = padd (smul (ces_m0 s) (cep_A p)) (smul (ces_z1 s) (cep_B p)).

  (** The left-hand sides computed from other scalars [s]. *)
  Definition ce_image (p : ce_Publics E) (s : ce_Scalars) : ce_Commitments E := {|
    cec_Cm0 := padd (smul (ces_m0 s) (cep_P p)) (smul (ces_z0 s) (cep_A p));
    cec_Cm1 := padd (smul (ces_m0 s) (cep_A p)) (smul (ces_z1 s) (cep_B p)) |}.

  (** What is hashed, in order. *)
  Definition ce_messages (p : ce_Publics E) (c : ce_Commitments E) : list (string * bytes) :=
    [("domain-sep", str "committed_values_equal");
     ("B", compress (cep_B p));
     ("A", compress (cep_A p));
     ("P", compress (cep_P p));
     ("Cm0", compress (cep_Cm0 p));
     ("Cm1", compress (cep_Cm1 p));
     ("com Cm0", compress (cec_Cm0 c));
     ("com Cm1", compress (cec_Cm1 c))].

  (** The witness computed from two proofs. *)
  Definition ce_extract (p1 p2 : ce_Proof) : ce_Scalars :=
    let e f := extract (ce_challenge p1) (ce_challenge p2) (f (ce_responses p1)) (f (ce_responses p2)) in
    {| ces_m0 := e ces_m0;
       ces_z0 := e ces_z0;
       ces_z1 := e ces_z1 |}.

  Definition ce_canonical (s : ce_Scalars) : Prop :=
    canonical (ces_m0 s) /\ canonical (ces_z0 s) /\ canonical (ces_z1 s).
End committed_values_equal.

(** ** Any statement of any of the five systems, with commitments *)
Inductive statement {E : Ext} : Type :=
| Ir (p : ir_Publics E) (c : ir_Commitments E)
| Ab (p : ab_Publics E) (c : ab_Commitments E)
| Ib (p : ib_Publics E) (c : ib_Commitments E)
| Vc (p : vc_Publics E) (c : vc_Commitments E)
| Ce (p : ce_Publics E) (c : ce_Commitments E).
Arguments statement : clear implicits.

Definition statement_messages {E : Ext} (s : statement E) : list (string * bytes) :=
  match s with
  | Ir p c => ir_messages p c
  | Ab p c => ab_messages p c
  | Ib p c => ib_messages p c
  | Vc p c => vc_messages p c
  | Ce p c => ce_messages p c
  end.
