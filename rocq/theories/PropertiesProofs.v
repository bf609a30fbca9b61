(** Properties of the five proof systems of aeonflux/src/proofs.rs
    (C38 - C43) and of the group order (C57). *)
From Verif Require Import ProofFacts Malleability Toy.
Local Open Scope string_scope.

(** ** C57: the group order is prime *)
Theorem C57_order_prime :
  2 ^ 252 + 27742317777372353535851937790883648493 = ell /\ prime ell.
Proof. exact (conj eq_refl prime_ell). Qed.
Print Assumptions C57_order_prime.

Theorem C57_inverses : forall a : Z, 0 < a < ell -> exists b, 0 <= b < ell /\ (b * a) mod ell = 1.
Proof. exact inverse_exists. Qed.
Print Assumptions C57_inverses.
Example C57_inverses_met : 0 < 2 < ell /\ ((ell + 1) / 2 * 2) mod ell = 1.
Proof. vm_compute. auto. Qed.

(** ** C38: what is hashed, and that it determines the statement *)
Theorem C38_issuance_revealed_hash : forall E, ExtLaws E -> forall pf t (p : ir_Publics E),
  ir_verify pf t p = Ok tt <->
  ir_challenge pf = @challenge_of E (extend t (statement_messages (Ir p (ir_recompute pf p)))).
Proof. exact (fun E _ pf t p => ir_verify_iff pf t p). Qed.
Print Assumptions C38_issuance_revealed_hash.
Theorem C38_attributes_blinded_hash : forall E, ExtLaws E -> forall pf t (p : ab_Publics E),
  ab_verify pf t p = Ok tt <->
  ab_challenge pf = @challenge_of E (extend t (statement_messages (Ab p (ab_recompute pf p)))).
Proof. exact (fun E _ pf t p => ab_verify_iff pf t p). Qed.
Print Assumptions C38_attributes_blinded_hash.
Theorem C38_issuance_blinded_hash : forall E, ExtLaws E -> forall pf t (p : ib_Publics E),
  ib_verify pf t p = Ok tt <->
  ib_challenge pf = @challenge_of E (extend t (statement_messages (Ib p (ib_recompute pf p)))).
Proof. exact (fun E _ pf t p => ib_verify_iff pf t p). Qed.
Print Assumptions C38_issuance_blinded_hash.
Theorem C38_valid_credential_hash : forall E, ExtLaws E -> forall pf t (p : vc_Publics E),
  vc_verify pf t p = Ok tt <->
  vc_challenge pf = @challenge_of E (extend t (statement_messages (Vc p (vc_recompute pf p)))).
Proof. exact (fun E _ pf t p => vc_verify_iff pf t p). Qed.
Print Assumptions C38_valid_credential_hash.
Theorem C38_committed_values_equal_hash : forall E, ExtLaws E -> forall pf t (p : ce_Publics E),
  ce_verify pf t p = Ok tt <->
  ce_challenge pf = @challenge_of E (extend t (statement_messages (Ce p (ce_recompute pf p)))).
Proof. exact (fun E _ pf t p => ce_verify_iff pf t p). Qed.
Print Assumptions C38_committed_values_equal_hash.

Theorem C38_transcripts_bind : forall E, ExtLaws E -> forall t t' (s s' : statement E),
  extend t (statement_messages s) = extend t' (statement_messages s') -> t = t' /\ s = s'.
Proof. exact (fun E L => statement_transcript_inj L). Qed.
Print Assumptions C38_transcripts_bind.

Theorem C38_one_challenge_one_statement : forall E, ExtLaws E -> forall t t' (s s' : statement E),
  @challenge_of E (extend t (statement_messages s)) = @challenge_of E (extend t' (statement_messages s')) ->
  (t = t' /\ s = s') \/
  @challenge_collision E (extend t (statement_messages s)) (extend t' (statement_messages s')).
Proof. exact (fun E L => statement_challenge_inj L). Qed.
Print Assumptions C38_one_challenge_one_statement.

(** ** Concrete statements for the examples *)
Definition sample_ir_secrets : ir_Scalars := {| irs_x0 := 101; irs_x1 := 118; irs_x0_tilde := 135; irs_m1x1 := 152 |}.
Definition sample_ir_publics : ir_Publics toy :=
  let P : point toy := tp 7 in
  let B : point toy := tp 1 in
  let A : point toy := tp 33 in
  let Q := padd (smul 101 P) (smul 152 P) in
  let Cx0 := padd (smul 101 B) (smul 135 A) in
  let X1 := smul 118 A in
  {| irp_P := P; irp_Q := Q; irp_Cx0 := Cx0; irp_B := B; irp_A := A; irp_X1 := X1 |}.
Definition sample_ir_randomness (k : Z) : ir_Scalars := {| irs_x0 := k + 900; irs_x1 := k + 901; irs_x0_tilde := k + 902; irs_m1x1 := k + 903 |}.
Example sample_ir_relation : ir_relation sample_ir_publics sample_ir_secrets.
Proof. repeat split. Qed.
Definition sample_ab_secrets : ab_Scalars := {| abs_d := 101; abs_e0 := 118; abs_m0 := 135; abs_nonce := 152 |}.
Definition sample_ab_publics : ab_Publics toy :=
  let B : point toy := tp 1 in
  let A : point toy := tp 20 in
  let D := smul 101 B in
  let encrypted_attribute_0_0 := smul 118 B in
  let encrypted_attribute_0_1 := padd (smul 135 B) (smul 118 D) in
  {| abp_B := B; abp_A := A; abp_D := D; abp_encrypted_attribute_0_0 := encrypted_attribute_0_0; abp_encrypted_attribute_0_1 := encrypted_attribute_0_1 |}.
Definition sample_ab_randomness (k : Z) : ab_Scalars := {| abs_d := k + 900; abs_e0 := k + 901; abs_m0 := k + 902; abs_nonce := k + 903 |}.
Example sample_ab_relation : ab_relation sample_ab_publics sample_ab_secrets.
Proof. repeat split. Qed.
Definition sample_ib_secrets : ib_Scalars := {| ibs_x0_tilde := 101; ibs_x0 := 118; ibs_x1 := 135; ibs_s := 152; ibs_b := 169; ibs_t0 := 186 |}.
Definition sample_ib_publics : ib_Publics toy :=
  let B : point toy := tp 1 in
  let A : point toy := tp 20 in
  let D : point toy := tp 33 in
  let encrypted_attribute_0_0 : point toy := tp 46 in
  let encrypted_attribute_0_1 : point toy := tp 59 in
  let X0 := padd (smul 118 B) (smul 101 A) in
  let X1 := smul 135 A in
  let P := smul 169 B in
  let T0_0 := smul 169 X0 in
  let T0_1 := smul 186 A in
  let EQ_commitment := padd (smul 152 B) (smul 186 encrypted_attribute_0_0) in
  let EQ_encryption := padd (smul 152 D) (smul 186 encrypted_attribute_0_1) in
  {| ibp_B := B; ibp_A := A; ibp_X0 := X0; ibp_X1 := X1; ibp_D := D; ibp_P := P; ibp_T0_0 := T0_0; ibp_T0_1 := T0_1; ibp_EQ_commitment := EQ_commitment; ibp_EQ_encryption := EQ_encryption; ibp_encrypted_attribute_0_0 := encrypted_attribute_0_0; ibp_encrypted_attribute_0_1 := encrypted_attribute_0_1 |}.
Definition sample_ib_randomness (k : Z) : ib_Scalars := {| ibs_x0_tilde := k + 900; ibs_x0 := k + 901; ibs_x1 := k + 902; ibs_s := k + 903; ibs_b := k + 904; ibs_t0 := k + 905 |}.
Example sample_ib_relation : ib_relation sample_ib_publics sample_ib_secrets.
Proof. repeat split. Qed.
Definition sample_vc_secrets : vc_Scalars := {| vcs_m0 := 101; vcs_z0 := 118; vcs_minus_zQ := 135 |}.
Definition sample_vc_publics : vc_Publics toy :=
  let B : point toy := tp 1 in
  let A : point toy := tp 20 in
  let X0 : point toy := tp 33 in
  let P : point toy := tp 46 in
  let Cm0 := padd (smul 101 P) (smul 118 A) in
  let V := padd (smul 118 X0) (smul 135 A) in
  {| vcp_B := B; vcp_A := A; vcp_X0 := X0; vcp_P := P; vcp_V := V; vcp_Cm0 := Cm0 |}.
Definition sample_vc_randomness (k : Z) : vc_Scalars := {| vcs_m0 := k + 900; vcs_z0 := k + 901; vcs_minus_zQ := k + 902 |}.
Example sample_vc_relation : vc_relation sample_vc_publics sample_vc_secrets.
Proof. repeat split. Qed.
Definition sample_ce_secrets : ce_Scalars := {| ces_m0 := 101; ces_z0 := 118; ces_z1 := 135 |}.
Definition sample_ce_publics : ce_Publics toy :=
  let B : point toy := tp 1 in
  let A : point toy := tp 20 in
  let P : point toy := tp 33 in
  let Cm0 := padd (smul 101 P) (smul 118 A) in
  let Cm1 := padd (smul 101 A) (smul 135 B) in
  {| cep_B := B; cep_A := A; cep_P := P; cep_Cm0 := Cm0; cep_Cm1 := Cm1 |}.
Definition sample_ce_randomness (k : Z) : ce_Scalars := {| ces_m0 := k + 900; ces_z0 := k + 901; ces_z1 := k + 902 |}.
Example sample_ce_relation : ce_relation sample_ce_publics sample_ce_secrets.
Proof. repeat split. Qed.
Definition sample_transcript : transcript := transcript_new "SAMPLE".
(** Two proof systems under one label, and one proof under two labels. *)
Example C38_met :
  extend sample_transcript (statement_messages (Ce sample_ce_publics (ce_image sample_ce_publics sample_ce_secrets))) <>
  extend sample_transcript (statement_messages (Vc sample_vc_publics (vc_image sample_vc_publics sample_vc_secrets))) /\
  is_ok (ce_verify (fst (ce_create sample_transcript sample_ce_publics sample_ce_secrets (toy_stream 1))) sample_transcript sample_ce_publics) = true /\
  is_ok (ce_verify (fst (ce_create sample_transcript sample_ce_publics sample_ce_secrets (toy_stream 1))) (transcript_new "OTHER") sample_ce_publics) = false.
Proof.
  split; [|split; vm_compute; reflexivity]. intros H. apply (C38_transcripts_bind toy toy_laws) in H as [_ H]. discriminate.
Qed.

(** ** C39: completeness *)
Theorem C39_issuance_revealed_complete : forall E, ExtLaws E -> forall t (p : ir_Publics E) s os,
  ir_relation p s -> ir_verify (fst (ir_create t p s os)) t p = Ok tt.
Proof. exact (fun E L => ir_create_complete L). Qed.
Print Assumptions C39_issuance_revealed_complete.
Theorem C39_attributes_blinded_complete : forall E, ExtLaws E -> forall t (p : ab_Publics E) s os,
  ab_relation p s -> ab_verify (fst (ab_create t p s os)) t p = Ok tt.
Proof. exact (fun E L => ab_create_complete L). Qed.
Print Assumptions C39_attributes_blinded_complete.
Theorem C39_issuance_blinded_complete : forall E, ExtLaws E -> forall t (p : ib_Publics E) s os,
  ib_relation p s -> ib_verify (fst (ib_create t p s os)) t p = Ok tt.
Proof. exact (fun E L => ib_create_complete L). Qed.
Print Assumptions C39_issuance_blinded_complete.
Theorem C39_valid_credential_complete : forall E, ExtLaws E -> forall t (p : vc_Publics E) s os,
  vc_relation p s -> vc_verify (fst (vc_create t p s os)) t p = Ok tt.
Proof. exact (fun E L => vc_create_complete L). Qed.
Print Assumptions C39_valid_credential_complete.
Theorem C39_committed_values_equal_complete : forall E, ExtLaws E -> forall t (p : ce_Publics E) s os,
  ce_relation p s -> ce_verify (fst (ce_create t p s os)) t p = Ok tt.
Proof. exact (fun E L => ce_create_complete L). Qed.
Print Assumptions C39_committed_values_equal_complete.
Example C39_met : ir_relation sample_ir_publics sample_ir_secrets /\
  ab_relation sample_ab_publics sample_ab_secrets /\ ib_relation sample_ib_publics sample_ib_secrets /\
  vc_relation sample_vc_publics sample_vc_secrets /\ ce_relation sample_ce_publics sample_ce_secrets.
Proof. repeat split. Qed.

(** ** C40: special soundness, with the witness computed from the two proofs *)
Theorem C40_issuance_revealed_sound : forall E, ExtLaws E -> forall (p : ir_Publics E) pf1 pf2,
  ~ ir_challenge pf1 == ir_challenge pf2 ->
  ir_recompute pf1 p = ir_recompute pf2 p ->
  ir_relation p (ir_extract pf1 pf2).
Proof. exact (fun E L => ir_special_sound L). Qed.
Print Assumptions C40_issuance_revealed_sound.
(* Two proofs with the same commitments and different challenges. *)
Definition sample_ir_proof (c : Z) : ir_Proof := {| ir_challenge := c; ir_responses := {|
  irs_x0 := s_add (s_mul c (irs_x0 sample_ir_secrets)) (irs_x0 (sample_ir_randomness 5)); 
  irs_x1 := s_add (s_mul c (irs_x1 sample_ir_secrets)) (irs_x1 (sample_ir_randomness 5)); 
  irs_x0_tilde := s_add (s_mul c (irs_x0_tilde sample_ir_secrets)) (irs_x0_tilde (sample_ir_randomness 5)); 
  irs_m1x1 := s_add (s_mul c (irs_m1x1 sample_ir_secrets)) (irs_m1x1 (sample_ir_randomness 5)) |} |}.
Example C40_issuance_revealed_met :
  ~ 7 == 11 /\ ir_recompute (sample_ir_proof 7) sample_ir_publics = ir_recompute (sample_ir_proof 11) sample_ir_publics.
Proof. split; [vm_compute; discriminate|unfold ir_recompute; f_equal; apply toy_eq; vm_compute; reflexivity]. Qed.

Theorem C40_attributes_blinded_sound : forall E, ExtLaws E -> forall (p : ab_Publics E) pf1 pf2,
  ~ ab_challenge pf1 == ab_challenge pf2 ->
  ab_recompute pf1 p = ab_recompute pf2 p ->
  ab_relation p (ab_extract pf1 pf2).
Proof. exact (fun E L => ab_special_sound L). Qed.
Print Assumptions C40_attributes_blinded_sound.
(* Two proofs with the same commitments and different challenges. *)
Definition sample_ab_proof (c : Z) : ab_Proof := {| ab_challenge := c; ab_responses := {|
  abs_d := s_add (s_mul c (abs_d sample_ab_secrets)) (abs_d (sample_ab_randomness 5)); 
  abs_e0 := s_add (s_mul c (abs_e0 sample_ab_secrets)) (abs_e0 (sample_ab_randomness 5)); 
  abs_m0 := s_add (s_mul c (abs_m0 sample_ab_secrets)) (abs_m0 (sample_ab_randomness 5)); 
  abs_nonce := s_add (s_mul c (abs_nonce sample_ab_secrets)) (abs_nonce (sample_ab_randomness 5)) |} |}.
Example C40_attributes_blinded_met :
  ~ 7 == 11 /\ ab_recompute (sample_ab_proof 7) sample_ab_publics = ab_recompute (sample_ab_proof 11) sample_ab_publics.
Proof. split; [vm_compute; discriminate|unfold ab_recompute; f_equal; apply toy_eq; vm_compute; reflexivity]. Qed.

Theorem C40_issuance_blinded_sound : forall E, ExtLaws E -> forall (p : ib_Publics E) pf1 pf2,
  ~ ib_challenge pf1 == ib_challenge pf2 ->
  ib_recompute pf1 p = ib_recompute pf2 p ->
  ib_relation p (ib_extract pf1 pf2).
Proof. exact (fun E L => ib_special_sound L). Qed.
Print Assumptions C40_issuance_blinded_sound.
(* Two proofs with the same commitments and different challenges. *)
Definition sample_ib_proof (c : Z) : ib_Proof := {| ib_challenge := c; ib_responses := {|
  ibs_x0_tilde := s_add (s_mul c (ibs_x0_tilde sample_ib_secrets)) (ibs_x0_tilde (sample_ib_randomness 5)); 
  ibs_x0 := s_add (s_mul c (ibs_x0 sample_ib_secrets)) (ibs_x0 (sample_ib_randomness 5)); 
  ibs_x1 := s_add (s_mul c (ibs_x1 sample_ib_secrets)) (ibs_x1 (sample_ib_randomness 5)); 
  ibs_s := s_add (s_mul c (ibs_s sample_ib_secrets)) (ibs_s (sample_ib_randomness 5)); 
  ibs_b := s_add (s_mul c (ibs_b sample_ib_secrets)) (ibs_b (sample_ib_randomness 5)); 
  ibs_t0 := s_add (s_mul c (ibs_t0 sample_ib_secrets)) (ibs_t0 (sample_ib_randomness 5)) |} |}.
Example C40_issuance_blinded_met :
  ~ 7 == 11 /\ ib_recompute (sample_ib_proof 7) sample_ib_publics = ib_recompute (sample_ib_proof 11) sample_ib_publics.
Proof. split; [vm_compute; discriminate|unfold ib_recompute; f_equal; apply toy_eq; vm_compute; reflexivity]. Qed.

Theorem C40_valid_credential_sound : forall E, ExtLaws E -> forall (p : vc_Publics E) pf1 pf2,
  ~ vc_challenge pf1 == vc_challenge pf2 ->
  vc_recompute pf1 p = vc_recompute pf2 p ->
  vc_relation p (vc_extract pf1 pf2).
Proof. exact (fun E L => vc_special_sound L). Qed.
Print Assumptions C40_valid_credential_sound.
(* Two proofs with the same commitments and different challenges. *)
Definition sample_vc_proof (c : Z) : vc_Proof := {| vc_challenge := c; vc_responses := {|
  vcs_m0 := s_add (s_mul c (vcs_m0 sample_vc_secrets)) (vcs_m0 (sample_vc_randomness 5)); 
  vcs_z0 := s_add (s_mul c (vcs_z0 sample_vc_secrets)) (vcs_z0 (sample_vc_randomness 5)); 
  vcs_minus_zQ := s_add (s_mul c (vcs_minus_zQ sample_vc_secrets)) (vcs_minus_zQ (sample_vc_randomness 5)) |} |}.
Example C40_valid_credential_met :
  ~ 7 == 11 /\ vc_recompute (sample_vc_proof 7) sample_vc_publics = vc_recompute (sample_vc_proof 11) sample_vc_publics.
Proof. split; [vm_compute; discriminate|unfold vc_recompute; f_equal; apply toy_eq; vm_compute; reflexivity]. Qed.

Theorem C40_committed_values_equal_sound : forall E, ExtLaws E -> forall (p : ce_Publics E) pf1 pf2,
  ~ ce_challenge pf1 == ce_challenge pf2 ->
  ce_recompute pf1 p = ce_recompute pf2 p ->
  ce_relation p (ce_extract pf1 pf2).
Proof. exact (fun E L => ce_special_sound L). Qed.
Print Assumptions C40_committed_values_equal_sound.
(* Two proofs with the same commitments and different challenges. *)
Definition sample_ce_proof (c : Z) : ce_Proof := {| ce_challenge := c; ce_responses := {|
  ces_m0 := s_add (s_mul c (ces_m0 sample_ce_secrets)) (ces_m0 (sample_ce_randomness 5)); 
  ces_z0 := s_add (s_mul c (ces_z0 sample_ce_secrets)) (ces_z0 (sample_ce_randomness 5)); 
  ces_z1 := s_add (s_mul c (ces_z1 sample_ce_secrets)) (ces_z1 (sample_ce_randomness 5)) |} |}.
Example C40_committed_values_equal_met :
  ~ 7 == 11 /\ ce_recompute (sample_ce_proof 7) sample_ce_publics = ce_recompute (sample_ce_proof 11) sample_ce_publics.
Proof. split; [vm_compute; discriminate|unfold ce_recompute; f_equal; apply toy_eq; vm_compute; reflexivity]. Qed.

(** ** C41: every accepted proof comes from every witness, with exactly one choice of
    randomness; so a proof carries no information about the witness *)
Theorem C41_issuance_revealed_indistinguishable : forall E, ExtLaws E -> forall t (p : ir_Publics E) s pf,
  ir_relation p s -> ir_canonical (ir_responses pf) ->
  ir_verify pf t p = Ok tt ->
  exists! r, ir_canonical r /\ ir_create_with (ir_create_absorb t p) p s r = pf.
Proof. exact (fun E L => ir_witness_indistinguishable L). Qed.
Print Assumptions C41_issuance_revealed_indistinguishable.
Theorem C41_attributes_blinded_indistinguishable : forall E, ExtLaws E -> forall t (p : ab_Publics E) s pf,
  ab_relation p s -> ab_canonical (ab_responses pf) ->
  ab_verify pf t p = Ok tt ->
  exists! r, ab_canonical r /\ ab_create_with (ab_create_absorb t p) p s r = pf.
Proof. exact (fun E L => ab_witness_indistinguishable L). Qed.
Print Assumptions C41_attributes_blinded_indistinguishable.
Theorem C41_issuance_blinded_indistinguishable : forall E, ExtLaws E -> forall t (p : ib_Publics E) s pf,
  ib_relation p s -> ib_canonical (ib_responses pf) ->
  ib_verify pf t p = Ok tt ->
  exists! r, ib_canonical r /\ ib_create_with (ib_create_absorb t p) p s r = pf.
Proof. exact (fun E L => ib_witness_indistinguishable L). Qed.
Print Assumptions C41_issuance_blinded_indistinguishable.
Theorem C41_valid_credential_indistinguishable : forall E, ExtLaws E -> forall t (p : vc_Publics E) s pf,
  vc_relation p s -> vc_canonical (vc_responses pf) ->
  vc_verify pf t p = Ok tt ->
  exists! r, vc_canonical r /\ vc_create_with (vc_create_absorb t p) p s r = pf.
Proof. exact (fun E L => vc_witness_indistinguishable L). Qed.
Print Assumptions C41_valid_credential_indistinguishable.
Theorem C41_committed_values_equal_indistinguishable : forall E, ExtLaws E -> forall t (p : ce_Publics E) s pf,
  ce_relation p s -> ce_canonical (ce_responses pf) ->
  ce_verify pf t p = Ok tt ->
  exists! r, ce_canonical r /\ ce_create_with (ce_create_absorb t p) p s r = pf.
Proof. exact (fun E L => ce_witness_indistinguishable L). Qed.
Print Assumptions C41_committed_values_equal_indistinguishable.

(** The simulator: responses and challenge first, commitments from them. *)
Theorem C41_issuance_revealed_simulator : forall E, ExtLaws E -> forall (p : ir_Publics E) s c r,
  ir_relation p s ->
  ir_recompute {| ir_challenge := c; ir_responses := {|
    irs_x0 := s_add (s_mul c (irs_x0 s)) (irs_x0 r); 
    irs_x1 := s_add (s_mul c (irs_x1 s)) (irs_x1 r); 
    irs_x0_tilde := s_add (s_mul c (irs_x0_tilde s)) (irs_x0_tilde r); 
    irs_m1x1 := s_add (s_mul c (irs_m1x1 s)) (irs_m1x1 r) |} |} p
  = ir_image p r.
Proof. exact (fun E L p s c r => ir_recompute_spec L p s r c). Qed.
Print Assumptions C41_issuance_revealed_simulator.
Theorem C41_attributes_blinded_simulator : forall E, ExtLaws E -> forall (p : ab_Publics E) s c r,
  ab_relation p s ->
  ab_recompute {| ab_challenge := c; ab_responses := {|
    abs_d := s_add (s_mul c (abs_d s)) (abs_d r); 
    abs_e0 := s_add (s_mul c (abs_e0 s)) (abs_e0 r); 
    abs_m0 := s_add (s_mul c (abs_m0 s)) (abs_m0 r); 
    abs_nonce := s_add (s_mul c (abs_nonce s)) (abs_nonce r) |} |} p
  = ab_image p r.
Proof. exact (fun E L p s c r => ab_recompute_spec L p s r c). Qed.
Print Assumptions C41_attributes_blinded_simulator.
Theorem C41_issuance_blinded_simulator : forall E, ExtLaws E -> forall (p : ib_Publics E) s c r,
  ib_relation p s ->
  ib_recompute {| ib_challenge := c; ib_responses := {|
    ibs_x0_tilde := s_add (s_mul c (ibs_x0_tilde s)) (ibs_x0_tilde r); 
    ibs_x0 := s_add (s_mul c (ibs_x0 s)) (ibs_x0 r); 
    ibs_x1 := s_add (s_mul c (ibs_x1 s)) (ibs_x1 r); 
    ibs_s := s_add (s_mul c (ibs_s s)) (ibs_s r); 
    ibs_b := s_add (s_mul c (ibs_b s)) (ibs_b r); 
    ibs_t0 := s_add (s_mul c (ibs_t0 s)) (ibs_t0 r) |} |} p
  = ib_image p r.
Proof. exact (fun E L p s c r => ib_recompute_spec L p s r c). Qed.
Print Assumptions C41_issuance_blinded_simulator.
Theorem C41_valid_credential_simulator : forall E, ExtLaws E -> forall (p : vc_Publics E) s c r,
  vc_relation p s ->
  vc_recompute {| vc_challenge := c; vc_responses := {|
    vcs_m0 := s_add (s_mul c (vcs_m0 s)) (vcs_m0 r); 
    vcs_z0 := s_add (s_mul c (vcs_z0 s)) (vcs_z0 r); 
    vcs_minus_zQ := s_add (s_mul c (vcs_minus_zQ s)) (vcs_minus_zQ r) |} |} p
  = vc_image p r.
Proof. exact (fun E L p s c r => vc_recompute_spec L p s r c). Qed.
Print Assumptions C41_valid_credential_simulator.
Theorem C41_committed_values_equal_simulator : forall E, ExtLaws E -> forall (p : ce_Publics E) s c r,
  ce_relation p s ->
  ce_recompute {| ce_challenge := c; ce_responses := {|
    ces_m0 := s_add (s_mul c (ces_m0 s)) (ces_m0 r); 
    ces_z0 := s_add (s_mul c (ces_z0 s)) (ces_z0 r); 
    ces_z1 := s_add (s_mul c (ces_z1 s)) (ces_z1 r) |} |} p
  = ce_image p r.
Proof. exact (fun E L p s c r => ce_recompute_spec L p s r c). Qed.
Print Assumptions C41_committed_values_equal_simulator.
Example C41_met :
  let pf := vc_create_with (vc_create_absorb sample_transcript sample_vc_publics)
              sample_vc_publics sample_vc_secrets (sample_vc_randomness 5) in
  vc_canonical (vc_responses pf) /\ vc_verify pf sample_transcript sample_vc_publics = Ok tt.
Proof. split; [vm_compute; repeat split; discriminate|vm_compute; reflexivity]. Qed.

(** ** C42: malleability *)
Theorem C42_attributes_blinded_malleable : forall E, ExtLaws E -> forall t (p : ab_Publics E) c d e0 m0 n n',
  ab_verify {| ab_challenge := c; ab_responses :=
    {| abs_d := d; abs_e0 := e0; abs_m0 := m0; abs_nonce := n |} |} t p = Ok tt ->
  ab_verify {| ab_challenge := c; ab_responses :=
    {| abs_d := d; abs_e0 := e0; abs_m0 := m0; abs_nonce := n' |} |} t p = Ok tt.
Proof. exact (fun E _ t p c d e0 m0 n n' => ab_malleable t p c d e0 m0 n n'). Qed.
Print Assumptions C42_attributes_blinded_malleable.
Theorem C42_refuted : exists E, ExtLaws E /\ exists t (p : ab_Publics E) pf pf',
  ab_canonical (ab_responses pf) /\ ab_canonical (ab_responses pf') /\
  ab_verify pf t p = Ok tt /\ ab_verify pf' t p = Ok tt /\ pf <> pf'.
Proof. exact ab_malleable_witness. Qed.
Print Assumptions C42_refuted.
Theorem C42_issuance_revealed_not_malleable : forall E, ExtLaws E -> forall t (p : ir_Publics E) pf1 pf2,
  irp_A p <> pzero -> irp_P p <> pzero ->
  ir_canonical (ir_responses pf1) -> ir_canonical (ir_responses pf2) ->
  ir_verify pf1 t p = Ok tt -> ir_verify pf2 t p = Ok tt ->
  ir_challenge pf1 = ir_challenge pf2 ->
  pf1 = pf2 \/
  (let d := irs_x0 (ir_responses pf1) - irs_x0 (ir_responses pf2) in
   let e := irs_x0_tilde (ir_responses pf2) - irs_x0_tilde (ir_responses pf1) in
   ~ d == 0 /\ smul d (irp_B p) = smul e (irp_A p)) \/
  @challenge_collision E (extend t (ir_messages p (ir_recompute pf1 p)))
                         (extend t (ir_messages p (ir_recompute pf2 p))).
Proof. exact (fun E L => ir_not_malleable L). Qed.
Print Assumptions C42_issuance_revealed_not_malleable.
Theorem C42_issuance_blinded_not_malleable : forall E, ExtLaws E -> forall t (p : ib_Publics E) pf1 pf2,
  ibp_A p <> pzero -> ibp_B p <> pzero ->
  ib_canonical (ib_responses pf1) -> ib_canonical (ib_responses pf2) ->
  ib_verify pf1 t p = Ok tt -> ib_verify pf2 t p = Ok tt ->
  ib_challenge pf1 = ib_challenge pf2 ->
  pf1 = pf2 \/
  (let d := ibs_x0 (ib_responses pf1) - ibs_x0 (ib_responses pf2) in
   let e := ibs_x0_tilde (ib_responses pf2) - ibs_x0_tilde (ib_responses pf1) in
   ~ d == 0 /\ smul d (ibp_B p) = smul e (ibp_A p)) \/
  @challenge_collision E (extend t (ib_messages p (ib_recompute pf1 p)))
                         (extend t (ib_messages p (ib_recompute pf2 p))).
Proof. exact (fun E L => ib_not_malleable L). Qed.
Print Assumptions C42_issuance_blinded_not_malleable.
Theorem C42_valid_credential_not_malleable : forall E, ExtLaws E -> forall t (p : vc_Publics E) pf1 pf2,
  vcp_A p <> pzero ->
  vc_canonical (vc_responses pf1) -> vc_canonical (vc_responses pf2) ->
  vc_verify pf1 t p = Ok tt -> vc_verify pf2 t p = Ok tt ->
  vc_challenge pf1 = vc_challenge pf2 ->
  pf1 = pf2 \/
  (let d := vcs_m0 (vc_responses pf1) - vcs_m0 (vc_responses pf2) in
   let e := vcs_z0 (vc_responses pf2) - vcs_z0 (vc_responses pf1) in
   ~ d == 0 /\ smul d (vcp_P p) = smul e (vcp_A p)) \/
  @challenge_collision E (extend t (vc_messages p (vc_recompute pf1 p)))
                         (extend t (vc_messages p (vc_recompute pf2 p))).
Proof. exact (fun E L => vc_not_malleable L). Qed.
Print Assumptions C42_valid_credential_not_malleable.
Theorem C42_committed_values_equal_not_malleable : forall E, ExtLaws E -> forall t (p : ce_Publics E) pf1 pf2,
  cep_A p <> pzero -> cep_B p <> pzero ->
  ce_canonical (ce_responses pf1) -> ce_canonical (ce_responses pf2) ->
  ce_verify pf1 t p = Ok tt -> ce_verify pf2 t p = Ok tt ->
  ce_challenge pf1 = ce_challenge pf2 ->
  pf1 = pf2 \/
  (let d := ces_m0 (ce_responses pf1) - ces_m0 (ce_responses pf2) in
   let e := ces_z0 (ce_responses pf2) - ces_z0 (ce_responses pf1) in
   ~ d == 0 /\ smul d (cep_P p) = smul e (cep_A p)) \/
  @challenge_collision E (extend t (ce_messages p (ce_recompute pf1 p)))
                         (extend t (ce_messages p (ce_recompute pf2 p))).
Proof. exact (fun E L => ce_not_malleable L). Qed.
Print Assumptions C42_committed_values_equal_not_malleable.
Example C42_met : vcp_A sample_vc_publics <> pzero /\ irp_P sample_ir_publics <> pzero /\
  irp_A sample_ir_publics <> pzero /\ ibp_B sample_ib_publics <> pzero /\ ibp_A sample_ib_publics <> pzero /\
  cep_A sample_ce_publics <> pzero /\ cep_B sample_ce_publics <> pzero.
Proof. repeat split; intros H; apply (f_equal tv) in H; vm_compute in H; discriminate. Qed.

(** ** C43: the two occurrences of T0 in issuance_blinded are not tied *)
Theorem C43_untied : forall E, ExtLaws E -> forall t os (p : ib_Publics E) s T,
  ib_relation p s ->
  let p' := {| ibp_B := ibp_B p; ibp_A := ibp_A p; ibp_X0 := ibp_X0 p; ibp_X1 := ibp_X1 p;
               ibp_D := ibp_D p; ibp_P := ibp_P p; ibp_T0_0 := ibp_T0_0 p;
               ibp_T0_1 := smul T (ibp_A p);
               ibp_EQ_commitment := padd (smul (ibs_s s) (ibp_B p)) (smul T (ibp_encrypted_attribute_0_0 p));
               ibp_EQ_encryption := padd (smul (ibs_s s) (ibp_D p)) (smul T (ibp_encrypted_attribute_0_1 p));
               ibp_encrypted_attribute_0_0 := ibp_encrypted_attribute_0_0 p;
               ibp_encrypted_attribute_0_1 := ibp_encrypted_attribute_0_1 p |} in
  let s' := {| ibs_x0_tilde := ibs_x0_tilde s; ibs_x0 := ibs_x0 s; ibs_x1 := ibs_x1 s;
               ibs_s := ibs_s s; ibs_b := ibs_b s; ibs_t0 := T |} in
  ib_verify (fst (ib_create t p' s' os)) t p' = Ok tt.
Proof. exact (fun E L => ib_untied L). Qed.
Print Assumptions C43_untied.
Theorem C43_refuted : exists E, ExtLaws E /\ exists t (p : ib_Publics E) pf,
  ib_verify pf t p = Ok tt /\ ibp_T0_0 p <> ibp_T0_1 p.
Proof. exact ib_untied_witness. Qed.
Print Assumptions C43_refuted.
(** When a caller passes one point for both, the extracted scalars tie it. *)
Theorem C43_tied_when_equal : forall E, ExtLaws E -> forall (p : ib_Publics E) pf1 pf2,
  ibp_T0_0 p = ibp_T0_1 p ->
  ~ ib_challenge pf1 == ib_challenge pf2 ->
  ib_recompute pf1 p = ib_recompute pf2 p ->
  let w := ib_extract pf1 pf2 in
  smul (ibs_b w) (ibp_X0 p) = smul (ibs_t0 w) (ibp_A p).
Proof. exact (fun E L => ib_tied L). Qed.
Print Assumptions C43_tied_when_equal.
(** Scalars with [b X0 = t0 A], so that one point serves for both. *)
Definition tied_ib_secrets : ib_Scalars := {| ibs_x0_tilde := 101; ibs_x0 := 118; ibs_x1 := 135; ibs_s := 152; ibs_b := 20; ibs_t0 := 2138 |}.
Definition tied_ib_publics : ib_Publics toy :=
  let B : point toy := tp 1 in
  let A : point toy := tp 20 in
  let D : point toy := tp 33 in
  let T : point toy := tp 42760 in
  {| ibp_B := B; ibp_A := A; ibp_X0 := tp 2138; ibp_X1 := smul 135 A; ibp_D := D; ibp_P := smul 20 B; ibp_T0_0 := T; ibp_T0_1 := T;
     ibp_EQ_commitment := padd (smul 152 B) (smul 2138 (tp 46 : point toy)); ibp_EQ_encryption := padd (smul 152 D) (smul 2138 (tp 59 : point toy));
     ibp_encrypted_attribute_0_0 := tp 46; ibp_encrypted_attribute_0_1 := tp 59 |}.
Definition tied_ib_proof (c : Z) : ib_Proof := {| ib_challenge := c; ib_responses := {|
  ibs_x0_tilde := c * 101 + 1; ibs_x0 := c * 118 + 2; ibs_x1 := c * 135 + 3; ibs_s := c * 152 + 4; ibs_b := c * 20 + 5; ibs_t0 := c * 2138 + 6 |} |}.
Example C43_met : ib_relation sample_ib_publics sample_ib_secrets /\ ib_relation tied_ib_publics tied_ib_secrets /\
  ibp_T0_0 tied_ib_publics = ibp_T0_1 tied_ib_publics /\ ~ 7 == 11 /\
  ib_recompute (tied_ib_proof 7) tied_ib_publics = ib_recompute (tied_ib_proof 11) tied_ib_publics.
Proof.
  split; [apply sample_ib_relation|]. split; [repeat split; apply toy_eq; vm_compute; reflexivity|]. split; [reflexivity|].
  split; [vm_compute; discriminate|]. unfold ib_recompute; f_equal; apply toy_eq; vm_compute; reflexivity.
Qed.
