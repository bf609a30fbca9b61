(** The five modules of proofs.rs seen as instances of one scheme, and what
    the scheme is meant to achieve *)
From Verif Require Export ModelMacros SpecRandomness.
Local Open Scope string_scope.

(** The declaration, named public points and named responses of a statement. *)
Definition declaration {E : Ext} (q : proving E) : nipk :=
  match q with
  | PIr _ _ => issuance_revealed_nipk
  | PAb _ _ => attributes_blinded_nipk
  | PIb _ _ => issuance_blinded_nipk
  | PVc _ _ => valid_credential_nipk
  | PCe _ _ => committed_values_equal_nipk
  end.
Definition proving_points {E : Ext} (q : proving E) : list (string * point E) :=
  match q with
  | PIr p _ => [("P", irp_P p); ("Q", irp_Q p); ("Cx0", irp_Cx0 p); ("B", irp_B p); ("A", irp_A p); ("X1", irp_X1 p)]
  | PAb p _ => [("B", abp_B p); ("A", abp_A p); ("D", abp_D p);
                ("encrypted_attribute_0_0", abp_encrypted_attribute_0_0 p);
                ("encrypted_attribute_0_1", abp_encrypted_attribute_0_1 p)]
  | PIb p _ => [("B", ibp_B p); ("A", ibp_A p); ("X0", ibp_X0 p); ("X1", ibp_X1 p); ("D", ibp_D p); ("P", ibp_P p);
                ("T0_0", ibp_T0_0 p); ("T0_1", ibp_T0_1 p);
                ("EQ_commitment", ibp_EQ_commitment p); ("EQ_encryption", ibp_EQ_encryption p);
                ("encrypted_attribute_0_0", ibp_encrypted_attribute_0_0 p);
                ("encrypted_attribute_0_1", ibp_encrypted_attribute_0_1 p)]
  | PVc p _ => [("B", vcp_B p); ("A", vcp_A p); ("X0", vcp_X0 p); ("P", vcp_P p); ("V", vcp_V p); ("Cm0", vcp_Cm0 p)]
  | PCe p _ => [("B", cep_B p); ("A", cep_A p); ("P", cep_P p); ("Cm0", cep_Cm0 p); ("Cm1", cep_Cm1 p)]
  end.

(** The verifier of proofs.rs on a statement, with the scalars of [q] taken as
    the responses. *)
Definition verify_responses {E : Ext} (c : scalar) (t : transcript) (q : proving E) : outcome unit unit :=
  match q with
  | PIr p r => ir_verify {| ir_challenge := c; ir_responses := r |} t p
  | PAb p r => ab_verify {| ab_challenge := c; ab_responses := r |} t p
  | PIb p r => ib_verify {| ib_challenge := c; ib_responses := r |} t p
  | PVc p r => vc_verify {| vc_challenge := c; vc_responses := r |} t p
  | PCe p r => ce_verify {| ce_challenge := c; ce_responses := r |} t p
  end.

(** The relation of the specification. *)
Definition proving_relation {E : Ext} (q : proving E) : Prop :=
  match q with
  | PIr p s => ir_relation p s
  | PAb p s => ab_relation p s
  | PIb p s => ib_relation p s
  | PVc p s => vc_relation p s
  | PCe p s => ce_relation p s
  end.

(** What a declaration says: every left-hand side is the sum of its terms. *)
Fixpoint term_sum {E : Ext} (point_of : string -> point E) (scalar_of : string -> scalar)
    (terms : list (string * string)) : point E :=
  match terms with
  | [] => pzero
  | (p, s) :: terms' => padd (smul (scalar_of s) (point_of p)) (term_sum point_of scalar_of terms')
  end.
Definition holds {E : Ext} (d : nipk) (point_of : string -> point E) (scalar_of : string -> scalar) : Prop :=
  Forall (fun rel => point_of (fst rel) = term_sum point_of scalar_of (snd rel)) (np_relations d).

(** The scalars which occur in a declaration, and whether all are secrets of it. *)
Definition used_secrets (d : nipk) : list string := flat_map (fun rel => map snd (snd rel)) (np_relations d).
Definition well_formed (d : nipk) : Prop := incl (used_secrets d) (np_secrets d).
