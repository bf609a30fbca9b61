(** Several proofs made and checked over one transcript, one after another. *)
From Verif Require Export ModelLeft SpecRandomness.
Local Open Scope string_scope.

(** A proof handed over, with the public points it is checked against. *)
Inductive submitted {E : Ext} : Type :=
| SIr (pf : ir_Proof) (p : ir_Publics E)
| SAb (pf : ab_Proof) (p : ab_Publics E)
| SIb (pf : ib_Proof) (p : ib_Publics E)
| SVc (pf : vc_Proof) (p : vc_Publics E)
| SCe (pf : ce_Proof) (p : ce_Publics E).
Arguments submitted : clear implicits.

Section Sequences.
  Context {E : Ext}.

  (** What is true of the secrets. *)
  Definition holds (q : proving E) : Prop :=
    match q with
    | PIr p s => ir_relation p s
    | PAb p s => ab_relation p s
    | PIb p s => ib_relation p s
    | PVc p s => vc_relation p s
    | PCe p s => ce_relation p s
    end.

  (** The statement a check hashes: the public points and the commitments the
      proof stands for. *)
  Definition stands_for (x : submitted E) : statement E :=
    match x with
    | SIr pf p => Ir p (ir_recompute pf p)
    | SAb pf p => Ab p (ab_recompute pf p)
    | SIb pf p => Ib p (ib_recompute pf p)
    | SVc pf p => Vc p (vc_recompute pf p)
    | SCe pf p => Ce p (ce_recompute pf p)
    end.
  Definition submitted_challenge (x : submitted E) : scalar :=
    match x with
    | SIr pf _ => ir_challenge pf
    | SAb pf _ => ab_challenge pf
    | SIb pf _ => ib_challenge pf
    | SVc pf _ => vc_challenge pf
    | SCe pf _ => ce_challenge pf
    end.

  (** The statement a prover hashes, its blinding being the blocks of [r]. *)
  Definition begun (q : proving E) (r : rng) : statement E :=
    match q with
    | PIr p _ => Ir p (ir_image p {| irs_x0 := block_scalar r 0; irs_x1 := block_scalar r 1; irs_x0_tilde := block_scalar r 2; irs_m1x1 := block_scalar r 3 |})
    | PAb p _ => Ab p (ab_image p {| abs_d := block_scalar r 0; abs_e0 := block_scalar r 1; abs_m0 := block_scalar r 2; abs_nonce := block_scalar r 3 |})
    | PIb p _ => Ib p (ib_image p {| ibs_x0_tilde := block_scalar r 0; ibs_x0 := block_scalar r 1; ibs_x1 := block_scalar r 2; ibs_s := block_scalar r 3; ibs_b := block_scalar r 4; ibs_t0 := block_scalar r 5 |})
    | PVc p _ => Vc p (vc_image p {| vcs_m0 := block_scalar r 0; vcs_z0 := block_scalar r 1; vcs_minus_zQ := block_scalar r 2 |})
    | PCe p _ => Ce p (ce_image p {| ces_m0 := block_scalar r 0; ces_z0 := block_scalar r 1; ces_z1 := block_scalar r 2 |})
    end.

  (** The transcript after a proof of [s], made or checked, that began with [t]:
      the statement, and that a challenge was taken. *)
  Definition closing : string * bytes := ("challenge_bytes chal", le_encode 4 64).
  Definition left_by (t : transcript) (s : statement E) : transcript :=
    extend t (statement_messages s ++ [closing]).

  (** The functions of the library, for all five systems. *)
  Definition make (t : transcript) (q : proving E) (os : rng) : submitted E * transcript * rng :=
    match q with
    | PIr p s => let '(pf, t, os) := ir_create_left t p s os in (SIr pf p, t, os)
    | PAb p s => let '(pf, t, os) := ab_create_left t p s os in (SAb pf p, t, os)
    | PIb p s => let '(pf, t, os) := ib_create_left t p s os in (SIb pf p, t, os)
    | PVc p s => let '(pf, t, os) := vc_create_left t p s os in (SVc pf p, t, os)
    | PCe p s => let '(pf, t, os) := ce_create_left t p s os in (SCe pf p, t, os)
    end.
  Definition check (t : transcript) (x : submitted E) : outcome unit unit * transcript :=
    match x with
    | SIr pf p => ir_verify_left pf t p
    | SAb pf p => ab_verify_left pf t p
    | SIb pf p => ib_verify_left pf t p
    | SVc pf p => vc_verify_left pf t p
    | SCe pf p => ce_verify_left pf t p
    end.

  (** One after another over the same transcript; a check that fails stops. *)
  Fixpoint make_all (t : transcript) (qs : list (proving E)) (os : rng)
    : list (submitted E) * transcript * rng :=
    match qs with
    | [] => ([], t, os)
    | q :: qs =>
      let '(x, t, os) := make t q os in
      let '(xs, t, os) := make_all t qs os in (x :: xs, t, os)
    end.
  Fixpoint check_all (t : transcript) (xs : list (submitted E)) : option transcript :=
    match xs with
    | [] => Some t
    | x :: xs => match check t x with (Ok _, t) => check_all t xs | _ => None end
    end.
End Sequences.
