(** What the randomness of a proof is made from.

    These definitions do not use the prover of the model, except [prove]
    which names it. *)
From Verif Require Export SpecProofs.
Local Open Scope string_scope.

(** A statement of one of the five systems together with its witness. *)
Inductive proving {E : Ext} : Type :=
| PIr (p : ir_Publics E) (s : ir_Scalars)
| PAb (p : ab_Publics E) (s : ab_Scalars)
| PIb (p : ib_Publics E) (s : ib_Scalars)
| PVc (p : vc_Publics E) (s : vc_Scalars)
| PCe (p : ce_Publics E) (s : ce_Scalars).
Arguments proving : clear implicits.

(** What is hashed before the commitments: the name of the system and every
    public point. *)
Definition proving_publics {E : Ext} (q : proving E) : list (string * bytes) :=
  match q with
  | PIr p s => firstn 7 (ir_messages p (ir_image p s))
  | PAb p s => firstn 6 (ab_messages p (ab_image p s))
  | PIb p s => firstn 13 (ib_messages p (ib_image p s))
  | PVc p s => firstn 7 (vc_messages p (vc_image p s))
  | PCe p s => firstn 6 (ce_messages p (ce_image p s))
  end.

(** The secrets, named. *)
Definition proving_secrets {E : Ext} (q : proving E) : list (string * scalar) :=
  match q with
  | PIr _ s => [("x0", irs_x0 s); ("x1", irs_x1 s); ("x0_tilde", irs_x0_tilde s); ("m1x1", irs_m1x1 s)]
  | PAb _ s => [("d", abs_d s); ("e0", abs_e0 s); ("m0", abs_m0 s); ("nonce", abs_nonce s)]
  | PIb _ s => [("x0_tilde", ibs_x0_tilde s); ("x0", ibs_x0 s); ("x1", ibs_x1 s); ("s", ibs_s s);
                ("b", ibs_b s); ("t0", ibs_t0 s)]
  | PVc _ s => [("m0", vcs_m0 s); ("z0", vcs_z0 s); ("minus_zQ", vcs_minus_zQ s)]
  | PCe _ s => [("m0", ces_m0 s); ("z0", ces_z0 s); ("z1", ces_z1 s)]
  end.

(** Challenge, responses in the order of [proving_secrets], and what is left
    of the operating system's randomness. *)
Definition prove {E : Ext} (t : transcript) (q : proving E) (os : rng) : scalar * list scalar * rng :=
  match q with
  | PIr p s =>
    let (pf, os) := ir_create t p s os in
    let r := ir_responses pf in (ir_challenge pf, [irs_x0 r; irs_x1 r; irs_x0_tilde r; irs_m1x1 r], os)
  | PAb p s =>
    let (pf, os) := ab_create t p s os in
    let r := ab_responses pf in (ab_challenge pf, [abs_d r; abs_e0 r; abs_m0 r; abs_nonce r], os)
  | PIb p s =>
    let (pf, os) := ib_create t p s os in
    let r := ib_responses pf in
    (ib_challenge pf, [ibs_x0_tilde r; ibs_x0 r; ibs_x1 r; ibs_s r; ibs_b r; ibs_t0 r], os)
  | PVc p s =>
    let (pf, os) := vc_create t p s os in
    let r := vc_responses pf in (vc_challenge pf, [vcs_m0 r; vcs_z0 r; vcs_minus_zQ r], os)
  | PCe p s =>
    let (pf, os) := ce_create t p s os in
    let r := ce_responses pf in (ce_challenge pf, [ces_m0 r; ces_z0 r; ces_z1 r], os)
  end.

(** The [i]-th block of 64 bytes of a stream, as a scalar. *)
Definition block_scalar (r : rng) (i : nat) : scalar := le_decode (map r (seq (64 * i) 64)) mod ell.

(** The generator the blinding is drawn from. *)
Definition blinding_source {E : Ext} (t : transcript) (q : proving E) (os : rng) : rng :=
  @tr_rng E (extend t (proving_publics q))
    (map (fun x => (fst x, scalar_to_bytes (snd x))) (proving_secrets q)) (map os (seq 0 32)).
