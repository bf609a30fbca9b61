(** How often a proof of something false is accepted when the challenges are random.

    Several theorems (C17, C22, C46, C108 and others) say "unless a challenge is zero or two
    transcripts, named here, collide".  Here the challenges are the values of a random
    function, as in SpecFork.v, and the values for which this happens are counted.

    The provers are those of aeonflux/src/proofs.rs: each asks for the challenge of
    its own statement and commitments, and answers [c * s + k] for each of its secrets. *)
From Verif Require Export SpecBlocks SpecFork.

Section rare.
  Context {E : Ext}.

  Definition on_line (c s k : scalar) : scalar := (c * s + k) mod ell.

  Definition ir_answer (s k : ir_Scalars) (c : scalar) : ir_Proof :=
    let l f := on_line c (f s) (f k) in
    {| ir_challenge := c; ir_responses :=
       {| irs_x0 := l irs_x0; irs_x1 := l irs_x1; irs_x0_tilde := l irs_x0_tilde; irs_m1x1 := l irs_m1x1 |} |}.
  Definition ab_answer (s k : ab_Scalars) (c : scalar) : ab_Proof :=
    let l f := on_line c (f s) (f k) in
    {| ab_challenge := c; ab_responses :=
       {| abs_d := l abs_d; abs_e0 := l abs_e0; abs_m0 := l abs_m0; abs_nonce := l abs_nonce |} |}.
  Definition ib_answer (s k : ib_Scalars) (c : scalar) : ib_Proof :=
    let l f := on_line c (f s) (f k) in
    {| ib_challenge := c; ib_responses :=
       {| ibs_x0_tilde := l ibs_x0_tilde; ibs_x0 := l ibs_x0; ibs_x1 := l ibs_x1; ibs_s := l ibs_s;
          ibs_b := l ibs_b; ibs_t0 := l ibs_t0 |} |}.
  Definition vc_answer (s k : vc_Scalars) (c : scalar) : vc_Proof :=
    let l f := on_line c (f s) (f k) in
    {| vc_challenge := c; vc_responses :=
       {| vcs_m0 := l vcs_m0; vcs_z0 := l vcs_z0; vcs_minus_zQ := l vcs_minus_zQ |} |}.
  Definition ce_answer (s k : ce_Scalars) (c : scalar) : ce_Proof :=
    let l f := on_line c (f s) (f k) in
    {| ce_challenge := c; ce_responses :=
       {| ces_m0 := l ces_m0; ces_z0 := l ces_z0; ces_z1 := l ces_z1 |} |}.

  (** Messages with other proofs in them. *)
  Definition pr_with (p : CredentialPresentation E) (pf : vc_Proof) : CredentialPresentation E :=
    {| pr_rerandomized_mac_commitment := pr_rerandomized_mac_commitment p;
       pr_rerandomized_nonce := pr_rerandomized_nonce p;
       pr_attributes_revealed := pr_attributes_revealed p;
       pr_attributes_blinded := pr_attributes_blinded p;
       pr_proof := pf |}.
  Definition sc_with (p : SignalCredentialPresentation E) (pf : ce_Proof) : SignalCredentialPresentation E :=
    {| sc_presentation := sc_presentation p;
       sc_roster_entry_commitment := sc_roster_entry_commitment p;
       sc_roster_membership_proof := pf |}.
  Definition is_with (i : CredentialIssuance E) (pf : ir_Proof) : CredentialIssuance E :=
    {| is_secret_key_commitment := is_secret_key_commitment i; is_credential := is_credential i; is_proof := pf |}.
End rare.

Section counting.
  Context {A : Type} (question : A -> transcript) (challenge : A -> scalar).
  Context (eq_dec : forall x y : transcript, {x = y} + {x <> y}).

  (** One question, and an output made from the answer. *)
  Definition makes (x : transcript) (output : scalar -> A) : prover transcript A :=
    PAsk x (fun c => PDone (output c)).

  (** The output of [p] passes when the answers to new questions are [values]. *)
  Definition passes (p : prover transcript A) (values : list scalar) : Prop :=
    exists a c, proved eq_dec question p values = Some (a, c) /\ challenge a = c.

  (** Two values are as many as there are questions, the prover's and the verifier's.
      Of [ell ^ 2] pairs of values fewer than [2 * ell] let it pass. *)
  Definition seldom (p : prover transcript A) : Prop :=
    forall W : list (list scalar), NoDup W ->
    (forall v, In v W -> List.length v = 2%nat /\ Forall canonical v /\ passes p v) ->
    Z.of_nat (List.length W) < 2 * ell.
  (** It passes for so many. *)
  Definition that_often (p : prover transcript A) (n : Z) : Prop :=
    exists W : list (list scalar), NoDup W /\ Z.of_nat (List.length W) = n /\
    forall v, In v W -> List.length v = 2%nat /\ Forall canonical v /\ passes p v.

  (** The same when the values are made from 64 random bytes each. *)
  Definition seldom_on_bytes (p : prover transcript A) : Prop :=
    forall W : list (list bytes), NoDup W ->
    (forall v, In v W -> List.length v = 2%nat /\ Forall (fun b => List.length b = 64%nat) v /\ passes p (reduced v)) ->
    Z.of_nat (List.length W) * ell <= 2 * (2 ^ 512 + ell) ^ 2.
End counting.
