(** Properties of the randomness of proofs (C63). *)
From Verif Require Import ProofFacts CodecFacts SpecRandomness Toy PropertiesProofs.
Local Open Scope string_scope.

(** ** Consecutive draws *)
Fixpoint draws (n : nat) (r : rng) : list scalar :=
  match n with
  | O => []
  | S n' => let (x, r) := scalar_random r in x :: draws n' r
  end.
Lemma shifted_block (r : rng) n m k : map (fun i => r (n + i)%nat) (seq m k) = map r (seq (n + m) k).
Proof. revert m. induction k as [|k IH]; intros m; [reflexivity|]. cbn [seq map]. rewrite IH, Nat.add_succ_r. reflexivity. Qed.
Lemma draws_blocks n : forall r, draws n r = map (block_scalar r) (seq 0 n).
Proof.
  induction n as [|n IH]; intros r; [reflexivity|]. cbn [draws]. unfold scalar_random, fill_bytes.
  rewrite IH. cbn [seq map]. f_equal. rewrite <- seq_shift, map_map. apply map_ext. intros i.
  unfold block_scalar. rewrite shifted_block. do 4 f_equal. lia.
Qed.
Lemma respond c x r : s_add (s_mul c x) r = (c * x + r) mod ell.
Proof. unfold s_add, s_mul. apply Zplus_mod_idemp_l. Qed.

(** ** C63: where the blinding comes from *)
Section Blinding.
  Context {E : Ext}.
  Definition blinded (t : transcript) (q : proving E) (os : rng) : Prop :=
    let '(c, responses, os') := prove t q os in
    responses = map (fun ix => (c * snd (snd ix) + block_scalar (blinding_source t q os) (fst ix)) mod ell)
                    (combine (seq 0 (List.length (proving_secrets q))) (proving_secrets q)) /\
    os' = (fun i => os (32 + i)%nat).

  Lemma ir_blinded t p s os : blinded t (PIr p s) os.
  Proof.
    unfold blinded, prove, ir_create, ir_randomness, reseed, fill_bytes. cbv beta iota zeta.
    assert (Ht : ir_create_absorb t p = extend t (proving_publics (PIr p s))).
    { unfold ir_create_absorb. to_extend. reflexivity. }
    match goal with |- context [scalar_random (tr_rng ?a ?w ?e)] => set (r := @tr_rng E a w e) end.
    replace (blinding_source t (PIr p s) os) with r by (unfold r; rewrite Ht; reflexivity). clearbody r.
    pose proof (draws_blocks 4 r) as H. cbn [draws] in H.
    destruct (scalar_random r) as [v0 r0]. cbv beta iota in H.
    destruct (scalar_random r0) as [v1 r1]. cbv beta iota in H.
    destruct (scalar_random r1) as [v2 r2]. cbv beta iota in H.
    destruct (scalar_random r2) as [v3 r3]. cbv beta iota in H.
    cbn [seq map] in H. injection H as H0 H1 H2 H3.
    unfold ir_create_with. cbv zeta.
    match goal with |- context [@get_challenge E ?u] => generalize (@get_challenge E u) end. intros c.
    cbn [ir_responses ir_challenge irs_x0 irs_x1 irs_x0_tilde irs_m1x1]. split; [|reflexivity].
    cbn [proving_secrets List.length seq combine map fst snd]. rewrite !respond, H0, H1, H2, H3. reflexivity.
  Qed.

  Lemma ab_blinded t p s os : blinded t (PAb p s) os.
  Proof.
    unfold blinded, prove, ab_create, ab_randomness, reseed, fill_bytes. cbv beta iota zeta.
    assert (Ht : ab_create_absorb t p = extend t (proving_publics (PAb p s))).
    { unfold ab_create_absorb. to_extend. reflexivity. }
    match goal with |- context [scalar_random (tr_rng ?a ?w ?e)] => set (r := @tr_rng E a w e) end.
    replace (blinding_source t (PAb p s) os) with r by (unfold r; rewrite Ht; reflexivity). clearbody r.
    pose proof (draws_blocks 4 r) as H. cbn [draws] in H.
    destruct (scalar_random r) as [v0 r0]. cbv beta iota in H.
    destruct (scalar_random r0) as [v1 r1]. cbv beta iota in H.
    destruct (scalar_random r1) as [v2 r2]. cbv beta iota in H.
    destruct (scalar_random r2) as [v3 r3]. cbv beta iota in H.
    cbn [seq map] in H. injection H as H0 H1 H2 H3.
    unfold ab_create_with. cbv zeta.
    match goal with |- context [@get_challenge E ?u] => generalize (@get_challenge E u) end. intros c.
    cbn [ab_responses ab_challenge abs_d abs_e0 abs_m0 abs_nonce]. split; [|reflexivity].
    cbn [proving_secrets List.length seq combine map fst snd]. rewrite !respond, H0, H1, H2, H3. reflexivity.
  Qed.

  Lemma ib_blinded t p s os : blinded t (PIb p s) os.
  Proof.
    unfold blinded, prove, ib_create, ib_randomness, reseed, fill_bytes. cbv beta iota zeta.
    assert (Ht : ib_create_absorb t p = extend t (proving_publics (PIb p s))).
    { unfold ib_create_absorb. to_extend. reflexivity. }
    match goal with |- context [scalar_random (tr_rng ?a ?w ?e)] => set (r := @tr_rng E a w e) end.
    replace (blinding_source t (PIb p s) os) with r by (unfold r; rewrite Ht; reflexivity). clearbody r.
    pose proof (draws_blocks 6 r) as H. cbn [draws] in H.
    destruct (scalar_random r) as [v0 r0]. cbv beta iota in H.
    destruct (scalar_random r0) as [v1 r1]. cbv beta iota in H.
    destruct (scalar_random r1) as [v2 r2]. cbv beta iota in H.
    destruct (scalar_random r2) as [v3 r3]. cbv beta iota in H.
    destruct (scalar_random r3) as [v4 r4]. cbv beta iota in H.
    destruct (scalar_random r4) as [v5 r5]. cbv beta iota in H.
    cbn [seq map] in H. injection H as H0 H1 H2 H3 H4 H5.
    unfold ib_create_with. cbv zeta.
    match goal with |- context [@get_challenge E ?u] => generalize (@get_challenge E u) end. intros c.
    cbn [ib_responses ib_challenge ibs_x0_tilde ibs_x0 ibs_x1 ibs_s ibs_b ibs_t0]. split; [|reflexivity].
    cbn [proving_secrets List.length seq combine map fst snd]. rewrite !respond, H0, H1, H2, H3, H4, H5. reflexivity.
  Qed.

  Lemma vc_blinded t p s os : blinded t (PVc p s) os.
  Proof.
    unfold blinded, prove, vc_create, vc_randomness, reseed, fill_bytes. cbv beta iota zeta.
    assert (Ht : vc_create_absorb t p = extend t (proving_publics (PVc p s))).
    { unfold vc_create_absorb. to_extend. reflexivity. }
    match goal with |- context [scalar_random (tr_rng ?a ?w ?e)] => set (r := @tr_rng E a w e) end.
    replace (blinding_source t (PVc p s) os) with r by (unfold r; rewrite Ht; reflexivity). clearbody r.
    pose proof (draws_blocks 3 r) as H. cbn [draws] in H.
    destruct (scalar_random r) as [v0 r0]. cbv beta iota in H.
    destruct (scalar_random r0) as [v1 r1]. cbv beta iota in H.
    destruct (scalar_random r1) as [v2 r2]. cbv beta iota in H.
    cbn [seq map] in H. injection H as H0 H1 H2.
    unfold vc_create_with. cbv zeta.
    match goal with |- context [@get_challenge E ?u] => generalize (@get_challenge E u) end. intros c.
    cbn [vc_responses vc_challenge vcs_m0 vcs_z0 vcs_minus_zQ]. split; [|reflexivity].
    cbn [proving_secrets List.length seq combine map fst snd]. rewrite !respond, H0, H1, H2. reflexivity.
  Qed.

  Lemma ce_blinded t p s os : blinded t (PCe p s) os.
  Proof.
    unfold blinded, prove, ce_create, ce_randomness, reseed, fill_bytes. cbv beta iota zeta.
    assert (Ht : ce_create_absorb t p = extend t (proving_publics (PCe p s))).
    { unfold ce_create_absorb. to_extend. reflexivity. }
    match goal with |- context [scalar_random (tr_rng ?a ?w ?e)] => set (r := @tr_rng E a w e) end.
    replace (blinding_source t (PCe p s) os) with r by (unfold r; rewrite Ht; reflexivity). clearbody r.
    pose proof (draws_blocks 3 r) as H. cbn [draws] in H.
    destruct (scalar_random r) as [v0 r0]. cbv beta iota in H.
    destruct (scalar_random r0) as [v1 r1]. cbv beta iota in H.
    destruct (scalar_random r1) as [v2 r2]. cbv beta iota in H.
    cbn [seq map] in H. injection H as H0 H1 H2.
    unfold ce_create_with. cbv zeta.
    match goal with |- context [@get_challenge E ?u] => generalize (@get_challenge E u) end. intros c.
    cbn [ce_responses ce_challenge ces_m0 ces_z0 ces_z1]. split; [|reflexivity].
    cbn [proving_secrets List.length seq combine map fst snd]. rewrite !respond, H0, H1, H2. reflexivity.
  Qed.
End Blinding.

(** The [i]-th response is the challenge times the [i]-th secret plus the
    [i]-th scalar drawn from one generator, which was given the name of the
    system, every public point, every secret and 32 bytes from the operating
    system. *)
Theorem C63_blinding : forall (E : Ext) t (q : proving E) os,
  let '(c, responses, os') := prove t q os in
  responses = map (fun ix => (c * snd (snd ix) + block_scalar (blinding_source t q os) (fst ix)) mod ell)
                  (combine (seq 0 (List.length (proving_secrets q))) (proving_secrets q)) /\
  os' = (fun i => os (32 + i)%nat).
Proof.
  intros E t q os. destruct q as [p s|p s|p s|p s|p s];
    [apply ir_blinded|apply ab_blinded|apply ib_blinded|apply vc_blinded|apply ce_blinded].
Qed.
Print Assumptions C63_blinding.

(** ** C63: no two proofs share a generator *)
Lemma scalar_bytes_inj a b : canonical a -> canonical b -> scalar_to_bytes a = scalar_to_bytes b -> a = b.
Proof. intros Ha Hb H. apply (f_equal from_canonical_bytes) in H. rewrite !from_canonical_to_bytes in H by assumption. congruence. Qed.
Lemma witness_inj (l l' : list (string * scalar)) :
  Forall (fun x => canonical (snd x)) l -> Forall (fun x => canonical (snd x)) l' ->
  map (fun x => (fst x, scalar_to_bytes (snd x))) l = map (fun x => (fst x, scalar_to_bytes (snd x))) l' -> l = l'.
Proof.
  intros H. revert l'. induction H as [|x l Hx Hl IH]; intros [|y l'] Hc He; try discriminate; [reflexivity|].
  apply Forall_cons_iff in Hc as [Hy Hc]. cbn [map] in He.
  assert (E1 : (fst x, scalar_to_bytes (snd x)) = (fst y, scalar_to_bytes (snd y))) by congruence.
  assert (E2 : fst x = fst y) by congruence. assert (E3 : scalar_to_bytes (snd x) = scalar_to_bytes (snd y)) by congruence.
  apply scalar_bytes_inj in E3; [|assumption|assumption].
  f_equal; [destruct x, y; cbn in *; congruence|]. apply IH; [assumption|]. congruence.
Qed.
Lemma ir_source_inj E (L : ExtLaws E) t t' (p p' : ir_Publics E) s s' :
  extend t (proving_publics (PIr p s)) = extend t' (proving_publics (PIr p' s')) ->
  proving_secrets (PIr p s) = proving_secrets (PIr p' s') -> t = t' /\ PIr p s = PIr p' s'.
Proof.
  intros Hp Hw. apply extend_inj in Hp; [destruct Hp as [-> Hp]|reflexivity]. split; [reflexivity|].
  assert (s = s') as <- by (destruct s, s'; cbn in Hw; congruence). f_equal.
  destruct p, p'. cbn in Hp. injection Hp. intros.
  repeat match goal with H : compress _ = compress _ |- _ => apply (compress_inj L) in H end. congruence.
Qed.
Lemma ab_source_inj E (L : ExtLaws E) t t' (p p' : ab_Publics E) s s' :
  extend t (proving_publics (PAb p s)) = extend t' (proving_publics (PAb p' s')) ->
  proving_secrets (PAb p s) = proving_secrets (PAb p' s') -> t = t' /\ PAb p s = PAb p' s'.
Proof.
  intros Hp Hw. apply extend_inj in Hp; [destruct Hp as [-> Hp]|reflexivity]. split; [reflexivity|].
  assert (s = s') as <- by (destruct s, s'; cbn in Hw; congruence). f_equal.
  destruct p, p'. cbn in Hp. injection Hp. intros.
  repeat match goal with H : compress _ = compress _ |- _ => apply (compress_inj L) in H end. congruence.
Qed.
Lemma ib_source_inj E (L : ExtLaws E) t t' (p p' : ib_Publics E) s s' :
  extend t (proving_publics (PIb p s)) = extend t' (proving_publics (PIb p' s')) ->
  proving_secrets (PIb p s) = proving_secrets (PIb p' s') -> t = t' /\ PIb p s = PIb p' s'.
Proof.
  intros Hp Hw. apply extend_inj in Hp; [destruct Hp as [-> Hp]|reflexivity]. split; [reflexivity|].
  assert (s = s') as <- by (destruct s, s'; cbn in Hw; congruence). f_equal.
  destruct p, p'. cbn in Hp. injection Hp. intros.
  repeat match goal with H : compress _ = compress _ |- _ => apply (compress_inj L) in H end. congruence.
Qed.
Lemma vc_source_inj E (L : ExtLaws E) t t' (p p' : vc_Publics E) s s' :
  extend t (proving_publics (PVc p s)) = extend t' (proving_publics (PVc p' s')) ->
  proving_secrets (PVc p s) = proving_secrets (PVc p' s') -> t = t' /\ PVc p s = PVc p' s'.
Proof.
  intros Hp Hw. apply extend_inj in Hp; [destruct Hp as [-> Hp]|reflexivity]. split; [reflexivity|].
  assert (s = s') as <- by (destruct s, s'; cbn in Hw; congruence). f_equal.
  destruct p, p'. cbn in Hp. injection Hp. intros.
  repeat match goal with H : compress _ = compress _ |- _ => apply (compress_inj L) in H end. congruence.
Qed.
Lemma ce_source_inj E (L : ExtLaws E) t t' (p p' : ce_Publics E) s s' :
  extend t (proving_publics (PCe p s)) = extend t' (proving_publics (PCe p' s')) ->
  proving_secrets (PCe p s) = proving_secrets (PCe p' s') -> t = t' /\ PCe p s = PCe p' s'.
Proof.
  intros Hp Hw. apply extend_inj in Hp; [destruct Hp as [-> Hp]|reflexivity]. split; [reflexivity|].
  assert (s = s') as <- by (destruct s, s'; cbn in Hw; congruence). f_equal.
  destruct p, p'. cbn in Hp. injection Hp. intros.
  repeat match goal with H : compress _ = compress _ |- _ => apply (compress_inj L) in H end. congruence.
Qed.
(** Even if the operating system repeats itself, the generators of two proofs
    are given different inputs, unless the proofs are of one statement, with
    one witness, from one transcript. *)
Theorem C63_generators_differ : forall E, ExtLaws E -> forall t t' (q q' : proving E),
  Forall (fun x => canonical (snd x)) (proving_secrets q) ->
  Forall (fun x => canonical (snd x)) (proving_secrets q') ->
  extend t (proving_publics q) = extend t' (proving_publics q') ->
  map (fun x => (fst x, scalar_to_bytes (snd x))) (proving_secrets q) =
  map (fun x => (fst x, scalar_to_bytes (snd x))) (proving_secrets q') ->
  t = t' /\ q = q'.
Proof.
  intros E L t t' q q' Hc Hc' Hp Hw.
  apply witness_inj in Hw; [|assumption|assumption].
  destruct q as [p s|p s|p s|p s|p s], q' as [p' s'|p' s'|p' s'|p' s'|p' s'];
    try (apply (f_equal (map fst)) in Hw; discriminate Hw).
  - apply (ir_source_inj E L); assumption.
  - apply (ab_source_inj E L); assumption.
  - apply (ib_source_inj E L); assumption.
  - apply (vc_source_inj E L); assumption.
  - apply (ce_source_inj E L); assumption.
Qed.
Print Assumptions C63_generators_differ.

(** The five systems on sample statements. *)
Definition sample_provings : list (proving toy) :=
  [PIr sample_ir_publics sample_ir_secrets; PAb sample_ab_publics sample_ab_secrets; PIb sample_ib_publics sample_ib_secrets;
   PVc sample_vc_publics sample_vc_secrets; PCe sample_ce_publics sample_ce_secrets].
Example C63_met_blinding :
  forallb (fun q =>
    let '(c, responses, _) := prove (transcript_new "example") q (toy_stream 3) in
    negb (c =? 0)%Z &&
    forallb (fun ir => let '(i, x, r) := ir in
                (r =? (c * snd x + block_scalar (blinding_source (transcript_new "example") q (toy_stream 3)) i) mod ell)%Z &&
                negb (r =? (c * snd x) mod ell)%Z)
      (combine (combine (seq 0 6) (proving_secrets q)) responses))%bool sample_provings = true.
Proof. vm_compute. reflexivity. Qed.
Example C63_met_canonical : Forall (fun q => Forall (fun x => canonical (snd x)) (proving_secrets q)) sample_provings.
Proof. repeat constructor; vm_compute; intros; discriminate. Qed.
