(** What the proofs leave in the transcript (C113). *)
From Verif Require Import ProofFacts SpecSequence Toy PropertiesProofs PropertiesRandomness.
Local Open Scope string_scope.

Lemma closed_extend t l : commit_bytes (extend t l) "challenge_bytes chal" (le_encode 4 (Z.of_nat 64)) = extend t (l ++ [closing]).
Proof. apply commit_extend. Qed.

Section Facts.
  Context {E : Ext} (L : ExtLaws E).

  Lemma ir_verify_leaves t pf (p : ir_Publics E) :
    snd (ir_verify_left pf t p) = left_by t (Ir p (ir_recompute pf p)).
  Proof.
    unfold ir_verify_left, left_by, chal_taken, squeezed. cbv zeta. cbn [snd statement_messages String.append].
    to_extend. reflexivity.
  Qed.
  Lemma ir_randomness_blocks t (p : ir_Publics E) s os :
    @ir_randomness E (ir_create_absorb t p) s os =
    (let r := blinding_source t (PIr p s) os in
     {| irs_x0 := block_scalar r 0; irs_x1 := block_scalar r 1; irs_x0_tilde := block_scalar r 2; irs_m1x1 := block_scalar r 3 |}, fun i => os (32 + i)%nat).
  Proof.
    unfold ir_randomness, reseed, fill_bytes. cbv beta iota zeta.
    assert (Ht : ir_create_absorb t p = extend t (proving_publics (PIr p s))).
    { unfold ir_create_absorb. to_extend. reflexivity. }
    match goal with |- context [scalar_random (tr_rng ?a ?w ?e)] => set (r := @tr_rng E a w e) end.
    replace (blinding_source t (PIr p s) os) with r by (unfold r; rewrite Ht; reflexivity). clearbody r.
    pose proof (draws_blocks 4 r) as H. cbn [draws] in H.
    destruct (scalar_random r) as [v0 r0]. cbv beta iota in H.
    destruct (scalar_random r0) as [v1 r1]. cbv beta iota in H.
    destruct (scalar_random r1) as [v2 r2]. cbv beta iota in H.
    destruct (scalar_random r2) as [v3 r3]. cbv beta iota in H.
    cbn [seq map] in H. injection H as H0 H1 H2 H3.
    rewrite H0, H1, H2, H3. reflexivity.
  Qed.
  Lemma ir_create_leaves t (p : ir_Publics E) rand :
    ir_create_with_left (ir_create_absorb t p) p rand = left_by t (Ir p (ir_image p rand)).
  Proof using L.
    unfold ir_create_with_left, ir_create_absorb, left_by, chal_taken, squeezed. cbv zeta.
    cbn [statement_messages String.append]. to_extend. cbn. rewrite ?(padd_zero_r L). reflexivity.
  Qed.
  Lemma ir_meet t (p : ir_Publics E) s rand :
    let pf := ir_create_with (ir_create_absorb t p) p s rand in
    ir_recompute pf p = ir_image p rand <-> ir_relation p s \/ ir_challenge pf = 0.
  Proof using L.
    intros pf. split.
    - intros H. assert (V : ir_verify pf t p = Ok tt).
      { apply ir_verify_iff. rewrite H. unfold pf. rewrite (ir_create_with_eq L). reflexivity. }
      destruct (ir_false_rejected L t t p p s rand V) as [(_ & _ & R)|[R|[R _]]]; [auto|auto|].
      exfalso. apply R. fold pf. rewrite H. reflexivity.
    - intros [R|R]; unfold pf in *; rewrite (ir_create_with_eq L) in *; cbv zeta in *.
      + apply (ir_recompute_spec L _ _ _ _ R).
      + cbn [ir_challenge] in R. rewrite R. clear - L.
        destruct p, s, rand. unfold ir_recompute, ir_image. cbn -[s_add s_mul s_neg].
        f_equal; pring L.
  Qed.
  Lemma ab_verify_leaves t pf (p : ab_Publics E) :
    snd (ab_verify_left pf t p) = left_by t (Ab p (ab_recompute pf p)).
  Proof.
    unfold ab_verify_left, left_by, chal_taken, squeezed. cbv zeta. cbn [snd statement_messages String.append].
    to_extend. reflexivity.
  Qed.
  Lemma ab_randomness_blocks t (p : ab_Publics E) s os :
    @ab_randomness E (ab_create_absorb t p) s os =
    (let r := blinding_source t (PAb p s) os in
     {| abs_d := block_scalar r 0; abs_e0 := block_scalar r 1; abs_m0 := block_scalar r 2; abs_nonce := block_scalar r 3 |}, fun i => os (32 + i)%nat).
  Proof.
    unfold ab_randomness, reseed, fill_bytes. cbv beta iota zeta.
    assert (Ht : ab_create_absorb t p = extend t (proving_publics (PAb p s))).
    { unfold ab_create_absorb. to_extend. reflexivity. }
    match goal with |- context [scalar_random (tr_rng ?a ?w ?e)] => set (r := @tr_rng E a w e) end.
    replace (blinding_source t (PAb p s) os) with r by (unfold r; rewrite Ht; reflexivity). clearbody r.
    pose proof (draws_blocks 4 r) as H. cbn [draws] in H.
    destruct (scalar_random r) as [v0 r0]. cbv beta iota in H.
    destruct (scalar_random r0) as [v1 r1]. cbv beta iota in H.
    destruct (scalar_random r1) as [v2 r2]. cbv beta iota in H.
    destruct (scalar_random r2) as [v3 r3]. cbv beta iota in H.
    cbn [seq map] in H. injection H as H0 H1 H2 H3.
    rewrite H0, H1, H2, H3. reflexivity.
  Qed.
  Lemma ab_create_leaves t (p : ab_Publics E) rand :
    ab_create_with_left (ab_create_absorb t p) p rand = left_by t (Ab p (ab_image p rand)).
  Proof using L.
    unfold ab_create_with_left, ab_create_absorb, left_by, chal_taken, squeezed. cbv zeta.
    cbn [statement_messages String.append]. to_extend. cbn. rewrite ?(padd_zero_r L). reflexivity.
  Qed.
  Lemma ab_meet t (p : ab_Publics E) s rand :
    let pf := ab_create_with (ab_create_absorb t p) p s rand in
    ab_recompute pf p = ab_image p rand <-> ab_relation p s \/ ab_challenge pf = 0.
  Proof using L.
    intros pf. split.
    - intros H. assert (V : ab_verify pf t p = Ok tt).
      { apply ab_verify_iff. rewrite H. unfold pf. rewrite (ab_create_with_eq L). reflexivity. }
      destruct (ab_false_rejected L t t p p s rand V) as [(_ & _ & R)|[R|[R _]]]; [auto|auto|].
      exfalso. apply R. fold pf. rewrite H. reflexivity.
    - intros [R|R]; unfold pf in *; rewrite (ab_create_with_eq L) in *; cbv zeta in *.
      + apply (ab_recompute_spec L _ _ _ _ R).
      + cbn [ab_challenge] in R. rewrite R. clear - L.
        destruct p, s, rand. unfold ab_recompute, ab_image. cbn -[s_add s_mul s_neg].
        f_equal; pring L.
  Qed.
  Lemma ib_verify_leaves t pf (p : ib_Publics E) :
    snd (ib_verify_left pf t p) = left_by t (Ib p (ib_recompute pf p)).
  Proof.
    unfold ib_verify_left, left_by, chal_taken, squeezed. cbv zeta. cbn [snd statement_messages String.append].
    to_extend. reflexivity.
  Qed.
  Lemma ib_randomness_blocks t (p : ib_Publics E) s os :
    @ib_randomness E (ib_create_absorb t p) s os =
    (let r := blinding_source t (PIb p s) os in
     {| ibs_x0_tilde := block_scalar r 0; ibs_x0 := block_scalar r 1; ibs_x1 := block_scalar r 2; ibs_s := block_scalar r 3; ibs_b := block_scalar r 4; ibs_t0 := block_scalar r 5 |}, fun i => os (32 + i)%nat).
  Proof.
    unfold ib_randomness, reseed, fill_bytes. cbv beta iota zeta.
    assert (Ht : ib_create_absorb t p = extend t (proving_publics (PIb p s))).
    { unfold ib_create_absorb. to_extend. reflexivity. }
    match goal with |- context [scalar_random (tr_rng ?a ?w ?e)] => set (r := @tr_rng E a w e) end.
    replace (blinding_source t (PIb p s) os) with r by (unfold r; rewrite Ht; reflexivity). clearbody r.
    pose proof (draws_blocks 6 r) as H. cbn [draws] in H.
    destruct (scalar_random r) as [v0 r0]. cbv beta iota in H.
    destruct (scalar_random r0) as [v1 r1]. cbv beta iota in H.
    destruct (scalar_random r1) as [v2 r2]. cbv beta iota in H.
    destruct (scalar_random r2) as [v3 r3]. cbv beta iota in H.
    destruct (scalar_random r3) as [v4 r4]. cbv beta iota in H.
    destruct (scalar_random r4) as [v5 r5]. cbv beta iota in H.
    cbn [seq map] in H. injection H as H0 H1 H2 H3 H4 H5.
    rewrite H0, H1, H2, H3, H4, H5. reflexivity.
  Qed.
  Lemma ib_create_leaves t (p : ib_Publics E) rand :
    ib_create_with_left (ib_create_absorb t p) p rand = left_by t (Ib p (ib_image p rand)).
  Proof using L.
    unfold ib_create_with_left, ib_create_absorb, left_by, chal_taken, squeezed. cbv zeta.
    cbn [statement_messages String.append]. to_extend. cbn. rewrite ?(padd_zero_r L). reflexivity.
  Qed.
  Lemma ib_meet t (p : ib_Publics E) s rand :
    let pf := ib_create_with (ib_create_absorb t p) p s rand in
    ib_recompute pf p = ib_image p rand <-> ib_relation p s \/ ib_challenge pf = 0.
  Proof using L.
    intros pf. split.
    - intros H. assert (V : ib_verify pf t p = Ok tt).
      { apply ib_verify_iff. rewrite H. unfold pf. rewrite (ib_create_with_eq L). reflexivity. }
      destruct (ib_false_rejected L t t p p s rand V) as [(_ & _ & R)|[R|[R _]]]; [auto|auto|].
      exfalso. apply R. fold pf. rewrite H. reflexivity.
    - intros [R|R]; unfold pf in *; rewrite (ib_create_with_eq L) in *; cbv zeta in *.
      + apply (ib_recompute_spec L _ _ _ _ R).
      + cbn [ib_challenge] in R. rewrite R. clear - L.
        destruct p, s, rand. unfold ib_recompute, ib_image. cbn -[s_add s_mul s_neg].
        f_equal; pring L.
  Qed.
  Lemma vc_verify_leaves t pf (p : vc_Publics E) :
    snd (vc_verify_left pf t p) = left_by t (Vc p (vc_recompute pf p)).
  Proof.
    unfold vc_verify_left, left_by, chal_taken, squeezed. cbv zeta. cbn [snd statement_messages String.append].
    to_extend. reflexivity.
  Qed.
  Lemma vc_randomness_blocks t (p : vc_Publics E) s os :
    @vc_randomness E (vc_create_absorb t p) s os =
    (let r := blinding_source t (PVc p s) os in
     {| vcs_m0 := block_scalar r 0; vcs_z0 := block_scalar r 1; vcs_minus_zQ := block_scalar r 2 |}, fun i => os (32 + i)%nat).
  Proof.
    unfold vc_randomness, reseed, fill_bytes. cbv beta iota zeta.
    assert (Ht : vc_create_absorb t p = extend t (proving_publics (PVc p s))).
    { unfold vc_create_absorb. to_extend. reflexivity. }
    match goal with |- context [scalar_random (tr_rng ?a ?w ?e)] => set (r := @tr_rng E a w e) end.
    replace (blinding_source t (PVc p s) os) with r by (unfold r; rewrite Ht; reflexivity). clearbody r.
    pose proof (draws_blocks 3 r) as H. cbn [draws] in H.
    destruct (scalar_random r) as [v0 r0]. cbv beta iota in H.
    destruct (scalar_random r0) as [v1 r1]. cbv beta iota in H.
    destruct (scalar_random r1) as [v2 r2]. cbv beta iota in H.
    cbn [seq map] in H. injection H as H0 H1 H2.
    rewrite H0, H1, H2. reflexivity.
  Qed.
  Lemma vc_create_leaves t (p : vc_Publics E) rand :
    vc_create_with_left (vc_create_absorb t p) p rand = left_by t (Vc p (vc_image p rand)).
  Proof using L.
    unfold vc_create_with_left, vc_create_absorb, left_by, chal_taken, squeezed. cbv zeta.
    cbn [statement_messages String.append]. to_extend. cbn. rewrite ?(padd_zero_r L). reflexivity.
  Qed.
  Lemma vc_meet t (p : vc_Publics E) s rand :
    let pf := vc_create_with (vc_create_absorb t p) p s rand in
    vc_recompute pf p = vc_image p rand <-> vc_relation p s \/ vc_challenge pf = 0.
  Proof using L.
    intros pf. split.
    - intros H. assert (V : vc_verify pf t p = Ok tt).
      { apply vc_verify_iff. rewrite H. unfold pf. rewrite (vc_create_with_eq L). reflexivity. }
      destruct (vc_false_rejected L t t p p s rand V) as [(_ & _ & R)|[R|[R _]]]; [auto|auto|].
      exfalso. apply R. fold pf. rewrite H. reflexivity.
    - intros [R|R]; unfold pf in *; rewrite (vc_create_with_eq L) in *; cbv zeta in *.
      + apply (vc_recompute_spec L _ _ _ _ R).
      + cbn [vc_challenge] in R. rewrite R. clear - L.
        destruct p, s, rand. unfold vc_recompute, vc_image. cbn -[s_add s_mul s_neg].
        f_equal; pring L.
  Qed.
  Lemma ce_verify_leaves t pf (p : ce_Publics E) :
    snd (ce_verify_left pf t p) = left_by t (Ce p (ce_recompute pf p)).
  Proof.
    unfold ce_verify_left, left_by, chal_taken, squeezed. cbv zeta. cbn [snd statement_messages String.append].
    to_extend. reflexivity.
  Qed.
  Lemma ce_randomness_blocks t (p : ce_Publics E) s os :
    @ce_randomness E (ce_create_absorb t p) s os =
    (let r := blinding_source t (PCe p s) os in
     {| ces_m0 := block_scalar r 0; ces_z0 := block_scalar r 1; ces_z1 := block_scalar r 2 |}, fun i => os (32 + i)%nat).
  Proof.
    unfold ce_randomness, reseed, fill_bytes. cbv beta iota zeta.
    assert (Ht : ce_create_absorb t p = extend t (proving_publics (PCe p s))).
    { unfold ce_create_absorb. to_extend. reflexivity. }
    match goal with |- context [scalar_random (tr_rng ?a ?w ?e)] => set (r := @tr_rng E a w e) end.
    replace (blinding_source t (PCe p s) os) with r by (unfold r; rewrite Ht; reflexivity). clearbody r.
    pose proof (draws_blocks 3 r) as H. cbn [draws] in H.
    destruct (scalar_random r) as [v0 r0]. cbv beta iota in H.
    destruct (scalar_random r0) as [v1 r1]. cbv beta iota in H.
    destruct (scalar_random r1) as [v2 r2]. cbv beta iota in H.
    cbn [seq map] in H. injection H as H0 H1 H2.
    rewrite H0, H1, H2. reflexivity.
  Qed.
  Lemma ce_create_leaves t (p : ce_Publics E) rand :
    ce_create_with_left (ce_create_absorb t p) p rand = left_by t (Ce p (ce_image p rand)).
  Proof using L.
    unfold ce_create_with_left, ce_create_absorb, left_by, chal_taken, squeezed. cbv zeta.
    cbn [statement_messages String.append]. to_extend. cbn. rewrite ?(padd_zero_r L). reflexivity.
  Qed.
  Lemma ce_meet t (p : ce_Publics E) s rand :
    let pf := ce_create_with (ce_create_absorb t p) p s rand in
    ce_recompute pf p = ce_image p rand <-> ce_relation p s \/ ce_challenge pf = 0.
  Proof using L.
    intros pf. split.
    - intros H. assert (V : ce_verify pf t p = Ok tt).
      { apply ce_verify_iff. rewrite H. unfold pf. rewrite (ce_create_with_eq L). reflexivity. }
      destruct (ce_false_rejected L t t p p s rand V) as [(_ & _ & R)|[R|[R _]]]; [auto|auto|].
      exfalso. apply R. fold pf. rewrite H. reflexivity.
    - intros [R|R]; unfold pf in *; rewrite (ce_create_with_eq L) in *; cbv zeta in *.
      + apply (ce_recompute_spec L _ _ _ _ R).
      + cbn [ce_challenge] in R. rewrite R. clear - L.
        destruct p, s, rand. unfold ce_recompute, ce_image. cbn -[s_add s_mul s_neg].
        f_equal; pring L.
  Qed.
  Lemma Ir_inj (p : ir_Publics E) c c' : Ir p c = Ir p c' -> c = c'.
  Proof. intros H. injection H as H. exact H. Qed.
  Lemma Ab_inj (p : ab_Publics E) c c' : Ab p c = Ab p c' -> c = c'.
  Proof. intros H. injection H as H. exact H. Qed.
  Lemma Ib_inj (p : ib_Publics E) c c' : Ib p c = Ib p c' -> c = c'.
  Proof. intros H. injection H as H. exact H. Qed.
  Lemma Vc_inj (p : vc_Publics E) c c' : Vc p c = Vc p c' -> c = c'.
  Proof. intros H. injection H as H. exact H. Qed.
  Lemma Ce_inj (p : ce_Publics E) c c' : Ce p c = Ce p c' -> c = c'.
  Proof. intros H. injection H as H. exact H. Qed.

  Lemma make_eq t q os :
    exists x, make t q os = (x, left_by t (begun q (@blinding_source E t q os)), fun i => os (32 + i)%nat) /\
      (stands_for x = begun q (@blinding_source E t q os) <-> holds q \/ submitted_challenge x = 0) /\
      (holds q -> fst (check t x) = Ok tt).
  Proof using L.
    destruct q as [p s|p s|p s|p s|p s]; cbn [make begun holds].
    - unfold ir_create_left. cbv zeta. rewrite ir_randomness_blocks. cbv beta iota zeta.
      rewrite ir_create_leaves. eexists. split; [reflexivity|]. cbn [stands_for submitted_challenge check].
      match goal with |- context [ir_create_with _ p s ?r] => set (rand := r) end. split.
      + rewrite <- (ir_meet t p s rand). split; [apply Ir_inj|intros ->; reflexivity].
      + intros R. apply (ir_complete L). exact R.
    - unfold ab_create_left. cbv zeta. rewrite ab_randomness_blocks. cbv beta iota zeta.
      rewrite ab_create_leaves. eexists. split; [reflexivity|]. cbn [stands_for submitted_challenge check].
      match goal with |- context [ab_create_with _ p s ?r] => set (rand := r) end. split.
      + rewrite <- (ab_meet t p s rand). split; [apply Ab_inj|intros ->; reflexivity].
      + intros R. apply (ab_complete L). exact R.
    - unfold ib_create_left. cbv zeta. rewrite ib_randomness_blocks. cbv beta iota zeta.
      rewrite ib_create_leaves. eexists. split; [reflexivity|]. cbn [stands_for submitted_challenge check].
      match goal with |- context [ib_create_with _ p s ?r] => set (rand := r) end. split.
      + rewrite <- (ib_meet t p s rand). split; [apply Ib_inj|intros ->; reflexivity].
      + intros R. apply (ib_complete L). exact R.
    - unfold vc_create_left. cbv zeta. rewrite vc_randomness_blocks. cbv beta iota zeta.
      rewrite vc_create_leaves. eexists. split; [reflexivity|]. cbn [stands_for submitted_challenge check].
      match goal with |- context [vc_create_with _ p s ?r] => set (rand := r) end. split.
      + rewrite <- (vc_meet t p s rand). split; [apply Vc_inj|intros ->; reflexivity].
      + intros R. apply (vc_complete L). exact R.
    - unfold ce_create_left. cbv zeta. rewrite ce_randomness_blocks. cbv beta iota zeta.
      rewrite ce_create_leaves. eexists. split; [reflexivity|]. cbn [stands_for submitted_challenge check].
      match goal with |- context [ce_create_with _ p s ?r] => set (rand := r) end. split.
      + rewrite <- (ce_meet t p s rand). split; [apply Ce_inj|intros ->; reflexivity].
      + intros R. apply (ce_complete L). exact R.
  Qed.
  Lemma check_leaves t (x : submitted E) : snd (check t x) = left_by t (stands_for x).
  Proof.
    destruct x as [pf p|pf p|pf p|pf p|pf p]; cbn [check stands_for].
    - apply ir_verify_leaves.
    - apply ab_verify_leaves.
    - apply ib_verify_leaves.
    - apply vc_verify_leaves.
    - apply ce_verify_leaves.
  Qed.
  Lemma check_iff t (x : submitted E) :
    fst (check t x) = Ok tt <-> submitted_challenge x = @challenge_of E (extend t (statement_messages (stands_for x))).
  Proof.
    destruct x as [pf p|pf p|pf p|pf p|pf p]; cbn [check stands_for submitted_challenge statement_messages].
    - apply ir_verify_iff.
    - apply ab_verify_iff.
    - apply ib_verify_iff.
    - apply vc_verify_iff.
    - apply ce_verify_iff.
  Qed.
  Lemma left_by_extend t (s : statement E) : left_by t s = extend (extend t (statement_messages s)) [closing].
  Proof. unfold left_by. symmetry. apply extend_extend. Qed.
  Lemma left_by_inj t t' (s s' : statement E) : left_by t s = left_by t' s' -> t = t' /\ s = s'.
  Proof using L.
    rewrite !left_by_extend. intros H. apply extend_inj in H as [H _]; [|reflexivity].
    apply (statement_transcript_inj L) in H. exact H.
  Qed.
  Lemma left_by_longer t (s : statement E) : snd (left_by t s) <> [].
  Proof. unfold left_by, extend. cbn [snd]. destruct (snd t); destruct (statement_messages s); discriminate. Qed.
  Lemma all_left_inj l l' (ss ss' : list (statement E)) :
    fold_left left_by ss (transcript_new l) = fold_left left_by ss' (transcript_new l') -> l = l' /\ ss = ss'.
  Proof using L.
    revert ss'. induction ss as [|s ss IH] using rev_ind; intros ss'.
    - destruct ss' as [|s' ss' _] using rev_ind; cbn [fold_left].
      + intros H. injection H as <-. auto.
      + rewrite fold_left_app. cbn [fold_left]. intros H. exfalso. eapply left_by_longer. rewrite <- H. reflexivity.
    - destruct ss' as [|s' ss' _] using rev_ind; rewrite ?fold_left_app; cbn [fold_left].
      + intros H. exfalso. eapply left_by_longer. rewrite H. reflexivity.
      + intros H. apply left_by_inj in H as [H ->]. apply IH in H as [-> ->]. auto.
  Qed.
  Lemma check_cases t (x : submitted E) :
    (fst (check t x) = Ok tt /\ check t x = (Ok tt, left_by t (stands_for x))) \/
    (fst (check t x) <> Ok tt /\ forall u, fst (check t x) <> Ok u).
  Proof.
    destruct (check t x) as [r t'] eqn:H. pose proof (check_leaves t x) as K. rewrite H in K. cbn [snd] in K. subst t'.
    cbn [fst]. destruct r as [[]|e|]; [left; auto| |]; right; split; intros; discriminate.
  Qed.
  Lemma check_all_app t (xs ys : list (submitted E)) :
    check_all t (xs ++ ys) = match check_all t xs with Some t => check_all t ys | None => None end.
  Proof.
    revert t. induction xs as [|x xs IH]; intros t; [reflexivity|]. cbn [app check_all].
    destruct (check t x) as [[u|e|] t']; [apply IH|reflexivity|reflexivity].
  Qed.
  Lemma check_all_left t (xs : list (submitted E)) t' :
    check_all t xs = Some t' -> t' = fold_left left_by (map stands_for xs) t.
  Proof.
    revert t. induction xs as [|x xs IH]; intros t; cbn [check_all map fold_left]; [intros H; injection H as <-; reflexivity|].
    destruct (check_cases t x) as [[_ H]|[_ H]].
    - rewrite H. apply IH.
    - destruct (check t x) as [[u|e|] t'']; [exfalso; apply (H u); reflexivity|discriminate|discriminate].
  Qed.
End Facts.

(** ** C113 *)

(** The functions with the transcript give the proofs and the answers of
    those without. *)
Theorem C113_same_results : forall E, ExtLaws E -> forall t os,
  (forall (p : ir_Publics E) s pf t' os', ir_create_left t p s os = (pf, t', os') -> ir_create t p s os = (pf, os')) /\
  (forall pf (p : ir_Publics E), fst (ir_verify_left pf t p) = ir_verify pf t p) /\
  (forall (p : ab_Publics E) s pf t' os', ab_create_left t p s os = (pf, t', os') -> ab_create t p s os = (pf, os')) /\
  (forall pf (p : ab_Publics E), fst (ab_verify_left pf t p) = ab_verify pf t p) /\
  (forall (p : ib_Publics E) s pf t' os', ib_create_left t p s os = (pf, t', os') -> ib_create t p s os = (pf, os')) /\
  (forall pf (p : ib_Publics E), fst (ib_verify_left pf t p) = ib_verify pf t p) /\
  (forall (p : vc_Publics E) s pf t' os', vc_create_left t p s os = (pf, t', os') -> vc_create t p s os = (pf, os')) /\
  (forall pf (p : vc_Publics E), fst (vc_verify_left pf t p) = vc_verify pf t p) /\
  (forall (p : ce_Publics E) s pf t' os', ce_create_left t p s os = (pf, t', os') -> ce_create t p s os = (pf, os')) /\
  (forall pf (p : ce_Publics E), fst (ce_verify_left pf t p) = ce_verify pf t p).
Proof.
  intros E L t os. repeat split; intros; try reflexivity;
    unfold ir_create, ab_create, ib_create, vc_create, ce_create,
      ir_create_left, ab_create_left, ib_create_left, vc_create_left, ce_create_left in *; cbv zeta in *;
    match goal with H : (let (_, _) := ?r in _) = _ |- _ => destruct r end; injection H as <- _ <-; reflexivity.
Qed.
Print Assumptions C113_same_results.

(** A prover leaves the statement, its commitments and a taken challenge
    behind, whether or not its secrets are right. *)
Theorem C113_prover_leaves : forall E, ExtLaws E -> forall t (q : proving E) os,
  snd (fst (make t q os)) = left_by t (begun q (blinding_source t q os)).
Proof. intros E L t q os. destruct (make_eq L t q os) as (x & H & _). rewrite H. reflexivity. Qed.
Print Assumptions C113_prover_leaves.

(** A verifier leaves the statement and the commitments the proof stands for,
    whether or not it accepts. *)
Theorem C113_verifier_leaves : forall E, ExtLaws E -> forall t (x : submitted E),
  snd (check t x) = left_by t (stands_for x).
Proof. exact (fun E _ => check_leaves). Qed.
Print Assumptions C113_verifier_leaves.

(** The two meet exactly when the secrets are right, or the challenge is zero. *)
Theorem C113_meet : forall E, ExtLaws E -> forall t (q : proving E) os x t' os',
  make t q os = (x, t', os') ->
  (snd (check t x) = t' <-> holds q \/ submitted_challenge x = 0).
Proof.
  intros E L t q os x t' os' H. destruct (make_eq L t q os) as (x0 & H0 & K & _).
  rewrite H0 in H. injection H as <- <- <-. rewrite <- K, check_leaves. split.
  - intros H. apply (left_by_inj L) in H as [_ H]. exact H.
  - intros ->. reflexivity.
Qed.
Print Assumptions C113_meet.

(** Any number of true statements, proved and checked in turn over one
    transcript: every check accepts, and both ends are left with the same
    transcript. *)
Theorem C113_sequence : forall E, ExtLaws E -> forall t (qs : list (proving E)) os xs t' os',
  Forall holds qs -> make_all t qs os = (xs, t', os') ->
  List.length xs = List.length qs /\ check_all t xs = Some t' /\
  forall i, os' i = os (32 * List.length qs + i)%nat.
Proof.
  intros E L t qs. revert t. induction qs as [|q qs IH]; intros t os xs t' os' R H; cbn [make_all] in H.
  - injection H as <- <- <-. auto.
  - inversion R as [|? ? Rq Rs]; subst. destruct (make_eq L t q os) as (x & Hx & K & A). rewrite Hx in H.
    destruct (make_all (left_by t (begun q (blinding_source t q os))) qs (fun i => os (32 + i)%nat)) as [[ys u] os''] eqn:Hm.
    injection H as <- <- <-. destruct (IH _ _ _ _ _ Rs Hm) as (Hl & Hc & Ho). split; [cbn; lia|]. split.
    + cbn [check_all]. destruct (check_cases t x) as [[_ Hk]|[Hk _]].
      * rewrite Hk. rewrite (proj2 K (or_introl Rq)). exact Hc.
      * exfalso. apply Hk, A, Rq.
    + intros i. rewrite Ho. f_equal. cbn [List.length]. lia.
Qed.
Print Assumptions C113_sequence.

(** What is left tells everything that was checked, in order. *)
Theorem C113_binds : forall E, ExtLaws E -> forall label label' (xs xs' : list (submitted E)) t,
  check_all (transcript_new label) xs = Some t -> check_all (transcript_new label') xs' = Some t ->
  label = label' /\ map stands_for xs = map stands_for xs'.
Proof.
  intros E L label label' xs xs' t H H'. apply check_all_left in H. apply check_all_left in H'.
  apply (all_left_inj L). congruence.
Qed.
Print Assumptions C113_binds.

(** A challenge accepted after two histories: the histories are the same, or
    the challenge function collides on the two transcripts. *)
Theorem C113_place : forall E, ExtLaws E -> forall label label' (xs xs' : list (submitted E)) x x' t t',
  check_all (transcript_new label) (xs ++ [x]) = Some t ->
  check_all (transcript_new label') (xs' ++ [x']) = Some t' ->
  submitted_challenge x = submitted_challenge x' ->
  (label = label' /\ map stands_for (xs ++ [x]) = map stands_for (xs' ++ [x'])) \/
  @challenge_collision E
    (extend (fold_left left_by (map stands_for xs) (transcript_new label)) (statement_messages (stands_for x)))
    (extend (fold_left left_by (map stands_for xs') (transcript_new label')) (statement_messages (stands_for x'))).
Proof.
  intros E L label label' xs xs' x x' t t' H H' C.
  assert (Hone : forall label (xs : list (submitted E)) x t, check_all (transcript_new label) (xs ++ [x]) = Some t ->
    submitted_challenge x = @challenge_of E (extend (fold_left left_by (map stands_for xs) (transcript_new label))
      (statement_messages (stands_for x)))).
  { clear. intros label xs x t H. rewrite check_all_app in H.
    destruct (check_all (transcript_new label) xs) as [u|] eqn:K; [|discriminate].
    apply check_all_left in K. subst u. cbn [check_all] in H. apply check_iff.
    match type of H with context [check ?u x] => destruct (check_cases u x) as [[A _]|[_ A]]; [exact A|] end.
    match type of H with context [check ?u x] => destruct (check u x) as [[v|e|] t''] end;
      [exfalso; apply (A v); reflexivity|discriminate|discriminate]. }
  apply Hone in H. apply Hone in H'.
  destruct (C38_one_challenge_one_statement E L _ _ _ _ (eq_trans (eq_sym H) (eq_trans C H'))) as [[K S]|K]; [left|right; exact K].
  apply (all_left_inj L) in K as [-> K]. rewrite !map_app, K. cbn [map]. rewrite S. auto.
Qed.
Print Assumptions C113_place.

(** ** A concrete case: two statements over one transcript *)
Definition sample_jobs : list (proving toy) :=
  [PCe sample_ce_publics sample_ce_secrets; PVc sample_vc_publics sample_vc_secrets].
Definition sample_made : list (submitted toy) * transcript * rng := make_all sample_transcript sample_jobs (toy_stream 1).
Example C113_met :
  Forall holds sample_jobs /\
  (exists t, check_all sample_transcript (fst (fst sample_made)) = Some t) /\
  is_ok (fst (check sample_transcript (fst (fst (make sample_transcript (PCe sample_ce_publics
    {| ces_m0 := 1; ces_z0 := 2; ces_z1 := 3 |}) (toy_stream 1)))))) = false /\
  match check_all sample_transcript (rev (fst (fst sample_made))) with None => true | Some _ => false end = true.
Proof.
  assert (H : Forall holds sample_jobs).
  { constructor; [exact sample_ce_relation|]. constructor; [exact sample_vc_relation|constructor]. }
  split; [exact H|]. split; [|split; vm_compute; reflexivity].
  destruct sample_made as [[xs t] os] eqn:M. exists t. apply (C113_sequence toy toy_laws _ _ _ _ _ _ H M).
Qed.
