(** Which accepted proofs can be changed into other accepted proofs. *)
From Verif Require Export ProofFacts.
From Coq Require Import Setoid.

Lemma canonical_eqm a b : canonical a -> canonical b -> a - b == 0 -> a = b.
Proof. intros Ha Hb H. apply eqm_canonical; [exact Ha|exact Hb|]. apply eqm_sub_0, H. Qed.
Lemma eqm_cancel_0 a k : ~ k == 0 -> a * k == 0 -> a == 0.
Proof. intros Hk H. apply eqm_mul_0 in H as [H|H]; [exact H|contradiction]. Qed.

Section malleability.
  Context {E : Ext} (L : ExtLaws E).

  Lemma nonzero_log k : smul k basepoint <> (pzero : point E) -> ~ k == 0.
  Proof. intros H K. apply H. apply (smul_zero_iff L); [apply (basepoint_nonzero E L)|exact K]. Qed.

  (** The response for [nonce] does not matter in attributes_blinded. *)
  Lemma ab_nonce_ignored c d e0 m0 n n' t (p : ab_Publics E) :
    ab_verify {| ab_challenge := c; ab_responses :=
        {| abs_d := d; abs_e0 := e0; abs_m0 := m0; abs_nonce := n |} |} t p =
    ab_verify {| ab_challenge := c; ab_responses :=
        {| abs_d := d; abs_e0 := e0; abs_m0 := m0; abs_nonce := n' |} |} t p.
  Proof. reflexivity. Qed.

  Ltac start HA HB :=
    repeat rewrite (padd_zero_r L) in *; dlogs L; apply nonzero_log in HA, HB;
    repeat match goal with
           | H : @eq (point _) _ _ |- _ =>
             to_base_in L H; apply (smul_base_iff L) in H; apply eqm_sub_0 in H
           end.
  (* [a1 = a2] because [(a1 - a2) * k == 0] follows from [H] *)
  Ltac same Hk H := apply canonical_eqm; [assumption|assumption|];
    apply (eqm_cancel_0 _ _ Hk); rewrite <- H; eqm_ring.

  Lemma ir_responses_unique (p : ir_Publics E) pf1 pf2 :
    irp_A p <> pzero -> irp_P p <> pzero ->
    ir_canonical (ir_responses pf1) -> ir_canonical (ir_responses pf2) ->
    ir_challenge pf1 = ir_challenge pf2 ->
    ir_recompute pf1 p = ir_recompute pf2 p ->
    pf1 = pf2 \/
    let d := irs_x0 (ir_responses pf1) - irs_x0 (ir_responses pf2) in
    let e := irs_x0_tilde (ir_responses pf2) - irs_x0_tilde (ir_responses pf1) in
    ~ d == 0 /\ smul d (irp_B p) = smul e (irp_A p).
  Proof.
    destruct p as [P Q Cx0 B A X1], pf1 as [c1 [a1 b1 d1 e1]], pf2 as [c [a2 b2 d2 e2]].
    unfold ir_canonical, ir_recompute; cbn. intros HA HP (Ha1 & Hb1 & Hd1 & He1) (Ha2 & Hb2 & Hd2 & He2) -> H.
    injection H as H0 H1 H2.
    start HA HP.
    assert (b1 = b2) as -> by same HA H2.
    destruct (Z.eq_dec a1 a2) as [->|Ha].
    - left. assert (e1 = e2) as -> by same HP H0.
      assert (d1 = d2) as -> by same HA H1. reflexivity.
    - right. split.
      + intros K. apply Ha. apply canonical_eqm; assumption.
      + to_base L. apply (smul_base_iff L). apply eqm_sub_0. rewrite <- H1. eqm_ring.
  Qed.

  Lemma ib_responses_unique (p : ib_Publics E) pf1 pf2 :
    ibp_A p <> pzero -> ibp_B p <> pzero ->
    ib_canonical (ib_responses pf1) -> ib_canonical (ib_responses pf2) ->
    ib_challenge pf1 = ib_challenge pf2 ->
    ib_recompute pf1 p = ib_recompute pf2 p ->
    pf1 = pf2 \/
    let d := ibs_x0 (ib_responses pf1) - ibs_x0 (ib_responses pf2) in
    let e := ibs_x0_tilde (ib_responses pf2) - ibs_x0_tilde (ib_responses pf1) in
    ~ d == 0 /\ smul d (ibp_B p) = smul e (ibp_A p).
  Proof.
    destruct p as [B A X0 X1 D P T00 T01 EQc EQe ea0 ea1],
      pf1 as [c1 [xt1 x1 y1 s1 b1 t1]], pf2 as [c [xt2 x2 y2 s2 b2 t2]].
    unfold ib_canonical, ib_recompute; cbn.
    intros HA HB (A1 & A2 & A3 & A4 & A5 & A6) (B1 & B2 & B3 & B4 & B5 & B6) -> H.
    injection H as H0 H1 H2 H3 H4 H5 H6.
    start HA HB.
    assert (y1 = y2) as -> by same HA H1.
    assert (b1 = b2) as -> by same HB H2.
    assert (t1 = t2) as -> by same HA H4.
    assert (s1 = s2) as -> by same HB H5.
    destruct (Z.eq_dec x1 x2) as [->|Hx].
    - left. assert (xt1 = xt2) as -> by same HA H0. reflexivity.
    - right. split.
      + intros K. apply Hx. apply canonical_eqm; assumption.
      + to_base L. apply (smul_base_iff L). apply eqm_sub_0. rewrite <- H0. eqm_ring.
  Qed.

  Lemma vc_responses_unique (p : vc_Publics E) pf1 pf2 :
    vcp_A p <> pzero ->
    vc_canonical (vc_responses pf1) -> vc_canonical (vc_responses pf2) ->
    vc_challenge pf1 = vc_challenge pf2 ->
    vc_recompute pf1 p = vc_recompute pf2 p ->
    pf1 = pf2 \/
    let d := vcs_m0 (vc_responses pf1) - vcs_m0 (vc_responses pf2) in
    let e := vcs_z0 (vc_responses pf2) - vcs_z0 (vc_responses pf1) in
    ~ d == 0 /\ smul d (vcp_P p) = smul e (vcp_A p).
  Proof.
    destruct p as [B A X0 P V Cm0], pf1 as [c1 [m1 z1 q1]], pf2 as [c [m2 z2 q2]].
    unfold vc_canonical, vc_recompute; cbn.
    intros HA (A1 & A2 & A3) (B1 & B2 & B3) -> H.
    injection H as H0 H1. pose proof HA as HA'.
    start HA HA'.
    destruct (Z.eq_dec m1 m2) as [->|Hm].
    - left. assert (z1 = z2) as -> by same HA H0.
      assert (q1 = q2) as -> by same HA H1. reflexivity.
    - right. split.
      + intros K. apply Hm. apply canonical_eqm; assumption.
      + to_base L. apply (smul_base_iff L). apply eqm_sub_0. rewrite <- H0. eqm_ring.
  Qed.

  Lemma ce_responses_unique (p : ce_Publics E) pf1 pf2 :
    cep_A p <> pzero -> cep_B p <> pzero ->
    ce_canonical (ce_responses pf1) -> ce_canonical (ce_responses pf2) ->
    ce_challenge pf1 = ce_challenge pf2 ->
    ce_recompute pf1 p = ce_recompute pf2 p ->
    pf1 = pf2 \/
    let d := ces_m0 (ce_responses pf1) - ces_m0 (ce_responses pf2) in
    let e := ces_z0 (ce_responses pf2) - ces_z0 (ce_responses pf1) in
    ~ d == 0 /\ smul d (cep_P p) = smul e (cep_A p).
  Proof.
    destruct p as [B A P Cm0 Cm1], pf1 as [c1 [m1 z1 q1]], pf2 as [c [m2 z2 q2]].
    unfold ce_canonical, ce_recompute; cbn.
    intros HA HB (A1 & A2 & A3) (B1 & B2 & B3) -> H.
    injection H as H0 H1.
    start HA HB.
    destruct (Z.eq_dec m1 m2) as [->|Hm].
    - left. assert (z1 = z2) as -> by same HA H0.
      assert (q1 = q2) as -> by same HB H1. reflexivity.
    - right. split.
      + intros K. apply Hm. apply canonical_eqm; assumption.
      + to_base L. apply (smul_base_iff L). apply eqm_sub_0. rewrite <- H0. eqm_ring.
  Qed.

End malleability.

Section collisions.
  Context {E : Ext} (L : ExtLaws E).

  Lemma statement_challenge_inj t t' (s s' : statement E) :
    @challenge_of E (extend t (statement_messages s)) = @challenge_of E (extend t' (statement_messages s')) ->
    (t = t' /\ s = s') \/
    @challenge_collision E (extend t (statement_messages s)) (extend t' (statement_messages s')).
  Proof.
    intros H.
    destruct (transcript_eq_dec (extend t (statement_messages s)) (extend t' (statement_messages s'))) as [K|K].
    - left. apply (statement_transcript_inj L), K.
    - right. split; assumption.
  Qed.


  Lemma ir_not_malleable t (p : ir_Publics E) pf1 pf2 :
    irp_A p <> pzero -> irp_P p <> pzero ->
    ir_canonical (ir_responses pf1) -> ir_canonical (ir_responses pf2) ->
    ir_verify pf1 t p = Ok tt -> ir_verify pf2 t p = Ok tt ->
    ir_challenge pf1 = ir_challenge pf2 ->
    pf1 = pf2 \/
    (let d := irs_x0 (ir_responses pf1) - irs_x0 (ir_responses pf2) in
     let e := irs_x0_tilde (ir_responses pf2) - irs_x0_tilde (ir_responses pf1) in
     ~ d == 0 /\ smul d (irp_B p) = smul e (irp_A p)) \/
    @challenge_collision E (extend t (ir_messages p (ir_recompute pf1 p)))
                           (extend t (ir_messages p (ir_recompute pf2 p))).
  Proof.
    intros HA HP C1 C2 V1 V2 Hc. apply ir_verify_iff in V1, V2.
    assert (K : @challenge_of E (extend t (ir_messages p (ir_recompute pf1 p))) =
                @challenge_of E (extend t (ir_messages p (ir_recompute pf2 p)))) by congruence.
    apply (statement_challenge_inj t t (Ir p (ir_recompute pf1 p)) (Ir p (ir_recompute pf2 p))) in K
      as [[_ K]|K]; [|auto].
    assert (K' : ir_recompute pf1 p = ir_recompute pf2 p)
      by (revert K; generalize (ir_recompute pf1 p) (ir_recompute pf2 p); congruence).
    destruct (ir_responses_unique L p pf1 pf2 HA HP C1 C2 Hc K'); auto.
  Qed.

  Lemma ib_not_malleable t (p : ib_Publics E) pf1 pf2 :
    ibp_A p <> pzero -> ibp_B p <> pzero ->
    ib_canonical (ib_responses pf1) -> ib_canonical (ib_responses pf2) ->
    ib_verify pf1 t p = Ok tt -> ib_verify pf2 t p = Ok tt ->
    ib_challenge pf1 = ib_challenge pf2 ->
    pf1 = pf2 \/
    (let d := ibs_x0 (ib_responses pf1) - ibs_x0 (ib_responses pf2) in
     let e := ibs_x0_tilde (ib_responses pf2) - ibs_x0_tilde (ib_responses pf1) in
     ~ d == 0 /\ smul d (ibp_B p) = smul e (ibp_A p)) \/
    @challenge_collision E (extend t (ib_messages p (ib_recompute pf1 p)))
                           (extend t (ib_messages p (ib_recompute pf2 p))).
  Proof.
    intros HA HP C1 C2 V1 V2 Hc. apply ib_verify_iff in V1, V2.
    assert (K : @challenge_of E (extend t (ib_messages p (ib_recompute pf1 p))) =
                @challenge_of E (extend t (ib_messages p (ib_recompute pf2 p)))) by congruence.
    apply (statement_challenge_inj t t (Ib p (ib_recompute pf1 p)) (Ib p (ib_recompute pf2 p))) in K
      as [[_ K]|K]; [|auto].
    assert (K' : ib_recompute pf1 p = ib_recompute pf2 p)
      by (revert K; generalize (ib_recompute pf1 p) (ib_recompute pf2 p); congruence).
    destruct (ib_responses_unique L p pf1 pf2 HA HP C1 C2 Hc K'); auto.
  Qed.

  Lemma vc_not_malleable t (p : vc_Publics E) pf1 pf2 :
    vcp_A p <> pzero ->
    vc_canonical (vc_responses pf1) -> vc_canonical (vc_responses pf2) ->
    vc_verify pf1 t p = Ok tt -> vc_verify pf2 t p = Ok tt ->
    vc_challenge pf1 = vc_challenge pf2 ->
    pf1 = pf2 \/
    (let d := vcs_m0 (vc_responses pf1) - vcs_m0 (vc_responses pf2) in
     let e := vcs_z0 (vc_responses pf2) - vcs_z0 (vc_responses pf1) in
     ~ d == 0 /\ smul d (vcp_P p) = smul e (vcp_A p)) \/
    @challenge_collision E (extend t (vc_messages p (vc_recompute pf1 p)))
                           (extend t (vc_messages p (vc_recompute pf2 p))).
  Proof.
    intros HA C1 C2 V1 V2 Hc. apply vc_verify_iff in V1, V2.
    assert (K : @challenge_of E (extend t (vc_messages p (vc_recompute pf1 p))) =
                @challenge_of E (extend t (vc_messages p (vc_recompute pf2 p)))) by congruence.
    apply (statement_challenge_inj t t (Vc p (vc_recompute pf1 p)) (Vc p (vc_recompute pf2 p))) in K
      as [[_ K]|K]; [|auto].
    assert (K' : vc_recompute pf1 p = vc_recompute pf2 p)
      by (revert K; generalize (vc_recompute pf1 p) (vc_recompute pf2 p); congruence).
    destruct (vc_responses_unique L p pf1 pf2 HA C1 C2 Hc K'); auto.
  Qed.

  Lemma ce_not_malleable t (p : ce_Publics E) pf1 pf2 :
    cep_A p <> pzero -> cep_B p <> pzero ->
    ce_canonical (ce_responses pf1) -> ce_canonical (ce_responses pf2) ->
    ce_verify pf1 t p = Ok tt -> ce_verify pf2 t p = Ok tt ->
    ce_challenge pf1 = ce_challenge pf2 ->
    pf1 = pf2 \/
    (let d := ces_m0 (ce_responses pf1) - ces_m0 (ce_responses pf2) in
     let e := ces_z0 (ce_responses pf2) - ces_z0 (ce_responses pf1) in
     ~ d == 0 /\ smul d (cep_P p) = smul e (cep_A p)) \/
    @challenge_collision E (extend t (ce_messages p (ce_recompute pf1 p)))
                           (extend t (ce_messages p (ce_recompute pf2 p))).
  Proof.
    intros HA HP C1 C2 V1 V2 Hc. apply ce_verify_iff in V1, V2.
    assert (K : @challenge_of E (extend t (ce_messages p (ce_recompute pf1 p))) =
                @challenge_of E (extend t (ce_messages p (ce_recompute pf2 p)))) by congruence.
    apply (statement_challenge_inj t t (Ce p (ce_recompute pf1 p)) (Ce p (ce_recompute pf2 p))) in K
      as [[_ K]|K]; [|auto].
    assert (K' : ce_recompute pf1 p = ce_recompute pf2 p)
      by (revert K; generalize (ce_recompute pf1 p) (ce_recompute pf2 p); congruence).
    destruct (ce_responses_unique L p pf1 pf2 HA HP C1 C2 Hc K'); auto.
  Qed.

  Lemma ab_malleable t (p : ab_Publics E) c d e0 m0 n n' :
    ab_verify {| ab_challenge := c; ab_responses :=
      {| abs_d := d; abs_e0 := e0; abs_m0 := m0; abs_nonce := n |} |} t p = Ok tt ->
    ab_verify {| ab_challenge := c; ab_responses :=
      {| abs_d := d; abs_e0 := e0; abs_m0 := m0; abs_nonce := n' |} |} t p = Ok tt.
  Proof. intros H. rewrite (ab_nonce_ignored c d e0 m0 n' n). exact H. Qed.

  Lemma ib_untied t os (p : ib_Publics E) s T :
    ib_relation p s ->
    let p' := {| ibp_B := ibp_B p; ibp_A := ibp_A p; ibp_X0 := ibp_X0 p; ibp_X1 := ibp_X1 p;
                 ibp_D := ibp_D p; ibp_P := ibp_P p; ibp_T0_0 := ibp_T0_0 p;
                 ibp_T0_1 := smul T (ibp_A p);
                 ibp_EQ_commitment := padd (smul (ibs_s s) (ibp_B p)) (smul T (ibp_encrypted_attribute_0_0 p));
                 ibp_EQ_encryption := padd (smul (ibs_s s) (ibp_D p)) (smul T (ibp_encrypted_attribute_0_1 p));
                 ibp_encrypted_attribute_0_0 := ibp_encrypted_attribute_0_0 p;
                 ibp_encrypted_attribute_0_1 := ibp_encrypted_attribute_0_1 p |} in
    let s' := {| ibs_x0_tilde := ibs_x0_tilde s; ibs_x0 := ibs_x0 s; ibs_x1 := ibs_x1 s;
                 ibs_s := ibs_s s; ibs_b := ibs_b s; ibs_t0 := T |} in
    ib_verify (fst (ib_create t p' s' os)) t p' = Ok tt.
  Proof.
    intros (R0 & R1 & R2 & R3 & R4 & R5 & R6) p' s'.
    apply (ib_create_complete L). repeat split; assumption || reflexivity.
  Qed.
  Lemma ib_tied (p : ib_Publics E) pf1 pf2 :
    ibp_T0_0 p = ibp_T0_1 p ->
    ~ ib_challenge pf1 == ib_challenge pf2 ->
    ib_recompute pf1 p = ib_recompute pf2 p ->
    let w := ib_extract pf1 pf2 in
    smul (ibs_b w) (ibp_X0 p) = smul (ibs_t0 w) (ibp_A p).
  Proof.
    intros HT Hc H w.
    destruct (ib_special_sound L p pf1 pf2 Hc H) as (_ & _ & _ & R3 & R4 & _).
    fold w in R3, R4. congruence.
  Qed.
End collisions.

Lemma inverse_exists a : 0 < a < ell -> exists b, 0 <= b < ell /\ (b * a) mod ell = 1.
Proof.
  intros Ha. exists (s_inv a). split; [apply s_inv_range|].
  assert (Hn : ~ a == 0).
  { intros H. unfold Algebra.eqm in H. rewrite (Z.mod_small a), (Z.mod_small 0) in H by lia. lia. }
  pose proof (s_inv_spec a Hn) as H. unfold Algebra.eqm in H. rewrite H.
  apply Z.mod_small. pose proof ell_gt_1; lia.
Qed.

From Verif Require Import Toy.
Local Open Scope string_scope.

Lemma ab_malleable_witness : exists E, ExtLaws E /\ exists t (p : ab_Publics E) pf pf',
  ab_canonical (ab_responses pf) /\ ab_canonical (ab_responses pf') /\
  ab_verify pf t p = Ok tt /\ ab_verify pf' t p = Ok tt /\ pf <> pf'.
Proof.
  exists toy. split; [apply toy_laws|].
  set (p := {| abp_B := tp 1 : point toy; abp_A := tp 5 : point toy; abp_D := smul 3 (tp 1 : point toy);
               abp_encrypted_attribute_0_0 := smul 4 (tp 1 : point toy);
               abp_encrypted_attribute_0_1 := padd (smul 8 (tp 1 : point toy)) (smul 4 (smul 3 (tp 1 : point toy))) |}).
  set (s := {| abs_d := 3; abs_e0 := 4; abs_m0 := 8; abs_nonce := 9 |}).
  set (r := {| abs_d := 30; abs_e0 := 40; abs_m0 := 80; abs_nonce := 90 |}).
  set (t := transcript_new "SAMPLE").
  assert (R : ab_relation p s) by (repeat split).
  pose proof (ab_complete toy_laws t p s r R) as V.
  assert (C : ab_canonical (ab_responses (ab_create_with (ab_create_absorb t p) p s r)))
    by (repeat split; apply mod_range).
  assert (N : abs_nonce (ab_responses (ab_create_with (ab_create_absorb t p) p s r)) <> 12345)
    by (vm_compute; discriminate).
  destruct (ab_create_with (ab_create_absorb t p) p s r) as [c [d e0 m0 n]].
  cbn in C, N. destruct C as (C1 & C2 & C3 & C4).
  exists t, p, {| ab_challenge := c; ab_responses := {| abs_d := d; abs_e0 := e0; abs_m0 := m0; abs_nonce := n |} |},
    {| ab_challenge := c; ab_responses := {| abs_d := d; abs_e0 := e0; abs_m0 := m0; abs_nonce := 12345 |} |}.
  split; [repeat split; first [apply C1|apply C2|apply C3|apply C4]|].
  split. { repeat split; first [apply C1|apply C2|apply C3|vm_compute; congruence]. }
  split; [exact V|]. split; [|congruence].
  exact (ab_malleable t p c d e0 m0 n 12345 V).
Qed.

Lemma ib_untied_witness : exists E, ExtLaws E /\ exists t (p : ib_Publics E) pf,
  ib_verify pf t p = Ok tt /\ ibp_T0_0 p <> ibp_T0_1 p.
Proof.
  exists toy. split; [apply toy_laws|].
  set (k n := tp n : point toy).
  set (p := {| ibp_B := k 1; ibp_A := k 2; ibp_X0 := padd (smul 3 (k 1)) (smul 4 (k 2)); ibp_X1 := smul 5 (k 2);
               ibp_D := k 7; ibp_P := smul 6 (k 1); ibp_T0_0 := smul 6 (padd (smul 3 (k 1)) (smul 4 (k 2)));
               ibp_T0_1 := smul 8 (k 2);
               ibp_EQ_commitment := padd (smul 9 (k 1)) (smul 8 (k 10));
               ibp_EQ_encryption := padd (smul 9 (k 7)) (smul 8 (k 11));
               ibp_encrypted_attribute_0_0 := k 10; ibp_encrypted_attribute_0_1 := k 11 |}).
  set (s := {| ibs_x0_tilde := 4; ibs_x0 := 3; ibs_x1 := 5; ibs_s := 9; ibs_b := 6; ibs_t0 := 8 |}).
  exists (transcript_new "SAMPLE"), p, (fst (ib_create (transcript_new "SAMPLE") p s (toy_stream 1))).
  split; [apply (ib_create_complete toy_laws); repeat split|].
  intros H. apply (f_equal tv) in H. vm_compute in H. discriminate.
Qed.
