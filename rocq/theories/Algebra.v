(** Reasoning about the group: every point is a multiple of the basepoint, and
    equations between points are congruences modulo [ell]. *)
From Verif Require Export External PrimeL.
From Coq Require Export Znumtheory.
From Coq Require Import Setoid Morphisms.

Lemma ell_pos : 0 < ell.
Proof. reflexivity. Qed.
Lemma ell_gt_1 : 1 < ell.
Proof. reflexivity. Qed.
Lemma ell_lt_255 : ell < 2 ^ 255.
Proof. reflexivity. Qed.
Lemma ell_lt_256 : ell < 256 ^ 32.
Proof. reflexivity. Qed.
Lemma ell_gt_252 : 2 ^ 252 < ell.
Proof. reflexivity. Qed.
Global Opaque ell.
Global Hint Resolve ell_pos ell_gt_1 : core.

(** ** Congruence modulo [ell] *)
Definition eqm (a b : Z) : Prop := a mod ell = b mod ell.
Infix "==" := eqm (at level 70, no associativity) : Z_scope.

Global Instance eqm_equiv : Equivalence eqm.
Proof. unfold eqm; split; red; congruence. Qed.
Global Instance eqm_add : Proper (eqm ==> eqm ==> eqm) Z.add.
Proof. intros a b H c d K; unfold eqm in *. rewrite Zplus_mod, H, K, <- Zplus_mod; reflexivity. Qed.
Global Instance eqm_mul : Proper (eqm ==> eqm ==> eqm) Z.mul.
Proof. intros a b H c d K; unfold eqm in *. rewrite Zmult_mod, H, K, <- Zmult_mod; reflexivity. Qed.
Global Instance eqm_sub : Proper (eqm ==> eqm ==> eqm) Z.sub.
Proof. intros a b H c d K; unfold eqm in *. rewrite Zminus_mod, H, K, <- Zminus_mod; reflexivity. Qed.
Global Instance eqm_opp : Proper (eqm ==> eqm) Z.opp.
Proof.
  intros a b H. rewrite <- !Z.sub_0_l. rewrite H. reflexivity.
Qed.

Lemma eqm_mod a : a mod ell == a.
Proof. unfold eqm. apply Zmod_mod. Qed.
Lemma eqm_s_add a b : s_add a b == a + b.
Proof. apply eqm_mod. Qed.
Lemma eqm_s_mul a b : s_mul a b == a * b.
Proof. apply eqm_mod. Qed.
Lemma eqm_s_neg a : s_neg a == - a.
Proof. apply eqm_mod. Qed.
Lemma eqm_refl a : a == a.
Proof. reflexivity. Qed.
Lemma eqm_of_eq a b : a = b -> a == b.
Proof. intros ->; reflexivity. Qed.

Lemma eqm_sub_0 a b : a == b <-> a - b == 0.
Proof.
  split; intros H.
  - rewrite H. apply eqm_of_eq; ring.
  - assert (E : a - b + b == 0 + b) by (rewrite H; reflexivity).
    transitivity (a - b + b); [apply eqm_of_eq; ring|].
    rewrite E. apply eqm_of_eq; ring.
Qed.

Lemma eqm_0_divide a : a == 0 <-> (ell | a).
Proof.
  unfold eqm. rewrite Z.mod_0_l by (pose proof ell_pos; lia).
  split; intros H.
  - apply Z.mod_divide; [pose proof ell_pos; lia|assumption].
  - apply Z.mod_divide in H; [assumption|pose proof ell_pos; lia].
Qed.

Lemma eqm_canonical a b : 0 <= a < ell -> 0 <= b < ell -> a == b -> a = b.
Proof. intros Ha Hb H. unfold eqm in H. rewrite !Z.mod_small in H; assumption. Qed.

Lemma eqm_mul_0 a b : a * b == 0 -> a == 0 \/ b == 0.
Proof.
  rewrite !eqm_0_divide. apply prime_mult. apply prime_ell.
Qed.

Lemma eqm_mul_cancel a b c : ~ c == 0 -> a * c == b * c -> a == b.
Proof.
  intros Hc H. apply eqm_sub_0. apply eqm_sub_0 in H.
  assert (E : (a - b) * c == 0) by (rewrite <- H; apply eqm_of_eq; ring).
  apply eqm_mul_0 in E as [E|E]; [assumption|contradiction].
Qed.

(** Inverses modulo [ell]. *)
Definition s_inv (a : Z) : Z := powmod ell (ell - 2) (a mod ell).

Lemma s_inv_spec a : ~ a == 0 -> s_inv a * a == 1.
Proof.
  intros Ha. unfold s_inv.
  rewrite powmod_spec; [|apply ell_pos|pose proof ell_gt_252; lia].
  rewrite eqm_mod. rewrite <- (eqm_mod a) at 2.
  assert (E : (a mod ell) ^ (ell - 2) * (a mod ell) = (a mod ell) ^ (ell - 1)).
  { replace (ell - 1) with (Z.succ (ell - 2)) by lia.
    rewrite Z.pow_succ_r by (pose proof ell_gt_252; lia). ring. }
  rewrite E. unfold eqm. rewrite Fermat.fermat_Z1.
  - symmetry; apply Z.mod_small; pose proof ell_gt_1; lia.
  - apply prime_ell.
  - apply Z.mod_pos_bound, ell_pos.
  - rewrite Zmod_mod. intros E2. apply Ha. unfold eqm. rewrite E2.
    rewrite Z.mod_0_l; [reflexivity|pose proof ell_pos; lia].
Qed.

Lemma s_inv_range a : 0 <= s_inv a < ell.
Proof.
  unfold s_inv. rewrite powmod_spec; [|apply ell_pos|pose proof ell_gt_252; lia].
  apply Z.mod_pos_bound, ell_pos.
Qed.

(** Ranges *)
Lemma mod_range a : 0 <= a mod ell < ell.
Proof. apply Z.mod_pos_bound, ell_pos. Qed.
Lemma s_add_range a b : 0 <= s_add a b < ell.
Proof. apply mod_range. Qed.
Lemma s_mul_range a b : 0 <= s_mul a b < ell.
Proof. apply mod_range. Qed.
Lemma s_neg_range a : 0 <= s_neg a < ell.
Proof. apply mod_range. Qed.

(** Solve congruences: remove inner reductions, then [ring]. *)
Ltac eqm_push :=
  repeat first [ rewrite eqm_s_add | rewrite eqm_s_mul | rewrite eqm_s_neg | rewrite eqm_mod ].
Ltac zring := unfold scalar in *; ring.
Ltac eqm_ring := eqm_push; apply eqm_of_eq; zring.

(** ** The group *)
Section group.
  Context {E : Ext} (L : ExtLaws E).
  Implicit Types (P Q : point E).

  Lemma padd_zero_r P : padd P pzero = P.
  Proof. rewrite (padd_comm E L). apply (padd_zero E L). Qed.
  Lemma padd_cancel_l P Q R : padd P Q = padd P R -> Q = R.
  Proof.
    intros H. rewrite <- (padd_zero E L Q), <- (padd_zero E L R).
    rewrite <- (padd_pneg E L P). rewrite (padd_comm E L P (pneg P)).
    rewrite <- !(padd_assoc E L). rewrite H. reflexivity.
  Qed.
  Lemma pneg_unique P Q : padd P Q = pzero -> Q = pneg P.
  Proof. intros H. apply (padd_cancel_l P). rewrite (padd_pneg E L). assumption. Qed.
  Lemma padd_swap a b c d : padd (padd a b) (padd c d) = padd (padd a c) (padd b d) :> point E.
  Proof.
    rewrite !(padd_assoc E L). f_equal. rewrite <- !(padd_assoc E L). f_equal.
    apply (padd_comm E L).
  Qed.

  Lemma pmul_pos_succ p P : pmul_pos (Pos.succ p) P = padd P (pmul_pos p P).
  Proof.
    revert P; induction p as [p IH|p IH|]; intros P; cbn [Pos.succ pmul_pos].
    - rewrite IH. rewrite (padd_assoc E L). reflexivity.
    - reflexivity.
    - reflexivity.
  Qed.
  Lemma pmul_pos_add p q P : pmul_pos (p + q) P = padd (pmul_pos p P) (pmul_pos q P).
  Proof.
    induction p as [|p IH] using Pos.peano_ind.
    - rewrite Pos.add_1_l, pmul_pos_succ. reflexivity.
    - rewrite Pos.add_succ_l, !pmul_pos_succ, IH. apply (padd_assoc E L).
  Qed.

  Lemma smul_succ k P : smul (Z.succ k) P = padd P (smul k P).
  Proof.
    destruct k as [|p|p].
    - cbn. rewrite padd_zero_r; reflexivity.
    - rewrite <- Pos2Z.inj_succ. cbn [smul]. apply pmul_pos_succ.
    - destruct p as [|p _] using Pos.peano_ind.
      + cbn. symmetry; apply (padd_pneg E L).
      + replace (Z.succ (Zneg (Pos.succ p))) with (Zneg p) by lia.
        cbn [smul]. rewrite pmul_pos_succ.
        symmetry. apply pneg_unique.
        rewrite (padd_assoc E L). rewrite (padd_comm E L (pmul_pos p P)).
        apply (padd_pneg E L).
  Qed.
  Lemma smul_pred k P : smul (Z.pred k) P = padd (pneg P) (smul k P).
  Proof.
    rewrite <- (Z.succ_pred k) at 2. rewrite smul_succ.
    rewrite (padd_assoc E L). rewrite (padd_comm E L (pneg P)), (padd_pneg E L).
    symmetry; apply (padd_zero E L).
  Qed.
  Lemma smul_0 P : smul 0 P = pzero.
  Proof. reflexivity. Qed.
  Lemma smul_1 P : smul 1 P = P.
  Proof. reflexivity. Qed.

  Lemma smul_add a b P : smul (a + b) P = padd (smul a P) (smul b P).
  Proof.
    induction a as [|a IH|a IH] using Z.peano_ind.
    - rewrite Z.add_0_l, smul_0, (padd_zero E L). reflexivity.
    - rewrite Z.add_succ_l, !smul_succ, IH. apply (padd_assoc E L).
    - rewrite Z.add_pred_l, !smul_pred, IH. apply (padd_assoc E L).
  Qed.
  Lemma smul_opp a P : smul (- a) P = pneg (smul a P).
  Proof. apply pneg_unique. rewrite <- smul_add, Z.add_opp_diag_r. reflexivity. Qed.
  Lemma smul_sub a b P : smul (a - b) P = psub (smul a P) (smul b P).
  Proof. unfold psub. rewrite <- smul_opp, <- smul_add. reflexivity. Qed.
  Lemma smul_mul a b P : smul (a * b) P = smul a (smul b P).
  Proof.
    induction a as [|a IH|a IH] using Z.peano_ind.
    - reflexivity.
    - rewrite Z.mul_succ_l, Z.add_comm, smul_add, IH, smul_succ. reflexivity.
    - rewrite Z.mul_pred_l, smul_pred, <- IH, smul_sub. unfold psub.
      apply (padd_comm E L).
  Qed.
  Lemma smul_pzero a : smul a (@pzero E) = pzero.
  Proof. rewrite <- (smul_0 basepoint), <- smul_mul, Z.mul_0_r. reflexivity. Qed.
  Lemma smul_padd a P Q : smul a (padd P Q) = padd (smul a P) (smul a Q).
  Proof.
    induction a as [|a IH|a IH] using Z.peano_ind.
    - cbn. symmetry; apply (padd_zero E L).
    - rewrite !smul_succ, IH. apply padd_swap.
    - rewrite !smul_pred, IH.
      assert (H : pneg (padd P Q) = padd (pneg P) (pneg Q)).
      { symmetry; apply pneg_unique. rewrite padd_swap, !(padd_pneg E L). apply (padd_zero E L). }
      rewrite H. apply padd_swap.
  Qed.
  Lemma smul_mod a P : smul (a mod ell) P = smul a P.
  Proof.
    rewrite (Z.div_mod a ell) at 2 by (pose proof ell_pos; lia).
    rewrite smul_add, Z.mul_comm, smul_mul, (smul_ell E L), smul_pzero.
    symmetry; apply (padd_zero E L).
  Qed.
  Lemma smul_eqm a b P : a == b -> smul a P = smul b P.
  Proof. intros H. rewrite <- (smul_mod a), <- (smul_mod b), H. reflexivity. Qed.

  (** Multiples of a non-zero point are distinct modulo [ell]. *)
  Lemma smul_zero_iff k P : P <> pzero -> (smul k P = pzero <-> k == 0).
  Proof.
    intros HP. split; intros H.
    - destruct (Z.eq_dec (k mod ell) 0) as [E0|E0].
      { unfold eqm; rewrite E0; symmetry; apply Z.mod_0_l; pose proof ell_pos; lia. }
      exfalso. apply HP.
      assert (Hk : ~ k == 0).
      { intros E1. apply E0. unfold eqm in E1. rewrite E1. apply Z.mod_0_l.
        pose proof ell_pos; lia. }
      rewrite <- (smul_1 P). rewrite <- (smul_eqm _ _ P (s_inv_spec k Hk)).
      rewrite smul_mul, H. apply smul_pzero.
    - rewrite (smul_eqm _ _ P H). reflexivity.
  Qed.
  Lemma smul_inj a b P : P <> pzero -> (smul a P = smul b P <-> a == b).
  Proof.
    intros HP. rewrite (eqm_sub_0 a b), <- (smul_zero_iff _ P HP), smul_sub. unfold psub.
    split; intros H.
    - rewrite H. apply (padd_pneg E L).
    - apply (padd_cancel_l (pneg (smul b P))).
      rewrite (padd_comm E L _ (smul b P)), (padd_pneg E L).
      rewrite (padd_comm E L). assumption.
  Qed.

  Definition smul_base_iff a b : smul a basepoint = smul b (@basepoint E) <-> a == b :=
    smul_inj a b basepoint (basepoint_nonzero E L).

  Lemma pzero_base : @pzero E = smul 0 basepoint.
  Proof. reflexivity. Qed.
  Lemma smul_base_nonzero k : smul k (@basepoint E) <> pzero <-> ~ k == 0.
  Proof. rewrite (smul_zero_iff k basepoint (basepoint_nonzero E L)). reflexivity. Qed.

  Lemma peqb_true P Q : peqb P Q = true <-> P = Q.
  Proof. apply (peqb_spec E L). Qed.
  Lemma peqb_false P Q : peqb P Q = false <-> P <> Q.
  Proof. rewrite <- peqb_true. destruct (peqb P Q); split; congruence. Qed.
  Lemma peqb_refl P : peqb P P = true.
  Proof. apply peqb_true; reflexivity. Qed.
  Lemma point_eq_dec P Q : {P = Q} + {P <> Q}.
  Proof.
    destruct (peqb P Q) eqn:H; [left; apply peqb_true|right; apply peqb_false]; assumption.
  Qed.

  Lemma compress_inj P Q : compress P = compress Q -> P = Q.
  Proof.
    intros H. pose proof (decompress_compress E L P) as H1.
    rewrite H, (decompress_compress E L Q) in H1. congruence.
  Qed.

  Lemma padd_base a b : padd (smul a basepoint) (smul b (@basepoint E)) = smul (a + b) basepoint.
  Proof. symmetry; apply smul_add. Qed.
  Lemma psub_base a b : psub (smul a basepoint) (smul b (@basepoint E)) = smul (a - b) basepoint.
  Proof. symmetry; apply smul_sub. Qed.
  Lemma pneg_base a : pneg (smul a (@basepoint E)) = smul (- a) basepoint.
  Proof. symmetry; apply smul_opp. Qed.
  Lemma smul_base a b : smul a (smul b (@basepoint E)) = smul (a * b) basepoint.
  Proof. symmetry; apply smul_mul. Qed.
End group.

(** Write every point of the context as a multiple of the basepoint. *)
Ltac dlog1 L P :=
  let k := fresh "k" in
  let H := fresh "Hk" in
  destruct (basepoint_generates _ L P) as [k H]; subst P.
Ltac dlogs L :=
  repeat match goal with
         | P : point _ |- _ => dlog1 L P
         end.

(** Normalise closed expressions over multiples of the basepoint. *)
Ltac to_base L :=
  repeat first
    [ rewrite (padd_base L) | rewrite (psub_base L) | rewrite (pneg_base L)
    | rewrite (smul_base L) | rewrite pzero_base
    | rewrite (padd_zero _ L) | rewrite (padd_zero_r L) ].
Ltac to_base_in L H :=
  repeat first
    [ rewrite (padd_base L) in H | rewrite (psub_base L) in H | rewrite (pneg_base L) in H
    | rewrite (smul_base L) in H | rewrite pzero_base in H
    | rewrite (padd_zero _ L) in H | rewrite (padd_zero_r L) in H ].
(** Prove an equation between points which holds because of the exponents. *)
Ltac pring L := dlogs L; to_base L; apply (smul_base_iff L); eqm_ring.
