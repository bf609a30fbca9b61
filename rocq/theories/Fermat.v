(** Fermat's little theorem for [Znumtheory.prime]: multiplication by a unit
    permutes the residues 1 .. p-1. *)
From Coq Require Import ZArith Znumtheory Lia List Permutation.
Local Open Scope Z_scope.

Definition residues (p : Z) : list Z := map Z.of_nat (seq 1 (Z.to_nat (p - 1))).
Definition product (l : list Z) : Z := fold_right Z.mul 1 l.

Lemma in_residues p x : In x (residues p) <-> 0 < x < p.
Proof.
  unfold residues. rewrite in_map_iff. split.
  - intros (n & <- & H). apply in_seq in H. lia.
  - intros H. exists (Z.to_nat x). split; [lia|]. apply in_seq. lia.
Qed.
Lemma residues_nodup p : NoDup (residues p).
Proof.
  apply FinFun.Injective_map_NoDup; [|apply seq_NoDup].
  intros a b H. lia.
Qed.
Lemma residues_length p : 1 < p -> Z.of_nat (length (residues p)) = p - 1.
Proof. intros H. unfold residues. rewrite map_length, seq_length. lia. Qed.

Lemma product_permutation l l' : Permutation l l' -> product l = product l'.
Proof.
  induction 1 as [|x l l' _ IH|x y l|l l' l'' _ IH1 _ IH2]; unfold product in *; cbn [fold_right] in *.
  - reflexivity.
  - rewrite IH; reflexivity.
  - ring.
  - congruence.
Qed.
Lemma product_scaled p a l : 0 < p ->
  product (map (fun i => (a * i) mod p) l) mod p = (a ^ Z.of_nat (length l) * product l) mod p.
Proof.
  intros Hp. induction l as [|x l IH]; [reflexivity|]. cbn [map product fold_right].
  change (fold_right Z.mul 1 ?l) with (product l).
  rewrite Z.mul_mod_idemp_l, <- Z.mul_mod_idemp_r, IH, Z.mul_mod_idemp_r by lia.
  cbn [length]. rewrite Nat2Z.inj_succ, Z.pow_succ_r by lia. f_equal. ring.
Qed.
Lemma product_unit p l : prime p -> (forall x, In x l -> 0 < x < p) -> ~ (p | product l).
Proof.
  intros Hp. assert (1 < p) by (destruct Hp; assumption).
  induction l as [|x l IH]; intros H' Hd; cbn [product fold_right] in Hd.
  - apply Z.divide_pos_le in Hd; lia.
  - apply prime_mult in Hd as [Hd|Hd]; [|apply IH; [intros y Hy; apply H'; right; exact Hy|exact Hd]|exact Hp].
    specialize (H' x (or_introl eq_refl)). apply Z.divide_pos_le in Hd; lia.
Qed.

Lemma scaled_residues p a : prime p -> ~ (p | a) ->
  Permutation (map (fun i => (a * i) mod p) (residues p)) (residues p).
Proof.
  intros Hp Ha. assert (H1 : 1 < p) by (destruct Hp; assumption).
  apply NoDup_Permutation_bis.
  - assert (H : forall l, NoDup l -> (forall x, In x l -> 0 < x < p) ->
                NoDup (map (fun i => (a * i) mod p) l)).
    { induction l as [|x l IH]; intros Hn Hr; cbn [map]; constructor.
      - intros Hi. apply in_map_iff in Hi as (y & Hy & Hin).
        inversion Hn as [|? ? Hni Hn']; subst.
        assert (Hx := Hr x (or_introl eq_refl)). assert (Hy' := Hr y (or_intror Hin)).
        assert (Hd : (p | a * (y - x))).
        { apply Z.mod_divide; [lia|]. rewrite Z.mul_sub_distr_l, Zminus_mod, Hy, Z.sub_diag.
          apply Z.mod_0_l; lia. }
        apply prime_mult in Hd as [Hd|Hd]; [contradiction| |exact Hp].
        assert (y = x); [|subst; contradiction].
        destruct Hd as [k Hk]. assert (k = 0) by nia. nia.
      - apply IH; [inversion Hn; assumption|intros y Hy; apply Hr; right; exact Hy]. }
    apply H; [apply residues_nodup|intros x Hx; apply in_residues; exact Hx].
  - rewrite map_length. lia.
  - intros x Hx. apply in_map_iff in Hx as (i & <- & Hi). apply in_residues in Hi.
    apply in_residues. pose proof (Z.mod_pos_bound (a * i) p ltac:(lia)) as Hb.
    assert (Hn : (a * i) mod p <> 0); [|lia].
    intros E. apply Z.mod_divide in E; [|lia].
    apply prime_mult in E as [E|E]; [contradiction| |exact Hp].
    apply Z.divide_pos_le in E; lia.
Qed.

Theorem fermat_Z1 (p a : Z) :
  prime p -> 0 <= a -> a mod p <> 0 -> (a ^ (p - 1)) mod p = 1.
Proof.
  intros Hp Ha Hn. assert (H1 : 1 < p) by (destruct Hp; assumption).
  assert (Hd : ~ (p | a)) by (intros H; apply Hn; apply Z.mod_divide; [lia|exact H]).
  pose proof (product_scaled p a (residues p) ltac:(lia)) as H.
  rewrite (product_permutation _ _ (scaled_residues p a Hp Hd)), residues_length in H by exact H1.
  assert (Hm : (p | product (residues p) * (a ^ (p - 1) - 1))).
  { apply Z.mod_divide; [lia|]. rewrite Z.mul_sub_distr_l, Z.mul_1_r, Zminus_mod.
    rewrite (Z.mul_comm (product _)), <- H, Z.sub_diag. apply Z.mod_0_l; lia. }
  apply prime_mult in Hm as [Hm|Hm]; [| |exact Hp].
  - exfalso. apply (product_unit p (residues p) Hp); [|exact Hm].
    intros x Hx; apply in_residues; exact Hx.
  - destruct Hm as [k Hk]. replace (a ^ (p - 1)) with (1 + k * p) by lia.
    rewrite Z_mod_plus_full. apply Z.mod_small; lia.
Qed.
