(** Polynomials modulo [ell] and how many zeros they have. *)
From Verif Require Export Algebra.
From Coq Require Import Setoid.
From Coq Require Export List.
Export ListNotations.
Local Open Scope Z_scope.

(** ** In one variable: a list of coefficients, lowest first *)
Fixpoint peval (cs : list Z) (x : Z) : Z :=
  match cs with
  | [] => 0
  | c :: cs' => c + x * peval cs' x
  end.

(** Division by [X - r]. *)
Fixpoint pdiv (cs : list Z) (r : Z) : list Z :=
  match cs with
  | [] => []
  | _ :: cs' => match cs' with [] => [] | _ => peval cs' r :: pdiv cs' r end
  end.
Lemma pdiv_spec cs r x : peval cs x = (x - r) * peval (pdiv cs r) x + peval cs r.
Proof.
  induction cs as [|c cs IH]; [cbn; ring|]. destruct cs as [|d cs]; [cbn; ring|].
  change (peval (c :: d :: cs) x) with (c + x * peval (d :: cs) x).
  change (peval (c :: d :: cs) r) with (c + r * peval (d :: cs) r).
  change (pdiv (c :: d :: cs) r) with (peval (d :: cs) r :: pdiv (d :: cs) r).
  change (peval (peval (d :: cs) r :: pdiv (d :: cs) r) x)
    with (peval (d :: cs) r + x * peval (pdiv (d :: cs) r) x).
  assert (H : x * peval (d :: cs) x = x * ((x - r) * peval (pdiv (d :: cs) r) x + peval (d :: cs) r))
    by (rewrite <- IH; reflexivity).
  rewrite H. ring.
Qed.
Lemma pdiv_length cs r : List.length (pdiv cs r) = pred (List.length cs).
Proof.
  induction cs as [|c [|d cs] IH]; try reflexivity.
  change (pdiv (c :: d :: cs) r) with (peval (d :: cs) r :: pdiv (d :: cs) r).
  cbn [List.length pred] in *. rewrite IH. reflexivity.
Qed.
Lemma pdiv_last cs r : (2 <= List.length cs)%nat -> last (pdiv cs r) 0 = last cs 0.
Proof.
  induction cs as [|c cs IH]; cbn [List.length]; [lia|]. intros Hl. destruct cs as [|d cs]; [cbn in Hl; lia|].
  change (pdiv (c :: d :: cs) r) with (peval (d :: cs) r :: pdiv (d :: cs) r).
  destruct cs as [|e cs]; [cbn; ring|].
  change (last (c :: d :: e :: cs) 0) with (last (d :: e :: cs) 0). rewrite <- IH by (cbn; lia). reflexivity.
Qed.

(** A polynomial whose last coefficient is not zero has at most [length - 1] roots. *)
Lemma root_bound cs : ~ last cs 0 == 0 -> forall roots, NoDup roots ->
  (forall x, In x roots -> 0 <= x < ell /\ peval cs x == 0) ->
  (List.length roots < List.length cs)%nat.
Proof.
  remember (List.length cs) as n eqn:Hn. revert cs Hn.
  induction n as [|n IH]; intros cs Hn Hlast roots Hnd Hr.
  - destruct cs; [|discriminate]. exfalso. apply Hlast. reflexivity.
  - destruct roots as [|r roots]; cbn [List.length]; [lia|].
    destruct cs as [|c cs]; [discriminate|]. injection Hn as Hn. destruct cs as [|d cs].
    + exfalso. destruct (Hr r (or_introl eq_refl)) as [_ H]. cbn in H. apply Hlast. cbn.
      rewrite <- H. apply eqm_of_eq; ring.
    + apply -> Nat.succ_lt_mono. inversion Hnd as [|? ? Hni Hnd']; subst.
      apply (IH (pdiv (c :: d :: cs) r)).
      * rewrite pdiv_length. reflexivity.
      * rewrite pdiv_last by (cbn; lia). exact Hlast.
      * exact Hnd'.
      * intros x Hx. destruct (Hr x (or_intror Hx)) as [Hxr H]. split; [exact Hxr|].
        destruct (Hr r (or_introl eq_refl)) as [Hrr H'].
        rewrite (pdiv_spec _ r), H' in H.
        assert (H2 : (x - r) * peval (pdiv (c :: d :: cs) r) x == 0) by (rewrite <- H; apply eqm_of_eq; ring).
        apply eqm_mul_0 in H2 as [H2|H2]; [|exact H2].
        exfalso. apply eqm_sub_0 in H2. apply eqm_canonical in H2; [|assumption..]. subst x. contradiction.
Qed.

(** ** In several variables: expressions *)
Inductive pexp : Type :=
| PC (c : Z)
| PV (i : nat)
| PAdd (a b : pexp)
| PMul (a b : pexp).
Fixpoint ev (e : pexp) (v : list Z) : Z :=
  match e with
  | PC c => c
  | PV i => nth i v 0
  | PAdd a b => ev a v + ev b v
  | PMul a b => ev a v * ev b v
  end.
(** Total degree. *)
Fixpoint deg (e : pexp) : nat :=
  match e with
  | PC _ => 0
  | PV _ => 1
  | PAdd a b => Nat.max (deg a) (deg b)
  | PMul a b => deg a + deg b
  end.

(** The coefficients as a polynomial in the first variable. *)
Fixpoint cadd (a b : list pexp) : list pexp :=
  match a, b with
  | [], _ => b
  | _, [] => a
  | x :: a', y :: b' => PAdd x y :: cadd a' b'
  end.
Fixpoint cmul (a b : list pexp) : list pexp :=
  match a with
  | [] => []
  | x :: a' => cadd (map (PMul x) b) (match a' with [] => [] | _ => PC 0 :: cmul a' b end)
  end.
Fixpoint coeffs (e : pexp) : list pexp :=
  match e with
  | PC c => [PC c]
  | PV O => [PC 0; PC 1]
  | PV (S i) => [PV i]
  | PAdd a b => cadd (coeffs a) (coeffs b)
  | PMul a b => cmul (coeffs a) (coeffs b)
  end.
Definition at_tail (cs : list pexp) (v : list Z) : list Z := map (fun e => ev e v) cs.
Lemma cadd_spec a b v x : peval (at_tail (cadd a b) v) x = peval (at_tail a v) x + peval (at_tail b v) x.
Proof.
  revert b; induction a as [|e a IH]; intros [|f b]; try (cbn; ring).
  cbn [cadd at_tail map peval ev]. fold (at_tail (cadd a b) v) (at_tail a v) (at_tail b v). rewrite IH. ring.
Qed.
Lemma cscale_spec e b v x : peval (at_tail (map (PMul e) b) v) x = ev e v * peval (at_tail b v) x.
Proof.
  induction b as [|f b IH]; [cbn; ring|]. cbn [map at_tail peval ev]. fold (at_tail (map (PMul e) b) v) (at_tail b v).
  rewrite IH. ring.
Qed.
Lemma cmul_spec a b v x : peval (at_tail (cmul a b) v) x = peval (at_tail a v) x * peval (at_tail b v) x.
Proof.
  induction a as [|e a IH]; [reflexivity|]. cbn [cmul]. rewrite cadd_spec, cscale_spec.
  cbn [at_tail map peval]. fold (at_tail a v). destruct a as [|f a].
  - cbn. ring.
  - change (at_tail (PC 0 :: cmul (f :: a) b) v) with (0 :: at_tail (cmul (f :: a) b) v).
    cbn [peval]. rewrite IH. ring.
Qed.
Lemma coeffs_spec e x v : ev e (x :: v) = peval (at_tail (coeffs e) v) x.
Proof.
  induction e as [c|[|i]|a IHa b IHb|a IHa b IHb]; cbn [ev coeffs nth].
  - cbn [at_tail map peval ev]. ring.
  - cbn [at_tail map peval ev]. ring.
  - cbn [at_tail map peval ev]. ring.
  - rewrite cadd_spec, IHa, IHb. reflexivity.
  - rewrite cmul_spec, IHa, IHb. reflexivity.
Qed.

(** The coefficient of [x^i] has degree at most [d - i]. *)
Fixpoint degs (d : nat) (cs : list pexp) {struct cs} : Prop :=
  match cs with
  | [] => True
  | c :: cs' => (deg c <= d)%nat /\ match cs', d with [], _ => True | _, O => False | _, S d' => degs d' cs' end
  end.
Lemma degs_nth d cs : degs d cs <-> forall i, (i < List.length cs)%nat -> (deg (nth i cs (PC 0)) + i <= d)%nat.
Proof.
  revert d; induction cs as [|c cs IH]; intros d; cbn [degs List.length]; [split; [intros _ i Hi; lia|auto]|].
  destruct cs as [|e cs].
  - split.
    + intros [H _] [|i] Hi; cbn in *; lia.
    + intros H. split; [|exact I]. specialize (H 0%nat ltac:(lia)). cbn in H. lia.
  - destruct d as [|d].
    + split; [intros [_ []]|]. intros H. specialize (H 1%nat ltac:(cbn; lia)). cbn in H. lia.
    + rewrite IH. split.
      * intros [H1 H2] [|i] Hi; [cbn; lia|]. change (nth (S i) (c :: e :: cs) (PC 0)) with (nth i (e :: cs) (PC 0)).
        specialize (H2 i ltac:(cbn in *; lia)). lia.
      * intros H. split; [specialize (H 0%nat ltac:(cbn; lia)); cbn in H; lia|].
        intros i Hi. specialize (H (S i) ltac:(cbn in *; lia)).
        change (nth (S i) (c :: e :: cs) (PC 0)) with (nth i (e :: cs) (PC 0)) in H. lia.
Qed.
Lemma cadd_length a b : List.length (cadd a b) = Nat.max (List.length a) (List.length b).
Proof. revert b; induction a as [|e a IH]; intros [|f b]; cbn; try reflexivity. rewrite IH. reflexivity. Qed.
Lemma cadd_nth a b i : (deg (nth i (cadd a b) (PC 0)) <= Nat.max (deg (nth i a (PC 0))) (deg (nth i b (PC 0))))%nat.
Proof.
  revert b i; induction a as [|e a IH]; intros [|f b] [|i]; cbn [cadd nth deg]; try lia. apply IH.
Qed.
Lemma nth_degs d cs i : degs d cs -> (i < List.length cs -> deg (nth i cs (PC 0%Z)) + i <= d)%nat /\
  (List.length cs <= i -> deg (nth i cs (PC 0%Z)) = 0)%nat.
Proof.
  intros H. split; [intros Hi; apply degs_nth; assumption|]. intros Hi. rewrite nth_overflow by exact Hi. reflexivity.
Qed.
Lemma cadd_degs d a b : degs d a -> degs d b -> degs d (cadd a b).
Proof.
  intros Ha Hb. apply degs_nth. intros i Hi. rewrite cadd_length in Hi.
  pose proof (cadd_nth a b i). destruct (nth_degs d a i Ha), (nth_degs d b i Hb). lia.
Qed.
Lemma cscale_degs d d' e b : (deg e <= d)%nat -> degs d' b -> degs (d + d') (map (PMul e) b).
Proof.
  intros He Hb. apply degs_nth. intros i Hi. rewrite map_length in Hi.
  rewrite (nth_indep _ (PC 0) (PMul e (PC 0))) by (rewrite map_length; exact Hi). rewrite map_nth. cbn [deg].
  apply (proj1 (degs_nth d' b)) with (i := i) in Hb; [lia|exact Hi].
Qed.
Lemma cmul_degs d d' a b : degs d a -> degs d' b -> degs (d + d') (cmul a b).
Proof.
  revert d; induction a as [|e a IH]; intros d Ha Hb; [exact I|].
  cbn [cmul]. apply cadd_degs; [apply cscale_degs; [apply Ha|exact Hb]|].
  destruct a as [|f a]; [exact I|]. destruct Ha as [_ Ha]. destruct d as [|d]; [contradiction|].
  specialize (IH d Ha Hb). cbn [plus degs deg]. split; [lia|].
  destruct (cmul (f :: a) b); [exact I|exact IH].
Qed.
Lemma degs_mono d d' cs : (d <= d')%nat -> degs d cs -> degs d' cs.
Proof. intros Hd H. apply degs_nth. intros i Hi. apply (proj1 (degs_nth d cs)) with (i := i) in H; [lia|exact Hi]. Qed.
Lemma coeffs_degs e : degs (deg e) (coeffs e).
Proof.
  induction e as [c|[|i]|a IHa b IHb|a IHa b IHb]; cbn [coeffs deg].
  - cbn. auto.
  - cbn. auto.
  - cbn. auto.
  - apply cadd_degs; [apply (degs_mono (deg a)); [lia|exact IHa]|apply (degs_mono (deg b)); [lia|exact IHb]].
  - apply cmul_degs; assumption.
Qed.

(** ** Counting zeros *)
Definition count {A} (f : A -> bool) (l : list A) : Z := Z.of_nat (List.length (filter f l)).
Lemma count_nonneg {A} (f : A -> bool) l : 0 <= count f l.
Proof. unfold count. lia. Qed.
Lemma count_cons {A} (f : A -> bool) a l : count f (a :: l) = (if f a then 1 else 0) + count f l.
Proof. unfold count. cbn [filter]. destruct (f a); cbn [List.length]; lia. Qed.
Lemma count_app {A} (f : A -> bool) l l' : count f (l ++ l') = count f l + count f l'.
Proof. unfold count. rewrite filter_app, app_length. lia. Qed.
Lemma count_map {A B} (f : B -> bool) (g : A -> B) l : count f (map g l) = count (fun a => f (g a)) l.
Proof. induction l as [|a l IH]; [reflexivity|]. cbn [map]. rewrite !count_cons, IH. reflexivity. Qed.
Lemma count_le {A} (f g : A -> bool) l : (forall a, In a l -> f a = true -> g a = true) -> count f l <= count g l.
Proof.
  induction l as [|a l IH]; intros H; [cbn; lia|]. rewrite !count_cons.
  specialize (IH (fun b Hb => H b (or_intror Hb))). pose proof (H a (or_introl eq_refl)).
  destruct (f a), (g a); try lia; specialize (H0 eq_refl); discriminate.
Qed.
Lemma count_or {A} (f g h : A -> bool) l :
  (forall a, In a l -> f a = true -> g a = true \/ h a = true) -> count f l <= count g l + count h l.
Proof.
  induction l as [|a l IH]; intros H; [cbn; lia|]. rewrite !count_cons.
  specialize (IH (fun b Hb => H b (or_intror Hb))). pose proof (H a (or_introl eq_refl)).
  destruct (f a), (g a), (h a); try lia; destruct (H0 eq_refl); discriminate.
Qed.
Lemma count_false {A} (f : A -> bool) l : (forall a, In a l -> f a = false) -> count f l = 0.
Proof.
  induction l as [|a l IH]; intros H; [reflexivity|]. rewrite count_cons, (H a) by (left; reflexivity).
  rewrite IH; [reflexivity|]. intros b Hb; apply H; right; exact Hb.
Qed.
Lemma count_all {A} (f : A -> bool) l : count f l <= Z.of_nat (List.length l).
Proof. induction l as [|a l IH]; [cbn; lia|]. rewrite count_cons. cbn [List.length]. destruct (f a); lia. Qed.

Definition zero_at (e : pexp) (v : list Z) : bool := ev e v mod ell =? 0.
Lemma zero_at_iff e v : zero_at e v = true <-> ev e v == 0.
Proof.
  unfold zero_at, eqm. rewrite Z.mod_0_l by (pose proof ell_pos; lia). apply Z.eqb_eq.
Qed.

Section counting.
  (** The scalars, each once. *)
  Context (R : list Z) (R_nodup : NoDup R) (R_all : forall x, In x R <-> 0 <= x < ell)
          (R_length : Z.of_nat (List.length R) = ell).

  Fixpoint tuples (n : nat) : list (list Z) :=
    match n with
    | O => [[]]
    | S n' => flat_map (fun v => map (fun x => x :: v) R) (tuples n')
    end.
  Lemma in_tuples n v : In v (tuples n) <-> List.length v = n /\ Forall (fun x => 0 <= x < ell) v.
  Proof.
    revert v; induction n as [|n IH]; intros v; cbn [tuples].
    - split; [intros [<-|[]]; auto|]. intros [H _]. destruct v; [left; reflexivity|discriminate].
    - rewrite in_flat_map. split.
      + intros (w & Hw & H). apply in_map_iff in H as (x & <- & Hx). apply IH in Hw as [Hl Hf].
        split; [cbn; congruence|]. constructor; [apply R_all; exact Hx|exact Hf].
      + intros [Hl Hf]. destruct v as [|x v]; [discriminate|]. inversion Hf; subst.
        exists v. split; [apply IH; split; [cbn in Hl; congruence|assumption]|].
        apply in_map_iff. exists x. split; [reflexivity|apply R_all; assumption].
  Qed.

  Lemma tuples_length n : Z.of_nat (List.length (tuples n)) = ell ^ Z.of_nat n.
  Proof.
    induction n as [|n IH]; [reflexivity|]. cbn [tuples].
    assert (H : forall l : list (list Z), Z.of_nat (List.length (flat_map (fun v => map (fun x => x :: v) R) l)) =
      ell * Z.of_nat (List.length l)).
    { induction l as [|v l IHl]; [cbn; ring|]. cbn [flat_map]. rewrite app_length, map_length, Nat2Z.inj_add, IHl, R_length.
      cbn [List.length]. lia. }
    rewrite H, IH, Nat2Z.inj_succ, Z.pow_succ_r by lia. reflexivity.
  Qed.

  (** Counting over the first variable last. *)
  Lemma count_split (f : list Z -> bool) (g : list Z -> bool) k (T : list (list Z)) :
    0 <= k ->
    (forall v, In v T -> g v = false -> count (fun x => f (x :: v)) R <= k) ->
    count f (flat_map (fun v => map (fun x => x :: v) R) T) <= k * Z.of_nat (List.length T) + ell * count g T.
  Proof.
    intros Hk. induction T as [|v T IH]; intros H; [cbn; lia|]. cbn [flat_map].
    rewrite count_app, count_map, count_cons. specialize (IH (fun w Hw => H w (or_intror Hw))).
    pose proof (H v (or_introl eq_refl)) as Hv. cbn [List.length].
    pose proof (count_all (fun x => f (x :: v)) R) as Ha. rewrite R_length in Ha.
    pose proof ell_pos. destruct (g v); [|specialize (Hv eq_refl)]; nia.
  Qed.

  (** Zero at all tuples. *)
  Definition vanishes (n : nat) (e : pexp) : bool := forallb (zero_at e) (tuples n).
  Lemma vanishes_true n e : vanishes n e = true <-> forall v, In v (tuples n) -> ev e v == 0.
  Proof.
    unfold vanishes. rewrite forallb_forall. split; intros H v Hv; apply zero_at_iff; auto.
  Qed.

  (** The last coefficient that does not vanish. *)
  Lemma leading n cs : forallb (vanishes n) cs = true \/
    exists k, (k < List.length cs)%nat /\ vanishes n (nth k cs (PC 0)) = false /\
      forall j, (k < j < List.length cs)%nat -> vanishes n (nth j cs (PC 0)) = true.
  Proof.
    induction cs as [|c cs IH]; [left; reflexivity|]. destruct IH as [IH|(k & Hk & H1 & H2)].
    - destruct (vanishes n c) eqn:Hc; [left; cbn; rewrite Hc, IH; reflexivity|].
      right. exists 0%nat. split; [cbn; lia|]. split; [exact Hc|]. intros [|j] Hj; [lia|]. cbn [nth].
      rewrite forallb_forall in IH. apply IH, nth_In. cbn in Hj. lia.
    - right. exists (S k). split; [cbn; lia|]. split; [exact H1|]. intros [|j] Hj; [lia|]. cbn [nth].
      apply H2. cbn in Hj. lia.
  Qed.

  (** Coefficients that are zero at [v] can be dropped. *)
  Lemma peval_firstn cs k x : (forall j, (k < j < List.length cs)%nat -> nth j cs 0 == 0) ->
    peval cs x == peval (firstn (S k) cs) x.
  Proof.
    revert k; induction cs as [|c cs IH]; intros k H; [reflexivity|].
    destruct k as [|k].
    - cbn [firstn peval]. assert (Hz : peval cs x == 0).
      { clear IH. assert (H' : forall j, (j < List.length cs)%nat -> nth j cs 0 == 0).
        { intros j Hj. apply (H (S j)). cbn. lia. }
        clear H. induction cs as [|d cs IH]; [reflexivity|]. cbn [peval].
        rewrite (H' 0%nat ltac:(cbn; lia) : d == 0), IH; [apply eqm_of_eq; ring|].
        intros j Hj. apply (H' (S j)). cbn. lia. }
      rewrite Hz. cbn. apply eqm_of_eq; ring.
    - cbn [firstn]. change (peval (c :: cs) x) with (c + x * peval cs x).
      change (peval (c :: match cs with [] => [] | a :: l => a :: firstn k l end) x)
        with (c + x * peval (firstn (S k) cs) x).
      rewrite (IH k); [reflexivity|]. intros j Hj. apply (H (S j)). cbn. lia.
  Qed.
  Lemma last_firstn (cs : list Z) k : (k < List.length cs)%nat -> last (firstn (S k) cs) 0 = nth k cs 0.
  Proof.
    revert k; induction cs as [|c cs IH]; intros k Hk; [cbn in Hk; lia|].
    destruct k as [|k]; [reflexivity|]. cbn [nth]. rewrite <- IH by (cbn in Hk; lia).
    destruct cs as [|d cs]; [cbn in Hk; lia|]. reflexivity.
  Qed.

  (** The Schwartz-Zippel lemma. *)
  Theorem few_zeros n e : vanishes n e = false -> count (zero_at e) (tuples n) * ell <= Z.of_nat (deg e) * ell ^ Z.of_nat n.
  Proof.
    revert e; induction n as [|n IH]; intros e He.
    - unfold vanishes in He. cbn [tuples forallb] in He. cbn [tuples]. rewrite count_cons.
      destruct (zero_at e []); [discriminate|]. cbn. lia.
    - destruct (leading n (coeffs e)) as [H|(k & Hk & H1 & H2)].
      { exfalso. rewrite <- Bool.not_true_iff_false in He. apply He. apply vanishes_true. intros v Hv.
        apply in_tuples in Hv as [Hl Hf]. destruct v as [|x v]; [discriminate|]. inversion Hf; subst.
        assert (Hv : In v (tuples n)) by (apply in_tuples; split; [cbn in Hl; congruence|assumption]).
        rewrite coeffs_spec. rewrite forallb_forall in H. clear - H Hv.
        induction (coeffs e) as [|c cs IH]; [reflexivity|]. cbn [at_tail map peval]. fold (at_tail cs v).
        rewrite IH by (intros c' Hc'; apply H; right; exact Hc').
        rewrite (proj1 (vanishes_true n c) (H c (or_introl eq_refl)) v Hv). apply eqm_of_eq; ring. }
      set (g := nth k (coeffs e) (PC 0)) in *.
      assert (Hd : (deg g + k <= deg e)%nat) by (apply (proj1 (degs_nth _ _) (coeffs_degs e)); exact Hk).
      specialize (IH g H1). cbn [tuples].
      assert (Hc : count (zero_at e) (flat_map (fun v => map (fun x => x :: v) R) (tuples n)) <=
                   Z.of_nat k * Z.of_nat (List.length (tuples n)) + ell * count (zero_at g) (tuples n)).
      { apply count_split; [lia|]. intros v Hv Hg. unfold count.
        pose proof (root_bound (firstn (S k) (at_tail (coeffs e) v))) as Hrb.
        assert (Hlen : List.length (at_tail (coeffs e) v) = List.length (coeffs e)) by apply map_length.
        assert (Hnth : forall j, (j < List.length (coeffs e))%nat -> nth j (at_tail (coeffs e) v) 0 = ev (nth j (coeffs e) (PC 0)) v).
        { intros j Hj. unfold at_tail. rewrite (nth_indep _ 0 (ev (PC 0) v)) by (rewrite map_length; exact Hj).
          exact (map_nth (fun e => ev e v) (coeffs e) (PC 0) j). }
        assert (Hlt : (List.length (filter (fun x => zero_at e (x :: v)) R) <
                       List.length (firstn (S k) (at_tail (coeffs e) v)))%nat).
        { apply Hrb.
          - rewrite last_firstn by (rewrite Hlen; exact Hk). rewrite Hnth by exact Hk. fold g.
            intros Hz. apply zero_at_iff in Hz. congruence.
          - apply NoDup_filter. exact R_nodup.
          - intros x Hx. apply filter_In in Hx as [Hx1 Hx2]. split; [apply R_all; exact Hx1|].
            rewrite <- peval_firstn; [rewrite <- coeffs_spec; apply zero_at_iff; exact Hx2|].
            intros j Hj. rewrite Hlen in Hj. rewrite Hnth by lia.
            apply (proj1 (vanishes_true n _) (H2 j ltac:(lia)) v Hv). }
        rewrite firstn_length, Hlen in Hlt. lia. }
      rewrite tuples_length in Hc. rewrite Nat2Z.inj_succ, Z.pow_succ_r by lia.
      pose proof ell_pos. pose proof (count_nonneg (zero_at g) (tuples n)).
      assert (Hp : 0 <= ell ^ Z.of_nat n) by (apply Z.pow_nonneg; lia).
      assert (Hdz : Z.of_nat (deg g) + Z.of_nat k <= Z.of_nat (deg e)) by lia.
      set (C := count (zero_at e) _) in *. set (c := count (zero_at g) _) in *. set (l := ell ^ Z.of_nat n) in *.
      assert (S1 : C * ell <= (Z.of_nat k * l + ell * c) * ell) by (apply Z.mul_le_mono_nonneg_r; lia).
      assert (S2 : ell * (c * ell) <= ell * (Z.of_nat (deg g) * l)) by (apply Z.mul_le_mono_nonneg_l; lia).
      assert (S3 : (Z.of_nat (deg g) + Z.of_nat k) * (l * ell) <= Z.of_nat (deg e) * (l * ell)).
      { apply Z.mul_le_mono_nonneg_r; [apply Z.mul_nonneg_nonneg; lia|exact Hdz]. }
      assert (E1 : (Z.of_nat k * l + ell * c) * ell = Z.of_nat k * (l * ell) + ell * (c * ell)) by ring.
      assert (E2 : ell * (Z.of_nat (deg g) * l) = Z.of_nat (deg g) * (l * ell)) by ring.
      assert (E3 : Z.of_nat (deg e) * (ell * l) = Z.of_nat (deg e) * (l * ell)) by ring.
      lia.
  Qed.
End counting.
