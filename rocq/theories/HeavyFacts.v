(** Most values for which a prover succeeds have many others like them up to a given
    answer. *)
From Verif Require Import Algebra Polynomials SpecFork ForkFacts.

Lemma zsum_const {A} (f : A -> Z) x l : (forall a, In a l -> f a <= x) -> zsum (map f l) <= Z.of_nat (List.length l) * x.
Proof.
  induction l as [|a l IH]; intros H; [cbn; lia|]. cbn [map zsum List.length]. rewrite Nat2Z.inj_succ.
  pose proof (H a (or_introl eq_refl)). specialize (IH (fun b Hb => H b (or_intror Hb))). nia.
Qed.
Lemma zsum_scale {A} (f : A -> Z) x l : zsum (map (fun a => x * f a) l) = x * zsum (map f l).
Proof. induction l as [|a l IH]; [cbn; ring|]. cbn [map zsum]. rewrite IH. ring. Qed.

Section heavy.
  Context (R : list Z) (R_nodup : NoDup R) (R_all : forall x, In x R <-> 0 <= x < ell)
          (R_length : Z.of_nat (List.length R) = ell).
  Notation tuples := (tuples R).
  Context (idx : list Z -> nat) (W : list (list Z)) (q : nat) (D : Z)
          (W_in : forall v, In v W -> In v (tuples q) /\ (idx v < q)%nat) (W_nodup : NoDup W).

  (** Those asked at the same point, after the same answers. *)
  Definition like (v w : list Z) : bool := (Nat.eqb (idx w) (idx v) && is_image vec_eq (firstn (idx v)) (firstn (idx v) v) w)%bool.
  Definition light (v : list Z) : bool := D * (ell ^ Z.of_nat (idx v) * count (like v) W) <? Z.of_nat (List.length W).
  Definition forks_of (v : list Z) : list (list Z) :=
    map (fun wu => snd wu ++ skipn (idx v) (fst wu))
      (list_prod (filter (fun w => differs (idx v) (v, w)) (filter (like v) W)) (tuples (idx v))).

  Lemma light_at k : 0 <= D -> (k < q)%nat -> D * count (fun v => light v && Nat.eqb (idx v) k)%bool W <= Z.of_nat (List.length W).
  Proof.
    intros HD Hk. pose proof ell_pos as Hell. set (l := filter (fun v => light v && Nat.eqb (idx v) k)%bool W).
    assert (Hl : forall v, In v l -> In (firstn k v) (tuples k)).
    { intros v Hv. apply filter_In in Hv as [Hv _]. apply (firstn_tuples R R_all q); [apply W_in; exact Hv|lia]. }
    pose proof (sum_fibres vec_eq (firstn k) l (tuples k) (tuples_nodup R R_nodup k) Hl) as Hs.
    assert (HX : 0 < ell ^ Z.of_nat k) by (apply Z.pow_pos_nonneg; lia).
    assert (Hb : zsum (map (fun b => (D * ell ^ Z.of_nat k) * count (is_image vec_eq (firstn k) b) l) (tuples k)) <=
      Z.of_nat (List.length (tuples k)) * Z.of_nat (List.length W)).
    { apply zsum_const. intros b _.
      destruct (filter (is_image vec_eq (firstn k) b) l) as [|v l'] eqn:El.
      - unfold count. rewrite El. cbn. lia.
      - assert (Hv : In v (filter (is_image vec_eq (firstn k) b) l)) by (rewrite El; left; reflexivity).
        apply filter_In in Hv as [Hv Hi]. apply is_image_iff in Hi. apply filter_In in Hv as [Hv Hlt].
        apply andb_true_iff in Hlt as [Hlt Hik]. apply Nat.eqb_eq in Hik. unfold light in Hlt. apply Z.ltb_lt in Hlt.
        rewrite Hik in Hlt.
        assert (Hc : count (is_image vec_eq (firstn k) b) l <= count (like v) W).
        { unfold l. rewrite count_filter. apply count_le. intros w Hw H. apply andb_true_iff in H as [H H'].
          apply andb_true_iff in H as [_ H]. unfold like. rewrite Hik, H. cbn [andb].
          apply is_image_iff in H'. apply is_image_iff. congruence. }
        rewrite <- Z.mul_assoc. etransitivity; [|apply Z.lt_le_incl; exact Hlt].
        apply Z.mul_le_mono_nonneg_l; [exact HD|]. apply Z.mul_le_mono_nonneg_l; [lia|exact Hc]. }
    rewrite zsum_scale, Hs, (tuples_length R R_length) in Hb.
    change (count (fun v => light v && Nat.eqb (idx v) k)%bool W) with (Z.of_nat (List.length l)).
    revert Hb HX. generalize (ell ^ Z.of_nat k), (Z.of_nat (List.length l)), (Z.of_nat (List.length W)). clear. intros X a w H HX.
    apply (Z.mul_le_mono_pos_l _ _ X HX). lia.
  Qed.
  Lemma light_few : 0 <= D -> D * count light W <= Z.of_nat q * Z.of_nat (List.length W).
  Proof.
    intros HD.
    assert (Hs : count light W = zsum (map (fun k => count (fun v => light v && Nat.eqb (idx v) k)%bool W) (seq 0 q))).
    { pose proof (sum_fibres Nat.eq_dec idx (filter light W) (seq 0 q) (seq_NoDup q 0)) as H.
      unfold count at 1. rewrite <- H.
      2:{ intros v Hv. apply filter_In in Hv as [Hv _]. apply in_seq. pose proof (proj2 (W_in v Hv)). lia. }
      f_equal. apply map_ext. intros k. rewrite count_filter. unfold count. f_equal. f_equal. apply filter_ext. intros v. f_equal.
      unfold is_image. destruct (Nat.eq_dec (idx v) k) as [->|Hne]; [symmetry; apply Nat.eqb_refl|symmetry; apply Nat.eqb_neq; exact Hne]. }
    rewrite Hs, <- zsum_scale. rewrite <- (seq_length q 0) at 2. apply zsum_const.
    intros k Hk. apply in_seq in Hk. apply light_at; [exact HD|lia].
  Qed.

  Lemma forks_of_in v v' : In v W -> In v' (forks_of v) ->
    let w := forked (idx v) v v' in
    In v' (tuples q) /\ In w W /\ idx w = idx v /\ nth (idx v) v 0 <> nth (idx v) w 0.
  Proof.
    intros Hv H. unfold forks_of in H. apply in_map_iff in H as ([w u] & <- & H). cbn [fst snd].
    apply in_prod_iff in H as [H Hu]. apply filter_In in H as [H Hd]. apply filter_In in H as [Hw Hl].
    unfold like in Hl. apply andb_true_iff in Hl as [Hk Hi]. apply Nat.eqb_eq in Hk. apply is_image_iff in Hi.
    destruct (W_in v Hv) as [Hv1 Hq]. destruct (W_in w Hw) as [Hw1 _].
    apply (in_tuples R R_all) in Hu as [Hu1 Hu2]. apply (in_tuples R R_all) in Hw1 as [Hw1 Hw2].
    assert (Hf : forked (idx v) v (u ++ skipn (idx v) w) = w).
    { unfold forked, scalar. rewrite <- Hi at 1. rewrite skipn_app, Hu1, Nat.sub_diag, skipn_all2 by lia. cbn [app skipn].
      apply firstn_skipn. }
    rewrite Hf. split; [|split; [exact Hw|split; [exact Hk|]]].
    - apply (in_tuples R R_all). split; [rewrite app_length, skipn_length; lia|]. apply Forall_app. split; [exact Hu2|].
      rewrite <- (firstn_skipn (idx v) w) in Hw2. apply Forall_app in Hw2. apply Hw2.
    - unfold differs in Hd. cbn [fst snd] in Hd. destruct (Z.eqb_spec (nth (idx v) v 0) (nth (idx v) w 0)); [discriminate|assumption].
  Qed.
  Lemma forks_of_nodup v : NoDup (forks_of v).
  Proof.
    unfold forks_of. apply nodup_map.
    - intros [w u] [w1 u1] H1 H2 He. cbn [fst snd] in He.
      apply in_prod_iff in H1 as [H1 Hu], H2 as [H2 Hu1].
      apply filter_In in H1 as [H1 _], H2 as [H2 _]. apply filter_In in H1 as [_ H1], H2 as [_ H2].
      unfold like in H1, H2. apply andb_true_iff in H1 as [_ H1], H2 as [_ H2]. apply is_image_iff in H1, H2.
      apply (in_tuples R R_all) in Hu as [Hu _], Hu1 as [Hu1 _].
      apply app_eq_length in He as [-> Hs]; [|cbn in *; congruence].
      f_equal. rewrite <- (firstn_skipn (idx v) w), <- (firstn_skipn (idx v) w1), H1, H2, Hs. reflexivity.
    - apply nodup_list_prod; [|apply (tuples_nodup R R_nodup)]. apply NoDup_filter, NoDup_filter; exact W_nodup.
  Qed.
  Lemma heavy_many v : 0 <= D -> In v W -> light v = false ->
    Z.of_nat (List.length W) <= D * (Z.of_nat (List.length (forks_of v)) + ell ^ (Z.of_nat q - 1)).
  Proof.
    intros HD Hv Hl. unfold light in Hl. apply Z.ltb_ge in Hl. pose proof ell_pos as Hell.
    unfold forks_of. rewrite map_length, length_prod, (tuples_length R R_length).
    pose proof (proj2 (W_in v Hv)) as Hk. set (k := idx v) in *.
    assert (Hc : count (like v) W <= Z.of_nat (List.length (filter (fun w => differs k (v, w)) (filter (like v) W))) + ell ^ (Z.of_nat q - 1 - Z.of_nat k)).
    { pose proof (same_answer_one R R_all R_length q k W v (fun u Hu => proj1 (W_in u Hu)) W_nodup Hk) as H.
      change (Z.of_nat (List.length (filter (fun w => differs k (v, w)) (filter (like v) W)))) with
        (count (fun w => differs k (v, w)) (filter (like v) W)). rewrite count_filter.
      etransitivity; [apply (count_or _ (fun w => like v w && differs k (v, w))%bool (fun w => alike_and_same k (v, w)))|lia].
      intros w _ Hw. rewrite Hw. cbn [andb]. destruct (differs k (v, w)) eqn:Hd; [left; reflexivity|right].
      unfold alike_and_same. rewrite Hd. cbn [fst snd negb]. rewrite andb_true_r. unfold like in Hw. apply andb_true_iff in Hw. apply Hw. }
    replace (ell ^ (Z.of_nat q - 1)) with (ell ^ Z.of_nat k * ell ^ (Z.of_nat q - 1 - Z.of_nat k)).
    2:{ rewrite <- Z.pow_add_r by lia. f_equal. lia. }
    assert (HX : 0 < ell ^ Z.of_nat k) by (apply Z.pow_pos_nonneg; lia).
    etransitivity; [exact Hl|]. apply Z.mul_le_mono_nonneg_l; [exact HD|]. nia.
  Qed.
End heavy.
