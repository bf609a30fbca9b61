(** Counting the pairs of runs which are alike up to one answer. *)
From Verif Require Import Algebra Polynomials SpecFork.

(** ** Pairs with one image *)
Fixpoint zsum (l : list Z) : Z := match l with [] => 0 | x :: l' => x + zsum l' end.
Lemma zsum_app l l' : zsum (l ++ l') = zsum l + zsum l'.
Proof. induction l as [|x l IH]; cbn; [ring|rewrite IH; ring]. Qed.
Lemma cross a l : 2 * a * zsum l <= Z.of_nat (List.length l) * a ^ 2 + zsum (map (fun x => x ^ 2) l).
Proof.
  induction l as [|x l IH]; [cbn; lia|]. cbn [zsum map List.length]. rewrite Nat2Z.inj_succ.
  assert (0 <= (a - x) ^ 2) by apply Z.pow_even_nonneg, Z.even_spec, eq_refl. nia.
Qed.
Lemma cauchy l : zsum l ^ 2 <= Z.of_nat (List.length l) * zsum (map (fun x => x ^ 2) l).
Proof.
  induction l as [|x l IH]; [cbn; lia|]. cbn [zsum map List.length]. rewrite Nat2Z.inj_succ.
  pose proof (cross x l). nia.
Qed.

Section images.
  Context {A B : Type} (B_eq : forall x y : B, {x = y} + {x <> y}) (g : A -> B).
  Definition is_image (b : B) (x : A) : bool := if B_eq (g x) b then true else false.
  Lemma is_image_iff b x : is_image b x = true <-> g x = b.
  Proof. unfold is_image. destruct (B_eq (g x) b); split; congruence. Qed.
  Definition alike_pairs (l : list A) : list (A * A) := filter (fun w => is_image (g (fst w)) (snd w)) (list_prod l l).

  Lemma sum_fibres l ps : NoDup ps -> (forall x, In x l -> In (g x) ps) ->
    zsum (map (fun b => count (is_image b) l) ps) = Z.of_nat (List.length l).
  Proof.
    intros Hnd. induction l as [|x l IH]; intros H.
    - clear. induction ps as [|b ps IH]; [reflexivity|exact IH].
    - transitivity (zsum (map (fun b => if is_image b x then 1 else 0) ps) + zsum (map (fun b => count (is_image b) l) ps)).
      { clear. induction ps as [|b ps IH]; [reflexivity|]. cbn [map zsum]. rewrite count_cons, IH.
        destruct (is_image b x); ring. }
      rewrite IH by (intros y Hy; apply H; right; exact Hy).
      assert (H1 : zsum (map (fun b => if is_image b x then 1 else 0) ps) = 1).
      { specialize (H x (or_introl eq_refl)). clear - Hnd H. induction Hnd as [|b ps Hb Hnd IH]; [destruct H|].
        cbn [map zsum]. destruct (is_image b x) eqn:Hi.
        - apply is_image_iff in Hi. subst b.
          assert (H0 : zsum (map (fun b => if is_image b x then 1 else 0) ps) = 0).
          { clear - Hb. induction ps as [|b ps IH]; [reflexivity|]. cbn [map zsum].
            destruct (is_image b x) eqn:Hi; [apply is_image_iff in Hi; elim Hb; left; auto|].
            rewrite IH; [reflexivity|]. intros Hin. apply Hb. right. exact Hin. }
          rewrite H0. reflexivity.
        - destruct H as [H|H]; [|exact (IH H)]. subst b. assert (is_image (g x) x = true) by (apply is_image_iff; reflexivity). congruence. }
      rewrite H1. cbn [List.length]. lia.
  Qed.
  Lemma sum_squares l ps : NoDup ps -> (forall x, In x l -> In (g x) ps) ->
    zsum (map (fun b => count (is_image b) l ^ 2) ps) = Z.of_nat (List.length (alike_pairs l)).
  Proof.
    intros Hnd H.
    assert (G : forall l1, (forall x, In x l1 -> In (g x) ps) ->
      zsum (map (fun b => count (is_image b) l1 * count (is_image b) l) ps) =
      count (fun w => is_image (g (fst w)) (snd w)) (list_prod l1 l)).
    { induction l1 as [|x l1 IH]; intros H1.
      - clear. induction ps as [|b ps IH]; [reflexivity|exact IH].
      - cbn [list_prod]. rewrite count_app, count_map, <- IH by (intros y Hy; apply H1; right; exact Hy).
        cbn [fst snd].
        assert (Hx : zsum (map (fun b => (if is_image b x then 1 else 0) * count (is_image b) l) ps) = count (fun y => is_image (g x) y) l).
        { specialize (H1 x (or_introl eq_refl)). clear - Hnd H1. induction Hnd as [|b ps Hb Hnd IH]; [destruct H1|].
          cbn [map zsum]. destruct (is_image b x) eqn:Hi.
          - apply is_image_iff in Hi. subst b.
            assert (H0 : zsum (map (fun b => (if is_image b x then 1 else 0) * count (is_image b) l) ps) = 0).
            { clear - Hb. induction ps as [|b ps IH]; [reflexivity|]. cbn [map zsum].
              destruct (is_image b x) eqn:Hi; [apply is_image_iff in Hi; elim Hb; left; auto|].
              rewrite IH; [reflexivity|]. intros Hin. apply Hb. right. exact Hin. }
            rewrite H0. ring_simplify. reflexivity.
          - destruct H1 as [H1|H1]; [|rewrite (IH H1); lia]. subst b.
            assert (is_image (g x) x = true) by (apply is_image_iff; reflexivity). congruence. }
        rewrite <- Hx. clear. induction ps as [|b ps IH]; [reflexivity|]. cbn [map zsum]. rewrite count_cons, IH.
        destruct (is_image b x); ring. }
    unfold alike_pairs. specialize (G l H). unfold count in G at 3. rewrite <- G. f_equal. apply map_ext. intros b. ring.
  Qed.
  (** There are many pairs with one image. *)
  Lemma many_alike l ps : NoDup ps -> (forall x, In x l -> In (g x) ps) ->
    Z.of_nat (List.length l) ^ 2 <= Z.of_nat (List.length ps) * Z.of_nat (List.length (alike_pairs l)).
  Proof.
    intros Hnd H. rewrite <- (sum_fibres l ps Hnd H), <- (sum_squares l ps Hnd H).
    pose proof (cauchy (map (fun b => count (is_image b) l) ps)) as Hc. rewrite map_length, map_map in Hc. exact Hc.
  Qed.
End images.

(** ** Runs that are alike up to one answer *)
Lemma nodup_app {A} (l m : list A) : NoDup l -> NoDup m -> (forall x, In x l -> ~ In x m) -> NoDup (l ++ m).
Proof.
  intros H Hm Hd. induction H as [|x l Hx H IH]; [exact Hm|]. cbn [app]. constructor.
  - rewrite in_app_iff. intros [H1|H1]; [exact (Hx H1)|exact (Hd x (or_introl eq_refl) H1)].
  - apply IH. intros y Hy. apply Hd. right. exact Hy.
Qed.
Lemma nodup_list_prod {A B} (l : list A) (l' : list B) : NoDup l -> NoDup l' -> NoDup (list_prod l l').
Proof.
  intros H H'. induction H as [|x l Hx H IH]; [constructor|]. cbn [list_prod].
  apply nodup_app; [apply FinFun.Injective_map_NoDup; [intros a b; congruence|exact H']|exact IH|].
  intros [a b] H1 H2. apply in_map_iff in H1 as (y & H1 & _). injection H1 as <- <-.
  apply in_prod_iff in H2 as [H2 _]. exact (Hx H2).
Qed.

Lemma nodup_map {A B} (f : A -> B) l : (forall x y, In x l -> In y l -> f x = f y -> x = y) -> NoDup l -> NoDup (map f l).
Proof.
  intros Hf H. induction H as [|x l Hx H IH]; [constructor|]. cbn [map]. constructor.
  - intros Hin. apply in_map_iff in Hin as (y & Hy & Hin). apply Hx.
    rewrite <- (Hf y x (or_intror Hin) (or_introl eq_refl) Hy). exact Hin.
  - apply IH. intros y z Hy Hz. apply Hf; right; assumption.
Qed.

Lemma app_eq_length {A} (l : list A) : forall l' m m', List.length l = List.length l' -> l ++ m = l' ++ m' -> l = l' /\ m = m'.
Proof.
  induction l as [|x l IH]; intros [|y l'] m m' Hl H; try discriminate; [auto|].
  cbn in H, Hl. destruct (IH l' m m') as [-> ->]; [lia|congruence|]. split; congruence.
Qed.

Lemma length_prod {A B} (l : list A) (l' : list B) :
  Z.of_nat (List.length (list_prod l l')) = Z.of_nat (List.length l) * Z.of_nat (List.length l').
Proof. rewrite prod_length. lia. Qed.
Lemma count_negb {A} (f : A -> bool) l : count (fun x => negb (f x)) l = Z.of_nat (List.length l) - count f l.
Proof.
  induction l as [|x l IH]; [reflexivity|]. rewrite !count_cons, IH. cbn [List.length]. destruct (f x); cbn [negb]; lia.
Qed.
Lemma count_filter {A} (f g : A -> bool) l : count f (filter g l) = count (fun x => g x && f x)%bool l.
Proof.
  induction l as [|x l IH]; [reflexivity|]. cbn [filter]. rewrite count_cons, <- IH.
  destruct (g x); [rewrite count_cons|]; cbn [andb]; lia.
Qed.

Section forks.
  Context (R : list Z) (R_nodup : NoDup R) (R_all : forall x, In x R <-> 0 <= x < ell)
          (R_length : Z.of_nat (List.length R) = ell).
  Notation tuples := (tuples R).

  Lemma tuples_nodup n : NoDup (tuples n).
  Proof.
    induction n as [|n IH]; [repeat constructor; intros []|]. cbn [Polynomials.tuples].
    induction IH as [|v l Hv Hl IHl]; [constructor|]. cbn [flat_map].
    apply nodup_app; [apply FinFun.Injective_map_NoDup; [intros a b; congruence|exact R_nodup]|exact IHl|].
    intros x H1 H2. apply in_map_iff in H1 as (a & <- & _). apply in_flat_map in H2 as (w & Hw & H2).
    apply in_map_iff in H2 as (b & H2 & _). injection H2 as _ <-. exact (Hv Hw).
  Qed.

  Definition vec_eq : forall x y : list Z, {x = y} + {x <> y} := list_eq_dec Z.eq_dec.
  (** The second run differs in the answer with number [k]. *)
  Definition differs (k : nat) (vw : list Z * list Z) : bool := negb (nth k (fst vw) 0 =? nth k (snd vw) 0).
  Definition forks_at (k : nat) (W : list (list Z)) : list (list Z * list Z) :=
    map (fun vwu => (fst (fst vwu), snd vwu ++ skipn k (snd (fst vwu))))
      (list_prod (filter (differs k) (alike_pairs vec_eq (firstn k) W)) (tuples k)).

  Lemma firstn_tuples n k v : In v (tuples n) -> (k <= n)%nat -> In (firstn k v) (tuples k).
  Proof.
    intros H Hk. apply (in_tuples R R_all) in H as [H1 H2]. apply (in_tuples R R_all). split.
    - rewrite firstn_length. lia.
    - rewrite <- (firstn_skipn k v) in H2. apply Forall_app in H2. apply H2.
  Qed.
  Lemma in_forks_at q k W v v' : (forall v, In v W -> In v (tuples q)) -> (k < q)%nat ->
    In (v, v') (forks_at k W) ->
    In v W /\ In v' (tuples q) /\ In (forked k v v') W /\ nth k v 0 <> nth k (forked k v v') 0.
  Proof.
    intros HW Hk H. unfold forks_at in H. apply in_map_iff in H as ([[v1 w] u] & He & H). cbn [fst snd] in He.
    injection He as -> <-. apply in_prod_iff in H as [H Hu]. apply filter_In in H as [H Hd].
    unfold alike_pairs in H. apply filter_In in H as [H Hi]. apply in_prod_iff in H as [Hv Hw].
    apply is_image_iff in Hi. cbn [fst snd] in *.
    pose proof (HW v Hv) as Hv1. pose proof (HW w Hw) as Hw1.
    apply (in_tuples R R_all) in Hu as [Hu1 Hu2]. apply (in_tuples R R_all) in Hw1 as [Hw1 Hw2].
    assert (Hf : forked k v (u ++ skipn k w) = w).
    { unfold forked, scalar. rewrite <- Hi, skipn_app, Hu1, Nat.sub_diag, skipn_all2 by lia. cbn [app skipn].
      apply firstn_skipn. }
    rewrite Hf. split; [exact Hv|]. split; [|split; [exact Hw|]].
    - apply (in_tuples R R_all). split; [rewrite app_length, skipn_length; lia|]. apply Forall_app. split; [exact Hu2|].
      rewrite <- (firstn_skipn k w) in Hw2. apply Forall_app in Hw2. apply Hw2.
    - unfold differs in Hd. cbn [fst snd] in Hd. destruct (Z.eqb_spec (nth k v 0) (nth k w 0)); [discriminate|assumption].
  Qed.
  Lemma forks_at_nodup q k W : (forall v, In v W -> In v (tuples q)) -> NoDup W -> NoDup (forks_at k W).
  Proof.
    intros HW H. unfold forks_at. apply nodup_map.
    - intros [[v w] u] [[v1 w1] u1] H1 H2 He. cbn [fst snd] in He.
      apply in_prod_iff in H1 as [H1 Hu], H2 as [H2 Hu1].
      apply filter_In in H1 as [H1 _], H2 as [H2 _]. apply filter_In in H1 as [_ H1], H2 as [_ H2].
      apply is_image_iff in H1, H2. cbn [fst snd] in *.
      assert (Hv : v = v1) by congruence. subst v1.
      assert (Hs : u ++ skipn k w = u1 ++ skipn k w1) by congruence.
      apply (in_tuples R R_all) in Hu as [Hu _], Hu1 as [Hu1 _].
      apply app_eq_length in Hs as [-> Hs]; [|cbn in *; congruence].
      rewrite <- (firstn_skipn k w), <- (firstn_skipn k w1), H1, H2, Hs. reflexivity.
    - apply nodup_list_prod; [|apply tuples_nodup]. apply NoDup_filter, NoDup_filter, nodup_list_prod; exact H.
  Qed.

  (** The pairs that are alike in one answer more are few. *)
  Definition alike_and_same (k : nat) (vw : list Z * list Z) : bool :=
    (is_image vec_eq (firstn k) (firstn k (fst vw)) (snd vw) && negb (differs k vw))%bool.
  Lemma same_answer_one q k W v : (forall v, In v W -> In v (tuples q)) -> NoDup W -> (k < q)%nat ->
    count (fun w => alike_and_same k (v, w)) W <= ell ^ (Z.of_nat q - 1 - Z.of_nat k).
  Proof.
    intros HW Hnd Hk. set (f := alike_and_same k). unfold count.
    replace (Z.of_nat q - 1 - Z.of_nat k) with (Z.of_nat (q - S k)) by lia.
    rewrite <- (tuples_length R R_length). rewrite <- (map_length (skipn (S k))). apply inj_le.
    apply NoDup_incl_length.
    - apply nodup_map; [|apply NoDup_filter; exact Hnd].
      assert (Hp : forall w, In w (filter (fun w => f (v, w)) W) -> w = firstn k v ++ nth k v 0 :: skipn (S k) w).
      { intros w Hw. apply filter_In in Hw as [Hw Hf]. unfold f, alike_and_same in Hf. apply andb_true_iff in Hf as [H1 H2].
        apply is_image_iff in H1. cbn [fst snd] in H1. unfold differs in H2. cbn [fst snd] in H2.
        rewrite negb_involutive in H2. apply Z.eqb_eq in H2. rewrite H2, <- H1.
        specialize (HW w Hw). apply (in_tuples R R_all) in HW as [Hl _].
        rewrite <- (firstn_skipn k w) at 1. f_equal. clear - Hl Hk. revert k q Hl Hk. induction w as [|x w IH]; intros k q Hl Hk; [cbn in Hl; lia|].
        destruct k as [|k]; [reflexivity|]. cbn [skipn nth]. apply (IH k (q - 1)%nat); cbn in Hl; lia. }
      intros w w' Hw Hw' He. rewrite (Hp w Hw), (Hp w' Hw'), He. reflexivity.
    - intros u Hu. apply in_map_iff in Hu as (w & <- & Hw). apply filter_In in Hw as [Hw _].
      specialize (HW w Hw). apply (in_tuples R R_all) in HW as [H1 H2]. apply (in_tuples R R_all). split.
      + rewrite skipn_length. lia.
      + rewrite <- (firstn_skipn (S k) w) in H2. apply Forall_app in H2. apply H2.
  Qed.
  Lemma same_answer q k W : (forall v, In v W -> In v (tuples q)) -> NoDup W -> (k < q)%nat ->
    count (fun vw => negb (differs k vw)) (alike_pairs vec_eq (firstn k) W) <=
    Z.of_nat (List.length W) * ell ^ (Z.of_nat q - 1 - Z.of_nat k).
  Proof.
    intros HW Hnd Hk. unfold alike_pairs. rewrite count_filter.
    set (f := alike_and_same k).
    assert (Hone : forall v, In v W -> count (fun w => f (v, w)) W <= ell ^ (Z.of_nat q - 1 - Z.of_nat k)).
    { intros v _. exact (same_answer_one q k W v HW Hnd Hk). }
    assert (G : forall V, (forall v, In v V -> count (fun w => f (v, w)) W <= ell ^ (Z.of_nat q - 1 - Z.of_nat k)) ->
      count f (list_prod V W) <= Z.of_nat (List.length V) * ell ^ (Z.of_nat q - 1 - Z.of_nat k)).
    { clear. induction V as [|v V IH]; intros Hone; [cbn; lia|].
      cbn [list_prod]. rewrite count_app, count_map. specialize (IH (fun w Hw => Hone w (or_intror Hw))).
      specialize (Hone v (or_introl eq_refl)). cbn [List.length]. nia. }
    exact (G W Hone).
  Qed.
  Lemma forks_at_many q k W : (forall v, In v W -> In v (tuples q)) -> NoDup W -> (k < q)%nat ->
    Z.of_nat (List.length W) ^ 2 <= Z.of_nat (List.length (forks_at k W)) + Z.of_nat (List.length W) * ell ^ (Z.of_nat q - 1).
  Proof.
    intros HW Hnd Hk. pose proof ell_pos as Hell.
    pose proof (many_alike vec_eq (firstn k) W (tuples k) (tuples_nodup k)
      (fun v Hv => firstn_tuples q k v (HW v Hv) (Nat.lt_le_incl _ _ Hk))) as H1.
    rewrite (tuples_length R R_length) in H1.
    pose proof (same_answer q k W HW Hnd Hk) as H2. rewrite count_negb in H2.
    unfold forks_at. rewrite map_length, length_prod, (tuples_length R R_length).
    change (Z.of_nat (List.length (filter (differs k) (alike_pairs vec_eq (firstn k) W)))) with
      (count (differs k) (alike_pairs vec_eq (firstn k) W)).
    replace (ell ^ (Z.of_nat q - 1)) with (ell ^ Z.of_nat k * ell ^ (Z.of_nat q - 1 - Z.of_nat k)).
    2:{ rewrite <- Z.pow_add_r by lia. f_equal. lia. }
    assert (HX : 0 < ell ^ Z.of_nat k) by (apply Z.pow_pos_nonneg; lia).
    change (fun x => differs k x) with (differs k) in H2.
    revert H1 H2 HX. generalize (count (differs k) (alike_pairs vec_eq (firstn k) W)), (Z.of_nat (List.length (alike_pairs vec_eq (firstn k) W))),
      (ell ^ Z.of_nat k), (ell ^ (Z.of_nat q - 1 - Z.of_nat k)), (Z.of_nat (List.length W)). clear.
    intros d a X Y w H1 H2 HX. apply (Z.mul_le_mono_nonneg_l _ _ X) in H2; [|lia].
    ring_simplify in H2. ring_simplify. ring_simplify in H1. nia.
  Qed.

  Definition at_index (idx : list Z -> nat) (W : list (list Z)) (k : nat) : list (list Z) := filter (fun v => Nat.eqb (idx v) k) W.
  Definition all_forks (idx : list Z -> nat) (W : list (list Z)) (q : nat) : list (list Z * list Z) :=
    flat_map (fun k => forks_at k (at_index idx W k)) (seq 0 q).

  Lemma all_forks_in idx W q v v' : (forall v, In v W -> In v (tuples q) /\ (idx v < q)%nat) ->
    In (v, v') (all_forks idx W q) ->
    let w := forked (idx v) v v' in
    In v W /\ In v' (tuples q) /\ In w W /\ idx w = idx v /\ nth (idx v) v 0 <> nth (idx v) w 0.
  Proof.
    intros HW H w. unfold all_forks in H. apply in_flat_map in H as (k & Hk & H). apply in_seq in Hk.
    apply (in_forks_at q) in H as (H1 & H2 & H3 & H4); [| |lia].
    2:{ intros u Hu. apply filter_In in Hu as [Hu _]. apply HW. exact Hu. }
    apply filter_In in H1 as [H1 Hi], H3 as [H3 Hi']. apply Nat.eqb_eq in Hi, Hi'. subst k w. auto.
  Qed.
  Lemma all_forks_nodup idx W q : (forall v, In v W -> In v (tuples q) /\ (idx v < q)%nat) -> NoDup W -> NoDup (all_forks idx W q).
  Proof.
    intros HW Hnd. unfold all_forks.
    assert (G : forall l, NoDup l -> (forall k, In k l -> (k < q)%nat) -> NoDup (flat_map (fun k => forks_at k (at_index idx W k)) l)).
    { induction l as [|k l IH]; intros Hl Hk; [constructor|]. inversion Hl as [|? ? Hl1 Hl2]; subst. cbn [flat_map].
      assert (Hin : forall k v v', (k < q)%nat -> In (v, v') (forks_at k (at_index idx W k)) -> idx v = k).
      { intros j v v' Hj H. apply (in_forks_at q) in H as (H & _); [| |exact Hj].
        - apply filter_In in H as [_ H]. apply Nat.eqb_eq, H.
        - intros u Hu. apply filter_In in Hu as [Hu _]. apply HW. exact Hu. }
      apply nodup_app.
      - apply (forks_at_nodup q); [|apply NoDup_filter; exact Hnd].
        intros u Hu. apply filter_In in Hu as [Hu _]. apply HW. exact Hu.
      - apply IH; [exact Hl2|]. intros j Hj. apply Hk. right. exact Hj.
      - intros [v v'] H1 H2. apply Hin in H1; [|apply Hk; left; reflexivity].
        apply in_flat_map in H2 as (j & Hj & H2). apply Hin in H2; [|apply Hk; right; exact Hj]. subst j. subst k. exact (Hl1 Hj). }
    apply G; [apply seq_NoDup|]. intros k Hk. apply in_seq in Hk. lia.
  Qed.
  Lemma all_forks_many idx W q : (forall v, In v W -> In v (tuples q) /\ (idx v < q)%nat) -> NoDup W ->
    Z.of_nat (List.length W) ^ 2 <= Z.of_nat q * (Z.of_nat (List.length (all_forks idx W q)) + Z.of_nat (List.length W) * ell ^ (Z.of_nat q - 1)).
  Proof.
    intros HW Hnd.
    assert (Hs : zsum (map (fun k => Z.of_nat (List.length (at_index idx W k))) (seq 0 q)) = Z.of_nat (List.length W)).
    { pose proof (sum_fibres Nat.eq_dec idx W (seq 0 q) (seq_NoDup q 0)) as H.
      rewrite <- H by (intros v Hv; apply in_seq; pose proof (proj2 (HW v Hv)); lia).
      f_equal. apply map_ext. intros k. unfold count, at_index. f_equal. f_equal. apply filter_ext. intros v.
      unfold is_image. destruct (Nat.eq_dec (idx v) k) as [->|Hne]; [apply Nat.eqb_refl|apply Nat.eqb_neq; exact Hne]. }
    pose proof (cauchy (map (fun k => Z.of_nat (List.length (at_index idx W k))) (seq 0 q))) as Hc.
    rewrite Hs, map_length, seq_length, map_map in Hc.
    assert (Hf : zsum (map (fun k => Z.of_nat (List.length (at_index idx W k)) ^ 2) (seq 0 q)) <=
      Z.of_nat (List.length (all_forks idx W q)) + Z.of_nat (List.length W) * ell ^ (Z.of_nat q - 1)).
    { rewrite <- Hs. unfold all_forks.
      assert (G : forall l, (forall k, In k l -> (k < q)%nat) ->
        zsum (map (fun k => Z.of_nat (List.length (at_index idx W k)) ^ 2) l) <=
        Z.of_nat (List.length (flat_map (fun k => forks_at k (at_index idx W k)) l)) +
        zsum (map (fun k => Z.of_nat (List.length (at_index idx W k))) l) * ell ^ (Z.of_nat q - 1)).
      { induction l as [|k l IH]; intros Hk; [cbn; lia|]. cbn [map zsum flat_map]. rewrite app_length, Nat2Z.inj_add.
        specialize (IH (fun j Hj => Hk j (or_intror Hj))).
        pose proof (forks_at_many q k (at_index idx W k)) as H.
        specialize (H (fun u Hu => proj1 (HW u (proj1 (proj1 (filter_In _ _ _) Hu)))) (NoDup_filter _ Hnd) (Hk k (or_introl eq_refl))).
        lia. }
      apply G. intros k Hk. apply in_seq in Hk. lia. }
    nia.
  Qed.
End forks.

(** ** Provers *)
Section provers.
  Context {Q A : Type} (Q_eq : forall x y : Q, {x = y} + {x <> y}).
  Notation prover := (prover Q A).
  Notation prove := (prove Q_eq).

  Lemma prove_extends (p : prover) : forall v t a t', prove p v t = Some (a, t') ->
    exists l, t' = t ++ l /\ map snd l = firstn (List.length l) v /\ (List.length l <= List.length v)%nat.
  Proof.
    induction p as [b|x next IH]; intros v t a t' H; cbn [SpecFork.prove] in H.
    - injection H as <- <-. exists []. rewrite app_nil_r. cbn. auto with arith.
    - destruct (answer Q_eq t x) as [c|]; [exact (IH c _ _ _ _ H)|]. destruct v as [|c v]; [discriminate|].
      destruct (IH c _ _ _ _ H) as (l & -> & H1 & H2). exists ((x, c) :: l). rewrite <- app_assoc. cbn [app].
      split; [reflexivity|]. cbn [map snd List.length firstn]. split; [f_equal; exact H1|lia].
  Qed.
  Lemma prove_agree (p : prover) : forall j v w t a b l m, firstn j v = firstn j w ->
    prove p v t = Some (a, t ++ l) -> prove p w t = Some (b, t ++ m) ->
    forall n, (n <= j)%nat -> (n < List.length l)%nat -> (n < List.length m)%nat ->
    nth_error (map fst l) n = nth_error (map fst m) n.
  Proof.
    induction p as [a0|x next IH]; intros j v w t a b l m Hj Hv Hw n Hn Hl Hm; cbn [SpecFork.prove] in Hv, Hw.
    - injection Hv as _ Hv. rewrite <- (app_nil_r t) in Hv at 1. apply app_inv_head in Hv. subst l. cbn in Hl. lia.
    - destruct (answer Q_eq t x) as [c|]; [exact (IH c j v w t a b l m Hj Hv Hw n Hn Hl Hm)|].
      destruct v as [|c v]; [discriminate|]. destruct w as [|d w]; [discriminate|].
      destruct (prove_extends _ _ _ _ _ Hv) as (l' & El & _). destruct (prove_extends _ _ _ _ _ Hw) as (m' & Em & _).
      rewrite El in Hv. rewrite Em in Hw. rewrite <- app_assoc in El, Em. apply app_inv_head in El, Em. subst l m. cbn [app] in *.
      destruct n as [|n]; [reflexivity|]. destruct j as [|j]; [lia|].
      cbn [firstn] in Hj. assert (Hc : c = d) by congruence. subst d. assert (Hj' : firstn j v = firstn j w) by congruence.
      cbn [map nth_error]. cbn [List.length] in Hl, Hm.
      apply (IH c j v w _ a b l' m' Hj' Hv Hw n); lia.
  Qed.

  Lemma position_spec table x c : answer Q_eq table x = Some c -> nth_error table (position Q_eq table x) = Some (x, c).
  Proof.
    induction table as [|[y d] table IH]; intros H; [discriminate|]. cbn [answer position] in *.
    destruct (Q_eq x y) as [<-|]; [injection H as <-; reflexivity|exact (IH H)].
  Qed.
  Lemma asked_spec (question : A -> Q) p v a c : proved Q_eq question p v = Some (a, c) ->
    exists table, prove (asking question p) v [] = Some (a, table) /\
      nth_error table (asked_at Q_eq question p v) = Some (question a, c) /\
      (asked_at Q_eq question p v < List.length v)%nat /\ nth (asked_at Q_eq question p v) v 0 = c.
  Proof.
    unfold proved, asked_at. intros H. destruct (prove (asking question p) v []) as [[b table]|] eqn:Hp; [|discriminate].
    destruct (answer Q_eq table (question b)) as [d|] eqn:Ha; [|discriminate]. injection H as <- <-.
    exists table. split; [reflexivity|]. apply position_spec in Ha. split; [exact Ha|].
    destruct (prove_extends _ _ _ _ _ Hp) as (l & E & H1 & H2). cbn [app] in E. subst l.
    assert (Hlt : (position Q_eq table (question b) < List.length table)%nat) by (apply nth_error_Some; congruence).
    split; [lia|].
    assert (Hn : nth_error (map snd table) (position Q_eq table (question b)) = Some d) by (rewrite nth_error_map, Ha; reflexivity).
    rewrite H1 in Hn. apply nth_error_nth with (d := 0) in Hn. rewrite <- Hn.
    rewrite <- (firstn_skipn (List.length table) v) at 1. rewrite app_nth1; [reflexivity|]. rewrite firstn_length. lia.
  Qed.
  (** Two runs alike before the question of the output have one question. *)
  Lemma one_question (question : A -> Q) p v w a c b d :
    proved Q_eq question p v = Some (a, c) -> proved Q_eq question p w = Some (b, d) ->
    asked_at Q_eq question p w = asked_at Q_eq question p v ->
    firstn (asked_at Q_eq question p v) w = firstn (asked_at Q_eq question p v) v ->
    question b = question a.
  Proof.
    intros Hv Hw Hk Hf. destruct (asked_spec _ _ _ _ _ Hv) as (t & Pv & Nv & _). destruct (asked_spec _ _ _ _ _ Hw) as (t' & Pw & Nw & _).
    rewrite Hk in Nw. set (k := asked_at Q_eq question p v) in *.
    pose proof (prove_agree (asking question p) k w v [] b a t' t Hf Pw Pv k (le_n _)) as H.
    rewrite !nth_error_map, Nv, Nw in H. cbn in H.
    assert (k < List.length t')%nat by (apply nth_error_Some; congruence).
    assert (k < List.length t)%nat by (apply nth_error_Some; congruence).
    specialize (H ltac:(assumption) ltac:(assumption)). congruence.
  Qed.
End provers.
