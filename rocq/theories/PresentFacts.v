(** Facts about the game of presentations. *)
From Verif Require Export SpecPresent OracleFacts.
From Coq Require Import Setoid.
Local Open Scope Z_scope.

(** ** The points held, as polynomials.  Variable 0 is [t], variables 1 and 2 are
    the key, and the coins follow. *)
Definition p_exponent (m : Z) : pexp := PAdd (PV 1) (PMul (PV 2) (PC m)).
Definition p_h : pexp := PV 0.
Definition p_X1 : pexp := PMul (PV 2) (PV 0).
Definition p_public : list pexp := [PC 1; PC 1; p_h; p_X1].
Fixpoint p_issued (i : nat) (ms : list Z) : list pexp :=
  match ms with
  | [] => []
  | m :: ms' => [PV i; PMul (PV i) (p_exponent m); PAdd (PV 1) (PMul (PV 0) (PV (S i)))] ++ p_issued (S (S i)) ms'
  end.
Definition p_held (ms : list Z) : list pexp := p_public ++ p_issued 3 ms.

Lemma p_issued_app i ms ms' : p_issued i (ms ++ ms') = p_issued i ms ++ p_issued (i + 2 * List.length ms) ms'.
Proof.
  revert i; induction ms as [|m ms IH]; intros i; cbn [app p_issued List.length].
  - f_equal. lia.
  - rewrite IH. cbn [app]. do 3 f_equal. f_equal. f_equal. lia.
Qed.
Lemma p_held_app ms m : p_held (ms ++ [m]) = p_held ms ++ p_issued (3 + 2 * List.length ms) [m].
Proof. unfold p_held. rewrite p_issued_app. apply app_assoc. Qed.
Lemma p_held_deg ms : Forall (fun e => deg e <= 2)%nat (p_held ms).
Proof.
  unfold p_held. apply Forall_app. split; [repeat constructor|].
  generalize 3%nat. induction ms as [|m ms IH]; intros i; [constructor|]. cbn [p_issued app].
  repeat (apply Forall_cons; [cbn; lia|]). apply IH.
Qed.

Lemma ev_p_issued c i ms v :
  ev (sym_comb c (p_issued i ms)) v = tail_value 1 (nth 0 v 0) (nth 1 v 0) [nth 2 v 0] c (map (fun m => [m]) ms) (skipn i v).
Proof.
  revert c i; induction ms as [|m ms IH]; intros c i; [reflexivity|].
  cbn [p_issued app sym_comb ev tail_value map p_exponent dot]. rewrite IH, !tl_skipn, !hd_skipn. ring.
Qed.
Lemma ev_p_held c ms v :
  ev (sym_comb c (p_held ms)) v =
  head_value 1 (nth 0 v 0) [nth 2 v 0] c + tail_value 1 (nth 0 v 0) (nth 1 v 0) [nth 2 v 0] (skipn 4 c) (map (fun m => [m]) ms) (skipn 3 v).
Proof.
  unfold p_held. rewrite sym_comb_app, ev_p_issued. cbn [p_public List.length sym_comb ev p_h p_X1]. unfold head_value.
  replace (skipn 3 c) with (tl (tl (tl c))) by (destruct c as [|? [|? [|? ?]]]; reflexivity).
  destruct (tl (tl (tl c))) as [|a l]; cbn [dot hd tl]; [|destruct l]; cbn [dot hd tl]; ring.
Qed.

(** Sums and multiples of combinations. *)
Lemma sym_comb_nil es v : ev (sym_comb [] es) v = 0.
Proof. induction es as [|e es IH]; [reflexivity|]. cbn [sym_comb ev hd tl]. rewrite IH. ring. Qed.
Lemma sym_comb_add a b es v : ev (sym_comb (add_comb a b) es) v = ev (sym_comb a es) v + ev (sym_comb b es) v.
Proof.
  revert a b; induction es as [|e es IH]; intros a b; [reflexivity|].
  destruct a as [|x a]; [cbn [add_comb]; cbn [sym_comb ev hd tl]; rewrite sym_comb_nil; ring|].
  destruct b as [|y b]; cbn [add_comb sym_comb ev hd tl]; [rewrite sym_comb_nil; ring|]. rewrite IH. unfold scalar. ring.
Qed.
Lemma sym_comb_scale z a es v : ev (sym_comb (scale_comb z a) es) v = z * ev (sym_comb a es) v.
Proof.
  revert a; induction es as [|e es IH]; intros a; [cbn; ring|].
  destruct a as [|x a]; cbn [scale_comb map sym_comb ev hd tl]; [rewrite !sym_comb_nil; ring|].
  fold (scale_comb z a). rewrite IH. ring.
Qed.
Lemma ev_unit_h z ms v : ev (sym_comb [0; 0; z] (p_held ms)) v = z * nth 0 v 0.
Proof. unfold p_held. cbn [p_public app sym_comb ev hd tl p_h p_X1]. rewrite sym_comb_nil. ring. Qed.
Lemma ev_unit_X1 z ms v : ev (sym_comb [0; 0; 0; z] (p_held ms)) v = z * (nth 2 v 0 * nth 0 v 0).
Proof. unfold p_held. cbn [p_public app sym_comb ev hd tl p_h p_X1]. rewrite sym_comb_nil. ring. Qed.

Section formal.
  Context (R : list Z) (R_nodup : NoDup R) (R_all : forall x, In x R <-> 0 <= x < ell)
          (R_length : Z.of_nat (List.length R) = ell) (N : nat).
  Let n := (3 + 2 * N)%nat.
  Definition as_messages (ms : list Z) : list (list Z) := map (fun m => [m]) ms.

  (** A tag equation on a fresh message that always holds. *)
  Lemma formal_tag cP cQ m ms : (List.length ms <= N)%nat -> fresh [m] (as_messages ms) = true ->
    (forall v, In v (tuples R n) -> ev (sym_comb cQ (p_held ms)) v == (nth 1 v 0 + nth 2 v 0 * m) * ev (sym_comb cP (p_held ms)) v) ->
    forall v, In v (tuples R n) -> ~ nth 0 v 0 == 0 -> ev (sym_comb cP (p_held ms)) v == 0.
  Proof.
    intros Hl Hf H v Hv Ht. pose proof Hv as Hv'. apply (in_tuples R R_all) in Hv' as [Hlv Hc].
    destruct v as [|t [|x0 [|x1 w]]]; try (cbn in Hlv; lia). cbn [nth] in Ht.
    rewrite ev_p_held. cbn [nth]. change (skipn 3 (t :: x0 :: x1 :: w)) with w.
    apply (no_identity 1 t 1 [m] (as_messages ms) cP cQ (2 * N) Ht).
    - apply Forall_forall. intros m' Hm'. unfold fresh in Hf. rewrite forallb_forall in Hf. specialize (Hf m' Hm').
      apply Bool.negb_true_iff in Hf. unfold as_messages in Hm'. apply in_map_iff in Hm' as (a & <- & _).
      apply same_message_differ; auto.
    - unfold as_messages. rewrite map_length. lia.
    - intros y0 ys u Hy0 [Hyl Hyc] [Hul Huc]. destruct ys as [|y1 [|? ?]]; try discriminate.
      specialize (H (t :: y0 :: y1 :: u)). rewrite !ev_p_held in H. cbn [nth] in H.
      change (skipn 3 (t :: y0 :: y1 :: u)) with u in H.
      apply eqm_sub_0 in H.
      + etransitivity; [|exact H]. cbn [dot]. change (3 + 1)%nat with 4%nat. fold (as_messages ms). apply eqm_of_eq. ring.
      + apply (in_tuples R R_all). split; [cbn [List.length]; unfold n; lia|].
        inversion Hc; subst. inversion Hyc; subst. repeat (constructor; [assumption|]). exact Huc.
    - split; [reflexivity|]. inversion Hc as [|? ? _ H1]; subst. inversion H1 as [|? ? _ H2]; subst. inversion H2; subst.
      constructor; [assumption|constructor].
  Qed.

  (** What an accepted presentation comes to. *)
  Lemma formal_show cP cQ cC m z q ms : (List.length ms <= N)%nat ->
    let P := sym_comb cP (p_held ms) in let Q := sym_comb cQ (p_held ms) in let C := sym_comb cC (p_held ms) in
    (forall v, In v (tuples R n) -> ev C v == m * ev P v + z * nth 0 v 0) ->
    (forall v, In v (tuples R n) -> nth 1 v 0 * ev P v + nth 2 v 0 * ev C v - ev Q v ==
                                    z * (nth 2 v 0 * nth 0 v 0) + q * nth 0 v 0) ->
    forall v, In v (tuples R n) -> ev Q v + q * nth 0 v 0 == (nth 1 v 0 + nth 2 v 0 * m) * ev P v.
  Proof.
    intros Hl P Q C H1 H2 v Hv. specialize (H1 v Hv). specialize (H2 v Hv). rewrite H1 in H2.
    apply eqm_sub_0. apply eqm_sub_0 in H2.
    match goal with |- ?a == 0 => match type of H2 with ?b == 0 => transitivity (- b); [apply eqm_of_eq; ring|rewrite H2; reflexivity] end end.
  Qed.
  Lemma formal_pass cP cQ cC m z q ms : (List.length ms <= N)%nat ->
    let P := sym_comb cP (p_held ms) in let Q := sym_comb cQ (p_held ms) in let C := sym_comb cC (p_held ms) in
    (forall v, In v (tuples R n) -> ev C v == m * ev P v + z * nth 0 v 0) ->
    (forall v, In v (tuples R n) -> nth 1 v 0 * ev P v + nth 2 v 0 * ev C v - ev Q v ==
                                    z * (nth 2 v 0 * nth 0 v 0) + q * nth 0 v 0) ->
    ms = [] \/ (exists m' z' z1 number r,
      (forall v, In v (tuples R n) -> ev C v == m' * ev P v + z' * nth 0 v 0) /\
      (forall v, In v (tuples R n) -> number * nth 0 v 0 + r == m' * nth 0 v 0 + z1) /\
      fresh [number] (as_messages ms) = true) ->
    forall v, In v (tuples R n) -> ~ nth 0 v 0 == 0 -> ev P v == 0.
  Proof.
    intros Hl P Q C H1 H2 Hwin v Hv Ht. pose proof (formal_show cP cQ cC m z q ms Hl H1 H2) as Hs.
    destruct Hwin as [->|(m' & z' & z1 & number & r & H3 & H4 & Hf)].
    - apply (formal_tag cP (add_comb cQ [0; 0; q]) m []); try assumption; [reflexivity|].
      intros w Hw. rewrite sym_comb_add, ev_unit_h. apply Hs. exact Hw.
    - (* the number shown is the number in the entry *)
      assert (Hn : number == m').
      { pose proof (in_tuples R R_all) as It. pose proof two_lt_ell.
        assert (Z0 : In (repeat 0 n) (tuples R n)) by (apply It; apply scalars_zeros).
        assert (Z1 : In (1 :: repeat 0 (2 + 2 * N)) (tuples R n)).
        { apply It. destruct (scalars_zeros (2 + 2 * N)) as [Hzl Hzc]. split; [cbn [List.length]; rewrite Hzl; unfold n; lia|].
          constructor; [lia|exact Hzc]. }
        pose proof (H4 _ Z0) as A0. pose proof (H4 _ Z1) as A1. cbn [nth] in A1. unfold n in A0. cbn [repeat Nat.add nth] in A0.
        apply eqm_sub_0. apply eqm_sub_0 in A0, A1.
        match type of A0 with ?a == _ => match type of A1 with ?b == _ => transitivity (b - a) end end; [apply eqm_of_eq; ring|].
        rewrite A0, A1. reflexivity. }
      assert (Hd : forall w, In w (tuples R n) -> (m - m') * ev P w == (z' - z) * nth 0 w 0).
      { intros w Hw. pose proof (H1 w Hw) as B1. rewrite (H3 w Hw) in B1. apply eqm_sub_0. apply eqm_sub_0 in B1.
        match type of B1 with ?a == _ => transitivity (- a); [apply eqm_of_eq; ring|rewrite B1; reflexivity] end. }
      destruct (Z.eq_dec ((m - m') mod ell) (0 mod ell)) as [He|He].
      + (* a tag on the number *)
        assert (Hm : m == number) by (rewrite Hn; apply eqm_sub_0; exact He).
        apply (formal_tag cP (add_comb cQ [0; 0; q]) number ms); try assumption.
        intros w Hw. rewrite sym_comb_add, ev_unit_h, <- Hm. apply Hs. exact Hw.
      + (* otherwise the nonce is a multiple of [h] *)
        assert (Hz : ev (sym_comb (scale_comb (m - m') cP) (p_held ms)) v == 0).
        { apply (formal_tag (scale_comb (m - m') cP)
            (add_comb (scale_comb (m - m') (add_comb cQ [0; 0; q])) [0; 0; 0; (number - m) * (z' - z)]) number ms); try assumption.
          intros w Hw. rewrite sym_comb_add, !sym_comb_scale, sym_comb_add, ev_unit_h, ev_unit_X1.
          pose proof (Hs w Hw) as Hs'. specialize (Hd w Hw). unfold P, Q in *. unfold scalar in *. rewrite Hs'. clear Hs'. apply eqm_sub_0. apply eqm_sub_0 in Hd.
          match type of Hd with ?a == _ => transitivity ((m - number) * nth 2 w 0 * a); [apply eqm_of_eq; ring|rewrite Hd; apply eqm_of_eq; ring] end. }
        rewrite sym_comb_scale in Hz. fold P in Hz. apply eqm_mul_0 in Hz as [Hz|Hz]; [contradiction|exact Hz].
  Qed.
End formal.

(** ** What the proofs say, as a relation between exponents.  With [k = 1] the
    responses [w] are accepted for the challenge [c]; with [k = 0] and [c = 1]
    they are a witness. *)
Definition zero_mod (x : Z) : bool := x mod ell =? 0.
Lemma zero_mod_iff x : zero_mod x = true <-> x == 0.
Proof. exact (zero_at_iff (PC x) []). Qed.
Lemma zero_mod_eqm x y : x == y -> zero_mod x = zero_mod y.
Proof. unfold zero_mod, Algebra.eqm. intros ->. reflexivity. Qed.
Definition zrel (k c : Z) (w us : list Z) : bool :=
  let m := nth 0 w 0 in let z := nth 1 w 0 in let q := nth 2 w 0 in
  match us with
  | [_; A; X0; P; V; C; K1; K2] => zero_mod (k * K1 + c * C - (m * P + z * A)) && zero_mod (k * K2 + c * V - (z * X0 + q * A))
  | [B; A; P; C0; C1; K1; K2] => zero_mod (k * K1 + c * C0 - (m * P + z * A)) && zero_mod (k * K2 + c * C1 - (m * A + q * B))
  | _ => true
  end.
Lemma zrel_same k c w us us' : Forall2 Algebra.eqm us us' -> zrel k c w us = zrel k c w us'.
Proof.
  intros H.
  do 7 (destruct H as [|? ? ? ? ? H]; [reflexivity|]).
  destruct H as [|? ? ? ? ? H]; [|destruct H; [|reflexivity]]; cbn [zrel]; f_equal; apply zero_mod_eqm;
    repeat match goal with H : _ == _ |- _ => rewrite H; clear H end; reflexivity.
Qed.
Lemma zrel_extract c c' d w w' us : d * (c - c') == 1 -> zrel 1 c w us = true -> zrel 1 c' w' us = true ->
  zrel 0 1 (map (fun i => (d * (nth i w 0 - nth i w' 0)) mod ell) [0; 1; 2]%nat) us = true.
Proof.
  intros Hd.
  assert (G : forall K X Y Y', K + c * X - Y == 0 -> K + c' * X - Y' == 0 -> X - d * (Y - Y') == 0).
  { intros K X Y Y' H H'. transitivity (d * (c - c') * X - d * (Y - Y')); [rewrite Hd; apply eqm_of_eq; ring|].
    transitivity (d * ((K + c * X - Y) - (K + c' * X - Y'))); [apply eqm_of_eq; ring|]. rewrite H, H'. apply eqm_of_eq; ring. }
  intros H H'.
  do 7 (destruct us as [|? us]; [reflexivity|]).
  destruct us as [|? us]; [|destruct us; [|reflexivity]]; cbn [zrel map nth] in *;
    apply andb_prop in H as [H1 H2], H' as [H1' H2']; rewrite zero_mod_iff in *; rewrite ?Z.mul_1_l in *;
    apply andb_true_intro; rewrite !zero_mod_iff, ?Z.mul_1_l; (split;
    [match goal with |- 0 * ?K + ?X - _ == 0 => pose proof (G K X _ _ H1 H1') as H0 end
    |match goal with |- 0 * ?K + ?X - _ == 0 => pose proof (G K X _ _ H2 H2') as H0 end]);
    (etransitivity; [|exact H0]); eqm_push; apply eqm_of_eq; ring.
Qed.
Lemma zrel_mod k c w us : zrel k c (map (fun x => x mod ell) w) us = zrel k c w us.
Proof.
  assert (N : forall i, nth i (map (fun x => x mod ell) w) 0 == nth i w 0).
  { intros i. transitivity (nth i w 0 mod ell); [|eqm_push; reflexivity].
    apply eqm_of_eq. exact (map_nth (fun x => x mod ell) w 0 i). }
  do 7 (destruct us as [|? us]; [reflexivity|]).
  destruct us as [|? us]; [|destruct us; [|reflexivity]]; cbn [zrel]; f_equal; apply zero_mod_eqm; rewrite !N; reflexivity.
Qed.

Definition p_sub (a b : pexp) : pexp := PAdd a (PMul (PC (-1)) b).

Lemma count_snd {A B} (g : B -> bool) (l : list A) (T : list B) :
  count (fun p => g (snd p)) (list_prod l T) = Z.of_nat (List.length l) * count g T.
Proof.
  induction l as [|a l IH]; [reflexivity|]. cbn [list_prod]. rewrite count_app, count_map, IH. cbn [snd].
  change (fun a0 : B => g a0) with g. cbn [List.length]. lia.
Qed.

Lemma first_of {A B} (U : list A) (l : list (list A)) (T : list B) :
  list_prod (flat_map (fun u => map (cons u) l) U) T = flat_map (fun u => map (fun p => (u :: fst p, snd p)) (list_prod l T)) U.
Proof.
  induction U as [|u U IH]; [reflexivity|]. cbn [flat_map]. rewrite list_prod_app, list_prod_map, IH. reflexivity.
Qed.

Section hashing.
  Context {E : Ext} (L : ExtLaws E).
  Context (R : list Z) (R_nodup : NoDup R) (R_all : forall x, In x R <-> 0 <= x < ell)
          (R_length : Z.of_nat (List.length R) = ell) (n : nat).

  Definition vals (v : list Z) (u : list pexp) : list Z := map (fun e => ev e v) u.
  Definition frel (k c : Z) (u : list pexp) (w : list Z) : bool := forallb (fun v => zrel k c w (vals v u)) (tuples R n).
  Lemma frel_iff k c u w : frel k c u w = true <-> forall v, In v (tuples R n) -> zrel k c w (vals v u) = true.
  Proof. apply forallb_forall. Qed.

  (** A challenge which lets a proof of something false be made. *)
  Definition unlucky (u : list pexp) (c : Z) : bool :=
    existsb (frel 1 c u) (tuples R 3) && negb (existsb (frel 0 1 u) (tuples R 3)).
  Lemma unlucky_one u : count (unlucky u) R <= 1.
  Proof.
    apply count_one; [exact R_nodup|]. intros c c' Hc Hc' H H'. apply R_all in Hc, Hc'.
    apply andb_prop in H as [H Hno], H' as [H' _]. apply existsb_exists in H as (w & Hw & H), H' as (w' & Hw' & H').
    destruct (Z.eq_dec c c') as [|Hne]; [assumption|]. exfalso.
    assert (Hd : ~ c - c' == 0). { intros He. apply (proj2 (eqm_sub_0 c c')) in He. apply eqm_canonical in He; auto. }
    apply Bool.negb_true_iff, Bool.not_true_iff_false in Hno. apply Hno. apply existsb_exists.
    exists (map (fun i => (s_inv (c - c') * (nth i w 0 - nth i w' 0)) mod ell) [0; 1; 2]%nat). split.
    - apply (in_tuples R R_all). split; [reflexivity|]. repeat (constructor; [apply mod_range|]). constructor.
    - apply frel_iff. intros v Hv. rewrite frel_iff in H, H'.
      apply (zrel_extract c c' _ w w'); [apply s_inv_spec; exact Hd|apply H; exact Hv|apply H'; exact Hv].
  Qed.
  Lemma lucky_witness u c w : unlucky u c = false -> List.length w = 3%nat ->
    (forall v, In v (tuples R n) -> zrel 1 c w (vals v u) = true) ->
    exists m z q, forall v, In v (tuples R n) -> zrel 0 1 [m; z; q] (vals v u) = true.
  Proof.
    intros Hu Hl H. unfold unlucky in Hu.
    assert (He : existsb (frel 1 c u) (tuples R 3) = true).
    { apply existsb_exists. exists (map (fun x => x mod ell) w). split.
      - apply (in_tuples R R_all). rewrite map_length. split; [exact Hl|]. apply Forall_map, Forall_forall. intros; apply mod_range.
      - apply frel_iff. intros v Hv. rewrite zrel_mod. apply H. exact Hv. }
    rewrite He in Hu. cbn [andb] in Hu. apply Bool.negb_false_iff in Hu. apply existsb_exists in Hu as (w' & Hw' & Hr).
    apply (in_tuples R R_all) in Hw' as [Hlw _]. destruct w' as [|m [|z [|q [|? ?]]]]; try discriminate.
    exists m, z, q. apply frel_iff. exact Hr.
  Qed.

  (** When two lists of points are the same. *)
  Fixpoint same_at (v : list Z) (u u' : list pexp) : bool :=
    match u, u' with
    | [], [] => true
    | a :: u, b :: u' => zero_at (p_sub a b) v && same_at v u u'
    | _, _ => false
    end.
  Definition always_same (u u' : list pexp) : bool := forallb (fun v => same_at v u u') (tuples R n).
  Lemma sub_zero a b v : zero_at (p_sub a b) v = true <-> ev a v == ev b v.
  Proof.
    rewrite zero_at_iff. unfold p_sub. cbn [ev]. rewrite (eqm_sub_0 (ev a v) (ev b v)).
    replace (ev a v + -1 * ev b v) with (ev a v - ev b v) by ring. reflexivity.
  Qed.
  Lemma same_vals v u u' : same_at v u u' = true -> Forall2 Algebra.eqm (vals v u) (vals v u').
  Proof.
    revert u'; induction u as [|a u IH]; intros [|b u'] H; try discriminate; [constructor|]. cbn [same_at] in H.
    apply andb_prop in H as [H1 H2]. apply sub_zero in H1. constructor; [exact H1|apply IH; exact H2].
  Qed.
  Lemma points_same v u u' : points_eqb (map (pt_at (E := E) v) u) (map (pt_at v) u') = same_at v u u'.
  Proof.
    revert u'; induction u as [|a u IH]; intros [|b u']; cbn [map points_eqb same_at]; try reflexivity. rewrite IH. f_equal.
    apply Bool.eq_true_iff_eq. rewrite (peqb_true L), sub_zero. unfold pt_at. apply (smul_base_iff L).
  Qed.
  Lemma unlucky_same u u' c : always_same u u' = true -> unlucky u c = unlucky u' c.
  Proof.
    intros H. unfold always_same in H. rewrite forallb_forall in H.
    assert (F : forall k c w, frel k c u w = frel k c u' w).
    { intros k c' w. apply Bool.eq_true_iff_eq. rewrite !frel_iff.
      split; intros G v Hv; specialize (G v Hv); rewrite (zrel_same _ _ _ _ _ (same_vals v u u' (H v Hv))) in *; exact G. }
    unfold unlucky. f_equal; [|f_equal]; apply Bool.eq_true_iff_eq; rewrite !existsb_exists;
      split; intros (w & Hw & Hr); exists w; (split; [exact Hw|]); rewrite F in *; exact Hr.
  Qed.
  Lemma differ_where d u u' v0 : Forall (fun e => deg e <= d)%nat u -> Forall (fun e => deg e <= d)%nat u' -> same_at v0 u u' = false ->
    (forall v, same_at v u u' = false) \/
    exists e, (deg e <= d)%nat /\ zero_at e v0 = false /\ forall v, same_at v u u' = true -> zero_at e v = true.
  Proof.
    intros Hu. revert u'; induction Hu as [|a u Ha Hu IH]; intros u' Hu' H; destruct Hu' as [|b u' Hb Hu'];
      try (left; reflexivity); [discriminate|].
    cbn [same_at] in H. destruct (zero_at (p_sub a b) v0) eqn:Hz.
    - cbn [andb] in H. destruct (IH u' Hu' H) as [Hn|(e & H1 & H2 & H3)].
      + left. intros v. cbn [same_at]. rewrite Hn. apply Bool.andb_false_r.
      + right. exists e. split; [exact H1|]. split; [exact H2|]. intros v Hv. cbn [same_at] in Hv. apply andb_prop in Hv as [_ Hv]. auto.
    - right. exists (p_sub a b). split; [unfold p_sub; cbn [deg]; lia|]. split; [exact Hz|].
      intros v Hv. cbn [same_at] in Hv. apply andb_prop in Hv as [Hv _]. exact Hv.
  Qed.
  Lemma few_same d u u' : Forall (fun e => deg e <= d)%nat u -> Forall (fun e => deg e <= d)%nat u' -> always_same u u' = false ->
    count (fun v => same_at v u u') (tuples R n) * ell <= Z.of_nat d * ell ^ Z.of_nat n.
  Proof.
    intros Hu Hu' H. pose proof ell_pos as Hell. assert (Hp : 0 <= ell ^ Z.of_nat n) by (apply Z.pow_nonneg; lia).
    assert (exists v0, In v0 (tuples R n) /\ same_at v0 u u' = false) as (v0 & Hin & Hv0).
    { unfold always_same in H. clear - H. induction (tuples R n) as [|v T IH]; [discriminate|]. cbn [forallb] in H.
      destruct (same_at v u u') eqn:Hs; [|exists v; split; [left; reflexivity|exact Hs]].
      cbn [andb] in H. destruct (IH H) as (v0 & H1 & H2). exists v0. split; [right; exact H1|exact H2]. }
    destruct (differ_where d u u' v0 Hu Hu' Hv0) as [Hn|(e & Hd & Hz & Hs)].
    - rewrite count_false; [nia|]. intros v _. apply Hn.
    - assert (Hvan : vanishes R n e = false).
      { apply Bool.not_true_iff_false. intros Hv. unfold vanishes in Hv. rewrite forallb_forall in Hv. rewrite (Hv v0 Hin) in Hz. discriminate. }
      pose proof (few_zeros R R_nodup R_all R_length n e Hvan) as Hf.
      pose proof (count_le (fun v => same_at v u u') (zero_at e) (tuples R n) (fun v _ => Hs v)) as Hc.
      assert (count (fun v => same_at v u u') (tuples R n) * ell <= count (zero_at e) (tuples R n) * ell) by (apply Z.mul_le_mono_nonneg_r; lia).
      assert (Z.of_nat (deg e) * ell ^ Z.of_nat n <= Z.of_nat d * ell ^ Z.of_nat n) by (apply Z.mul_le_mono_nonneg_r; lia).
      lia.
  Qed.

  (** The table of the random function. *)
  Definition table_at (v : list Z) (S : list (list pexp * Z)) : list (list (point E) * scalar) :=
    map (fun e => (map (pt_at v) (fst e), snd e)) S.
  Definition clash (S : list (list pexp * Z)) (u : list pexp) (v : list Z) : bool :=
    existsb (fun e => negb (always_same (fst e) u) && same_at v (fst e) u) S.
  Definition low (u : list pexp) : Prop := Forall (fun e => deg e <= 3)%nat u.
  Definition sound_table (S : list (list pexp * Z)) : Prop := Forall (fun e => low (fst e) /\ unlucky (fst e) (snd e) = false) S.
  Lemma find_table v S u : In v (tuples R n) -> clash S u v = false ->
    find (fun e => points_eqb (fst e) (map (pt_at v) u)) (table_at v S) =
    option_map (fun e => (map (pt_at (E := E) v) (fst e), snd e)) (find (fun e => always_same (fst e) u) S).
  Proof.
    intros Hv. induction S as [|e S IH]; intros H; [reflexivity|]. cbn [clash existsb] in H. apply Bool.orb_false_iff in H as [H1 H2].
    cbn [table_at map find fst]. rewrite points_same. destruct (always_same (fst e) u) eqn:Ha.
    - unfold always_same in Ha. rewrite forallb_forall in Ha. rewrite (Ha v Hv). reflexivity.
    - cbn [negb andb] in H1. rewrite H1. apply IH. exact H2.
  Qed.
  Lemma few_clashes S u : sound_table S -> low u ->
    count (clash S u) (tuples R n) * ell <= 3 * Z.of_nat (List.length S) * ell ^ Z.of_nat n.
  Proof.
    intros HS Hu. pose proof ell_pos as Hell. assert (Hp : 0 <= ell ^ Z.of_nat n) by (apply Z.pow_nonneg; lia).
    induction HS as [|e S [He _] HS IH]; [rewrite count_false; [cbn; lia|reflexivity]|].
    pose proof (count_or (clash (e :: S) u) (fun v => negb (always_same (fst e) u) && same_at v (fst e) u) (clash S u) (tuples R n)) as Hor.
    assert (H1 : count (fun v => negb (always_same (fst e) u) && same_at v (fst e) u) (tuples R n) * ell <= 3 * ell ^ Z.of_nat n).
    { destruct (always_same (fst e) u) eqn:Ha; cbn [negb andb].
      - rewrite count_false; [lia|reflexivity].
      - apply (few_same 3 (fst e) u He Hu Ha). }
    cbn [List.length]. rewrite Nat2Z.inj_succ.
    assert (count (clash (e :: S) u) (tuples R n) <=
      count (fun v => negb (always_same (fst e) u) && same_at v (fst e) u) (tuples R n) + count (clash S u) (tuples R n)).
    { apply Hor. intros v _ H. cbn [clash existsb] in H. apply Bool.orb_prop in H. exact H. }
    nia.
  Qed.

  Definition space (M : nat) : list (list Z * list Z) := list_prod (lists R M) (tuples R n).
  Definition full (M : nat) : Z := ell ^ Z.of_nat M * ell ^ Z.of_nat n.
  Lemma full_nonneg M : 0 <= full M.
  Proof. clear. pose proof ell_pos. apply Z.mul_nonneg_nonneg; apply Z.pow_nonneg; lia. Qed.
  Lemma full_S M : full (S M) = ell * full M.
  Proof. unfold full. rewrite Nat2Z.inj_succ, Z.pow_succ_r by lia. ring. Qed.
  Lemma space_length M : Z.of_nat (List.length (space M)) = full M.
  Proof. unfold space, full. rewrite prod_length, Nat2Z.inj_mul, lists_length, R_length, (tuples_length R R_length). reflexivity. Qed.
  Lemma space_S M : space (S M) = flat_map (fun c => map (fun p => (c :: fst p, snd p)) (space M)) R.
  Proof.
    unfold space. cbn [lists]. apply first_of.
  Qed.
  Lemma in_space M p : In p (space M) -> In (snd p) (tuples R n).
  Proof. destruct p as [a v]. intros H. apply in_prod_iff in H as [_ H]. exact H. Qed.
  Lemma count_values (g : list Z -> bool) D M : count g (tuples R n) * ell <= D * ell ^ Z.of_nat n ->
    count (fun p => g (snd p)) (space M) * ell <= D * full M.
  Proof.
    intros H. unfold space. rewrite count_snd, lists_length, R_length. pose proof ell_pos. assert (0 <= ell ^ Z.of_nat M) by (apply Z.pow_nonneg; lia).
    unfold full. nia.
  Qed.

  (** Hashing once. *)
  Lemma hash_step S u M (G : scalar -> list (list (point E) * scalar) -> list scalar -> list Z -> bool) D :
    0 <= D -> sound_table S -> low u ->
    (forall c S' M', unlucky u c = false -> sound_table S' -> (List.length S' <= 1 + List.length S)%nat ->
       count (fun p => G c (table_at (snd p) S') (fst p) (snd p)) (space M') * ell <= D * full M') ->
    count (fun p => match hash (table_at (snd p) S) (fst p) (map (pt_at (snd p)) u) with
                    | None => false
                    | Some (c, table, values) => G c table values (snd p)
                    end) (space M) * ell <= (3 * Z.of_nat (List.length S) + 1 + D) * full M.
  Proof.
    intros HD HS Hu HG. pose proof ell_pos as Hell. pose proof (full_nonneg M) as HF.
    set (f := fun p : list Z * list Z => match hash (table_at (snd p) S) (fst p) (map (pt_at (snd p)) u) with
                    | None => false | Some (c, table, values) => G c table values (snd p) end).
    set (g := fun p : list Z * list Z =>
      match find (fun e => always_same (fst e) u) S with
      | Some e => G (snd e) (table_at (snd p) S) (fst p) (snd p)
      | None => match fst p with [] => false | c :: values => G c (table_at (snd p) ((u, c) :: S)) values (snd p) end
      end).
    assert (Hor : count f (space M) <= count (fun p => clash S u (snd p)) (space M) + count g (space M)).
    { apply count_or. intros [values v] Hp Hf. apply in_space in Hp. cbn [snd] in *. destruct (clash S u v) eqn:Hc; [left; reflexivity|]. right.
      unfold f, hash in Hf. cbn [fst snd] in Hf. rewrite (find_table v S u Hp Hc) in Hf. unfold g. cbn [fst snd].
      destruct (find _ S) as [e|]; cbn [option_map] in Hf; [exact Hf|]. destruct values; exact Hf. }
    pose proof (count_values (clash S u) _ M (few_clashes S u HS Hu)) as Hcl.
    assert (Hg : count g (space M) * ell <= (1 + D) * full M).
    { unfold g. destruct (find _ S) as [e|] eqn:Hfind.
      - apply find_some in Hfind as [Hin Hsame]. assert (He : unlucky u (snd e) = false).
        { rewrite <- (unlucky_same _ _ _ Hsame). unfold sound_table in HS. rewrite Forall_forall in HS. apply (HS e Hin). }
        etransitivity; [apply (HG (snd e) S M He HS ltac:(lia))|]. rewrite Z.mul_add_distr_r. lia.
      - destruct M as [|M].
        + rewrite count_false; [apply Z.mul_nonneg_nonneg; lia|]. intros [values v] Hp. apply in_prod_iff in Hp as [Hp _].
          cbn [lists] in Hp. destruct Hp as [<-|[]]. reflexivity.
        + rewrite space_S.
          pose proof (count_flat_map_bad (fun p : list Z * list Z => match fst p with [] => false | c :: values => G c (table_at (snd p) ((u, c) :: S)) values (snd p) end)
            (fun c => map (fun p => (c :: fst p, snd p)) (space M)) (unlucky u) R ell (D * full M) (full M * ell)) as Hb.
          pose proof (full_nonneg M) as HFM. etransitivity; [apply Hb|].
          * nia.
          * intros c _. apply Z.mul_le_mono_nonneg_r; [lia|]. rewrite <- (space_length M), <- (map_length (fun p => (c :: fst p, snd p))). apply count_all.
          * intros c _ Hc. rewrite count_map. cbn [fst snd]. apply (HG c ((u, c) :: S) M Hc); [|cbn [List.length]; lia].
            constructor; [split; [exact Hu|exact Hc]|exact HS].
          * rewrite R_length, full_S. pose proof (unlucky_one u). pose proof (count_nonneg (unlucky u) R). nia. }
    assert (count f (space M) * ell <= (count (fun p => clash S u (snd p)) (space M) + count g (space M)) * ell) by (apply Z.mul_le_mono_nonneg_r; lia).
    replace ((3 * Z.of_nat (List.length S) + 1 + D) * full M) with (3 * Z.of_nat (List.length S) * full M + (1 + D) * full M) by ring.
    etransitivity; [exact H|]. rewrite Z.mul_add_distr_r. apply Z.add_le_mono; assumption.
  Qed.
End hashing.

(** ** The points hashed for a presentation *)
Definition p_V (P Q C : pexp) : pexp := PAdd (PAdd (PMul (PV 1) P) (PMul (PV 2) C)) (PMul (PC (-1)) Q).
Definition p_reply (a : Z) (A : pexp) (b : Z) (B : pexp) (c : Z) (C : pexp) : pexp :=
  PAdd (PAdd (PMul (PC a) A) (PMul (PC b) B)) (PMul (PC (-c)) C).
Definition p_show (P Q C : pexp) (pf : vc_Proof) : list pexp :=
  let s := vc_responses pf in
  [PC 1; p_h; p_X1; P; p_V P Q C; C;
   p_reply (vcs_m0 s) P (vcs_z0 s) p_h (vc_challenge pf) C;
   p_reply (vcs_z0 s) p_X1 (vcs_minus_zQ s) p_h (vc_challenge pf) (p_V P Q C)].
Definition p_entry (n r : Z) : pexp := PAdd (PMul (PC n) p_h) (PC r).
Definition p_member (P C : pexp) (n r : Z) (pf : ce_Proof) : list pexp :=
  let s := ce_responses pf in
  [PC 1; p_h; P; C; p_entry n r;
   p_reply (ces_m0 s) P (ces_z0 s) p_h (ce_challenge pf) C;
   p_reply (ces_m0 s) p_h (ces_z1 s) (PC 1) (ce_challenge pf) (p_entry n r)].

Section points.
  Context {E : Ext} (L : ExtLaws E).
  Lemma show_at v P Q C pf :
    let params := params_at (E := E) (nth 0 v 0) in
    let p := presentation_publics params (smul (nth 2 v 0) (sp_h params)) (nth 1 v 0) (nth 2 v 0) (pt_at v P) (pt_at v Q) (pt_at v C) in
    show_points p (vc_recompute pf p) = map (pt_at v) (p_show P Q C pf).
  Proof.
    cbv zeta. unfold show_points, vc_recompute, presentation_publics, params_at, p_show, p_reply, p_V, p_h, p_X1, pt_at.
    cbn [vcp_B vcp_A vcp_X0 vcp_P vcp_V vcp_Cm0 vcc_Cm0 vcc_V sp_g sp_h map ev multiscalar_mul].
    destruct pf as [c [m z q]]. cbn [vc_responses vc_challenge vcs_m0 vcs_z0 vcs_minus_zQ].
    rewrite !(padd_zero_r L). generalize (ev P v) (ev Q v) (ev C v) (nth 0 v 0) (nth 1 v 0) (nth 2 v 0). intros a b d t x0 x1.
    to_base L. unfold s_neg.
    repeat (apply f_equal2; [first [reflexivity|symmetry; apply smul_1|apply (smul_base_iff L); eqm_push; apply eqm_of_eq; zring]|]). reflexivity.
  Qed.
  Lemma member_at v P C n r pf :
    let params := params_at (E := E) (nth 0 v 0) in
    let p := roster_publics params (pt_at v P) (pt_at v C) (padd (smul n (sp_h params)) (smul r (sp_g params))) in
    member_points p (ce_recompute pf p) = map (pt_at v) (p_member P C n r pf).
  Proof.
    cbv zeta. unfold member_points, ce_recompute, roster_publics, params_at, p_member, p_reply, p_entry, p_h, pt_at.
    cbn [cep_B cep_A cep_P cep_Cm0 cep_Cm1 cec_Cm0 cec_Cm1 sp_g sp_h map ev multiscalar_mul].
    destruct pf as [c [m z q]]. cbn [ce_responses ce_challenge ces_m0 ces_z0 ces_z1].
    rewrite !(padd_zero_r L). generalize (ev P v) (ev C v) (nth 0 v 0). intros a d t.
    to_base L. unfold s_neg.
    repeat (apply f_equal2; [first [reflexivity|symmetry; apply smul_1|apply (smul_base_iff L); eqm_push; apply eqm_of_eq; zring]|]). reflexivity.
  Qed.
End points.

Section witnesses.
  Context (R : list Z) (R_all : forall x, In x R <-> 0 <= x < ell) (n : nat).

  (** Accepted responses are a witness. *)
  Lemma show_witness P Q C pf : unlucky R n (p_show P Q C pf) (vc_challenge pf) = false ->
    exists m z q, forall v, In v (tuples R n) ->
      ev C v == m * ev P v + z * nth 0 v 0 /\
      nth 1 v 0 * ev P v + nth 2 v 0 * ev C v - ev Q v == z * (nth 2 v 0 * nth 0 v 0) + q * nth 0 v 0.
  Proof.
    intros Hu. set (s := vc_responses pf).
    destruct (lucky_witness R R_all n _ _ [vcs_m0 s; vcs_z0 s; vcs_minus_zQ s] Hu eq_refl) as (m & z & q & H).
    - intros v _. unfold vals, p_show, p_reply. cbn [map ev zrel nth]. apply andb_true_intro. rewrite !zero_mod_iff.
      fold s. split; apply eqm_of_eq; zring.
    - exists m, z, q. intros v Hv. specialize (H v Hv). unfold vals, p_show, p_V in H. cbn [map ev zrel nth p_h p_X1] in H.
      apply andb_prop in H as [H1 H2]. rewrite zero_mod_iff in H1, H2. split; apply eqm_sub_0.
      + etransitivity; [|exact H1]. apply eqm_of_eq; ring.
      + etransitivity; [|exact H2]. apply eqm_of_eq; ring.
  Qed.
  Lemma member_witness P C number r pf : unlucky R n (p_member P C number r pf) (ce_challenge pf) = false ->
    exists m z q, forall v, In v (tuples R n) ->
      ev C v == m * ev P v + z * nth 0 v 0 /\ number * nth 0 v 0 + r == m * nth 0 v 0 + q.
  Proof.
    intros Hu. set (s := ce_responses pf).
    destruct (lucky_witness R R_all n _ _ [ces_m0 s; ces_z0 s; ces_z1 s] Hu eq_refl) as (m & z & q & H).
    - intros v _. unfold vals, p_member, p_reply. cbn [map ev zrel nth]. apply andb_true_intro. rewrite !zero_mod_iff.
      fold s. split; apply eqm_of_eq; zring.
    - exists m, z, q. intros v Hv. specialize (H v Hv). unfold vals, p_member, p_entry in H. cbn [map ev zrel nth p_h] in H.
      apply andb_prop in H as [H1 H2]. rewrite zero_mod_iff in H1, H2. split; apply eqm_sub_0.
      + etransitivity; [|exact H1]. apply eqm_of_eq; ring.
      + etransitivity; [|exact H2]. apply eqm_of_eq; ring.
  Qed.
End witnesses.

Section presents.
  Context {E : Ext} (L : ExtLaws E).
  Context (R : list Z) (R_nodup : NoDup R) (R_all : forall x, In x R <-> 0 <= x < ell)
          (R_length : Z.of_nat (List.length R) = ell) (N : nat).
  Let n := (3 + 2 * N)%nat.

  Definition passes_at (o : presenter) (ms : list Z) (table : list (list (point E) * scalar)) (values : list scalar) (v : list Z) : bool :=
    negb (zero_at (PV 0) v) &&
    passes (nth 0 v 0) (nth 1 v 0) (nth 2 v 0) (pairs (skipn (3 + 2 * List.length ms) v)) table values o
           (map (pt_at v) (p_held ms)) (as_messages ms).

  Lemma low_comb ms c : (deg (sym_comb c (p_held ms)) <= 2)%nat.
  Proof. apply sym_comb_deg, p_held_deg. Qed.
  Lemma low_show ms cP cQ cC pf : low (p_show (sym_comb cP (p_held ms)) (sym_comb cQ (p_held ms)) (sym_comb cC (p_held ms)) pf).
  Proof.
    pose proof (low_comb ms cP). pose proof (low_comb ms cQ). pose proof (low_comb ms cC).
    unfold p_show, p_reply, p_V, p_h, p_X1. repeat (apply Forall_cons; [cbn [deg]; lia|]). constructor.
  Qed.
  Lemma low_member ms cP cC number r pf : low (p_member (sym_comb cP (p_held ms)) (sym_comb cC (p_held ms)) number r pf).
  Proof.
    pose proof (low_comb ms cP). pose proof (low_comb ms cC).
    unfold p_member, p_reply, p_entry, p_h. repeat (apply Forall_cons; [cbn [deg]; lia|]). constructor.
  Qed.

  Lemma no_pass ms cP cQ cC pf number r pf' c c' : (List.length ms <= N)%nat ->
    let P := sym_comb cP (p_held ms) in let Q := sym_comb cQ (p_held ms) in let C := sym_comb cC (p_held ms) in
    unlucky R n (p_show P Q C pf) c = false -> unlucky R n (p_member P C number r pf') c' = false ->
    forall v, In v (tuples R n) -> zero_at (PV 0) v = false ->
    scalar_eqb c (vc_challenge pf) && negb (zero_at P v) &&
    (match as_messages ms with [] => true | _ => false end || scalar_eqb c' (ce_challenge pf') && fresh [number] (as_messages ms)) = false.
  Proof.
    intros Hl P Q C Hu Hu' v Hv Ht. apply Bool.not_true_iff_false. intros H. apply andb_prop in H as [H Hw]. apply andb_prop in H as [Hok HP].
    apply Z.eqb_eq in Hok. subst c. destruct (show_witness R R_all n _ _ _ _ Hu) as (m & z & q & Hs).
    apply Bool.negb_true_iff, Bool.not_true_iff_false in HP. apply HP. apply zero_at_iff.
    apply (formal_pass R R_all N cP cQ cC m z q ms Hl).
    - intros w Hw'. apply (Hs w Hw').
    - intros w Hw'. apply (Hs w Hw').
    - destruct ms as [|m1 ms]; [left; reflexivity|right]. cbn [as_messages map orb] in Hw. apply andb_prop in Hw as [Hm Hf].
      apply Z.eqb_eq in Hm. subst c'. destruct (member_witness R R_all n _ _ _ _ _ Hu') as (m' & z' & z1 & Hs').
      exists m', z', z1, number, r. split; [|split; [|exact Hf]]; intros w Hw'; apply (Hs' w Hw').
    - exact Hv.
    - intros Hz. apply Bool.not_true_iff_false in Ht. apply Ht. apply zero_at_iff. exact Hz.
  Qed.

  Definition bound (q h s : nat) : Z := 2 * Z.of_nat q + 3 * Z.of_nat h * (Z.of_nat s + Z.of_nat h).

  Theorem few_passes q h o : presents_within q h o -> forall ms S M, (List.length ms <= N)%nat -> sound_table R n S ->
    count (fun p => passes_at o ms (table_at (snd p) S) (fst p) (snd p)) (space R n M) * ell <= bound q h (List.length S) * full n M.
  Proof.
    pose proof ell_pos as Hell.
    assert (Hmono : forall (f g : list Z * list Z -> bool) B B' M, B <= B' ->
      (forall p, In p (space R n M) -> f p = true -> g p = true) ->
      count g (space R n M) * ell <= B * full n M -> count f (space R n M) * ell <= B' * full n M).
    { intros f g B B' M HB Hfg Hc. pose proof (count_le f g _ Hfg) as Hle. assert (0 <= full n M) by apply full_nonneg.
      assert (count f (space R n M) * ell <= count g (space R n M) * ell) by (apply Z.mul_le_mono_nonneg_r; lia).
      assert (B * full n M <= B' * full n M) by (apply Z.mul_le_mono_nonneg_r; lia). lia. }
    induction 1 as [q h|q h m next Hn IH|q h points next Hn IH|q h c yes no Hy IHy Hno IHn|q h cP cQ cC pf number r pf' next Hn IH]; intros ms S M Hl HS.
    - rewrite count_false; [|intros; unfold passes_at; cbn [passes]; apply Bool.andb_false_r].
      apply Z.mul_nonneg_nonneg; [unfold bound; lia|apply full_nonneg].
    - destruct (Nat.eq_dec (List.length ms) N) as [He|He].
      + rewrite count_false; [apply Z.mul_nonneg_nonneg; [unfold bound; lia|apply full_nonneg]|].
        intros [values v] Hp. apply in_space in Hp. cbn [fst snd] in *. apply (in_tuples R R_all) in Hp as [Hlv _].
        unfold passes_at. cbn [passes]. rewrite skipn_all2 by (unfold n in Hlv; lia). apply Bool.andb_false_r.
      + apply (Hmono _ (fun p => passes_at next (ms ++ [m]) (table_at (snd p) S) (fst p) (snd p)) (bound q h (List.length S))); [lia| |].
        * intros [values v] Hp. apply in_space in Hp. cbn [fst snd] in *. apply (in_tuples R R_all) in Hp as [Hlv _]. unfold n in Hlv.
          unfold passes_at. cbn [passes]. rewrite app_length. cbn [List.length].
          replace (3 + 2 * (List.length ms + 1))%nat with (Datatypes.S (Datatypes.S (3 + 2 * List.length ms))) by lia.
          rewrite (GameFacts.skipn_cons (3 + 2 * List.length ms)), (GameFacts.skipn_cons (Datatypes.S (3 + 2 * List.length ms))) by lia.
          cbn [pairs]. set (b := nth (3 + 2 * List.length ms) v 0). set (y := nth (Datatypes.S (3 + 2 * List.length ms)) v 0).
          destruct (mac_one (E := E) (nth 1 v 0) (nth 2 v 0) m b) as [tag Hmac]. rewrite Hmac.
          assert (Hi : issued_points {| sk_x0 := nth 1 v 0; sk_xn := [nth 2 v 0] |} (params_at (nth 0 v 0)) tag y =
                       map (pt_at v) (p_issued (3 + 2 * List.length ms) [m])).
          { apply (mac_with_spec L) in Hmac as (H1 & _ & H3). unfold issued_points. rewrite H3, H1.
            cbn [p_issued app map]. unfold p_exponent, pt_at, commitment_to, params_at. cbn [ev sp_g sp_h sk_x0 sk_xn dot]. fold b y.
            generalize (nth 0 v 0) (nth 1 v 0) (nth 2 v 0). intros t x0 x1.
            repeat (apply (f_equal2 cons); [to_base L; apply (smul_base_iff L); apply eqm_of_eq; zring|]). reflexivity. }
          unfold scalar in *. rewrite Hi, <- map_app, <- p_held_app. unfold as_messages. rewrite map_app. exact (fun H => H).
        * apply IH; [rewrite app_length; cbn; lia|exact HS].
    - set (u := map (fun c => sym_comb c (p_held ms)) points).
      assert (Hu : low u). { unfold low, u. apply Forall_map, Forall_forall. intros c _. pose proof (low_comb ms c). lia. }
      pose proof (hash_step L R R_nodup R_all R_length n S u M (fun c table values v => passes_at (next c) ms table values v)
        (bound q h (1 + List.length S)) ltac:(unfold bound; lia) HS Hu) as Hs.
      refine (Hmono _ _ _ _ _ _ _ (Hs _)).
      + unfold bound. nia.
      + intros [values v] Hp. cbn [fst snd]. unfold passes_at at 1. cbn [passes].
        replace (map (fun c => combination c (map (pt_at v) (p_held ms))) points) with (map (pt_at (E := E) v) u).
        2:{ unfold u. rewrite map_map. apply map_ext. intros c. symmetry. apply (comb_at L). }
        destruct (hash (table_at v S) values (map (pt_at v) u)) as [[[c table] values']|]; [|rewrite Bool.andb_false_r; discriminate].
        exact (fun H => H).
      + intros c S' M' _ HS' Hl'. refine (Hmono _ _ _ _ _ _ (fun p _ H => H) (IH c ms S' M' Hl HS')). unfold bound. nia.
    - set (e := sym_comb c (p_held ms)). pose proof (low_comb ms c) as Hd. fold e in Hd.
      assert (Hf : forall values v, passes_at (PTest c yes no) ms (table_at v S) values v =
        if zero_at e v then passes_at yes ms (table_at v S) values v else passes_at no ms (table_at v S) values v).
      { intros values v. unfold passes_at. cbn [passes]. rewrite (comb_at L), (zero_iff L). fold e. destruct (zero_at e v); reflexivity. }
      destruct (vanishes R n e) eqn:Hvan.
      + refine (Hmono _ _ _ _ _ _ _ (IHy ms S M Hl HS)); [unfold bound; nia|]. intros [values v] Hp. apply in_space in Hp. cbn [fst snd] in *.
        rewrite Hf, (proj2 (zero_at_iff e v) (proj1 (vanishes_true R n e) Hvan v Hp)). exact (fun H => H).
      + pose proof (count_values R R_all R_length n (zero_at e) 2 M) as Hz.
        assert (Hz' : count (zero_at e) (tuples R n) * ell <= 2 * ell ^ Z.of_nat n).
        { etransitivity; [apply (few_zeros R R_nodup R_all R_length n e Hvan)|]. apply Z.mul_le_mono_nonneg_r; [apply Z.pow_nonneg; lia|lia]. }
        specialize (Hz Hz'). pose proof (IHn ms S M Hl HS) as Hc.
        pose proof (count_or (fun p => passes_at (PTest c yes no) ms (table_at (snd p) S) (fst p) (snd p)) (fun p : list Z * list Z => zero_at e (snd p))
          (fun p => passes_at no ms (table_at (snd p) S) (fst p) (snd p)) (space R n M)) as Hor.
        assert (Hb : bound (Datatypes.S q) h (List.length S) * full n M = 2 * full n M + bound q h (List.length S) * full n M).
        { unfold bound. rewrite Nat2Z.inj_succ. ring. }
        rewrite Hb. etransitivity; [apply Z.mul_le_mono_nonneg_r; [lia|apply Hor]|].
        * intros [values v] _. cbn [fst snd]. rewrite Hf. destruct (zero_at e v); auto.
        * rewrite Z.mul_add_distr_r. apply Z.add_le_mono; assumption.
    - set (P := sym_comb cP (p_held ms)). set (Q := sym_comb cQ (p_held ms)). set (C := sym_comb cC (p_held ms)).
      set (u := p_show P Q C pf). set (u' := p_member P C number r pf').
      pose proof (low_show ms cP cQ cC pf) as Hu. fold P Q C u in Hu.
      pose proof (low_member ms cP cC number r pf') as Hu'. fold P C u' in Hu'.
      set (after := fun c c' => next (scalar_eqb c (vc_challenge pf)) (scalar_eqb c' (ce_challenge pf'))).
      set (wins := fun c c' v => scalar_eqb c (vc_challenge pf) && negb (zero_at P v) &&
        (match as_messages ms with [] => true | _ => false end || scalar_eqb c' (ce_challenge pf') && fresh [number] (as_messages ms))).
      set (second := fun c c' table values v => negb (zero_at (PV 0) v) && (wins c c' v || passes_at (after c c') ms table values v)).
      pose proof (hash_step L R R_nodup R_all R_length n S u M
        (fun c table values v => match hash table values (map (pt_at v) u') with
                                 | None => false | Some (c', table', values') => second c c' table' values' v end)
        (bound q (1 + h) (1 + List.length S)) ltac:(unfold bound; lia) HS Hu) as Hs.
      refine (Hmono _ _ _ _ _ _ _ (Hs _)).
      + unfold bound. nia.
      + intros [values v] Hp. apply in_space in Hp. cbn [fst snd] in *. unfold passes_at. cbn [passes].
        rewrite !(comb_at L). fold P Q C. rewrite (show_at L), (member_at L). fold u u'.
        destruct (hash (table_at v S) values (map (pt_at v) u)) as [[[c table] values1]|]; [|rewrite Bool.andb_false_r; discriminate].
        destruct (hash table values1 (map (pt_at v) u')) as [[[c' table'] values2]|]; [|rewrite Bool.andb_false_r; discriminate].
        unfold second, passes_at. rewrite (zero_iff L). change (as_messages ms) with (map (fun m : Z => [m]) ms) in *.
        fold (wins c c' v).
        destruct (negb (zero_at (PV 0) v)); [|discriminate]. cbn [andb].
        unfold wins, after. destruct (_ && _ && _); [reflexivity|]. exact (fun H => H).
      + intros c S1 M1 Hlucky HS1 Hl1.
        pose proof (hash_step L R R_nodup R_all R_length n S1 u' M1 (fun c' table values v => second c c' table values v)
          (bound q h (1 + List.length S1)) ltac:(unfold bound; lia) HS1 Hu') as Hs1.
        refine (Hmono _ _ _ _ _ _ (fun p _ H => H) (Hs1 _)); [unfold bound; nia|].
        intros c' S2 M2 Hlucky' HS2 Hl2.
        refine (Hmono _ _ _ _ _ _ _ (IH (scalar_eqb c (vc_challenge pf)) (scalar_eqb c' (ce_challenge pf')) ms S2 M2 Hl HS2)); [unfold bound; nia|].
        intros [values v] Hp. apply in_space in Hp. cbn [fst snd] in *. unfold second.
        destruct (zero_at (PV 0) v) eqn:Ht; [discriminate|]. cbn [negb andb].
        assert (Hw : wins c c' v = false) by exact (no_pass ms cP cQ cC pf number r pf' c c' Hl Hlucky Hlucky' v Hp Ht).
        rewrite Hw. cbn [orb]. exact (fun H => H).
  Qed.
End presents.
