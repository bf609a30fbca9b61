(** Facts about bytes, little-endian integers, slices and loops. *)
From Verif Require Export Base.
From Coq Require Import ZifyBool ZifyNat ZifyN.
Ltac Zify.zify_post_hook ::= Z.div_mod_to_equations.

(** ** Outcomes *)
Lemma bind_ok {E A B} (x : outcome E A) (k : A -> outcome E B) b :
  bind x k = Ok b <-> exists a, x = Ok a /\ k a = Ok b.
Proof.
  destruct x; cbn; split.
  - intros H; eauto.
  - intros (a' & [= ->] & H); exact H.
  - discriminate.
  - intros (a' & H & _); discriminate.
  - discriminate.
  - intros (a' & H & _); discriminate.
Qed.
Lemma bind_panic {E A B} (x : outcome E A) (k : A -> outcome E B) :
  bind x k = Panic <-> x = Panic \/ exists a, x = Ok a /\ k a = Panic.
Proof.
  destruct x; cbn; split.
  - intros H; eauto.
  - intros [H|(a' & [= ->] & H)]; [discriminate|exact H].
  - discriminate.
  - intros [H|(a' & H & _)]; discriminate.
  - auto.
  - reflexivity.
Qed.
Lemma ok_or_ok {E A} (e : E) (x : option A) a : ok_or e x = Ok a <-> x = Some a.
Proof. destruct x; cbn; split; congruence. Qed.
Lemma ok_or_no_panic {E A} (e : E) (x : option A) : ok_or e x <> Panic.
Proof. destruct x; discriminate. Qed.
Lemma or_panic_ok {E A} (x : option A) a : @or_panic E A x = Ok a <-> x = Some a.
Proof. destruct x; cbn; split; congruence. Qed.
Lemma or_panic_panic {E A} (x : option A) : @or_panic E A x = Panic <-> x = None.
Proof. destruct x; cbn; split; congruence. Qed.
Lemma map_err_ok {E F A} (f : E -> F) (x : outcome E A) a : map_err f x = Ok a <-> x = Ok a.
Proof. destruct x; cbn; split; congruence. Qed.
Lemma map_err_panic {E F A} (f : E -> F) (x : outcome E A) : map_err f x = Panic <-> x = Panic.
Proof. destruct x; cbn; split; congruence. Qed.

(** ** Bytes *)
Lemma bz_range b : 0 <= bz b < 256.
Proof.
  unfold bz. pose proof (Byte.to_N_bounded b). lia.
Qed.
Lemma zb_bz b : zb (bz b) = b.
Proof.
  unfold zb. rewrite Z.mod_small by apply bz_range.
  unfold bz. rewrite N2Z.id, Byte.of_to_N. reflexivity.
Qed.
Lemma bz_zb z : bz (zb z) = z mod 256.
Proof.
  unfold zb. destruct (Byte.of_N (Z.to_N (z mod 256))) as [b|] eqn:H.
  - apply Byte.to_of_N in H. unfold bz. rewrite H. lia.
  - apply Byte.of_N_None_iff in H. lia.
Qed.
Lemma bz_inj a b : bz a = bz b -> a = b.
Proof. intros H. rewrite <- (zb_bz a), <- (zb_bz b), H. reflexivity. Qed.
Lemma byte_eqb_true a b : Byte.eqb a b = true <-> a = b.
Proof.
  split.
  - apply Byte.byte_dec_bl.
  - apply Byte.byte_dec_lb.
Qed.
Lemma bytes_eqb_true a b : bytes_eqb a b = true <-> a = b.
Proof.
  revert b; induction a as [|x a IH]; intros [|y b]; cbn; try (split; congruence).
  rewrite andb_true_iff, byte_eqb_true, IH. split; [intros [-> ->]; reflexivity|].
  intros [= -> ->]; auto.
Qed.
Lemma bytes_eqb_false a b : bytes_eqb a b = false <-> a <> b.
Proof. rewrite <- bytes_eqb_true. destruct (bytes_eqb a b); split; congruence. Qed.
Lemma bytes_eqb_refl a : bytes_eqb a a = true.
Proof. apply bytes_eqb_true; reflexivity. Qed.
Lemma zeros_length n : List.length (zeros n) = n.
Proof. apply repeat_length. Qed.

(** ** Little-endian integers *)
Lemma pow256_pos n : 0 < 256 ^ Z.of_nat n.
Proof. apply Z.pow_pos_nonneg; lia. Qed.
Lemma pow256_succ n : 256 ^ Z.of_nat (S n) = 256 * 256 ^ Z.of_nat n.
Proof. rewrite Nat2Z.inj_succ, Z.pow_succ_r by lia. reflexivity. Qed.
Lemma le_decode_range l : 0 <= le_decode l < 256 ^ Z.of_nat (List.length l).
Proof.
  induction l as [|b l IH]; [cbn; lia|].
  cbn [le_decode List.length]. rewrite pow256_succ. pose proof (bz_range b). lia.
Qed.
Lemma le_encode_length n z : List.length (le_encode n z) = n.
Proof. revert z; induction n as [|n IH]; intros z; cbn; [|rewrite IH]; reflexivity. Qed.
Lemma le_decode_encode n z : le_decode (le_encode n z) = z mod 256 ^ Z.of_nat n.
Proof.
  revert z; induction n as [|n IH]; intros z.
  - cbn. rewrite Z.mod_1_r. reflexivity.
  - cbn [le_decode le_encode]. rewrite IH, bz_zb, pow256_succ.
    pose proof (pow256_pos n).
    rewrite Z.rem_mul_r by lia. reflexivity.
Qed.
Lemma le_decode_encode_small n z : 0 <= z < 256 ^ Z.of_nat n -> le_decode (le_encode n z) = z.
Proof. intros H. rewrite le_decode_encode. apply Z.mod_small; exact H. Qed.
Lemma zb_mod z : zb (z mod 256) = zb z.
Proof. unfold zb. rewrite Zmod_mod. reflexivity. Qed.
Lemma le_encode_decode l : le_encode (List.length l) (le_decode l) = l.
Proof.
  induction l as [|b l IH]; [reflexivity|].
  cbn [List.length le_encode le_decode]. f_equal.
  - rewrite <- zb_mod. replace ((bz b + 256 * le_decode l) mod 256) with (bz b).
    + apply zb_bz.
    + pose proof (bz_range b). lia.
  - replace ((bz b + 256 * le_decode l) / 256) with (le_decode l); [exact IH|].
    pose proof (bz_range b). lia.
Qed.
Lemma le_decode_inj a b :
  List.length a = List.length b -> le_decode a = le_decode b -> a = b.
Proof.
  intros Hl H. rewrite <- (le_encode_decode a), <- (le_encode_decode b), Hl, H. reflexivity.
Qed.
Lemma le_encode_inj n a b :
  0 <= a < 256 ^ Z.of_nat n -> 0 <= b < 256 ^ Z.of_nat n -> le_encode n a = le_encode n b -> a = b.
Proof.
  intros Ha Hb H. rewrite <- (le_decode_encode_small n a Ha), <- (le_decode_encode_small n b Hb), H.
  reflexivity.
Qed.
Lemma le_decode_app a b :
  le_decode (a ++ b) = le_decode a + 256 ^ Z.of_nat (List.length a) * le_decode b.
Proof.
  induction a as [|x a IH].
  - cbn [app le_decode List.length]. change (256 ^ Z.of_nat 0) with 1. ring.
  - cbn [app le_decode List.length]. rewrite IH, pow256_succ. ring.
Qed.
Lemma le_decode_zeros n : le_decode (zeros n) = 0.
Proof. unfold zeros. induction n as [|n IH]; cbn; [reflexivity|]. rewrite IH. reflexivity. Qed.
Lemma le_encode_zero n : le_encode n 0 = zeros n.
Proof. induction n as [|n IH]; [reflexivity|]. cbn [le_encode zeros repeat]. f_equal. apply IH. Qed.

(** ** Slices *)
Lemma slice_some {A} a b (l : list A) :
  (a <= b)%nat -> (b <= List.length l)%nat -> slice a b l = Some (firstn (b - a) (skipn a l)).
Proof.
  intros H1 H2. unfold slice.
  apply Nat.leb_le in H1, H2. rewrite H1, H2. reflexivity.
Qed.
Lemma slice_none {A} a b (l : list A) : (a <= b)%nat ->
  (slice a b l = None <-> (List.length l < b)%nat).
Proof.
  intros H1. unfold slice. apply Nat.leb_le in H1. rewrite H1. cbn [andb].
  destruct (Nat.leb_spec b (List.length l)); split; intros; try congruence; lia.
Qed.
Lemma slice_length {A} a b (l s : list A) : slice a b l = Some s ->
  List.length s = (b - a)%nat /\ (a <= b <= List.length l)%nat.
Proof.
  unfold slice. destruct (Nat.leb_spec a b), (Nat.leb_spec b (List.length l)); cbn; try congruence.
  intros [= <-]. rewrite firstn_length, skipn_length. lia.
Qed.
Lemma slice_app_l {A} n (x y : list A) : List.length x = n -> slice 0 n (x ++ y) = Some x.
Proof.
  intros H. rewrite slice_some; rewrite ?app_length; try lia.
  cbn [skipn]. rewrite Nat.sub_0_r, firstn_app, H, Nat.sub_diag. cbn [firstn].
  rewrite <- H, firstn_all, app_nil_r. reflexivity.
Qed.
Lemma slice_all {A} n (x : list A) : List.length x = n -> slice 0 n x = Some x.
Proof. intros H. rewrite <- (app_nil_r x) at 1. apply slice_app_l, H. Qed.
Lemma slice_skip {A} k a b (x y : list A) : List.length x = k -> (k <= a <= b)%nat ->
  slice a b (x ++ y) = slice (a - k) (b - k) y.
Proof.
  intros H Ha. unfold slice. rewrite app_length, H.
  destruct (Nat.leb_spec a b).
  - replace (a - k <=? b - k)%nat with true by (symmetry; apply Nat.leb_le; lia).
    replace (b - k <=? List.length y)%nat with (b <=? k + List.length y)%nat.
    + destruct (b <=? k + List.length y)%nat; cbn; [|reflexivity].
      f_equal. replace (b - k - (a - k))%nat with (b - a)%nat by lia. f_equal.
      rewrite skipn_app, H. rewrite skipn_all2 by lia. reflexivity.
    + destruct (Nat.leb_spec b (k + List.length y)), (Nat.leb_spec (b - k) (List.length y));
        reflexivity || lia.
  - lia.
Qed.
Lemma slice_from_skip {A} k (x y : list A) : List.length x = k ->
  slice_from k (x ++ y) = Some y.
Proof.
  intros H. unfold slice_from. rewrite app_length, H.
  rewrite slice_skip with (k := k) by (try assumption; lia). replace (k - k)%nat with 0%nat by lia. apply slice_all. lia.
Qed.
Lemma slice_from_some {A} a (l : list A) : (a <= List.length l)%nat ->
  slice_from a l = Some (skipn a l).
Proof.
  intros H. unfold slice_from. rewrite slice_some by lia. f_equal.
  rewrite <- skipn_length. apply firstn_all.
Qed.
Lemma slice_from_none {A} a (l : list A) :
  slice_from a l = None <-> (List.length l < a)%nat.
Proof.
  unfold slice_from, slice. rewrite Nat.leb_refl, andb_true_r.
  destruct (Nat.leb_spec a (List.length l)); split; intros; try congruence; lia.
Qed.
Lemma to_array_some n l s : to_array n l = Some s <-> s = l /\ List.length l = n.
Proof.
  unfold to_array. destruct (Nat.eqb_spec (List.length l) n); split; intros H1; try congruence.
  - injection H1 as ->; auto.
  - destruct H1 as [-> _]; reflexivity.
  - destruct H1; congruence.
Qed.
Lemma to_array_none n l : to_array n l = None <-> List.length l <> n.
Proof. unfold to_array. destruct (Nat.eqb_spec (List.length l) n); split; congruence. Qed.

Lemma skipn_skipn' {A} a b (l : list A) : skipn a (skipn b l) = skipn (a + b) l.
Proof.
  revert l; induction b as [|b IH]; intros l.
  - rewrite Nat.add_0_r. reflexivity.
  - destruct l as [|x l]; [rewrite !skipn_nil; reflexivity|].
    rewrite Nat.add_succ_r. cbn [skipn]. apply IH.
Qed.

(** Two consecutive slices. *)
Lemma slice_split {A} a b c (l x y : list A) :
  slice a b l = Some x -> slice b c l = Some y -> slice a c l = Some (x ++ y).
Proof.
  intros Hx Hy.
  pose proof (slice_length _ _ _ _ Hx) as [_ H1].
  pose proof (slice_length _ _ _ _ Hy) as [_ H2].
  rewrite slice_some in Hx, Hy by lia. injection Hx as <-. injection Hy as <-.
  rewrite slice_some by lia. f_equal.
  rewrite <- (firstn_skipn (b - a) (skipn a l)) at 1.
  rewrite firstn_app. rewrite firstn_firstn, firstn_length, skipn_length.
  replace (Nat.min (c - a) (b - a))%nat with (b - a)%nat by lia.
  f_equal. rewrite skipn_skipn'.
  replace (b - a + a)%nat with b by lia. f_equal. lia.
Qed.
Lemma slice_whole {A} (l x : list A) : slice 0 (List.length l) l = Some x -> x = l.
Proof. rewrite slice_all by reflexivity. congruence. Qed.

(** ** Chunks *)
Lemma chunks_aux_fuel {A} n (l : list A) f1 f2 : (0 < n)%nat ->
  (List.length l <= f1)%nat -> (List.length l <= f2)%nat ->
  chunks_aux f1 n l = chunks_aux f2 n l.
Proof.
  intros Hn. revert l f2; induction f1 as [|f1 IH]; intros l f2 H1 H2.
  - destruct l; [|cbn in H1; lia]. destruct f2; reflexivity.
  - destruct f2 as [|f2].
    + destruct l; [reflexivity|cbn in H2; lia].
    + cbn [chunks_aux]. destruct l as [|a l']; [reflexivity|]. f_equal.
      apply IH; rewrite skipn_length; cbn [List.length] in *; lia.
Qed.
Lemma chunks_nil {A} n : chunks n (@nil A) = [].
Proof. reflexivity. Qed.
Lemma chunks_app {A} n (x y : list A) : (0 < n)%nat -> List.length x = n ->
  chunks n (x ++ y) = x :: chunks n y.
Proof.
  intros Hn Hx. unfold chunks.
  destruct (x ++ y) as [|a l] eqn:E.
  { apply app_eq_nil in E as [-> ->]. cbn in Hx. lia. }
  cbn [List.length chunks_aux]. rewrite <- E. f_equal.
  - rewrite firstn_app, Hx, Nat.sub_diag, firstn_O, app_nil_r. rewrite <- Hx. apply firstn_all.
  - rewrite skipn_app, Hx, Nat.sub_diag. rewrite skipn_all2 by lia. cbn [app skipn].
    apply chunks_aux_fuel; [assumption| |lia].
    assert (H : List.length (x ++ y) = S (List.length l)) by (rewrite E; reflexivity).
    rewrite app_length in H. lia.
Qed.
Lemma chunks_flat_map {A B} n (f : B -> list A) l : (0 < n)%nat ->
  (forall x, In x l -> List.length (f x) = n) -> chunks n (flat_map f l) = map f l.
Proof.
  intros Hn. induction l as [|b l IH]; intros Hf; [reflexivity|].
  cbn [flat_map map]. rewrite chunks_app by (auto with datatypes). f_equal.
  apply IH. auto with datatypes.
Qed.
Lemma chunks_split {A} n (l : list A) : (0 < n)%nat -> (n <= List.length l)%nat ->
  chunks n l = firstn n l :: chunks n (skipn n l).
Proof.
  intros Hn Hl. rewrite <- (firstn_skipn n l) at 1. apply chunks_app; [assumption|].
  rewrite firstn_length. lia.
Qed.
(** The chunks of a list whose length is a multiple of [n] are [n] long, and
    put together they are the list. *)
Lemma chunks_exact {A} n (l : list A) k : (0 < n)%nat -> List.length l = (k * n)%nat ->
  List.concat (chunks n l) = l /\ List.length (chunks n l) = k /\
  Forall (fun c => List.length c = n) (chunks n l).
Proof.
  intros Hn. revert l; induction k as [|k IH]; intros l Hl.
  - destruct l; [|discriminate]. cbn. auto.
  - rewrite chunks_split by lia.
    destruct (IH (skipn n l)) as (H1 & H2 & H3).
    { rewrite skipn_length. lia. }
    cbn [List.concat List.length]. rewrite H1, H2, firstn_skipn. repeat split.
    constructor; [|exact H3]. rewrite firstn_length. lia.
Qed.

(** ** Loops *)
Lemma try_map_ok {E A B} (f : A -> outcome E B) l ys :
  try_map f l = Ok ys <-> Forall2 (fun x y => f x = Ok y) l ys.
Proof.
  revert ys; induction l as [|x l IH]; intros ys; cbn [try_map].
  - split; [intros [= <-]; constructor|intros H; inversion H; reflexivity].
  - rewrite bind_ok. split.
    + intros (y & Hy & H). apply bind_ok in H as (ys' & Hys & [= <-]).
      constructor; [assumption|]. apply IH; assumption.
    + intros H; inversion H as [|x' y l' ys' Hy Hys]; subst.
      exists y. split; [assumption|]. apply bind_ok. exists ys'. split; [|reflexivity].
      apply IH; assumption.
Qed.
Lemma try_map_panic {E A B} (f : A -> outcome E B) l :
  (forall x, In x l -> f x <> Panic) -> try_map f l <> Panic.
Proof.
  induction l as [|x l IH]; intros Hf; cbn [try_map]; [discriminate|].
  rewrite bind_panic. intros [H|(y & _ & H)].
  - apply (Hf x); auto with datatypes.
  - apply bind_panic in H as [H|(ys & _ & H)]; [|discriminate].
    apply IH; auto with datatypes.
Qed.
Lemma try_map_map {E A B} (f : A -> outcome E B) (g : B -> A) l :
  (forall y, In y l -> f (g y) = Ok y) -> try_map f (map g l) = Ok l.
Proof.
  intros Hf. apply try_map_ok. induction l as [|y l IH]; cbn [map]; constructor;
    auto with datatypes.
Qed.
Lemma Forall2_length' {A B} (R : A -> B -> Prop) l l' : Forall2 R l l' -> List.length l = List.length l'.
Proof. induction 1; cbn; congruence. Qed.
