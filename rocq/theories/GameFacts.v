(** Facts about the forgery game: the points the adversary holds are polynomials
    in the key and the coins of the issuer. *)
From Verif Require Export SpecGame MacFacts Polynomials.
From Coq Require Import Setoid.
Local Open Scope Z_scope.

Lemma two_lt_ell : 2 < ell.
Proof. pose proof ell_gt_252. lia. Qed.

(** ** Which polynomial identities hold *)
Lemma pair_zero p q p' q' m m' : ~ m == m' ->
  (forall x0 x1, 0 <= x0 < ell -> 0 <= x1 < ell ->
     p' + q' * (x0 + x1 * m) - (x0 + x1 * m') * (p + q * (x0 + x1 * m)) == 0) ->
  p == 0 /\ q == 0.
Proof.
  intros Hm H. pose proof two_lt_ell.
  pose proof (H 0 0 ltac:(lia) ltac:(lia)) as H00. pose proof (H 1 0 ltac:(lia) ltac:(lia)) as H10.
  pose proof (H 2 0 ltac:(lia) ltac:(lia)) as H20. pose proof (H 0 1 ltac:(lia) ltac:(lia)) as H01.
  assert (Hp' : p' == 0) by (rewrite <- H00; apply eqm_of_eq; ring).
  rewrite Hp' in H10, H20, H01.
  assert (Hq2 : q * 2 == 0).
  { transitivity (2 * (0 + q' * (1 + 0 * m) - (1 + 0 * m') * (p + q * (1 + 0 * m))) -
                  (0 + q' * (2 + 0 * m) - (2 + 0 * m') * (p + q * (2 + 0 * m)))); [apply eqm_of_eq; ring|].
    rewrite H10, H20. reflexivity. }
  assert (Hq : q == 0).
  { apply eqm_mul_0 in Hq2 as [Hq2|Hq2]; [exact Hq2|]. exfalso. apply eqm_canonical in Hq2; lia. }
  rewrite Hq in H10, H01.
  assert (Hqp : q' == p) by (apply eqm_sub_0; rewrite <- H10; apply eqm_of_eq; ring).
  split; [|exact Hq]. rewrite Hqp in H01.
  assert (Hpm : p * (m - m') == 0) by (rewrite <- H01; apply eqm_of_eq; ring).
  apply eqm_mul_0 in Hpm as [Hpm|Hpm]; [exact Hpm|]. exfalso. apply Hm, eqm_sub_0. exact Hpm.
Qed.
Lemma scaled_zero d d' t : ~ t == 0 ->
  (forall x0, 0 <= x0 < ell -> d' * t - x0 * (d * t) == 0) -> d == 0 /\ d' == 0.
Proof.
  intros Ht H. pose proof two_lt_ell.
  pose proof (H 0 ltac:(lia)) as H00. pose proof (H 1 ltac:(lia)) as H10.
  assert (K' : d' * t == 0) by (rewrite <- H00; apply eqm_of_eq; ring).
  assert (K : d * t == 0).
  { transitivity (d' * t - (d' * t - 1 * (d * t))); [apply eqm_of_eq; ring|]. rewrite H10, K'. reflexivity. }
  split; [apply eqm_mul_0 in K as [K|K]|apply eqm_mul_0 in K' as [K'|K']]; tauto.
Qed.

(** Keys which are zero but for one scalar. *)
Definition unit_key (k i : nat) (x : Z) : list Z := repeat 0 i ++ x :: repeat 0 (k - S i).
Lemma canonical_zeros n : Forall (fun x => 0 <= x < ell) (repeat 0 n).
Proof. apply Forall_forall. intros x Hx. apply repeat_spec in Hx. pose proof ell_pos. lia. Qed.
Lemma unit_key_length k i x : (i < k)%nat -> List.length (unit_key k i x) = k.
Proof. intros H. unfold unit_key. rewrite app_length. cbn [List.length]. rewrite !repeat_length. lia. Qed.
Lemma unit_key_canonical k i x : 0 <= x < ell -> Forall (fun x => 0 <= x < ell) (unit_key k i x).
Proof. intros H. apply Forall_app. split; [apply canonical_zeros|]. constructor; [exact H|apply canonical_zeros]. Qed.
Lemma dot_repeat_0 n ms : dot (repeat 0 n) ms = 0.
Proof. revert ms; induction n as [|n IH]; intros [|m ms]; try reflexivity. cbn [repeat dot]. rewrite IH. ring. Qed.
Lemma unit_key_dot k i x ms : dot (unit_key k i x) ms = x * nth i ms 0.
Proof.
  unfold unit_key. generalize (k - S i)%nat. intros j.
  revert ms; induction i as [|i IH]; intros [|m ms]; cbn [repeat app dot nth].
  - ring.
  - rewrite dot_repeat_0. ring.
  - ring.
  - rewrite IH. ring.
Qed.

(** Messages that differ do so in one place. *)
Definition differ (k : nat) (m m' : list Z) : Prop := exists i, (i < k)%nat /\ ~ nth i m 0 == nth i m' 0.
Lemma same_message_differ k m m' : List.length m = k -> List.length m' = k -> same_message m' m = false -> differ k m m'.
Proof.
  revert m m'; induction k as [|k IH]; intros [|a m] [|a' m'] Hl Hl' H; cbn in Hl, Hl', H; try discriminate.
  destruct (Z.eqb_spec (a' mod ell) (a mod ell)) as [He|He].
  - destruct (IH m m' ltac:(lia) ltac:(lia) H) as (i & Hi & Hd). exists (S i). split; [lia|exact Hd].
  - exists 0%nat. split; [lia|]. intros Hc. apply He. symmetry. exact Hc.
Qed.

Section linear.
  (** [g] is [s] and [h] is [t] times the basepoint; [k] attributes. *)
  Context (s t : Z) (k : nat).

  (** The value of a combination of the points issued for the messages [ms]. *)
  Fixpoint tail_value (x0 : Z) (xs : list Z) (c : list Z) (ms : list (list Z)) (w : list Z) {struct ms} : Z :=
    match ms with
    | [] => 0
    | m :: ms' =>
      hd 0 c * hd 0 w + hd 0 (tl c) * (hd 0 w * (x0 + dot xs m)) + hd 0 (tl (tl c)) * (s * x0 + t * hd 0 (tl w)) +
      tail_value x0 xs (tl (tl (tl c))) ms' (tl (tl w))
    end.
  Definition head_value (xs : list Z) (c : list Z) : Z :=
    hd 0 c + hd 0 (tl c) * s + hd 0 (tl (tl c)) * t + t * dot xs (skipn 3 c).

  Definition scalars (n : nat) (v : list Z) : Prop := List.length v = n /\ Forall (fun x => 0 <= x < ell) v.
  Lemma scalars_zeros n : scalars n (repeat 0 n).
  Proof. split; [apply repeat_length|apply canonical_zeros]. Qed.

  Lemma tail_zero m' ms : ~ t == 0 -> Forall (fun m => differ k m m') ms ->
    forall cP cQ (aP aQ : Z -> list Z -> Z) K, (2 * List.length ms <= K)%nat ->
    (forall x0 xs w, 0 <= x0 < ell -> scalars k xs -> scalars K w ->
       aQ x0 xs + tail_value x0 xs cQ ms w - (x0 + dot xs m') * (aP x0 xs + tail_value x0 xs cP ms w) == 0) ->
    (forall x0 xs w, tail_value x0 xs cP ms w == 0) /\ (forall x0 xs j, tail_value x0 xs cQ ms (repeat 0 j) == 0).
  Proof.
    intros Ht Hms. pose proof two_lt_ell as H2. induction Hms as [|m ms Hm Hms IH]; intros cP cQ aP aQ K HK H.
    - split; intros; reflexivity.
    - destruct K as [|[|K]]; [cbn in HK; lia|cbn in HK; lia|].
      set (pP := hd 0 cP) in *. set (qP := hd 0 (tl cP)) in *. set (dP := hd 0 (tl (tl cP))) in *.
      set (pQ := hd 0 cQ) in *. set (qQ := hd 0 (tl cQ)) in *. set (dQ := hd 0 (tl (tl cQ))) in *.
      set (cP' := tl (tl (tl cP))) in *. set (cQ' := tl (tl (tl cQ))) in *.
      assert (Hexp : forall x0 xs b y w, 0 <= x0 < ell -> scalars k xs -> 0 <= b < ell -> 0 <= y < ell -> scalars K w ->
        aQ x0 xs + (pQ * b + qQ * (b * (x0 + dot xs m)) + dQ * (s * x0 + t * y) + tail_value x0 xs cQ' ms w) -
        (x0 + dot xs m') * (aP x0 xs + (pP * b + qP * (b * (x0 + dot xs m)) + dP * (s * x0 + t * y) + tail_value x0 xs cP' ms w)) == 0).
      { intros x0 xs b y w Hx0 Hxs Hb Hy [Hl Hw]. apply (H x0 xs (b :: y :: w)); auto. split; [cbn; congruence|auto]. }
      destruct (IH cP' cQ' (fun x0 xs => aP x0 xs + dP * (s * x0)) (fun x0 xs => aQ x0 xs + dQ * (s * x0)) K) as [I1 I2].
      { cbn in HK. lia. }
      { intros x0 xs w Hx0 Hxs Hw. rewrite <- (Hexp x0 xs 0 0 w Hx0 Hxs ltac:(lia) ltac:(lia) Hw). apply eqm_of_eq; ring. }
      pose proof (scalars_zeros K) as Hw0. set (w0 := repeat 0 K) in Hw0.
      assert (Hb : forall x0 xs, 0 <= x0 < ell -> scalars k xs ->
        pQ + qQ * (x0 + dot xs m) - (x0 + dot xs m') * (pP + qP * (x0 + dot xs m)) == 0).
      { intros x0 xs Hx0 Hxs. pose proof (Hexp x0 xs 1 0 w0 Hx0 Hxs ltac:(lia) ltac:(lia) Hw0) as A1.
        pose proof (Hexp x0 xs 0 0 w0 Hx0 Hxs ltac:(lia) ltac:(lia) Hw0) as A0.
        match type of A1 with ?a == _ => match type of A0 with ?b == _ => transitivity (a - b) end end;
          [apply eqm_of_eq; ring|]. rewrite A1, A0. reflexivity. }
      destruct Hm as (i & Hi & Hm).
      destruct (pair_zero pP qP pQ qQ (nth i m 0) (nth i m' 0) Hm) as [HpP HqP].
      { intros x0 x1 Hx0 Hx1. specialize (Hb x0 (unit_key k i x1) Hx0). rewrite !unit_key_dot in Hb. apply Hb.
        split; [apply unit_key_length; exact Hi|apply unit_key_canonical; exact Hx1]. }
      destruct (scaled_zero dP dQ t Ht) as [HdP HdQ].
      { intros x0 Hx0. pose proof (Hexp x0 _ 0 1 w0 Hx0 (scalars_zeros k) ltac:(lia) ltac:(lia) Hw0) as A1.
        pose proof (Hexp x0 _ 0 0 w0 Hx0 (scalars_zeros k) ltac:(lia) ltac:(lia) Hw0) as A0. rewrite !dot_repeat_0 in A1, A0.
        match type of A1 with ?a == _ => match type of A0 with ?b == _ => transitivity (a - b) end end;
          [apply eqm_of_eq; ring|]. rewrite A1, A0. reflexivity. }
      split.
      + intros x0 xs w. cbn [tail_value]. fold pP qP dP cP'. rewrite HpP, HqP, HdP, I1. apply eqm_of_eq; ring.
      + intros x0 xs j. cbn [tail_value]. fold pQ qQ dQ cQ'.
        replace (hd 0 (repeat 0 j)) with 0 by (destruct j; reflexivity).
        replace (tl (tl (repeat 0 j))) with (repeat 0 (j - 2)) by (destruct j as [|[|j]]; cbn; try rewrite Nat.sub_0_r; reflexivity).
        rewrite HdQ, I2. apply eqm_of_eq; ring.
  Qed.

  (** A pair of combinations which is a valid tag on another message for every key
      and all coins has the identity as nonce. *)
  Lemma no_identity m' ms cP cQ K : ~ t == 0 -> Forall (fun m => differ k m m') ms -> (2 * List.length ms <= K)%nat ->
    let P x0 xs w := head_value xs cP + tail_value x0 xs (skipn (3 + k) cP) ms w in
    let Q x0 xs w := head_value xs cQ + tail_value x0 xs (skipn (3 + k) cQ) ms w in
    (forall x0 xs w, 0 <= x0 < ell -> scalars k xs -> scalars K w -> Q x0 xs w - (x0 + dot xs m') * P x0 xs w == 0) ->
    forall x0 xs w, scalars k xs -> P x0 xs w == 0.
  Proof.
    intros Ht Hms HK P Q H. pose proof two_lt_ell.
    destruct (tail_zero m' ms Ht Hms (skipn (3 + k) cP) (skipn (3 + k) cQ) (fun _ xs => head_value xs cP) (fun _ xs => head_value xs cQ) K HK H)
      as [I1 I2].
    assert (Hh : forall x0 xs, 0 <= x0 < ell -> scalars k xs ->
      head_value xs cQ - (x0 + dot xs m') * head_value xs cP == 0).
    { intros x0 xs Hx0 Hxs. rewrite <- (H x0 xs (repeat 0 K) Hx0 Hxs (scalars_zeros K)).
      unfold P, Q. rewrite I1, I2. apply eqm_of_eq; ring. }
    intros x0 xs w Hxs. unfold P. rewrite I1.
    pose proof (Hh 0 xs ltac:(lia) Hxs) as K0. pose proof (Hh 1 xs ltac:(lia) Hxs) as K1.
    match type of K0 with ?a == _ => match type of K1 with ?b == _ => transitivity (a - b) end end;
      [apply eqm_of_eq; ring|]. rewrite K0, K1. reflexivity.
  Qed.

  (** ** The points held, as polynomials.  Variable 0 is [x0], the next [k] are
      [xs], and the coins follow in the order they are drawn. *)
  Fixpoint sym_dot (k' i : nat) (m : list Z) {struct k'} : pexp :=
    match k', m with
    | S k'', a :: m' => PAdd (PMul (PV i) (PC a)) (sym_dot k'' (S i) m')
    | _, _ => PC 0
    end.
  Definition sym_exponent (m : list Z) : pexp := PAdd (PV 0) (sym_dot k 1 m).
  Definition sym_public : list pexp := [PC 1; PC s; PC t] ++ map (fun i => PMul (PV i) (PC t)) (seq 1 k).
  Fixpoint sym_issued (i : nat) (ms : list (list Z)) : list pexp :=
    match ms with
    | [] => []
    | m :: ms' =>
      [PV i; PMul (PV i) (sym_exponent m); PAdd (PMul (PC s) (PV 0)) (PMul (PC t) (PV (S i)))]
      ++ sym_issued (S (S i)) ms'
    end.
  Definition sym_held (ms : list (list Z)) : list pexp := sym_public ++ sym_issued (1 + k) ms.
  Fixpoint sym_comb (c : list Z) (es : list pexp) : pexp :=
    match es with
    | [] => PC 0
    | e :: es' => PAdd (PMul (PC (hd 0 c)) e) (sym_comb (tl c) es')
    end.
  Lemma sym_issued_app i ms ms' : sym_issued i (ms ++ ms') = sym_issued i ms ++ sym_issued (i + 2 * List.length ms) ms'.
  Proof.
    revert i; induction ms as [|m ms IH]; intros i; cbn [app sym_issued List.length].
    - f_equal. lia.
    - rewrite IH. cbn [app]. do 3 f_equal. f_equal. f_equal. lia.
  Qed.
  Lemma sym_held_app ms m : sym_held (ms ++ [m]) = sym_held ms ++ sym_issued (1 + k + 2 * List.length ms) [m].
  Proof. unfold sym_held. rewrite sym_issued_app. apply app_assoc. Qed.
  Lemma sym_comb_deg d c es : Forall (fun e => deg e <= d)%nat es -> (deg (sym_comb c es) <= d)%nat.
  Proof.
    intros H. revert c; induction H as [|e es He Hes IH]; intros c; cbn [sym_comb deg]; [lia|].
    specialize (IH (tl c)). lia.
  Qed.
  Lemma sym_dot_deg k' i m : (deg (sym_dot k' i m) <= 1)%nat.
  Proof. revert i m; induction k' as [|k' IH]; intros i [|a m]; cbn [sym_dot deg]; try lia. specialize (IH (S i) m). lia. Qed.
  Lemma sym_held_deg ms : Forall (fun e => deg e <= 2)%nat (sym_held ms).
  Proof.
    unfold sym_held. apply Forall_app. split.
    - apply Forall_app. split; [repeat constructor|]. apply Forall_map, Forall_forall. intros i _. cbn. lia.
    - generalize (1 + k)%nat. induction ms as [|m ms IH]; intros i; [constructor|].
      cbn [sym_issued app]. pose proof (sym_dot_deg k 1 m).
      repeat (apply Forall_cons; [unfold sym_exponent; cbn [deg]; lia|]). apply IH.
  Qed.

  Lemma hd_skipn (i : nat) (v : list Z) : hd 0 (skipn i v) = nth i v 0.
  Proof. revert v; induction i as [|i IH]; intros [|x v]; try reflexivity. apply IH. Qed.
  Lemma tl_skipn (i : nat) (v : list Z) : tl (skipn i v) = skipn (S i) v.
  Proof. revert v; induction i as [|i IH]; intros [|x v]; try reflexivity. apply IH. Qed.
  Lemma sym_comb_app c es es' v :
    ev (sym_comb c (es ++ es')) v = ev (sym_comb c es) v + ev (sym_comb (skipn (List.length es) c) es') v.
  Proof.
    revert c; induction es as [|e es IH]; intros c; [reflexivity|].
    cbn [app sym_comb ev List.length]. rewrite IH.
    replace (skipn (S (List.length es)) c) with (skipn (List.length es) (tl c)) by (destruct c; [rewrite skipn_nil|]; reflexivity).
    ring.
  Qed.
  Lemma ev_dot v k' i m : (i + k' <= List.length v)%nat -> ev (sym_dot k' i m) v = dot (firstn k' (skipn i v)) m.
  Proof.
    revert i m; induction k' as [|k' IH]; intros i m Hl; [reflexivity|].
    assert (Hs : skipn i v = nth i v 0 :: skipn (S i) v).
    { rewrite <- hd_skipn, <- tl_skipn. destruct (skipn i v) eqn:He; [|reflexivity].
      apply (f_equal (@List.length Z)) in He. rewrite skipn_length in He. cbn in He. lia. }
    rewrite Hs. cbn [firstn]. destruct m as [|a m]; [reflexivity|]. cbn [sym_dot ev dot]. rewrite IH by lia. reflexivity.
  Qed.
  Lemma ev_exponent v m : (1 + k <= List.length v)%nat -> ev (sym_exponent m) v = nth 0 v 0 + dot (firstn k (skipn 1 v)) m.
  Proof. intros Hl. unfold sym_exponent. cbn [ev]. rewrite ev_dot by exact Hl. reflexivity. Qed.
  Lemma ev_public_keys c i v k' : (i + k' <= List.length v)%nat ->
    ev (sym_comb c (map (fun i => PMul (PV i) (PC t)) (seq i k'))) v = t * dot (firstn k' (skipn i v)) c.
  Proof.
    revert c i; induction k' as [|k' IH]; intros c i Hl; cbn [seq map sym_comb ev]; [cbn [firstn dot]; ring|].
    assert (Hs : skipn i v = nth i v 0 :: skipn (S i) v).
    { rewrite <- hd_skipn, <- tl_skipn. destruct (skipn i v) eqn:He; [|reflexivity].
      apply (f_equal (@List.length Z)) in He. rewrite skipn_length in He. cbn in He. lia. }
    rewrite IH by lia. rewrite Hs. cbn [firstn]. destruct c as [|a c]; cbn [hd tl dot]; [|ring].
    replace (dot (firstn k' (skipn (S i) v)) []) with 0 by (destruct (firstn k' (skipn (S i) v)); reflexivity). ring.
  Qed.
  Lemma ev_issued c i ms v : (1 + k <= List.length v)%nat ->
    ev (sym_comb c (sym_issued i ms)) v = tail_value (nth 0 v 0) (firstn k (skipn 1 v)) c ms (skipn i v).
  Proof.
    intros Hl. revert c i; induction ms as [|m ms IH]; intros c i; [reflexivity|].
    cbn [sym_issued app sym_comb ev tail_value]. rewrite IH, ev_exponent, !tl_skipn, !hd_skipn by exact Hl. ring.
  Qed.
  Lemma skipn_tl (j : nat) (c : list Z) : skipn j (tl c) = skipn (S j) c.
  Proof. destruct c; [rewrite skipn_nil|]; reflexivity. Qed.
  Lemma ev_held c ms v : (1 + k <= List.length v)%nat ->
    ev (sym_comb c (sym_held ms)) v =
    head_value (firstn k (skipn 1 v)) c + tail_value (nth 0 v 0) (firstn k (skipn 1 v)) (skipn (3 + k) c) ms (skipn (1 + k) v).
  Proof.
    intros Hl. unfold sym_held, sym_public. rewrite sym_comb_app, ev_issued by exact Hl. rewrite app_length, map_length, seq_length.
    cbn [List.length app sym_comb ev]. rewrite ev_public_keys by exact Hl. unfold head_value.
    replace (skipn 3 c) with (tl (tl (tl c))) by (destruct c as [|? [|? [|? ?]]]; reflexivity).
    f_equal. ring.
  Qed.

  (** The equation of a tag. *)
  Definition sym_tag (cP cQ : list Z) (m : list Z) (ms : list (list Z)) : pexp :=
    PAdd (sym_comb cQ (sym_held ms)) (PMul (PMul (PC (-1)) (sym_exponent m)) (sym_comb cP (sym_held ms))).
  Lemma sym_tag_deg cP cQ m ms : (deg (sym_tag cP cQ m ms) <= 3)%nat.
  Proof.
    unfold sym_tag, sym_exponent. cbn [deg]. pose proof (sym_comb_deg 2 cP _ (sym_held_deg ms)).
    pose proof (sym_comb_deg 2 cQ _ (sym_held_deg ms)). pose proof (sym_dot_deg k 1 m). lia.
  Qed.
End linear.

(** ** The game at a choice of key and coins *)
Fixpoint pairs (w : list Z) : list (Z * Z) :=
  match w with
  | b :: y :: w' => (b, y) :: pairs w'
  | _ => []
  end.
Lemma pairs_skipn k w : skipn k (pairs w) = pairs (skipn (2 * k) w).
Proof.
  revert w; induction k as [|k IH]; intros w; [reflexivity|].
  replace (2 * S k)%nat with (S (S (2 * k))) by lia. destruct w as [|b [|y w]]; try reflexivity.
  cbn [pairs skipn]. apply IH.
Qed.
Lemma skipn_cons (i : nat) (v : list Z) : (i < List.length v)%nat -> skipn i v = nth i v 0 :: skipn (S i) v.
Proof.
  revert v; induction i as [|i IH]; intros [|x v] H; cbn in H; try lia; [reflexivity|]. cbn [skipn nth]. apply IH. lia.
Qed.

Lemma skipn_twice (i j : nat) (v : list Z) : skipn i (skipn j v) = skipn (i + j) v.
Proof.
  revert v; induction j as [|j IH]; intros v; [rewrite Nat.add_0_r; reflexivity|].
  rewrite Nat.add_succ_r. destruct v as [|x v]; [rewrite !skipn_nil; reflexivity|apply IH].
Qed.

Section play.
  Context {E : Ext} (L : ExtLaws E) (params : SystemParameters E) (s t : Z) (k : nat)
    (Hg : sp_g params = smul s basepoint) (Hh : sp_h params = smul t basepoint) (Ht : ~ t == 0).
  Context (R : list Z) (R_nodup : NoDup R) (R_all : forall x, In x R <-> 0 <= x < ell)
          (R_length : Z.of_nat (List.length R) = ell) (N : nat).
  Let n := (1 + k + 2 * N)%nat.

  Definition key_at (v : list Z) : SecretKey := {| sk_x0 := nth 0 v 0; sk_xn := firstn k (skipn 1 v) |}.
  Definition pt_at (v : list Z) (e : pexp) : point E := smul (ev e v) basepoint.
  Definition forges_at (a : adversary) (ms : list (list Z)) (v : list Z) : bool :=
    forges (key_at v) params (skipn (List.length ms) (pairs (skipn (1 + k) v))) a (map (pt_at v) (sym_held s t k ms)) ms.

  Lemma key_length v : (1 + k <= List.length v)%nat -> List.length (sk_xn (key_at v)) = k.
  Proof. intros Hl. cbn [key_at sk_xn]. rewrite firstn_length, skipn_length. lia. Qed.
  Lemma comb_at v c es : combination c (map (pt_at v) es) = pt_at v (sym_comb c es).
  Proof.
    revert c; induction es as [|e es IH]; intros c; [reflexivity|].
    cbn [map combination sym_comb]. rewrite IH. unfold pt_at. cbn [ev].
    to_base L. reflexivity.
  Qed.
  Lemma issued_at v i m tag : (1 + k <= List.length v)%nat -> mac_with (key_at v) m (nth i v 0) = Ok tag ->
    issued_points (key_at v) params tag (nth (S i) v 0) = map (pt_at v) (sym_issued s t k i [m]).
  Proof.
    intros Hl H. apply (mac_with_spec L) in H as (H1 & _ & H3). unfold issued_points. rewrite H3, H1.
    cbn [sym_issued app map]. unfold pt_at. cbn [ev]. rewrite ev_exponent by exact Hl.
    f_equal. f_equal; [|f_equal].
    - unfold key_at. cbn [sk_x0 sk_xn]. to_base L. apply (smul_base_iff L). apply eqm_of_eq; zring.
    - unfold commitment_to, key_at. cbn [sk_x0]. rewrite Hg, Hh. to_base L. apply (smul_base_iff L). apply eqm_of_eq; zring.
  Qed.
  Lemma zero_iff v e : peqb (pt_at v e) pzero = zero_at e v.
  Proof.
    unfold pt_at. destruct (peqb (smul (ev e v) basepoint) pzero) eqn:H.
    - apply (peqb_true L) in H. apply (smul_zero_iff L) in H; [|apply (basepoint_nonzero E L)].
      symmetry. apply zero_at_iff. exact H.
    - apply (peqb_false L) in H. symmetry. apply Bool.not_true_iff_false. intros Hz. apply H.
      apply (smul_zero_iff L); [apply (basepoint_nonzero E L)|]. apply zero_at_iff. exact Hz.
  Qed.
  Lemma verify_at v cP cQ m ms : (1 + k <= List.length v)%nat ->
    mac_verify (key_at v) {| tag_nonce := combination cP (map (pt_at v) (sym_held s t k ms));
                             tag_mac := combination cQ (map (pt_at v) (sym_held s t k ms)) |} m =
    if negb (zero_at (PAdd (sym_comb cP (sym_held s t k ms)) (PC (-1))) v) && zero_at (sym_tag s t k cP cQ m ms) v
    then Ok tt else Err AuthenticationError.
  Proof.
    intros Hl. rewrite !comb_at. set (P := sym_comb cP (sym_held s t k ms)). set (Q := sym_comb cQ (sym_held s t k ms)).
    set (T := {| tag_nonce := pt_at v P; tag_mac := pt_at v Q |}).
    assert (H1 : tag_nonce T <> basepoint <-> zero_at (PAdd P (PC (-1))) v = false).
    { assert (B1 : @basepoint E = smul 1 basepoint) by (symmetry; apply smul_1).
      assert (X : smul (ev P v) (@basepoint E) = basepoint <-> ev P v + -1 == 0).
      { transitivity (smul (ev P v) (@basepoint E) = smul 1 basepoint); [rewrite <- B1; reflexivity|].
        rewrite (smul_base_iff L). apply (eqm_sub_0 (ev P v) 1). }
      rewrite <- Bool.not_true_iff_false, zero_at_iff. unfold T, pt_at. cbn [tag_nonce ev]. rewrite X. reflexivity. }
    assert (H2 : tag_mac T = smul (sk_x0 (key_at v) + dot (sk_xn (key_at v)) m) (tag_nonce T) <->
                 zero_at (sym_tag s t k cP cQ m ms) v = true).
    { rewrite zero_at_iff. unfold sym_tag. cbn [ev]. rewrite ev_exponent by exact Hl.
      unfold T, pt_at. cbn [tag_mac tag_nonce key_at sk_x0 sk_xn]. fold P Q.
      to_base L. rewrite (smul_base_iff L). split; intros H.
      - apply eqm_sub_0 in H. etransitivity; [|exact H]. apply eqm_of_eq; zring.
      - apply eqm_sub_0. etransitivity; [|exact H]. apply eqm_of_eq; zring. }
    destruct (mac_verify_cases (key_at v) T m) as [H|H]; rewrite H.
    - apply (mac_verify_iff L) in H as [K1 K2]. apply H1 in K1. apply H2 in K2. rewrite K1, K2. reflexivity.
    - destruct (negb _ && _) eqn:Hb; [|reflexivity]. exfalso. apply andb_prop in Hb as [B1 B2].
      apply Bool.negb_true_iff in B1. apply H1 in B1. apply H2 in B2.
      rewrite (proj2 (mac_verify_iff L (key_at v) T m) (conj B1 B2)) in H. discriminate.
  Qed.

  Lemma tuple_parts v : In v (tuples R n) -> (1 + k <= List.length v)%nat /\ scalars k (firstn k (skipn 1 v)).
  Proof.
    intros Hv. apply (in_tuples R R_all) in Hv as [Hl Hf]. unfold n in Hl. split; [lia|].
    split; [rewrite firstn_length, skipn_length; lia|].
    rewrite Forall_forall in *. intros x Hx. apply Hf.
    assert (G : forall (j : nat) (l : list Z), In x (firstn j l) -> In x l).
    { intros j l H. rewrite <- (firstn_skipn j l). apply in_or_app. left. exact H. }
    apply G in Hx. rewrite <- (firstn_skipn 1 v). apply in_or_app. right. exact Hx.
  Qed.

  (** A tag equation that always holds. *)
  Lemma always_valid cP cQ m (ms : list (list Z)) : (List.length ms <= N)%nat ->
    Forall (fun m => List.length m = k) ms -> List.length m = k -> fresh m ms = true ->
    vanishes R n (sym_tag s t k cP cQ m ms) = true ->
    forall v, In v (tuples R n) -> zero_at (sym_comb cP (sym_held s t k ms)) v = true.
  Proof.
    intros Hl Hms Hm Hf Hv v Hin. apply tuple_parts in Hin as [Hlv Hxs]. apply zero_at_iff. rewrite ev_held by exact Hlv.
    apply (no_identity s t k m ms cP cQ (2 * N) Ht); [| |  |exact Hxs].
    - apply Forall_forall. intros m' Hm'. unfold fresh in Hf. rewrite forallb_forall in Hf. specialize (Hf m' Hm').
      apply Bool.negb_true_iff in Hf. rewrite Forall_forall in Hms. apply same_message_differ; auto.
    - lia.
    - intros x0 xs w Hx0 [Hxl Hxc] [Hwl Hwc].
      assert (Hlen : List.length (x0 :: xs ++ w) = n) by (cbn [List.length]; rewrite app_length; unfold n; lia).
      pose proof (proj1 (vanishes_true R n _) Hv (x0 :: xs ++ w)) as H.
      unfold sym_tag in H. cbn [ev] in H. rewrite !ev_held, ev_exponent in H by (rewrite Hlen; unfold n; lia).
      change (skipn (1 + k) (x0 :: xs ++ w)) with (skipn k (xs ++ w)) in H.
      change (skipn 1 (x0 :: xs ++ w)) with (xs ++ w) in H. cbn [nth] in H.
      rewrite firstn_app, Hxl, Nat.sub_diag, firstn_O, app_nil_r, firstn_all2 in H by lia.
      rewrite skipn_app, Hxl, Nat.sub_diag, skipn_O, (skipn_all2 xs) in H by lia. cbn [app] in H.
      etransitivity; [|apply H].
      + apply eqm_of_eq; zring.
      + apply (in_tuples R R_all). split; [exact Hlen|]. constructor; [exact Hx0|]. apply Forall_app. auto.
  Qed.

  Theorem few_forgeries a : forall ms : list (list Z), (List.length ms <= N)%nat -> Forall (fun m => List.length m = k) ms ->
    count (forges_at a ms) (tuples R n) * ell <= 3 * Z.of_nat (checks a) * ell ^ Z.of_nat n.
  Proof.
    assert (Hpow : 0 <= ell ^ Z.of_nat n) by (apply Z.pow_nonneg; pose proof ell_pos; lia).
    pose proof ell_pos as Hell.
    (* one check *)
    assert (Hstep : forall e (f g : list Z -> bool) (c : nat) (j : nat), (deg e <= 3)%nat -> vanishes R n e = false ->
      (c <= j)%nat ->
      (forall v, In v (tuples R n) -> f v = true -> zero_at e v = true \/ g v = true) ->
      count g (tuples R n) * ell <= 3 * Z.of_nat c * ell ^ Z.of_nat n ->
      count f (tuples R n) * ell <= 3 * Z.of_nat (S j) * ell ^ Z.of_nat n).
    { intros e f g c j Hd He Hck Hfg Hc.
      pose proof (few_zeros R R_nodup R_all R_length n e He) as Hz.
      pose proof (count_or f (zero_at e) g _ Hfg) as Hor.
      assert (S1 : count f (tuples R n) * ell <= (count (zero_at e) (tuples R n) + count g (tuples R n)) * ell)
        by (apply Z.mul_le_mono_nonneg_r; lia).
      assert (S2 : Z.of_nat (deg e) * ell ^ Z.of_nat n <= 3 * ell ^ Z.of_nat n) by (apply Z.mul_le_mono_nonneg_r; lia).
      assert (S3 : 3 * Z.of_nat c * ell ^ Z.of_nat n <= 3 * Z.of_nat j * ell ^ Z.of_nat n) by (apply Z.mul_le_mono_nonneg_r; lia).
      rewrite Nat2Z.inj_succ. lia. }
    assert (Hsame : forall (f g : list Z -> bool) (c j : nat), (c <= j)%nat ->
      (forall v, In v (tuples R n) -> f v = true -> g v = true) ->
      count g (tuples R n) * ell <= 3 * Z.of_nat c * ell ^ Z.of_nat n ->
      count f (tuples R n) * ell <= 3 * Z.of_nat j * ell ^ Z.of_nat n).
    { intros f g c j Hck Hfg Hc. pose proof (count_le f g _ Hfg) as Hle.
      assert (S1 : count f (tuples R n) * ell <= count g (tuples R n) * ell) by (apply Z.mul_le_mono_nonneg_r; lia).
      assert (S3 : 3 * Z.of_nat c * ell ^ Z.of_nat n <= 3 * Z.of_nat j * ell ^ Z.of_nat n) by (apply Z.mul_le_mono_nonneg_r; lia).
      lia. }
    induction a as [|m next IH|c yes IHy no IHn|cP cQ m yes IHy no IHn]; intros ms Hl Hms.
    - rewrite count_false; [cbn; lia|reflexivity].
    - destruct (Nat.eq_dec (List.length ms) N) as [Hn|Hn]; [|destruct (Nat.eq_dec (List.length m) k) as [Hm|Hm]].
      + rewrite count_false; [nia|]. intros v Hv. apply (in_tuples R R_all) in Hv as [Hlv _].
        unfold forges_at. cbn [forges]. rewrite pairs_skipn, skipn_all2; [reflexivity|].
        rewrite skipn_length. unfold n in Hlv. lia.
      + apply (Hsame _ (forges_at next (ms ++ [m])) (checks next) (checks (Ask m next)) (le_n _)).
        * intros v Hv. pose proof (tuple_parts v Hv) as [Hlk _].
          apply (in_tuples R R_all) in Hv as [Hlv _]. unfold n in Hlv. unfold forges_at. cbn [forges].
          rewrite !pairs_skipn, !skipn_twice. rewrite app_length. cbn [List.length].
          replace (2 * (List.length ms + 1) + (1 + k))%nat with (S (S (2 * List.length ms + (1 + k)))) by lia.
          rewrite (skipn_cons (2 * List.length ms + (1 + k))), (skipn_cons (S (2 * List.length ms + (1 + k)))) by lia.
          cbn [pairs].
          destruct (mac_with (E := E) (key_at v) m (nth (2 * List.length ms + (1 + k)) v 0)) as [tag|e|] eqn:Hmac.
          -- rewrite (issued_at v _ m tag Hlk Hmac), <- map_app, (sym_held_app s t k).
             replace (1 + k + 2 * List.length ms)%nat with (2 * List.length ms + (1 + k))%nat by lia. exact (fun H => H).
          -- exfalso. unfold mac_with in Hmac. rewrite (key_length v Hlk), Hm, Nat.eqb_refl in Hmac. discriminate.
          -- exfalso. unfold mac_with in Hmac. rewrite (key_length v Hlk), Hm, Nat.eqb_refl in Hmac. discriminate.
        * apply IH; [rewrite app_length; cbn; lia|]. apply Forall_app. auto.
      + apply (Hsame _ (forges_at next ms) (checks next) (checks (Ask m next)) (le_n _)); [|apply IH; assumption].
        intros v Hv. pose proof (tuple_parts v Hv) as [Hlk _]. unfold forges_at. cbn [forges].
        destruct (skipn (List.length ms) (pairs (skipn (1 + k) v))) as [|[b y] coins]; [discriminate|].
        unfold mac_with. rewrite (key_length v Hlk). destruct (Nat.eqb_spec k (List.length m)) as [He|He]; [congruence|].
        exact (fun H => H).
    - set (e := sym_comb c (sym_held s t k ms)).
      assert (Hd : (deg e <= 3)%nat) by (pose proof (sym_comb_deg 2 c _ (sym_held_deg s t k ms)); unfold e; lia).
      assert (Hf : forall v, forges_at (Test c yes no) ms v = if zero_at e v then forges_at yes ms v else forges_at no ms v).
      { intros v. unfold forges_at. cbn [forges]. rewrite comb_at, zero_iff. reflexivity. }
      cbn [checks]. destruct (vanishes R n e) eqn:Hvan.
      + apply (Hsame _ (forges_at yes ms) (checks yes) (S (Nat.max (checks yes) (checks no))) ltac:(lia)); [|apply IHy; assumption].
        intros v Hv. rewrite Hf. rewrite (proj2 (zero_at_iff e v) (proj1 (vanishes_true R n e) Hvan v Hv)). exact (fun H => H).
      + apply (Hstep e _ (forges_at no ms) (checks no) (Nat.max (checks yes) (checks no)) Hd Hvan ltac:(lia)); [|apply IHn; assumption].
        intros v Hv. rewrite Hf. destruct (zero_at e v); auto.
    - set (e := sym_tag s t k cP cQ m ms). set (P := sym_comb cP (sym_held s t k ms)).
      assert (Hd : (deg e <= 3)%nat) by apply sym_tag_deg.
      assert (HdP : (deg (PAdd P (PC (-1))) <= 3)%nat).
      { pose proof (sym_comb_deg 2 cP _ (sym_held_deg s t k ms)). cbn [deg]. unfold P. lia. }
      assert (Hf : forall v, In v (tuples R n) -> forges_at (Try cP cQ m yes no) ms v =
        if negb (zero_at (PAdd P (PC (-1))) v) && zero_at e v
        then if Nat.eqb (List.length m) k && fresh m ms && negb (zero_at P v) then true else forges_at yes ms v
        else forges_at no ms v).
      { intros v Hv. pose proof (tuple_parts v Hv) as [Hlk _]. unfold forges_at. cbn [forges].
        rewrite verify_at by exact Hlk. cbn [tag_nonce]. rewrite comb_at, zero_iff, (key_length v Hlk). fold P e.
        destruct (negb (zero_at (PAdd P (PC (-1))) v) && zero_at e v); reflexivity. }
      cbn [checks]. destruct (vanishes R n e) eqn:Hvan.
      + assert (Hno : forall v, In v (tuples R n) -> Nat.eqb (List.length m) k && fresh m ms && negb (zero_at P v) = false).
        { intros v Hv. destruct (Nat.eqb_spec (List.length m) k) as [Hm|]; [|reflexivity].
          destruct (fresh m ms) eqn:Hfr; [|reflexivity].
          unfold P. rewrite (always_valid cP cQ m ms Hl Hms Hm Hfr Hvan v Hv). reflexivity. }
        destruct (vanishes R n (PAdd P (PC (-1)))) eqn:HvanP.
        * apply (Hsame _ (forges_at no ms) (checks no) (S (Nat.max (checks yes) (checks no))) ltac:(lia)); [|apply IHn; assumption].
          intros v Hv. rewrite (Hf v Hv), (proj2 (zero_at_iff _ v) (proj1 (vanishes_true R n _) HvanP v Hv)). exact (fun H => H).
        * apply (Hstep _ _ (forges_at yes ms) (checks yes) (Nat.max (checks yes) (checks no)) HdP HvanP ltac:(lia)); [|apply IHy; assumption].
          intros v Hv. rewrite (Hf v Hv), (Hno v Hv), (proj2 (zero_at_iff e v) (proj1 (vanishes_true R n e) Hvan v Hv)).
          destruct (zero_at (PAdd P (PC (-1))) v); cbn; auto.
      + apply (Hstep e _ (forges_at no ms) (checks no) (Nat.max (checks yes) (checks no)) Hd Hvan ltac:(lia)); [|apply IHn; assumption].
        intros v Hv. rewrite (Hf v Hv). destruct (zero_at e v); [auto|]. rewrite Bool.andb_false_r. auto.
  Qed.
End play.
