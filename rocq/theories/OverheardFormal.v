(** Polynomials for the game in which the adversary overhears honest users. *)
From Verif Require Export SpecOverheard PresentFacts.
From Coq Require Import Setoid.
Local Open Scope Z_scope.

(** ** The points held, as polynomials.  Variable 0 is [t], variables 1 and 2 are
    the key; the coins for credentials follow, and then, from [j] on, those for
    presentations. *)
Inductive event : Type :=
| EAsk (m : Z)
| ESeen (n r : Z) (pf : vc_Proof) (pf' : ce_Proof).

Definition e_Q (j : nat) (n : Z) : pexp := PAdd (PMul (PV j) (p_exponent n)) (PMul (PV (2 + j)) p_h).
Definition e_C (j : nat) (n : Z) : pexp := PAdd (PMul (PC n) (PV j)) (PMul (PV (1 + j)) p_h).
Fixpoint p_events (i j : nat) (evs : list event) : list pexp :=
  match evs with
  | [] => []
  | EAsk m :: evs' => [PV i; PMul (PV i) (p_exponent m); PAdd (PV 1) (PMul (PV 0) (PV (S i)))] ++ p_events (2 + i) j evs'
  | ESeen n _ _ _ :: evs' => [PV j; e_Q j n; e_C j n] ++ p_events i (3 + j) evs'
  end.
Definition p_all (j : nat) (evs : list event) : list pexp := p_public ++ p_events 3 j evs.

Fixpoint asked_of (evs : list event) : list Z :=
  match evs with
  | [] => []
  | EAsk m :: evs' => m :: asked_of evs'
  | ESeen _ _ _ _ :: evs' => asked_of evs'
  end.
Fixpoint seen_of (evs : list event) : list (Z * Z * vc_Proof * ce_Proof) :=
  match evs with
  | [] => []
  | EAsk _ :: evs' => seen_of evs'
  | ESeen n r pf pf' :: evs' => (n, r, pf, pf') :: seen_of evs'
  end.
Definition numbers_of (evs : list event) : list Z := map (fun '(n, _, _, _) => n) (seen_of evs).

Lemma asked_of_app e e' : asked_of (e ++ e') = asked_of e ++ asked_of e'.
Proof. induction e as [|[m|n r pf pf'] e IH]; cbn [app asked_of]; rewrite ?IH; reflexivity. Qed.
Lemma seen_of_app e e' : seen_of (e ++ e') = seen_of e ++ seen_of e'.
Proof. induction e as [|[m|n r pf pf'] e IH]; cbn [app seen_of]; rewrite ?IH; reflexivity. Qed.
Lemma p_events_app i j e e' :
  p_events i j (e ++ e') = p_events i j e ++ p_events (i + 2 * List.length (asked_of e)) (j + 3 * List.length (seen_of e)) e'.
Proof.
  revert i j; induction e as [|[m|n r pf pf'] e IH]; intros i j; cbn [app p_events asked_of seen_of List.length].
  - f_equal; lia.
  - rewrite IH. cbn [app]. do 4 f_equal. f_equal; lia.
  - rewrite IH. cbn [app]. do 4 f_equal. f_equal; lia.
Qed.
Lemma p_all_app j e e' :
  p_all j (e ++ e') = p_all j e ++ p_events (3 + 2 * List.length (asked_of e)) (j + 3 * List.length (seen_of e)) e'.
Proof. unfold p_all. rewrite p_events_app. apply app_assoc. Qed.
Lemma p_all_deg j evs : Forall (fun e => deg e <= 2)%nat (p_all j evs).
Proof.
  unfold p_all. apply Forall_app. split; [repeat constructor|].
  generalize 3%nat. revert j. induction evs as [|[m|n r pf pf'] evs IH]; intros j i; cbn [p_events app]; [constructor| |];
    repeat (apply Forall_cons; [cbn; lia|]); apply IH.
Qed.

(** The value of a combination, in two parts. *)
Definition next3 (c : list Z) : list Z := tl (tl (tl c)).
Definition first3 (c : list Z) : list Z := [hd 0 c; hd 0 (tl c); hd 0 (tl (tl c))].
Fixpoint ask_part (evs : list event) (c : list Z) : list Z :=
  match evs with
  | [] => []
  | EAsk _ :: evs' => first3 c ++ ask_part evs' (next3 c)
  | ESeen _ _ _ _ :: evs' => ask_part evs' (next3 c)
  end.
Fixpoint show_part (evs : list event) (c : list Z) : list Z :=
  match evs with
  | [] => []
  | EAsk _ :: evs' => show_part evs' (next3 c)
  | ESeen _ _ _ _ :: evs' => first3 c ++ show_part evs' (next3 c)
  end.
Fixpoint show_value (t x0 x1 : Z) (c : list Z) (ns : list Z) (w : list Z) : Z :=
  match ns with
  | [] => 0
  | n :: ns' =>
    hd 0 c * hd 0 w + hd 0 (tl c) * (hd 0 w * (x0 + x1 * n) + hd 0 (tl (tl w)) * t) +
    hd 0 (tl (tl c)) * (n * hd 0 w + hd 0 (tl w) * t) + show_value t x0 x1 (next3 c) ns' (next3 w)
  end.

Lemma ev_p_events c i j evs v :
  ev (sym_comb c (p_events i j evs)) v =
  tail_value 1 (nth 0 v 0) (nth 1 v 0) [nth 2 v 0] (ask_part evs c) (as_messages (asked_of evs)) (skipn i v) +
  show_value (nth 0 v 0) (nth 1 v 0) (nth 2 v 0) (show_part evs c) (numbers_of evs) (skipn j v).
Proof.
  revert c i j; induction evs as [|[m|n r pf pf'] evs IH]; intros c i j; [reflexivity| |].
  - cbn [p_events app sym_comb ev p_exponent]. rewrite IH.
    unfold as_messages, numbers_of. cbn [asked_of seen_of map tail_value ask_part show_part first3 app hd tl dot].
    rewrite !tl_skipn, !hd_skipn. unfold next3. cbn [Nat.add]. ring.
  - cbn [p_events app sym_comb ev p_exponent e_Q e_C p_h]. rewrite IH.
    unfold as_messages, numbers_of. cbn [asked_of seen_of map show_value ask_part show_part first3 app hd tl].
    unfold next3. cbn [tl]. rewrite !tl_skipn, !hd_skipn. cbn [Nat.add]. ring.
Qed.
Definition ask_comb (evs : list event) (c : list Z) : list Z :=
  [nth 0 c 0; nth 1 c 0; nth 2 c 0; nth 3 c 0] ++ ask_part evs (skipn 4 c).
Lemma ev_p_all c j evs v :
  ev (sym_comb c (p_all j evs)) v =
  head_value 1 (nth 0 v 0) [nth 2 v 0] (ask_comb evs c) +
  tail_value 1 (nth 0 v 0) (nth 1 v 0) [nth 2 v 0] (skipn 4 (ask_comb evs c)) (as_messages (asked_of evs)) (skipn 3 v) +
  show_value (nth 0 v 0) (nth 1 v 0) (nth 2 v 0) (show_part evs (skipn 4 c)) (numbers_of evs) (skipn j v).
Proof.
  unfold p_all. rewrite sym_comb_app, ev_p_events. cbn [p_public List.length sym_comb ev p_h p_X1]. unfold head_value, ask_comb.
  cbn [app skipn hd tl dot]. rewrite <- !(hd_skipn 0 c). cbn [skipn].
  replace (nth 1 c 0) with (hd 0 (tl c)) by (destruct c as [|? [|? ?]]; reflexivity).
  replace (nth 2 c 0) with (hd 0 (tl (tl c))) by (destruct c as [|? [|? [|? ?]]]; reflexivity).
  replace (nth 3 c 0) with (hd 0 (tl (tl (tl c)))) by (destruct c as [|? [|? [|? [|? ?]]]]; reflexivity).
  destruct (ask_part evs (skipn 4 c)); cbn [dot]; ring.
Qed.
Lemma ev_h j z evs v : ev (sym_comb [0; 0; z] (p_all j evs)) v = z * nth 0 v 0.
Proof. unfold p_all. cbn [p_public app sym_comb ev hd tl p_h p_X1]. rewrite sym_comb_nil. ring. Qed.
Lemma ev_X1 j z evs v : ev (sym_comb [0; 0; 0; z] (p_all j evs)) v = z * (nth 2 v 0 * nth 0 v 0).
Proof. unfold p_all. cbn [p_public app sym_comb ev hd tl p_h p_X1]. rewrite sym_comb_nil. ring. Qed.

Lemma hd_zeros k : hd 0 (repeat 0 k) = 0.
Proof. destruct k; reflexivity. Qed.
Lemma tl_zeros k : tl (repeat 0 k) = repeat 0 (k - 1).
Proof. destruct k as [|k]; [reflexivity|]. cbn. rewrite Nat.sub_0_r. reflexivity. Qed.
Lemma show_value_zeros t x0 x1 c ns k : show_value t x0 x1 c ns (repeat 0 k) = 0.
Proof.
  revert c k; induction ns as [|n ns IH]; intros c k; [reflexivity|]. cbn [show_value]. unfold next3.
  rewrite !tl_zeros, !hd_zeros, IH. ring.
Qed.
Lemma tail_value_app s t x0 xs c ms u w : (2 * List.length ms <= List.length u)%nat ->
  tail_value s t x0 xs c ms (u ++ w) = tail_value s t x0 xs c ms u.
Proof.
  revert c u; induction ms as [|m ms IH]; intros c u H; [reflexivity|]. cbn [List.length] in H.
  destruct u as [|a [|b u]]; cbn [List.length] in H; try lia. cbn [app tail_value hd tl]. rewrite IH by lia. reflexivity.
Qed.

Lemma show_zero m ns : forall cP cQ K, (3 * List.length ns <= K)%nat ->
  (forall t x0 x1 w, 0 <= t < ell -> 0 <= x0 < ell -> 0 <= x1 < ell -> scalars K w ->
     show_value t x0 x1 cQ ns w - (x0 + x1 * m) * show_value t x0 x1 cP ns w == 0) ->
  forall t x0 x1 w, show_value t x0 x1 cP ns w == 0.
Proof.
  pose proof two_lt_ell as H2. induction ns as [|n ns IH]; intros cP cQ K HK H; [reflexivity|].
  cbn [List.length] in HK. destruct K as [|[|[|K]]]; try lia.
  set (a := hd 0 cP) in *. set (b := hd 0 (tl cP)) in *. set (d := hd 0 (tl (tl cP))) in *.
  set (a' := hd 0 cQ) in *. set (b' := hd 0 (tl cQ)) in *. set (d' := hd 0 (tl (tl cQ))) in *.
  assert (G : forall t x0 x1 p z zQ w, 0 <= t < ell -> 0 <= x0 < ell -> 0 <= x1 < ell -> 0 <= p < ell -> 0 <= z < ell -> 0 <= zQ < ell -> scalars K w ->
    a' * p + b' * (p * (x0 + x1 * n) + zQ * t) + d' * (n * p + z * t) + show_value t x0 x1 (next3 cQ) ns w -
    (x0 + x1 * m) * (a * p + b * (p * (x0 + x1 * n) + zQ * t) + d * (n * p + z * t) + show_value t x0 x1 (next3 cP) ns w) == 0).
  { intros t x0 x1 p z zQ w Ht H0 H1 Hp Hz HzQ [Hl Hw]. apply (H t x0 x1 (p :: z :: zQ :: w)); auto. split; [cbn; congruence|auto]. }
  assert (I : forall t x0 x1 w, show_value t x0 x1 (next3 cP) ns w == 0).
  { apply (IH (next3 cP) (next3 cQ) K); [lia|]. intros t x0 x1 w Ht H0 H1 Hw.
    rewrite <- (G t x0 x1 0 0 0 w Ht H0 H1 ltac:(lia) ltac:(lia) ltac:(lia) Hw). apply eqm_of_eq; ring. }
  assert (Z : forall x0 p z zQ, 0 <= x0 < ell -> 0 <= p < ell -> 0 <= z < ell -> 0 <= zQ < ell ->
    a' * p + b' * (p * x0 + zQ) + d' * (n * p + z) - x0 * (a * p + b * (p * x0 + zQ) + d * (n * p + z)) == 0).
  { intros x0 p z zQ H0 Hp Hz HzQ. rewrite <- (G 1 x0 0 p z zQ (repeat 0 K) ltac:(lia) H0 ltac:(lia) Hp Hz HzQ (scalars_zeros K)).
    rewrite !show_value_zeros. apply eqm_of_eq; ring. }
  assert (B' : b' == 0). { rewrite <- (Z 0 0 0 1) by lia. apply eqm_of_eq; ring. }
  assert (D' : d' == 0). { rewrite <- (Z 0 0 1 0) by lia. apply eqm_of_eq; ring. }
  assert (B : b == 0).
  { pose proof (Z 1 0 0 1 ltac:(lia) ltac:(lia) ltac:(lia) ltac:(lia)) as A. transitivity (b' - (b' - b)); [apply eqm_of_eq; ring|].
    match type of A with ?u == 0 => replace (b' - b) with u by ring end. rewrite A, B'. reflexivity. }
  assert (D : d == 0).
  { pose proof (Z 1 0 1 0 ltac:(lia) ltac:(lia) ltac:(lia) ltac:(lia)) as A. transitivity (d' - (d' - d)); [apply eqm_of_eq; ring|].
    match type of A with ?u == 0 => replace (d' - d) with u by ring end. rewrite A, D'. reflexivity. }
  assert (A' : a' == 0).
  { pose proof (Z 0 1 0 0 ltac:(lia) ltac:(lia) ltac:(lia) ltac:(lia)) as A. rewrite B', D' in A. rewrite <- A. apply eqm_of_eq; ring. }
  assert (A : a == 0).
  { pose proof (Z 1 1 0 0 ltac:(lia) ltac:(lia) ltac:(lia) ltac:(lia)) as A. rewrite A', B', D', B, D in A.
    transitivity (- (0 - a)); [apply eqm_of_eq; ring|].
    match type of A with ?u == 0 => replace (0 - a) with u by ring end. rewrite A. reflexivity. }
  intros t x0 x1 w. cbn [show_value]. fold a b d. rewrite A, B, D, I. apply eqm_of_eq; ring.
Qed.

Section formal.
  Context (R : list Z) (R_nodup : NoDup R) (R_all : forall x, In x R <-> 0 <= x < ell)
          (R_length : Z.of_nat (List.length R) = ell) (N K : nat).
  Let j0 := (3 + 2 * N)%nat.
  Let n := (3 + 2 * N + 3 * K)%nat.
  Definition room (evs : list event) : Prop := (List.length (asked_of evs) <= N)%nat /\ (List.length (seen_of evs) <= K)%nat.

  Lemma in_all t x0 x1 u w : 0 <= t < ell -> 0 <= x0 < ell -> 0 <= x1 < ell -> scalars (2 * N) u -> scalars (3 * K) w ->
    In (t :: x0 :: x1 :: u ++ w) (tuples R n).
  Proof.
    intros Ht H0 H1 [Hu Cu] [Hw Cw]. apply (in_tuples R R_all). split.
    - cbn [List.length]. rewrite app_length, Hu, Hw. unfold n. lia.
    - repeat (constructor; [assumption|]). apply Forall_app. auto.
  Qed.
  Lemma skip_asks (t x0 x1 : Z) u w : scalars (2 * N) u -> skipn j0 (t :: x0 :: x1 :: u ++ w) = w.
  Proof.
    intros [Hu _]. unfold j0. cbn [Nat.add skipn]. rewrite <- Hu at 1. rewrite skipn_app, skipn_all, Nat.sub_diag. reflexivity.
  Qed.

  (** A tag equation on a fresh message that always holds. *)
  Lemma formal_tag_all cP cQ m evs : room evs -> fresh [m] (as_messages (asked_of evs)) = true ->
    (forall v, In v (tuples R n) -> ev (sym_comb cQ (p_all j0 evs)) v == (nth 1 v 0 + nth 2 v 0 * m) * ev (sym_comb cP (p_all j0 evs)) v) ->
    forall v, In v (tuples R n) -> ~ nth 0 v 0 == 0 -> ev (sym_comb cP (p_all j0 evs)) v == 0.
  Proof.
    intros [Ha Hs] Hf H v Hv Ht. pose proof Hv as Hv'. apply (in_tuples R R_all) in Hv' as [Hlv Hc].
    destruct v as [|t [|x0 [|x1 w]]]; try (cbn in Hlv; lia). cbn [nth] in Ht.
    assert (Hm : List.length (as_messages (asked_of evs)) = List.length (asked_of evs)) by apply map_length.
    assert (Hk : List.length (numbers_of evs) = List.length (seen_of evs)) by apply map_length.
    inversion Hc as [|? ? C0 Hc1]; subst. inversion Hc1 as [|? ? C1 Hc2]; subst. inversion Hc2 as [|? ? C2 Hc3]; subst.
    assert (G : forall t x0 x1 u w, 0 <= t < ell -> 0 <= x0 < ell -> 0 <= x1 < ell -> scalars (2 * N) u -> scalars (3 * K) w ->
      let val c := head_value 1 t [x1] (ask_comb evs c) +
        tail_value 1 t x0 [x1] (skipn 4 (ask_comb evs c)) (as_messages (asked_of evs)) u +
        show_value t x0 x1 (show_part evs (skipn 4 c)) (numbers_of evs) w in
      val cQ - (x0 + x1 * m) * val cP == 0).
    { clear - H R_all Ha Hs Hm. intros t x0 x1 u w Ht H0 H1 Hu Hw. specialize (H _ (in_all t x0 x1 u w Ht H0 H1 Hu Hw)).
      rewrite !ev_p_all in H. rewrite (skip_asks t x0 x1 u w Hu) in H. cbn [nth] in H. change (skipn 3 (t :: x0 :: x1 :: u ++ w)) with (u ++ w) in H.
      rewrite !tail_value_app in H by (rewrite (proj1 Hu), Hm; lia). apply eqm_sub_0 in H. exact H. }
    assert (S : forall t x0 x1 w, show_value t x0 x1 (show_part evs (skipn 4 cP)) (numbers_of evs) w == 0).
    { apply (show_zero m _ _ (show_part evs (skipn 4 cQ)) (3 * K)); [lia|]. clear - G.
      intros t x0 x1 w Ht H0 H1 Hw. pose proof (G t x0 x1 (repeat 0 (2 * N)) w Ht H0 H1 (scalars_zeros _) Hw) as A.
      pose proof (G t x0 x1 (repeat 0 (2 * N)) (repeat 0 (3 * K)) Ht H0 H1 (scalars_zeros _) (scalars_zeros _)) as A0. cbv beta zeta in A, A0.
      rewrite !show_value_zeros in A0.
      match type of A with ?a == _ => match type of A0 with ?b == _ => transitivity (a - b) end end; [apply eqm_of_eq; ring|].
      rewrite A, A0. reflexivity. }
    rewrite ev_p_all, S. cbn [nth]. change (skipn 3 (t :: x0 :: x1 :: w)) with w. rewrite Z.add_0_r.
    apply (no_identity 1 t 1 [m] (as_messages (asked_of evs)) (ask_comb evs cP) (ask_comb evs cQ) (2 * N) Ht).
    - apply Forall_forall. intros m' Hm'. unfold fresh in Hf. rewrite forallb_forall in Hf. specialize (Hf m' Hm').
      apply Bool.negb_true_iff in Hf. unfold as_messages in Hm'. apply in_map_iff in Hm' as (a & <- & _).
      apply same_message_differ; auto.
    - lia.
    - clear - G C0. intros y0 ys u Hy0 [Hyl Hyc] Hu. destruct ys as [|y1 [|? ?]]; try discriminate. inversion Hyc; subst.
      pose proof (G t y0 y1 u (repeat 0 (3 * K)) C0 Hy0 ltac:(assumption) Hu (scalars_zeros _)) as A. cbv beta zeta in A.
      rewrite !show_value_zeros in A. etransitivity; [|exact A]. cbn [dot]. change (3 + 1)%nat with 4%nat. apply eqm_of_eq. ring.
    - split; [reflexivity|]. constructor; [assumption|constructor].
  Qed.

  (** What an accepted presentation comes to. *)
  Lemma formal_pass_all cP cQ cC m z q evs : room evs ->
    let P := sym_comb cP (p_all j0 evs) in let Q := sym_comb cQ (p_all j0 evs) in let C := sym_comb cC (p_all j0 evs) in
    (forall v, In v (tuples R n) -> ev C v == m * ev P v + z * nth 0 v 0) ->
    (forall v, In v (tuples R n) -> nth 1 v 0 * ev P v + nth 2 v 0 * ev C v - ev Q v ==
                                    z * (nth 2 v 0 * nth 0 v 0) + q * nth 0 v 0) ->
    asked_of evs = [] \/ (exists m' z' z1 number r,
      (forall v, In v (tuples R n) -> ev C v == m' * ev P v + z' * nth 0 v 0) /\
      (forall v, In v (tuples R n) -> number * nth 0 v 0 + r == m' * nth 0 v 0 + z1) /\
      fresh [number] (as_messages (asked_of evs)) = true) ->
    forall v, In v (tuples R n) -> ~ nth 0 v 0 == 0 -> ev P v == 0.
  Proof.
    intros Hl P Q C H1 H2 Hwin v Hv Ht.
    assert (Hs : forall v, In v (tuples R n) -> ev Q v + q * nth 0 v 0 == (nth 1 v 0 + nth 2 v 0 * m) * ev P v).
    { clear v Hv Ht. intros v Hv. specialize (H1 v Hv). specialize (H2 v Hv). rewrite H1 in H2.
      apply eqm_sub_0. apply eqm_sub_0 in H2.
      match goal with |- ?a == 0 => match type of H2 with ?b == 0 => transitivity (- b); [apply eqm_of_eq; ring|rewrite H2; reflexivity] end end. }
    destruct Hwin as [Hno|(m' & z' & z1 & number & r & H3 & H4 & Hf)].
    - apply (formal_tag_all cP (add_comb cQ [0; 0; q]) m evs); try assumption; [rewrite Hno; reflexivity|].
      intros w Hw. rewrite sym_comb_add, ev_h. apply Hs. exact Hw.
    - assert (Hn : number == m').
      { pose proof two_lt_ell.
        pose proof (H4 _ (in_all 0 0 0 _ _ ltac:(lia) ltac:(lia) ltac:(lia) (scalars_zeros _) (scalars_zeros _))) as A0.
        pose proof (H4 _ (in_all 1 0 0 _ _ ltac:(lia) ltac:(lia) ltac:(lia) (scalars_zeros _) (scalars_zeros _))) as A1. cbn [nth] in A0, A1.
        apply eqm_sub_0. apply eqm_sub_0 in A0, A1.
        match type of A0 with ?a == _ => match type of A1 with ?b == _ => transitivity (b - a) end end; [apply eqm_of_eq; ring|].
        rewrite A0, A1. reflexivity. }
      assert (Hd : forall w, In w (tuples R n) -> (m - m') * ev P w == (z' - z) * nth 0 w 0).
      { intros w Hw. pose proof (H1 w Hw) as B1. rewrite (H3 w Hw) in B1. apply eqm_sub_0. apply eqm_sub_0 in B1.
        match type of B1 with ?a == _ => transitivity (- a); [apply eqm_of_eq; ring|rewrite B1; reflexivity] end. }
      destruct (Z.eq_dec ((m - m') mod ell) (0 mod ell)) as [He|He].
      + assert (Hm : m == number) by (rewrite Hn; apply eqm_sub_0; exact He).
        apply (formal_tag_all cP (add_comb cQ [0; 0; q]) number evs); try assumption.
        intros w Hw. rewrite sym_comb_add, ev_h, <- Hm. apply Hs. exact Hw.
      + assert (Hz : ev (sym_comb (scale_comb (m - m') cP) (p_all j0 evs)) v == 0).
        { apply (formal_tag_all (scale_comb (m - m') cP)
            (add_comb (scale_comb (m - m') (add_comb cQ [0; 0; q])) [0; 0; 0; (number - m) * (z' - z)]) number evs); try assumption.
          intros w Hw. rewrite sym_comb_add, !sym_comb_scale, sym_comb_add, ev_h, ev_X1.
          pose proof (Hs w Hw) as Hs'. specialize (Hd w Hw). unfold P, Q in *. unfold scalar in *. rewrite Hs'. clear Hs'. apply eqm_sub_0. apply eqm_sub_0 in Hd.
          match type of Hd with ?a == _ => transitivity ((m - number) * nth 2 w 0 * a); [apply eqm_of_eq; ring|rewrite Hd; apply eqm_of_eq; ring] end. }
        rewrite sym_comb_scale in Hz. fold P in Hz. apply eqm_mul_0 in Hz as [Hz|Hz]; [contradiction|exact Hz].
  Qed.
End formal.

(** ** Hashing *)
Lemma count_by_second {A B} (f : A * B -> bool) (l : list A) (T : list B) s :
  (forall v, In v T -> count (fun x => f (x, v)) l <= s) -> count f (list_prod l T) <= Z.of_nat (List.length T) * s.
Proof.
  induction T as [|v T IH]; intros H; [rewrite count_prod_nil; cbn; lia|].
  change (v :: T) with ([v] ++ T). rewrite count_prod_app.
  assert (H1 : count f (list_prod l [v]) = count (fun x => f (x, v)) l).
  { clear. induction l as [|a l IH]; [reflexivity|]. cbn [list_prod map app]. rewrite !count_cons, IH. reflexivity. }
  rewrite H1. pose proof (H v (or_introl eq_refl)). specialize (IH (fun v Hv => H v (or_intror Hv))). cbn [app List.length]. lia.
Qed.

Section hashing_all.
  Context {E : Ext} (L : ExtLaws E).
  Context (R : list Z) (R_nodup : NoDup R) (R_all : forall x, In x R <-> 0 <= x < ell)
          (R_length : Z.of_nat (List.length R) = ell) (n : nat).

  (** A table in which entries are lucky, or are those of the honest users. *)
  Definition fair_table (H S : list (list pexp * Z)) : Prop :=
    Forall (fun e => low (fst e) /\ (unlucky R n (fst e) (snd e) = false \/ In e H)) S.
  Definition known (H : list (list pexp * Z)) (u : list pexp) (c : Z) : Prop :=
    unlucky R n u c = false \/ exists e, In e H /\ always_same R n (fst e) u = true /\ snd e = c.

  Lemma few_clashes_all H S u : fair_table H S -> low u ->
    count (clash R n S u) (tuples R n) * ell <= 3 * Z.of_nat (List.length S) * ell ^ Z.of_nat n.
  Proof.
    intros HS Hu. pose proof ell_pos as Hell. assert (Hp : 0 <= ell ^ Z.of_nat n) by (apply Z.pow_nonneg; lia).
    induction HS as [|e S [He _] HS IH]; [rewrite count_false; [cbn; lia|reflexivity]|].
    pose proof (count_or (clash R n (e :: S) u) (fun v => negb (always_same R n (fst e) u) && same_at v (fst e) u) (clash R n S u) (tuples R n)) as Hor.
    assert (H1 : count (fun v => negb (always_same R n (fst e) u) && same_at v (fst e) u) (tuples R n) * ell <= 3 * ell ^ Z.of_nat n).
    { destruct (always_same R n (fst e) u) eqn:Ha; cbn [negb andb].
      - rewrite count_false; [lia|reflexivity].
      - apply (few_same R R_nodup R_all R_length n 3 (fst e) u He Hu Ha). }
    cbn [List.length]. rewrite Nat2Z.inj_succ.
    assert (count (clash R n (e :: S) u) (tuples R n) <=
      count (fun v => negb (always_same R n (fst e) u) && same_at v (fst e) u) (tuples R n) + count (clash R n S u) (tuples R n)).
    { apply Hor. intros v _ Hv. cbn [clash existsb] in Hv. apply Bool.orb_prop in Hv. exact Hv. }
    nia.
  Qed.

  Lemma hash_step_all H S u M (G : scalar -> list (list (point E) * scalar) -> list scalar -> list Z -> bool) D :
    0 <= D -> fair_table H S -> low u ->
    (forall c S' M', known H u c -> fair_table H S' -> (List.length S' <= 1 + List.length S)%nat ->
       count (fun p => G c (table_at (snd p) S') (fst p) (snd p)) (space R n M') * ell <= D * full n M') ->
    count (fun p => match hash (table_at (snd p) S) (fst p) (map (pt_at (snd p)) u) with
                    | None => false
                    | Some (c, table, values) => G c table values (snd p)
                    end) (space R n M) * ell <= (3 * Z.of_nat (List.length S) + 1 + D) * full n M.
  Proof.
    intros HD HS Hu HG. pose proof ell_pos as Hell. pose proof (full_nonneg n M) as HF.
    set (f := fun p : list Z * list Z => match hash (table_at (snd p) S) (fst p) (map (pt_at (snd p)) u) with
                    | None => false | Some (c, table, values) => G c table values (snd p) end).
    set (g := fun p : list Z * list Z =>
      match find (fun e => always_same R n (fst e) u) S with
      | Some e => G (snd e) (table_at (snd p) S) (fst p) (snd p)
      | None => match fst p with [] => false | c :: values => G c (table_at (snd p) ((u, c) :: S)) values (snd p) end
      end).
    assert (Hor : count f (space R n M) <= count (fun p => clash R n S u (snd p)) (space R n M) + count g (space R n M)).
    { apply count_or. intros [values v] Hp Hf. apply in_space in Hp. cbn [snd] in *. destruct (clash R n S u v) eqn:Hc; [left; reflexivity|]. right.
      unfold f, hash in Hf. cbn [fst snd] in Hf. rewrite (find_table L R n v S u Hp Hc) in Hf. unfold g. cbn [fst snd].
      destruct (find _ S) as [e|]; cbn [option_map] in Hf; [exact Hf|]. destruct values; exact Hf. }
    pose proof (count_values R R_all R_length n (clash R n S u) _ M (few_clashes_all H S u HS Hu)) as Hcl.
    assert (Hg : count g (space R n M) * ell <= (1 + D) * full n M).
    { unfold g. destruct (find _ S) as [e|] eqn:Hfind.
      - apply find_some in Hfind as [Hin Hsame]. assert (He : known H u (snd e)).
        { unfold fair_table in HS. rewrite Forall_forall in HS. destruct (HS e Hin) as [_ [Hl|Hh]].
          - left. rewrite <- (unlucky_same R n _ _ _ Hsame). exact Hl.
          - right. exists e. auto. }
        etransitivity; [apply (HG (snd e) S M He HS ltac:(lia))|]. rewrite Z.mul_add_distr_r. lia.
      - destruct M as [|M].
        + rewrite count_false; [apply Z.mul_nonneg_nonneg; lia|]. intros [values v] Hp. apply in_prod_iff in Hp as [Hp _].
          cbn [lists] in Hp. destruct Hp as [<-|[]]. reflexivity.
        + rewrite space_S.
          pose proof (count_flat_map_bad (fun p : list Z * list Z => match fst p with [] => false | c :: values => G c (table_at (snd p) ((u, c) :: S)) values (snd p) end)
            (fun c => map (fun p => (c :: fst p, snd p)) (space R n M)) (unlucky R n u) R ell (D * full n M) (full n M * ell)) as Hb.
          pose proof (full_nonneg n M) as HFM. etransitivity; [apply Hb|].
          * nia.
          * intros c _. apply Z.mul_le_mono_nonneg_r; [lia|]. rewrite <- (space_length R R_length n M), <- (map_length (fun p => (c :: fst p, snd p))). apply count_all.
          * intros c _ Hc. rewrite count_map. cbn [fst snd]. apply (HG c ((u, c) :: S) M (or_introl Hc)); [|cbn [List.length]; lia].
            constructor; [split; [exact Hu|left; exact Hc]|exact HS].
          * rewrite R_length, (full_S R). pose proof (unlucky_one R R_nodup R_all n u). pose proof (count_nonneg (unlucky R n u) R). nia. }
    assert (HH : count f (space R n M) * ell <= (count (fun p => clash R n S u (snd p)) (space R n M) + count g (space R n M)) * ell) by (apply Z.mul_le_mono_nonneg_r; lia).
    replace ((3 * Z.of_nat (List.length S) + 1 + D) * full n M) with (3 * Z.of_nat (List.length S) * full n M + (1 + D) * full n M) by ring.
    etransitivity; [exact HH|]. rewrite Z.mul_add_distr_r. apply Z.add_le_mono; assumption.
  Qed.

  (** Drawing a scalar. *)
  Lemma draw_step M D (G : Z -> list Z -> list Z -> bool) : 0 <= D ->
    (forall c M', count (fun p => G c (fst p) (snd p)) (space R n M') * ell <= D * full n M') ->
    count (fun p => match fst p with [] => false | c :: rest => G c rest (snd p) end) (space R n M) * ell <= D * full n M.
  Proof.
    intros HD HG. pose proof ell_pos as Hell. pose proof (full_nonneg n M) as HF. destruct M as [|M].
    - rewrite count_false; [apply Z.mul_nonneg_nonneg; lia|]. intros [values v] Hp. apply in_prod_iff in Hp as [Hp _].
      cbn [lists] in Hp. destruct Hp as [<-|[]]. reflexivity.
    - rewrite space_S. etransitivity; [apply (count_flat_map _ (fun c => map (fun p => (c :: fst p, snd p)) (space R n M)) R ell (D * full n M))|].
      + intros c _. rewrite count_map. cbn [fst snd]. apply HG.
      + rewrite R_length, (full_S R). lia.
  Qed.
  (** Drawing a scalar which makes something of it unlikely. *)
  Lemma draw_check M D s (g : list Z -> bool) (hit : Z -> list Z -> bool) (G : Z -> list Z -> list Z -> bool) : 0 <= D -> 0 <= s ->
    (forall v, In v (tuples R n) -> g v = true -> count (fun x => hit x v) R <= s) ->
    (forall x M', count (fun p => g (snd p) && G x (fst p) (snd p)) (space R n M') * ell <= D * full n M') ->
    count (fun p => match fst p with [] => false | x :: rest => g (snd p) && (hit x (snd p) || G x rest (snd p)) end) (space R n M) * ell
      <= (s + D) * full n M.
  Proof.
    intros HD Hs Hh HG. pose proof ell_pos as Hell. pose proof (full_nonneg n M) as HF.
    set (f1 := fun p : list Z * list Z => match fst p with [] => false | x :: rest => g (snd p) && hit x (snd p) end).
    set (f2 := fun p : list Z * list Z => match fst p with [] => false | x :: rest => g (snd p) && G x rest (snd p) end).
    match goal with |- count ?f _ * _ <= _ => assert (Hor : count f (space R n M) <= count f1 (space R n M) + count f2 (space R n M)) end.
    { apply count_or. intros [[|x rest] v] _; unfold f1, f2; cbn [fst snd]; [discriminate|].
      destruct (g v); [|discriminate]. cbn [andb]. apply Bool.orb_prop. }
    assert (H2 : count f2 (space R n M) * ell <= D * full n M).
    { apply (draw_step M D (fun x rest v => g v && G x rest v) HD HG). }
    assert (H1 : count f1 (space R n M) * ell <= s * full n M).
    { destruct M as [|M].
      - rewrite count_false; [apply Z.mul_nonneg_nonneg; lia|]. intros [values v] Hp. apply in_prod_iff in Hp as [Hp _].
        cbn [lists] in Hp. destruct Hp as [<-|[]]. reflexivity.
      - rewrite space_S, (full_S R).
        assert (He : forall l, count f1 (flat_map (fun c => map (fun p => (c :: fst p, snd p)) (space R n M)) l) =
                     Z.of_nat (List.length (lists R M)) * count (fun p : Z * list Z => g (snd p) && hit (fst p) (snd p)) (list_prod l (tuples R n))).
        { induction l as [|x l IH]; [cbn; lia|]. cbn [flat_map list_prod]. rewrite !count_app, !count_map, IH. unfold f1, space. cbn [fst snd].
          rewrite (count_snd (fun v => g v && hit x v)). ring. }
        rewrite He, lists_length, R_length.
        assert (Hc : count (fun p : Z * list Z => g (snd p) && hit (fst p) (snd p)) (list_prod R (tuples R n)) <= Z.of_nat (List.length (tuples R n)) * s).
        { apply count_by_second. intros v Hv. cbn [fst snd]. destruct (g v) eqn:Hg; [|rewrite count_false; [exact Hs|reflexivity]].
          cbn [andb]. apply (Hh v Hv Hg). }
        rewrite (tuples_length R R_length) in Hc. unfold full. pose proof (count_nonneg (fun p : Z * list Z => g (snd p) && hit (fst p) (snd p)) (list_prod R (tuples R n))) as Hn.
        set (C := count (fun p : Z * list Z => g (snd p) && hit (fst p) (snd p)) (list_prod R (tuples R n))) in *. set (a := ell ^ Z.of_nat n) in *. assert (0 <= ell ^ Z.of_nat M) by (apply Z.pow_nonneg; lia).
        set (b := ell ^ Z.of_nat M) in *. replace (s * (ell * (b * a))) with (b * ell * (a * s)) by ring.
        replace (b * C * ell) with (b * ell * C) by ring. apply Z.mul_le_mono_nonneg_l; [nia|exact Hc]. }
    rewrite Z.mul_add_distr_r. etransitivity; [apply Z.mul_le_mono_nonneg_r; [lia|exact Hor]|]. rewrite Z.mul_add_distr_r. lia.
  Qed.
End hashing_all.
