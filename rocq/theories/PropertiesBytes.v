(** What C82 and C88 say of random bytes (C91): signal-credential/src/user.rs:99-140,
    signal-credential/src/phone_number.rs:350-366, aeonflux/src/elgamal.rs:121-131,
    aeonflux/src/elgamal.rs:169-181, aeonflux/src/elgamal.rs:219-236. *)
From Verif Require Import SpecBytes PropertiesUniform PropertiesBlocks ElgamalFacts PropertiesElgamal PropertiesObserve Toy.
From Coq Require Import Setoid.
Local Open Scope Z_scope.
Local Opaque wide_range.

Lemma shares_eq : shares = wide_range / ell.
Proof. unfold shares. rewrite wide_range_eq. reflexivity. Qed.
Lemma shares_def : 2 ^ 512 / ell = shares.
Proof. reflexivity. Qed.
Lemma shares_nonneg : 0 <= shares.
Proof. rewrite shares_eq. apply Z.div_pos; [pose proof wide_range_big; pose proof ell_pos; lia|exact ell_pos]. Qed.
Local Opaque shares.

Lemma exactly_sum {A B} (P : A -> B -> Prop) l lo hi : NoDup l ->
  (forall a, In a l -> exists n, exactly n (P a) /\ lo <= n <= hi) ->
  (forall a a' b, P a b -> P a' b -> a = a') ->
  exists n, exactly n (fun b => exists a, In a l /\ P a b) /\ Z.of_nat (List.length l) * lo <= n <= Z.of_nat (List.length l) * hi.
Proof.
  intros Hl Hn Hu. induction Hl as [|a l Ha Hl IH].
  - exists 0. split; [|cbn; lia]. exists []. split; [constructor|]. split; [|reflexivity]. intros b. split; [intros []|intros (a & [] & _)].
  - destruct IH as (n & (k & K1 & K2 & K3) & Hb). { intros a' Ha'. apply Hn. right; exact Ha'. }
    destruct (Hn a (or_introl eq_refl)) as (n' & (k' & J1 & J2 & J3) & Hb'). exists (n' + n). split.
    + exists (k' ++ k). split; [|split].
      * apply nodup_app; [exact J1|exact K1|]. intros b H1 H2. apply J2 in H1. apply K2 in H2 as (a' & Hin & H2).
        rewrite (Hu a a' b H1 H2) in Ha. contradiction.
      * intros b. rewrite in_app_iff, J2, K2. split.
        -- intros [H|(a' & Hin & H)]; [exists a; split; [left; reflexivity|exact H]|exists a'; split; [right; exact Hin|exact H]].
        -- intros (a' & [<-|Hin] & H); [left; exact H|right; exists a'; auto].
      * rewrite app_length, Nat2Z.inj_add. lia.
    + cbn [List.length]. rewrite Nat2Z.inj_succ. lia.
Qed.

Lemma strings_for v : Forall canonical v ->
  exists n, exactly n (fun w => List.length w = List.length v /\ Forall (fun b : bytes => List.length b = 64%nat) w /\ reduced w = v) /\
    shares ^ Z.of_nat (List.length v) <= n <= (shares + 1) ^ Z.of_nat (List.length v).
Proof.
  pose proof shares_nonneg as Hs. induction 1 as [|x v Hx Hv IH].
  - exists 1. split; [|cbn; lia]. exists [[]]. split; [repeat constructor; intros []|]. split; [|reflexivity].
    intros w. split; [intros [<-|[]]; repeat split; constructor|]. intros (H & _). destruct w; [left; reflexivity|discriminate].
  - destruct IH as (n & Hn & Hb). destruct (C70_nearly_uniform x Hx) as (l & Hl & Hin & Hlen).
    rewrite shares_def in Hlen. exists (Z.of_nat (List.length l) * n). split.
    + assert (Hb' : exactly (Z.of_nat (List.length l)) (fun b => List.length b = 64%nat /\ from_bytes_mod_order_wide b = x)) by (exists l; auto).
      pose proof (exactly_prod _ _ _ _ Hb' Hn) as Hp.
      destruct Hp as (k & K1 & K2 & K3). exists (map (fun bw => fst bw :: snd bw) k). split; [|split].
      * apply FinFun.Injective_map_NoDup; [|exact K1]. intros [b w] [b' w']. cbn [fst snd]. congruence.
      * intros w. rewrite in_map_iff. split.
        -- intros ([b w'] & <- & H). apply K2 in H. cbn [fst snd] in *. destruct H as ((H1 & H2) & H3 & H4 & H5).
           split; [cbn [List.length]; rewrite H3; reflexivity|]. split; [constructor; assumption|]. unfold reduced in *. cbn [map]. rewrite H2, H5. reflexivity.
        -- intros (H1 & H2 & H3). destruct w as [|b w]; [discriminate|]. exists (b, w). split; [reflexivity|]. apply K2. cbn [fst snd].
           inversion H2; subst. unfold reduced in H3. cbn [map] in H3. injection H3 as H3 H3'. cbn [List.length] in H1. auto.
      * rewrite map_length. exact K3.
    + cbn [List.length]. rewrite Nat2Z.inj_succ, !Z.pow_succ_r by lia.
      assert (0 <= shares ^ Z.of_nat (List.length v)) by (apply Z.pow_nonneg; lia). nia.
Qed.

(** ** C91 *)
(** Whatever is so for [a] of the vectors of [n] scalars is so for [a] times
    [shares ^ n] of the vectors of [n] strings, up to a factor of nearly one. *)
Theorem C91_counts : forall n P a, exactly a (on_scalars n P) ->
  exists b, exactly b (on_bytes n P) /\ a * shares ^ Z.of_nat n <= b <= a * (shares + 1) ^ Z.of_nat n.
Proof.
  intros n P a (l & Hl & Hin & <-).
  destruct (exactly_sum (fun v w => List.length w = List.length v /\ Forall (fun b : bytes => List.length b = 64%nat) w /\ reduced w = v)
    l (shares ^ Z.of_nat n) ((shares + 1) ^ Z.of_nat n) Hl) as (b & Hb & Hle).
  - intros v Hv. apply Hin in Hv as [[<- Hc] _]. apply strings_for, Hc.
  - intros v v' w (_ & _ & <-) (_ & _ & <-). reflexivity.
  - exists b. split; [|exact Hle]. destruct Hb as (k & K1 & K2 & K3). exists k. split; [exact K1|]. split; [|exact K3].
    intros w. rewrite K2. unfold on_bytes. split.
    + intros (v & Hv & Hw & Hf & <-). apply Hin in Hv as [[Hlv _] HP]. rewrite Hw. auto.
    + intros (Hw & Hf & HP). exists (reduced w). split; [|split; [unfold reduced; rewrite map_length; reflexivity|auto]].
      apply Hin. split; [|exact HP]. split; [unfold reduced; rewrite map_length; exact Hw|apply reduced_canonical].
Qed.
Print Assumptions C91_counts.
(** Nearly one: [shares] is more than 2^256, and [shares] times the order is 2^512 but for less than the order. *)
Theorem C91_shares : 2 ^ 256 < shares /\ 2 ^ 512 - ell < shares * ell <= 2 ^ 512.
Proof.
  pose proof ell_pos as Hell. pose proof ell_lt_255 as Hlt.
  assert (H : 2 ^ 512 - ell < shares * ell <= 2 ^ 512).
  { rewrite shares_eq, wide_range_eq. pose proof (Z.div_mod wide_range ell ltac:(lia)) as H. pose proof (Z.mod_pos_bound wide_range ell Hell). lia. }
  split; [|exact H]. apply Z.nle_gt. intros Hle.
  assert (H1 : shares * ell <= 2 ^ 256 * 2 ^ 255) by (pose proof shares_nonneg; apply Z.mul_le_mono_nonneg; lia).
  rewrite <- Z.pow_add_r in H1 by lia. assert (H2 : 2 ^ 512 = 2 * 2 ^ 511) by reflexivity.
  assert (H3 : 2 ^ 255 < 2 ^ 511) by reflexivity. change (256 + 255) with 511 in H1. lia.
Qed.
Print Assumptions C91_shares.

(** ** Watching *)
Lemma show_list_length c : List.length (show_list c) = 9%nat.
Proof. destruct c as [[[b z] zQ] [v w]]. reflexivity. Qed.
Lemma coins_of_show_list c : presentation_coins (show_list c) = c.
Proof. destruct c as [[[b z] zQ] [[v1 v2 v3] [w1 w2 w3]]]. reflexivity. Qed.
Lemma pieces_flat shows : map presentation_coins (pieces 9 (List.length shows) (flat_map show_list shows)) = shows.
Proof.
  induction shows as [|c shows IH]; [reflexivity|]. cbn [List.length pieces flat_map map].
  pose proof (show_list_length c) as Hl. unfold scalar in *.
  rewrite (CodecFacts.firstn_exact 9 _ _ Hl), (CodecFacts.skipn_exact 9 _ _ Hl), coins_of_show_list, IH. reflexivity.
Qed.
Definition flat_coins (w : observed_coins) : list scalar := (fst w ++ flat_map show_list (snd w))%list.
Lemma flat_length w : List.length (flat_coins w) = (List.length (fst w) + 9 * List.length (snd w))%nat.
Proof.
  unfold flat_coins. rewrite app_length. f_equal. induction (snd w) as [|c l IH]; [reflexivity|]. cbn [flat_map List.length].
  rewrite app_length, show_list_length, IH. lia.
Qed.
Lemma flat_watched w : watched_coins (List.length (fst w)) (List.length (snd w)) (flat_coins w) = w.
Proof.
  destruct w as [rs shows]. unfold watched_coins, flat_coins. cbn [fst snd]. unfold scalar in *.
  rewrite (CodecFacts.firstn_exact _ _ _ eq_refl), (CodecFacts.skipn_exact _ _ _ eq_refl), pieces_flat. reflexivity.
Qed.
Lemma flat_canonical w : observed_canonical w -> Forall canonical (flat_coins w).
Proof.
  intros [H1 H2]. apply Forall_app. split; [exact H1|]. unfold shows_canonical in H2. apply Forall_flat_map. eapply Forall_impl; [|exact H2].
  intros [[[b z] zQ] [v w']] (H3 & H4 & H5 & (H6 & H7 & H8) & H9 & H10 & H11). cbn [show_list]. repeat (apply Forall_cons; [assumption|]). apply Forall_nil.
Qed.
Lemma watched_flat N K v : List.length v = (N + 9 * K)%nat -> flat_coins (watched_coins N K v) = v.
Proof.
  intros Hl. unfold flat_coins, watched_coins. cbn [fst snd].
  assert (H : forall K v, List.length v = (9 * K)%nat -> flat_map show_list (map presentation_coins (pieces 9 K v)) = v).
  { clear. induction K as [|K IH]; intros v Hl; [destruct v; [reflexivity|discriminate]|]. cbn [pieces map flat_map].
    rewrite show_list_of by (rewrite firstn_length; lia). rewrite IH by (rewrite skipn_length; lia). apply firstn_skipn. }
  rewrite H by (rewrite skipn_length; lia). apply firstn_skipn.
Qed.
Lemma watched_lengths N K v : List.length v = (N + 9 * K)%nat ->
  List.length (fst (watched_coins N K v)) = N /\ List.length (snd (watched_coins N K v)) = K.
Proof.
  intros Hl. unfold watched_coins. cbn [fst snd]. rewrite map_length, pieces_length, firstn_length. split; [lia|reflexivity].
Qed.
Lemma watched_canonical N K v : Forall canonical v -> observed_canonical (watched_coins N K v).
Proof.
  intros H. split; cbn [fst snd watched_coins].
  - rewrite <- (firstn_skipn N v) in H. apply Forall_app in H. tauto.
  - apply shows_of_canonical, skipn_canonical, H.
Qed.

Lemma same_watching {E} (L : ExtLaws E) (i : Issuer E) (members : nat -> member E) o conclude N K a0 a1 second :
  consistent i -> single_attribute i ->
  sp_h (iss_system_parameters i) <> pzero -> sp_g (iss_system_parameters i) <> pzero ->
  (forall k, member_of i (members k)) ->
  exactly a0 (on_scalars (N + 9 * K) (concluded_from (iss_system_parameters i) members second o conclude N K)) ->
  exactly a1 (on_scalars (N + 9 * K) (concluded_from (iss_system_parameters i) members (negb second) o conclude N K)) ->
  a0 <= a1.
Proof.
  intros Hc Hs Hh Hg Hm H0 H1.
  apply (exactly_le _ _ (fun v v' => observe (iss_system_parameters i) members (negb second) o (watched_coins N K v') [] =
    observe (iss_system_parameters i) members second o (watched_coins N K v) []) _ _ H0 H1).
  - intros v [[Hl Hv] Hp]. destruct (watched_lengths N K v Hl) as [L1 L2].
    destruct (C82_same_view E L i members second o (watched_coins N K v) Hc Hs Hh Hg Hm (watched_canonical N K v Hv)) as (w' & ((W1 & W2 & W3) & W4) & _).
    assert (Hw : watched_coins N K (flat_coins w') = w').
    { pose proof (flat_watched w') as H. unfold scalar in *. rewrite W2, W3, L1, L2 in H. exact H. }
    exists (flat_coins w'). unfold on_scalars, given_scalars, concluded_from. rewrite Hw. split; [|exact W4]. split; [split|].
    + rewrite flat_length. unfold scalar in *. rewrite W2, W3, L1, L2. reflexivity.
    + apply flat_canonical, W1.
    + rewrite W4. exact Hp.
  - intros v v' y [[Hl Hv] Hp] [[Hl' Hv'] Hp'] R1 R2.
    assert (Hy : forall w w' : observed_coins,
      observe (iss_system_parameters i) members second o w [] = observe (iss_system_parameters i) members second o w' [] ->
      List.length (fst w) = List.length (fst w') -> List.length (snd w) = List.length (snd w') ->
      observed_canonical w -> observed_canonical w' -> w = w').
    { intros w w' He E1 E2 C1 C2.
      destruct (C82_same_view E L i members second o w Hc Hs Hh Hg Hm C1) as (u & ((U1 & U2 & U3) & U4) & _).
      destruct (C82_same_view E L i members (negb second) o u Hc Hs Hh Hg Hm U1) as (u' & _ & Hu).
      rewrite Bool.negb_involutive in Hu.
      rewrite <- (Hu w), <- (Hu w'); [reflexivity| |]; (split; [split; [assumption|split; congruence]|congruence]). }
    rewrite <- (watched_flat N K v Hl), <- (watched_flat N K v' Hl'). f_equal.
    destruct (watched_lengths N K v Hl), (watched_lengths N K v' Hl'). apply Hy; try congruence; apply watched_canonical; assumption.
Qed.
(** Whatever somebody concludes who watches a group, the conclusion is reached for
    nearly as many strings in either world: whoever of the two named joins. *)
Theorem C91_watching : forall E, ExtLaws E -> forall (i : Issuer E) (members : nat -> member E) o conclude N K second b0 b1,
  consistent i -> single_attribute i ->
  sp_h (iss_system_parameters i) <> pzero -> sp_g (iss_system_parameters i) <> pzero ->
  (forall k, member_of i (members k)) ->
  exactly b0 (on_bytes (N + 9 * K) (concluded_from (iss_system_parameters i) members second o conclude N K)) ->
  exactly b1 (on_bytes (N + 9 * K) (concluded_from (iss_system_parameters i) members (negb second) o conclude N K)) ->
  b0 * shares ^ Z.of_nat (N + 9 * K) <= b1 * (shares + 1) ^ Z.of_nat (N + 9 * K).
Proof.
  intros E L i members o conclude N K second b0 b1 Hc Hs Hh Hg Hm H0 H1. set (n := (N + 9 * K)%nat) in *.
  assert (Hex : forall second, exists a, exactly a (on_scalars n (concluded_from (iss_system_parameters i) members second o conclude N K))).
  { intros b. apply (exactly_filter _ _ (fun v => conclude (fst (observe (iss_system_parameters i) members b o (watched_coins N K v) []))) _ (exactly_scalars n)).
    intros v. reflexivity. }
  destruct (Hex second) as [a0 A0], (Hex (negb second)) as [a1 A1].
  pose proof (same_watching L i members o conclude N K a0 a1 second Hc Hs Hh Hg Hm A0 A1) as Hle.
  destruct (C91_counts _ _ _ A0) as (b0' & B0 & _ & Hb0), (C91_counts _ _ _ A1) as (b1' & B1 & Hb1 & _).
  rewrite (exactly_same _ _ _ _ H0 B0) by reflexivity. rewrite (exactly_same _ _ _ _ H1 B1) by reflexivity.
  pose proof shares_nonneg as Hsh.
  assert (P0 : 0 <= shares ^ Z.of_nat n) by (apply Z.pow_nonneg; lia). assert (P1 : 0 <= (shares + 1) ^ Z.of_nat n) by (apply Z.pow_nonneg; lia).
  transitivity (a0 * (shares + 1) ^ Z.of_nat n * shares ^ Z.of_nat n); [apply Z.mul_le_mono_nonneg_r; assumption|].
  transitivity (a1 * shares ^ Z.of_nat n * (shares + 1) ^ Z.of_nat n); [|apply Z.mul_le_mono_nonneg_r; assumption].
  replace (a0 * (shares + 1) ^ Z.of_nat n * shares ^ Z.of_nat n) with (a0 * (shares ^ Z.of_nat n * (shares + 1) ^ Z.of_nat n)) by ring.
  replace (a1 * shares ^ Z.of_nat n * (shares + 1) ^ Z.of_nat n) with (a1 * (shares ^ Z.of_nat n * (shares + 1) ^ Z.of_nat n)) by ring.
  apply Z.mul_le_mono_nonneg_r; [apply Z.mul_nonneg_nonneg; assumption|exact Hle].
Qed.
Print Assumptions C91_watching.

(** ** Eavesdropping *)
Lemma vectors_of_pairs n (P : list scalar -> Prop) (Q : scalar * list scalar -> Prop) w :
  (forall x, Q x <-> canonical (fst x) /\ given_scalars n (snd x) /\ P (fst x :: snd x)) ->
  exactly w Q -> exactly w (on_scalars (S n) P).
Proof.
  intros HQ (l & Hl & Hin & Hn). exists (map (fun x => fst x :: snd x) l). split; [|split].
  - apply FinFun.Injective_map_NoDup; [|exact Hl]. intros [a v] [a' v']. cbn [fst snd]. congruence.
  - intros v. rewrite in_map_iff. split.
    + intros ([a rs] & <- & H). apply Hin, HQ in H as (H1 & (H2 & H3) & H4). cbn [fst snd] in *. split; [|exact H4].
      split; [cbn [List.length]; rewrite H2; reflexivity|constructor; assumption].
    + intros [[Hlen Hc] HP]. destruct v as [|a rs]; [discriminate|]. inversion Hc; subst. exists (a, rs). split; [reflexivity|].
      apply Hin, HQ. cbn [fst snd]. cbn [List.length] in Hlen. split; [assumption|]. split; [split; [lia|assumption]|exact HP].
  - rewrite map_length. exact Hn.
Qed.
(** As many of the strings as of the scalars let an eavesdropper say so, up to a
    factor of nearly one; so C88 applies. *)
Theorem C91_eavesdropping : forall E (e : eavesdropper E) second n w,
  exactly w (hears second e n) ->
  exists b, exactly b (on_bytes (S n) (overheard_from second e)) /\
    w * shares ^ Z.of_nat (S n) <= b <= w * (shares + 1) ^ Z.of_nat (S n).
Proof.
  intros E e second n w Hw. apply C91_counts. revert Hw. apply vectors_of_pairs. intros [a rs]. reflexivity.
Qed.
Print Assumptions C91_eavesdropping.

Lemma power_difference x d n : 0 <= x -> 0 <= d -> (x + d) ^ Z.of_nat (S n) - x ^ Z.of_nat (S n) <= Z.of_nat (S n) * d * (x + d) ^ Z.of_nat n.
Proof.
  intros Hx Hd. induction n as [|n IH]; [cbn [Z.of_nat]; change (Z.of_nat 1) with 1; rewrite !Z.pow_1_r, Z.pow_0_r; lia|].
  rewrite (Nat2Z.inj_succ (S n)), !Z.pow_succ_r by lia.
  assert (P : 0 <= (x + d) ^ Z.of_nat n) by (apply Z.pow_nonneg; lia).
  assert (P' : 0 <= (x + d) ^ Z.of_nat (S n)) by (apply Z.pow_nonneg; lia).
  set (A := (x + d) ^ Z.of_nat (S n)) in *. set (B := x ^ Z.of_nat (S n)) in *.
  assert (HA : A = (x + d) * (x + d) ^ Z.of_nat n) by (unfold A; rewrite Nat2Z.inj_succ, Z.pow_succ_r by lia; reflexivity).
  transitivity (d * A + x * (Z.of_nat (S n) * d * (x + d) ^ Z.of_nat n)).
  - assert (x * (A - B) <= x * (Z.of_nat (S n) * d * (x + d) ^ Z.of_nat n)) by (apply Z.mul_le_mono_nonneg_l; assumption). lia.
  - replace (Z.succ (Z.of_nat (S n)) * d * A) with (d * A + Z.of_nat (S n) * d * A) by (rewrite <- Z.add_1_l; ring).
    apply Z.add_le_mono_l. replace (x * (Z.of_nat (S n) * d * (x + d) ^ Z.of_nat n)) with (Z.of_nat (S n) * d * (x * (x + d) ^ Z.of_nat n)) by ring.
    apply Z.mul_le_mono_nonneg_l; [apply Z.mul_nonneg_nonneg; lia|]. rewrite HA. apply Z.mul_le_mono_nonneg_r; lia.
Qed.
(** A generic eavesdropper cannot tell two messages apart, whatever it does, but for
    a fraction of the strings that is small. *)
Theorem C91_listening : forall E, ExtLaws E -> forall l n b0 b1,
  exactly b0 (on_bytes (S n) (listened_from (E := E) false l)) -> exactly b1 (on_bytes (S n) (listened_from (E := E) true l)) ->
  Z.abs (b0 - b1) * ell <=
    2 * Z.of_nat (comparisons l) * (2 ^ 512) ^ Z.of_nat (S n) + Z.of_nat (S n) * ell ^ 2 * (2 ^ 512 + ell) ^ Z.of_nat n.
Proof.
  intros E L l n b0 b1 H0 H1. rewrite wide_range_eq. set (N := Z.of_nat (S n)). pose proof ell_pos as Hell. pose proof shares_nonneg as Hs.
  assert (Hex : forall second, exists w, exactly w (listens (E := E) second l n) /\ w <= ell ^ N /\
    exists b, exactly b (on_bytes (S n) (listened_from (E := E) second l)) /\ w * shares ^ N <= b <= w * (shares + 1) ^ N).
  { intros second.
    destruct (exactly_filter (listens (E := E) second l n) _ (fun x => let k := elgamal_public_of_secret (E := E) (fst x) in concludes k second l [basepoint; k] (snd x)) _
      (exactly_prod _ _ _ _ exactly_canonical (exactly_scalars n))) as [w Hw]; [intros [a rs]; unfold listens; cbn [fst snd]; tauto|].
    exists w. split; [exact Hw|]. assert (Hv : exactly w (on_scalars (S n) (listened_from (E := E) second l))).
    { revert Hw. apply vectors_of_pairs. intros [a rs]. reflexivity. }
    split; [|apply C91_counts, Hv]. apply (exactly_le _ _ eq _ _ Hv (exactly_scalars (S n))); [intros v [Hg _]; exists v; auto|congruence]. }
  destruct (Hex false) as (w0 & W0 & U0 & c0 & C0 & B0), (Hex true) as (w1 & W1 & U1 & c1 & C1 & B1).
  rewrite (exactly_same _ _ _ _ H0 C0) by reflexivity. rewrite (exactly_same _ _ _ _ H1 C1) by reflexivity.
  pose proof (C88_generic E L l n w0 w1 W0 W1) as Hg. fold N in Hg.
  set (s := shares ^ N) in *. set (t := (shares + 1) ^ N) in *.
  assert (Hst : 0 <= s <= t) by (unfold s, t; split; [apply Z.pow_nonneg; lia|apply Z.pow_le_mono_l; lia]).
  assert (Hd : Z.abs (c0 - c1) <= Z.abs (w0 - w1) * s + ell ^ N * (t - s)).
  { assert (Q0 : w0 * (t - s) <= ell ^ N * (t - s)) by (apply Z.mul_le_mono_nonneg_r; lia).
    assert (Q1 : w1 * (t - s) <= ell ^ N * (t - s)) by (apply Z.mul_le_mono_nonneg_r; lia).
    assert (Q2 : (w0 - w1) * s <= Z.abs (w0 - w1) * s) by (apply Z.mul_le_mono_nonneg_r; lia).
    assert (Q3 : (w1 - w0) * s <= Z.abs (w0 - w1) * s) by (apply Z.mul_le_mono_nonneg_r; lia).
    apply Z.abs_le. split; lia. }
  assert (Hwide : shares * ell <= wide_range) by (rewrite shares_eq, Z.mul_comm; apply Z.mul_div_le; exact Hell).
  assert (Hdiff : ell ^ N * (t - s) <= N * ell * (wide_range + ell) ^ Z.of_nat n).
  { rewrite Z.mul_sub_distr_l. unfold t, s. rewrite <- !Z.pow_mul_l. replace (ell * (shares + 1)) with (shares * ell + ell) by ring. rewrite (Z.mul_comm ell shares).
    etransitivity; [apply power_difference; [apply Z.mul_nonneg_nonneg; lia|lia]|]. fold N.
    apply Z.mul_le_mono_nonneg_l; [unfold N; apply Z.mul_nonneg_nonneg; lia|]. apply Z.pow_le_mono_l. split; [assert (0 <= shares * ell) by (apply Z.mul_nonneg_nonneg; lia); lia|lia]. }
  assert (Hmain : Z.abs (w0 - w1) * s * ell <= 2 * Z.of_nat (comparisons l) * wide_range ^ N).
  { replace (Z.abs (w0 - w1) * s * ell) with (Z.abs (w0 - w1) * ell * s) by ring.
    transitivity (2 * Z.of_nat (comparisons l) * ell ^ N * s); [apply Z.mul_le_mono_nonneg_r; lia|].
    rewrite <- Z.mul_assoc. apply Z.mul_le_mono_nonneg_l; [lia|]. unfold s. rewrite <- Z.pow_mul_l. apply Z.pow_le_mono_l.
    split; [apply Z.mul_nonneg_nonneg; lia|rewrite Z.mul_comm; exact Hwide]. }
  transitivity ((Z.abs (w0 - w1) * s + ell ^ N * (t - s)) * ell); [apply Z.mul_le_mono_nonneg_r; lia|].
  rewrite Z.mul_add_distr_r. apply Z.add_le_mono; [exact Hmain|].
  transitivity (N * ell * (wide_range + ell) ^ Z.of_nat n * ell); [apply Z.mul_le_mono_nonneg_r; lia|]. apply Z.eq_le_incl. ring.
Qed.
Print Assumptions C91_listening.

(** The factors are needed: the scalars do not all come from equally many strings. *)
Theorem C91_uniform_refuted : ~ exists n, forall x, canonical x ->
  exactly n (fun b => List.length b = 64%nat /\ from_bytes_mod_order_wide b = x).
Proof.
  intros (n & Hn). pose proof ell_pos as Hell. pose proof wide_range_big as Hw.
  destruct (range_exists ell ltac:(lia)) as (R & R1 & R2 & R3).
  destruct (exactly_sum (fun x (b : bytes) => List.length b = 64%nat /\ from_bytes_mod_order_wide b = x) R n n R1) as (m & Hm & Hb).
  { intros x Hx. exists n. split; [apply Hn, R2, Hx|lia]. }
  { intros x x' b [_ <-] [_ <-]. reflexivity. }
  unfold scalar in Hb, Hm. rewrite R3 in Hb.
  assert (Hall : exactly wide_range (fun b : bytes => List.length b = 64%nat)).
  { destruct (range_exists wide_range ltac:(lia)) as (Q & Q1 & Q2 & Q3).
    apply (exactly_map (fun z => 0 <= z < wide_range) _ (le_encode 64) le_decode); [exists Q; auto| |].
    - intros z Hz. split; [apply le_encode_length|]. apply le_decode_encode_small. rewrite wide_range_bytes. exact Hz.
    - intros b Hl. split; [|rewrite <- Hl; apply le_encode_decode]. rewrite <- wide_range_bytes, <- Hl. apply le_decode_range. }
  assert (He : m = wide_range).
  { apply (exactly_same _ _ _ _ Hm Hall). intros b. split; [intros (x & _ & H & _); exact H|]. intros H.
    exists (from_bytes_mod_order_wide b). split; [apply R2, mod_range|auto]. }
  assert (Hd : (ell | 2 ^ 512)) by (exists n; rewrite wide_range_eq; lia).
  assert (H2 : (ell | 2)).
  { assert (G : forall k, (ell | 2 ^ Z.of_nat k) -> (ell | 2)).
    { induction k as [|k IH]; intros Hk.
      - apply Z.divide_pos_le in Hk; [|reflexivity]. pose proof ell_gt_252. assert (1 < 2 ^ 252) by reflexivity. cbn in Hk. lia.
      - rewrite Nat2Z.inj_succ, Z.pow_succ_r in Hk by lia. apply (prime_mult ell PrimeL.prime_ell) in Hk as [Hk|Hk]; [exact Hk|apply IH, Hk]. }
    apply (G 512%nat). exact Hd. }
  apply Z.divide_pos_le in H2; [|reflexivity]. pose proof ell_gt_252. assert (2 < 2 ^ 252) by reflexivity. lia.
Qed.
Print Assumptions C91_uniform_refuted.

(** A key pair and a nonce made after it are the first two strings of the stream. *)
Theorem C91_key_of_stream : forall E r,
  eg_secret (fst (@elgamal_keypair_generate E r)) = from_bytes_mod_order_wide (block 0 r) /\
  eg_public (fst (@elgamal_keypair_generate E r)) = elgamal_public_of_secret (from_bytes_mod_order_wide (block 0 r)) /\
  fst (ephemeral_new (snd (@elgamal_keypair_generate E r))) = from_bytes_mod_order_wide (block 1 r).
Proof.
  intros E r. unfold elgamal_keypair_generate, elgamal_secret_generate. rewrite scalar_random_block. cbn [fst snd eg_secret eg_public].
  split; [reflexivity|]. split; [reflexivity|]. unfold ephemeral_new. rewrite scalar_random_block. cbn [fst]. rewrite shift_block. reflexivity.
Qed.
Print Assumptions C91_key_of_stream.

From Verif Require Import PropertiesIssue PropertiesShow Toy.
Definition sample_strings : list bytes := map (le_encode 64) (flat_coins sample_observed).
Definition long_view (seen : list (sight toy)) : bool := (List.length seen =? 5)%nat.
Example C91_met :
  (exists a b, exactly a (on_scalars 38 (concluded_from sample_params sample_members false sample_observer long_view 2 4)) /\
    exactly b (on_bytes 38 (concluded_from sample_params sample_members false sample_observer long_view 2 4))) /\
  on_bytes 38 (concluded_from sample_params sample_members false sample_observer long_view 2 4) sample_strings /\
  (exists w b, exactly w (hears false attentive 1) /\ exactly b (on_bytes 2 (overheard_from false attentive))) /\
  on_bytes 2 (overheard_from false attentive) [le_encode 64 1; le_encode 64 (5 + ell)] /\
  (exists b0 b1, exactly b0 (on_bytes 2 (listened_from (E := toy) false hopeful)) /\ exactly b1 (on_bytes 2 (listened_from (E := toy) true hopeful))) /\
  on_bytes 2 (listened_from (E := toy) false hopeful) [le_encode 64 3; le_encode 64 ell].
Proof.
  assert (Hex : forall n P f, (forall v, P v <-> f v = true) -> exists a b, exactly a (on_scalars n P) /\ exactly b (on_bytes n P)).
  { intros n P f Hf. destruct (exactly_filter (on_scalars n P) _ f _ (exactly_scalars n)) as [a Ha]; [intros v; unfold on_scalars; rewrite Hf; reflexivity|].
    destruct (C91_counts _ _ _ Ha) as (b & Hb & _). eauto. }
  split; [apply (Hex _ _ (fun v => long_view (fst (observe sample_params sample_members false sample_observer (watched_coins 2 4 v) [])))); intros v; reflexivity|]. split; [|split; [|split; [|split]]].
  - split; [reflexivity|]. split; [apply Forall_map, Forall_forall; intros x _; apply le_encode_length|]. vm_compute. reflexivity.
  - destruct (C88_counts toy attentive false 1) as ((w & W) & _). destruct (C91_eavesdropping _ _ _ _ _ W) as (b & B & _). eauto.
  - split; [reflexivity|]. split; [repeat constructor|]. vm_compute. reflexivity.
  - destruct (Hex 2%nat _ (fun v => let k := elgamal_public_of_secret (E := toy) (hd 0 v) in concludes k false hopeful [basepoint; k] (tl v)) (fun v => iff_refl (listened_from (E := toy) false hopeful v))) as (_ & b0 & _ & B0).
    destruct (Hex 2%nat _ (fun v => let k := elgamal_public_of_secret (E := toy) (hd 0 v) in concludes k true hopeful [basepoint; k] (tl v)) (fun v => iff_refl (listened_from (E := toy) true hopeful v))) as (_ & b1 & _ & B1). eauto.
  - split; [reflexivity|]. split; [repeat constructor|]. vm_compute. reflexivity.
Qed.
