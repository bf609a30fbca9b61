(** What the bounds come to as numbers (C110): aeonflux/src/amacs.rs, issuer.rs, user.rs,
    proofs.rs, elgamal.rs. *)
From Verif Require Import SpecLevel GameFacts MacFacts PropertiesGame PropertiesBlocks PropertiesBytes PropertiesRare PropertiesIssue PropertiesOracle PropertiesOverheard PropertiesObserve PropertiesElgamal ElgamalFacts Toy.
From Coq Require Import Lia.
Local Open Scope Z_scope.

(** ** Powers *)

Lemma growth T e b : 0 <= e -> 0 <= T -> Z.of_nat b * e <= T -> (T + e) ^ Z.of_nat b * (T - Z.of_nat b * e) <= T ^ (Z.of_nat b + 1).
Proof.
  intros He HT. induction b as [|b IH]; intros Hb.
  - cbn [Z.of_nat]. rewrite Z.pow_0_r. change (0 + 1) with 1. rewrite Z.pow_1_r. lia.
  - rewrite Nat2Z.inj_succ in *. rewrite !Z.pow_add_r, !Z.pow_succ_r, Z.pow_1_r by lia. rewrite Z.pow_add_r, Z.pow_1_r in IH by lia.
    specialize (IH ltac:(nia)). set (A := (T + e) ^ Z.of_nat b) in *. set (B := T ^ Z.of_nat b) in *. set (n := Z.of_nat b) in *.
    assert (HA : 0 <= A) by (apply Z.pow_nonneg; lia). 
    apply Z.le_trans with (T * (A * (T - n * e))); [|replace (T * B * T) with (T * (B * T)) by ring; apply Z.mul_le_mono_nonneg_l; assumption].
    replace ((T + e) * A * (T - Z.succ n * e)) with (A * ((T + e) * (T - Z.succ n * e))) by ring.
    replace (T * (A * (T - n * e))) with (A * (T * (T - n * e))) by ring.
    apply Z.mul_le_mono_nonneg_l; [exact HA|]. unfold Z.succ. assert (0 <= n) by lia. nia.
Qed.

Lemma twice T e b : 0 <= e -> 0 < T -> 2 * (Z.of_nat b * e) <= T -> (T + e) ^ Z.of_nat b <= 2 * T ^ Z.of_nat b.
Proof.
  intros He HT Hb. pose proof (growth T e b He ltac:(lia) ltac:(nia)) as H. rewrite Z.pow_add_r, Z.pow_1_r in H by lia.
  set (A := (T + e) ^ Z.of_nat b) in *. set (B := T ^ Z.of_nat b) in *.
  assert (HA : 0 <= A) by (apply Z.pow_nonneg; lia). 
  assert (A * T <= 2 * (A * (T - Z.of_nat b * e))) by nia. assert (A * T <= 2 * B * T) by lia.
  apply Z.mul_le_mono_pos_r with T; assumption.
Qed.

Lemma strings_twice b : Z.of_nat b <= 2 ^ 255 -> (2 ^ 512 + ell) ^ Z.of_nat b <= 2 * strings b.
Proof.
  intros Hb. pose proof ell_lt_255. pose proof ell_gt_252. apply twice; [lia|reflexivity|].
  assert (H2 : 2 * (2 ^ 255 * 2 ^ 255) <= 2 ^ 512) by (vm_compute; discriminate).
  assert (Z.of_nat b * ell <= 2 ^ 255 * 2 ^ 255) by (apply Z.mul_le_mono_nonneg; lia). lia.
Qed.
Lemma strings_pos b : 0 < strings b.
Proof. apply Z.pow_pos_nonneg; [reflexivity|lia]. Qed.
Lemma strings_S b : strings (S b) = 2 ^ 512 * strings b.
Proof. unfold strings. rewrite Nat2Z.inj_succ, Z.pow_succ_r by lia. reflexivity. Qed.

(** From a bound over [ell] to a power of two. *)
Lemma level n a total k d : 0 <= n -> 0 <= total -> 0 <= k -> 0 <= d -> k + d = 252 -> n * ell <= a * total -> a <= 2 ^ d -> one_in k n total.
Proof.
  intros Hn Ht Hk Hd Hs H Ha. unfold one_in. pose proof ell_gt_252 as He. rewrite <- Hs, Z.pow_add_r in He by assumption.
  assert (0 < 2 ^ d) by (apply Z.pow_pos_nonneg; lia).
  assert (n * (2 ^ k * 2 ^ d) <= total * 2 ^ d).
  { apply Z.le_trans with (n * ell); [apply Z.mul_le_mono_nonneg_l; lia|]. apply Z.le_trans with (a * total); [exact H|].
    rewrite Z.mul_comm. apply Z.mul_le_mono_nonneg_l; assumption. }
  apply Z.mul_le_mono_pos_r with (2 ^ d); [assumption|]. lia.
Qed.

Lemma twos s : 0 <= s -> 1 <= 2 ^ s /\ 2 ^ s <= 2 ^ (2 * s) /\ 2 ^ (2 * s) = 2 ^ s * 2 ^ s.
Proof.
  intros Hs. assert (1 <= 2 ^ s) by (change 1 with (2 ^ 0); apply Z.pow_le_mono_r; lia).
  assert (H2 : 2 ^ (2 * s) = 2 ^ s * 2 ^ s) by (rewrite <- Z.pow_add_r by lia; f_equal; lia).
  split; [assumption|]. split; [rewrite H2; nia|exact H2].
Qed.
Lemma work_small s n c : 0 <= s <= 122 -> 0 <= c <= 2 ^ 130 -> n <= c * 2 ^ s -> n <= 2 ^ 255.
Proof.
  intros Hs Hc Hn. assert (2 ^ s <= 2 ^ 122) by (apply Z.pow_le_mono_r; lia). pose proof (twos s ltac:(lia)) as (H1 & _).
  assert (H2 : 2 ^ 130 * 2 ^ 122 <= 2 ^ 255) by (vm_compute; discriminate).
  assert (c * 2 ^ s <= 2 ^ 130 * 2 ^ 122) by (apply Z.mul_le_mono_nonneg; lia). lia.
Qed.

(** ** C110: the bounds as numbers *)

(** Forging tags, with the proofs of issuance seen. *)
Theorem C110_unforgeable : forall E, ExtLaws E -> forall (params : SystemParameters E) (o : observer) s (q h N M : nat)
    (wins : list (list bytes)),
  0 <= s <= 122 -> work s q -> work s h -> work s N -> work s M ->
  sp_h params <> pzero ->
  within q h o ->
  NoDup wins ->
  (forall w, In w wins ->
     List.length w = (2 + 6 * N + M)%nat /\ Forall (fun b => List.length b = 64%nat) w /\
     forges_on_blocks params o N w = true) ->
  one_in (246 - 2 * s) (Z.of_nat (List.length wins)) (strings (2 + 6 * N + M)).
Proof.
  intros E L params o s q h N M wins Hs Hq Hh HN HM Hp Ho Hnd Hw. unfold work in *.
  pose proof (C85_unforgeable E L params o q h N M wins Hp Ho Hnd Hw) as H.
  pose proof (twos s ltac:(lia)) as (H1 & H2 & H3).
  replace (2 + 6 * Z.of_nat N + Z.of_nat M) with (Z.of_nat (2 + 6 * N + M)) in H by lia.
  pose proof (strings_twice (2 + 6 * N + M) ltac:(apply (work_small s _ 9); [lia|split; [lia|vm_compute; discriminate]|lia])) as Ht.
  pose proof (strings_pos (2 + 6 * N + M)) as Hpos.
  set (A := 3 * (Z.of_nat q + 9 * Z.of_nat M * Z.of_nat h) + Z.of_nat N * Z.of_nat M) in *.
  assert (HA : 0 <= A <= 31 * 2 ^ (2 * s)).
  { assert (Z.of_nat M * Z.of_nat h <= 2 ^ s * 2 ^ s) by (apply Z.mul_le_mono_nonneg; lia).
    assert (Z.of_nat N * Z.of_nat M <= 2 ^ s * 2 ^ s) by (apply Z.mul_le_mono_nonneg; lia).
    unfold A. nia. }
  apply (level _ (2 * A) _ _ (2 * s + 6)); try lia.
  - eapply Z.le_trans; [exact H|]. replace (2 * A * strings (2 + 6 * N + M)) with (A * (2 * strings (2 + 6 * N + M))) by ring.
    apply Z.mul_le_mono_nonneg_l; [lia|exact Ht].
  - rewrite Z.pow_add_r by lia. change (2 ^ 6) with 64. lia.
Qed.
Print Assumptions C110_unforgeable.

(** Passing for somebody, with presentations overheard.  All strings but one of those which
    are encodings give an [h] (C85). *)
Theorem C110_no_impostor : forall E, ExtLaws E -> forall (o : impostor) s (q h N K M : nat) (wins : list (bytes * list bytes)),
  0 <= s <= 122 -> work s q -> work s h -> work s N -> work s K -> work s M ->
  impostor_within q h o ->
  NoDup wins ->
  (forall h_bytes w, In (h_bytes, w) wins ->
     List.length w = (2 + 6 * N + 9 * K + M)%nat /\ Forall (fun b => List.length b = 64%nat) w /\
     impersonates_on_bytes (E := E) o N K h_bytes w) ->
  one_in (245 - 2 * s) (Z.of_nat (List.length wins)) ((ell - 1) * strings (2 + 6 * N + 9 * K + M)).
Proof.
  intros E L o s q h N K M wins Hs Hq Hh HN HK HM Ho Hnd Hw. unfold work in *.
  pose proof (C85_no_impostor E L o q h N K M wins Ho Hnd Hw) as H.
  pose proof (twos s ltac:(lia)) as (H1 & H2 & H3).
  replace (2 + 6 * Z.of_nat N + 9 * Z.of_nat K + Z.of_nat M) with (Z.of_nat (2 + 6 * N + 9 * K + M)) in H by lia.
  pose proof (strings_twice (2 + 6 * N + 9 * K + M) ltac:(apply (work_small s _ 18); [lia|split; [lia|vm_compute; discriminate]|lia])) as Ht.
  pose proof (strings_pos (2 + 6 * N + 9 * K + M)) as Hpos. set (S := strings _) in *. set (P := _ ^ Z.of_nat _) in *.
  set (A := 1 + 2 * Z.of_nat q + 3 * Z.of_nat (h + N + 2 * K) ^ 2) in *.
  assert (HA : 0 <= A <= 51 * 2 ^ (2 * s)).
  { assert (Z.of_nat (h + N + 2 * K) ^ 2 <= (4 * 2 ^ s) ^ 2) by (apply Z.pow_le_mono_l; lia).
    assert ((4 * 2 ^ s) ^ 2 = 16 * (2 ^ s * 2 ^ s)) by ring. assert (0 <= Z.of_nat (h + N + 2 * K) ^ 2) by (apply Z.pow_nonneg; lia).
    unfold A. nia. }
  assert (Hn : Z.of_nat (List.length wins) <= 2 * A * S).
  { pose proof ell_pos. apply Z.mul_le_mono_pos_r with ell; [assumption|]. eapply Z.le_trans; [exact H|].
    replace (A * (ell * P)) with (A * P * ell) by ring. apply Z.mul_le_mono_nonneg_r; [lia|].
    replace (2 * A * S) with (A * (2 * S)) by ring. apply Z.mul_le_mono_nonneg_l; [lia|exact Ht]. }
  unfold one_in. pose proof ell_gt_252 as He.
  assert (HA2 : 2 * A * 2 ^ (245 - 2 * s) <= 2 ^ 252).
  { replace (2 ^ 252) with (2 ^ (2 * s + 7) * 2 ^ (245 - 2 * s)) by (rewrite <- Z.pow_add_r by lia; f_equal; lia).
    apply Z.mul_le_mono_nonneg_r; [apply Z.pow_nonneg; lia|]. rewrite Z.pow_add_r by lia. change (2 ^ 7) with 128. lia. }
  apply Z.le_trans with (2 * A * S * 2 ^ (245 - 2 * s)); [apply Z.mul_le_mono_nonneg_r; [apply Z.pow_nonneg; lia|exact Hn]|].
  replace (2 * A * S * 2 ^ (245 - 2 * s)) with (2 * A * 2 ^ (245 - 2 * s) * S) by ring. apply Z.mul_le_mono_nonneg_r; lia.
Qed.
Print Assumptions C110_no_impostor.

(** Watching a group. *)
Theorem C110_watching : forall E, ExtLaws E -> forall (i : Issuer E) (members : nat -> member E) o conclude s N K second b0 b1,
  consistent i -> single_attribute i ->
  sp_h (iss_system_parameters i) <> pzero -> sp_g (iss_system_parameters i) <> pzero ->
  (forall k, member_of i (members k)) ->
  0 <= s <= 255 -> work s (N + 9 * K) ->
  exactly b0 (on_bytes (N + 9 * K) (concluded_from (iss_system_parameters i) members second o conclude N K)) ->
  exactly b1 (on_bytes (N + 9 * K) (concluded_from (iss_system_parameters i) members (negb second) o conclude N K)) ->
  close (255 - s) b0 b1.
Proof.
  intros E L i members o conclude s N K second b0 b1 Hc Hsi Hh Hg Hm Hs Hw H0 H1. unfold work in Hw.
  pose proof (C91_watching E L i members o conclude N K second b0 b1 Hc Hsi Hh Hg Hm H0 H1) as H.
  pose proof C91_shares as (Hsh & _). set (n := (N + 9 * K)%nat) in *.
  assert (Hb0 : 0 <= b0) by (destruct H0 as (l & _ & _ & <-); lia). assert (Hb1 : 0 <= b1) by (destruct H1 as (l & _ & _ & <-); lia).
  assert (Hsb : 2 ^ s <= 2 ^ 255) by (apply Z.pow_le_mono_r; lia).
  assert (H255 : 2 ^ 255 + 2 ^ 255 = 2 ^ 256) by (vm_compute; reflexivity).
  set (S := shares) in *. pose proof (growth S 1 n ltac:(lia) ltac:(lia) ltac:(lia)) as G. rewrite Z.pow_add_r, Z.pow_1_r in G by lia.
  assert (Hpos : 0 < S ^ Z.of_nat n) by (apply Z.pow_pos_nonneg; lia).
  assert (Hle : b0 * (S - Z.of_nat n) <= b1 * S).
  { apply Z.mul_le_mono_pos_r with (S ^ Z.of_nat n); [exact Hpos|].
    replace (b1 * S * S ^ Z.of_nat n) with (b1 * (S ^ Z.of_nat n * S)) by ring.
    apply Z.le_trans with (b1 * ((S + 1) ^ Z.of_nat n * (S - Z.of_nat n * 1))); [|apply Z.mul_le_mono_nonneg_l; assumption].
    replace (b0 * (S - Z.of_nat n) * S ^ Z.of_nat n) with (b0 * S ^ Z.of_nat n * (S - Z.of_nat n)) by ring.
    replace (b1 * ((S + 1) ^ Z.of_nat n * (S - Z.of_nat n * 1))) with (b1 * (S + 1) ^ Z.of_nat n * (S - Z.of_nat n)) by ring.
    apply Z.mul_le_mono_nonneg_r; [lia|exact H]. }
  unfold close. set (k := 2 ^ (255 - s)). assert (Hk : 0 < k) by (apply Z.pow_pos_nonneg; lia).
  assert (Hks : 2 ^ s * k = 2 ^ 255) by (unfold k; rewrite <- Z.pow_add_r by lia; f_equal; lia).
  assert (Hn : Z.of_nat n * (k + 1) <= S).
  { assert (Z.of_nat n * k <= 2 ^ s * k) by (apply Z.mul_le_mono_nonneg_r; lia). lia. }
  apply Z.mul_le_mono_pos_r with S; [lia|].
  assert (H2 : b0 * (S - Z.of_nat n) * (k + 1) <= b1 * S * (k + 1)) by (apply Z.mul_le_mono_nonneg_r; lia).
  assert (H3 : b0 * (k * S) <= b0 * ((S - Z.of_nat n) * (k + 1))) by (apply Z.mul_le_mono_nonneg_l; [exact Hb0|]; lia).
  lia.
Qed.
Print Assumptions C110_watching.

(** Listening to encryptions. *)
Theorem C110_listening : forall E, ExtLaws E -> forall l s n b0 b1,
  0 <= s <= 250 -> work s (comparisons l) -> work s (S n) ->
  exactly b0 (on_bytes (S n) (listened_from (E := E) false l)) -> exactly b1 (on_bytes (S n) (listened_from (E := E) true l)) ->
  one_in (250 - s) (Z.abs (b0 - b1)) (strings (S n)).
Proof.
  intros E L l s n b0 b1 Hs Hq Hn H0 H1. unfold work in *. pose proof (C91_listening E L l n b0 b1 H0 H1) as H.
  pose proof (twos s ltac:(lia)) as (Hs1 & _). assert (Hsb : 2 ^ s <= 2 ^ 250) by (apply Z.pow_le_mono_r; lia).
  assert (H250 : 2 ^ 250 <= 2 ^ 255) by (apply Z.pow_le_mono_r; lia).
  pose proof (strings_twice n ltac:(lia)) as Ht. pose proof (strings_pos n) as Hpos. change ((2 ^ 512) ^ Z.of_nat (S n)) with (strings (S n)) in H.
  rewrite strings_S in *. set (T := strings n) in *. set (P := (2 ^ 512 + ell) ^ Z.of_nat n) in *.
  pose proof ell_lt_255 as El. pose proof ell_gt_252 as Eg.
  assert (Hsq : 4 * ell ^ 2 <= 2 ^ 512).
  { apply Z.le_trans with (4 * (2 ^ 255) ^ 2); [|vm_compute; discriminate]. apply Z.mul_le_mono_nonneg_l; [lia|]. apply Z.pow_le_mono_l. lia. }
  apply (level _ (4 * 2 ^ s) _ _ (s + 2)); try lia.
  2:{ rewrite Z.pow_add_r by lia. change (2 ^ 2) with 4. lia. }
  eapply Z.le_trans; [exact H|].
  assert (B1 : 2 * Z.of_nat (comparisons l) * (2 ^ 512 * T) <= 2 * 2 ^ s * (2 ^ 512 * T)) by (apply Z.mul_le_mono_nonneg_r; lia).
  assert (HP : 0 <= P) by (apply Z.pow_nonneg; lia).
  assert (B2 : Z.of_nat (S n) * ell ^ 2 * P <= 2 ^ s * (2 ^ 512 * T)).
  { rewrite <- Z.mul_assoc. apply Z.mul_le_mono_nonneg; [lia|exact Hn|apply Z.mul_nonneg_nonneg; [apply Z.pow_nonneg; lia|exact HP]|].
    apply Z.le_trans with (ell ^ 2 * (2 * T)); [apply Z.mul_le_mono_nonneg_l; [apply Z.pow_nonneg; lia|exact Ht]|].
    assert (0 <= ell ^ 2) by (apply Z.pow_nonneg; lia).
    replace (ell ^ 2 * (2 * T)) with (2 * ell ^ 2 * T) by ring. apply Z.mul_le_mono_nonneg_r; lia. }
  assert (0 <= 2 ^ s * (2 ^ 512 * T)) by (apply Z.mul_nonneg_nonneg; lia). lia.
Qed.
Print Assumptions C110_listening.

(** The exceptions counted in C109. *)
Theorem C110_exceptions : forall A question challenge eq_dec (p : prover transcript A) (W : list (list bytes)),
  seldom_on_bytes question challenge eq_dec p ->
  NoDup W ->
  (forall v, In v W -> List.length v = 2%nat /\ Forall (fun b => List.length b = 64%nat) v /\ passes question challenge eq_dec p (reduced v)) ->
  one_in 250 (Z.of_nat (List.length W)) (strings 2).
Proof.
  intros A question challenge eq_dec p W Hs Hnd HW. specialize (Hs W Hnd HW). pose proof (strings_pos 2) as Hpos.
  apply (level _ 4 _ _ 2); try lia. eapply Z.le_trans; [exact Hs|].
  pose proof (strings_twice 2 ltac:(vm_compute; discriminate)) as Ht. change (Z.of_nat 2) with 2 in Ht. lia.
Qed.
Print Assumptions C110_exceptions.

(** Nothing much better holds: [q] guesses of [x0] forge for [q] values of it. *)
Fixpoint guesses (k q : nat) : adversary :=
  match q with
  | O => Stop
  | S q' => Try [2] [2 * Z.of_nat q'] (repeat 0 k) Stop (guesses k q')
  end.
Theorem C110_reached : forall E, ExtLaws E -> forall (params : SystemParameters E) (k q : nat), Z.of_nat q <= ell ->
  exists a, checks a = q /\
    forall x0 xs coins, canonical x0 -> List.length xs = k ->
      (game params a x0 xs coins = true <-> x0 < Z.of_nat q).
Proof.
  intros E L params k q Hq. exists (guesses k q). split; [induction q as [|q IH]; [reflexivity|]; cbn [guesses checks]; rewrite IH by lia; reflexivity|].
  intros x0 xs coins Hx Hk. unfold game. set (key := {| sk_x0 := x0; sk_xn := xs |}). pose proof two_lt_ell as Hell.
  assert (Hc : forall c, combination [c] (public_points key params) = smul c (@basepoint E)).
  { intros c. unfold public_points. cbn [combination hd tl]. rewrite (combination_nil L), !smul_0, !(padd_zero_r L). reflexivity. }
  assert (H2 : smul 2 (@basepoint E) <> pzero).
  { intros H. apply (smul_zero_iff L) in H; [|apply (basepoint_nonzero E L)]. apply eqm_canonical in H; lia. }
  assert (Hd : forall xs, dot xs (repeat 0 (List.length xs)) = 0).
  { clear. induction xs as [|x xs IH]; [reflexivity|]. cbn [List.length repeat dot]. rewrite IH. ring. }
  induction q as [|q IH]; [cbn [guesses forges]; unfold canonical in Hx; split; [discriminate|lia]|].
  specialize (IH ltac:(lia)). cbn [guesses forges]. rewrite !Hc.
  set (tag := {| tag_nonce := _; tag_mac := _ |}).
  assert (Hv : mac_verify key tag (repeat 0 k) = Ok tt <-> x0 = Z.of_nat q).
  { rewrite (mac_verify_iff L). cbn [tag_nonce tag_mac tag sk_x0 sk_xn key]. rewrite <- Hk, Hd. split.
    - intros [_ H]. assert (G : smul (2 * Z.of_nat q) (@basepoint E) = smul (Z.of_nat q) (smul 2 basepoint)).
      { to_base L. apply (smul_base_iff L). apply eqm_of_eq; zring. }
      rewrite G in H. apply (smul_inj L) in H; [|exact H2]. rewrite Z.add_0_r in H. symmetry. unfold canonical in Hx. apply eqm_canonical in H; lia.
    - intros ->. split; [|to_base L; apply (smul_base_iff L); apply eqm_of_eq; zring].
      intros H. rewrite <- (smul_1 basepoint) in H at 2. apply (smul_base_iff L) in H. apply eqm_canonical in H; lia. }
  destruct (mac_verify_cases key tag (repeat 0 k)) as [H|H]; rewrite H.
  - apply Hv in H. cbn [sk_xn key]. rewrite repeat_length, Hk, Nat.eqb_refl. cbn [fresh forallb andb tag tag_nonce].
    rewrite (proj2 (peqb_false L _ _) H2). cbn [negb]. split; [lia|reflexivity].
  - rewrite IH. assert (x0 <> Z.of_nat q) by (intros Hx0; apply Hv in Hx0; congruence). lia.
Qed.
Print Assumptions C110_reached.

(** ** Examples *)

(** With everything at most [2 ^ 58] the chance is less than one in [2 ^ 128]. *)
Example C110_level : 246 - 2 * 58 = 130 /\ 245 - 2 * 58 = 129.
Proof. split; reflexivity. Qed.
(** The adversaries and wins of C85, C88 and C91 meet the hypotheses. *)
Example C110_met : work 2 1 /\ work 2 2 /\ work 2 4 /\ work 3 5 /\ ~ work 2 5 /\
  one_in (246 - 2 * 2) (Z.of_nat 2) (strings (2 + 6 * 1 + 2)) /\
  one_in (245 - 2 * 3) (Z.of_nat 2) ((ell - 1) * strings (2 + 6 * 1 + 9 * 1 + 5)).
Proof.
  assert (W : forall s n, Z.of_nat n <=? 2 ^ s = true -> work s n) by (intros s n H; apply Z.leb_le, H).
  do 4 (split; [apply W; reflexivity|]). split; [unfold work; intros H; vm_compute in H; apply H; reflexivity|]. split.
  - destruct C85_met_forging as (H1 & H2 & H3 & H4).
    exact (C110_unforgeable toy toy_laws _ _ 2 2 1 1 2 _ ltac:(lia) (W 2 2%nat eq_refl) (W 2 1%nat eq_refl) (W 2 1%nat eq_refl) (W 2 2%nat eq_refl) H1 H2 H3 H4).
  - destruct C85_met_impostor as (H1 & H2 & H3).
    exact (C110_no_impostor toy toy_laws _ 3 1 4 1 1 5 _ ltac:(lia) (W 3 1%nat eq_refl) (W 3 4%nat eq_refl) (W 3 1%nat eq_refl) (W 3 1%nat eq_refl) (W 3 5%nat eq_refl) H1 H2 H3).
Qed.
(** A conclusion in C91 is drawn for nearly as many strings in the one world as in the other. *)
Example C110_met_watching : work 6 (2 + 9 * 4) /\ exists b0 b1,
  exactly b0 (on_bytes 38 (concluded_from sample_params sample_members false sample_observer long_view 2 4)) /\
  exactly b1 (on_bytes 38 (concluded_from sample_params sample_members true sample_observer long_view 2 4)) /\
  close (255 - 6) b0 b1.
Proof.
  split; [unfold work; apply Z.leb_le; reflexivity|].
  assert (Hex : forall second, exists b, exactly b (on_bytes 38 (concluded_from sample_params sample_members second sample_observer long_view 2 4))).
  { intros second. destruct (exactly_filter (on_scalars 38 (concluded_from sample_params sample_members second sample_observer long_view 2 4)) _
      (fun v => long_view (fst (observe sample_params sample_members second sample_observer (watched_coins 2 4 v) []))) _ (exactly_scalars 38)) as [a Ha];
      [intros v; unfold on_scalars; reflexivity|]. destruct (C91_counts _ _ _ Ha) as (b & Hb & _). eauto. }
  destruct (Hex false) as [b0 B0]. destruct (Hex true) as [b1 B1]. exists b0, b1. split; [exact B0|]. split; [exact B1|].
  destruct C82_met as (H1 & H2 & H3 & H4 & H5 & _).
  exact (C110_watching toy toy_laws sample_issuer sample_members sample_observer long_view 6 2 4 false b0 b1 H1 H2 H3 H4 H5
    ltac:(lia) ltac:(unfold work; apply Z.leb_le; reflexivity) B0 B1).
Qed.
Example C110_met_listening : work 1 (comparisons hopeful) /\ work 1 2 /\ exists b0 b1,
  exactly b0 (on_bytes 2 (listened_from (E := toy) false hopeful)) /\ exactly b1 (on_bytes 2 (listened_from (E := toy) true hopeful)) /\
  one_in 249 (Z.abs (b0 - b1)) (strings 2).
Proof.
  split; [unfold work; apply Z.leb_le; reflexivity|]. split; [unfold work; apply Z.leb_le; reflexivity|].
  destruct C91_met as (_ & _ & _ & _ & (b0 & b1 & B0 & B1) & _). exists b0, b1. split; [exact B0|]. split; [exact B1|].
  exact (C110_listening toy toy_laws hopeful 1 1 b0 b1 ltac:(lia) ltac:(unfold work; apply Z.leb_le; reflexivity) ltac:(unfold work; apply Z.leb_le; reflexivity) B0 B1).
Qed.
(** Three guesses. *)
Example C110_met_guesses : checks (guesses 1 3) = 3%nat /\
  map (fun x0 => game sample_params (guesses 1 3) x0 [7] []) [0; 1; 2; 3; 4] = [true; true; true; false; false].
Proof. split; vm_compute; reflexivity. Qed.
