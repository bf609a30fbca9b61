(** How close to uniform the scalars are that the code draws (C70): they are 64
    random bytes reduced modulo the order (dalek's [Scalar::random], used in
    aeonflux/src/amacs.rs:225-237 and 304-321 and aeonflux/src/issuer.rs:157-182), and what
    this makes of the bound of C69. *)
From Verif Require Import SpecGame GameFacts IssueFacts PropertiesGame BaseFacts PropertiesIssue Toy.
From Coq Require Import Setoid.
Local Open Scope Z_scope.

(** ** C70: random scalars are nearly uniform *)

(** Block number [i] of a stream. *)
Definition block (i : nat) (r : rng) : bytes := map r (seq (64 * i) 64).

Definition wide_range : Z := 2 ^ 512.
Lemma wide_range_bytes : 256 ^ Z.of_nat 64 = wide_range.
Proof. unfold wide_range. change 256 with (2 ^ 8). rewrite <- Z.pow_mul_r by lia. reflexivity. Qed.
Lemma wide_range_eq : 2 ^ 512 = wide_range.
Proof. reflexivity. Qed.
Lemma wide_range_big : ell < wide_range.
Proof.
  unfold wide_range. pose proof ell_lt_255. assert (2 ^ 255 < 2 ^ 512) by (apply Z.pow_lt_mono_r; lia). lia.
Qed.
Local Opaque wide_range.

(** Each scalar is the value of [2^512 / ell] or one more of the [2^512] strings
    of 64 bytes. *)
Theorem C70_nearly_uniform : forall x, canonical x ->
  exists l, NoDup l /\
    (forall b, In b l <-> List.length b = 64%nat /\ from_bytes_mod_order_wide b = x) /\
    2 ^ 512 / ell <= Z.of_nat (List.length l) <= 2 ^ 512 / ell + 1.
Proof.
  intros x Hx. unfold canonical in Hx. rewrite wide_range_eq.
  pose proof wide_range_big as Hw.
  set (J := (wide_range - 1 - x) / ell + 1).
  assert (HJ : 0 <= J) by (pose proof (Z.div_pos (wide_range - 1 - x) ell ltac:(lia) ltac:(lia)); unfold J; lia).
  assert (Hin : forall j, 0 <= j < J <-> 0 <= j /\ x + j * ell < wide_range).
  { intros j. unfold J. split.
    - intros [H1 H2]. split; [exact H1|].
      assert (H : j <= (wide_range - 1 - x) / ell) by lia.
      pose proof (Z.mul_div_le (wide_range - 1 - x) ell ltac:(lia)). nia.
    - intros [H1 H2]. split; [exact H1|].
      assert (j <= (wide_range - 1 - x) / ell) by (apply Z.div_le_lower_bound; lia). lia. }
  exists (map (fun j => le_encode 64 (x + Z.of_nat j * ell)) (seq 0 (Z.to_nat J))). split; [|split].
  - assert (G : forall n, (n <= Z.to_nat J)%nat -> forall i j, (i < n)%nat -> (j < n)%nat ->
      le_encode 64 (x + Z.of_nat i * ell) = le_encode 64 (x + Z.of_nat j * ell) -> i = j).
    { intros n Hn i j Hi Hj He. apply (f_equal le_decode) in He.
      rewrite !le_decode_encode_small in He; rewrite ?wide_range_bytes.
      - nia.
      - pose proof (proj1 (Hin (Z.of_nat j)) ltac:(lia)). nia.
      - pose proof (proj1 (Hin (Z.of_nat i)) ltac:(lia)). nia. }
    specialize (G _ (le_n _)). revert G. generalize (Z.to_nat J). intros n G.
    assert (K : forall l, NoDup l -> (forall i, In i l -> (i < n)%nat) -> NoDup (map (fun j => le_encode 64 (x + Z.of_nat j * ell)) l)).
    { induction l as [|i l IH]; intros Hnd Hl; [constructor|]. inversion Hnd; subst. cbn [map]. constructor.
      - intros H. apply in_map_iff in H as (j & He & Hj). apply G in He; [|apply Hl; right; exact Hj|apply Hl; left; reflexivity].
        subst. contradiction.
      - apply IH; [assumption|]. intros j Hj. apply Hl. right. exact Hj. }
    apply K; [apply seq_NoDup|]. intros i Hi. apply in_seq in Hi. lia.
  - intros b. rewrite in_map_iff. split.
    + intros (j & <- & Hj). apply in_seq in Hj. split; [apply le_encode_length|].
      unfold from_bytes_mod_order_wide. rewrite le_decode_encode_small.
      * rewrite Z.add_mod, Z.mod_mul, Z.add_0_r, Z.mod_mod, Z.mod_small by lia. reflexivity.
      * rewrite wide_range_bytes. pose proof (proj1 (Hin (Z.of_nat j)) ltac:(lia)). nia.
    + intros [Hl He]. unfold from_bytes_mod_order_wide in He. pose proof (le_decode_range b) as Hr.
      rewrite Hl, wide_range_bytes in Hr. exists (Z.to_nat (le_decode b / ell)).
      assert (Hq : 0 <= le_decode b / ell) by (apply Z.div_pos; lia).
      assert (Hd : le_decode b = x + le_decode b / ell * ell) by (pose proof (Z.div_mod (le_decode b) ell ltac:(lia)); lia).
      split.
      * rewrite Z2Nat.id by exact Hq. rewrite <- Hd, <- Hl. apply le_encode_decode.
      * apply in_seq. pose proof (proj2 (Hin (le_decode b / ell)) ltac:(lia)). lia.
  - rewrite map_length, seq_length, Z2Nat.id by exact HJ. unfold J.
    assert (A1 : (wide_range - 1 - x) / ell <= wide_range / ell) by (apply Z.div_le_mono; lia).
    assert (A2 : wide_range / ell - 1 <= (wide_range - 1 - x) / ell).
    { replace (wide_range / ell - 1) with ((wide_range + (-1) * ell) / ell) by (rewrite Z.div_add by lia; lia).
      apply Z.div_le_mono; lia. }
    lia.
Qed.

(** A key and the scalars of an issuance are blocks of their streams. *)
Lemma shift_block i r : block i (fun j => r (64 + j)%nat) = block (S i) r.
Proof.
  unfold block. replace (64 * S i)%nat with (64 + 64 * i)%nat by lia.
  assert (G : forall n a, map (fun j => r (64 + j)%nat) (seq a n) = map r (seq (64 + a) n)).
  { induction n as [|n IH]; intros a; [reflexivity|]. cbn [seq map]. rewrite (IH (S a)). replace (64 + S a)%nat with (S (64 + a)) by lia. reflexivity. }
  apply G.
Qed.
Lemma scalar_random_block r : scalar_random r = (from_bytes_mod_order_wide (block 0 r), fun j => r (64 + j)%nat).
Proof. reflexivity. Qed.
Theorem C70_key_of_stream : forall n r,
  fst (secret_key_new n r) =
  {| sk_x0 := from_bytes_mod_order_wide (block 0 r);
     sk_xn := map (fun i => from_bytes_mod_order_wide (block (S i) r)) (seq 0 n) |}.
Proof.
  assert (G : forall n r, fst (scalars_random n r) = map (fun i => from_bytes_mod_order_wide (block i r)) (seq 0 n)).
  { induction n as [|n IH]; intros r; [reflexivity|]. cbn [scalars_random]. rewrite scalar_random_block.
    specialize (IH (fun j => r (64 + j)%nat)). destruct (scalars_random n _) as [xs r']. cbn [fst] in *. rewrite IH.
    cbn [seq map]. f_equal. rewrite <- seq_shift, map_map. apply map_ext. intros i. rewrite shift_block. reflexivity. }
  intros n r. unfold secret_key_new. rewrite scalar_random_block. specialize (G n (fun j => r (64 + j)%nat)).
  destruct (scalars_random n _) as [xs r']. cbn [fst] in *. rewrite G. f_equal.
  apply map_ext. intros i. rewrite shift_block. reflexivity.
Qed.

(** The game played on random bytes: the first block is [x0], the next [k] are
    the rest of the key, and two more are drawn for each credential. *)
Definition game_on_blocks {E : Ext} (params : SystemParameters E) (a : adversary) (k : nat) (w : list bytes) : bool :=
  let v := map from_bytes_mod_order_wide w in
  game params a (hd 0 v) (firstn k (tl v)) (pairs (skipn (1 + k) v)).

Lemma blocks_of_vector c v : 0 <= c -> Forall canonical v ->
  (forall x l, canonical x -> NoDup l -> (forall b : bytes, In b l -> List.length b = 64%nat /\ from_bytes_mod_order_wide b = x) ->
     Z.of_nat (List.length l) <= c) ->
  exists W, (forall w, map from_bytes_mod_order_wide w = v -> Forall (fun b => List.length b = 64%nat) w -> In w W) /\
    Z.of_nat (List.length W) <= c ^ Z.of_nat (List.length v).
Proof.
  intros Hc Hv Hfib. induction Hv as [|x v Hx Hv (W & HW & Hl)].
  - exists [[]]. split; [|cbn; lia]. intros [|b w] H _; [left; reflexivity|discriminate].
  - destruct (C70_nearly_uniform x Hx) as (l & Hnd & Hin & _).
    exists (flat_map (fun b => map (cons b) W) l). split.
    + intros [|b w] H Hf; [discriminate|]. injection H as H1 H2. inversion Hf; subst. apply in_flat_map. exists b. split.
      * apply Hin. auto.
      * apply in_map. apply HW; auto.
    + specialize (Hfib x l Hx Hnd (fun b Hb => proj1 (Hin b) Hb)).
      assert (Hlen : forall l : list bytes, Z.of_nat (List.length (flat_map (fun b => map (cons b) W) l)) =
        Z.of_nat (List.length l) * Z.of_nat (List.length W)).
      { induction l0 as [|b l0 IH]; [reflexivity|]. cbn [flat_map]. rewrite app_length, map_length, Nat2Z.inj_add, IH.
        cbn [List.length]. lia. }
      rewrite Hlen. cbn [List.length]. rewrite Nat2Z.inj_succ, Z.pow_succ_r by lia.
      apply Z.mul_le_mono_nonneg; lia.
Qed.

Lemma map_blocks_canonical w : Forall canonical (map from_bytes_mod_order_wide w).
Proof.
  apply Forall_map, Forall_forall. intros b _. unfold canonical, from_bytes_mod_order_wide. apply Z.mod_pos_bound, ell_pos.
Qed.
Lemma pairs_length N w : List.length w = (2 * N)%nat -> List.length (pairs w) = N.
Proof.
  revert w; induction N as [|N IH]; intros w H; [destruct w; [reflexivity|discriminate]|].
  destruct w as [|b [|y w]]; cbn in H; try lia. cbn [pairs List.length]. rewrite IH; [reflexivity|lia].
Qed.

(** Of all [2^(512 n)] random strings, [n] being the number of scalars drawn, at
    most a fraction [3 * checks a / ell * (1 + ell / 2^512) ^ n] lets [a] forge. *)
Theorem C70_unforgeable_bytes : forall E, ExtLaws E -> forall (params : SystemParameters E) (a : adversary) (k N : nat)
    (wins : list (list bytes)),
  sp_h params <> pzero ->
  NoDup wins ->
  (forall w, In w wins ->
     List.length w = (1 + k + 2 * N)%nat /\ Forall (fun b => List.length b = 64%nat) w /\
     game_on_blocks params a k w = true) ->
  Z.of_nat (List.length wins) * ell <= 3 * Z.of_nat (checks a) * (2 ^ 512 + ell) ^ (1 + Z.of_nat k + 2 * Z.of_nat N).
Proof.
  intros E L params a k N wins Hh Hnd Hw.
  pose proof ell_pos as Hell.
  destruct (basepoint_generates E L (sp_g params)) as [s Hs].
  destruct (basepoint_generates E L (sp_h params)) as [t Ht].
  assert (Ht0 : ~ t == 0).
  { intros H. apply Hh. rewrite Ht. apply (smul_zero_iff L); [apply (basepoint_nonzero E L)|exact H]. }
  destruct (range_exists ell ltac:(lia)) as (R & R1 & R2 & R3).
  pose proof (few_forgeries L params s t k Hs Ht Ht0 R R1 R2 R3 N a [] (Nat.le_0_l _) (Forall_nil _)) as Hb.
  replace (1 + Z.of_nat k + 2 * Z.of_nat N) with (Z.of_nat (1 + k + 2 * N)) by lia.
  rewrite wide_range_eq. set (n := (1 + k + 2 * N)%nat) in *.
  set (c := wide_range / ell + 1).
  pose proof wide_range_big as Hwb. assert (Hwr : 0 <= wide_range) by lia.
  assert (Hc : 0 <= c) by (unfold c; pose proof (Z.div_pos wide_range ell Hwr Hell); lia).
  assert (Hcl : c * ell <= wide_range + ell) by (unfold c; pose proof (Z.mul_div_le wide_range ell Hell); lia).
  assert (Hfib : forall x l, canonical x -> NoDup l ->
    (forall b : bytes, In b l -> List.length b = 64%nat /\ from_bytes_mod_order_wide b = x) -> Z.of_nat (List.length l) <= c).
  { intros x l Hx Hl Hin. destruct (C70_nearly_uniform x Hx) as (l' & _ & Hin' & _ & Hlen).
    rewrite wide_range_eq in Hlen. fold c in Hlen. etransitivity; [|exact Hlen]. apply inj_le.
    apply NoDup_incl_length; [exact Hl|]. intros b Hb'. apply Hin', Hin, Hb'. }
  (* the winning scalars, and for each of them the strings *)
  set (V := filter (forges_at params s t k a []) (tuples R n)).
  assert (Hall : forall V : list (list Z), (forall v, In v V -> List.length v = n /\ Forall canonical v) ->
    exists W, (forall w, In (map from_bytes_mod_order_wide w) V -> Forall (fun b => List.length b = 64%nat) w -> In w W) /\
      Z.of_nat (List.length W) <= Z.of_nat (List.length V) * c ^ Z.of_nat n).
  { clear - Hc Hfib. induction V as [|v V IH]; intros HV.
    - exists []. split; [intros w []|cbn; lia].
    - destruct (HV v (or_introl eq_refl)) as [Hl Hv]. destruct (blocks_of_vector c v Hc Hv Hfib) as (W1 & H1 & L1).
      destruct (IH (fun v Hv => HV v (or_intror Hv))) as (W2 & H2 & L2). exists (W1 ++ W2). split.
      + intros w [He|Hin] Hf; apply in_or_app; [left; apply H1; [symmetry; exact He|exact Hf]|right; apply H2; assumption].
      + rewrite app_length, Nat2Z.inj_add. assert (L1' : Z.of_nat (List.length W1) <= c ^ Z.of_nat n) by (rewrite <- Hl; exact L1).
        cbn [List.length]. lia. }
  destruct (Hall V) as (W & HW & HL).
  { intros v Hv. apply filter_In in Hv as [Hv _]. apply (in_tuples R R2) in Hv. exact Hv. }
  assert (Hlw : Z.of_nat (List.length wins) <= Z.of_nat (List.length W)).
  { apply inj_le, NoDup_incl_length; [exact Hnd|]. intros w Hin. destruct (Hw w Hin) as (Hlen & Hf & Hg).
    apply HW; [|exact Hf]. apply filter_In. split.
    - apply (in_tuples R R2). split; [rewrite map_length; exact Hlen|apply map_blocks_canonical].
    - unfold game_on_blocks in Hg. cbv zeta in Hg. set (v := map from_bytes_mod_order_wide w) in *.
      assert (Hlv : List.length v = n) by (unfold v; rewrite map_length; exact Hlen). clearbody v.
      destruct v as [|x0 v]; [discriminate|]. cbn [hd tl skipn Nat.add] in Hg.
      assert (Hk : List.length (firstn k v) = k) by (rewrite firstn_length; unfold n in Hlv; cbn in Hlv; lia).
      rewrite (game_at L params s t) in Hg by assumption. rewrite Hk in Hg.
      assert (He : flatten (x0, firstn k v, pairs (skipn k v)) = x0 :: v).
      { unfold flatten. f_equal. rewrite <- (firstn_skipn k v) at 3. f_equal.
        assert (Hs2 : List.length (skipn k v) = (2 * N)%nat) by (rewrite skipn_length; unfold n in Hlv; cbn in Hlv; lia).
        revert Hs2. generalize (skipn k v). clear. induction N as [|N IH]; intros u Hu; [destruct u; [reflexivity|discriminate]|].
        destruct u as [|b [|y u]]; cbn in Hu; try lia. cbn [pairs flat_map app]. rewrite IH by lia. reflexivity. }
      rewrite <- He. exact Hg. }
  assert (Hpow : 0 <= c ^ Z.of_nat n) by (apply Z.pow_nonneg; exact Hc).
  change (Z.of_nat (List.length V)) with (count (forges_at params s t k a []) (tuples R n)) in HL.
  set (cnt := count (forges_at params s t k a []) (tuples R n)) in *.
  transitivity ((cnt * c ^ Z.of_nat n) * ell); [apply Z.mul_le_mono_nonneg_r; lia|].
  replace (cnt * c ^ Z.of_nat n * ell) with ((cnt * ell) * c ^ Z.of_nat n) by ring.
  transitivity (3 * Z.of_nat (checks a) * ell ^ Z.of_nat n * c ^ Z.of_nat n); [apply Z.mul_le_mono_nonneg_r; assumption|].
  rewrite <- Z.mul_assoc, <- Z.pow_mul_l. apply Z.mul_le_mono_nonneg_l; [lia|].
  apply Z.pow_le_mono_l. split; [apply Z.mul_nonneg_nonneg; lia|]. lia.
Qed.

(** Two different strings with the same scalar, and the hypotheses met by two wins. *)
Example C70_met : canonical 5 /\
  let w x := [le_encode 64 x; le_encode 64 7] in
  let wins := [w 5; w (5 + ell)] in
  from_bytes_mod_order_wide (le_encode 64 (5 + ell)) = 5 /\
  NoDup wins /\
  (forall w, In w wins -> List.length w = (1 + 1 + 2 * 0)%nat /\ Forall (fun b => List.length b = 64%nat) w /\
     game_on_blocks sample_params (guess 1 5) 1 w = true).
Proof.
  split; [unfold canonical; pose proof ell_gt_252; lia|]. cbv zeta. split; [vm_compute; reflexivity|]. split.
  - constructor; [|repeat constructor; intros []].
    intros [H|[]]. apply (f_equal (fun w => le_decode (hd [] w))) in H. vm_compute in H. discriminate.
  - intros w [<-|[<-|[]]]; (split; [reflexivity|]; split; [repeat constructor|vm_compute; reflexivity]).
Qed.
Example C70_met_key : sk_x0 (fst (secret_key_new 1 (toy_stream 1))) <> hd 0 (sk_xn (fst (secret_key_new 1 (toy_stream 1)))).
Proof. vm_compute. discriminate. Qed.

Print Assumptions C70_nearly_uniform.
Print Assumptions C70_key_of_stream.
Print Assumptions C70_unforgeable_bytes.
