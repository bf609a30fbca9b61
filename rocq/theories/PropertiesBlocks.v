(** What the bounds of C74 and C81 are when all is made from random bytes (C85):
    aeonflux/src/parameters.rs:102-124 for the second generator, dalek's
    [Scalar::random] for keys and coins, aeonflux/src/proofs.rs for the challenges. *)
From Verif Require Import SpecBlocks PresentFacts ShowFacts SignalFacts PropertiesUniform PropertiesOracle PropertiesOverheard PropertiesGame PropertiesPhone PropertiesIssue Polynomials BaseFacts Toy.
From Coq Require Import Setoid.
Local Open Scope Z_scope.
Local Opaque wide_range.

(** ** Counting strings instead of scalars *)
Lemma reduced_canonical w : Forall canonical (reduced w).
Proof. apply map_blocks_canonical. Qed.
Lemma fibre x l : canonical x -> NoDup l -> (forall b : bytes, In b l -> List.length b = 64%nat /\ from_bytes_mod_order_wide b = x) ->
  Z.of_nat (List.length l) <= wide_range / ell + 1.
Proof.
  intros Hx Hl Hin. destruct (C70_nearly_uniform x Hx) as (l' & _ & Hin' & _ & Hlen). rewrite wide_range_eq in Hlen.
  etransitivity; [|exact Hlen]. apply inj_le. apply NoDup_incl_length; [exact Hl|]. intros b Hb. apply Hin', Hin, Hb.
Qed.
Lemma strings_of (n : nat) (V : list (Z * list Z)) : (forall t v, In (t, v) V -> List.length v = n /\ Forall canonical v) ->
  exists W : list (Z * list bytes), (forall t w, In (t, reduced w) V -> Forall (fun b => List.length b = 64%nat) w -> In (t, w) W) /\
    Z.of_nat (List.length W) <= Z.of_nat (List.length V) * (wide_range / ell + 1) ^ Z.of_nat n.
Proof.
  assert (Hc : 0 <= wide_range / ell + 1).
  { pose proof (Z.div_pos wide_range ell ltac:(pose proof wide_range_big; pose proof ell_pos; lia) ell_pos). lia. }
  induction V as [|[t v] V IH]; intros HV.
  - exists []. split; [intros t w []|cbn; lia].
  - destruct (HV t v (or_introl eq_refl)) as [Hl Hv].
    destruct (blocks_of_vector _ v Hc Hv fibre) as (W1 & H1 & L1).
    destruct (IH (fun t v Hv => HV t v (or_intror Hv))) as (W2 & H2 & L2). exists (map (pair t) W1 ++ W2). split.
    + intros t' w [He|Hin] Hf; apply in_or_app; [left|right; apply H2; assumption].
      injection He as -> He. apply in_map, H1; [symmetry; exact He|exact Hf].
    + rewrite app_length, map_length, Nat2Z.inj_add. cbn [List.length].
      assert (L1' : Z.of_nat (List.length W1) <= (wide_range / ell + 1) ^ Z.of_nat n) by (rewrite <- Hl; exact L1). lia.
Qed.
Lemma pair_dec (a b : Z * list Z) : {a = b} + {a <> b}.
Proof. repeat decide equality. Qed.

Lemma blocks_bound (n : nat) (c : Z) (P : Z -> list Z -> Prop) : 0 <= c ->
  (forall V, NoDup V -> (forall t v, In (t, v) V -> List.length v = n /\ Forall canonical v /\ P t v) ->
     Z.of_nat (List.length V) * ell <= c * ell ^ Z.of_nat n) ->
  forall wins : list (Z * list bytes), NoDup wins ->
  (forall t w, In (t, w) wins -> List.length w = n /\ Forall (fun b => List.length b = 64%nat) w /\ P t (reduced w)) ->
  Z.of_nat (List.length wins) * ell <= c * (2 ^ 512 + ell) ^ Z.of_nat n.
Proof.
  intros Hc HV wins Hnd Hw. rewrite wide_range_eq. pose proof ell_pos as Hell. pose proof wide_range_big as Hwb.
  set (V := nodup pair_dec (map (fun '(t, w) => (t, reduced w)) wins)).
  assert (HVin : forall t v, In (t, v) V -> List.length v = n /\ Forall canonical v /\ P t v).
  { intros t v Hin. apply nodup_In, in_map_iff in Hin as ([t' w] & He & Hin). injection He as -> <-.
    destruct (Hw _ _ Hin) as (Hl & _ & HP). split; [unfold reduced; rewrite map_length; exact Hl|]. split; [apply reduced_canonical|exact HP]. }
  specialize (HV V (NoDup_nodup _ _) HVin).
  destruct (strings_of n V) as (W & HW & HL). { intros t v Hin. apply HVin in Hin. tauto. }
  assert (Hlw : Z.of_nat (List.length wins) <= Z.of_nat (List.length W)).
  { apply inj_le, NoDup_incl_length; [exact Hnd|]. intros [t w] Hin. apply HW; [|apply (Hw _ _ Hin)].
    apply nodup_In, in_map_iff. exists (t, w). split; [reflexivity|exact Hin]. }
  set (d := wide_range / ell + 1) in *.
  assert (Hd : 0 <= d) by (unfold d; pose proof (Z.div_pos wide_range ell ltac:(lia) Hell); lia).
  assert (Hdl : ell * d <= wide_range + ell) by (unfold d; pose proof (Z.mul_div_le wide_range ell Hell); lia).
  assert (Hpow : 0 <= d ^ Z.of_nat n) by (apply Z.pow_nonneg; exact Hd).
  transitivity ((Z.of_nat (List.length V) * d ^ Z.of_nat n) * ell); [apply Z.mul_le_mono_nonneg_r; lia|].
  replace (Z.of_nat (List.length V) * d ^ Z.of_nat n * ell) with ((Z.of_nat (List.length V) * ell) * d ^ Z.of_nat n) by ring.
  transitivity (c * ell ^ Z.of_nat n * d ^ Z.of_nat n); [apply Z.mul_le_mono_nonneg_r; assumption|].
  rewrite <- Z.mul_assoc, <- Z.pow_mul_l. apply Z.mul_le_mono_nonneg_l; [exact Hc|].
  apply Z.pow_le_mono_l. split; [apply Z.mul_nonneg_nonneg; lia|exact Hdl].
Qed.

(** ** Scalars out of a vector *)
Lemma pieces_length {A} k n (v : list A) : List.length (pieces k n v) = n.
Proof. revert v; induction n as [|n IH]; intros v; [reflexivity|]. cbn [pieces List.length]. rewrite IH. reflexivity. Qed.
Lemma pieces_lengths {A} k n (v : list A) : (k * n <= List.length v)%nat -> Forall (fun u => List.length u = k) (pieces k n v).
Proof.
  revert v; induction n as [|n IH]; intros v H; [constructor|]. cbn [pieces]. constructor.
  - rewrite firstn_length. nia.
  - apply IH. rewrite skipn_length. nia.
Qed.
Lemma pieces_forall {A} (P : A -> Prop) k n (v : list A) : Forall P v -> Forall (Forall P) (pieces k n v).
Proof.
  revert v; induction n as [|n IH]; intros v H; [constructor|]. cbn [pieces].
  rewrite <- (firstn_skipn k v) in H. apply Forall_app in H as [H1 H2]. constructor; [exact H1|]. apply IH, H2.
Qed.
Lemma skip_skip {A} i j (v : list A) : skipn i (skipn j v) = skipn (i + j) v.
Proof.
  revert v; induction j as [|j IH]; intros v; [rewrite Nat.add_0_r; reflexivity|].
  destruct v as [|a v]; [rewrite !skipn_nil; reflexivity|]. rewrite Nat.add_succ_r. cbn [skipn]. apply IH.
Qed.
Lemma pieces_inj {A} k n (v v' : list A) : List.length v = List.length v' -> pieces k n v = pieces k n v' -> skipn (k * n) v = skipn (k * n) v' -> v = v'.
Proof.
  revert v v'; induction n as [|n IH]; intros v v' Hl He Hs.
  - rewrite Nat.mul_0_r in Hs. exact Hs.
  - cbn [pieces] in He. injection He as H1 H2. rewrite <- (firstn_skipn k v), <- (firstn_skipn k v'), H1. f_equal.
    apply IH; [rewrite !skipn_length; lia|exact H2|]. rewrite !skip_skip. replace (k * n + k)%nat with (k * S n)%nat by lia. exact Hs.
Qed.

Definition coin_list (c : scalar * scalar * ir_Scalars) : list scalar :=
  let '(b, y, r) := c in [b; y; irs_x0 r; irs_x1 r; irs_x0_tilde r; irs_m1x1 r].
Definition show_list (c : show_coins) : list scalar :=
  let '((b, z, zQ), (v, w)) := c in
  [b; z; zQ; vcs_m0 v; vcs_z0 v; vcs_minus_zQ v; ces_m0 w; ces_z0 w; ces_z1 w].
Lemma coin_list_of u : List.length u = 6%nat -> coin_list (credential_coins u) = u.
Proof. intros H. do 7 (destruct u as [|? u]; try discriminate). reflexivity. Qed.
Lemma show_list_of u : List.length u = 9%nat -> show_list (presentation_coins u) = u.
Proof. intros H. do 10 (destruct u as [|? u]; try discriminate). reflexivity. Qed.
Lemma map_inj_on {A B} (f : A -> B) (g : B -> A) (P : A -> Prop) l l' : (forall a, P a -> g (f a) = a) ->
  Forall P l -> Forall P l' -> map f l = map f l' -> l = l'.
Proof.
  intros Hg H. revert l'. induction H as [|a l Ha H IH]; intros l' H' He; destruct l' as [|a' l']; try discriminate; [reflexivity|].
  inversion H'; subst. injection He as E1 E2. apply (f_equal g) in E1. rewrite !Hg in E1 by assumption. f_equal; [exact E1|]. apply IH; assumption.
Qed.
Lemma nth_canonical v i : Forall canonical v -> canonical (nth i v 0).
Proof.
  intros H. destruct (Nat.lt_ge_cases i (List.length v)) as [Hi|Hi].
  - rewrite Forall_forall in H. apply H, nth_In, Hi.
  - rewrite nth_overflow by exact Hi. unfold canonical. pose proof ell_pos. lia.
Qed.
Lemma skipn_canonical n v : Forall canonical v -> Forall canonical (skipn n v).
Proof. intros H. rewrite <- (firstn_skipn n v) in H. apply Forall_app in H. tauto. Qed.
Lemma coins_of_canonical N v : Forall canonical v -> coins_canonical (map credential_coins (pieces 6 N v)).
Proof.
  intros H. apply (pieces_forall _ 6 N) in H. unfold coins_canonical. apply Forall_map. eapply Forall_impl; [|exact H].
  intros u Hu. cbv beta iota delta [credential_coins ir_canonical irs_x0 irs_x1 irs_x0_tilde irs_m1x1]. repeat split; apply (nth_canonical u _ Hu).
Qed.
Lemma shows_of_canonical K v : Forall canonical v -> shows_canonical (map presentation_coins (pieces 9 K v)).
Proof.
  intros H. apply (pieces_forall _ 9 K) in H. unfold shows_canonical. apply Forall_map. eapply Forall_impl; [|exact H].
  intros u Hu. unfold presentation_coins, vc_canonical, ce_canonical. cbn [vcs_m0 vcs_z0 vcs_minus_zQ ces_m0 ces_z0 ces_z1]. repeat split; apply (nth_canonical u _ Hu).
Qed.

(** The coins, and all that is after them, tell the vector. *)
Lemma vector_of N K (v v' : list Z) : (2 + 6 * N + 9 * K <= List.length v)%nat -> List.length v = List.length v' ->
  nth 0 v 0 = nth 0 v' 0 -> nth 1 v 0 = nth 1 v' 0 ->
  map credential_coins (pieces 6 N (skipn 2 v)) = map credential_coins (pieces 6 N (skipn 2 v')) ->
  map presentation_coins (pieces 9 K (skipn (2 + 6 * N) v)) = map presentation_coins (pieces 9 K (skipn (2 + 6 * N) v')) ->
  skipn (2 + 6 * N + 9 * K) v = skipn (2 + 6 * N + 9 * K) v' -> v = v'.
Proof.
  intros Hle Hl H0 H1 Hc Hs Hr. destruct v as [|a [|b v]], v' as [|a' [|b' v']]; try (cbn in Hl, Hle; lia).
  cbn [nth] in H0, H1. subst a' b'. do 2 f_equal. cbn [skipn Nat.add] in Hc, Hs, Hr. cbn [List.length] in Hl, Hle.
  apply (map_inj_on credential_coins coin_list (fun u => List.length u = 6%nat)) in Hc; [|exact coin_list_of|apply pieces_lengths; unfold scalar in *; lia|apply pieces_lengths; unfold scalar in *; lia].
  apply (map_inj_on presentation_coins show_list (fun u => List.length u = 9%nat)) in Hs; [|exact show_list_of| |]; try (apply pieces_lengths; rewrite skipn_length; unfold scalar in *; lia).
  apply (pieces_inj 6 N); [lia|exact Hc|]. apply (pieces_inj 9 K); [rewrite !skipn_length; unfold scalar in *; lia|exact Hs|].
  rewrite !skip_skip. replace (9 * K + 6 * N)%nat with (6 * N + 9 * K)%nat by lia. exact Hr.
Qed.

(** ** C85: the bounds on random bytes *)

(** Every point but the first generator is made from exactly one string. *)
Theorem C85_h_uniform : forall E, ExtLaws E -> forall P : point E, P <> basepoint ->
  exists! b, List.length b = 32%nat /\ peck b = Some P.
Proof.
  intros E L P HP. exists (compress P). split.
  - split; [apply (compress_length E L)|]. apply peck_spec. split; [apply (decompress_compress E L)|].
    intros H. apply HP, (compress_inj L), H.
  - intros b [_ H]. apply peck_spec in H as [H _]. exact (compress_decompress E L _ _ H).
Qed.

(** Of the strings for a key, [N] credentials and [M] values of the hash, at most
    the fraction of C74, but for a factor very close to 1, lets the adversary forge
    a tag. *)
Theorem C85_unforgeable : forall E, ExtLaws E -> forall (params : SystemParameters E) (o : observer) (q h N M : nat)
    (wins : list (list bytes)),
  sp_h params <> pzero ->
  within q h o ->
  NoDup wins ->
  (forall w, In w wins ->
     List.length w = (2 + 6 * N + M)%nat /\ Forall (fun b => List.length b = 64%nat) w /\
     forges_on_blocks params o N w = true) ->
  Z.of_nat (List.length wins) * ell <=
    (3 * (Z.of_nat q + 9 * Z.of_nat M * Z.of_nat h) + Z.of_nat N * Z.of_nat M) * (2 ^ 512 + ell) ^ (2 + 6 * Z.of_nat N + Z.of_nat M).
Proof.
  intros E L params o q h N M wins Hh Hq Hnd Hw.
  set (P := fun (t : Z) (v : list Z) => t = 0 /\
    game_seeing params o (nth 0 v 0) (nth 1 v 0) (map credential_coins (pieces 6 N (skipn 2 v))) (skipn (2 + 6 * N) v) = true).
  replace (2 + 6 * Z.of_nat N + Z.of_nat M) with (Z.of_nat (2 + 6 * N + M)) by lia.
  rewrite <- (map_length (pair 0)).
  apply (blocks_bound _ _ P).
  - nia.
  - intros V HV Hin.
    set (f := fun tv : Z * list Z => let v := snd tv in
      (nth 0 v 0, nth 1 v 0, map credential_coins (pieces 6 N (skipn 2 v)), skipn (2 + 6 * N) v)).
    pose proof (C74_unforgeable E L params o q h N M (map f V) Hh Hq) as H. rewrite map_length in H.
    replace (Z.of_nat (2 + 6 * N + M)) with (2 + 6 * Z.of_nat N + Z.of_nat M) by lia. apply H; clear H.
    + apply nodup_map; [exact HV|]. intros [t v] [t' v'] H1 H2 He. apply Hin in H1 as (Hl & _ & [-> _]), H2 as (Hl' & _ & [-> _]).
      f_equal. unfold f in He. cbn [snd] in He. injection He as E0 E1 E2 E3.
      apply (vector_of N 0); [unfold scalar in *; lia|unfold scalar in *; lia|exact E0|exact E1|exact E2|reflexivity|].
      rewrite Nat.mul_0_r, Nat.add_0_r. exact E3.
    + intros x0 x1 coins values Hi. apply in_map_iff in Hi as ([t v] & He & Hi). apply Hin in Hi as (Hl & Hc & [_ Hg]).
      unfold f in He. cbn [snd] in He. injection He as <- <- <- <-.
      split; [apply nth_canonical, Hc|]. split; [apply nth_canonical, Hc|].
      split; [rewrite map_length; apply pieces_length|]. split; [apply coins_of_canonical; exact (skipn_canonical 2 v Hc)|].
      split; [transitivity (List.length (skipn (2 + 6 * N) v)); [reflexivity|rewrite skipn_length; unfold scalar in *; lia]|]. split; [exact (skipn_canonical (2 + 6 * N) v Hc)|exact Hg].
  - apply nodup_map; [exact Hnd|]. intros a b _ _ H. congruence.
  - intros t w Hi. apply in_map_iff in Hi as (w' & He & Hi). injection He as <- ->. destruct (Hw _ Hi) as (H1 & H2 & H3).
    split; [exact H1|]. split; [exact H2|]. split; [reflexivity|exact H3].
Qed.

Lemma choose {A B} (R : A -> B -> Prop) (l : list A) : (forall a, In a l -> exists b, R a b) -> exists l', Forall2 R l l'.
Proof.
  induction l as [|a l IH]; intros H; [exists []; constructor|].
  destruct (H a (or_introl eq_refl)) as [b Hb]. destruct IH as [l' Hl']. { intros x Hx. apply H. right. exact Hx. }
  exists (b :: l'). constructor; assumption.
Qed.
Lemma forall2_in {A B} (R : A -> B -> Prop) l l' b : Forall2 R l l' -> In b l' -> exists a, In a l /\ R a b.
Proof.
  intros H. induction H as [|a b' l l' Hr H IH]; intros Hi; [destruct Hi|]. destruct Hi as [->|Hi].
  - exists a. split; [left; reflexivity|exact Hr].
  - destruct (IH Hi) as (x & Hx & Hr'). exists x. split; [right; exact Hx|exact Hr'].
Qed.
Lemma forall2_nodup {A B} (R : A -> B -> Prop) l l' : (forall a a' b, R a b -> R a' b -> a = a') -> NoDup l -> Forall2 R l l' -> NoDup l'.
Proof.
  intros Hi Hnd H. revert Hnd. induction H as [|a b l l' Hr H IH]; intros Hnd; [constructor|]. inversion Hnd; subst.
  constructor; [|apply IH; assumption]. intros Hin. destruct (forall2_in _ _ _ _ H Hin) as (a' & Ha' & Hr').
  rewrite (Hi _ _ _ Hr Hr') in *. contradiction.
Qed.
Lemma forall2_len {A B} (R : A -> B -> Prop) l l' : Forall2 R l l' -> List.length l = List.length l'.
Proof. intros H. induction H; cbn; congruence. Qed.

(** Of the strings for the second generator (there is one for each point but the
    first generator), the key, [N] credentials, [K] presentations and [M] values of
    the hash, at most this fraction lets the adversary impersonate.  That the second
    generator may be the identity costs the 1. *)
Theorem C85_no_impostor : forall E, ExtLaws E -> forall (o : impostor) (q h N K M : nat) (wins : list (bytes * list bytes)),
  impostor_within q h o ->
  NoDup wins ->
  (forall h_bytes w, In (h_bytes, w) wins ->
     List.length w = (2 + 6 * N + 9 * K + M)%nat /\ Forall (fun b => List.length b = 64%nat) w /\
     impersonates_on_bytes (E := E) o N K h_bytes w) ->
  Z.of_nat (List.length wins) * ell <=
    (1 + 2 * Z.of_nat q + 3 * Z.of_nat (h + N + 2 * K) ^ 2) * (ell * (2 ^ 512 + ell) ^ (2 + 6 * Z.of_nat N + 9 * Z.of_nat K + Z.of_nat M)).
Proof.
  intros E L o q h N K M wins Hq Hnd Hw. pose proof ell_pos as Hell.
  set (n := (2 + 6 * N + 9 * K + M)%nat) in *.
  replace (2 + 6 * Z.of_nat N + 9 * Z.of_nat K + Z.of_nat M) with (Z.of_nat n) by (unfold n; lia).
  set (c := 2 * Z.of_nat q + 3 * Z.of_nat (h + N + 2 * K) ^ 2).
  assert (Hc : 0 <= c) by (unfold c; pose proof (Z.pow_nonneg (Z.of_nat (h + N + 2 * K)) 2 ltac:(lia)); lia).
  replace (1 + 2 * Z.of_nat q + 3 * Z.of_nat (h + N + 2 * K) ^ 2) with (1 + c) by (unfold c; ring).
  rewrite Z.mul_assoc.
  set (G := fun (t : Z) (v : list Z) =>
    game_overhearing (E := E) o t (nth 0 v 0) (nth 1 v 0) (map credential_coins (pieces 6 N (skipn 2 v)))
      (map presentation_coins (pieces 9 K (skipn (2 + 6 * N) v))) (skipn (2 + 6 * N + 9 * K) v)).
  set (R := fun (a : bytes * list bytes) (b : Z * list bytes) =>
    snd a = snd b /\ canonical (fst b) /\ peck (fst a) = Some (smul (fst b) (@basepoint E)) /\ G (fst b) (reduced (snd b)) = true).
  destruct (choose R wins) as [wins' HR].
  { intros [hb w] Hi. destruct (Hw _ _ Hi) as (_ & _ & t & Ht & Hp & Hg). exists (t, w). unfold R. cbn [fst snd]. auto. }
  assert (Hnd' : NoDup wins').
  { refine (forall2_nodup R wins wins' _ Hnd HR). intros [hb w] [hb' w'] [t v] (H1 & _ & H2 & _) (H1' & _ & H2' & _).
    cbn [fst snd] in *. apply peck_spec in H2 as [H2 _], H2' as [H2' _]. apply (compress_decompress E L) in H2, H2'. congruence. }
  rewrite (forall2_len _ _ _ HR).
  apply (blocks_bound n _ (fun t v => canonical t /\ G t v = true)); [nia| |exact Hnd'|].
  - clear wins Hnd Hw wins' HR Hnd'. intros V HV Hin.
    (* those with the identity, and the others *)
    rewrite (split_by (fun tv => fst tv =? 0) V), Nat2Z.inj_add, Z.mul_add_distr_r.
    replace ((1 + c) * ell * ell ^ Z.of_nat n) with (ell ^ Z.of_nat n * ell + c * (ell * ell ^ Z.of_nat n)) by ring.
    apply Z.add_le_mono.
    + apply Z.mul_le_mono_nonneg_r; [lia|]. destruct (range_exists ell ltac:(lia)) as (rg & R1 & R2 & R3).
      rewrite <- (map_length snd). 
      transitivity (Z.of_nat (List.length (tuples rg n))).
      * apply inj_le, NoDup_incl_length.
        -- apply nodup_map; [apply NoDup_filter, HV|]. intros [t v] [t' v'] H1 H2 He. apply filter_In in H1 as [_ H1], H2 as [_ H2].
           cbn [fst snd] in *. apply Z.eqb_eq in H1, H2. congruence.
        -- intros v Hv. apply in_map_iff in Hv as ([t v'] & <- & Hv). apply filter_In in Hv as [Hv _]. apply Hin in Hv as (Hl & Hc' & _).
           apply (in_tuples rg R2). split; assumption.
      * rewrite (tuples_length rg R3). lia.
    + set (V' := filter (fun tv => negb (fst tv =? 0)) V).
      set (f := fun tv : Z * list Z => let t := fst tv in let v := snd tv in
        (t, nth 0 v 0, nth 1 v 0, map credential_coins (pieces 6 N (skipn 2 v)), map presentation_coins (pieces 9 K (skipn (2 + 6 * N) v)), skipn (2 + 6 * N + 9 * K) v)).
      pose proof (C81_sound E L o q h N K M (map f V') Hq) as H. rewrite map_length in H. fold c in H.
      rewrite <- (Z.pow_succ_r ell) by lia.
      replace (Z.succ (Z.of_nat n)) with (3 + 6 * Z.of_nat N + 9 * Z.of_nat K + Z.of_nat M) by (unfold n; lia). apply H; clear H.
      * apply nodup_map; [apply NoDup_filter, HV|]. intros [t v] [t' v'] H1 H2 He.
        apply filter_In in H1 as [H1 _], H2 as [H2 _]. apply Hin in H1 as (Hl & _), H2 as (Hl' & _).
        unfold f in He. cbn [fst snd] in He. injection He as -> E0 E1 E2 E3 E4. f_equal.
        apply (vector_of N K); [unfold n, scalar in *; lia|unfold scalar in *; lia|exact E0|exact E1|exact E2|exact E3|exact E4].
      * intros t x0 x1 coins shows values Hi. apply in_map_iff in Hi as ([t' v] & He & Hi). apply filter_In in Hi as [Hi Ht].
        apply Hin in Hi as (Hl & Hcv & Hct & Hg). unfold f in He. cbn [fst snd] in He, Ht. injection He as -> <- <- <- <- <-.
        split; [exact Hct|]. split; [apply negb_true_iff, Z.eqb_neq in Ht; exact Ht|].
        split; [apply nth_canonical, Hcv|]. split; [apply nth_canonical, Hcv|].
        split; [rewrite map_length; apply pieces_length|]. split; [apply coins_of_canonical; exact (skipn_canonical 2 v Hcv)|].
        split; [rewrite map_length; apply pieces_length|]. split; [apply shows_of_canonical; exact (skipn_canonical (2 + 6 * N) v Hcv)|].
        split; [transitivity (List.length (skipn (2 + 6 * N + 9 * K) v)); [reflexivity|rewrite skipn_length; unfold n, scalar in *; lia]|].
        split; [exact (skipn_canonical (2 + 6 * N + 9 * K) v Hcv)|exact Hg].
  - intros t w Hi. destruct (forall2_in _ _ _ _ HR Hi) as ([hb w'] & Hi' & H1 & H2 & _ & H3). cbn [fst snd] in *. subst w'.
    destruct (Hw _ _ Hi') as (Hl & Hf & _). split; [exact Hl|]. split; [exact Hf|]. split; [exact H2|exact H3].
Qed.

(** The 1 in the bound is needed: with the identity as the second generator, which the
    search does not exclude (C44), an entry is for every number, so a credential for any
    number will do. *)
Definition unbound (t m n : scalar) : impostor :=
  IAsk m (fun _ _ => IHash [[1]; at_place 2 1; at_place 3 1; at_place 4 1; []; at_place 4 m; []; []] (fun c =>
    IHash [[1]; at_place 2 1; at_place 4 1; at_place 4 m; at_place 2 n; []; []] (fun c' =>
      IShow (at_place 4 1) (at_place 5 1) (at_place 4 m)
        {| vc_challenge := c; vc_responses := {| vcs_m0 := c * m; vcs_z0 := 0; vcs_minus_zQ := 0 |} |} n 0
        {| ce_challenge := c'; ce_responses := {| ces_m0 := c' * m; ces_z0 := 0; ces_z1 := c' * ((n - m) * t) |} |}
        (fun _ _ => IStop)))).
Lemma unbound_wins {E : Ext} (L : ExtLaws E) t x0 x1 m n b y r0 c0 c c' values : ~ m == n -> ~ b == 0 ->
  @game_overhearing E (unbound t m n) t x0 x1 [(b, y, r0)] [] (c0 :: c :: c' :: values) = true.
Proof.
  intros Hm Hb. unfold game_overhearing, unbound. cbn [impersonates].
  destruct (mac_one (E := E) x0 x1 m b) as [tag Ht]. rewrite Ht.
  pose proof (mac_with_spec L _ _ _ _ Ht) as (HP & _ & HQ). cbn [sk_x0 sk_xn dot] in HQ. rewrite HP in HQ.
  cbv zeta. set (U0 := hashed_points _ _).
  change (hash [] (c0 :: c :: c' :: values) U0) with (Some (c0, [(U0, c0)], c :: c' :: values)). cbv iota beta.
  set (held := (public_points _ _ ++ _)%list).
  assert (Hheld : held = [basepoint; basepoint; smul t basepoint; smul x1 (smul t basepoint); tag_nonce tag; tag_mac tag;
                          commitment_to (smul x0 basepoint) y (smul t basepoint)]) by reflexivity.
  assert (Hat : forall j z P, nth_error held j = Some P -> combination (at_place j z) held = smul z P).
  { intros j z P Hj. apply (combination_at L). exact Hj. }
  assert (H1 : combination [1] held = basepoint) by (rewrite <- (smul_1 basepoint); exact (Hat 0%nat 1 _ eq_refl)).
  assert (Hnil : combination [] held = pzero) by apply (combination_nil L).
  cbn [map]. rewrite H1, Hnil, !(Hat 2%nat _ _ eq_refl), !(Hat 3%nat _ _ eq_refl), !(Hat 4%nat _ _ eq_refl), !(Hat 5%nat _ _ eq_refl).
  set (U := [basepoint; smul 1 (smul t basepoint); smul 1 (smul x1 (smul t basepoint)); smul 1 (tag_nonce tag); pzero; smul m (tag_nonce tag); pzero; pzero]).
  set (U' := [basepoint; smul 1 (smul t basepoint); smul 1 (tag_nonce tag); smul m (tag_nonce tag); smul n (smul t basepoint); pzero; pzero]).
  assert (Hne : points_eqb U U' = false /\ points_eqb U' U = false).
  { split; apply Bool.not_true_iff_false; intros H; apply (points_eqb_iff L) in H; discriminate (f_equal (@List.length _) H). }
  assert (Heq : points_eqb U U = true /\ points_eqb U' U' = true) by (split; apply (points_eqb_iff L); reflexivity).
  destruct Hne as [N1 N2], Heq as [E1 E2].
  assert (Hlen : points_eqb U0 U = false /\ points_eqb U0 U' = false).
  { split; apply Bool.not_true_iff_false; intros H; apply (points_eqb_iff L) in H; discriminate (f_equal (@List.length _) H). }
  destruct Hlen as [L1 L2].
  assert (Hh0 : hash [(U0, c0)] (c :: c' :: values) U = Some (c, [(U, c); (U0, c0)], c' :: values)).
  { unfold hash. cbn [find fst]. rewrite L1. reflexivity. }
  match goal with |- context [hash [(U0, c0)] (c :: c' :: values) ?u] => change u with U end.
  rewrite Hh0. cbv iota beta.
  assert (Hh : hash [(U, c); (U0, c0)] (c' :: values) U' = Some (c', [(U', c'); (U, c); (U0, c0)], values)).
  { unfold hash. cbn [find fst]. rewrite N1, L2. reflexivity. }
  match goal with |- context [hash [(U, c); (U0, c0)] (c' :: values) ?u] => change u with U' end.
  rewrite Hh. cbv iota beta.
  cbn [sg_nonce sg_mac sg_blinded]. unfold sighting_publics, sighting_entry.
  set (p := presentation_publics _ _ _ _ _ _ _). set (p' := roster_publics _ _ _ _).
  match goal with |- context [show_points p (vc_recompute ?a p)] => set (pf := a) end.
  match goal with |- context [member_points p' (ce_recompute ?a p')] => set (pf' := a) end.
  assert (HU : show_points p (vc_recompute pf p) = U).
  { unfold show_points, vc_recompute, p, pf, presentation_publics, params_at, U.
    cbn [vcp_B vcp_A vcp_X0 vcp_P vcp_V vcp_Cm0 vcc_Cm0 vcc_V sp_g sp_h multiscalar_mul vc_responses vc_challenge vcs_m0 vcs_z0 vcs_minus_zQ].
    rewrite HP, HQ, !(padd_zero_r L), !smul_1. unfold s_neg. to_base L.
    repeat (apply (f_equal2 cons); [first [reflexivity|apply (smul_base_iff L); eqm_push; apply eqm_of_eq; zring|
      apply (smul_zero_iff L); [apply (basepoint_nonzero E L)|eqm_push; apply eqm_of_eq; zring]]|]). reflexivity. }
  assert (HU' : member_points p' (ce_recompute pf' p') = U').
  { unfold member_points, ce_recompute, p', pf', roster_publics, params_at, U'.
    cbn [cep_B cep_A cep_P cep_Cm0 cep_Cm1 cec_Cm0 cec_Cm1 sp_g sp_h multiscalar_mul ce_responses ce_challenge ces_m0 ces_z0 ces_z1].
    rewrite HP, !(padd_zero_r L), !smul_1. unfold s_neg. to_base L.
    repeat (apply (f_equal2 cons); [first [reflexivity|apply (smul_base_iff L); eqm_push; apply eqm_of_eq; zring|
      apply (smul_zero_iff L); [apply (basepoint_nonzero E L)|eqm_push; apply eqm_of_eq; zring]]|]). reflexivity. }
  rewrite HU, HU'. unfold hash. cbn [find fst snd]. rewrite N2, E1. cbn [snd]. cbv iota beta. cbn [find fst snd]. rewrite E2. cbn [snd]. cbv iota beta.
  unfold pf, pf'. cbn [vc_challenge ce_challenge]. unfold scalar_eqb. rewrite !Z.eqb_refl.
  rewrite (proj2 (peqb_false L (smul 1 (tag_nonce tag)) pzero)).
  - cbn [andb negb app fresh forallb same_message orb existsb].
    assert (Hmm : n mod ell =? m mod ell = false).
    { apply Z.eqb_neq. intros H. apply Hm. symmetry. exact H. }
    rewrite Hmm. reflexivity.
  - rewrite HP. intros H. rewrite smul_1 in H. apply (smul_zero_iff L) in H; [|apply (basepoint_nonzero E L)]. exact (Hb H).
Qed.

Theorem C85_identity_refuted : forall E, ExtLaws E -> exists o,
  impostor_within 0 4 o /\
  forall w, List.length w = (2 + 6 * 1 + 9 * 0 + 3)%nat -> nth 2 (reduced w) 0 <> 0 ->
    impersonates_on_bytes (E := E) o 1 0 (zeros 32) w.
Proof.
  intros E L. exists (unbound 0 4 5). split; [repeat constructor|]. intros w Hl Hb. exists 0. pose proof ell_gt_252 as Hell.
  split; [unfold canonical; lia|]. split.
  - rewrite (smul_0 basepoint). apply peck_spec. rewrite <- (compress_zero E L). split; [apply (decompress_compress E L)|].
    intros H. apply (compress_inj L) in H. exact (basepoint_nonzero E L (eq_sym H)).
  - pose proof (reduced_canonical w) as Hc. assert (Hlv : List.length (reduced w) = 11%nat) by (unfold reduced; rewrite map_length; exact Hl).
    revert Hb Hc Hlv. generalize (reduced w). intros v Hb Hc Hlv.
    do 12 (destruct v as [|? v]; try discriminate). cbn [skipn pieces map firstn nth Nat.add Nat.mul] in *. apply (unbound_wins L).
    + intros H. apply eqm_canonical in H; lia.
    + intros H. apply Hb. rewrite Forall_forall in Hc. apply eqm_canonical; [apply Hc; cbn; tauto|unfold canonical; lia|exact H].
Qed.

(** Two strings which differ by a multiple of the order, with which the adversaries
    of the examples of C74 and C81 win. *)
Local Opaque le_encode.
Definition blocks_of (v : list Z) : list bytes := map (le_encode 64) v.
Lemma blocks_of_lengths v : Forall (fun b => List.length b = 64%nat) (blocks_of v).
Proof. apply Forall_map, Forall_forall. intros x _. apply le_encode_length. Qed.
Lemma blocks_of_count v : List.length (blocks_of v) = List.length v.
Proof. apply map_length. Qed.
Lemma blocks_apart a b u v : 0 <= a < wide_range -> 0 <= b < wide_range -> a <> b -> blocks_of (a :: u) <> blocks_of (b :: v).
Proof.
  intros Ha Hb Hn H. apply Hn. apply (f_equal (fun w => le_decode (hd [] w))) in H. unfold blocks_of in H. cbn [map hd] in H.
  rewrite !le_decode_encode_small in H by (rewrite wide_range_bytes; assumption). exact H.
Qed.
Lemma five_apart u v : blocks_of (5 :: u) <> blocks_of (5 + ell :: v).
Proof.
  assert (H : 2 ^ 255 < 2 ^ 512) by (apply Z.pow_lt_mono_r; lia). rewrite wide_range_eq in H.
  pose proof ell_lt_255. pose proof ell_gt_252. assert (2 ^ 255 = 2 * 2 ^ 254) by reflexivity. 
  apply blocks_apart; pose proof wide_range_big; try lia.
  split; [lia|]. rewrite <- wide_range_eq. assert (2 ^ 512 = 2 ^ 255 * 2 ^ 257) by reflexivity. assert (2 ^ 257 >= 4) by (apply Z.le_ge; discriminate). nia.
Qed.
Example C85_met_forging :
  sp_h sample_params <> pzero /\ within 2 1 (curious 5) /\
  let wins := [blocks_of [5; 7; 11; 3; 1; 2; 3; 4; 40; 41]; blocks_of [5 + ell; 7; 11; 3; 1; 2; 3; 4; 40; 41]] in
  NoDup wins /\
  forall w, In w wins ->
    List.length w = (2 + 6 * 1 + 2)%nat /\ Forall (fun b => List.length b = 64%nat) w /\ forges_on_blocks sample_params (curious 5) 1 w = true.
Proof.
  split; [apply (proj1 C74_met)|]. split; [apply (proj1 (proj2 C74_met))|]. cbv zeta. split.
  - constructor; [|constructor; [intros []|constructor]]. intros [H|[]]. exact (five_apart _ _ (eq_sym H)).
  - intros w [<-|[<-|[]]]; (split; [apply blocks_of_count|]; split; [apply blocks_of_lengths|vm_compute; reflexivity]).
Qed.
Example C85_met_impostor :
  impostor_within 1 4 eavesdropper /\
  let rest := [7; 11; 3; 1; 2; 3; 4; 12; 13; 14; 1; 2; 3; 4; 5; 6; 40; 41; 42; 43; 44] in
  let wins := [(compress (smul 33 (@basepoint toy)), blocks_of (5 :: rest)); (compress (smul 33 (@basepoint toy)), blocks_of (5 + ell :: rest))] in
  NoDup wins /\
  forall h_bytes w, In (h_bytes, w) wins ->
    List.length w = (2 + 6 * 1 + 9 * 1 + 5)%nat /\ Forall (fun b => List.length b = 64%nat) w /\
    impersonates_on_bytes (E := toy) eavesdropper 1 1 h_bytes w.
Proof.
  split; [exact (proj1 C81_met)|]. cbv zeta. split.
  - constructor; [|constructor; [intros []|constructor]]. intros [H|[]]. apply (f_equal snd) in H. cbn [snd] in H. exact (five_apart _ _ (eq_sym H)).
  - pose proof ell_gt_252 as Hell.
    assert (Hp : peck (compress (smul 33 (@basepoint toy))) = Some (smul 33 (@basepoint toy))).
    { apply peck_spec. split; [apply (decompress_compress toy toy_laws)|]. intros H. apply (compress_inj toy_laws) in H.
      rewrite <- (smul_1 basepoint) in H at 2. apply (smul_base_iff toy_laws) in H. apply eqm_canonical in H; lia. }
    intros hb w [H|[H|[]]]; apply pair_equal_spec in H as [<- <-];
      (split; [apply blocks_of_count|]; split; [apply blocks_of_lengths|]; exists 33; split; [unfold canonical; lia|]; split; [exact Hp|]; vm_compute; reflexivity).
Qed.

Print Assumptions C85_h_uniform.
Print Assumptions C85_unforgeable.
Print Assumptions C85_no_impostor.
Print Assumptions C85_identity_refuted.
