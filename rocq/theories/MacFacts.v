(** Facts about aeonflux/src/amacs.rs *)
From Verif Require Export Spec ProofFacts.
From Coq Require Import Setoid.

Lemma mac_exponent_eqm e xs ms : mac_exponent e xs ms == e + dot xs ms.
Proof.
  revert e ms; induction xs as [|x xs IH]; intros e [|m ms]; cbn [mac_exponent dot];
    try (apply eqm_of_eq; zring).
  rewrite IH. eqm_ring.
Qed.
Lemma verify_exponent_eqm e xs ms : verify_exponent e xs ms == e + dot xs ms.
Proof.
  revert e ms; induction xs as [|x xs IH]; intros e [|m ms]; cbn [verify_exponent dot];
    try (apply eqm_of_eq; zring).
  rewrite IH. eqm_ring.
Qed.
Lemma dot_app xs ms extra : (List.length xs <= List.length ms)%nat -> dot xs (ms ++ extra) = dot xs ms.
Proof.
  revert ms; induction xs as [|x xs IH]; intros ms Hl; [reflexivity|].
  destruct ms as [|m ms]; cbn in *; [lia|]. rewrite IH by lia. reflexivity.
Qed.
Lemma dot_zeros xs ms n : dot xs (ms ++ repeat 0 n) = dot xs ms.
Proof.
  revert ms; induction xs as [|x xs IH]; intros ms; [reflexivity|].
  destruct ms as [|m ms]; cbn [dot app].
  - destruct n as [|n]; [reflexivity|]. cbn [repeat dot].
    specialize (IH []). cbn [app] in IH.
    assert (H : dot xs (repeat 0 n) = 0).
    { clear. revert xs; induction n as [|n IH]; intros [|x xs]; cbn [repeat dot]; try reflexivity.
      rewrite IH. ring. }
    rewrite H. ring.
  - rewrite IH. reflexivity.
Qed.

Section mac_facts.
  Context {E : Ext} (L : ExtLaws E).
  Implicit Types (k : SecretKey) (t : Tag E) (ms : list scalar).

  Lemma mac_with_spec k ms n t : mac_with k ms n = Ok t ->
    tag_nonce t = smul n basepoint /\ mac_equation k ms t.
  Proof.
    unfold mac_with. destruct (Nat.eqb_spec (List.length (sk_xn k)) (List.length ms)) as [Hl|Hl];
      cbn [negb]; [|discriminate].
    intros [= <-]. split; [reflexivity|]. split; [symmetry; exact Hl|]. cbn [tag_mac tag_nonce].
    apply (smul_eqm L). apply mac_exponent_eqm.
  Qed.
  Lemma mac_spec k ms r t r' : mac k ms r = Ok (t, r') ->
    tag_nonce t = smul (fst (scalar_random r)) basepoint /\ r' = snd (scalar_random r) /\
    mac_equation k ms t.
  Proof.
    unfold mac. destruct (Nat.eqb_spec (List.length (sk_xn k)) (List.length ms)) as [Hl|Hl];
      cbn [negb]; [|discriminate].
    destruct (scalar_random r) as [n r1] eqn:Hr. intros H. apply bind_ok in H as (t' & Ht & H).
    injection H as -> ->. apply mac_with_spec in Ht as [H1 H2]. auto.
  Qed.
  Lemma mac_ok k ms r : List.length ms = List.length (sk_xn k) ->
    exists t, mac (E := E) k ms r = Ok (t, snd (scalar_random r)).
  Proof.
    intros Hl. unfold mac, mac_with. rewrite Hl, Nat.eqb_refl. cbn [negb].
    destruct (scalar_random r) as [n r1]. cbn [bind snd]. eexists; reflexivity.
  Qed.
  Lemma mac_err k ms r : List.length ms <> List.length (sk_xn k) ->
    mac (E := E) k ms r = Err (MessageLengthError (List.length (sk_xn k))).
  Proof.
    intros Hl. unfold mac.
    destruct (Nat.eqb_spec (List.length (sk_xn k)) (List.length ms)); [congruence|reflexivity].
  Qed.

  Lemma mac_verify_iff k t ms : mac_verify k t ms = Ok tt <->
    tag_nonce t <> basepoint /\ tag_mac t = smul (sk_x0 k + dot (sk_xn k) ms) (tag_nonce t).
  Proof.
    unfold mac_verify. rewrite (smul_eqm L _ _ _ (verify_exponent_eqm (sk_x0 k) (sk_xn k) ms)).
    destruct (peqb (tag_nonce t) basepoint) eqn:H1.
    - apply (peqb_true L) in H1. split; [discriminate|intros [H _]; contradiction].
    - apply (peqb_false L) in H1.
      destruct (peqb (tag_mac t) _) eqn:H2.
      + apply (peqb_true L) in H2. split; auto.
      + apply (peqb_false L) in H2. split; [discriminate|intros [_ H]; contradiction].
  Qed.
  Lemma mac_verify_cases k t ms : mac_verify k t ms = Ok tt \/ mac_verify k t ms = Err AuthenticationError.
  Proof.
    unfold mac_verify. destruct (peqb (tag_nonce t) basepoint); [auto|].
    destruct (peqb _ _); auto.
  Qed.
  Lemma mac_verify_err k t ms : mac_verify k t ms = Err AuthenticationError <->
    tag_nonce t = basepoint \/ tag_mac t <> smul (sk_x0 k + dot (sk_xn k) ms) (tag_nonce t).
  Proof.
    pose proof (mac_verify_iff k t ms) as H.
    destruct (mac_verify_cases k t ms) as [E1|E1]; rewrite E1 in *.
    - destruct H as [H _]. specialize (H eq_refl). split; [discriminate|tauto].
    - split; [intros _|auto].
      destruct (point_eq_dec L (tag_nonce t) basepoint) as [?|Hn]; [auto|].
      right. intros He. destruct H as [_ H]. specialize (H (conj Hn He)). discriminate.
  Qed.
  Lemma base_iff_1 n : smul n basepoint = @basepoint E <-> n == 1.
  Proof. rewrite <- (smul_1 (@basepoint E)) at 2. apply (smul_base_iff L). Qed.
  Lemma mac_verifies k ms r t r' : mac k ms r = Ok (t, r') ->
    (mac_verify k t ms = Ok tt <-> ~ fst (scalar_random r) == 1).
  Proof.
    intros H. apply mac_spec in H as (H1 & _ & H2 & H3).
    rewrite mac_verify_iff, H1, base_iff_1. rewrite H1 in H3. tauto.
  Qed.

  Lemma mac_verify_unique k t ms ms' : tag_nonce t <> pzero ->
    mac_verify k t ms = Ok tt ->
    (mac_verify k t ms' = Ok tt <-> dot (sk_xn k) ms == dot (sk_xn k) ms').
  Proof.
    intros Hn. rewrite !mac_verify_iff. intros [H1 H2]. rewrite H2, (smul_inj L) by exact Hn.
    split.
    - intros [_ H]. apply eqm_sub_0 in H. apply eqm_sub_0. rewrite <- H. apply eqm_of_eq; zring.
    - intros H. split; [exact H1|]. rewrite H. reflexivity.
  Qed.
  Lemma mac_verify_unique1 k t x m m' : tag_nonce t <> pzero -> sk_xn k = [x] -> ~ x == 0 ->
    mac_verify k t [m] = Ok tt -> mac_verify k t [m'] = Ok tt -> m == m'.
  Proof.
    intros Hn Hx Hx0 H H'. apply (mac_verify_unique k t _ [m'] Hn H) in H'.
    rewrite Hx in H'. cbn [dot] in H'. apply (eqm_mul_cancel _ _ x Hx0).
    transitivity (x * m + 0); [apply eqm_of_eq; zring|]. rewrite H'. apply eqm_of_eq; zring.
  Qed.

  Lemma apply_to_tag_equation s k ms t : mac_equation k ms t -> mac_equation k ms (apply_to_tag s t).
  Proof.
    intros [Hl H]. split; [exact Hl|]. unfold apply_to_tag; cbn [tag_mac tag_nonce]. rewrite H.
    destruct t as [P Q]; cbn [tag_nonce]. clear H. pring L.
  Qed.
  Lemma apply_to_tag_equation_iff s k ms t : ~ s == 0 ->
    (mac_equation k ms (apply_to_tag s t) <-> mac_equation k ms t).
  Proof.
    intros Hs. split; [|apply apply_to_tag_equation].
    intros [Hl H]. split; [exact Hl|]. unfold apply_to_tag in H; cbn [tag_mac tag_nonce] in H.
    destruct t as [P Q]; cbn [tag_mac tag_nonce] in *.
    generalize dependent (sk_x0 k + dot (sk_xn k) ms). intros z H.
    dlogs L. to_base_in L H. apply (smul_base_iff L) in H. to_base L. apply (smul_base_iff L).
    apply (eqm_mul_cancel _ _ s Hs). rewrite Z.mul_comm, H. apply eqm_of_eq; zring.
  Qed.

  Lemma interpolate_spec k m1 m2 m t1 t2 :
    tag_nonce t1 = tag_nonce t2 -> ~ m1 == m2 ->
    mac_equation k [m1] t1 -> mac_equation k [m2] t2 -> mac_equation k [m] (interpolate m1 m2 m t1 t2).
  Proof.
    intros Hn Hm [Hl H1] [_ H2]. split; [exact Hl|].
    destruct (sk_xn k) as [|x [|]]; try discriminate. cbn [dot] in *.
    destruct t1 as [P Q1], t2 as [P2 Q2]; unfold interpolate; cbn [tag_nonce tag_mac] in *. subst P2 Q1 Q2.
    assert (Hd : ~ m2 - m1 == 0).
    { intros H. apply Hm. symmetry. apply eqm_sub_0. exact H. }
    pose proof (s_inv_spec _ Hd) as Hi. generalize dependent (s_inv (m2 - m1)). intros v Hi.
    dlogs L. to_base L. apply (smul_base_iff L).
    transitivity (sk_x0 k * k0 + x * m1 * k0 + (m - m1) * x * k0 * (v * (m2 - m1)));
      [apply eqm_of_eq; zring|]. rewrite Hi. apply eqm_of_eq; zring.
  Qed.
End mac_facts.
