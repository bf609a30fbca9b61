(** What the proof of blinded issuance gives the user (C116). *)
From Verif Require Import Spec SpecBlind ModelPhone ProofFacts MacFacts Toy PropertiesProofs.
From Coq Require Import Setoid.
Local Open Scope Z_scope.

(** What the user decrypts is [t0 m] times the basepoint; the key [x0] has no part in it. *)
Lemma decrypted {E} (L : ExtLaws E) (q : ab_Publics E) u (p : ib_Publics E) w :
  ab_relation q u -> answers q p -> ib_relation p w ->
  elgamal_decrypt (abs_d u) (encrypted_mac p) = smul (ibs_t0 w * abs_m0 u) basepoint /\ ibp_P p = smul (ibs_b w) basepoint.
Proof.
  destruct q as [B A D C0 C1], p as [B' A' X0 X1 D' P T0 T1 Q0 Q1 C0' C1'], u as [d e m nonce], w as [xt x0 x1 s b t0].
  unfold ab_relation, answers, ib_relation, elgamal_decrypt, encrypted_mac; cbn.
  intros (-> & -> & ->) (-> & -> & -> & -> & -> & ->) (_ & _ & -> & _ & _ & -> & ->). split; [|reflexivity]. pring L.
Qed.

(** ** C116: what blinded issuance gives the user *)
Theorem C116_decrypts : forall E, ExtLaws E -> forall (q : ab_Publics E) u p w,
  ab_relation q u -> answers q p -> ib_relation p w ->
  obtained (abs_d u) p = {| tag_nonce := smul (ibs_b w) basepoint; tag_mac := smul (ibs_t0 w * abs_m0 u) basepoint |}.
Proof.
  intros E L q u p w R Ha W. destruct (decrypted L q u p w R Ha W) as [H1 H2]. unfold obtained. rewrite H1, H2. reflexivity.
Qed.
Print Assumptions C116_decrypts.

(** A phone number encrypted to one's own key is such a request, and the issuer accepts its proof. *)
Theorem C116_request : forall E, ExtLaws E -> forall r n nonce (A : point E) unused t os,
  let key := fst (@elgamal_keypair_generate E r) in
  let sent := phone_number_encrypt n key nonce in
  let q := {| abp_B := basepoint; abp_A := A; abp_D := eg_public key;
              abp_encrypted_attribute_0_0 := enc_commitment sent; abp_encrypted_attribute_0_1 := enc_encryption sent |} in
  let u := {| abs_d := eg_secret key; abs_e0 := nonce; abs_m0 := n; abs_nonce := unused |} in
  ab_relation q u /\ ab_verify (fst (ab_create t q u os)) t q = Ok tt.
Proof.
  intros E L r n nonce A unused t os key sent q u.
  assert (R : ab_relation q u).
  { unfold q, u, sent, key, elgamal_keypair_generate. destruct (elgamal_secret_generate r) as [d r']. repeat split. }
  split; [exact R|]. apply (ab_create_complete L), R.
Qed.
Print Assumptions C116_request.

(** So of two accepted answers to one challenge each, the scalars extracted say what was obtained. *)
Theorem C116_extracted : forall E, ExtLaws E -> forall (q : ab_Publics E) rq1 rq2 p pf1 pf2,
  answers q p ->
  ~ ab_challenge rq1 == ab_challenge rq2 -> ab_recompute rq1 q = ab_recompute rq2 q ->
  ~ ib_challenge pf1 == ib_challenge pf2 -> ib_recompute pf1 p = ib_recompute pf2 p ->
  let u := ab_extract rq1 rq2 in let w := ib_extract pf1 pf2 in
  obtained (abs_d u) p = {| tag_nonce := smul (ibs_b w) basepoint; tag_mac := smul (ibs_t0 w * abs_m0 u) basepoint |}.
Proof.
  intros E L q rq1 rq2 p pf1 pf2 Ha H1 H2 H3 H4 u w.
  apply (C116_decrypts E L q); [apply (ab_special_sound L); assumption|exact Ha|apply (ib_special_sound L); assumption].
Qed.
Print Assumptions C116_extracted.

Theorem C116_verifies : forall E, ExtLaws E -> forall (q : ab_Publics E) u p w,
  ab_relation q u -> answers q p -> ib_relation p w ->
  (mac_verify (key_in w) (obtained (abs_d u) p) [abs_m0 u] = Ok tt <->
   ~ ibs_b w == 1 /\ ibs_t0 w * abs_m0 u == ibs_b w * (ibs_x0 w + ibs_x1 w * abs_m0 u)).
Proof.
  intros E L q u p w R Ha W. rewrite (C116_decrypts E L q u p w R Ha W), (mac_verify_iff L). cbn [tag_nonce tag_mac key_in sk_x0 sk_xn dot].
  rewrite (base_iff_1 L). apply and_iff_compat_l. to_base L. rewrite (smul_base_iff L).
  split; intros H; (etransitivity; [exact H|apply eqm_of_eq; zring]).
Qed.
Print Assumptions C116_verifies.

(** [t0] as it is meant to be, [b x1]: the tag lacks [x0 P], and does not verify. *)
Theorem C116_as_meant_refuted : forall E, ExtLaws E -> forall (q : ab_Publics E) u p w,
  ab_relation q u -> answers q p -> ib_relation p w -> ibs_t0 w == ibs_b w * ibs_x1 w ->
  (mac_verify (key_in w) (obtained (abs_d u) p) [abs_m0 u] = Ok tt <-> ~ ibs_b w == 1 /\ (ibs_b w == 0 \/ ibs_x0 w == 0)) /\
  (~ ibs_b w == 0 -> ~ ibs_x0 w == 0 ->
   mac_verify (key_in w) (obtained (abs_d u) p) [abs_m0 u] = Err AuthenticationError).
Proof.
  intros E L q u p w R Ha W Ht.
  assert (Hi : mac_verify (key_in w) (obtained (abs_d u) p) [abs_m0 u] = Ok tt <-> ~ ibs_b w == 1 /\ (ibs_b w == 0 \/ ibs_x0 w == 0)).
  { rewrite (C116_verifies E L q u p w R Ha W). apply and_iff_compat_l. rewrite Ht. split; intros H.
    - apply eqm_mul_0. apply eqm_sub_0 in H.
      assert (H' : - (ibs_b w * ibs_x0 w) == 0) by (etransitivity; [|exact H]; apply eqm_of_eq; zring).
      setoid_replace (ibs_b w * ibs_x0 w) with (- (- (ibs_b w * ibs_x0 w))) by (apply eqm_of_eq; zring). rewrite H'. reflexivity.
    - destruct H as [H|H]; rewrite H; apply eqm_of_eq; zring. }
  split; [exact Hi|]. intros Hb Hx. destruct (mac_verify_cases (key_in w) (obtained (abs_d u) p) [abs_m0 u]) as [H|H]; [|exact H].
  apply Hi in H as [_ [H|H]]; contradiction.
Qed.
Print Assumptions C116_as_meant_refuted.

(** With the missing term added to the encryption it does. *)
Theorem C116_missing_term : forall E, ExtLaws E -> forall (q : ab_Publics E) u p w,
  ab_relation q u -> answers q p -> ib_relation p w -> ibs_t0 w == ibs_b w * ibs_x1 w ->
  let whole := encryption_add (encrypted_mac p) {| enc_commitment := pzero; enc_encryption := smul (ibs_x0 w) (ibp_P p) |} in
  mac_verify (key_in w) {| tag_nonce := ibp_P p; tag_mac := elgamal_decrypt (abs_d u) whole |} [abs_m0 u] = Ok tt <-> ~ ibs_b w == 1.
Proof.
  intros E L q u p w R Ha W Ht whole. rewrite (mac_verify_iff L). cbn [tag_nonce tag_mac key_in sk_x0 sk_xn dot].
  destruct (decrypted L q u p w R Ha W) as [H1 H2].
  assert (Hd : elgamal_decrypt (abs_d u) whole = padd (elgamal_decrypt (abs_d u) (encrypted_mac p)) (smul (ibs_x0 w) (ibp_P p))).
  { unfold whole, elgamal_decrypt, encryption_add. cbn. generalize (ibp_EQ_commitment p) (ibp_EQ_encryption p) (ibp_P p) (abs_d u) (ibs_x0 w).
    clear - L. intros a b c d x. pring L. }
  rewrite Hd, H1, H2, (base_iff_1 L).
  assert (He : padd (smul (ibs_t0 w * abs_m0 u) basepoint) (smul (ibs_x0 w) (smul (ibs_b w) basepoint))
    = smul (ibs_x0 w + (ibs_x1 w * abs_m0 u + 0)) (smul (ibs_b w) (@basepoint E))).
  { to_base L. apply (smul_base_iff L). rewrite Ht. apply eqm_of_eq; zring. }
  rewrite He. tauto.
Qed.
Print Assumptions C116_missing_term.

(** Whatever [t0] is: an issuer who does not know the attribute cannot choose it, since one choice
    serves no two attributes. *)
Theorem C116_blind_refuted : forall E, ExtLaws E -> forall (q q' : ab_Publics E) u u' p p' w w',
  ab_relation q u -> answers q p -> ib_relation p w ->
  ab_relation q' u' -> answers q' p' -> ib_relation p' w' ->
  key_in w = key_in w' -> ibs_b w = ibs_b w' -> ibs_t0 w = ibs_t0 w' ->
  ~ ibs_b w == 0 -> ~ ibs_x0 w == 0 ->
  mac_verify (key_in w) (obtained (abs_d u) p) [abs_m0 u] = Ok tt ->
  mac_verify (key_in w') (obtained (abs_d u') p') [abs_m0 u'] = Ok tt ->
  abs_m0 u == abs_m0 u'.
Proof.
  intros E L q q' u u' p p' w w' R Ha W R' Ha' W' Hk Hb Ht Nb Nx V V'.
  apply (C116_verifies E L q u p w R Ha W) in V as [_ V]. apply (C116_verifies E L q' u' p' w' R' Ha' W') in V' as [_ V'].
  unfold key_in in Hk. injection Hk as K0 K1. unfold scalar in *. rewrite <- Hb, <- Ht, <- K0, <- K1 in V'.
  revert Nb Nx V V'. generalize (ibs_b w) (ibs_t0 w) (ibs_x0 w) (ibs_x1 w) (abs_m0 u) (abs_m0 u'). clear. intros b t x0 x1 m m' Nb Nx V V'.
  apply eqm_sub_0. destruct (eqm_mul_0 (b * x0) (m - m')) as [H|H]; [| |exact H].
  - assert (H1 : b * x0 == (t - b * x1) * m) by (transitivity (b * (x0 + x1 * m) - b * x1 * m); [apply eqm_of_eq; zring|]; rewrite <- V; apply eqm_of_eq; zring).
    assert (H2 : b * x0 == (t - b * x1) * m') by (transitivity (b * (x0 + x1 * m') - b * x1 * m'); [apply eqm_of_eq; zring|]; rewrite <- V'; apply eqm_of_eq; zring).
    transitivity (b * x0 * m - b * x0 * m'); [apply eqm_of_eq; zring|].
    transitivity ((t - b * x1) * m' * m - (t - b * x1) * m * m'); [|apply eqm_of_eq; zring].
    rewrite <- H1, <- H2. reflexivity.
  - apply eqm_mul_0 in H as [H|H]; contradiction.
Qed.
Print Assumptions C116_blind_refuted.

(** One who knows it, unless it is zero, can. *)
Theorem C116_known : forall E, ExtLaws E -> forall (q : ab_Publics E) u xt x0 x1 s b t os,
  ab_relation q u -> abp_B q = basepoint -> ~ abs_m0 u == 0 -> ~ b == 1 ->
  exists p w, answers q p /\ ib_relation p w /\ key_in w = {| sk_x0 := x0; sk_xn := [x1] |} /\
    ibp_P p = smul b basepoint /\ ibp_X0 p = padd (smul x0 basepoint) (smul xt (abp_A q)) /\ ibp_X1 p = smul x1 (abp_A q) /\
    ib_verify (fst (ib_create t p w os)) t p = Ok tt /\ ibs_s w = s /\
    mac_verify (key_in w) (obtained (abs_d u) p) [abs_m0 u] = Ok tt.
Proof.
  intros E L q u xt x0 x1 s b t os R Hq Hm Hb.
  set (t0 := b * (x0 + x1 * abs_m0 u) * s_inv (abs_m0 u)).
  set (w := {| ibs_x0_tilde := xt; ibs_x0 := x0; ibs_x1 := x1; ibs_s := s; ibs_b := b; ibs_t0 := t0 |}).
  set (X0 := padd (smul x0 basepoint) (smul xt (abp_A q))).
  set (p := {| ibp_B := basepoint; ibp_A := abp_A q; ibp_X0 := X0; ibp_X1 := smul x1 (abp_A q); ibp_D := abp_D q;
    ibp_P := smul b basepoint; ibp_T0_0 := smul b X0; ibp_T0_1 := smul t0 (abp_A q);
    ibp_EQ_commitment := padd (smul s basepoint) (smul t0 (abp_encrypted_attribute_0_0 q));
    ibp_EQ_encryption := padd (smul s (abp_D q)) (smul t0 (abp_encrypted_attribute_0_1 q));
    ibp_encrypted_attribute_0_0 := abp_encrypted_attribute_0_0 q; ibp_encrypted_attribute_0_1 := abp_encrypted_attribute_0_1 q |}).
  assert (Ha : answers q p) by (repeat split; exact Hq).
  assert (W : ib_relation p w) by (repeat split; reflexivity).
  exists p, w. split; [exact Ha|]. split; [exact W|]. repeat (split; [reflexivity|]).
  split; [apply (ib_create_complete L), W|]. split; [reflexivity|].
  apply (C116_verifies E L q u p w R Ha W). split; [exact Hb|]. cbn [ibs_t0 ibs_b ibs_x0 ibs_x1 w]. unfold t0.
  transitivity (b * (x0 + x1 * abs_m0 u) * (s_inv (abs_m0 u) * abs_m0 u)); [apply eqm_of_eq; zring|].
  rewrite (s_inv_spec _ Hm). apply eqm_of_eq; zring.
Qed.
Print Assumptions C116_known.

(** When one point is given for [T0_0] and [T0_1], as the comments do, the tag verifies for exactly the
    attributes [m] with [m (X0 - X1) = x0 A]. *)
Theorem C116_one_point : forall E, ExtLaws E -> forall (q : ab_Publics E) u p w,
  ab_relation q u -> answers q p -> ib_relation p w -> ibp_T0_0 p = ibp_T0_1 p -> ibp_A p <> pzero ->
  (mac_verify (key_in w) (obtained (abs_d u) p) [abs_m0 u] = Ok tt <->
   ~ ibs_b w == 1 /\ (ibs_b w == 0 \/ smul (abs_m0 u) (psub (ibp_X0 p) (ibp_X1 p)) = smul (ibs_x0 w) (ibp_A p))).
Proof.
  intros E L q u p w R Ha W HT HA. rewrite (C116_verifies E L q u p w R Ha W). apply and_iff_compat_l.
  destruct W as (W0 & W1 & _ & W3 & W4 & _). destruct Ha as (_ & HB & _). rewrite HB in W0. rewrite W3, W4 in HT. rewrite W0, W1. rewrite W0 in HT. clear W0 W1 W3 W4 HB R.
  revert HT HA. generalize (ibp_A p) (ibs_x0_tilde w) (ibs_x0 w) (ibs_x1 w) (ibs_b w) (ibs_t0 w) (abs_m0 u). clear - L.
  intros A xt x0 x1 b t0 m HT HA. destruct (basepoint_generates E L A) as [a ->].
  assert (Ha : ~ a == 0) by (intros H; apply HA; rewrite (smul_eqm L _ _ _ H); reflexivity). clear HA.
  to_base_in L HT. apply (smul_base_iff L) in HT. to_base L. rewrite (smul_base_iff L).
  assert (HT' : b * (x0 + xt * a) == t0 * a) by (etransitivity; [|etransitivity; [exact HT|]]; apply eqm_of_eq; zring). clear HT.
  assert (Hm : a * (t0 * m - b * (x0 + x1 * m)) == b * (m * (x0 + xt * a - x1 * a) - x0 * a)).
  { transitivity (t0 * a * m - b * (x0 + x1 * m) * a); [apply eqm_of_eq; zring|]. rewrite <- HT'. apply eqm_of_eq; zring. }
  split; intros H.
  - apply eqm_sub_0 in H. rewrite H in Hm.
    assert (Hz : b * (m * (x0 + xt * a - x1 * a) - x0 * a) == 0) by (rewrite <- Hm; apply eqm_of_eq; zring).
    apply eqm_mul_0 in Hz as [Hz|Hz]; [left; exact Hz|right]. apply eqm_sub_0. etransitivity; [|exact Hz]. apply eqm_of_eq; zring.
  - assert (Hz : a * (t0 * m - b * (x0 + x1 * m)) == 0).
    { rewrite Hm. destruct H as [H|H]; [rewrite H; apply eqm_of_eq; zring|]. apply eqm_sub_0 in H.
      transitivity (b * 0); [|apply eqm_of_eq; zring]. rewrite <- H. apply eqm_of_eq; zring. }
    apply eqm_mul_0 in Hz as [Hz|Hz]; [contradiction|]. apply eqm_sub_0, Hz.
Qed.
Print Assumptions C116_one_point.

(** And the proof an issuer makes as the comments do, [t0] being [b x1] and [t0 A] both points, is refused,
    but for a zero [b], [X0 = X1], a challenge that is zero, and a collision of challenges. *)
Theorem C116_honest_refuted : forall E, ExtLaws E -> forall t (p : ib_Publics E) w r,
  ibs_t0 w == ibs_b w * ibs_x1 w -> ibp_X1 p = smul (ibs_x1 w) (ibp_A p) ->
  ibp_T0_0 p = smul (ibs_t0 w) (ibp_A p) -> ibp_T0_1 p = smul (ibs_t0 w) (ibp_A p) ->
  ~ ibs_b w == 0 -> ibp_X0 p <> ibp_X1 p ->
  let pf := ib_create_with (ib_create_absorb t p) p w r in
  ~ ib_challenge pf = 0 ->
  ~ challenge_collision (E := E) (extend t (ib_messages p (ib_image p r))) (extend t (ib_messages p (ib_recompute pf p))) ->
  ib_verify pf t p = Err tt.
Proof.
  intros E L t p w r Ht HX HT HT' Hb Hne pf Hc Hcol.
  assert (Hv : forall x, ib_verify x t p = Ok tt \/ ib_verify x t p = Err tt) by (intros x; unfold ib_verify; cbv zeta; destruct (scalar_eqb _ _); auto).
  destruct (Hv pf) as [V|V]; [exfalso|exact V].
  apply (ib_false_rejected L) in V as [(_ & _ & W)|[V|V]]; [|contradiction|contradiction].
  destruct W as (_ & _ & _ & W3 & _). rewrite HT, (smul_eqm L _ _ _ Ht) in W3.
  apply Hne. rewrite HX. generalize W3 Hb. generalize (ibp_A p) (ibp_X0 p) (ibs_b w) (ibs_x1 w). clear - L. intros A X b x1 H Hb.
  dlogs L. to_base_in L H. apply (smul_base_iff L) in H. to_base L. apply (smul_base_iff L).
  apply (eqm_mul_cancel _ _ b Hb). symmetry. etransitivity; [|etransitivity; [exact H|]]; apply eqm_of_eq; zring.
Qed.
Print Assumptions C116_honest_refuted.

(** Attribute 7 sent with the key 33; the answer of an issuer who knew it ([t0] is 84), the one meant
    ([t0] is 42), and one for the attribute 20 where one point serves for both. *)
Definition tpt (x : Z) : point toy := tp x.
Definition blind_request (m : Z) : ab_Publics toy :=
  {| abp_B := tpt 1; abp_A := tpt 20; abp_D := tpt 33; abp_encrypted_attribute_0_0 := tpt 5; abp_encrypted_attribute_0_1 := tp (m + 165) |}.
Definition blind_user (m : Z) : ab_Scalars := {| abs_d := 33; abs_e0 := 5; abs_m0 := m; abs_nonce := 0 |}.
Definition blind_answer (m : Z) (w : ib_Scalars) (T0 : Z) : ib_Publics toy :=
  {| ibp_B := tpt 1; ibp_A := tpt 20; ibp_X0 := tp (ibs_x0 w + 20 * ibs_x0_tilde w); ibp_X1 := tp (20 * ibs_x1 w); ibp_D := tpt 33;
     ibp_P := tp (ibs_b w); ibp_T0_0 := tpt T0; ibp_T0_1 := tp (20 * ibs_t0 w);
     ibp_EQ_commitment := tp (ibs_s w + 5 * ibs_t0 w); ibp_EQ_encryption := tp (33 * ibs_s w + (m + 165) * ibs_t0 w);
     ibp_encrypted_attribute_0_0 := tpt 5; ibp_encrypted_attribute_0_1 := tp (m + 165) |}.
Definition known_witness : ib_Scalars := {| ibs_x0_tilde := 9; ibs_x0 := 21; ibs_x1 := 3; ibs_s := 11; ibs_b := 14; ibs_t0 := 84 |}.
Definition meant_witness : ib_Scalars := {| ibs_x0_tilde := 9; ibs_x0 := 21; ibs_x1 := 3; ibs_s := 11; ibs_b := 14; ibs_t0 := 42 |}.
Definition tied_witness : ib_Scalars := {| ibs_x0_tilde := 3; ibs_x0 := 21; ibs_x1 := 3; ibs_s := 11; ibs_b := 20; ibs_t0 := 81 |}.
Definition verifies_at (m : Z) (w : ib_Scalars) (T0 : Z) : outcome MacError unit :=
  mac_verify (key_in w) (obtained (abs_d (blind_user m)) (blind_answer m w T0)) [m].

Ltac on_toy := repeat split; try reflexivity; apply toy_eq; vm_compute; reflexivity.
Example C116_met :
  ab_relation (blind_request 7) (blind_user 7) /\
  answers (blind_request 7) (blind_answer 7 known_witness 2814) /\ ib_relation (blind_answer 7 known_witness 2814) known_witness /\
  verifies_at 7 known_witness 2814 = Ok tt /\
  ib_relation (blind_answer 7 meant_witness 2814) meant_witness /\ ibs_t0 meant_witness = ibs_b meant_witness * ibs_x1 meant_witness /\
  verifies_at 7 meant_witness 2814 = Err AuthenticationError.
Proof.
  split; [on_toy|]. split; [on_toy|]. split; [on_toy|]. split; [vm_compute; reflexivity|]. split; [on_toy|].
  split; [reflexivity|]. vm_compute; reflexivity.
Qed.
Example C116_met_one_point :
  ab_relation (blind_request 20) (blind_user 20) /\ answers (blind_request 20) (blind_answer 20 tied_witness 1620) /\
  ib_relation (blind_answer 20 tied_witness 1620) tied_witness /\
  ibp_T0_0 (blind_answer 20 tied_witness 1620) = ibp_T0_1 (blind_answer 20 tied_witness 1620) /\
  verifies_at 20 tied_witness 1620 = Ok tt /\
  ab_relation (blind_request 7) (blind_user 7) /\ answers (blind_request 7) (blind_answer 7 tied_witness 1620) /\
  ib_relation (blind_answer 7 tied_witness 1620) tied_witness /\ verifies_at 7 tied_witness 1620 = Err AuthenticationError.
Proof.
  split; [on_toy|]. split; [on_toy|]. split; [on_toy|]. split; [on_toy|]. split; [vm_compute; reflexivity|].
  split; [on_toy|]. split; [on_toy|]. split; [on_toy|]. vm_compute; reflexivity.
Qed.

(** Proofs with two challenges each, from which the scalars are extracted. *)
Definition blind_request_proof (c : Z) : ab_Proof := {| ab_challenge := c; ab_responses :=
  {| abs_d := c * 33 + 1; abs_e0 := c * 5 + 2; abs_m0 := c * 7 + 3; abs_nonce := 4 |} |}.
Definition blind_answer_proof (c : Z) : ib_Proof := {| ib_challenge := c; ib_responses := {|
  ibs_x0_tilde := c * 9 + 1; ibs_x0 := c * 21 + 2; ibs_x1 := c * 3 + 3; ibs_s := c * 11 + 4; ibs_b := c * 14 + 5; ibs_t0 := c * 84 + 6 |} |}.
Example C116_met_extracted : ~ 7 == 11 /\
  ab_recompute (blind_request_proof 7) (blind_request 7) = ab_recompute (blind_request_proof 11) (blind_request 7) /\
  ib_recompute (blind_answer_proof 7) (blind_answer 7 known_witness 2814) = ib_recompute (blind_answer_proof 11) (blind_answer 7 known_witness 2814).
Proof.
  split; [vm_compute; discriminate|]. split; [unfold ab_recompute|unfold ib_recompute]; f_equal; apply toy_eq; vm_compute; reflexivity.
Qed.

(** The proof made as the comments do, on toy crates: refused. *)
Definition honest_randomness : ib_Scalars := {| ibs_x0_tilde := 1; ibs_x0 := 2; ibs_x1 := 3; ibs_s := 4; ibs_b := 5; ibs_t0 := 6 |}.
Example C116_met_honest :
  let p := blind_answer 7 meant_witness 840 in
  let pf := ib_create_with (ib_create_absorb issuance_transcript p) p meant_witness honest_randomness in
  ibp_X1 p = smul (ibs_x1 meant_witness) (ibp_A p) /\ ibp_T0_0 p = smul (ibs_t0 meant_witness) (ibp_A p) /\
  ibp_T0_1 p = smul (ibs_t0 meant_witness) (ibp_A p) /\ ~ ibs_b meant_witness == 0 /\ ibp_X0 p <> ibp_X1 p /\
  ib_challenge pf <> 0 /\
  ~ challenge_collision (E := toy) (extend issuance_transcript (ib_messages p (ib_image p honest_randomness)))
      (extend issuance_transcript (ib_messages p (ib_recompute pf p))).
Proof.
  cbv zeta. split; [on_toy|]. split; [on_toy|]. split; [on_toy|]. split; [vm_compute; discriminate|].
  split; [intros H; apply (f_equal tv) in H; vm_compute in H; discriminate|].
  split; [vm_compute; discriminate|]. intros [_ H]. vm_compute in H. discriminate.
Qed.
