(** What an eavesdropper learns from ElGamal encryptions (C88). *)
From Verif Require Import SpecElgamal ElgamalFacts Toy.
From Coq Require Import Setoid.
Local Open Scope Z_scope.

(** ** C88: ElGamal encryption hides as well as the Diffie-Hellman secret *)
Theorem C88_reduction : forall E, ExtLaws E -> forall (e : eavesdropper E) n w0 w1 t0 t1 f0 f1,
  exactly w0 (hears false e n) -> exactly w1 (hears true e n) ->
  exactly t0 (says_on_secret false e n) -> exactly t1 (says_on_secret true e n) ->
  exactly f0 (says_on_random false e n) -> exactly f1 (says_on_random true e n) ->
  t0 = ell ^ Z.of_nat (S n) * w0 /\ t1 = ell ^ Z.of_nat (S n) * w1 /\ f0 - t0 = f1 - t1 /\
  (ell - 1) * ell ^ Z.of_nat (S n) * (w0 - w1) = (ell * t0 - f0) - (ell * t1 - f1).
Proof.
  intros E L e n w0 w1 t0 t1 f0 f1 W0 W1 T0 T1 F0 F1.
  pose proof (on_secrets L false e n w0 t0 W0 T0) as H0. pose proof (on_secrets L true e n w1 t1 W1 T1) as H1.
  pose proof (on_random L false e n t0 f0 T0 F0) as D0. pose proof (on_random L true e n t1 f1 T1 F1) as D1.
  pose proof (on_others L false e n _ _ D0 D1) as K1. pose proof (on_others L true e n _ _ D1 D0) as K2.
  assert (K : f0 - t0 = f1 - t1) by lia.
  split; [exact H0|]. split; [exact H1|]. split; [exact K|].
  transitivity ((ell - 1) * (t0 - t1)); [rewrite H0, H1; ring|]. replace f0 with (f1 - t1 + t0) by lia. ring.
Qed.
Print Assumptions C88_reduction.

(** There always are such numbers. *)
Theorem C88_counts : forall E (e : eavesdropper E) second n,
  (exists w, exactly w (hears second e n)) /\ (exists t, exactly t (says_on_secret second e n)) /\
  (exists f, exactly f (says_on_random second e n)).
Proof.
  intros E e second n. split; [|split].
  - apply (exactly_filter _ _ (fun x => overhears second e (fst x) (snd x)) _ (exactly_prod _ _ _ _ exactly_canonical (exactly_scalars n))).
    intros [a rs]. unfold hears. cbn [fst snd]. tauto.
  - apply (exactly_filter _ _ (fun x => let '(a, b, coins) := x in
      tells_apart second e (smul a basepoint) (smul b basepoint) (smul (a * b) basepoint) coins) _
      (exactly_prod _ _ _ _ (exactly_prod _ _ _ _ exactly_canonical exactly_canonical) (exactly_pairs n))).
    intros [[a b] coins]. unfold says_on_secret. cbn [fst snd]. tauto.
  - apply (exactly_filter _ _ (fun x => let '(a, b, c, coins) := x in
      tells_apart second e (smul a basepoint) (smul b basepoint) (smul c basepoint) coins) _
      (exactly_prod _ _ _ _ (exactly_prod _ _ _ _ (exactly_prod _ _ _ _ exactly_canonical exactly_canonical) exactly_canonical) (exactly_pairs n))).
    intros [[[a b] c] coins]. unfold says_on_random. cbn [fst snd]. tauto.
Qed.
Print Assumptions C88_counts.

(** An eavesdropper on phone numbers is one of these. *)
Theorem C88_phone_numbers : forall E (t : point E -> tapper E), exists e : eavesdropper E, forall second key nonces,
  eg_public key = elgamal_public_of_secret (eg_secret key) ->
  reports key second (t (eg_public key)) nonces = overhears second e (eg_secret key) nonces.
Proof.
  intros E t.
  exists (fun k => (fix as_chooser (x : tapper E) : chooser E :=
    match x with
    | Reports b => Says b
    | Picks n n' next => Chooses (elgamal_message n) (elgamal_message n') (fun c => as_chooser (next c))
    end) (t k)).
  intros second key nonces Hk. unfold overhears. rewrite <- Hk. generalize (t (eg_public key)). clear Hk t.
  induction nonces as [|r nonces IH]; intros [b|n n' next]; try reflexivity.
  cbn [reports says]. rewrite IH. unfold phone_number_encrypt. destruct second; reflexivity.
Qed.
Print Assumptions C88_phone_numbers.

Lemma count_xorb {A} (g : bool) (f : A -> bool) l :
  count (fun v => xorb g (f v)) l = if g then Z.of_nat (List.length l) - count f l else count f l.
Proof.
  induction l as [|v l IH]; [destruct g; reflexivity|].
  rewrite !count_cons, IH. cbn [List.length]. destruct g, (f v); cbn [xorb]; lia.
Qed.
Theorem C88_generic : forall E, ExtLaws E -> forall l n w0 w1,
  exactly w0 (listens (E := E) false l n) -> exactly w1 (listens (E := E) true l n) ->
  Z.abs (w0 - w1) * ell <= 2 * Z.of_nat (comparisons l) * ell ^ Z.of_nat (S n).
Proof.
  intros E L l n w0 w1 H0 H1. pose proof ell_pos as Hell.
  destruct (range_exists ell ltac:(lia)) as (R & R1 & R2 & R3).
  pose proof (listens_count R R1 R2 n false l w0 H0) as C0. pose proof (listens_count R R1 R2 n true l w1 H1) as C1.
  destruct (mostly L R R1 R2 R3 n l 0 [PC 1; PV 0] [PC 1; PV 0] grown_start grown_start ltac:(lia)) as (g & G0 & G1).
  assert (Hx : forall f : list Z -> bool,
    count (fun v => xorb g (f v)) (tuples R (S n)) =
    if g then Z.of_nat (List.length (tuples R (S n))) - count f (tuples R (S n)) else count f (tuples R (S n))).
  { intros f. apply count_xorb. }
  rewrite Hx in G0, G1. rewrite <- C0 in G0. rewrite <- C1 in G1.
  pose proof (count_all (run_at (E := E) false l [PC 1; PV 0] 0) (tuples R (S n))) as B0. rewrite <- C0 in B0.
  pose proof (count_all (run_at (E := E) true l [PC 1; PV 0] 0) (tuples R (S n))) as B1. rewrite <- C1 in B1.
  pose proof (count_nonneg (run_at (E := E) false l [PC 1; PV 0] 0) (tuples R (S n))) as N0. rewrite <- C0 in N0.
  pose proof (count_nonneg (run_at (E := E) true l [PC 1; PV 0] 0) (tuples R (S n))) as N1. rewrite <- C1 in N1.
  destruct g.
  - destruct (Z.le_ge_cases w0 w1).
    + rewrite Z.abs_neq by lia. etransitivity; [|exact G0]. apply Z.mul_le_mono_nonneg_r; lia.
    + rewrite Z.abs_eq by lia. etransitivity; [|exact G1]. apply Z.mul_le_mono_nonneg_r; lia.
  - destruct (Z.le_ge_cases w0 w1).
    + rewrite Z.abs_neq by lia. etransitivity; [|exact G1]. apply Z.mul_le_mono_nonneg_r; lia.
    + rewrite Z.abs_eq by lia. etransitivity; [|exact G0]. apply Z.mul_le_mono_nonneg_r; lia.
Qed.
Print Assumptions C88_generic.

(** Half of the bound is reached: name the identity and the basepoint, and see
    whether the second half of the encryption is the identity. *)
Definition hopeful : listener := Names [] [1] (Compares [0; 0; 0; 1] (Concludes true) (Concludes false)).
Lemma nonzero_range : exists R, NoDup R /\ (forall x, In x R <-> 0 < x < ell) /\ Z.of_nat (List.length R) = ell - 1.
Proof.
  pose proof two_lt_ell as Hell. destruct (range_exists (ell - 1) ltac:(lia)) as (R & R1 & R2 & R3).
  exists (map Z.succ R). split; [apply FinFun.Injective_map_NoDup; [intros a b; lia|exact R1]|].
  split; [|rewrite map_length; exact R3]. intros x. rewrite in_map_iff. split.
  - intros (y & <- & Hy). apply R2 in Hy. lia.
  - intros Hx. exists (x - 1). split; [lia|]. apply R2. lia.
Qed.
Lemma hopeful_concludes {E : Ext} (L : ExtLaws E) second a r :
  concludes (E := E) (smul a basepoint) second hopeful [basepoint; smul a basepoint] [r] = true <->
  (if second then 1 else 0) + r * a == 0.
Proof.
  unfold hopeful. cbn [concludes]. unfold elgamal_encrypt. cbn [enc_commitment enc_encryption].
  cbn [app combination hd tl].
  match goal with |- context [peqb ?X pzero] => assert (HX : X = smul ((if second then 1 else 0) + r * a) basepoint) end.
  { destruct second; cbn [hd tl]; to_base L; apply (smul_base_iff L), eqm_of_eq; ring. }
  rewrite HX. destruct (peqb (smul _ basepoint) pzero) eqn:Hp.
  - apply (peqb_true L) in Hp. apply (smul_zero_iff L) in Hp; [|apply (basepoint_nonzero E L)]. cbn [concludes]. tauto.
  - apply (peqb_false L) in Hp. cbn [concludes]. split; [discriminate|]. intros H. exfalso. apply Hp.
    apply (smul_zero_iff L); [apply (basepoint_nonzero E L)|exact H].
Qed.
Theorem C88_generic_reached : forall E, ExtLaws E ->
  comparisons hopeful = 1%nat /\
  exactly (2 * ell - 1) (listens (E := E) false hopeful 1) /\ exactly (ell - 1) (listens (E := E) true hopeful 1).
Proof.
  intros E L. pose proof two_lt_ell as Hell. split; [reflexivity|].
  destruct (range_exists ell ltac:(lia)) as (R & R1 & R2 & R3). destruct nonzero_range as (S & S1 & S2 & S3).
  assert (Hz : forall x, 0 <= x < ell -> (x == 0 <-> x = 0)).
  { intros x Hx. split; [intros H; apply eqm_canonical in H; [exact H|exact Hx|lia]|intros ->; reflexivity]. }
  assert (Hl : forall second x, listens (E := E) second hopeful 1 x <->
    exists a r, x = (a, [r]) /\ 0 <= a < ell /\ 0 <= r < ell /\ (if second then 1 else 0) + r * a == 0).
  { intros second [a rs]. unfold listens, given_scalars, elgamal_public_of_secret. cbn [fst snd]. split.
    - intros (Ha & [Hl Hr] & H). destruct rs as [|r [|]]; try discriminate. inversion Hr; subst.
      apply (hopeful_concludes L) in H. exists a, r. auto.
    - intros (a' & r & Hx & Ha & Hr & H). injection Hx as -> ->. split; [exact Ha|]. split; [split; [reflexivity|constructor; [exact Hr|constructor]]|].
      apply (hopeful_concludes L). exact H. }
  split.
  - exists (map (fun r => (0, [r])) R ++ map (fun a => (a, [0])) S). split; [|split].
    + apply nodup_app; [apply FinFun.Injective_map_NoDup; [intros a b; congruence|exact R1]|
        apply FinFun.Injective_map_NoDup; [intros a b; congruence|exact S1]|].
      intros x H1 H2. apply in_map_iff in H1 as (r & <- & _). apply in_map_iff in H2 as (a & Ha & Hin). apply S2 in Hin.
      injection Ha as Ha _. lia.
    + intros x. rewrite Hl, in_app_iff, !in_map_iff. split.
      * intros [(r & <- & Hr)|(a & <- & Ha)].
        -- apply R2 in Hr. exists 0, r. split; [reflexivity|]. split; [lia|]. split; [exact Hr|]. apply eqm_of_eq; ring.
        -- apply S2 in Ha. exists a, 0. split; [reflexivity|]. split; [lia|]. split; [lia|]. apply eqm_of_eq; ring.
      * intros (a & r & -> & Ha & Hr & H). change (r * a == 0) in H. apply eqm_mul_0 in H as [H|H]; [apply (Hz r Hr) in H|apply (Hz a Ha) in H]; subst.
        -- destruct (Z.eq_dec a 0) as [->|Hn]; [left; exists 0; split; [reflexivity|apply R2; lia]|].
           right. exists a. split; [reflexivity|apply S2; lia].
        -- left. exists r. split; [reflexivity|apply R2; exact Hr].
    + rewrite app_length, !map_length, Nat2Z.inj_add, R3, S3. lia.
  - exists (map (fun a => (a, [(- s_inv a) mod ell])) S). split; [|split].
    + apply FinFun.Injective_map_NoDup; [intros a b; congruence|exact S1].
    + intros x. rewrite Hl, in_map_iff. split.
      * intros (a & <- & Ha). apply S2 in Ha. exists a, ((- s_inv a) mod ell). split; [reflexivity|]. split; [lia|].
        split; [apply Z.mod_pos_bound; lia|]. assert (Hn : ~ a == 0) by (rewrite Hz by lia; lia).
        rewrite eqm_mod. transitivity (1 - s_inv a * a); [apply eqm_of_eq; ring|]. rewrite (s_inv_spec a Hn). reflexivity.
      * intros (a & r & -> & Ha & Hr & H).
        assert (Hn : ~ a == 0).
        { intros K. rewrite K in H. assert (K1 : 1 == 0) by (rewrite <- H; apply eqm_of_eq; ring). apply (Hz 1 ltac:(lia)) in K1. discriminate. }
        exists a. split; [|apply S2; rewrite Hz in Hn by exact Ha; lia]. f_equal. f_equal.
        apply eqm_canonical; [apply Z.mod_pos_bound; lia|exact Hr|]. rewrite eqm_mod. apply eqm_sub_0.
        transitivity (- s_inv a * (1 + r * a) + r * (s_inv a * a) - r); [apply eqm_of_eq; ring|].
        rewrite H, (s_inv_spec a Hn). apply eqm_of_eq; ring.
    + rewrite map_length. exact S3.
Qed.
Print Assumptions C88_generic_reached.

(** What it does not hide. *)
Theorem C88_same_nonce : forall E, ExtLaws E -> forall (k m m' : point E) r r',
  enc_commitment (elgamal_encrypt k m r) = enc_commitment (elgamal_encrypt k m' r') ->
  psub (enc_encryption (elgamal_encrypt k m r)) (enc_encryption (elgamal_encrypt k m' r')) = psub m m'.
Proof.
  intros E L k m m' r r' H. cbn [enc_commitment enc_encryption elgamal_encrypt] in *. apply (smul_base_iff L) in H.
  dlogs L. to_base L. apply (smul_base_iff L). unfold scalar in *. rewrite H. apply eqm_of_eq; zring.
Qed.
Print Assumptions C88_same_nonce.

Theorem C88_in_the_clear : forall E, ExtLaws E -> forall (m : point E) a r,
  enc_encryption (elgamal_encrypt (elgamal_public_of_secret a) m r) = m <-> a == 0 \/ r == 0.
Proof.
  intros E L m a r. cbn [enc_encryption elgamal_encrypt]. unfold elgamal_public_of_secret. dlogs L. to_base L.
  rewrite (smul_base_iff L). split.
  - intros H. apply eqm_sub_0 in H. rewrite or_comm. apply eqm_mul_0. etransitivity; [|exact H]. apply eqm_of_eq; zring.
  - intros [H|H]; rewrite H; apply eqm_of_eq; zring.
Qed.
Print Assumptions C88_in_the_clear.

(** Whoever has other encryptions decrypted has this one decrypted. *)
Theorem C88_altered_refuted : forall E, ExtLaws E -> exists alter : Encryption E -> Encryption E, forall c,
  alter c <> c /\ forall s, elgamal_decrypt s (alter c) = padd (elgamal_decrypt s c) basepoint.
Proof.
  intros E L. exists (fun c => {| enc_commitment := enc_commitment c; enc_encryption := padd (enc_encryption c) basepoint |}).
  intros [A B]. unfold elgamal_decrypt. cbn [enc_commitment enc_encryption]. split.
  - intros H. injection H as H. apply (basepoint_nonzero E L).
    destruct (basepoint_generates E L B) as [x Hx]. subst B. rewrite <- (smul_1 basepoint) in H at 2.
    to_base_in L H. apply (smul_base_iff L) in H. rewrite <- (smul_1 basepoint). apply (smul_zero_iff L); [apply (basepoint_nonzero E L)|].
    apply eqm_sub_0 in H. etransitivity; [|exact H]. apply eqm_of_eq; zring.
  - intros s. generalize (@basepoint E) as P. intros P. pring L.
Qed.
Print Assumptions C88_altered_refuted.

(** An eavesdropper that hears at one key and nonce and not at another, and a
    comparison that holds at some and not at others. *)
Definition attentive : eavesdropper toy :=
  fun k => Chooses pzero basepoint (fun c => Says (peqb (enc_encryption c) (enc_commitment c))).
Example C88_met :
  (exists w0 w1 t0 t1 f0 f1,
    exactly w0 (hears false attentive 1) /\ exactly w1 (hears true attentive 1) /\
    exactly t0 (says_on_secret false attentive 1) /\ exactly t1 (says_on_secret true attentive 1) /\
    exactly f0 (says_on_random false attentive 1) /\ exactly f1 (says_on_random true attentive 1)) /\
  overhears false attentive 1 [5] = true /\ overhears false attentive 2 [5] = false /\
  overhears true attentive 1 [5] = false /\
  tells_apart false attentive (pt 3) (pt 5) (pt 15) [(2, 7)] = overhears false attentive 3 [17] /\
  comparisons hopeful = 1%nat /\
  concludes (E := toy) (pt 3) false hopeful [basepoint; pt 3] [0] = true /\
  concludes (E := toy) (pt 3) true hopeful [basepoint; pt 3] [0] = false /\
  reports {| eg_secret := 3; eg_public := pt 3 |} true
    (Picks 14155550100 14155550101 (fun c => Reports (peqb (enc_encryption c) (pt (14155550101 + 9))))) [3] = true /\
  enc_commitment (elgamal_encrypt (pt 3) (pt 8) 4) = enc_commitment (elgamal_encrypt (pt 3) (pt 9) 4).
Proof.
  split.
  - destruct (C88_counts toy attentive false 1) as ((w0 & W0) & (t0 & T0) & (f0 & F0)).
    destruct (C88_counts toy attentive true 1) as ((w1 & W1) & (t1 & T1) & (f1 & F1)).
    exists w0, w1, t0, t1, f0, f1. auto 10.
  - split; [vm_compute; reflexivity|]. split; [vm_compute; reflexivity|]. split; [vm_compute; reflexivity|].
    split; [vm_compute; reflexivity|]. split; [reflexivity|]. split; [vm_compute; reflexivity|].
    split; [vm_compute; reflexivity|]. split; [vm_compute; reflexivity|]. reflexivity.
Qed.
