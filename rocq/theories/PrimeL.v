(** The order of the Ristretto group is prime (Pocklington certificates). *)
From Coq Require Import ZArith Znumtheory Zpow_facts Lia List Bool.
From Verif Require Import Scalar Fermat.
Import ListNotations.
Local Open Scope Z_scope.

(** ** Modular exponentiation *)
Fixpoint powmod_pos (m : Z) (e : positive) (a : Z) : Z :=
  match e with
  | xH => a mod m
  | xO e' => let s := powmod_pos m e' a in (s * s) mod m
  | xI e' => let s := powmod_pos m e' a in ((s * s) mod m * a) mod m
  end.
Definition powmod (m e a : Z) : Z :=
  match e with Zpos p => powmod_pos m p a | _ => 1 mod m end.

Lemma powmod_pos_spec m e a : 0 < m -> powmod_pos m e a = (a ^ Zpos e) mod m.
Proof.
  intros Hm; induction e as [e IH|e IH|]; cbn [powmod_pos].
  - rewrite IH. rewrite Pos2Z.inj_xI.
    replace (2 * Zpos e + 1) with (Zpos e + Zpos e + 1) by lia.
    rewrite !Z.pow_add_r by lia. rewrite Z.pow_1_r.
    rewrite Z.mul_mod_idemp_l by lia.
    rewrite <- Z.mul_mod_idemp_l by lia.
    rewrite <- (Z.mul_mod (a ^ Zpos e)) by lia.
    rewrite Z.mul_mod_idemp_l by lia. reflexivity.
  - rewrite IH. rewrite Pos2Z.inj_xO.
    replace (2 * Zpos e) with (Zpos e + Zpos e) by lia.
    rewrite Z.pow_add_r by lia. rewrite <- Z.mul_mod by lia. reflexivity.
  - rewrite Z.pow_1_r; reflexivity.
Qed.

Lemma powmod_spec m e a : 0 < m -> 0 <= e -> powmod m e a = (a ^ e) mod m.
Proof.
  intros Hm He; destruct e as [|e|e]; cbn [powmod]; try lia.
  - reflexivity.
  - apply powmod_pos_spec; assumption.
Qed.

(** ** Trial division *)
Fixpoint no_divisor (fuel : nat) (d n : Z) : bool :=
  match fuel with
  | O => n <? d * d
  | S f => if n <? d * d then true
           else if n mod d =? 0 then false else no_divisor f (d + 1) n
  end.
Lemma no_divisor_spec fuel d n : 2 <= d -> no_divisor fuel d n = true ->
  forall e, d <= e -> e * e <= n -> ~ (e | n).
Proof.
  revert d; induction fuel as [|f IH]; intros d Hd H e He Hee Hdiv; cbn [no_divisor] in H.
  - apply Z.ltb_lt in H. nia.
  - destruct (n <? d * d) eqn:E1; [apply Z.ltb_lt in E1; nia|].
    destruct (n mod d =? 0) eqn:E2; [discriminate|].
    apply Z.eqb_neq in E2.
    destruct (Z.eq_dec e d) as [->|Hne].
    + apply E2. apply Z.mod_divide; [lia|assumption].
    + apply (IH (d + 1)) with (e := e); try assumption; lia.
Qed.

(** A number > 1 with no divisor in [2, sqrt n] is prime. *)
Lemma prime_sqrt n : 1 < n -> (forall e, 2 <= e -> e * e <= n -> ~ (e | n)) -> prime n.
Proof.
  intros Hn H. apply prime_alt. split; [assumption|].
  intros m Hm Hdiv.
  destruct (Z.le_gt_cases (m * m) n) as [Hle|Hgt]; [apply (H m); [lia|lia|assumption]|].
  destruct Hdiv as [k Hk].
  apply (H k); [nia|nia|exists m; lia].
Qed.

Lemma trial_prime n fuel : (1 <? n) && no_divisor fuel 2 n = true -> prime n.
Proof.
  intros H; apply andb_prop in H as [H1 H2]. apply Z.ltb_lt in H1.
  apply prime_sqrt; [assumption|]. intros e He; apply (no_divisor_spec fuel 2); [lia|assumption|lia].
Qed.

(** ** Pocklington *)

Lemma prime_divisor n : 1 < n -> exists p, prime p /\ (p | n).
Proof.
  intros Hn. assert (H0 : 0 <= n) by lia. revert Hn. pattern n.
  apply Zlt_0_ind; [|assumption]. clear n H0. intros n IH Hpos Hn.
  destruct (prime_dec n) as [Hp|Hnp].
  - exists n; split; [assumption|apply Z.divide_refl].
  - destruct (not_prime_divide n Hn Hnp) as [m [[Hm1 Hm2] Hdiv]].
    destruct (IH m) as [p [Hp Hpm]]; try lia.
    exists p; split; [assumption|]. eapply Z.divide_trans; eauto.
Qed.

(** Bezout coefficients normalised to non-negative exponents. *)
Lemma bezout_nonneg u v q p : 0 < q -> 0 < p -> u * q + v * p = 1 ->
  exists U V, 0 <= U /\ 0 <= V /\ U * q = 1 + V * p.
Proof.
  intros Hq Hp H. set (k := Z.abs u + Z.abs v).
  assert (Hk1 : - u <= k) by lia. assert (Hk2 : v <= k) by lia. assert (Hk : 0 <= k) by lia.
  clearbody k.
  assert (H1 : k <= k * p) by nia. assert (H2 : k <= k * q) by nia.
  exists (u + k * p), (k * q - v). repeat split; lia.
Qed.

(** The check for one prime factor [q] of [n - 1]. *)
Definition pock (n q a : Z) : bool :=
  ((n - 1) mod q =? 0)
  && (powmod n (n - 1) a =? 1)
  && (Z.gcd (powmod n ((n - 1) / q) a - 1) n =? 1).

Lemma pock_spec n q a p : 1 < n -> 0 <= a -> prime q -> pock n q a = true ->
  prime p -> (p | n) -> (q | p - 1).
Proof.
  intros Hn Ha Hq Hk Hp Hpn.
  unfold pock in Hk. apply andb_prop in Hk as [Hk H3]; apply andb_prop in Hk as [H1 H2].
  apply Z.eqb_eq in H1, H2, H3.
  assert (Hq1 : 1 < q) by (destruct Hq; assumption).
  assert (Hp1 : 1 < p) by (destruct Hp; assumption).
  pose proof (Z.div_exact (n - 1) q ltac:(lia)) as Hde.
  destruct Hde as [_ Hde]. specialize (Hde H1).
  set (r := (n - 1) / q) in *.
  assert (Hr : 0 < r) by nia.
  rewrite powmod_spec in H2, H3 by lia.
  set (b := a ^ r) in *.
  assert (Hb0 : 0 <= b) by (apply Z.pow_nonneg; assumption).
  (* b^q = 1 mod n *)
  assert (Hbq : (b ^ q) mod p = 1).
  { assert (Hd : (n | b ^ q - 1)).
    { apply Z.mod_divide; [lia|]. unfold b. rewrite <- Z.pow_mul_r by lia.
      replace (r * q) with (n - 1) by lia. rewrite Zminus_mod, H2.
      rewrite (Z.mod_small 1 n) by lia. rewrite Z.sub_diag. apply Z.mod_0_l; lia. }
    assert (Hd2 : (p | b ^ q - 1)) by (eapply Z.divide_trans; eauto).
    destruct Hd2 as [k Hkk]. replace (b ^ q) with (1 + k * p) by lia.
    rewrite Z_mod_plus_full. apply Z.mod_small; lia. }
  assert (Hbp : b mod p <> 0).
  { intros E. apply Z.mod_divide in E; [|lia].
    assert (Hd : (p | b ^ q)).
    { replace q with (1 + (q - 1)) by lia. rewrite Z.pow_add_r by lia. rewrite Z.pow_1_r.
      apply Z.divide_mul_l; assumption. }
    apply Z.mod_divide in Hd; [|lia]. lia. }
  destruct (Zdivide_dec q (p - 1)) as [Hd|Hnd]; [assumption|exfalso].
  (* otherwise q is invertible modulo p - 1 *)
  assert (Hrel : rel_prime q (p - 1)) by (apply prime_rel_prime; assumption).
  destruct (rel_prime_bezout _ _ Hrel) as [u v Huv].
  destruct (bezout_nonneg u v q (p - 1)) as [U [V [Hu [Hv Heq]]]]; try lia.
  assert (Hone : forall x e, 0 <= e -> x mod p = 1 -> (x ^ e) mod p = 1).
  { intros x e He Hx. rewrite Zpower_mod by lia. rewrite Hx. rewrite Z.pow_1_l by lia.
    apply Z.mod_small; lia. }
  assert (E1 : (b ^ (U * q)) mod p = 1).
  { rewrite (Z.mul_comm U). rewrite Z.pow_mul_r by lia.
    apply Hone; assumption. }
  assert (E2 : (b ^ (1 + V * (p - 1))) mod p = b mod p).
  { rewrite Z.pow_add_r by (try apply Z.mul_nonneg_nonneg; lia). rewrite Z.pow_1_r.
    rewrite (Z.mul_comm V). rewrite Z.pow_mul_r by lia.
    rewrite Z.mul_mod by lia. rewrite Hone; [|assumption|].
    - rewrite Z.mul_1_r, Z.mod_mod by lia. reflexivity.
    - apply fermat_Z1; assumption. }
  rewrite Heq, E2 in E1.
  (* so p divides b - 1 and n *)
  assert (Hpb : (p | b mod n - 1)).
  { assert (Hpb1 : (p | b - 1)).
    { apply Z.mod_divide; [lia|]. rewrite Zminus_mod, E1, (Z.mod_small 1 p) by lia.
      rewrite Z.sub_diag. apply Z.mod_0_l; lia. }
    rewrite Z.mod_eq by lia.
    replace (b - n * (b / n) - 1) with ((b - 1) - n * (b / n)) by lia.
    apply Z.divide_sub_r; [assumption|]. apply Z.divide_mul_l; assumption. }
  assert (Hpg : (p | Z.gcd (b mod n - 1) n)) by (apply Z.gcd_greatest; assumption).
  rewrite H3 in Hpg. apply Z.divide_1_r_nonneg in Hpg; lia.
Qed.

Lemma divide_gt q p : 1 < p -> (q | p - 1) -> q < p.
Proof. intros Hp Hd. apply Z.divide_pos_le in Hd; lia. Qed.

Lemma pock_prime n f : 1 < n -> n < f * f -> 0 < f ->
  (forall p, prime p -> (p | n) -> (f | p - 1)) -> prime n.
Proof.
  intros Hn Hf Hf0 H. apply prime_sqrt; [assumption|].
  intros e He Hee Hdiv.
  destruct (prime_divisor e ltac:(lia)) as [p [Hp Hpe]].
  assert (Hp1 : 1 < p) by (destruct Hp; assumption).
  assert (Hle : p <= e) by (apply Z.divide_pos_le; [lia|assumption]).
  specialize (H p Hp (Z.divide_trans _ _ _ Hpe Hdiv)).
  apply divide_gt in H; [|assumption]. nia.
Qed.

Lemma pock_prime1 n q a : prime q ->
  (1 <? n) && (n <? q * q) && (0 <=? a) && pock n q a = true -> prime n.
Proof.
  intros Hq H. apply andb_prop in H as [H H4]; apply andb_prop in H as [H H3];
  apply andb_prop in H as [H1 H2]. apply Z.ltb_lt in H1, H2. apply Z.leb_le in H3.
  apply (pock_prime n q); try assumption.
  - destruct Hq; lia.
  - intros p Hp Hd. eapply pock_spec; eauto.
Qed.

(** ** The certificates *)
Lemma prime_531581 : prime 531581.
Proof. apply (trial_prime _ 1000). vm_compute; reflexivity. Qed.
Lemma prime_1224481 : prime 1224481.
Proof. apply (trial_prime _ 2000). vm_compute; reflexivity. Qed.

Lemma prime_c5 : prime 1257559732178653.
Proof.
  apply (pock_prime _ (531581 * 1224481)); try lia.
  intros p Hp Hd.
  assert (H1 : (531581 | p - 1))
    by (apply (pock_spec 1257559732178653 531581 2); try lia; auto using prime_531581; vm_compute; reflexivity).
  assert (H2 : (1224481 | p - 1))
    by (apply (pock_spec 1257559732178653 1224481 2); try lia; auto using prime_1224481; vm_compute; reflexivity).
  destruct H1 as [k Hk].
  assert (H3 : (1224481 | k)).
  { apply Gauss with (b := 531581).
    - rewrite Z.mul_comm, <- Hk; assumption.
    - apply rel_prime_sym. apply prime_rel_prime; [apply prime_531581|].
      intros [j Hj]; lia. }
  destruct H3 as [j ->]. exists j; lia.
Qed.

Lemma prime_c4 : prime 4434155615661930479.
Proof. apply (pock_prime1 _ 1257559732178653 2 prime_c5). vm_compute; reflexivity. Qed.
Lemma prime_c3 : prime 172054593956031949258510691.
Proof. apply (pock_prime1 _ 4434155615661930479 2 prime_c4). vm_compute; reflexivity. Qed.
Lemma prime_c2 : prime 19757330305831588566944191468367130476339.
Proof. apply (pock_prime1 _ 172054593956031949258510691 2 prime_c3). vm_compute; reflexivity. Qed.
Lemma prime_c1 : prime 276602624281642239937218680557139826668747.
Proof. apply (pock_prime1 _ 19757330305831588566944191468367130476339 2 prime_c2). vm_compute; reflexivity. Qed.

Lemma prime_ell : prime ell.
Proof. apply (pock_prime1 _ 276602624281642239937218680557139826668747 2 prime_c1). vm_compute; reflexivity. Qed.
