(** A concrete [Ext]: the integers modulo [ell] as the group, with simple
    computable functions for the hash-like externals.  It shows that [ExtLaws]
    can be met and runs the model on concrete values. *)
From Verif Require Export BaseFacts Algebra.
From Coq Require Import Eqdep_dec.

Definition in_range (z : Z) : bool := (0 <=? z) && (z <? ell).

Record toy_point : Type := { tv : Z; tv_ok : in_range tv = true }.

Lemma mod_in_range z : in_range (z mod ell) = true.
Proof.
  unfold in_range. pose proof (mod_range z) as H.
  apply andb_true_iff; split; [apply Z.leb_le|apply Z.ltb_lt]; lia.
Qed.
Definition tp (z : Z) : toy_point := {| tv := z mod ell; tv_ok := mod_in_range z |}.

Lemma toy_eq (a b : toy_point) : tv a = tv b -> a = b.
Proof.
  destruct a as [a Ha], b as [b Hb]; cbn. intros <-. f_equal.
  apply UIP_dec. apply bool_dec.
Qed.
Lemma tv_range a : 0 <= tv a < ell.
Proof.
  destruct a as [a Ha]; cbn. unfold in_range in Ha.
  apply andb_true_iff in Ha as [H1 H2]. apply Z.leb_le in H1. apply Z.ltb_lt in H2. lia.
Qed.

(** Addition and negation without a division. *)
Definition add_ell (a b : Z) : Z := let s := a + b in if ell <=? s then s - ell else s.
Definition neg_ell (a : Z) : Z := if a =? 0 then 0 else ell - a.
Lemma add_ell_spec a b : 0 <= a < ell -> 0 <= b < ell -> add_ell a b = (a + b) mod ell.
Proof.
  intros Ha Hb. unfold add_ell. cbv zeta. destruct (Z.leb_spec ell (a + b)).
  - apply Z.mod_unique_pos with (q := 1); lia.
  - symmetry; apply Z.mod_small; lia.
Qed.
Lemma neg_ell_spec a : 0 <= a < ell -> neg_ell a = (- a) mod ell.
Proof.
  intros Ha. unfold neg_ell. destruct (Z.eqb_spec a 0) as [->|].
  - symmetry; apply Z.mod_0_l; lia.
  - apply Z.mod_unique_pos with (q := -1); lia.
Qed.
Lemma add_ell_ok a b : in_range (add_ell (tv a) (tv b)) = true.
Proof. rewrite add_ell_spec by apply tv_range. apply mod_in_range. Qed.
Lemma neg_ell_ok a : in_range (neg_ell (tv a)) = true.
Proof. rewrite neg_ell_spec by apply tv_range. apply mod_in_range. Qed.
Definition toy_add (a b : toy_point) : toy_point :=
  {| tv := add_ell (tv a) (tv b); tv_ok := add_ell_ok a b |}.
Definition toy_neg (a : toy_point) : toy_point :=
  {| tv := neg_ell (tv a); tv_ok := neg_ell_ok a |}.

(** A 16-bit hash of byte strings and labelled messages.  It is weak and cheap:
    the examples are evaluated again by coqchk, which has no virtual machine. *)
Fixpoint hash_bytes (acc : Z) (l : bytes) : Z :=
  match l with
  | [] => acc
  | b :: l' => hash_bytes (Z.land (31 * acc + 1 + bz b) 65535) l'
  end.
Fixpoint hash_items (acc : Z) (l : list (string * bytes)) : Z :=
  match l with
  | [] => acc
  | (label, data) :: l' =>
    hash_items (hash_bytes (hash_bytes (hash_bytes acc [zb (Z.of_nat (String.length label))]) (str label)) data) l'
  end.
Definition hash_transcript (t : transcript) : Z :=
  hash_items (hash_bytes 1 (str (fst t))) (snd t).
(** A stream of bytes determined by a number, in which one byte of every 64 is
    not zero. *)
Definition toy_stream (h : Z) : rng := fun i =>
  let z := Z.of_nat i in
  if Z.land z 63 =? 0 then zb (Z.land (h + 29 * z / 64) 127 + 3) else x00.

Definition toy_decompress (b : bytes) : option toy_point :=
  if (List.length b =? 32)%nat && (le_decode b <? ell) then Some (tp (le_decode b)) else None.

Definition toy : Ext := {|
  point := toy_point;
  pzero := tp 0;
  padd := toy_add;
  pneg := toy_neg;
  peqb a b := tv a =? tv b;
  basepoint := tp 1;
  compress a := le_encode 32 (tv a);
  decompress := toy_decompress;
  tr_challenge t label n := le_encode n (hash_bytes (hash_transcript t) (str label));
  tr_rng t witness b :=
    toy_stream (hash_bytes (hash_items (hash_transcript t) witness) b);
  chacha seed := toy_stream (hash_bytes 1 seed);
  sha512 b := le_encode 64 (hash_bytes 1 b);
  debug_build := false;
  usize_bits := 64;
|}.

(** The point [z] times the basepoint. *)
Definition pt (z : Z) : point toy := tp z.

(** For the examples: run a function and test its result, which [vm_compute]
    does without copying the result. *)
Definition is_ok {X A} (o : outcome X A) : bool := match o with Ok _ => true | _ => false end.
Definition is_err {X A} (o : outcome X A) : bool := match o with Err _ => true | _ => false end.
Definition is_panic {X A} (o : outcome X A) : bool := match o with Panic => true | _ => false end.
Lemma run1 {X A} (o : outcome X A) (test : A -> bool) :
  match o with Ok a => test a | _ => false end = true -> exists a, o = Ok a /\ test a = true.
Proof. destruct o; intros H; try discriminate. eauto. Qed.
Lemma run3 {X A B C} (o : outcome X (A * B * C)) (test : A -> bool) :
  match o with Ok (a, _, _) => test a | _ => false end = true ->
  exists a b c, o = Ok (a, b, c) /\ test a = true.
Proof. destruct o as [[[a b] c]| |]; intros H; try discriminate. eauto. Qed.

Section toy_laws.
  Local Notation tpt := (point toy).

  Lemma toy_tv_tp z : tv (tp z) = z mod ell.
  Proof. reflexivity. Qed.
  Lemma toy_add_tv (a b : tpt) : tv (padd a b) = (tv a + tv b) mod ell.
  Proof. apply add_ell_spec; apply tv_range. Qed.
  Lemma toy_neg_tv (a : tpt) : tv (pneg a) = (- tv a) mod ell.
  Proof. apply neg_ell_spec; apply tv_range. Qed.

  Lemma toy_pmul_pos p (a : tpt) : tv (pmul_pos p a) = (Zpos p * tv a) mod ell.
  Proof.
    revert a; induction p as [p IH|p IH|]; intros a; cbn [pmul_pos].
    - rewrite toy_add_tv, IH, toy_add_tv.
      rewrite Z.mul_mod_idemp_r by (pose proof ell_pos; lia).
      rewrite Z.add_mod_idemp_r by (pose proof ell_pos; lia).
      f_equal. lia.
    - rewrite IH, toy_add_tv.
      rewrite Z.mul_mod_idemp_r by (pose proof ell_pos; lia).
      f_equal. lia.
    - rewrite Z.mul_1_l. symmetry; apply Z.mod_small, tv_range.
  Qed.
  Lemma toy_smul k (a : tpt) : tv (smul k a) = (k * tv a) mod ell.
  Proof.
    destruct k as [|p|p]; cbn [smul].
    - reflexivity.
    - apply toy_pmul_pos.
    - change (tv (pneg (pmul_pos p a)) = (Zneg p * tv a) mod ell).
      transitivity ((- tv (pmul_pos p a)) mod ell); [apply toy_neg_tv|].
      rewrite toy_pmul_pos.
      change (- ((Zpos p * tv a) mod ell) == Zneg p * tv a).
      rewrite eqm_mod. apply eqm_of_eq. lia.
  Qed.

  Lemma toy_laws : ExtLaws toy.
  Proof.
    constructor.
    - intros a b c. apply toy_eq. rewrite !toy_add_tv.
      rewrite Z.add_mod_idemp_l, Z.add_mod_idemp_r by (pose proof ell_pos; lia). f_equal; lia.
    - intros a b. apply toy_eq. rewrite !toy_add_tv. f_equal; lia.
    - intros a. apply toy_eq. rewrite toy_add_tv. change (tv (@pzero toy)) with (0 mod ell).
      rewrite Z.mod_0_l by (pose proof ell_pos; lia).
      rewrite Z.add_0_l. apply Z.mod_small, tv_range.
    - intros a. apply toy_eq. rewrite toy_add_tv.
      rewrite toy_neg_tv.
      rewrite Z.add_mod_idemp_r by (pose proof ell_pos; lia). rewrite Z.add_opp_diag_r. reflexivity.
    - intros a. apply toy_eq. rewrite toy_smul. rewrite Z.mul_comm, Z_mod_mult.
      symmetry; apply Z.mod_0_l. pose proof ell_pos; lia.
    - intros H. assert (H1 : 1 mod ell = 0 mod ell) by (apply (f_equal tv) in H; exact H).
      rewrite Z.mod_0_l, Z.mod_small in H1 by (pose proof ell_gt_1; lia). discriminate.
    - intros a. exists (tv a). apply toy_eq. rewrite toy_smul.
      change (tv (@basepoint toy)) with (1 mod ell).
      rewrite (Z.mod_small 1) by (pose proof ell_gt_1; lia). rewrite Z.mul_1_r.
      symmetry; apply Z.mod_small, tv_range.
    - intros a b. change (tv a =? tv b = true <-> a = b). rewrite Z.eqb_eq.
      split; [apply toy_eq|intros ->; reflexivity].
    - intros a. apply le_encode_length.
    - intros a. change (toy_decompress (le_encode 32 (tv a)) = Some a). unfold toy_decompress.
      rewrite le_encode_length, Nat.eqb_refl.
      pose proof (tv_range a) as Ha. pose proof ell_lt_256 as Hl.
      rewrite le_decode_encode_small by (change (256 ^ Z.of_nat 32) with (256 ^ 32); lia).
      destruct (Z.ltb_spec (tv a) ell); [|lia]. cbn [andb]. apply (f_equal Some). apply toy_eq.
      rewrite toy_tv_tp. apply Z.mod_small; lia.
    - intros b a. change (toy_decompress b = Some a -> le_encode 32 (tv a) = b). unfold toy_decompress.
      destruct (Nat.eqb_spec (List.length b) 32) as [Hl|]; [|discriminate].
      destruct (Z.ltb_spec (le_decode b) ell) as [Hb|]; [|discriminate].
      intros [= <-]. rewrite toy_tv_tp, Z.mod_small by (pose proof (le_decode_range b); lia).
      rewrite <- Hl. apply le_encode_decode.
    - change (le_encode 32 (0 mod ell) = zeros 32).
      rewrite Z.mod_0_l by (pose proof ell_pos; lia). apply le_encode_zero.
    - right; reflexivity.
  Qed.
End toy_laws.
