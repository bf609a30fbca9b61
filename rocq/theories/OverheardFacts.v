(** Facts about the game in which the adversary overhears honest users. *)
From Verif Require Export OverheardFormal.
From Coq Require Import Setoid.
Local Open Scope Z_scope.

(** ** What the honest users hashed *)
Fixpoint honest (j : nat) (l : list (Z * Z * vc_Proof * ce_Proof)) : list (list pexp * Z) :=
  match l with
  | [] => []
  | (n, r, pf, pf') :: l' =>
    (p_show (PV j) (e_Q j n) (e_C j n) pf, vc_challenge pf) :: (p_member (PV j) (e_C j n) n r pf', ce_challenge pf') :: honest (3 + j) l'
  end.
Lemma honest_app j l l' : honest j (l ++ l') = honest j l ++ honest (j + 3 * List.length l) l'.
Proof.
  revert j; induction l as [|[[[n r] pf] pf'] l IH]; intros j; cbn [app honest List.length].
  - f_equal; lia.
  - rewrite IH. do 3 f_equal. f_equal. lia.
Qed.
Lemma honest_in j l e : In e (honest j l) -> exists i n r pf pf', nth_error l i = Some (n, r, pf, pf') /\
  (e = (p_show (PV (j + 3 * i)) (e_Q (j + 3 * i) n) (e_C (j + 3 * i) n) pf, vc_challenge pf) \/
   e = (p_member (PV (j + 3 * i)) (e_C (j + 3 * i) n) n r pf', ce_challenge pf')).
Proof.
  revert j; induction l as [|[[[n r] pf] pf'] l IH]; intros j H; [destruct H|]. cbn [honest] in H. destruct H as [H|[H|H]].
  - exists 0%nat, n, r, pf, pf'. rewrite Nat.mul_0_r, Nat.add_0_r. auto.
  - exists 0%nat, n, r, pf, pf'. rewrite Nat.mul_0_r, Nat.add_0_r. auto.
  - destruct (IH _ H) as (i & n' & r' & p & p' & Hi & He). exists (S i), n', r', p, p'. split; [exact Hi|].
    replace (j + 3 * S i)%nat with (3 + j + 3 * i)%nat by lia. exact He.
Qed.

Lemma forall2_cons {A B} (Q : A -> B -> Prop) a l b m : Forall2 Q (a :: l) (b :: m) -> Q a b /\ Forall2 Q l m.
Proof. intros H. inversion H; subst. auto. Qed.

Lemma forall2_length {A B} (Q : A -> B -> Prop) l m : Forall2 Q l m -> List.length l = List.length m.
Proof. induction 1; cbn; congruence. Qed.

Section seen.
  Context {E : Ext}.
  Definition sighting_at (v : list Z) (P Q C : pexp) (pf : vc_Proof) (n r : Z) (pf' : ce_Proof) : sighting E :=
    {| sg_nonce := pt_at v P; sg_mac := pt_at v Q; sg_blinded := pt_at v C; sg_proof := pf;
       sg_number := n; sg_opening := r; sg_membership := pf' |}.
  Fixpoint seen_at (v : list Z) (j : nat) (l : list (Z * Z * vc_Proof * ce_Proof)) : list (sighting E) :=
    match l with
    | [] => []
    | (n, r, pf, pf') :: l' => sighting_at v (PV j) (e_Q j n) (e_C j n) pf n r pf' :: seen_at v (3 + j) l'
    end.
  Lemma seen_at_app v j l l' : seen_at v j (l ++ l') = seen_at v j l ++ seen_at v (j + 3 * List.length l) l'.
  Proof.
    revert j; induction l as [|[[[n r] pf] pf'] l IH]; intros j; cbn [app seen_at List.length].
    - f_equal; lia.
    - rewrite IH. do 2 f_equal. f_equal. lia.
  Qed.
  Lemma seen_in v j l i n r pf pf' : nth_error l i = Some (n, r, pf, pf') ->
    In (sighting_at v (PV (j + 3 * i)) (e_Q (j + 3 * i) n) (e_C (j + 3 * i) n) pf n r pf') (seen_at v j l).
  Proof.
    revert j l; induction i as [|i IH]; intros j [|[[[n' r'] p] p'] l] H; try discriminate; cbn [nth_error] in H; cbn [seen_at].
    - injection H as -> -> -> ->. left. rewrite Nat.mul_0_r, Nat.add_0_r. reflexivity.
    - right. replace (j + 3 * S i)%nat with (3 + j + 3 * i)%nat by lia. apply IH. exact H.
  Qed.
End seen.

Section no_pass.
  Context {E : Ext} (L : ExtLaws E).
  Context (R : list Z) (R_nodup : NoDup R) (R_all : forall x, In x R <-> 0 <= x < ell)
          (R_length : Z.of_nat (List.length R) = ell) (N K : nat).
  Let j0 := (3 + 2 * N)%nat.
  Let n := (3 + 2 * N + 3 * K)%nat.

  (** Places at which to look. *)
  Definition vec (f : nat -> Z) : list Z := map f (seq 0 n).
  Lemma vec_in f : (forall i, f i = 0 \/ f i = 1) -> In (vec f) (tuples R n).
  Proof.
    intros H. pose proof two_lt_ell as H2. apply (in_tuples R R_all). unfold vec. rewrite map_length, seq_length. split; [reflexivity|].
    apply Forall_map, Forall_forall. intros i _. destruct (H i) as [->| ->]; lia.
  Qed.
  Lemma nth_vec f i : (i < n)%nat -> nth i (vec f) 0 = f i.
  Proof.
    intros H. unfold vec. rewrite (nth_indep _ 0 (f 0%nat)) by (rewrite map_length, seq_length; exact H).
    rewrite map_nth, seq_nth by exact H. reflexivity.
  Qed.
  Definition ind (l : list nat) (i : nat) : Z := if existsb (Nat.eqb i) l then 1 else 0.
  Lemma ind_01 l i : ind l i = 0 \/ ind l i = 1.
  Proof. unfold ind. destruct (existsb (Nat.eqb i) l); auto. Qed.
  Lemma ind_in l : In (vec (ind l)) (tuples R n).
  Proof. apply vec_in. apply ind_01. Qed.
  Lemma one_not_zero : ~ 1 == 0.
  Proof. pose proof two_lt_ell as H2. intros H. apply eqm_canonical in H; lia. Qed.

  Lemma same_P u u' v : always_same R n u u' = true -> In v (tuples R n) -> Forall2 Algebra.eqm (vals v u) (vals v u').
  Proof. intros H Hv. unfold always_same in H. rewrite forallb_forall in H. apply same_vals. apply H. exact Hv. Qed.

  (** A presentation with the points of an honest one. *)
  Lemma same_as_shown k number P Q C pf0 pf :
    always_same R n (p_show (PV k) (e_Q k number) (e_C k number) pf0) (p_show P Q C pf) = true ->
    forall v, In v (tuples R n) ->
      ev P v == nth k v 0 /\ ev C v == ev (e_C k number) v /\ ev Q v == ev (e_Q k number) v /\
      vcs_m0 (vc_responses pf0) * nth k v 0 + vcs_z0 (vc_responses pf0) * nth 0 v 0 - vc_challenge pf0 * ev (e_C k number) v ==
        vcs_m0 (vc_responses pf) * nth k v 0 + vcs_z0 (vc_responses pf) * nth 0 v 0 - vc_challenge pf * ev (e_C k number) v /\
      vcs_z0 (vc_responses pf0) * (nth 2 v 0 * nth 0 v 0) + vcs_minus_zQ (vc_responses pf0) * nth 0 v 0 -
        vc_challenge pf0 * ev (p_V (PV k) (e_Q k number) (e_C k number)) v ==
        vcs_z0 (vc_responses pf) * (nth 2 v 0 * nth 0 v 0) + vcs_minus_zQ (vc_responses pf) * nth 0 v 0 -
        vc_challenge pf * ev (p_V (PV k) (e_Q k number) (e_C k number)) v.
  Proof.
    intros H v Hv. pose proof (same_P _ _ v H Hv) as F. unfold vals, p_show in F.
    remember (e_C k number) as c0. remember (e_Q k number) as q0. cbn [map] in F.
    apply forall2_cons in F as [_ F]. apply forall2_cons in F as [_ F]. apply forall2_cons in F as [_ F].
    apply forall2_cons in F as [FP F]. apply forall2_cons in F as [FV F]. apply forall2_cons in F as [FC F].
    apply forall2_cons in F as [F1 F]. apply forall2_cons in F as [F2 _].
    assert (GP : ev P v == nth k v 0) by (symmetry; exact FP).
    assert (GC : ev C v == ev c0 v) by (symmetry; exact FC).
    assert (GQ : ev Q v == ev q0 v).
    { unfold p_V in FV. cbn [ev] in FV. rewrite GP, GC in FV. apply eqm_sub_0. apply eqm_sub_0 in FV. rewrite <- FV. apply eqm_of_eq; ring. }
    split; [exact GP|]. split; [exact GC|]. split; [exact GQ|]. split.
    - unfold p_reply in F1. cbn [ev p_h] in F1. rewrite GP, GC in F1.
      match type of F1 with ?a == ?b => transitivity a; [apply eqm_of_eq; zring|]; transitivity b; [exact F1|apply eqm_of_eq; zring] end.
    - unfold p_reply in F2. cbn [ev p_h p_X1] in F2. rewrite <- FV in F2.
      match type of F2 with ?a == ?b => transitivity a; [apply eqm_of_eq; zring|]; transitivity b; [exact F2|apply eqm_of_eq; zring] end.
  Qed.
  Lemma same_as_member k number r P C n' r' pf0 pf :
    always_same R n (p_member (PV k) (e_C k number) number r pf0) (p_member P C n' r' pf) = true ->
    forall v, In v (tuples R n) ->
      ev P v == nth k v 0 /\ ev C v == ev (e_C k number) v /\ number * nth 0 v 0 + r == n' * nth 0 v 0 + r' /\
      ces_m0 (ce_responses pf0) * nth k v 0 + ces_z0 (ce_responses pf0) * nth 0 v 0 - ce_challenge pf0 * ev (e_C k number) v ==
        ces_m0 (ce_responses pf) * nth k v 0 + ces_z0 (ce_responses pf) * nth 0 v 0 - ce_challenge pf * ev (e_C k number) v /\
      ces_m0 (ce_responses pf0) * nth 0 v 0 + ces_z1 (ce_responses pf0) - ce_challenge pf0 * (number * nth 0 v 0 + r) ==
        ces_m0 (ce_responses pf) * nth 0 v 0 + ces_z1 (ce_responses pf) - ce_challenge pf * (number * nth 0 v 0 + r).
  Proof.
    intros H v Hv. pose proof (same_P _ _ v H Hv) as F. unfold vals, p_member in F.
    remember (e_C k number) as c0. cbn [map] in F.
    apply forall2_cons in F as [_ F]. apply forall2_cons in F as [_ F].
    apply forall2_cons in F as [FP F]. apply forall2_cons in F as [FC F]. apply forall2_cons in F as [FE F].
    apply forall2_cons in F as [F1 F]. apply forall2_cons in F as [F2 _].
    assert (GP : ev P v == nth k v 0) by (symmetry; exact FP).
    assert (GC : ev C v == ev c0 v) by (symmetry; exact FC).
    assert (GE : number * nth 0 v 0 + r == n' * nth 0 v 0 + r') by exact FE.
    split; [exact GP|]. split; [exact GC|]. split; [exact GE|]. split.
    - unfold p_reply in F1. cbn [ev p_h] in F1. rewrite GP, GC in F1.
      match type of F1 with ?a == ?b => transitivity a; [apply eqm_of_eq; zring|]; transitivity b; [exact F1|apply eqm_of_eq; zring] end.
    - unfold p_reply, p_entry in F2. cbn [ev p_h] in F2. rewrite <- GE in F2.
      match type of F2 with ?a == ?b => transitivity a; [apply eqm_of_eq; zring|]; transitivity b; [exact F2|apply eqm_of_eq; zring] end.
  Qed.

  (** The number in an honest presentation is hidden, so that no other proof fits it. *)
  Lemma hidden k number P C m z : (3 <= k)%nat -> (2 + k < n)%nat ->
    (forall v, In v (tuples R n) -> ev P v == nth k v 0) -> (forall v, In v (tuples R n) -> ev C v == ev (e_C k number) v) ->
    (forall v, In v (tuples R n) -> ev C v == m * ev P v + z * nth 0 v 0) -> False.
  Proof.
    intros Hk Hn HP HC H.
    assert (G : forall l, number * ind l k + ind l (1 + k) * ind l 0%nat == m * ind l k + z * ind l 0%nat).
    { intros l. pose proof (ind_in l) as Hv. specialize (H _ Hv). rewrite (HP _ Hv), (HC _ Hv) in H. unfold e_C in H. cbn [ev p_h] in H.
      rewrite !nth_vec in H by lia. exact H. }
    pose proof (G [0%nat]) as G0. pose proof (G [0%nat; (1 + k)%nat]) as G1.
    assert (I : forall l i, ind l i = if existsb (Nat.eqb i) l then 1 else 0) by reflexivity.
    rewrite !I in G0, G1. cbn [existsb] in G0, G1. rewrite !Nat.eqb_refl in G0, G1.
    replace (Nat.eqb k 0) with false in * by (symmetry; apply Nat.eqb_neq; lia).
    replace (Nat.eqb k (1 + k)) with false in * by (symmetry; apply Nat.eqb_neq; lia).
    replace (Nat.eqb (1 + k) 0) with false in * by (symmetry; apply Nat.eqb_neq; lia).
    change (Nat.eqb 0 0) with true in *. cbn [orb] in G0, G1. apply one_not_zero. apply eqm_sub_0 in G0, G1.
    match type of G0 with ?a == _ => match type of G1 with ?b == _ => transitivity (b - a) end end; [apply eqm_of_eq; ring|].
    rewrite G0, G1. reflexivity.
  Qed.
  Lemma same_place k k' (P : pexp) : (k < n)%nat -> (k' < n)%nat ->
    (forall v, In v (tuples R n) -> ev P v == nth k v 0) -> (forall v, In v (tuples R n) -> ev P v == nth k' v 0) -> k = k'.
  Proof.
    intros Hk Hk' H H'. destruct (Nat.eq_dec k k') as [|Hne]; [assumption|]. exfalso. apply one_not_zero.
    pose proof (ind_in [k]) as Hv. specialize (H _ Hv). rewrite (H' _ Hv), !nth_vec in H by lia. unfold ind in H. cbn [existsb] in H.
    rewrite Nat.eqb_refl in H. replace (Nat.eqb k' k) with false in H by (symmetry; apply Nat.eqb_neq; lia). cbn [orb] in H. symmetry. exact H.
  Qed.
  (** Two responses that always go together. *)
  Lemma two_coefficients k (a a' b b' : Z) : (0 < k)%nat -> (k < n)%nat ->
    (forall v, In v (tuples R n) -> a * nth k v 0 + b * nth 0 v 0 == a' * nth k v 0 + b' * nth 0 v 0) -> a == a' /\ b == b'.
  Proof.
    intros Hk Hn H. assert (G : forall l, a * ind l k + b * ind l 0%nat == a' * ind l k + b' * ind l 0%nat).
    { intros l. specialize (H _ (ind_in l)). rewrite !nth_vec in H by lia. exact H. }
    pose proof (G [k]) as G0. pose proof (G [0%nat]) as G1.
    assert (I : forall l i, ind l i = if existsb (Nat.eqb i) l then 1 else 0) by reflexivity.
    rewrite !I in G0, G1. cbn [existsb] in G0, G1. rewrite !Nat.eqb_refl in G0, G1.
    replace (Nat.eqb k 0) with false in * by (symmetry; apply Nat.eqb_neq; lia).
    replace (Nat.eqb 0 k) with false in * by (symmetry; apply Nat.eqb_neq; lia).
    cbn [orb] in G0, G1. rewrite !Z.mul_0_r, !Z.mul_1_r, ?Z.add_0_r, ?Z.add_0_l in *. split; assumption.
  Qed.
  Lemma with_constant (a a' b b' : Z) :
    (forall v, In v (tuples R n) -> a * nth 0 v 0 + b == a' * nth 0 v 0 + b') -> a == a' /\ b == b'.
  Proof.
    intros H. assert (G : forall l, a * ind l 0%nat + b == a' * ind l 0%nat + b').
    { intros l. specialize (H _ (ind_in l)). rewrite !nth_vec in H by (unfold n; lia). exact H. }
    pose proof (G []) as G0. pose proof (G [0%nat]) as G1. unfold ind in G0, G1. cbn [existsb Nat.eqb orb] in G0, G1.
    assert (Hb : b == b'). { transitivity (a * 0 + b); [apply eqm_of_eq; ring|]. rewrite G0. apply eqm_of_eq; ring. }
    split; [|exact Hb]. rewrite Hb in G1. apply eqm_sub_0. apply eqm_sub_0 in G1. rewrite <- G1. apply eqm_of_eq; ring.
  Qed.

  Lemma same_scalar_iff a b : same_scalar a b = true <-> a == b.
  Proof. unfold same_scalar. rewrite Z.eqb_eq. reflexivity. Qed.
  Lemma peqb_at v a b : peqb (pt_at (E := E) v a) (pt_at v b) = true <-> ev a v == ev b v.
  Proof. rewrite (peqb_true L). unfold pt_at. apply (smul_base_iff L). Qed.

  Lemma replay_shown k number r P Q C pf0 pf n' r' pf0' pf' v : (0 < k)%nat -> (k < n)%nat -> In v (tuples R n) ->
    always_same R n (p_show (PV k) (e_Q k number) (e_C k number) pf0) (p_show P Q C pf) = true -> vc_challenge pf0 = vc_challenge pf ->
    same_shown (E := E) (sighting_at v P Q C pf n' r' pf') (sighting_at v (PV k) (e_Q k number) (e_C k number) pf0 number r pf0') = true.
  Proof.
    intros Hk Hn Hv H Hc. pose proof (same_as_shown k number P Q C pf0 pf H) as G.
    destruct (two_coefficients k (vcs_m0 (vc_responses pf)) (vcs_m0 (vc_responses pf0)) (vcs_z0 (vc_responses pf)) (vcs_z0 (vc_responses pf0)) Hk Hn) as [Gm Gz].
    { intros w Hw. destruct (G w Hw) as (_ & _ & _ & G1 & _). rewrite Hc in G1. apply eqm_sub_0. apply eqm_sub_0 in G1.
      match type of G1 with ?a == _ => transitivity (- a); [apply eqm_of_eq; zring|rewrite G1; reflexivity] end. }
    destruct (two_coefficients k 0 0 (vcs_minus_zQ (vc_responses pf)) (vcs_minus_zQ (vc_responses pf0)) Hk Hn) as [_ Gq].
    { intros w Hw. destruct (G w Hw) as (_ & _ & _ & _ & G2). rewrite Hc, Gz in G2. apply eqm_sub_0. apply eqm_sub_0 in G2.
      match type of G2 with ?a == _ => transitivity (- a); [apply eqm_of_eq; zring|rewrite G2; reflexivity] end. }
    destruct (G v Hv) as (GP & GC & GQ & _ & _).
    unfold same_shown, sighting_at. cbn [sg_nonce sg_mac sg_blinded sg_proof].
    rewrite !Bool.andb_true_iff, !peqb_at, !same_scalar_iff. rewrite Hc.
    repeat split; assumption || reflexivity.
  Qed.
  Lemma replay_member k number r P C pf0 pf n' r' : (0 < k)%nat -> (k < n)%nat ->
    always_same R n (p_member (PV k) (e_C k number) number r pf0) (p_member P C n' r' pf) = true -> ce_challenge pf0 = ce_challenge pf ->
    number == n' /\ r == r' /\ ces_m0 (ce_responses pf0) == ces_m0 (ce_responses pf) /\
    ces_z0 (ce_responses pf0) == ces_z0 (ce_responses pf) /\ ces_z1 (ce_responses pf0) == ces_z1 (ce_responses pf).
  Proof.
    intros Hk Hn H Hc. pose proof (same_as_member k number r P C n' r' pf0 pf H) as G.
    destruct (two_coefficients k (ces_m0 (ce_responses pf0)) (ces_m0 (ce_responses pf)) (ces_z0 (ce_responses pf0)) (ces_z0 (ce_responses pf)) Hk Hn) as [Gm Gz].
    { intros w Hw. destruct (G w Hw) as (_ & _ & _ & G1 & _). rewrite Hc in G1. apply eqm_sub_0. apply eqm_sub_0 in G1.
      etransitivity; [|exact G1]. apply eqm_of_eq; zring. }
    destruct (with_constant number n' r r') as [Gn Gr]; [intros w Hw; apply (G w Hw)|].
    destruct (with_constant (ces_m0 (ce_responses pf0)) (ces_m0 (ce_responses pf)) (ces_z1 (ce_responses pf0)) (ces_z1 (ce_responses pf))) as [_ G1].
    { intros w Hw. destruct (G w Hw) as (_ & _ & _ & _ & G2). rewrite Hc in G2. apply eqm_sub_0. apply eqm_sub_0 in G2.
      etransitivity; [|exact G2]. apply eqm_of_eq; zring. }
    auto.
  Qed.

  Lemma no_pass_all evs cP cQ cC pf number r pf' c c' : room N K evs ->
    let P := sym_comb cP (p_all j0 evs) in let Q := sym_comb cQ (p_all j0 evs) in let C := sym_comb cC (p_all j0 evs) in
    known R n (honest j0 (seen_of evs)) (p_show P Q C pf) c -> known R n (honest j0 (seen_of evs)) (p_member P C number r pf') c' ->
    forall v, In v (tuples R n) -> zero_at (PV 0) v = false ->
    let s := sighting_at (E := E) v P Q C pf number r pf' in
    scalar_eqb c (vc_challenge pf) && negb (zero_at P v) &&
    (match as_messages (asked_of evs) with [] => true | _ => false end && negb (existsb (same_shown s) (seen_at v j0 (seen_of evs))) ||
     scalar_eqb c' (ce_challenge pf') && fresh [number] (as_messages (asked_of evs)) &&
     negb (existsb (same_sighting s) (seen_at v j0 (seen_of evs)))) = false.
  Proof.
    intros Hroom P Q C Hu Hu' v Hv Ht s. apply Bool.not_true_iff_false. intros H. apply andb_prop in H as [H Hw]. apply andb_prop in H as [Hok HP].
    apply Z.eqb_eq in Hok. subst c.
    assert (Ht' : ~ nth 0 v 0 == 0).
    { intros Hz. apply Bool.not_true_iff_false in Ht. apply Ht. apply zero_at_iff. exact Hz. }
    assert (HP' : ~ ev P v == 0).
    { apply Bool.negb_true_iff, Bool.not_true_iff_false in HP. intros Hz. apply HP. apply zero_at_iff. exact Hz. }
    assert (Hplace : forall i n r p p', nth_error (seen_of evs) i = Some (n, r, p, p') -> (3 <= j0 + 3 * i)%nat /\ (2 + (j0 + 3 * i) < Nat.add (Nat.add 3 (2 * N)) (3 * K))%nat).
    { intros i a b d e Hi. assert (i < List.length (seen_of evs))%nat by (apply nth_error_Some; congruence). destruct Hroom as [_ Hs]. unfold j0. lia. }
    assert (Hlen : forall (a b : list pexp), List.length a <> List.length b -> always_same R n a b = true -> False).
    { intros a b Hab Hs. pose proof (same_P a b v Hs Hv) as F. apply Hab. apply forall2_length in F. unfold vals in F. rewrite !map_length in F. exact F. }
    (* the proof of the credential *)
    destruct Hu as [Hu|(e & He & Hsame & Hch)].
    - destruct (show_witness R R_all n _ _ _ _ Hu) as (m & z & q & Hs).
      assert (Hs1 : forall w, In w (tuples R n) -> ev C w == m * ev P w + z * nth 0 w 0) by (intros w Hw'; apply (Hs w Hw')).
      assert (Hs2 : forall w, In w (tuples R n) -> nth 1 w 0 * ev P w + nth 2 w 0 * ev C w - ev Q w == z * (nth 2 w 0 * nth 0 w 0) + q * nth 0 w 0)
        by (intros w Hw'; apply (Hs w Hw')).
      apply HP'. apply (formal_pass_all R R_all N K cP cQ cC m z q evs Hroom Hs1 Hs2); [|exact Hv|exact Ht'].
      apply Bool.orb_prop in Hw as [Hw|Hw].
      + left. apply andb_prop in Hw as [Hw _]. destruct (asked_of evs); [reflexivity|discriminate].
      + right. apply andb_prop in Hw as [Hw _]. apply andb_prop in Hw as [Hm Hf]. apply Z.eqb_eq in Hm. subst c'.
        destruct Hu' as [Hu'|(e & He & Hsame & Hch)].
        * destruct (member_witness R R_all n _ _ _ _ _ Hu') as (m' & z' & z1 & Hs').
          exists m', z', z1, number, r. split; [|split; [|exact Hf]]; intros w Hw'; apply (Hs' w Hw').
        * exfalso. apply honest_in in He as (i & n1 & r1 & p1 & p1' & Hi & [He|He]); subst e; cbn [fst snd] in *.
          -- refine (Hlen _ _ _ Hsame); cbn [p_show p_member List.length]; discriminate.
          -- destruct (Hplace _ _ _ _ _ Hi) as [H3 Hn].
             pose proof (same_as_member _ _ _ _ _ _ _ _ _ Hsame) as G.
             apply (hidden (j0 + 3 * i) n1 P C m z H3 Hn); [intros w Hw'; apply (G w Hw')|intros w Hw'; apply (G w Hw')|exact Hs1].
    - apply honest_in in He as (i & n1 & r1 & p1 & p1' & Hi & [He|He]); subst e; cbn [fst snd] in *; [|refine (Hlen _ _ _ Hsame); cbn [p_show p_member List.length]; discriminate].
      destruct (Hplace _ _ _ _ _ Hi) as [H3 Hn].
      pose proof (replay_shown (j0 + 3 * i) n1 r1 P Q C p1 pf number r p1' pf' v ltac:(lia) ltac:(unfold n; lia) Hv Hsame Hch) as Hreplay.
      fold s in Hreplay. pose proof (seen_in (E := E) v j0 _ i n1 r1 p1 p1' Hi) as Hin.
      pose proof (same_as_shown _ _ _ _ _ _ _ Hsame) as G.
      apply Bool.orb_prop in Hw as [Hw|Hw].
      + apply andb_prop in Hw as [_ Hw]. apply Bool.negb_true_iff, Bool.not_true_iff_false in Hw. apply Hw. apply existsb_exists.
        eexists. split; [exact Hin|exact Hreplay].
      + apply andb_prop in Hw as [Hw Hno]. apply andb_prop in Hw as [Hm Hf]. apply Z.eqb_eq in Hm. subst c'.
        destruct Hu' as [Hu'|(e & He & Hsame' & Hch')].
        * destruct (member_witness R R_all n _ _ _ _ _ Hu') as (m' & z' & z1 & Hs').
          apply (hidden (j0 + 3 * i) n1 P C m' z' H3 Hn); [intros w Hw'; apply (G w Hw')|intros w Hw'; apply (G w Hw')|intros w Hw'; apply (Hs' w Hw')].
        * apply honest_in in He as (i' & n2 & r2 & p2 & p2' & Hi' & [He|He]); subst e; cbn [fst snd] in *; [refine (Hlen _ _ _ Hsame'); cbn [p_show p_member List.length]; discriminate|].
          destruct (Hplace _ _ _ _ _ Hi') as [H3' Hn'].
          pose proof (same_as_member _ _ _ _ _ _ _ _ _ Hsame') as G'.
          assert (Hii : i = i').
          { enough ((j0 + 3 * i)%nat = (j0 + 3 * i')%nat) by lia.
            apply (same_place _ _ P); [unfold n; lia|unfold n; lia|intros w Hw'; apply (G w Hw')|intros w Hw'; apply (G' w Hw')]. }
          subst i'. rewrite Hi in Hi'. injection Hi' as <- <- <- <-.
          destruct (replay_member (j0 + 3 * i) _ _ _ _ _ _ _ _ ltac:(lia) ltac:(unfold n; lia) Hsame' Hch') as (Gn & Gr & Gm & Gz & G1).
          apply Bool.negb_true_iff, Bool.not_true_iff_false in Hno. apply Hno. apply existsb_exists.
          eexists. split; [exact Hin|]. unfold same_sighting. rewrite Hreplay.
          unfold s, sighting_at. cbn [sg_number sg_opening sg_membership andb].
          rewrite !Bool.andb_true_iff, !same_scalar_iff. rewrite Hch'. repeat split; symmetry; assumption || reflexivity.
  Qed.
End no_pass.
