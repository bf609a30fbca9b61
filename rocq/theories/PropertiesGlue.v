(** C65: the table of JavaScript objects of the WebAssembly API *)
From Verif Require Import PropertiesSerde Toy ModelGlue.
Require Import Coq.micromega.Lia Coq.Arith.Arith.

(** *** What the theorems are about *)

(** A handle given out by [addHeapObject]; the ones below 8 are constants. *)
Definition holds (g : glue) (h : nat) (v : json) : Prop := (8 <= h)%nat /\ get_object g h = Some v.

(** The tables which arise when a handle is dropped only while it holds an object. *)
Inductive reachable : glue -> Prop :=
| reach_init : reachable glue_init
| reach_add g v h g' : reachable g -> add_heap_object g v = Some (h, g') -> reachable g'
| reach_drop g h v g' : reachable g -> holds g h v -> drop_ref g h = Some g' -> reachable g'.

(** The number of objects which the table keeps alive. *)
Definition is_live (s : slot) : bool := match s with SLive _ _ => true | _ => false end.
Definition live_objects (g : glue) : nat := List.length (List.filter is_live (slab g)).

(** *** The free list *)

Fixpoint chain (l : list slot) (next : nat) (fl : list nat) : Prop :=
  match fl with
  | [] => next = List.length l
  | i :: fl' => next = i /\ exists n, nth_error l i = Some (SFree n) /\ chain l n fl'
  end.

Definition wf_with (g : glue) (n : nat) (fl : list nat) : Prop :=
  slab_next g = Some n /\ chain (slab g) n fl /\ NoDup fl /\
  (4 <= List.length (slab g))%nat /\
  (forall i, (i < 4)%nat -> nth_error (slab g) i = nth_error (slab glue_init) i) /\
  (forall i, (4 <= i < List.length (slab g))%nat ->
     (In i fl /\ exists n, nth_error (slab g) i = Some (SFree n)) \/
     (~ In i fl /\ exists v, nth_error (slab g) i = Some (SLive v 1))) /\
  (forall i, In i fl -> (4 <= i < List.length (slab g))%nat) /\
  (live_objects g + 4 + List.length fl = List.length (slab g))%nat.

Definition wf (g : glue) : Prop := exists n fl, wf_with g n fl.

Lemma set_slot_length : forall l i s, List.length (set_slot l i s) = List.length l.
Proof. induction l as [|x l IH]; intros [|i] s; cbn; auto. Qed.

Lemma nth_set_same : forall l i s, (i < List.length l)%nat -> nth_error (set_slot l i s) i = Some s.
Proof. induction l as [|x l IH]; intros [|i] s H; cbn in *; try lia; auto. apply IH. lia. Qed.

Lemma nth_set_other : forall l i j s, i <> j -> nth_error (set_slot l i s) j = nth_error l j.
Proof. induction l as [|x l IH]; intros [|i] [|j] s H; cbn; auto; congruence. Qed.

Lemma chain_set : forall l i s fl n, ~ In i fl -> chain l n fl -> chain (set_slot l i s) n fl.
Proof.
  intros l i s. induction fl as [|a fl IH]; intros n Hi H; cbn in *; [rewrite set_slot_length; exact H|].
  destruct H as (-> & m & Hm & Hc). split; [reflexivity|]. exists m. split; [|apply IH; tauto].
  rewrite nth_set_other by (intros ->; apply Hi; left; reflexivity). exact Hm.
Qed.

Lemma live_set : forall l i s s0, nth_error l i = Some s0 ->
  (List.length (List.filter is_live (set_slot l i s)) + (if is_live s0 then 1 else 0) =
   List.length (List.filter is_live l) + (if is_live s then 1 else 0))%nat.
Proof.
  induction l as [|x l IH]; intros [|i] s s0 H; cbn in *; try discriminate.
  - injection H as ->. destruct (is_live s), (is_live s0); cbn; lia.
  - specialize (IH i s s0 H). destruct (is_live x); cbn; lia.
Qed.

Lemma wf_init : wf glue_init.
Proof.
  exists 4%nat, []. unfold wf_with. cbn [slab slab_next glue_init List.length chain]. split; [reflexivity|]. split; [reflexivity|].
  split; [constructor|]. split; [lia|]. split; [reflexivity|]. split; [intros i Hi; lia|]. split; [intros i []|reflexivity].
Qed.

Lemma get_even : forall g i, get_object g (2 * i) = match nth_error (slab g) i with Some (SLive v _) => Some v | Some (SConst v) => v | _ => None end.
Proof.
  intros g i. unfold get_object. rewrite <- Nat.negb_even, Nat.even_mul. cbn [Nat.even orb negb].
  rewrite Nat.div2_double. reflexivity.
Qed.

Lemma holds_slot : forall g h v, wf g -> holds g h v ->
  exists i, h = (2 * i)%nat /\ (4 <= i)%nat /\ nth_error (slab g) i = Some (SLive v 1).
Proof.
  intros g h v (n & fl & W) [H8 Hg]. unfold get_object in Hg. destruct (Nat.odd h) eqn:Ho; [discriminate|].
  assert (Hh : h = (2 * Nat.div2 h)%nat).
  { pose proof (Nat.div2_odd h) as D. rewrite Ho in D. cbn [Nat.b2n] in D. lia. }
  exists (Nat.div2 h). split; [exact Hh|]. split; [lia|].
  destruct W as (_ & _ & _ & _ & _ & Hs & _).
  destruct (Nat.lt_ge_cases (Nat.div2 h) (List.length (slab g))) as [Hl|Hl].
  - destruct (Hs (Nat.div2 h)) as [(_ & m & E)|(_ & w & E)]; [lia| |]; rewrite E in Hg |- *; congruence.
  - apply nth_error_None in Hl. rewrite Hl in Hg. discriminate.
Qed.

(** [addHeapObject] on a well-formed table. *)
Lemma add_wf : forall g v, wf g -> exists i g',
  add_heap_object g v = Some (2 * i, g')%nat /\ wf g' /\ (4 <= i)%nat /\
  get_object g (2 * i) = None /\ get_object g' (2 * i) = Some v /\
  (forall h, h <> (2 * i)%nat -> get_object g' h = get_object g h) /\
  live_objects g' = S (live_objects g).
Proof.
  intros g v (n & fl & Hn & Hc & Hd & Hl & H4 & Hs & Hi & Hcnt). unfold add_heap_object. rewrite Hn.
  destruct fl as [|a fl].
  - cbn in Hc. subst n. rewrite Nat.eqb_refl.
    set (l := slab g) in *. set (L := List.length l) in *.
    assert (E : nth_error (l ++ [SFree (L + 1)]) L = Some (SFree (L + 1))).
    { rewrite nth_error_app2 by (unfold L; lia). replace (L - List.length l)%nat with 0%nat by (unfold L; lia). reflexivity. }
    assert (Hlen : List.length (l ++ [SFree (L + 1)]) = S L) by (rewrite app_length; cbn; unfold L; lia).
    rewrite E. eexists L, _. split; [reflexivity|].
    assert (Hn' : forall i, i <> L -> nth_error (set_slot (l ++ [SFree (L + 1)]) L (SLive v 1)) i = nth_error l i).
    { intros i Hne. rewrite nth_set_other by congruence. destruct (Nat.lt_ge_cases i L) as [Hlt|Hge].
      - apply nth_error_app1. exact Hlt.
      - transitivity (@None slot); [|symmetry]; apply nth_error_None; [rewrite Hlen|]; fold L; lia. }
    assert (HL : nth_error (set_slot (l ++ [SFree (L + 1)]) L (SLive v 1)) L = Some (SLive v 1)) by (apply nth_set_same; lia).
    assert (HC : List.length (List.filter is_live (set_slot (l ++ [SFree (L + 1)]) L (SLive v 1))) = S (live_objects g)).
    { unfold live_objects. pose proof (live_set _ _ (SLive v 1) _ E) as K. cbn [is_live] in K.
      rewrite filter_app, app_length in K. cbn in K. fold l. lia. }
    split; [|split; [exact Hl|split; [|split; [|split]]]].
    + exists (L + 1)%nat, []. unfold wf_with. cbn [slab slab_next]. rewrite set_slot_length, Hlen.
      split; [reflexivity|]. split; [cbn; rewrite set_slot_length, Hlen; lia|]. split; [constructor|]. split; [lia|].
      split; [intros i Hi4; rewrite Hn' by lia; apply H4; exact Hi4|]. split; [|split; [intros i []|]].
      2:{ unfold live_objects at 1. cbn [slab List.length] in *. rewrite HC. lia. }
      intros i Hr. right. split; [intros []|]. destruct (Nat.eq_dec i L) as [->|Hne]; [exists v; exact HL|].
      rewrite Hn' by exact Hne. destruct (Hs i) as [([] & _)|(_ & H)]; [lia|exact H].
    + rewrite get_even. fold l. replace (nth_error l L) with (@None slot); [reflexivity|]. symmetry. apply nth_error_None. unfold L. lia.
    + rewrite get_even. cbn [slab]. rewrite HL. reflexivity.
    + intros h Hne. unfold get_object. destruct (Nat.odd h) eqn:Ho; [reflexivity|]. cbn [slab]. rewrite Hn'; [reflexivity|].
      intros He. apply Hne. pose proof (Nat.div2_odd h) as D. rewrite Ho in D. cbn [Nat.b2n] in D. lia.
    + unfold live_objects at 1. cbn [slab]. exact HC.
  - cbn in Hc. destruct Hc as (-> & m & Hm & Hc).
    assert (Ha : (4 <= a < List.length (slab g))%nat) by (apply Hi; left; reflexivity).
    replace (a =? List.length (slab g))%nat with false by (symmetry; apply Nat.eqb_neq; lia). rewrite Hm.
    inversion_clear Hd as [|? ? Hna Hd'].
    assert (HC : List.length (List.filter is_live (set_slot (slab g) a (SLive v 1))) = S (live_objects g)).
    { unfold live_objects. pose proof (live_set _ _ (SLive v 1) _ Hm) as K. cbn [is_live] in K. lia. }
    eexists a, _. split; [reflexivity|]. split; [|split; [lia|split; [|split; [|split]]]].
    + exists m, fl. unfold wf_with. cbn [slab slab_next]. rewrite set_slot_length.
      split; [reflexivity|]. split; [apply chain_set; assumption|]. split; [exact Hd'|]. split; [lia|].
      split; [intros i Hi4; rewrite nth_set_other by lia; apply H4; exact Hi4|]. split; [|split; [intros i Hin; apply Hi; right; exact Hin|]].
      2:{ unfold live_objects at 1. cbn [slab List.length] in *. rewrite HC. lia. }
      intros i Hr. destruct (Nat.eq_dec i a) as [->|Hne].
      * right. split; [exact Hna|]. exists v. apply nth_set_same. lia.
      * rewrite nth_set_other by congruence. destruct (Hs i Hr) as [([->|H] & E)|(H & E)]; [congruence|left; auto|].
        right. split; [intros K; apply H; right; exact K|exact E].
    + rewrite get_even, Hm. reflexivity.
    + rewrite get_even. cbn [slab]. rewrite nth_set_same by lia. reflexivity.
    + intros h Hne. unfold get_object. destruct (Nat.odd h) eqn:Ho; [reflexivity|]. cbn [slab]. rewrite nth_set_other; [reflexivity|].
      intros He. apply Hne. pose proof (Nat.div2_odd h) as D. rewrite Ho in D. cbn [Nat.b2n] in D. lia.
    + unfold live_objects at 1. cbn [slab]. exact HC.
Qed.

(** [dropRef] of a handle which holds an object. *)
Lemma drop_wf : forall g h v, wf g -> holds g h v -> exists g',
  drop_ref g h = Some g' /\ wf g' /\ get_object g' h = None /\
  (forall h', h' <> h -> get_object g' h' = get_object g h') /\
  S (live_objects g') = live_objects g.
Proof.
  intros g h v W Hh. destruct (holds_slot g h v W Hh) as (i & -> & Hi4 & Hi).
  destruct W as (n & fl & Hn & Hc & Hd & Hl & H4 & Hs & Hb & Hcnt).
  assert (Hil : (i < List.length (slab g))%nat) by (apply nth_error_Some; congruence).
  assert (Hni : ~ In i fl). { destruct (Hs i) as [(_ & m & E)|(H & _)]; [lia|congruence|exact H]. }
  unfold drop_ref. rewrite Nat.div2_double. replace (i <? 4)%nat with false by (symmetry; apply Nat.ltb_ge; lia).
  assert (HC : S (List.length (List.filter is_live (set_slot (slab g) i (SFree n)))) = live_objects g).
  { unfold live_objects. pose proof (live_set _ _ (SFree n) _ Hi) as K. cbn [is_live] in K. lia. }
  rewrite Hi, Hn. cbn [Nat.ltb Nat.leb]. eexists. split; [reflexivity|]. split; [|split; [|split]].
  - exists i, (i :: fl). unfold wf_with. cbn [slab slab_next]. rewrite set_slot_length.
    split; [reflexivity|]. split.
    { cbn. split; [reflexivity|]. exists n. split; [apply nth_set_same; exact Hil|apply chain_set; assumption]. }
    split; [constructor; assumption|]. split; [exact Hl|].
    split; [intros j Hj; rewrite nth_set_other by lia; apply H4; exact Hj|]. split.
    + intros j Hj. destruct (Nat.eq_dec j i) as [->|Hne].
      * left. split; [left; reflexivity|]. exists n. apply nth_set_same. exact Hil.
      * rewrite nth_set_other by congruence. destruct (Hs j Hj) as [(H & E)|(H & E)]; [left; split; [right; exact H|exact E]|].
        right. split; [intros [K|K]; [congruence|tauto]|exact E].
    + split; [intros j [<-|K]; [lia|apply Hb; exact K]|]. unfold live_objects at 1. cbn [slab List.length]. lia.
  - rewrite get_even. cbn [slab]. rewrite nth_set_same by exact Hil. reflexivity.
  - intros h' Hne. unfold get_object. destruct (Nat.odd h') eqn:Ho; [reflexivity|]. cbn [slab]. rewrite nth_set_other; [reflexivity|].
    intros He. apply Hne. pose proof (Nat.div2_odd h') as D. rewrite Ho in D. cbn [Nat.b2n] in D. lia.
  - unfold live_objects at 1. cbn [slab]. exact HC.
Qed.

Lemma reachable_wf : forall g, reachable g -> wf g.
Proof.
  intros g R. induction R as [|g v h g' _ IH H|g h v g' _ IH Hh H]; [exact wf_init| |].
  - destruct (add_wf g v IH) as (i & g1 & E & W & _). rewrite E in H. injection H as _ <-. exact W.
  - destruct (drop_wf g h v IH Hh) as (g1 & E & W & _). rewrite E in H. injection H as <-. exact W.
Qed.

(** *** The table *)

(** An object is given a handle nothing else has, and is what the handle then
    holds; the other handles hold what they held. *)
Theorem C65_add : forall g v, reachable g -> exists h g',
  add_heap_object g v = Some (h, g') /\ get_object g h = None /\ holds g' h v /\
  (forall h', h' <> h -> get_object g' h' = get_object g h') /\ live_objects g' = S (live_objects g).
Proof.
  intros g v R. destruct (add_wf g v (reachable_wf g R)) as (i & g' & E & _ & H4 & Hn & Hg & Ho & Hc).
  exists (2 * i)%nat, g'. repeat split; auto. lia.
Qed.
Print Assumptions C65_add.

(** Dropping a handle frees it and nothing else. *)
Theorem C65_drop : forall g h v, reachable g -> holds g h v -> exists g',
  drop_ref g h = Some g' /\ get_object g' h = None /\
  (forall h', h' <> h -> get_object g' h' = get_object g h') /\ S (live_objects g') = live_objects g.
Proof.
  intros g h v R Hh. destruct (drop_wf g h v (reachable_wf g R) Hh) as (g' & E & _ & Hn & Ho & Hc).
  exists g'. auto.
Qed.
Print Assumptions C65_drop.

(** The constants are never given out nor freed. *)
Theorem C65_constants : forall g, reachable g ->
  get_object g 0 = None /\ get_object g 2 = Some JNull /\ get_object g 4 = Some (JBool true) /\ get_object g 6 = Some (JBool false) /\
  forall h, (h < 8)%nat -> drop_ref g h = Some g.
Proof.
  intros g R. destruct (reachable_wf g R) as (n & fl & _ & _ & _ & _ & H4 & _).
  assert (G : forall i, (i < 4)%nat -> get_object g (2 * i) = get_object glue_init (2 * i)).
  { intros i Hi. rewrite !get_even, H4 by exact Hi. reflexivity. }
  split; [apply (G 0%nat); lia|]. split; [apply (G 1%nat); lia|]. split; [apply (G 2%nat); lia|].
  split; [apply (G 3%nat); lia|]. intros h Hh. unfold drop_ref.
  replace (Nat.div2 h <? 4)%nat with true; [reflexivity|]. symmetry. apply Nat.ltb_lt.
  pose proof (Nat.div2_odd h) as D. destruct (Nat.odd h); cbn [Nat.b2n] in D; lia.
Qed.
Print Assumptions C65_constants.

(** The table grows only when every element is in use. *)
Theorem C65_no_growth : forall g v h g', reachable g -> add_heap_object g v = Some (h, g') ->
  List.length (slab g') = Nat.max (List.length (slab g)) (5 + live_objects g).
Proof.
  intros g v h g' R H. destruct (reachable_wf g R) as (n & fl & Hn & Hc & _ & Hl & _ & _ & Hb & Hcnt).
  unfold add_heap_object in H. rewrite Hn in H. destruct fl as [|a fl]; cbn [chain] in Hc.
  - subst n. rewrite Nat.eqb_refl in H. rewrite nth_error_app2, Nat.sub_diag in H by lia. cbn [nth_error] in H.
    injection H as _ <-. cbn [slab]. rewrite set_slot_length, app_length. cbn [List.length] in *. lia.
  - destruct Hc as (-> & m & Hm & Hc). assert (Ha : (4 <= a < List.length (slab g))%nat) by (apply Hb; left; reflexivity).
    replace (a =? List.length (slab g))%nat with false in H by (symmetry; apply Nat.eqb_neq; lia). rewrite Hm in H.
    injection H as _ <-. cbn [slab]. rewrite set_slot_length. cbn [List.length] in *. lia.
Qed.
Print Assumptions C65_no_growth.

(** Why a handle must not be dropped twice: the next two objects share it, and
    every object after those gets the handle 0, which reads [undefined]. *)
Theorem C65_double_drop_refuted : forall g h v a b c, reachable g -> holds g h v ->
  exists g1 g2 g3 g4 g5, drop_ref g h = Some g1 /\ drop_ref g1 h = Some g2 /\
    add_heap_object g2 a = Some (h, g3) /\ add_heap_object g3 b = Some (h, g4) /\ get_object g4 h = Some b /\
    add_heap_object g4 c = Some (0%nat, g5) /\ get_object g5 0 = None.
Proof.
  intros g h v a b c R Hh. pose proof (reachable_wf g R) as W. destruct (holds_slot g h v W Hh) as (i & -> & Hi4 & Hi).
  destruct W as (n & fl & Hn & _ & _ & Hl & H4 & _).
  assert (Hil : (i < List.length (slab g))%nat) by (apply nth_error_Some; congruence).
  assert (L4 : (i <? 4)%nat = false) by (apply Nat.ltb_ge; lia).
  set (l1 := set_slot (slab g) i (SFree n)). set (l2 := set_slot l1 i (SFree i)).
  set (l3 := set_slot l2 i (SLive a 1)). set (l4 := set_slot l3 i (SLive b 1)).
  assert (N1 : List.length l1 = List.length (slab g)) by apply set_slot_length.
  assert (N2 : List.length l2 = List.length (slab g)) by (unfold l2; rewrite set_slot_length; exact N1).
  assert (N3 : List.length l3 = List.length (slab g)) by (unfold l3; rewrite set_slot_length; exact N2).
  exists {| slab := l1; slab_next := Some i |}, {| slab := l2; slab_next := Some i |}, {| slab := l3; slab_next := Some i |},
    {| slab := l4; slab_next := None |}, {| slab := l4; slab_next := None |}.
  split; [unfold drop_ref; rewrite Nat.div2_double, L4, Hi, Hn; reflexivity|].
  split; [unfold drop_ref; rewrite Nat.div2_double, L4; cbn [slab slab_next]; unfold l1 at 1; rewrite nth_set_same by exact Hil; reflexivity|].
  split.
  { unfold add_heap_object. cbn [slab slab_next]. rewrite N2. replace (i =? List.length (slab g))%nat with false by (symmetry; apply Nat.eqb_neq; lia).
    unfold l2 at 1. rewrite nth_set_same by lia. reflexivity. }
  split.
  { unfold add_heap_object. cbn [slab slab_next]. rewrite N3. replace (i =? List.length (slab g))%nat with false by (symmetry; apply Nat.eqb_neq; lia).
    unfold l3 at 1. rewrite nth_set_same by lia. reflexivity. }
  split; [rewrite get_even; cbn [slab]; unfold l4; rewrite nth_set_same by lia; reflexivity|].
  split; [reflexivity|]. change 0%nat with (2 * 0)%nat. rewrite get_even. cbn [slab].
  unfold l4, l3, l2, l1. rewrite !nth_set_other by lia. rewrite H4 by lia. reflexivity.
Qed.
Print Assumptions C65_double_drop_refuted.

(** *** The calls *)

Lemma add_arguments_wf : forall vs g, wf g -> exists hs g',
  add_arguments g vs = Some (hs, g') /\ wf g' /\ NoDup hs /\
  Forall2 (holds g') hs vs /\ Forall (fun h => get_object g h = None) hs /\
  (forall h, ~ In h hs -> get_object g' h = get_object g h) /\
  live_objects g' = (live_objects g + List.length vs)%nat.
Proof.
  induction vs as [|v vs IH]; intros g W; cbn [add_arguments].
  - exists [], g. repeat split; auto; constructor.
  - destruct (add_wf g v W) as (i & g1 & E & W1 & H4 & Hn & Hg & Ho & Hc). rewrite E.
    destruct (IH g1 W1) as (hs & g2 & E2 & W2 & Hd & Hh & Hf & Ho2 & Hc2). rewrite E2.
    assert (Hni : ~ In (2 * i)%nat hs).
    { intros Hin. rewrite Forall_forall in Hf. rewrite (Hf _ Hin) in Hg. discriminate. }
    exists (2 * i :: hs)%nat, g2. split; [reflexivity|]. split; [exact W2|]. split; [constructor; assumption|].
    split; [constructor; [split; [lia|rewrite Ho2 by exact Hni; exact Hg]|exact Hh]|].
    split; [constructor; [exact Hn|]|].
    + rewrite Forall_forall in *. intros h Hin. rewrite <- Ho; [apply Hf; exact Hin|]. intros ->. contradiction.
    + split; [|cbn [List.length]; lia]. intros h Hnin. cbn [In] in Hnin. rewrite Ho2 by tauto. apply Ho. intros ->. tauto.
Qed.

Lemma read_arguments_holds : forall g hs vs, Forall2 (holds g) hs vs -> read_arguments g hs = Some vs.
Proof.
  intros g hs vs H. induction H as [|h v hs vs [_ Hh] _ IH]; cbn; [reflexivity|]. rewrite Hh, IH. reflexivity.
Qed.

Lemma holds_in : forall g hs vs h, Forall2 (holds g) hs vs -> In h hs -> get_object g h <> None.
Proof.
  intros g hs vs h H. induction H as [|k v hs vs [_ Hk] _ IH]; [intros []|]. intros [<-|Hin]; [congruence|auto].
Qed.

Lemma drop_arguments_wf : forall hs vs g, wf g -> NoDup hs -> Forall2 (holds g) hs vs -> exists g',
  drop_arguments g hs = Some g' /\ wf g' /\ Forall (fun h => get_object g' h = None) hs /\
  (forall h, ~ In h hs -> get_object g' h = get_object g h) /\
  (live_objects g' + List.length hs = live_objects g)%nat.
Proof.
  intros hs vs g W Hd H. induction H as [|h v hs vs Hh H IH]; cbn [drop_arguments].
  - exists g. repeat split; auto; cbn; lia.
  - inversion_clear Hd as [|? ? Hni Hd']. destruct (IH Hd') as (g1 & E1 & W1 & Hf & Ho & Hc). rewrite E1.
    assert (Hh1 : holds g1 h v) by (destruct Hh as [H8 Hh]; split; [exact H8|rewrite Ho by exact Hni; exact Hh]).
    destruct (drop_wf g1 h v W1 Hh1) as (g2 & E2 & W2 & Hn & Ho2 & Hc2). exists g2. split; [exact E2|]. split; [exact W2|].
    split; [constructor; [exact Hn|]|split].
    + rewrite Forall_forall in *. intros k Hk. rewrite Ho2 by (intros ->; contradiction). apply Hf. exact Hk.
    + intros k Hk. cbn [In] in Hk. rewrite Ho2 by (intros ->; tauto). apply Ho. tauto.
    + cbn [List.length]. lia.
Qed.

Lemma with_own_arguments : forall f, with_arguments f (js_arguments f) = Some f.
Proof. intros []; reflexivity. Qed.

(** Tables between calls. *)
Definition same_objects (g g' : glue) : Prop :=
  (forall h, get_object g' h = get_object g h) /\ live_objects g' = live_objects g.

Lemma call_wf : forall E fuel os g f, wf g -> exists hs g',
  wf (snd (@glue_call E fuel os g f)) /\
  match @js_run E fuel os f with
  | JsReturns v os' => @glue_call E fuel os g f = (GReturns (Some v) os', g') /\ same_objects g g'
  | JsTraps => @glue_call E fuel os g f = (GThrows, g') /\ Forall2 (holds g') hs (js_arguments f) /\ NoDup hs /\
      Forall (fun h => get_object g h = None) hs /\ (forall h, ~ In h hs -> get_object g' h = get_object g h) /\
      live_objects g' = (live_objects g + List.length (js_arguments f))%nat
  | JsRunning => @glue_call E fuel os g f = (GRunning, g')
  end.
Proof.
  intros E fuel os g f W. destruct (add_arguments_wf (js_arguments f) g W) as (hs & g1 & E1 & W1 & Hd & Hh & Hf & Ho & Hc).
  exists hs. unfold glue_call. rewrite E1, (read_arguments_holds _ _ _ Hh), with_own_arguments.
  destruct (js_run fuel os f) as [v os'| |].
  - destruct (add_wf g1 v W1) as (i & g2 & E2 & W2 & H4 & Hn & Hg & Ho2 & Hc2). rewrite E2.
    assert (Hni : ~ In (2 * i)%nat hs).
    { intros Hin. exact (holds_in _ _ _ _ Hh Hin Hn). }
    assert (Hh2 : Forall2 (holds g2) hs (js_arguments f)).
    { clear - Hh Hni Ho2. induction Hh as [|k w hs vs [H8 Hk] _ IH]; constructor.
      - split; [exact H8|]. rewrite Ho2; [exact Hk|]. intros ->. apply Hni. left. reflexivity.
      - apply IH. intros Hin. apply Hni. right. exact Hin. }
    destruct (drop_arguments_wf hs _ g2 W2 Hd Hh2) as (g3 & E3 & W3 & Hf3 & Ho3 & Hc3). rewrite E3.
    assert (H3 : holds g3 (2 * i) v) by (split; [lia|rewrite Ho3 by exact Hni; exact Hg]).
    destruct (drop_wf g3 _ v W3 H3) as (g4 & E4 & W4 & Hn4 & Ho4 & Hc4). unfold take_object. rewrite E4. cbn [snd].
    exists g4. split; [exact W4|]. split; [destruct H3 as [_ ->]; reflexivity|].
    assert (Hlen : List.length hs = List.length (js_arguments f)) by (clear - Hh; induction Hh; cbn; congruence).
    split; [|lia]. intros h. destruct (Nat.eq_dec h (2 * i)) as [->|Hne].
    + rewrite Hn4. rewrite <- Ho by exact Hni. symmetry. exact Hn.
    + rewrite Ho4 by exact Hne. destruct (in_dec Nat.eq_dec h hs) as [Hin|Hnin].
      * rewrite Forall_forall in Hf, Hf3. rewrite Hf3, Hf by exact Hin. reflexivity.
      * rewrite Ho3, Ho2, Ho by assumption. reflexivity.
  - exists g1. cbn [snd]. auto 10.
  - exists g1. cbn [snd]. auto.
Qed.

Lemma call_reachable : forall E fuel os g f, reachable g -> reachable (snd (@glue_call E fuel os g f)).
Proof.
  intros E fuel os g f R.
  assert (A : forall vs g hs g', reachable g -> add_arguments g vs = Some (hs, g') -> reachable g').
  { induction vs as [|v vs IH]; intros k hs k' Rk H; cbn in H; [injection H as _ <-; exact Rk|].
    destruct (add_heap_object k v) as [[h k1]|] eqn:E1; [|discriminate].
    destruct (add_arguments k1 vs) as [[hs' k2]|] eqn:E2; [|discriminate]. injection H as _ <-.
    eapply IH; [|exact E2]. eapply reach_add; eassumption. }
  destruct (add_arguments_wf (js_arguments f) g (reachable_wf g R)) as (hs & g1 & E1 & W1 & Hd & Hh & Hf & Ho & Hc).
  pose proof (A _ _ _ _ R E1) as R1.
  unfold glue_call. rewrite E1, (read_arguments_holds _ _ _ Hh), with_own_arguments.
  destruct (js_run fuel os f) as [v os'| |]; try exact R1.
  destruct (add_wf g1 v W1) as (i & g2 & E2 & W2 & H4 & Hn & Hg & Ho2 & Hc2). rewrite E2.
  assert (R2 : reachable g2) by (eapply reach_add; eassumption).
  assert (Hni : ~ In (2 * i)%nat hs) by (intros Hin; exact (holds_in _ _ _ _ Hh Hin Hn)).
  assert (Hh2 : Forall2 (holds g2) hs (js_arguments f)).
  { clear - Hh Hni Ho2. induction Hh as [|k w hs vs [H8 Hk] _ IH]; constructor.
    - split; [exact H8|]. rewrite Ho2; [exact Hk|]. intros ->. apply Hni. left. reflexivity.
    - apply IH. intros Hin. apply Hni. right. exact Hin. }
  assert (D : forall hs vs g', NoDup hs -> Forall2 (holds g2) hs vs -> drop_arguments g2 hs = Some g' -> reachable g').
  { clear - R2 W2. intros hs vs g' Hd H. revert g'. induction H as [|h v hs vs Hh H IH]; intros g' E; cbn in E; [injection E as <-; exact R2|].
    inversion_clear Hd as [|? ? Hni Hd']. destruct (drop_arguments_wf hs vs g2 W2 Hd' H) as (g1 & E1 & W1 & Hf & Ho & Hc).
    rewrite E1 in E. eapply reach_drop; [exact (IH Hd' _ E1)| |exact E].
    destruct Hh as [H8 Hh]. split; [exact H8|rewrite Ho by exact Hni; exact Hh]. }
  destruct (drop_arguments_wf hs _ g2 W2 Hd Hh2) as (g3 & E3 & W3 & Hf3 & Ho3 & Hc3). rewrite E3.
  pose proof (D _ _ _ Hd Hh2 E3) as R3. assert (H3 : holds g3 (2 * i) v) by (split; [lia|rewrite Ho3 by exact Hni; exact Hg]).
  destruct (drop_wf g3 _ v W3 H3) as (g4 & E4 & _). unfold take_object. rewrite E4. cbn [snd].
  eapply reach_drop; eassumption.
Qed.

(** A call which returns gives Rust the values JavaScript passed, returns what
    Rust returned, and leaves in the table what was there. *)
Theorem C65_call_returns : forall E fuel os g f v os', reachable g ->
  @js_run E fuel os f = JsReturns v os' -> exists g',
  @glue_call E fuel os g f = (GReturns (Some v) os', g') /\ reachable g' /\
  (forall h, get_object g' h = get_object g h) /\ live_objects g' = live_objects g.
Proof.
  intros E fuel os g f v os' R H. destruct (call_wf E fuel os g f (reachable_wf g R)) as (hs & g' & _ & K). rewrite H in K.
  destruct K as [K [S1 S2]]. exists g'. split; [exact K|]. split; [|auto].
  pose proof (call_reachable E fuel os g f R) as R'. rewrite K in R'. exact R'.
Qed.
Print Assumptions C65_call_returns.

(** The table is never corrupted by calls, and a call returns or throws as the
    Rust function returns or panics. *)
Theorem C65_call_outcomes : forall E fuel os g f, reachable g ->
  reachable (snd (@glue_call E fuel os g f)) /\
  match fst (@glue_call E fuel os g f) with
  | GReturns r os' => exists v, r = Some v /\ @js_run E fuel os f = JsReturns v os'
  | GThrows => @js_run E fuel os f = JsTraps
  | GRunning => @js_run E fuel os f = JsRunning
  | GCorrupt => False
  end.
Proof.
  intros E fuel os g f R. split; [apply call_reachable; exact R|].
  destruct (call_wf E fuel os g f (reachable_wf g R)) as (hs & g' & _ & K).
  destruct (js_run fuel os f) as [v os'| |].
  - destruct K as [-> _]. cbn [fst]. eauto.
  - destruct K as [-> _]. reflexivity.
  - rewrite K. reflexivity.
Qed.
Print Assumptions C65_call_outcomes.

(** A call which panics leaves its arguments in the table: they are held by
    handles nobody has. *)
Theorem C65_panic_leaks_refuted : forall E fuel os g f, reachable g -> @js_run E fuel os f = JsTraps -> exists hs g',
  @glue_call E fuel os g f = (GThrows, g') /\ Forall2 (holds g') hs (js_arguments f) /\ NoDup hs /\
  Forall (fun h => get_object g h = None) hs /\ (forall h, ~ In h hs -> get_object g' h = get_object g h) /\
  live_objects g' = (live_objects g + List.length (js_arguments f))%nat.
Proof.
  intros E fuel os g f R H. destruct (call_wf E fuel os g f (reachable_wf g R)) as (hs & g' & _ & K). rewrite H in K. eauto.
Qed.
Print Assumptions C65_panic_leaks_refuted.

(** Calls one after the other, with their outcomes; a call which does not end
    has none after it. *)
Inductive session {E : Ext} : glue -> list (js_function * glue_result) -> glue -> Prop :=
| session_done g : session g [] g
| session_call g fuel os f r g1 l g2 : @glue_call E fuel os g f = (r, g1) -> r <> GRunning ->
    session g1 l g2 -> session g ((f, r) :: l) g2.

Definition leaked (c : js_function * glue_result) : nat :=
  match snd c with GThrows => List.length (js_arguments (fst c)) | _ => 0 end.

(** What a page keeps alive after any number of calls: the arguments of the calls
    which panicked, for ever. *)
Theorem C65_leak_total : forall E g l g', reachable g -> @session E g l g' ->
  live_objects g' = (live_objects g + list_sum (List.map leaked l))%nat /\
  (4 + live_objects g' <= List.length (slab g'))%nat /\
  forall h v, holds g h v -> holds g' h v.
Proof.
  intros E g l g' R S. induction S as [g|g fuel os f r g1 l g2 Hc Hr S IH].
  - cbn. split; [lia|]. split; [|auto]. destruct (reachable_wf g R) as (n & fl & _ & _ & _ & _ & _ & _ & _ & Hcnt). lia.
  - pose proof (call_reachable E fuel os g f R) as R1. rewrite Hc in R1. destruct (IH R1) as (C & B & P). clear IH.
    destruct (call_wf E fuel os g f (reachable_wf g R)) as (hs & k & _ & K). cbn [List.map list_sum fold_right leaked fst snd] in *.
    change (fold_right Nat.add 0 (List.map leaked l))%nat with (list_sum (List.map leaked l)).
    destruct (js_run fuel os f) as [v os'| |].
    + destruct K as [K [S1 S2]]. rewrite K in Hc. injection Hc as <- <-. cbn [leaked snd]. split; [lia|]. split; [exact B|].
      intros h w [H8 Hw]. apply P. split; [exact H8|]. rewrite S1. exact Hw.
    + destruct K as (K & _ & _ & Hf & Ho & Hl). rewrite K in Hc. injection Hc as <- <-. cbn [leaked fst snd]. split; [lia|].
      split; [exact B|]. intros h w [H8 Hw]. apply P. split; [exact H8|]. rewrite Ho; [exact Hw|].
      intros Hin. rewrite Forall_forall in Hf. rewrite (Hf _ Hin) in Hw. discriminate.
    + rewrite K in Hc. injection Hc as <- <-. congruence.
Qed.
Print Assumptions C65_leak_total.

(** *** Examples *)

(** Three objects, the second dropped and its place used again. *)
Example C65_met :
  match add_arguments glue_init [JNumber 1; JNumber 2; JNumber 3] with
  | Some (hs, g) => hs = [8; 10; 12]%nat /\
    match drop_ref g 10 with
    | Some g1 => get_object g1 10 = None /\ get_object g1 12 = Some (JNumber 3) /\
      match add_heap_object g1 (JNumber 4) with
      | Some (h, g2) => h = 10%nat /\ get_object g2 10 = Some (JNumber 4) /\ List.length (slab g2) = 7%nat /\ live_objects g2 = 3%nat
      | None => False
      end
    | None => False
    end
  | None => False
  end.
Proof. cbn. auto 10. Qed.

Example C65_met_reachable : exists g, reachable g /\ holds g 8 (JNumber 1) /\ holds g 10 (JNumber 2) /\ live_objects g = 2%nat.
Proof.
  eexists. split; [eapply reach_add; [eapply reach_add; [apply reach_init|]|]; reflexivity|].
  split; [|split; [|reflexivity]]; (split; [lia|reflexivity]).
Qed.

(** A call which returns, with two arguments. *)
Example C65_met_call : forall E (os : rng), exists g',
  @glue_call E 0 os glue_init (JsIssuerNew (JNumber 1) (JNumber 2)) = (GReturns (Some js_zero) os, g') /\ live_objects g' = 0%nat.
Proof. intros E os. eexists. split; reflexivity. Qed.

(** An empty string as the user panics, and each such call keeps two objects. *)
Definition leaking_call : js_function := JsUserShow (JString []) (JNumber 0) (zeros 32).

Lemma leaking_call_traps : forall E, ExtLaws E -> forall (os : rng), @js_run E 0 os leaking_call = JsTraps.
Proof. intros E L os. apply (C51_short_string_traps_refuted E L); [cbn; lia|reflexivity]. Qed.

Theorem C65_leak_unbounded_refuted : forall E, ExtLaws E -> forall (os : rng) n, exists l g',
  @session E glue_init l g' /\ List.length l = n /\ live_objects g' = (2 * n)%nat.
Proof.
  intros E L os n.
  assert (S : forall n g, reachable g -> exists g', @session E g (List.repeat (leaking_call, GThrows) n) g').
  { clear n. induction n as [|k IH]; intros g R; [exists g; constructor|].
    destruct (C65_panic_leaks_refuted E 0 os g _ R (leaking_call_traps E L os)) as (hs & g1 & Hc & _).
    pose proof (call_reachable E 0 os g leaking_call R) as R1. rewrite Hc in R1. destruct (IH g1 R1) as [g2 S].
    exists g2. cbn. econstructor; [exact Hc|discriminate|exact S]. }
  destruct (S n glue_init reach_init) as [g' H]. exists (List.repeat (leaking_call, GThrows) n), g'. split; [exact H|].
  split; [apply repeat_length|]. rewrite (proj1 (C65_leak_total E _ _ _ reach_init H)).
  change (live_objects glue_init) with 0%nat. clear. induction n as [|n IH]; [reflexivity|]. cbn [List.repeat List.map].
  change (list_sum (leaked (leaking_call, GThrows) :: List.map leaked (List.repeat (leaking_call, GThrows) n)))
    with (2 + list_sum (List.map leaked (List.repeat (leaking_call, GThrows) n)))%nat. lia.
Qed.
Print Assumptions C65_leak_unbounded_refuted.
Example C65_met_leak : List.length (js_arguments leaking_call) = 2%nat.
Proof. reflexivity. Qed.
