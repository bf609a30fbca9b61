(** Properties of the declarations of the proof systems (C64). *)
From Verif Require Import ProofFacts SpecMacros Toy PropertiesProofs PropertiesRandomness.
Local Open Scope string_scope.

Ltac expand := cbv -[scalar_random commit_bytes compress multiscalar_mul get_challenge scalar_to_bytes s_add s_mul s_neg
  scalar_eqb tr_rng fill_bytes str pzero point transcript_new].

(** ** C64: proofs.rs is what the declarations expand to *)
Theorem C64_create_expands : forall (E : Ext) t (q : proving E) os,
  nipk_create (declaration q) t (proving_points q) (proving_secrets q) os =
  (let '(c, responses, os') := prove t q os in (c, combine (np_secrets (declaration q)) responses, os')).
Proof.
  intros E t q os. destruct q as [p s|p s|p s|p s|p s].
  - expand. destruct (fill_bytes 32 os) as [b os'].
    repeat match goal with |- context [scalar_random ?r] => destruct (scalar_random r) as [? ?] end. reflexivity.
  - expand. destruct (fill_bytes 32 os) as [b os'].
    repeat match goal with |- context [scalar_random ?r] => destruct (scalar_random r) as [? ?] end. reflexivity.
  - expand. destruct (fill_bytes 32 os) as [b os'].
    repeat match goal with |- context [scalar_random ?r] => destruct (scalar_random r) as [? ?] end. reflexivity.
  - expand. destruct (fill_bytes 32 os) as [b os'].
    repeat match goal with |- context [scalar_random ?r] => destruct (scalar_random r) as [? ?] end. reflexivity.
  - expand. destruct (fill_bytes 32 os) as [b os'].
    repeat match goal with |- context [scalar_random ?r] => destruct (scalar_random r) as [? ?] end. reflexivity.
Qed.
Print Assumptions C64_create_expands.
Theorem C64_verify_expands : forall (E : Ext) c t (q : proving E),
  verify_responses c t q = nipk_verify (declaration q) c (proving_secrets q) t (proving_points q).
Proof.
  intros E c t q. destruct q as [p s|p s|p s|p s|p s]; expand; reflexivity.
Qed.
Print Assumptions C64_verify_expands.
(** The specification of each system says what its declaration says. *)
Theorem C64_relation_declared : forall E, ExtLaws E -> forall (q : proving E),
  proving_relation q <->
  holds (declaration q) (value pzero (proving_points q)) (value 0 (proving_secrets q)).
Proof.
  intros E L q. unfold holds. destruct q as [p s|p s|p s|p s|p s]; cbn;
    unfold ir_relation, ab_relation, ib_relation, vc_relation, ce_relation;
    rewrite !Forall_cons_iff, Forall_nil_iff; cbn; rewrite !(padd_zero_r L); tauto.
Qed.
Print Assumptions C64_relation_declared.

(** ** C64: every declaration gives a complete and sound proof system *)
Section Generic.
  Context {E : Ext} (L : ExtLaws E).

  Lemma msm_terms (f : string -> scalar) (g : string -> point E) terms :
    multiscalar_mul (map (fun term => f (snd term)) terms) (map (fun term => g (fst term)) terms) = term_sum g f terms.
  Proof. induction terms as [|[a b] terms IH]; [reflexivity|]. cbn [map multiscalar_mul term_sum fst snd]. rewrite IH. reflexivity. Qed.
  Lemma msm_terms_snoc (f : string -> scalar) (g : string -> point E) terms k P :
    multiscalar_mul (map (fun term => f (snd term)) terms ++ [k])%list (map (fun term => g (fst term)) terms ++ [P])%list =
    padd (term_sum g f terms) (smul k P).
  Proof.
    induction terms as [|[a b] terms IH]; cbn [map multiscalar_mul term_sum app fst snd].
    - rewrite (padd_zero_r L), (padd_zero E L). reflexivity.
    - rewrite IH, (padd_assoc E L). reflexivity.
  Qed.
  Lemma term_sum_ext (g : string -> point E) f f' terms :
    (forall n, In n (map snd terms) -> f n == f' n) -> term_sum g f terms = term_sum g f' terms.
  Proof.
    induction terms as [|[a b] terms IH]; intros H; [reflexivity|]. cbn [term_sum map snd] in *.
    rewrite IH by (intros; apply H; right; assumption). f_equal. apply (smul_eqm L). apply H. left. reflexivity.
  Qed.
  Lemma term_sum_linear (g : string -> point E) f f' c terms :
    term_sum g (fun n => c * f n + f' n) terms = padd (smul c (term_sum g f terms)) (term_sum g f' terms).
  Proof.
    induction terms as [|[a b] terms IH]; cbn [term_sum].
    - rewrite (smul_pzero L), (padd_zero E L). reflexivity.
    - rewrite IH, (smul_padd L), <- (smul_mul L), (smul_add L). apply (padd_swap L).
  Qed.
  Lemma value_map {A} (d : A) (f : string -> A) names n : In n names ->
    value d (map (fun n => (n, f n)) names) n = f n.
  Proof.
    clear. unfold value. induction names as [|m names IH]; intros H; [destruct H|]. cbn [map find fst].
    destruct (String.eqb_spec m n) as [->|Hn]; [reflexivity|]. apply IH. destruct H; [contradiction|assumption].
  Qed.
  Lemma used_in d rel n : In rel (np_relations d) -> In n (map snd (snd rel)) -> In n (used_secrets d).
  Proof. intros H1 H2. unfold used_secrets. apply in_flat_map. exists rel. auto. Qed.

  Lemma recompute_honest d (publics : list (string * point E)) secrets rand c :
    well_formed d -> holds d (value pzero publics) (value 0 secrets) ->
    nipk_recompute d c (map (fun n => (n, s_add (s_mul c (value 0 secrets n)) (value 0 rand n))) (np_secrets d)) publics =
    map (fun rel => (fst rel,
        multiscalar_mul (map (fun term => value 0 rand (snd term)) (snd rel))
                        (map (fun term => value pzero publics (fst term)) (snd rel)))) (np_relations d).
  Proof.
    intros Hw Hh. unfold nipk_recompute. apply map_ext_in. intros rel Hr. f_equal.
    unfold holds in Hh. rewrite Forall_forall in Hh. specialize (Hh rel Hr).
    rewrite msm_terms, msm_terms_snoc, Hh.
    rewrite (term_sum_ext _ _ (fun n => c * value 0 secrets n + value 0 rand n)).
    - rewrite term_sum_linear, (smul_eqm L _ _ _ (eqm_s_neg c)), (smul_opp L).
      rewrite <- (padd_assoc E L), (padd_comm E L (term_sum _ (value 0 rand) _)), (padd_assoc E L), (padd_pneg E L), (padd_zero E L). reflexivity.
    - intros n Hn. rewrite (value_map 0) by (apply Hw, (used_in d rel); assumption). eqm_ring.
  Qed.
End Generic.

Theorem C64_complete : forall E, ExtLaws E -> forall d t (publics : list (string * point E)) secrets os,
  well_formed d -> holds d (value pzero publics) (value 0 secrets) ->
  let '(c, responses, _) := nipk_create d t publics secrets os in
  nipk_verify d c responses t publics = Ok tt.
Proof.
  intros E L d t publics secrets os Hw Hh. unfold nipk_create.
  destruct (@reseed E _ _ os) as [r os']. cbv zeta.
  unfold nipk_verify. cbv zeta. rewrite (recompute_honest L) by assumption.
  unfold scalar_eqb. rewrite Z.eqb_refl. reflexivity.
Qed.
Print Assumptions C64_complete.

Theorem C64_sound : forall E, ExtLaws E -> forall d (publics : list (string * point E)) c1 c2 r1 r2,
  canonical c1 -> canonical c2 -> c1 <> c2 ->
  nipk_recompute d c1 r1 publics = nipk_recompute d c2 r2 publics ->
  holds d (value pzero publics) (fun n => extract c1 c2 (value 0 r1 n) (value 0 r2 n)).
Proof.
  intros E L d publics c1 c2 r1 r2 H1 H2 Hn H. unfold holds. apply Forall_forall. intros rel Hr.
  pose proof (canonical_neq _ _ H1 H2 Hn) as Hc.
  assert (Hc' : ~ c1 - c2 == 0) by (intros K; apply Hc; apply eqm_sub_0; exact K).
  assert (Hp : padd (term_sum (value pzero publics) (value 0 r1) (snd rel)) (smul (s_neg c1) (value pzero publics (fst rel))) =
               padd (term_sum (value pzero publics) (value 0 r2) (snd rel)) (smul (s_neg c2) (value pzero publics (fst rel)))).
  { rewrite <- !(msm_terms_snoc L). unfold nipk_recompute in H.
    apply map_ext_in_iff with (a := rel) in H; [|exact Hr]. exact (f_equal snd H). }
  assert (Ht : padd (smul (c1 - c2) (term_sum (value pzero publics) (fun n => extract c1 c2 (value 0 r1 n) (value 0 r2 n)) (snd rel)))
                    (term_sum (value pzero publics) (value 0 r2) (snd rel)) =
               term_sum (value pzero publics) (value 0 r1) (snd rel)).
  { rewrite <- (term_sum_linear L). apply (term_sum_ext L). intros n _.
    pose proof (extract_eqm c1 c2 (value 0 r1 n) (value 0 r2 n) Hc) as K.
    rewrite Z.mul_comm, K. apply eqm_of_eq. unfold scalar in *. lia. }
  set (lhs := value pzero publics (fst rel)) in *.
  set (T := term_sum _ (fun n => extract _ _ _ _) _) in *. clearbody T lhs.
  set (T1 := term_sum _ (value 0 r1) _) in *. set (T2 := term_sum _ (value 0 r2) _) in *. clearbody T1 T2. subst T1.
  assert (K : smul (c1 - c2) lhs = smul (c1 - c2) T).
  { dlogs L. to_base_in L Hp. to_base L. apply (smul_base_iff L). apply (smul_base_iff L) in Hp.
    revert Hp. eqm_push. intros Hp. unfold scalar in *. apply eqm_sub_0. apply eqm_sub_0 in Hp.
    match type of Hp with ?a == 0 => match goal with |- ?b == 0 => transitivity (- a) end end.
    - apply eqm_of_eq. ring.
    - rewrite Hp. reflexivity. }
  apply (f_equal (smul (s_inv (c1 - c2)))) in K. rewrite <- !(smul_mul L) in K.
  rewrite !(smul_eqm L _ 1 _ (s_inv_spec _ Hc')), !smul_1 in K. exact K.
Qed.
Print Assumptions C64_sound.

(** A secret which occurs in no relation leaves its response free. *)
Theorem C64_unused_secret_free : forall E, ExtLaws E -> forall d c responses responses' t (publics : list (string * point E)),
  (forall n, In n (used_secrets d) -> value 0 responses n == value 0 responses' n) ->
  nipk_verify d c responses t publics = nipk_verify d c responses' t publics.
Proof.
  intros E L d c r r' t publics H. unfold nipk_verify.
  assert (K : nipk_recompute d c r publics = nipk_recompute d c r' publics).
  { unfold nipk_recompute. apply map_ext_in. intros rel Hr. f_equal. rewrite !(msm_terms_snoc L). f_equal.
    apply (term_sum_ext L). intros n Hn. apply H. apply (used_in d rel); assumption. }
  rewrite K. reflexivity.
Qed.
Print Assumptions C64_unused_secret_free.
(** There is exactly one such secret in the five declarations, and so the
    expectation that there is none is false. *)
Theorem C64_unused_secret_refuted : forall E (q : proving E) n,
  In n (np_secrets (declaration q)) /\ ~ In n (used_secrets (declaration q)) <->
  declaration q = attributes_blinded_nipk /\ n = "nonce".
Proof.
  intros E q n. split.
  - intros [H1 H2]. destruct q; cbn in H1, H2; repeat destruct H1 as [<-|H1]; try tauto; exfalso; apply H2; repeat (left; reflexivity) || right; tauto.
  - intros [H ->]. rewrite H. split; [cbn; tauto|]. cbn. intuition discriminate.
Qed.
Print Assumptions C64_unused_secret_refuted.
Theorem C64_well_formed : forall E (q : proving E), well_formed (declaration q).
Proof. intros E q n. destruct q; cbn; tauto. Qed.
Print Assumptions C64_well_formed.

(** The five declarations on sample statements; a declaration of another kind;
    two proofs with one commitment; a response which is free. *)
Example C64_met_expansion :
  forallb (fun q =>
    let '(c, responses, _) := nipk_create (declaration q) (transcript_new "example") (proving_points q) (proving_secrets q) (toy_stream 3) in
    is_ok (nipk_verify (declaration q) c responses (transcript_new "example") (proving_points q)) &&
    is_err (nipk_verify (declaration q) (c + 1) responses (transcript_new "example") (proving_points q)) &&
    is_err (nipk_verify (declaration q) c responses (transcript_new "other") (proving_points q)))%bool sample_provings = true.
Proof. vm_compute. reflexivity. Qed.
Definition key_nipk : nipk := {| np_name := "key"; np_secrets := ["x"; "y"]; np_publics := ["B"; "X"]; np_relations := [("X", [("B", "x")])] |}.
Definition key_publics : list (string * point toy) := [("B", tp 3); ("X", smul (E := toy) 11 (tp 3))].
Definition key_secrets : list (string * scalar) := [("x", 11); ("y", 5)].
Example C64_met_complete : well_formed key_nipk /\ holds key_nipk (value pzero key_publics) (value 0 key_secrets) /\
  (let '(c, r, _) := nipk_create key_nipk (transcript_new "example") key_publics key_secrets (toy_stream 3) in
   (is_ok (nipk_verify key_nipk c r (transcript_new "example") key_publics) &&
    is_ok (nipk_verify key_nipk c [("x", value 0 r "x"); ("y", 77)] (transcript_new "example") key_publics) &&
    is_err (nipk_verify key_nipk c [("x", 77); ("y", value 0 r "y")] (transcript_new "example") key_publics))%bool) = true.
Proof.
  split; [intros n; cbn; tauto|]. split; [|vm_compute; reflexivity].
  constructor; [|constructor]. symmetry. apply (padd_zero_r toy_laws).
Qed.
Example C64_met_sound : canonical 9 /\ canonical 4 /\
  map (fun c => compress (snd c)) (nipk_recompute key_nipk 9 [("x", 9 * 11 + 1000)] key_publics) =
  map (fun c => compress (snd c)) (nipk_recompute key_nipk 4 [("x", 4 * 11 + 1000)] key_publics).
Proof. repeat split; vm_compute; congruence. Qed.
