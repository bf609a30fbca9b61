(** The five proof systems: completeness, special soundness, witness
    indistinguishability and transcript binding. *)
From Verif Require Export SpecProofs BaseFacts.
From Coq Require Import Setoid.
Local Open Scope string_scope.

Lemma get_challenge_of {E} t : @get_challenge E t = @challenge_of E t.
Proof. reflexivity. Qed.
Lemma challenge_of_range {E} t : canonical (@challenge_of E t).
Proof. apply mod_range. Qed.
Lemma commit_extend t l a b : commit_bytes (extend t l) a b = extend t (l ++ [(a, b)]).
Proof. unfold commit_bytes, extend; cbn [fst snd]. rewrite app_assoc. reflexivity. Qed.
Lemma commit_first t a b : commit_bytes t a b = extend t [(a, b)].
Proof. reflexivity. Qed.
Lemma extend_extend t a b : extend (extend t a) b = extend t (a ++ b).
Proof. unfold extend; cbn [fst snd]. rewrite app_assoc. reflexivity. Qed.

Ltac to_extend := rewrite !commit_first, !extend_extend; cbn [app].

Lemma extend_inj t1 t2 l1 l2 : List.length l1 = List.length l2 ->
  extend t1 l1 = extend t2 l2 -> t1 = t2 /\ l1 = l2.
Proof.
  intros Hl H. destruct t1 as [n1 t1], t2 as [n2 t2]. unfold extend in H; cbn in H.
  injection H as -> H.
  assert (H1 : List.length t1 = List.length t2).
  { apply (f_equal (@List.length _)) in H. rewrite !app_length in H. lia. }
  apply app_eq_app in H. destruct H as [l H].
  assert (l = []) as ->.
  { destruct H as [[-> _]|[-> _]]; rewrite app_length in H1; destruct l; cbn in H1; auto; lia. }
  rewrite !app_nil_r in H. cbn in H. destruct H as [[-> ->]|[-> ->]]; auto.
Qed.
Lemma extend_last_neq t1 t2 l1 l2 a1 b1 a2 b2 : a1 <> a2 ->
  extend t1 (l1 ++ [(a1, b1)]) <> extend t2 (l2 ++ [(a2, b2)]).
Proof.
  intros Ha H. unfold extend in H. injection H as _ H.
  rewrite !app_assoc in H. apply app_inj_tail in H as [_ H]. congruence.
Qed.

(** One linear equation of a proof with responses [r] and challenge [c]. *)
Lemma extract_eqm c1 c2 r1 r2 : ~ c1 == c2 -> extract c1 c2 r1 r2 * (c1 - c2) == r1 - r2.
Proof.
  intros Hc. unfold extract. eqm_push.
  transitivity ((r1 - r2) * (s_inv (c1 - c2) * (c1 - c2))); [apply eqm_of_eq; zring|].
  rewrite s_inv_spec; [apply eqm_of_eq; zring|].
  intros H. apply Hc. apply eqm_sub_0. exact H.
Qed.
Lemma canonical_neq c1 c2 : canonical c1 -> canonical c2 -> c1 <> c2 -> ~ c1 == c2.
Proof. intros H1 H2 Hn H. apply Hn. apply eqm_canonical; assumption. Qed.
Lemma response_unique c x k z : canonical k -> canonical z ->
  (s_add (s_mul c x) k = z <-> k = s_add z (s_neg (s_mul c x))).
Proof.
  intros Hk Hz. split; intros H.
  - apply eqm_canonical; [exact Hk|apply s_add_range|]. rewrite <- H. eqm_ring.
  - apply eqm_canonical; [apply s_add_range|exact Hz|]. rewrite H. eqm_ring.
Qed.
Lemma scalar_random_range r : canonical (fst (scalar_random r)).
Proof. apply mod_range. Qed.

Ltac point_eqs L :=
  repeat match goal with
         | H : @eq (point _) ?a ?b |- _ =>
           first [ is_var a; fail 1 | to_base_in L H; apply (smul_base_iff L) in H ]
         end.

Lemma transcript_eq_dec (a b : transcript) : {a = b} + {a <> b}.
Proof.
  assert (Hb : forall x y : bytes, {x = y} + {x <> y}) by (apply list_eq_dec, Byte.byte_eq_dec).
  assert (Hi : forall x y : string * bytes, {x = y} + {x <> y}).
  { intros [s1 b1] [s2 b2]. destruct (string_dec s1 s2), (Hb b1 b2); [left|right|right|right]; congruence. }
  destruct a as [l1 i1], b as [l2 i2].
  destruct (string_dec l1 l2), (list_eq_dec Hi i1 i2); [left|right|right|right]; congruence.
Qed.

(** One relation of a proof made without a witness: the recomputed commitment
    is the prover's only if the challenge is zero or the relation holds. *)
Lemma reject_lin1 c q b s r : ~ c == 0 ->
  r * b == s_add (s_mul c s) r * b + s_neg c * q -> q == s * b.
Proof.
  intros Hc H. rewrite eqm_s_neg, eqm_s_add, eqm_s_mul in H.
  apply (eqm_mul_cancel _ _ c Hc). apply eqm_sub_0. apply eqm_sub_0 in H.
  rewrite <- H. eqm_ring.
Qed.
Lemma reject_lin2 c q b s r b' s' r' : ~ c == 0 ->
  r * b + r' * b' == s_add (s_mul c s) r * b + (s_add (s_mul c s') r' * b' + s_neg c * q) ->
  q == s * b + s' * b'.
Proof.
  intros Hc H. rewrite eqm_s_neg, !eqm_s_add, !eqm_s_mul in H.
  apply (eqm_mul_cancel _ _ c Hc). apply eqm_sub_0. apply eqm_sub_0 in H.
  rewrite <- H. eqm_ring.
Qed.
Ltac reject_tac L Hc :=
  dlogs L; repeat rewrite (padd_zero_r L) in *;
  repeat match goal with
         | H : @eq (point _) _ _ |- _ => to_base_in L H; apply (smul_base_iff L) in H
         end;
  to_base L; apply (smul_base_iff L);
  first [ eapply reject_lin1; [exact Hc|eassumption] | eapply reject_lin2; [exact Hc|eassumption] ].

Lemma sound_lin1 c1 c2 q b r1 r2 w :
  r1 * b + s_neg c1 * q == r2 * b + s_neg c2 * q -> w * (c1 - c2) == r1 - r2 ->
  q * (c1 - c2) == w * b * (c1 - c2).
Proof.
  intros H K. transitivity (w * (c1 - c2) * b); [|eqm_ring]. rewrite K.
  apply eqm_sub_0. apply eqm_sub_0 in H. rewrite eqm_s_neg, eqm_s_neg in H.
  transitivity (- 0); [rewrite <- H; eqm_ring|reflexivity].
Qed.
Lemma sound_lin2 c1 c2 q b r1 r2 w b' r1' r2' w' :
  r1 * b + (r1' * b' + s_neg c1 * q) == r2 * b + (r2' * b' + s_neg c2 * q) ->
  w * (c1 - c2) == r1 - r2 -> w' * (c1 - c2) == r1' - r2' ->
  q * (c1 - c2) == (w * b + w' * b') * (c1 - c2).
Proof.
  intros H K K'. transitivity (w * (c1 - c2) * b + w' * (c1 - c2) * b'); [|eqm_ring]. rewrite K, K'.
  apply eqm_sub_0. apply eqm_sub_0 in H. rewrite eqm_s_neg, eqm_s_neg in H.
  transitivity (- 0); [rewrite <- H; eqm_ring|reflexivity].
Qed.

(** Close one relation of a special soundness proof. *)
Ltac sound_tac L Hc :=
  dlogs L; repeat rewrite (padd_zero_r L) in *;
  repeat match goal with
         | H : @eq (point _) _ _ |- _ => to_base_in L H; apply (smul_base_iff L) in H
         end;
  to_base L; apply (smul_base_iff L);
  apply (eqm_mul_cancel _ _ _ Hc);
  first [ eapply sound_lin1; eassumption | eapply sound_lin2; eassumption ].

(** ** issuance_revealed *)
Section issuance_revealed.
  Context {E : Ext} (L : ExtLaws E).
  Implicit Types p : ir_Publics E.

  Definition ir_transcript (t : transcript) (p : ir_Publics E) (c : ir_Commitments E) : transcript :=
    extend t (ir_messages p c).

  Lemma ir_verify_iff pf t p :
    ir_verify pf t p = Ok tt <->
    ir_challenge pf = @challenge_of E (extend t (ir_messages p (ir_recompute pf p))).
  Proof.
    assert (V : ir_verify pf t p =
      if scalar_eqb (@challenge_of E (extend t (ir_messages p (ir_recompute pf p)))) (ir_challenge pf)
      then Ok tt else Err tt).
    { unfold ir_verify. cbv zeta. to_extend. reflexivity. }
    rewrite V. unfold scalar_eqb. destruct (Z.eqb_spec (@challenge_of E (extend t (ir_messages p (ir_recompute pf p))))
      (ir_challenge pf)); split; intros; congruence.
  Qed.
  Lemma ir_verify_no_panic pf t p : ir_verify pf t p <> Panic.
  Proof.
    unfold ir_verify. cbv zeta. destruct (scalar_eqb _ _); discriminate.
  Qed.

  Lemma ir_create_with_eq t p s r :
    ir_create_with (ir_create_absorb t p) p s r =
    let c := @challenge_of E (extend t (ir_messages p (ir_image p r))) in
    {| ir_challenge := c;
       ir_responses := {|
         irs_x0 := s_add (s_mul c (irs_x0 s)) (irs_x0 r); 
         irs_x1 := s_add (s_mul c (irs_x1 s)) (irs_x1 r); 
         irs_x0_tilde := s_add (s_mul c (irs_x0_tilde s)) (irs_x0_tilde r); 
         irs_m1x1 := s_add (s_mul c (irs_m1x1 s)) (irs_m1x1 r) |} |}.
  Proof.
    unfold ir_create_with, ir_create_absorb. cbv zeta.
    cbn [irc_Q irc_Cx0 irc_X1].
    to_extend. rewrite get_challenge_of. cbn [multiscalar_mul]. rewrite !(padd_zero_r L).
    reflexivity.
  Qed.

  (** Recomputing undoes proving. *)
  Lemma ir_recompute_spec p s r c :
    ir_relation p s ->
    ir_recompute {| ir_challenge := c;
       ir_responses := {|
         irs_x0 := s_add (s_mul c (irs_x0 s)) (irs_x0 r); 
         irs_x1 := s_add (s_mul c (irs_x1 s)) (irs_x1 r); 
         irs_x0_tilde := s_add (s_mul c (irs_x0_tilde s)) (irs_x0_tilde r); 
         irs_m1x1 := s_add (s_mul c (irs_m1x1 s)) (irs_m1x1 r) |} |} p
    = ir_image p r.
  Proof.
    destruct p as [P Q Cx0 B A X1], s as [x0_s x1_s x0_tilde_s m1x1_s], r as [x0_r x1_r x0_tilde_r m1x1_r].
    unfold ir_relation; cbn. intros (R0 & R1 & R2).
    unfold ir_recompute, ir_image. cbn. subst X1. subst Cx0. subst Q.
    f_equal; pring L.
  Qed.

  Theorem ir_complete t p s r : ir_relation p s ->
    ir_verify (ir_create_with (ir_create_absorb t p) p s r) t p = Ok tt.
  Proof.
    intros R. apply ir_verify_iff. rewrite ir_create_with_eq. cbv zeta.
    rewrite (ir_recompute_spec _ _ _ _ R). reflexivity.
  Qed.
  Theorem ir_create_complete t p s os : ir_relation p s ->
    ir_verify (fst (ir_create t p s os)) t p = Ok tt.
  Proof.
    intros R. unfold ir_create.
    destruct (ir_randomness (ir_create_absorb t p) s os) as [r os']. cbn [fst].
    apply ir_complete, R.
  Qed.

  Theorem ir_special_sound p pf1 pf2 :
    ~ ir_challenge pf1 == ir_challenge pf2 ->
    ir_recompute pf1 p = ir_recompute pf2 p ->
    ir_relation p (ir_extract pf1 pf2).
  Proof.
    destruct p as [P Q Cx0 B A X1], pf1 as [c1 [x0_1 x1_1 x0_tilde_1 m1x1_1]], pf2 as [c2 [x0_2 x1_2 x0_tilde_2 m1x1_2]].
    unfold ir_recompute, ir_relation, ir_extract; cbn. intros Hc H.
    injection H as H0 H1 H2.
    assert (Hc' : ~ c1 - c2 == 0) by (intros K; apply Hc; apply eqm_sub_0; exact K).
    pose proof (extract_eqm c1 c2 x0_1 x0_2 Hc) as K_x0. set (w_x0 := extract c1 c2 x0_1 x0_2) in *.
    pose proof (extract_eqm c1 c2 x1_1 x1_2 Hc) as K_x1. set (w_x1 := extract c1 c2 x1_1 x1_2) in *.
    pose proof (extract_eqm c1 c2 x0_tilde_1 x0_tilde_2 Hc) as K_x0_tilde. set (w_x0_tilde := extract c1 c2 x0_tilde_1 x0_tilde_2) in *.
    pose proof (extract_eqm c1 c2 m1x1_1 m1x1_2 Hc) as K_m1x1. set (w_m1x1 := extract c1 c2 m1x1_1 m1x1_2) in *.
    clearbody w_x0 w_x1 w_x0_tilde w_m1x1.
    repeat split; sound_tac L Hc'.
  Qed.

  (** Every accepted proof is produced by every witness, with exactly one
      choice of randomness. *)
  Theorem ir_witness_indistinguishable t p s pf :
    ir_relation p s -> ir_canonical (ir_responses pf) ->
    ir_verify pf t p = Ok tt ->
    exists! r, ir_canonical r /\ ir_create_with (ir_create_absorb t p) p s r = pf.
  Proof.
    intros R Hz V. apply ir_verify_iff in V.
    destruct pf as [c z]. cbn [ir_challenge ir_responses] in V, Hz.
    set (r := {| irs_x0 := s_add (irs_x0 z) (s_neg (s_mul c (irs_x0 s))); irs_x1 := s_add (irs_x1 z) (s_neg (s_mul c (irs_x1 s))); irs_x0_tilde := s_add (irs_x0_tilde z) (s_neg (s_mul c (irs_x0_tilde s))); irs_m1x1 := s_add (irs_m1x1 z) (s_neg (s_mul c (irs_m1x1 s))) |}).
    assert (Hr : ir_canonical r) by (repeat split; apply mod_range).
    destruct z as [x0_z x1_z x0_tilde_z m1x1_z]. unfold ir_canonical in Hz; cbn in Hz.
    destruct Hz as (Hz0 & Hz1 & Hz2 & Hz3).
    assert (Ez : {| irs_x0 := s_add (s_mul c (irs_x0 s)) (irs_x0 r); irs_x1 := s_add (s_mul c (irs_x1 s)) (irs_x1 r); irs_x0_tilde := s_add (s_mul c (irs_x0_tilde s)) (irs_x0_tilde r); irs_m1x1 := s_add (s_mul c (irs_m1x1 s)) (irs_m1x1 r) |}
       = {| irs_x0 := x0_z; irs_x1 := x1_z; irs_x0_tilde := x0_tilde_z; irs_m1x1 := m1x1_z |}).
    { f_equal; (apply response_unique; [apply mod_range|assumption|reflexivity]). }
    rewrite <- Ez in V. rewrite (ir_recompute_spec p s r c R) in V.
    exists r. split.
    - split; [exact Hr|]. rewrite ir_create_with_eq. cbv zeta. rewrite <- V. f_equal. exact Ez.
    - intros r' [Hr' H']. rewrite ir_create_with_eq in H'. cbv zeta in H'.
      injection H' as Hc E0 E1 E2 E3.
      rewrite Hc in E0, E1, E2, E3.
      destruct r' as [x0_r x1_r x0_tilde_r m1x1_r]. unfold ir_canonical in Hr'; cbn in Hr', E0, E1, E2, E3.
      destruct Hr' as (Hr0 & Hr1 & Hr2 & Hr3).
      unfold r; cbn. f_equal; symmetry; (apply response_unique; assumption).
  Qed.

  Lemma ir_messages_inj p c p' c' : ir_messages p c = ir_messages p' c' -> p = p' /\ c = c'.
  Proof.
    destruct p, c, p', c'. unfold ir_messages; cbn. intros H.
    injection H as H0 H1 H2 H3 H4 H5 H6 H7 H8.
    split; f_equal; apply (compress_inj L); assumption.
  Qed.
  Lemma ir_transcript_inj t p c t' p' c' :
    extend t (ir_messages p c) = extend t' (ir_messages p' c') -> t = t' /\ p = p' /\ c = c'.
  Proof.
    intros H. apply extend_inj in H as [-> H]; [|reflexivity].
    apply ir_messages_inj in H as [-> ->]. auto.
  Qed.
  Lemma ir_messages_last p c : exists l b, ir_messages p c = (l ++ [("com X1", b)])%list.
  Proof.
    exists (removelast (ir_messages p c)), (compress (irc_X1 c)). reflexivity.
  Qed.

  (** A proof made with the scalars [s] for the statement [p'] is accepted for
      [p] only if [p] is that statement and [s] a witness for it, or the
      challenge is zero, or the challenge function collides. *)
  Theorem ir_false_rejected t t' p p' s r :
    let pf := ir_create_with (ir_create_absorb t' p') p' s r in
    ir_verify pf t p = Ok tt ->
    (t = t' /\ p = p' /\ ir_relation p s) \/
    ir_challenge pf = 0 \/
    @challenge_collision E (extend t' (ir_messages p' (ir_image p' r)))
                           (extend t (ir_messages p (ir_recompute pf p))).
  Proof.
    intros pf V. apply ir_verify_iff in V.
    assert (Hpf : ir_challenge pf = @challenge_of E (extend t' (ir_messages p' (ir_image p' r))))
      by (unfold pf; rewrite ir_create_with_eq; reflexivity).
    destruct (transcript_eq_dec (extend t' (ir_messages p' (ir_image p' r)))
                (extend t (ir_messages p (ir_recompute pf p)))) as [H|H].
    2:{ right; right; split; [exact H|congruence]. }
    destruct (Z.eq_dec (ir_challenge pf) 0) as [Hc|Hc]; [auto|].
    left. apply ir_transcript_inj in H as (-> & -> & H). split; [reflexivity|]. split; [reflexivity|].
    assert (Hc' : ~ ir_challenge pf == 0).
    { intros K; apply Hc. apply eqm_canonical; [rewrite Hpf; apply mod_range| |exact K].
      pose proof ell_pos; lia. }
    unfold pf in H, Hc'. rewrite ir_create_with_eq in H, Hc'. cbv zeta in H, Hc'.
    cbn [ir_challenge] in Hc'.
    set (c := @challenge_of E (extend t (ir_messages p (ir_image p r)))) in *. clearbody c. clear V Hpf Hc pf.
    destruct p as [P Q Cx0 B A X1], s as [x0_s x1_s x0_tilde_s m1x1_s], r as [x0_r x1_r x0_tilde_r m1x1_r].
    unfold ir_recompute, ir_image in H; cbn in H. unfold ir_relation; cbn.
    injection H as H0 H1 H2.
    repeat split; reject_tac L Hc'.
  Qed.
End issuance_revealed.

(** ** attributes_blinded *)
Section attributes_blinded.
  Context {E : Ext} (L : ExtLaws E).
  Implicit Types p : ab_Publics E.

  Definition ab_transcript (t : transcript) (p : ab_Publics E) (c : ab_Commitments E) : transcript :=
    extend t (ab_messages p c).

  Lemma ab_verify_iff pf t p :
    ab_verify pf t p = Ok tt <->
    ab_challenge pf = @challenge_of E (extend t (ab_messages p (ab_recompute pf p))).
  Proof.
    assert (V : ab_verify pf t p =
      if scalar_eqb (@challenge_of E (extend t (ab_messages p (ab_recompute pf p)))) (ab_challenge pf)
      then Ok tt else Err tt).
    { unfold ab_verify. cbv zeta. to_extend. reflexivity. }
    rewrite V. unfold scalar_eqb. destruct (Z.eqb_spec (@challenge_of E (extend t (ab_messages p (ab_recompute pf p))))
      (ab_challenge pf)); split; intros; congruence.
  Qed.
  Lemma ab_verify_no_panic pf t p : ab_verify pf t p <> Panic.
  Proof.
    unfold ab_verify. cbv zeta. destruct (scalar_eqb _ _); discriminate.
  Qed.

  Lemma ab_create_with_eq t p s r :
    ab_create_with (ab_create_absorb t p) p s r =
    let c := @challenge_of E (extend t (ab_messages p (ab_image p r))) in
    {| ab_challenge := c;
       ab_responses := {|
         abs_d := s_add (s_mul c (abs_d s)) (abs_d r); 
         abs_e0 := s_add (s_mul c (abs_e0 s)) (abs_e0 r); 
         abs_m0 := s_add (s_mul c (abs_m0 s)) (abs_m0 r); 
         abs_nonce := s_add (s_mul c (abs_nonce s)) (abs_nonce r) |} |}.
  Proof.
    unfold ab_create_with, ab_create_absorb. cbv zeta.
    cbn [abc_D abc_encrypted_attribute_0_0 abc_encrypted_attribute_0_1].
    to_extend. rewrite get_challenge_of. cbn [multiscalar_mul]. rewrite !(padd_zero_r L).
    reflexivity.
  Qed.

  (** Recomputing undoes proving. *)
  Lemma ab_recompute_spec p s r c :
    ab_relation p s ->
    ab_recompute {| ab_challenge := c;
       ab_responses := {|
         abs_d := s_add (s_mul c (abs_d s)) (abs_d r); 
         abs_e0 := s_add (s_mul c (abs_e0 s)) (abs_e0 r); 
         abs_m0 := s_add (s_mul c (abs_m0 s)) (abs_m0 r); 
         abs_nonce := s_add (s_mul c (abs_nonce s)) (abs_nonce r) |} |} p
    = ab_image p r.
  Proof.
    destruct p as [B A D encrypted_attribute_0_0 encrypted_attribute_0_1], s as [d_s e0_s m0_s nonce_s], r as [d_r e0_r m0_r nonce_r].
    unfold ab_relation; cbn. intros (R0 & R1 & R2).
    unfold ab_recompute, ab_image. cbn. subst encrypted_attribute_0_1. subst encrypted_attribute_0_0. subst D.
    f_equal; pring L.
  Qed.

  Theorem ab_complete t p s r : ab_relation p s ->
    ab_verify (ab_create_with (ab_create_absorb t p) p s r) t p = Ok tt.
  Proof.
    intros R. apply ab_verify_iff. rewrite ab_create_with_eq. cbv zeta.
    rewrite (ab_recompute_spec _ _ _ _ R). reflexivity.
  Qed.
  Theorem ab_create_complete t p s os : ab_relation p s ->
    ab_verify (fst (ab_create t p s os)) t p = Ok tt.
  Proof.
    intros R. unfold ab_create.
    destruct (ab_randomness (ab_create_absorb t p) s os) as [r os']. cbn [fst].
    apply ab_complete, R.
  Qed.

  Theorem ab_special_sound p pf1 pf2 :
    ~ ab_challenge pf1 == ab_challenge pf2 ->
    ab_recompute pf1 p = ab_recompute pf2 p ->
    ab_relation p (ab_extract pf1 pf2).
  Proof.
    destruct p as [B A D encrypted_attribute_0_0 encrypted_attribute_0_1], pf1 as [c1 [d_1 e0_1 m0_1 nonce_1]], pf2 as [c2 [d_2 e0_2 m0_2 nonce_2]].
    unfold ab_recompute, ab_relation, ab_extract; cbn. intros Hc H.
    injection H as H0 H1 H2.
    assert (Hc' : ~ c1 - c2 == 0) by (intros K; apply Hc; apply eqm_sub_0; exact K).
    pose proof (extract_eqm c1 c2 d_1 d_2 Hc) as K_d. set (w_d := extract c1 c2 d_1 d_2) in *.
    pose proof (extract_eqm c1 c2 e0_1 e0_2 Hc) as K_e0. set (w_e0 := extract c1 c2 e0_1 e0_2) in *.
    pose proof (extract_eqm c1 c2 m0_1 m0_2 Hc) as K_m0. set (w_m0 := extract c1 c2 m0_1 m0_2) in *.
    pose proof (extract_eqm c1 c2 nonce_1 nonce_2 Hc) as K_nonce. set (w_nonce := extract c1 c2 nonce_1 nonce_2) in *.
    clearbody w_d w_e0 w_m0 w_nonce.
    repeat split; sound_tac L Hc'.
  Qed.

  (** Every accepted proof is produced by every witness, with exactly one
      choice of randomness. *)
  Theorem ab_witness_indistinguishable t p s pf :
    ab_relation p s -> ab_canonical (ab_responses pf) ->
    ab_verify pf t p = Ok tt ->
    exists! r, ab_canonical r /\ ab_create_with (ab_create_absorb t p) p s r = pf.
  Proof.
    intros R Hz V. apply ab_verify_iff in V.
    destruct pf as [c z]. cbn [ab_challenge ab_responses] in V, Hz.
    set (r := {| abs_d := s_add (abs_d z) (s_neg (s_mul c (abs_d s))); abs_e0 := s_add (abs_e0 z) (s_neg (s_mul c (abs_e0 s))); abs_m0 := s_add (abs_m0 z) (s_neg (s_mul c (abs_m0 s))); abs_nonce := s_add (abs_nonce z) (s_neg (s_mul c (abs_nonce s))) |}).
    assert (Hr : ab_canonical r) by (repeat split; apply mod_range).
    destruct z as [d_z e0_z m0_z nonce_z]. unfold ab_canonical in Hz; cbn in Hz.
    destruct Hz as (Hz0 & Hz1 & Hz2 & Hz3).
    assert (Ez : {| abs_d := s_add (s_mul c (abs_d s)) (abs_d r); abs_e0 := s_add (s_mul c (abs_e0 s)) (abs_e0 r); abs_m0 := s_add (s_mul c (abs_m0 s)) (abs_m0 r); abs_nonce := s_add (s_mul c (abs_nonce s)) (abs_nonce r) |}
       = {| abs_d := d_z; abs_e0 := e0_z; abs_m0 := m0_z; abs_nonce := nonce_z |}).
    { f_equal; (apply response_unique; [apply mod_range|assumption|reflexivity]). }
    rewrite <- Ez in V. rewrite (ab_recompute_spec p s r c R) in V.
    exists r. split.
    - split; [exact Hr|]. rewrite ab_create_with_eq. cbv zeta. rewrite <- V. f_equal. exact Ez.
    - intros r' [Hr' H']. rewrite ab_create_with_eq in H'. cbv zeta in H'.
      injection H' as Hc E0 E1 E2 E3.
      rewrite Hc in E0, E1, E2, E3.
      destruct r' as [d_r e0_r m0_r nonce_r]. unfold ab_canonical in Hr'; cbn in Hr', E0, E1, E2, E3.
      destruct Hr' as (Hr0 & Hr1 & Hr2 & Hr3).
      unfold r; cbn. f_equal; symmetry; (apply response_unique; assumption).
  Qed.

  Lemma ab_messages_inj p c p' c' : ab_messages p c = ab_messages p' c' -> p = p' /\ c = c'.
  Proof.
    destruct p, c, p', c'. unfold ab_messages; cbn. intros H.
    injection H as H0 H1 H2 H3 H4 H5 H6 H7.
    split; f_equal; apply (compress_inj L); assumption.
  Qed.
  Lemma ab_transcript_inj t p c t' p' c' :
    extend t (ab_messages p c) = extend t' (ab_messages p' c') -> t = t' /\ p = p' /\ c = c'.
  Proof.
    intros H. apply extend_inj in H as [-> H]; [|reflexivity].
    apply ab_messages_inj in H as [-> ->]. auto.
  Qed.
  Lemma ab_messages_last p c : exists l b, ab_messages p c = (l ++ [("com encrypted_attribute_0_1", b)])%list.
  Proof.
    exists (removelast (ab_messages p c)), (compress (abc_encrypted_attribute_0_1 c)). reflexivity.
  Qed.

  (** A proof made with the scalars [s] for the statement [p'] is accepted for
      [p] only if [p] is that statement and [s] a witness for it, or the
      challenge is zero, or the challenge function collides. *)
  Theorem ab_false_rejected t t' p p' s r :
    let pf := ab_create_with (ab_create_absorb t' p') p' s r in
    ab_verify pf t p = Ok tt ->
    (t = t' /\ p = p' /\ ab_relation p s) \/
    ab_challenge pf = 0 \/
    @challenge_collision E (extend t' (ab_messages p' (ab_image p' r)))
                           (extend t (ab_messages p (ab_recompute pf p))).
  Proof.
    intros pf V. apply ab_verify_iff in V.
    assert (Hpf : ab_challenge pf = @challenge_of E (extend t' (ab_messages p' (ab_image p' r))))
      by (unfold pf; rewrite ab_create_with_eq; reflexivity).
    destruct (transcript_eq_dec (extend t' (ab_messages p' (ab_image p' r)))
                (extend t (ab_messages p (ab_recompute pf p)))) as [H|H].
    2:{ right; right; split; [exact H|congruence]. }
    destruct (Z.eq_dec (ab_challenge pf) 0) as [Hc|Hc]; [auto|].
    left. apply ab_transcript_inj in H as (-> & -> & H). split; [reflexivity|]. split; [reflexivity|].
    assert (Hc' : ~ ab_challenge pf == 0).
    { intros K; apply Hc. apply eqm_canonical; [rewrite Hpf; apply mod_range| |exact K].
      pose proof ell_pos; lia. }
    unfold pf in H, Hc'. rewrite ab_create_with_eq in H, Hc'. cbv zeta in H, Hc'.
    cbn [ab_challenge] in Hc'.
    set (c := @challenge_of E (extend t (ab_messages p (ab_image p r)))) in *. clearbody c. clear V Hpf Hc pf.
    destruct p as [B A D encrypted_attribute_0_0 encrypted_attribute_0_1], s as [d_s e0_s m0_s nonce_s], r as [d_r e0_r m0_r nonce_r].
    unfold ab_recompute, ab_image in H; cbn in H. unfold ab_relation; cbn.
    injection H as H0 H1 H2.
    repeat split; reject_tac L Hc'.
  Qed.
End attributes_blinded.

(** ** issuance_blinded *)
Section issuance_blinded.
  Context {E : Ext} (L : ExtLaws E).
  Implicit Types p : ib_Publics E.

  Definition ib_transcript (t : transcript) (p : ib_Publics E) (c : ib_Commitments E) : transcript :=
    extend t (ib_messages p c).

  Lemma ib_verify_iff pf t p :
    ib_verify pf t p = Ok tt <->
    ib_challenge pf = @challenge_of E (extend t (ib_messages p (ib_recompute pf p))).
  Proof.
    assert (V : ib_verify pf t p =
      if scalar_eqb (@challenge_of E (extend t (ib_messages p (ib_recompute pf p)))) (ib_challenge pf)
      then Ok tt else Err tt).
    { unfold ib_verify. cbv zeta. to_extend. reflexivity. }
    rewrite V. unfold scalar_eqb. destruct (Z.eqb_spec (@challenge_of E (extend t (ib_messages p (ib_recompute pf p))))
      (ib_challenge pf)); split; intros; congruence.
  Qed.
  Lemma ib_verify_no_panic pf t p : ib_verify pf t p <> Panic.
  Proof.
    unfold ib_verify. cbv zeta. destruct (scalar_eqb _ _); discriminate.
  Qed.

  Lemma ib_create_with_eq t p s r :
    ib_create_with (ib_create_absorb t p) p s r =
    let c := @challenge_of E (extend t (ib_messages p (ib_image p r))) in
    {| ib_challenge := c;
       ib_responses := {|
         ibs_x0_tilde := s_add (s_mul c (ibs_x0_tilde s)) (ibs_x0_tilde r); 
         ibs_x0 := s_add (s_mul c (ibs_x0 s)) (ibs_x0 r); 
         ibs_x1 := s_add (s_mul c (ibs_x1 s)) (ibs_x1 r); 
         ibs_s := s_add (s_mul c (ibs_s s)) (ibs_s r); 
         ibs_b := s_add (s_mul c (ibs_b s)) (ibs_b r); 
         ibs_t0 := s_add (s_mul c (ibs_t0 s)) (ibs_t0 r) |} |}.
  Proof.
    unfold ib_create_with, ib_create_absorb. cbv zeta.
    cbn [ibc_X0 ibc_X1 ibc_P ibc_T0_0 ibc_T0_1 ibc_EQ_commitment ibc_EQ_encryption].
    to_extend. rewrite get_challenge_of. cbn [multiscalar_mul]. rewrite !(padd_zero_r L).
    reflexivity.
  Qed.

  (** Recomputing undoes proving. *)
  Lemma ib_recompute_spec p s r c :
    ib_relation p s ->
    ib_recompute {| ib_challenge := c;
       ib_responses := {|
         ibs_x0_tilde := s_add (s_mul c (ibs_x0_tilde s)) (ibs_x0_tilde r); 
         ibs_x0 := s_add (s_mul c (ibs_x0 s)) (ibs_x0 r); 
         ibs_x1 := s_add (s_mul c (ibs_x1 s)) (ibs_x1 r); 
         ibs_s := s_add (s_mul c (ibs_s s)) (ibs_s r); 
         ibs_b := s_add (s_mul c (ibs_b s)) (ibs_b r); 
         ibs_t0 := s_add (s_mul c (ibs_t0 s)) (ibs_t0 r) |} |} p
    = ib_image p r.
  Proof.
    destruct p as [B A X0 X1 D P T0_0 T0_1 EQ_commitment EQ_encryption encrypted_attribute_0_0 encrypted_attribute_0_1], s as [x0_tilde_s x0_s x1_s s_s b_s t0_s], r as [x0_tilde_r x0_r x1_r s_r b_r t0_r].
    unfold ib_relation; cbn. intros (R0 & R1 & R2 & R3 & R4 & R5 & R6).
    unfold ib_recompute, ib_image. cbn. subst EQ_encryption. subst EQ_commitment. subst T0_1. subst T0_0. subst P. subst X1. subst X0.
    f_equal; pring L.
  Qed.

  Theorem ib_complete t p s r : ib_relation p s ->
    ib_verify (ib_create_with (ib_create_absorb t p) p s r) t p = Ok tt.
  Proof.
    intros R. apply ib_verify_iff. rewrite ib_create_with_eq. cbv zeta.
    rewrite (ib_recompute_spec _ _ _ _ R). reflexivity.
  Qed.
  Theorem ib_create_complete t p s os : ib_relation p s ->
    ib_verify (fst (ib_create t p s os)) t p = Ok tt.
  Proof.
    intros R. unfold ib_create.
    destruct (ib_randomness (ib_create_absorb t p) s os) as [r os']. cbn [fst].
    apply ib_complete, R.
  Qed.

  Theorem ib_special_sound p pf1 pf2 :
    ~ ib_challenge pf1 == ib_challenge pf2 ->
    ib_recompute pf1 p = ib_recompute pf2 p ->
    ib_relation p (ib_extract pf1 pf2).
  Proof.
    destruct p as [B A X0 X1 D P T0_0 T0_1 EQ_commitment EQ_encryption encrypted_attribute_0_0 encrypted_attribute_0_1], pf1 as [c1 [x0_tilde_1 x0_1 x1_1 s_1 b_1 t0_1]], pf2 as [c2 [x0_tilde_2 x0_2 x1_2 s_2 b_2 t0_2]].
    unfold ib_recompute, ib_relation, ib_extract; cbn. intros Hc H.
    injection H as H0 H1 H2 H3 H4 H5 H6.
    assert (Hc' : ~ c1 - c2 == 0) by (intros K; apply Hc; apply eqm_sub_0; exact K).
    pose proof (extract_eqm c1 c2 x0_tilde_1 x0_tilde_2 Hc) as K_x0_tilde. set (w_x0_tilde := extract c1 c2 x0_tilde_1 x0_tilde_2) in *.
    pose proof (extract_eqm c1 c2 x0_1 x0_2 Hc) as K_x0. set (w_x0 := extract c1 c2 x0_1 x0_2) in *.
    pose proof (extract_eqm c1 c2 x1_1 x1_2 Hc) as K_x1. set (w_x1 := extract c1 c2 x1_1 x1_2) in *.
    pose proof (extract_eqm c1 c2 s_1 s_2 Hc) as K_s. set (w_s := extract c1 c2 s_1 s_2) in *.
    pose proof (extract_eqm c1 c2 b_1 b_2 Hc) as K_b. set (w_b := extract c1 c2 b_1 b_2) in *.
    pose proof (extract_eqm c1 c2 t0_1 t0_2 Hc) as K_t0. set (w_t0 := extract c1 c2 t0_1 t0_2) in *.
    clearbody w_x0_tilde w_x0 w_x1 w_s w_b w_t0.
    repeat split; sound_tac L Hc'.
  Qed.

  (** Every accepted proof is produced by every witness, with exactly one
      choice of randomness. *)
  Theorem ib_witness_indistinguishable t p s pf :
    ib_relation p s -> ib_canonical (ib_responses pf) ->
    ib_verify pf t p = Ok tt ->
    exists! r, ib_canonical r /\ ib_create_with (ib_create_absorb t p) p s r = pf.
  Proof.
    intros R Hz V. apply ib_verify_iff in V.
    destruct pf as [c z]. cbn [ib_challenge ib_responses] in V, Hz.
    set (r := {| ibs_x0_tilde := s_add (ibs_x0_tilde z) (s_neg (s_mul c (ibs_x0_tilde s))); ibs_x0 := s_add (ibs_x0 z) (s_neg (s_mul c (ibs_x0 s))); ibs_x1 := s_add (ibs_x1 z) (s_neg (s_mul c (ibs_x1 s))); ibs_s := s_add (ibs_s z) (s_neg (s_mul c (ibs_s s))); ibs_b := s_add (ibs_b z) (s_neg (s_mul c (ibs_b s))); ibs_t0 := s_add (ibs_t0 z) (s_neg (s_mul c (ibs_t0 s))) |}).
    assert (Hr : ib_canonical r) by (repeat split; apply mod_range).
    destruct z as [x0_tilde_z x0_z x1_z s_z b_z t0_z]. unfold ib_canonical in Hz; cbn in Hz.
    destruct Hz as (Hz0 & Hz1 & Hz2 & Hz3 & Hz4 & Hz5).
    assert (Ez : {| ibs_x0_tilde := s_add (s_mul c (ibs_x0_tilde s)) (ibs_x0_tilde r); ibs_x0 := s_add (s_mul c (ibs_x0 s)) (ibs_x0 r); ibs_x1 := s_add (s_mul c (ibs_x1 s)) (ibs_x1 r); ibs_s := s_add (s_mul c (ibs_s s)) (ibs_s r); ibs_b := s_add (s_mul c (ibs_b s)) (ibs_b r); ibs_t0 := s_add (s_mul c (ibs_t0 s)) (ibs_t0 r) |}
       = {| ibs_x0_tilde := x0_tilde_z; ibs_x0 := x0_z; ibs_x1 := x1_z; ibs_s := s_z; ibs_b := b_z; ibs_t0 := t0_z |}).
    { f_equal; (apply response_unique; [apply mod_range|assumption|reflexivity]). }
    rewrite <- Ez in V. rewrite (ib_recompute_spec p s r c R) in V.
    exists r. split.
    - split; [exact Hr|]. rewrite ib_create_with_eq. cbv zeta. rewrite <- V. f_equal. exact Ez.
    - intros r' [Hr' H']. rewrite ib_create_with_eq in H'. cbv zeta in H'.
      injection H' as Hc E0 E1 E2 E3 E4 E5.
      rewrite Hc in E0, E1, E2, E3, E4, E5.
      destruct r' as [x0_tilde_r x0_r x1_r s_r b_r t0_r]. unfold ib_canonical in Hr'; cbn in Hr', E0, E1, E2, E3, E4, E5.
      destruct Hr' as (Hr0 & Hr1 & Hr2 & Hr3 & Hr4 & Hr5).
      unfold r; cbn. f_equal; symmetry; (apply response_unique; assumption).
  Qed.

  Lemma ib_messages_inj p c p' c' : ib_messages p c = ib_messages p' c' -> p = p' /\ c = c'.
  Proof.
    destruct p, c, p', c'. unfold ib_messages; cbn. intros H.
    injection H as H0 H1 H2 H3 H4 H5 H6 H7 H8 H9 H10 H11 H12 H13 H14 H15 H16 H17 H18.
    split; f_equal; apply (compress_inj L); assumption.
  Qed.
  Lemma ib_transcript_inj t p c t' p' c' :
    extend t (ib_messages p c) = extend t' (ib_messages p' c') -> t = t' /\ p = p' /\ c = c'.
  Proof.
    intros H. apply extend_inj in H as [-> H]; [|reflexivity].
    apply ib_messages_inj in H as [-> ->]. auto.
  Qed.
  Lemma ib_messages_last p c : exists l b, ib_messages p c = (l ++ [("com EQ_encryption", b)])%list.
  Proof.
    exists (removelast (ib_messages p c)), (compress (ibc_EQ_encryption c)). reflexivity.
  Qed.

  (** A proof made with the scalars [s] for the statement [p'] is accepted for
      [p] only if [p] is that statement and [s] a witness for it, or the
      challenge is zero, or the challenge function collides. *)
  Theorem ib_false_rejected t t' p p' s r :
    let pf := ib_create_with (ib_create_absorb t' p') p' s r in
    ib_verify pf t p = Ok tt ->
    (t = t' /\ p = p' /\ ib_relation p s) \/
    ib_challenge pf = 0 \/
    @challenge_collision E (extend t' (ib_messages p' (ib_image p' r)))
                           (extend t (ib_messages p (ib_recompute pf p))).
  Proof.
    intros pf V. apply ib_verify_iff in V.
    assert (Hpf : ib_challenge pf = @challenge_of E (extend t' (ib_messages p' (ib_image p' r))))
      by (unfold pf; rewrite ib_create_with_eq; reflexivity).
    destruct (transcript_eq_dec (extend t' (ib_messages p' (ib_image p' r)))
                (extend t (ib_messages p (ib_recompute pf p)))) as [H|H].
    2:{ right; right; split; [exact H|congruence]. }
    destruct (Z.eq_dec (ib_challenge pf) 0) as [Hc|Hc]; [auto|].
    left. apply ib_transcript_inj in H as (-> & -> & H). split; [reflexivity|]. split; [reflexivity|].
    assert (Hc' : ~ ib_challenge pf == 0).
    { intros K; apply Hc. apply eqm_canonical; [rewrite Hpf; apply mod_range| |exact K].
      pose proof ell_pos; lia. }
    unfold pf in H, Hc'. rewrite ib_create_with_eq in H, Hc'. cbv zeta in H, Hc'.
    cbn [ib_challenge] in Hc'.
    set (c := @challenge_of E (extend t (ib_messages p (ib_image p r)))) in *. clearbody c. clear V Hpf Hc pf.
    destruct p as [B A X0 X1 D P T0_0 T0_1 EQ_commitment EQ_encryption encrypted_attribute_0_0 encrypted_attribute_0_1], s as [x0_tilde_s x0_s x1_s s_s b_s t0_s], r as [x0_tilde_r x0_r x1_r s_r b_r t0_r].
    unfold ib_recompute, ib_image in H; cbn in H. unfold ib_relation; cbn.
    injection H as H0 H1 H2 H3 H4 H5 H6.
    repeat split; reject_tac L Hc'.
  Qed.
End issuance_blinded.

(** ** valid_credential *)
Section valid_credential.
  Context {E : Ext} (L : ExtLaws E).
  Implicit Types p : vc_Publics E.

  Definition vc_transcript (t : transcript) (p : vc_Publics E) (c : vc_Commitments E) : transcript :=
    extend t (vc_messages p c).

  Lemma vc_verify_iff pf t p :
    vc_verify pf t p = Ok tt <->
    vc_challenge pf = @challenge_of E (extend t (vc_messages p (vc_recompute pf p))).
  Proof.
    assert (V : vc_verify pf t p =
      if scalar_eqb (@challenge_of E (extend t (vc_messages p (vc_recompute pf p)))) (vc_challenge pf)
      then Ok tt else Err tt).
    { unfold vc_verify. cbv zeta. to_extend. reflexivity. }
    rewrite V. unfold scalar_eqb. destruct (Z.eqb_spec (@challenge_of E (extend t (vc_messages p (vc_recompute pf p))))
      (vc_challenge pf)); split; intros; congruence.
  Qed.
  Lemma vc_verify_no_panic pf t p : vc_verify pf t p <> Panic.
  Proof.
    unfold vc_verify. cbv zeta. destruct (scalar_eqb _ _); discriminate.
  Qed.

  Lemma vc_create_with_eq t p s r :
    vc_create_with (vc_create_absorb t p) p s r =
    let c := @challenge_of E (extend t (vc_messages p (vc_image p r))) in
    {| vc_challenge := c;
       vc_responses := {|
         vcs_m0 := s_add (s_mul c (vcs_m0 s)) (vcs_m0 r); 
         vcs_z0 := s_add (s_mul c (vcs_z0 s)) (vcs_z0 r); 
         vcs_minus_zQ := s_add (s_mul c (vcs_minus_zQ s)) (vcs_minus_zQ r) |} |}.
  Proof.
    unfold vc_create_with, vc_create_absorb. cbv zeta.
    cbn [vcc_Cm0 vcc_V].
    to_extend. rewrite get_challenge_of. cbn [multiscalar_mul]. rewrite !(padd_zero_r L).
    reflexivity.
  Qed.

  (** Recomputing undoes proving. *)
  Lemma vc_recompute_spec p s r c :
    vc_relation p s ->
    vc_recompute {| vc_challenge := c;
       vc_responses := {|
         vcs_m0 := s_add (s_mul c (vcs_m0 s)) (vcs_m0 r); 
         vcs_z0 := s_add (s_mul c (vcs_z0 s)) (vcs_z0 r); 
         vcs_minus_zQ := s_add (s_mul c (vcs_minus_zQ s)) (vcs_minus_zQ r) |} |} p
    = vc_image p r.
  Proof.
    destruct p as [B A X0 P V Cm0], s as [m0_s z0_s minus_zQ_s], r as [m0_r z0_r minus_zQ_r].
    unfold vc_relation; cbn. intros (R0 & R1).
    unfold vc_recompute, vc_image. cbn. subst V. subst Cm0.
    f_equal; pring L.
  Qed.

  Theorem vc_complete t p s r : vc_relation p s ->
    vc_verify (vc_create_with (vc_create_absorb t p) p s r) t p = Ok tt.
  Proof.
    intros R. apply vc_verify_iff. rewrite vc_create_with_eq. cbv zeta.
    rewrite (vc_recompute_spec _ _ _ _ R). reflexivity.
  Qed.
  Theorem vc_create_complete t p s os : vc_relation p s ->
    vc_verify (fst (vc_create t p s os)) t p = Ok tt.
  Proof.
    intros R. unfold vc_create.
    destruct (vc_randomness (vc_create_absorb t p) s os) as [r os']. cbn [fst].
    apply vc_complete, R.
  Qed.

  Theorem vc_special_sound p pf1 pf2 :
    ~ vc_challenge pf1 == vc_challenge pf2 ->
    vc_recompute pf1 p = vc_recompute pf2 p ->
    vc_relation p (vc_extract pf1 pf2).
  Proof.
    destruct p as [B A X0 P V Cm0], pf1 as [c1 [m0_1 z0_1 minus_zQ_1]], pf2 as [c2 [m0_2 z0_2 minus_zQ_2]].
    unfold vc_recompute, vc_relation, vc_extract; cbn. intros Hc H.
    injection H as H0 H1.
    assert (Hc' : ~ c1 - c2 == 0) by (intros K; apply Hc; apply eqm_sub_0; exact K).
    pose proof (extract_eqm c1 c2 m0_1 m0_2 Hc) as K_m0. set (w_m0 := extract c1 c2 m0_1 m0_2) in *.
    pose proof (extract_eqm c1 c2 z0_1 z0_2 Hc) as K_z0. set (w_z0 := extract c1 c2 z0_1 z0_2) in *.
    pose proof (extract_eqm c1 c2 minus_zQ_1 minus_zQ_2 Hc) as K_minus_zQ. set (w_minus_zQ := extract c1 c2 minus_zQ_1 minus_zQ_2) in *.
    clearbody w_m0 w_z0 w_minus_zQ.
    repeat split; sound_tac L Hc'.
  Qed.

  (** Every accepted proof is produced by every witness, with exactly one
      choice of randomness. *)
  Theorem vc_witness_indistinguishable t p s pf :
    vc_relation p s -> vc_canonical (vc_responses pf) ->
    vc_verify pf t p = Ok tt ->
    exists! r, vc_canonical r /\ vc_create_with (vc_create_absorb t p) p s r = pf.
  Proof.
    intros R Hz V. apply vc_verify_iff in V.
    destruct pf as [c z]. cbn [vc_challenge vc_responses] in V, Hz.
    set (r := {| vcs_m0 := s_add (vcs_m0 z) (s_neg (s_mul c (vcs_m0 s))); vcs_z0 := s_add (vcs_z0 z) (s_neg (s_mul c (vcs_z0 s))); vcs_minus_zQ := s_add (vcs_minus_zQ z) (s_neg (s_mul c (vcs_minus_zQ s))) |}).
    assert (Hr : vc_canonical r) by (repeat split; apply mod_range).
    destruct z as [m0_z z0_z minus_zQ_z]. unfold vc_canonical in Hz; cbn in Hz.
    destruct Hz as (Hz0 & Hz1 & Hz2).
    assert (Ez : {| vcs_m0 := s_add (s_mul c (vcs_m0 s)) (vcs_m0 r); vcs_z0 := s_add (s_mul c (vcs_z0 s)) (vcs_z0 r); vcs_minus_zQ := s_add (s_mul c (vcs_minus_zQ s)) (vcs_minus_zQ r) |}
       = {| vcs_m0 := m0_z; vcs_z0 := z0_z; vcs_minus_zQ := minus_zQ_z |}).
    { f_equal; (apply response_unique; [apply mod_range|assumption|reflexivity]). }
    rewrite <- Ez in V. rewrite (vc_recompute_spec p s r c R) in V.
    exists r. split.
    - split; [exact Hr|]. rewrite vc_create_with_eq. cbv zeta. rewrite <- V. f_equal. exact Ez.
    - intros r' [Hr' H']. rewrite vc_create_with_eq in H'. cbv zeta in H'.
      injection H' as Hc E0 E1 E2.
      rewrite Hc in E0, E1, E2.
      destruct r' as [m0_r z0_r minus_zQ_r]. unfold vc_canonical in Hr'; cbn in Hr', E0, E1, E2.
      destruct Hr' as (Hr0 & Hr1 & Hr2).
      unfold r; cbn. f_equal; symmetry; (apply response_unique; assumption).
  Qed.

  Lemma vc_messages_inj p c p' c' : vc_messages p c = vc_messages p' c' -> p = p' /\ c = c'.
  Proof.
    destruct p, c, p', c'. unfold vc_messages; cbn. intros H.
    injection H as H0 H1 H2 H3 H4 H5 H6 H7.
    split; f_equal; apply (compress_inj L); assumption.
  Qed.
  Lemma vc_transcript_inj t p c t' p' c' :
    extend t (vc_messages p c) = extend t' (vc_messages p' c') -> t = t' /\ p = p' /\ c = c'.
  Proof.
    intros H. apply extend_inj in H as [-> H]; [|reflexivity].
    apply vc_messages_inj in H as [-> ->]. auto.
  Qed.
  Lemma vc_messages_last p c : exists l b, vc_messages p c = (l ++ [("com V", b)])%list.
  Proof.
    exists (removelast (vc_messages p c)), (compress (vcc_V c)). reflexivity.
  Qed.

  (** A proof made with the scalars [s] for the statement [p'] is accepted for
      [p] only if [p] is that statement and [s] a witness for it, or the
      challenge is zero, or the challenge function collides. *)
  Theorem vc_false_rejected t t' p p' s r :
    let pf := vc_create_with (vc_create_absorb t' p') p' s r in
    vc_verify pf t p = Ok tt ->
    (t = t' /\ p = p' /\ vc_relation p s) \/
    vc_challenge pf = 0 \/
    @challenge_collision E (extend t' (vc_messages p' (vc_image p' r)))
                           (extend t (vc_messages p (vc_recompute pf p))).
  Proof.
    intros pf V. apply vc_verify_iff in V.
    assert (Hpf : vc_challenge pf = @challenge_of E (extend t' (vc_messages p' (vc_image p' r))))
      by (unfold pf; rewrite vc_create_with_eq; reflexivity).
    destruct (transcript_eq_dec (extend t' (vc_messages p' (vc_image p' r)))
                (extend t (vc_messages p (vc_recompute pf p)))) as [H|H].
    2:{ right; right; split; [exact H|congruence]. }
    destruct (Z.eq_dec (vc_challenge pf) 0) as [Hc|Hc]; [auto|].
    left. apply vc_transcript_inj in H as (-> & -> & H). split; [reflexivity|]. split; [reflexivity|].
    assert (Hc' : ~ vc_challenge pf == 0).
    { intros K; apply Hc. apply eqm_canonical; [rewrite Hpf; apply mod_range| |exact K].
      pose proof ell_pos; lia. }
    unfold pf in H, Hc'. rewrite vc_create_with_eq in H, Hc'. cbv zeta in H, Hc'.
    cbn [vc_challenge] in Hc'.
    set (c := @challenge_of E (extend t (vc_messages p (vc_image p r)))) in *. clearbody c. clear V Hpf Hc pf.
    destruct p as [B A X0 P V Cm0], s as [m0_s z0_s minus_zQ_s], r as [m0_r z0_r minus_zQ_r].
    unfold vc_recompute, vc_image in H; cbn in H. unfold vc_relation; cbn.
    injection H as H0 H1.
    repeat split; reject_tac L Hc'.
  Qed.
End valid_credential.

(** ** committed_values_equal *)
Section committed_values_equal.
  Context {E : Ext} (L : ExtLaws E).
  Implicit Types p : ce_Publics E.

  Definition ce_transcript (t : transcript) (p : ce_Publics E) (c : ce_Commitments E) : transcript :=
    extend t (ce_messages p c).

  Lemma ce_verify_iff pf t p :
    ce_verify pf t p = Ok tt <->
    ce_challenge pf = @challenge_of E (extend t (ce_messages p (ce_recompute pf p))).
  Proof.
    assert (V : ce_verify pf t p =
      if scalar_eqb (@challenge_of E (extend t (ce_messages p (ce_recompute pf p)))) (ce_challenge pf)
      then Ok tt else Err tt).
    { unfold ce_verify. cbv zeta. to_extend. reflexivity. }
    rewrite V. unfold scalar_eqb. destruct (Z.eqb_spec (@challenge_of E (extend t (ce_messages p (ce_recompute pf p))))
      (ce_challenge pf)); split; intros; congruence.
  Qed.
  Lemma ce_verify_no_panic pf t p : ce_verify pf t p <> Panic.
  Proof.
    unfold ce_verify. cbv zeta. destruct (scalar_eqb _ _); discriminate.
  Qed.

  Lemma ce_create_with_eq t p s r :
    ce_create_with (ce_create_absorb t p) p s r =
    let c := @challenge_of E (extend t (ce_messages p (ce_image p r))) in
    {| ce_challenge := c;
       ce_responses := {|
         ces_m0 := s_add (s_mul c (ces_m0 s)) (ces_m0 r); 
         ces_z0 := s_add (s_mul c (ces_z0 s)) (ces_z0 r); 
         ces_z1 := s_add (s_mul c (ces_z1 s)) (ces_z1 r) |} |}.
  Proof.
    unfold ce_create_with, ce_create_absorb. cbv zeta.
    cbn [cec_Cm0 cec_Cm1].
    to_extend. rewrite get_challenge_of. cbn [multiscalar_mul]. rewrite !(padd_zero_r L).
    reflexivity.
  Qed.

  (** Recomputing undoes proving. *)
  Lemma ce_recompute_spec p s r c :
    ce_relation p s ->
    ce_recompute {| ce_challenge := c;
       ce_responses := {|
         ces_m0 := s_add (s_mul c (ces_m0 s)) (ces_m0 r); 
         ces_z0 := s_add (s_mul c (ces_z0 s)) (ces_z0 r); 
         ces_z1 := s_add (s_mul c (ces_z1 s)) (ces_z1 r) |} |} p
    = ce_image p r.
  Proof.
    destruct p as [B A P Cm0 Cm1], s as [m0_s z0_s z1_s], r as [m0_r z0_r z1_r].
    unfold ce_relation; cbn. intros (R0 & R1).
    unfold ce_recompute, ce_image. cbn. subst Cm1. subst Cm0.
    f_equal; pring L.
  Qed.

  Theorem ce_complete t p s r : ce_relation p s ->
    ce_verify (ce_create_with (ce_create_absorb t p) p s r) t p = Ok tt.
  Proof.
    intros R. apply ce_verify_iff. rewrite ce_create_with_eq. cbv zeta.
    rewrite (ce_recompute_spec _ _ _ _ R). reflexivity.
  Qed.
  Theorem ce_create_complete t p s os : ce_relation p s ->
    ce_verify (fst (ce_create t p s os)) t p = Ok tt.
  Proof.
    intros R. unfold ce_create.
    destruct (ce_randomness (ce_create_absorb t p) s os) as [r os']. cbn [fst].
    apply ce_complete, R.
  Qed.

  Theorem ce_special_sound p pf1 pf2 :
    ~ ce_challenge pf1 == ce_challenge pf2 ->
    ce_recompute pf1 p = ce_recompute pf2 p ->
    ce_relation p (ce_extract pf1 pf2).
  Proof.
    destruct p as [B A P Cm0 Cm1], pf1 as [c1 [m0_1 z0_1 z1_1]], pf2 as [c2 [m0_2 z0_2 z1_2]].
    unfold ce_recompute, ce_relation, ce_extract; cbn. intros Hc H.
    injection H as H0 H1.
    assert (Hc' : ~ c1 - c2 == 0) by (intros K; apply Hc; apply eqm_sub_0; exact K).
    pose proof (extract_eqm c1 c2 m0_1 m0_2 Hc) as K_m0. set (w_m0 := extract c1 c2 m0_1 m0_2) in *.
    pose proof (extract_eqm c1 c2 z0_1 z0_2 Hc) as K_z0. set (w_z0 := extract c1 c2 z0_1 z0_2) in *.
    pose proof (extract_eqm c1 c2 z1_1 z1_2 Hc) as K_z1. set (w_z1 := extract c1 c2 z1_1 z1_2) in *.
    clearbody w_m0 w_z0 w_z1.
    repeat split; sound_tac L Hc'.
  Qed.

  (** Every accepted proof is produced by every witness, with exactly one
      choice of randomness. *)
  Theorem ce_witness_indistinguishable t p s pf :
    ce_relation p s -> ce_canonical (ce_responses pf) ->
    ce_verify pf t p = Ok tt ->
    exists! r, ce_canonical r /\ ce_create_with (ce_create_absorb t p) p s r = pf.
  Proof.
    intros R Hz V. apply ce_verify_iff in V.
    destruct pf as [c z]. cbn [ce_challenge ce_responses] in V, Hz.
    set (r := {| ces_m0 := s_add (ces_m0 z) (s_neg (s_mul c (ces_m0 s))); ces_z0 := s_add (ces_z0 z) (s_neg (s_mul c (ces_z0 s))); ces_z1 := s_add (ces_z1 z) (s_neg (s_mul c (ces_z1 s))) |}).
    assert (Hr : ce_canonical r) by (repeat split; apply mod_range).
    destruct z as [m0_z z0_z z1_z]. unfold ce_canonical in Hz; cbn in Hz.
    destruct Hz as (Hz0 & Hz1 & Hz2).
    assert (Ez : {| ces_m0 := s_add (s_mul c (ces_m0 s)) (ces_m0 r); ces_z0 := s_add (s_mul c (ces_z0 s)) (ces_z0 r); ces_z1 := s_add (s_mul c (ces_z1 s)) (ces_z1 r) |}
       = {| ces_m0 := m0_z; ces_z0 := z0_z; ces_z1 := z1_z |}).
    { f_equal; (apply response_unique; [apply mod_range|assumption|reflexivity]). }
    rewrite <- Ez in V. rewrite (ce_recompute_spec p s r c R) in V.
    exists r. split.
    - split; [exact Hr|]. rewrite ce_create_with_eq. cbv zeta. rewrite <- V. f_equal. exact Ez.
    - intros r' [Hr' H']. rewrite ce_create_with_eq in H'. cbv zeta in H'.
      injection H' as Hc E0 E1 E2.
      rewrite Hc in E0, E1, E2.
      destruct r' as [m0_r z0_r z1_r]. unfold ce_canonical in Hr'; cbn in Hr', E0, E1, E2.
      destruct Hr' as (Hr0 & Hr1 & Hr2).
      unfold r; cbn. f_equal; symmetry; (apply response_unique; assumption).
  Qed.

  Lemma ce_messages_inj p c p' c' : ce_messages p c = ce_messages p' c' -> p = p' /\ c = c'.
  Proof.
    destruct p, c, p', c'. unfold ce_messages; cbn. intros H.
    injection H as H0 H1 H2 H3 H4 H5 H6.
    split; f_equal; apply (compress_inj L); assumption.
  Qed.
  Lemma ce_transcript_inj t p c t' p' c' :
    extend t (ce_messages p c) = extend t' (ce_messages p' c') -> t = t' /\ p = p' /\ c = c'.
  Proof.
    intros H. apply extend_inj in H as [-> H]; [|reflexivity].
    apply ce_messages_inj in H as [-> ->]. auto.
  Qed.
  Lemma ce_messages_last p c : exists l b, ce_messages p c = (l ++ [("com Cm1", b)])%list.
  Proof.
    exists (removelast (ce_messages p c)), (compress (cec_Cm1 c)). reflexivity.
  Qed.

  (** A proof made with the scalars [s] for the statement [p'] is accepted for
      [p] only if [p] is that statement and [s] a witness for it, or the
      challenge is zero, or the challenge function collides. *)
  Theorem ce_false_rejected t t' p p' s r :
    let pf := ce_create_with (ce_create_absorb t' p') p' s r in
    ce_verify pf t p = Ok tt ->
    (t = t' /\ p = p' /\ ce_relation p s) \/
    ce_challenge pf = 0 \/
    @challenge_collision E (extend t' (ce_messages p' (ce_image p' r)))
                           (extend t (ce_messages p (ce_recompute pf p))).
  Proof.
    intros pf V. apply ce_verify_iff in V.
    assert (Hpf : ce_challenge pf = @challenge_of E (extend t' (ce_messages p' (ce_image p' r))))
      by (unfold pf; rewrite ce_create_with_eq; reflexivity).
    destruct (transcript_eq_dec (extend t' (ce_messages p' (ce_image p' r)))
                (extend t (ce_messages p (ce_recompute pf p)))) as [H|H].
    2:{ right; right; split; [exact H|congruence]. }
    destruct (Z.eq_dec (ce_challenge pf) 0) as [Hc|Hc]; [auto|].
    left. apply ce_transcript_inj in H as (-> & -> & H). split; [reflexivity|]. split; [reflexivity|].
    assert (Hc' : ~ ce_challenge pf == 0).
    { intros K; apply Hc. apply eqm_canonical; [rewrite Hpf; apply mod_range| |exact K].
      pose proof ell_pos; lia. }
    unfold pf in H, Hc'. rewrite ce_create_with_eq in H, Hc'. cbv zeta in H, Hc'.
    cbn [ce_challenge] in Hc'.
    set (c := @challenge_of E (extend t (ce_messages p (ce_image p r)))) in *. clearbody c. clear V Hpf Hc pf.
    destruct p as [B A P Cm0 Cm1], s as [m0_s z0_s z1_s], r as [m0_r z0_r z1_r].
    unfold ce_recompute, ce_image in H; cbn in H. unfold ce_relation; cbn.
    injection H as H0 H1.
    repeat split; reject_tac L Hc'.
  Qed.
End committed_values_equal.

(** ** All systems together *)
Section all_systems.
  Context {E : Ext} (L : ExtLaws E).

  Theorem statement_transcript_inj t t' (s s' : statement E) :
    extend t (statement_messages s) = extend t' (statement_messages s') -> t = t' /\ s = s'.
  Proof.
    intros H. destruct s as [p c|p c|p c|p c|p c], s' as [p' c'|p' c'|p' c'|p' c'|p' c'];
      cbn [statement_messages] in H.
    - apply (ir_transcript_inj L) in H as (-> & -> & ->). auto.
    - exfalso. destruct (ir_messages_last p c) as (l & b & Hl), (ab_messages_last p' c') as (l' & b' & Hl').
      rewrite Hl, Hl' in H. revert H. apply extend_last_neq. discriminate.
    - exfalso. destruct (ir_messages_last p c) as (l & b & Hl), (ib_messages_last p' c') as (l' & b' & Hl').
      rewrite Hl, Hl' in H. revert H. apply extend_last_neq. discriminate.
    - exfalso. destruct (ir_messages_last p c) as (l & b & Hl), (vc_messages_last p' c') as (l' & b' & Hl').
      rewrite Hl, Hl' in H. revert H. apply extend_last_neq. discriminate.
    - exfalso. destruct (ir_messages_last p c) as (l & b & Hl), (ce_messages_last p' c') as (l' & b' & Hl').
      rewrite Hl, Hl' in H. revert H. apply extend_last_neq. discriminate.
    - exfalso. destruct (ab_messages_last p c) as (l & b & Hl), (ir_messages_last p' c') as (l' & b' & Hl').
      rewrite Hl, Hl' in H. revert H. apply extend_last_neq. discriminate.
    - apply (ab_transcript_inj L) in H as (-> & -> & ->). auto.
    - exfalso. destruct (ab_messages_last p c) as (l & b & Hl), (ib_messages_last p' c') as (l' & b' & Hl').
      rewrite Hl, Hl' in H. revert H. apply extend_last_neq. discriminate.
    - exfalso. destruct (ab_messages_last p c) as (l & b & Hl), (vc_messages_last p' c') as (l' & b' & Hl').
      rewrite Hl, Hl' in H. revert H. apply extend_last_neq. discriminate.
    - exfalso. destruct (ab_messages_last p c) as (l & b & Hl), (ce_messages_last p' c') as (l' & b' & Hl').
      rewrite Hl, Hl' in H. revert H. apply extend_last_neq. discriminate.
    - exfalso. destruct (ib_messages_last p c) as (l & b & Hl), (ir_messages_last p' c') as (l' & b' & Hl').
      rewrite Hl, Hl' in H. revert H. apply extend_last_neq. discriminate.
    - exfalso. destruct (ib_messages_last p c) as (l & b & Hl), (ab_messages_last p' c') as (l' & b' & Hl').
      rewrite Hl, Hl' in H. revert H. apply extend_last_neq. discriminate.
    - apply (ib_transcript_inj L) in H as (-> & -> & ->). auto.
    - exfalso. destruct (ib_messages_last p c) as (l & b & Hl), (vc_messages_last p' c') as (l' & b' & Hl').
      rewrite Hl, Hl' in H. revert H. apply extend_last_neq. discriminate.
    - exfalso. destruct (ib_messages_last p c) as (l & b & Hl), (ce_messages_last p' c') as (l' & b' & Hl').
      rewrite Hl, Hl' in H. revert H. apply extend_last_neq. discriminate.
    - exfalso. destruct (vc_messages_last p c) as (l & b & Hl), (ir_messages_last p' c') as (l' & b' & Hl').
      rewrite Hl, Hl' in H. revert H. apply extend_last_neq. discriminate.
    - exfalso. destruct (vc_messages_last p c) as (l & b & Hl), (ab_messages_last p' c') as (l' & b' & Hl').
      rewrite Hl, Hl' in H. revert H. apply extend_last_neq. discriminate.
    - exfalso. destruct (vc_messages_last p c) as (l & b & Hl), (ib_messages_last p' c') as (l' & b' & Hl').
      rewrite Hl, Hl' in H. revert H. apply extend_last_neq. discriminate.
    - apply (vc_transcript_inj L) in H as (-> & -> & ->). auto.
    - exfalso. destruct (vc_messages_last p c) as (l & b & Hl), (ce_messages_last p' c') as (l' & b' & Hl').
      rewrite Hl, Hl' in H. revert H. apply extend_last_neq. discriminate.
    - exfalso. destruct (ce_messages_last p c) as (l & b & Hl), (ir_messages_last p' c') as (l' & b' & Hl').
      rewrite Hl, Hl' in H. revert H. apply extend_last_neq. discriminate.
    - exfalso. destruct (ce_messages_last p c) as (l & b & Hl), (ab_messages_last p' c') as (l' & b' & Hl').
      rewrite Hl, Hl' in H. revert H. apply extend_last_neq. discriminate.
    - exfalso. destruct (ce_messages_last p c) as (l & b & Hl), (ib_messages_last p' c') as (l' & b' & Hl').
      rewrite Hl, Hl' in H. revert H. apply extend_last_neq. discriminate.
    - exfalso. destruct (ce_messages_last p c) as (l & b & Hl), (vc_messages_last p' c') as (l' & b' & Hl').
      rewrite Hl, Hl' in H. revert H. apply extend_last_neq. discriminate.
    - apply (ce_transcript_inj L) in H as (-> & -> & ->). auto.
  Qed.
End all_systems.
