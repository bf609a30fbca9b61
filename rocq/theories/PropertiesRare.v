(** How rare the exceptions of C17, C22, C46 and C108 are (C109): aeonflux/src/proofs.rs,
    issuer.rs and user.rs, signal-credential/src/user.rs and issuer.rs. *)
From Verif Require Import SpecRare SpecMany ForkFacts Polynomials PropertiesBlocks PropertiesGame PropertiesIssue PropertiesShow PropertiesSignal
  PropertiesCodec PropertiesMany PropertiesFork SignalFacts SpecRare Toy.
From Coq Require Import Setoid.
Local Open Scope string_scope.
Local Open Scope Z_scope.

(** ** Counting *)
Section counting.
  Context {A : Type} (question : A -> transcript) (challenge : A -> scalar).
  Notation pass := (passes question challenge transcript_eq_dec).
  Variables (x : transcript) (output : scalar -> A).
  Hypothesis own : forall c, challenge (output c) = c.

  Lemma makes_proved c c' :
    proved transcript_eq_dec question (makes x output) [c; c'] =
    Some (output c, if transcript_eq_dec (question (output c)) x then c else c').
  Proof.
    unfold proved, makes. cbn [asking prove SpecFork.answer app].
    destruct (transcript_eq_dec (question (output c)) x) as [He|Hn].
    - cbn [SpecFork.answer]. destruct (transcript_eq_dec _ _) as [_|Hn]; [reflexivity|contradiction].
    - cbn [SpecFork.answer app]. destruct (transcript_eq_dec _ x) as [He|_]; [contradiction|].
      destruct (transcript_eq_dec _ _) as [_|Hn']; [reflexivity|contradiction].
  Qed.
  Lemma makes_pass c c' : pass (makes x output) [c; c'] <-> question (output c) = x \/ c = c'.
  Proof.
    unfold passes. split.
    - intros (a & d & H & Hd). rewrite makes_proved in H. injection H as <- Hd'. rewrite own in Hd. subst d.
      destruct (transcript_eq_dec (question (output c)) x); auto.
    - intros H. eexists _, _. split; [apply makes_proved|]. rewrite own.
      destruct (transcript_eq_dec (question (output c)) x) as [_|Hn]; [reflexivity|]. destruct H; [contradiction|assumption].
  Qed.

  Lemma makes_seldom : (forall c, canonical c -> question (output c) = x -> c = 0) ->
    seldom question challenge transcript_eq_dec (makes x output).
  Proof.
    intros H0 W Hnd HW. pose proof ell_pos as He.
    destruct (range_exists ell ltac:(lia)) as (R & R1 & R2 & R3).
    set (others := filter (fun c => negb (c =? 0)) R).
    assert (Ho : List.length R = S (List.length others)).
    { assert (Hin : In 0 R) by (apply R2; lia). destruct (in_split 0 R Hin) as (l1 & l2 & HR).
      unfold others. rewrite HR in R1 |- *. rewrite filter_app. cbn [filter Z.eqb negb].
      assert (Hk : forall l, ~ In 0 l -> filter (fun c => negb (c =? 0)) l = l).
      { induction l as [|y l IH]; intros Hl; [reflexivity|]. cbn [filter]. destruct (Z.eqb_spec y 0) as [->|Hy]; [exfalso; apply Hl; left; reflexivity|].
        cbn [negb]. rewrite IH; [reflexivity|]. intros K; apply Hl; right; exact K. }
      apply NoDup_remove in R1 as [_ R1]. rewrite !Hk.
      - rewrite !app_length. cbn [List.length]. lia.
      - intros K; apply R1, in_or_app; right; exact K.
      - intros K; apply R1, in_or_app; left; exact K. }
    set (U := (map (fun c => [0; c]) R ++ map (fun c => [c; c]) others)%list).
    assert (Hincl : incl W U).
    { intros v Hv. destruct (HW v Hv) as (Hl & Hc & Hp). destruct v as [|c [|c' [|]]]; try discriminate.
      inversion_clear Hc as [|? ? C1 Hc']. inversion_clear Hc' as [|? ? C2 _].
      apply makes_pass in Hp. apply in_or_app. destruct (Z.eq_dec c 0) as [->|Hn].
      - left. apply in_map_iff. exists c'. split; [reflexivity|]. apply R2. exact C2.
      - right. destruct Hp as [Hp|<-]; [exfalso; apply Hn, H0; assumption|].
        apply in_map_iff. exists c. split; [reflexivity|]. apply filter_In. split; [apply R2; exact C1|].
        destruct (Z.eqb_spec c 0); [contradiction|reflexivity]. }
    apply NoDup_incl_length in Hincl; [|exact Hnd].
    assert (HU : List.length U = (List.length R + List.length others)%nat) by (unfold U; rewrite app_length, !map_length; reflexivity).
    assert (Hle : (List.length W <= List.length R + List.length others)%nat) by (rewrite <- HU; exact Hincl).
    clear - Hle R3 Ho. unfold scalar in *. lia.
  Qed.

  Lemma makes_often : question (output 0) = x ->
    that_often question challenge transcript_eq_dec (makes x output) (2 * ell - 1).
  Proof.
    intros H0. pose proof ell_pos as He.
    destruct (range_exists ell ltac:(lia)) as (R & R1 & R2 & R3).
    destruct (in_split 0 R) as (l1 & l2 & HR); [apply R2; lia|].
    set (others := (l1 ++ l2)%list).
    assert (N : NoDup others /\ ~ In 0 others) by (rewrite HR in R1; apply NoDup_remove; exact R1).
    assert (Ho : List.length R = S (List.length others)) by (rewrite HR; unfold others; rewrite !app_length; cbn [List.length]; lia).
    assert (Hin : forall c, In c others -> 0 <= c < ell /\ c <> 0).
    { intros c Hc. split; [|intros ->; tauto]. apply R2. rewrite HR. apply in_app_or in Hc. apply in_or_app. cbn [In]. tauto. }
    exists (map (fun c => [0; c]) R ++ map (fun c => [c; c]) others)%list. split; [|split].
    - assert (Ha : forall l1 l2 : list (list scalar), NoDup l1 -> NoDup l2 -> (forall v, In v l1 -> ~ In v l2) -> NoDup (l1 ++ l2)%list).
      { clear. induction l1 as [|v l1 IH]; intros l2 N1 N2 Hd; [exact N2|]. inversion_clear N1 as [|? ? Hv N1']. cbn [app]. constructor.
        - intros K. apply in_app_or in K as [K|K]; [contradiction|]. apply (Hd v); [left; reflexivity|exact K].
        - apply IH; [exact N1'|exact N2|]. intros w Hw. apply Hd. right. exact Hw. }
      apply Ha.
      + apply PropertiesOracle.nodup_map; [exact R1|]. intros a b _ _ H. injection H. auto.
      + apply PropertiesOracle.nodup_map; [exact (proj1 N)|]. intros a b _ _ H. injection H. auto.
      + intros v Hv Hv'. apply in_map_iff in Hv as (c & <- & _). apply in_map_iff in Hv' as (d & H & Hd). injection H as -> _. tauto.
    - rewrite app_length, !map_length. rewrite Ho in R3 |- *. clear - R3. unfold scalar in *. lia.
    - intros v Hv. apply in_app_or in Hv as [Hv|Hv]; apply in_map_iff in Hv as (c & <- & Hc).
      + split; [reflexivity|]. split; [repeat constructor; try lia; apply R2; exact Hc|]. apply makes_pass. left. exact H0.
      + apply Hin in Hc. split; [reflexivity|]. split; [repeat constructor; lia|]. apply makes_pass. right. reflexivity.
  Qed.
End counting.

Lemma seldom_bytes {A} (question : A -> transcript) challenge p :
  seldom question challenge transcript_eq_dec p -> seldom_on_bytes question challenge transcript_eq_dec p.
Proof.
  intros HS W Hnd HW.
  rewrite <- (map_length (pair 0)).
  change 2 with (Z.of_nat 2) at 3.
  apply (blocks_bound 2 2 (fun t v => t = 0 /\ passes question challenge transcript_eq_dec p v)); [lia| | |].
  - intros V HV Hin. specialize (HS (map snd V)). rewrite map_length in HS.
    assert (Hlt : Z.of_nat (List.length V) < 2 * ell).
    { apply HS.
      - apply PropertiesOracle.nodup_map; [exact HV|]. intros [t v] [t' v'] H1 H2 He. apply Hin in H1 as (_ & _ & -> & _), H2 as (_ & _ & -> & _).
        cbn [snd] in He. congruence.
      - intros v Hv. apply in_map_iff in Hv as ([t v'] & <- & Hv). apply Hin in Hv as (H1 & H2 & _ & H3). auto. }
    pose proof ell_pos. change (Z.of_nat 2) with 2. nia.
  - apply PropertiesOracle.nodup_map; [exact Hnd|]. intros a b _ _ H. congruence.
  - intros t v Hv. apply in_map_iff in Hv as (w & H & Hw). injection H as <- <-. destruct (HW _ Hw) as (H1 & H2 & H3). auto.
Qed.

(** ** The five proof systems *)
(** What the provers answer. *)
Lemma on_line_eq c s k : s_add (s_mul c s) k = on_line c s k.
Proof. unfold s_add, s_mul, on_line. rewrite Zplus_mod_idemp_l. reflexivity. Qed.

Section lines.
  Context {E : Ext} (L : ExtLaws E).

  Lemma ir_own_question t t' (p p' : ir_Publics E) s k c : canonical c ->
    extend t (ir_messages p (ir_recompute (ir_answer s k c) p)) = extend t' (ir_messages p' (ir_image p' k)) ->
    c = 0 \/ (t = t' /\ p = p' /\ ir_relation p s).
  Proof.
    intros Hcan H. destruct (Z.eq_dec c 0) as [Hc|Hc]; [auto|]. right.
    symmetry in H. apply (ir_transcript_inj L) in H as (<- & <- & H). split; [reflexivity|]. split; [reflexivity|].
    assert (Hc' : ~ c == 0) by (intros K; apply Hc; apply eqm_canonical; [exact Hcan|pose proof ell_pos; unfold canonical; lia|exact K]).
    clear Hc Hcan. unfold ir_answer in H. cbv beta zeta in H. rewrite <- !on_line_eq in H.
    destruct p' as [P Q Cx0 B A X1], s as [x0_s x1_s x0_tilde_s m1x1_s], k as [x0_r x1_r x0_tilde_r m1x1_r].
    unfold ir_recompute, ir_image in H; cbn in H. unfold ir_relation; cbn.
    injection H as H0 H1 H2.
    repeat split; reject_tac L Hc'.
  Qed.
  Lemma ab_own_question t t' (p p' : ab_Publics E) s k c : canonical c ->
    extend t (ab_messages p (ab_recompute (ab_answer s k c) p)) = extend t' (ab_messages p' (ab_image p' k)) ->
    c = 0 \/ (t = t' /\ p = p' /\ ab_relation p s).
  Proof.
    intros Hcan H. destruct (Z.eq_dec c 0) as [Hc|Hc]; [auto|]. right.
    symmetry in H. apply (ab_transcript_inj L) in H as (<- & <- & H). split; [reflexivity|]. split; [reflexivity|].
    assert (Hc' : ~ c == 0) by (intros K; apply Hc; apply eqm_canonical; [exact Hcan|pose proof ell_pos; unfold canonical; lia|exact K]).
    clear Hc Hcan. unfold ab_answer in H. cbv beta zeta in H. rewrite <- !on_line_eq in H.
    destruct p' as [B A D ea0 ea1], s as [d_s e0_s m0_s nonce_s], k as [d_r e0_r m0_r nonce_r].
    unfold ab_recompute, ab_image in H; cbn in H. unfold ab_relation; cbn.
    injection H as H0 H1 H2.
    repeat split; reject_tac L Hc'.
  Qed.
  Lemma ib_own_question t t' (p p' : ib_Publics E) s k c : canonical c ->
    extend t (ib_messages p (ib_recompute (ib_answer s k c) p)) = extend t' (ib_messages p' (ib_image p' k)) ->
    c = 0 \/ (t = t' /\ p = p' /\ ib_relation p s).
  Proof.
    intros Hcan H. destruct (Z.eq_dec c 0) as [Hc|Hc]; [auto|]. right.
    symmetry in H. apply (ib_transcript_inj L) in H as (<- & <- & H). split; [reflexivity|]. split; [reflexivity|].
    assert (Hc' : ~ c == 0) by (intros K; apply Hc; apply eqm_canonical; [exact Hcan|pose proof ell_pos; unfold canonical; lia|exact K]).
    clear Hc Hcan. unfold ib_answer in H. cbv beta zeta in H. rewrite <- !on_line_eq in H.
    destruct p' as [B A X0 X1 D P T00 T01 EQc EQe ea0 ea1], s as [x0_tilde_s x0_s x1_s s_s b_s t0_s], k as [x0_tilde_r x0_r x1_r s_r b_r t0_r].
    unfold ib_recompute, ib_image in H; cbn in H. unfold ib_relation; cbn.
    injection H as H0 H1 H2 H3 H4 H5 H6.
    repeat split; reject_tac L Hc'.
  Qed.
  Lemma vc_own_question t t' (p p' : vc_Publics E) s k c : canonical c ->
    extend t (vc_messages p (vc_recompute (vc_answer s k c) p)) = extend t' (vc_messages p' (vc_image p' k)) ->
    c = 0 \/ (t = t' /\ p = p' /\ vc_relation p s).
  Proof.
    intros Hcan H. destruct (Z.eq_dec c 0) as [Hc|Hc]; [auto|]. right.
    symmetry in H. apply (vc_transcript_inj L) in H as (<- & <- & H). split; [reflexivity|]. split; [reflexivity|].
    assert (Hc' : ~ c == 0) by (intros K; apply Hc; apply eqm_canonical; [exact Hcan|pose proof ell_pos; unfold canonical; lia|exact K]).
    clear Hc Hcan. unfold vc_answer in H. cbv beta zeta in H. rewrite <- !on_line_eq in H.
    destruct p' as [B A X0 P V Cm0], s as [m0_s z0_s minus_zQ_s], k as [m0_r z0_r minus_zQ_r].
    unfold vc_recompute, vc_image in H; cbn in H. unfold vc_relation; cbn.
    injection H as H0 H1.
    repeat split; reject_tac L Hc'.
  Qed.
  Lemma ce_own_question t t' (p p' : ce_Publics E) s k c : canonical c ->
    extend t (ce_messages p (ce_recompute (ce_answer s k c) p)) = extend t' (ce_messages p' (ce_image p' k)) ->
    c = 0 \/ (t = t' /\ p = p' /\ ce_relation p s).
  Proof.
    intros Hcan H. destruct (Z.eq_dec c 0) as [Hc|Hc]; [auto|]. right.
    symmetry in H. apply (ce_transcript_inj L) in H as (<- & <- & H). split; [reflexivity|]. split; [reflexivity|].
    assert (Hc' : ~ c == 0) by (intros K; apply Hc; apply eqm_canonical; [exact Hcan|pose proof ell_pos; unfold canonical; lia|exact K]).
    clear Hc Hcan. unfold ce_answer in H. cbv beta zeta in H. rewrite <- !on_line_eq in H.
    destruct p' as [B A P Cm0 Cm1], s as [m0_s z0_s z1_s], k as [m0_r z0_r z1_r].
    unfold ce_recompute, ce_image in H; cbn in H. unfold ce_relation; cbn.
    injection H as H0 H1.
    repeat split; reject_tac L Hc'.
  Qed.
  Lemma ir_zero_question (p : ir_Publics E) s k : ir_recompute (ir_answer s k 0) p = ir_image p k.
  Proof.
    unfold ir_answer. cbv beta zeta. unfold on_line. rewrite !Z.mul_0_l, !Z.add_0_l.
    destruct p, k. unfold ir_recompute, ir_image; cbn. f_equal; rewrite ?(padd_zero_r L); pring L.
  Qed.
  Lemma ab_zero_question (p : ab_Publics E) s k : ab_recompute (ab_answer s k 0) p = ab_image p k.
  Proof.
    unfold ab_answer. cbv beta zeta. unfold on_line. rewrite !Z.mul_0_l, !Z.add_0_l.
    destruct p, k. unfold ab_recompute, ab_image; cbn. f_equal; rewrite ?(padd_zero_r L); pring L.
  Qed.
  Lemma ib_zero_question (p : ib_Publics E) s k : ib_recompute (ib_answer s k 0) p = ib_image p k.
  Proof.
    unfold ib_answer. cbv beta zeta. unfold on_line. rewrite !Z.mul_0_l, !Z.add_0_l.
    destruct p, k. unfold ib_recompute, ib_image; cbn. f_equal; rewrite ?(padd_zero_r L); pring L.
  Qed.
  Lemma vc_zero_question (p : vc_Publics E) s k : vc_recompute (vc_answer s k 0) p = vc_image p k.
  Proof.
    unfold vc_answer. cbv beta zeta. unfold on_line. rewrite !Z.mul_0_l, !Z.add_0_l.
    destruct p, k. unfold vc_recompute, vc_image; cbn. f_equal; rewrite ?(padd_zero_r L); pring L.
  Qed.
  Lemma ce_zero_question (p : ce_Publics E) s k : ce_recompute (ce_answer s k 0) p = ce_image p k.
  Proof.
    unfold ce_answer. cbv beta zeta. unfold on_line. rewrite !Z.mul_0_l, !Z.add_0_l.
    destruct p, k. unfold ce_recompute, ce_image; cbn. f_equal; rewrite ?(padd_zero_r L); pring L.
  Qed.
End lines.

(** ** C109 *)
(** In each of the five systems a prover with secrets [s] for the statement [p'] asks
    for one challenge, and the verifier of the statement [p] for one.  When [p]
    is the statement of the prover and [s] is a witness, it passes whatever the
    answers are.  In all other cases it passes for fewer than [2 * ell] of the [ell ^ 2]
    pairs of answers.  When only the witness is wrong it passes for [2 * ell - 1]. *)
Theorem C109_issuance_revealed : forall E, ExtLaws E -> forall t t' (p p' : ir_Publics E) s k,
  let x := extend t' (ir_messages p' (ir_image p' k)) in
  let asked pf := extend t (ir_messages p (ir_recompute pf p)) in
  let prover := makes x (ir_answer s k) in
  ir_create_with (ir_create_absorb t' p') p' s k = ir_answer s k (@challenge_of E x) /\
  (forall pf, ir_verify pf t p = Ok tt <-> ir_challenge pf = @challenge_of E (asked pf)) /\
  (t = t' /\ p = p' /\ ir_relation p s -> forall c c', passes asked ir_challenge transcript_eq_dec prover [c; c']) /\
  (~ (t = t' /\ p = p' /\ ir_relation p s) ->
   seldom asked ir_challenge transcript_eq_dec prover /\ seldom_on_bytes asked ir_challenge transcript_eq_dec prover) /\
  (t = t' /\ p = p' /\ ~ ir_relation p s -> that_often asked ir_challenge transcript_eq_dec prover (2 * ell - 1)).
Proof.
  intros E L t t' p p' s k x asked prover.
  assert (Hown : forall c, ir_challenge (ir_answer s k c) = c) by reflexivity.
  split; [rewrite (ir_create_with_eq L); unfold ir_answer; cbv beta zeta; rewrite <- !on_line_eq; reflexivity|].
  split; [intros pf; apply ir_verify_iff|]. split; [|split].
  - intros (<- & <- & HR) c c'. apply (makes_pass asked ir_challenge x (ir_answer s k) Hown). left.
    unfold asked, x. do 2 f_equal. unfold ir_answer. cbv beta zeta. rewrite <- !on_line_eq. apply (ir_recompute_spec L). exact HR.
  - intros Hn.
    assert (HS : seldom asked ir_challenge transcript_eq_dec prover).
    { apply (makes_seldom asked ir_challenge x (ir_answer s k) Hown). intros c Hc Hx.
      apply (ir_own_question L) in Hx as [Hx|Hx]; [exact Hx|contradiction|exact Hc]. }
    split; [exact HS|]. apply seldom_bytes. exact HS.
  - intros (<- & <- & _). apply (makes_often asked ir_challenge x (ir_answer s k) Hown).
    unfold asked, x. rewrite (ir_zero_question L). reflexivity.
Qed.
Print Assumptions C109_issuance_revealed.
Theorem C109_attributes_blinded : forall E, ExtLaws E -> forall t t' (p p' : ab_Publics E) s k,
  let x := extend t' (ab_messages p' (ab_image p' k)) in
  let asked pf := extend t (ab_messages p (ab_recompute pf p)) in
  let prover := makes x (ab_answer s k) in
  ab_create_with (ab_create_absorb t' p') p' s k = ab_answer s k (@challenge_of E x) /\
  (forall pf, ab_verify pf t p = Ok tt <-> ab_challenge pf = @challenge_of E (asked pf)) /\
  (t = t' /\ p = p' /\ ab_relation p s -> forall c c', passes asked ab_challenge transcript_eq_dec prover [c; c']) /\
  (~ (t = t' /\ p = p' /\ ab_relation p s) ->
   seldom asked ab_challenge transcript_eq_dec prover /\ seldom_on_bytes asked ab_challenge transcript_eq_dec prover) /\
  (t = t' /\ p = p' /\ ~ ab_relation p s -> that_often asked ab_challenge transcript_eq_dec prover (2 * ell - 1)).
Proof.
  intros E L t t' p p' s k x asked prover.
  assert (Hown : forall c, ab_challenge (ab_answer s k c) = c) by reflexivity.
  split; [rewrite (ab_create_with_eq L); unfold ab_answer; cbv beta zeta; rewrite <- !on_line_eq; reflexivity|].
  split; [intros pf; apply ab_verify_iff|]. split; [|split].
  - intros (<- & <- & HR) c c'. apply (makes_pass asked ab_challenge x (ab_answer s k) Hown). left.
    unfold asked, x. do 2 f_equal. unfold ab_answer. cbv beta zeta. rewrite <- !on_line_eq. apply (ab_recompute_spec L). exact HR.
  - intros Hn.
    assert (HS : seldom asked ab_challenge transcript_eq_dec prover).
    { apply (makes_seldom asked ab_challenge x (ab_answer s k) Hown). intros c Hc Hx.
      apply (ab_own_question L) in Hx as [Hx|Hx]; [exact Hx|contradiction|exact Hc]. }
    split; [exact HS|]. apply seldom_bytes. exact HS.
  - intros (<- & <- & _). apply (makes_often asked ab_challenge x (ab_answer s k) Hown).
    unfold asked, x. rewrite (ab_zero_question L). reflexivity.
Qed.
Print Assumptions C109_attributes_blinded.
Theorem C109_issuance_blinded : forall E, ExtLaws E -> forall t t' (p p' : ib_Publics E) s k,
  let x := extend t' (ib_messages p' (ib_image p' k)) in
  let asked pf := extend t (ib_messages p (ib_recompute pf p)) in
  let prover := makes x (ib_answer s k) in
  ib_create_with (ib_create_absorb t' p') p' s k = ib_answer s k (@challenge_of E x) /\
  (forall pf, ib_verify pf t p = Ok tt <-> ib_challenge pf = @challenge_of E (asked pf)) /\
  (t = t' /\ p = p' /\ ib_relation p s -> forall c c', passes asked ib_challenge transcript_eq_dec prover [c; c']) /\
  (~ (t = t' /\ p = p' /\ ib_relation p s) ->
   seldom asked ib_challenge transcript_eq_dec prover /\ seldom_on_bytes asked ib_challenge transcript_eq_dec prover) /\
  (t = t' /\ p = p' /\ ~ ib_relation p s -> that_often asked ib_challenge transcript_eq_dec prover (2 * ell - 1)).
Proof.
  intros E L t t' p p' s k x asked prover.
  assert (Hown : forall c, ib_challenge (ib_answer s k c) = c) by reflexivity.
  split; [rewrite (ib_create_with_eq L); unfold ib_answer; cbv beta zeta; rewrite <- !on_line_eq; reflexivity|].
  split; [intros pf; apply ib_verify_iff|]. split; [|split].
  - intros (<- & <- & HR) c c'. apply (makes_pass asked ib_challenge x (ib_answer s k) Hown). left.
    unfold asked, x. do 2 f_equal. unfold ib_answer. cbv beta zeta. rewrite <- !on_line_eq. apply (ib_recompute_spec L). exact HR.
  - intros Hn.
    assert (HS : seldom asked ib_challenge transcript_eq_dec prover).
    { apply (makes_seldom asked ib_challenge x (ib_answer s k) Hown). intros c Hc Hx.
      apply (ib_own_question L) in Hx as [Hx|Hx]; [exact Hx|contradiction|exact Hc]. }
    split; [exact HS|]. apply seldom_bytes. exact HS.
  - intros (<- & <- & _). apply (makes_often asked ib_challenge x (ib_answer s k) Hown).
    unfold asked, x. rewrite (ib_zero_question L). reflexivity.
Qed.
Print Assumptions C109_issuance_blinded.
Theorem C109_valid_credential : forall E, ExtLaws E -> forall t t' (p p' : vc_Publics E) s k,
  let x := extend t' (vc_messages p' (vc_image p' k)) in
  let asked pf := extend t (vc_messages p (vc_recompute pf p)) in
  let prover := makes x (vc_answer s k) in
  vc_create_with (vc_create_absorb t' p') p' s k = vc_answer s k (@challenge_of E x) /\
  (forall pf, vc_verify pf t p = Ok tt <-> vc_challenge pf = @challenge_of E (asked pf)) /\
  (t = t' /\ p = p' /\ vc_relation p s -> forall c c', passes asked vc_challenge transcript_eq_dec prover [c; c']) /\
  (~ (t = t' /\ p = p' /\ vc_relation p s) ->
   seldom asked vc_challenge transcript_eq_dec prover /\ seldom_on_bytes asked vc_challenge transcript_eq_dec prover) /\
  (t = t' /\ p = p' /\ ~ vc_relation p s -> that_often asked vc_challenge transcript_eq_dec prover (2 * ell - 1)).
Proof.
  intros E L t t' p p' s k x asked prover.
  assert (Hown : forall c, vc_challenge (vc_answer s k c) = c) by reflexivity.
  split; [rewrite (vc_create_with_eq L); unfold vc_answer; cbv beta zeta; rewrite <- !on_line_eq; reflexivity|].
  split; [intros pf; apply vc_verify_iff|]. split; [|split].
  - intros (<- & <- & HR) c c'. apply (makes_pass asked vc_challenge x (vc_answer s k) Hown). left.
    unfold asked, x. do 2 f_equal. unfold vc_answer. cbv beta zeta. rewrite <- !on_line_eq. apply (vc_recompute_spec L). exact HR.
  - intros Hn.
    assert (HS : seldom asked vc_challenge transcript_eq_dec prover).
    { apply (makes_seldom asked vc_challenge x (vc_answer s k) Hown). intros c Hc Hx.
      apply (vc_own_question L) in Hx as [Hx|Hx]; [exact Hx|contradiction|exact Hc]. }
    split; [exact HS|]. apply seldom_bytes. exact HS.
  - intros (<- & <- & _). apply (makes_often asked vc_challenge x (vc_answer s k) Hown).
    unfold asked, x. rewrite (vc_zero_question L). reflexivity.
Qed.
Print Assumptions C109_valid_credential.
Theorem C109_committed_values_equal : forall E, ExtLaws E -> forall t t' (p p' : ce_Publics E) s k,
  let x := extend t' (ce_messages p' (ce_image p' k)) in
  let asked pf := extend t (ce_messages p (ce_recompute pf p)) in
  let prover := makes x (ce_answer s k) in
  ce_create_with (ce_create_absorb t' p') p' s k = ce_answer s k (@challenge_of E x) /\
  (forall pf, ce_verify pf t p = Ok tt <-> ce_challenge pf = @challenge_of E (asked pf)) /\
  (t = t' /\ p = p' /\ ce_relation p s -> forall c c', passes asked ce_challenge transcript_eq_dec prover [c; c']) /\
  (~ (t = t' /\ p = p' /\ ce_relation p s) ->
   seldom asked ce_challenge transcript_eq_dec prover /\ seldom_on_bytes asked ce_challenge transcript_eq_dec prover) /\
  (t = t' /\ p = p' /\ ~ ce_relation p s -> that_often asked ce_challenge transcript_eq_dec prover (2 * ell - 1)).
Proof.
  intros E L t t' p p' s k x asked prover.
  assert (Hown : forall c, ce_challenge (ce_answer s k c) = c) by reflexivity.
  split; [rewrite (ce_create_with_eq L); unfold ce_answer; cbv beta zeta; rewrite <- !on_line_eq; reflexivity|].
  split; [intros pf; apply ce_verify_iff|]. split; [|split].
  - intros (<- & <- & HR) c c'. apply (makes_pass asked ce_challenge x (ce_answer s k) Hown). left.
    unfold asked, x. do 2 f_equal. unfold ce_answer. cbv beta zeta. rewrite <- !on_line_eq. apply (ce_recompute_spec L). exact HR.
  - intros Hn.
    assert (HS : seldom asked ce_challenge transcript_eq_dec prover).
    { apply (makes_seldom asked ce_challenge x (ce_answer s k) Hown). intros c Hc Hx.
      apply (ce_own_question L) in Hx as [Hx|Hx]; [exact Hx|contradiction|exact Hc]. }
    split; [exact HS|]. apply seldom_bytes. exact HS.
  - intros (<- & <- & _). apply (makes_often asked ce_challenge x (ce_answer s k) Hown).
    unfold asked, x. rewrite (ce_zero_question L). reflexivity.
Qed.
Print Assumptions C109_committed_values_equal.

(** A holder of a tag that does not fit the attribute (C17). *)
Theorem C109_invalid_credential : forall E, ExtLaws E ->
  forall (i : Issuer E) (u : User E) c m x1 z0 r os p r' os',
  consistent i -> sk_xn (kp_secret (iss_keypair i)) = [x1] -> user_of i u ->
  us_credential u = Some c -> cr_attributes c = [m] ->
  show u [z0] r os = Ok (p, r', os') ->
  pr_rerandomized_nonce p <> pzero ->
  ~ mac_equation (kp_secret (iss_keypair i)) [m] (cr_mac c) ->
  let params := iss_system_parameters i in
  let rr := fst (scalar_random (@show_csprng E r)) in
  let zQ := fst (scalar_random (snd (scalar_random (@show_csprng E r)))) in
  let q := shown_publics params (smul x1 (sp_h params)) c m z0 rr zQ in
  let question := presentation_question i x1 in
  let challenge := fun p : CredentialPresentation E => vc_challenge (pr_proof p) in
  exists k,
    let x := extend show_transcript (vc_messages q (vc_image q k)) in
    let output := fun c => pr_with p (vc_answer (shown_secrets m z0 zQ) k c) in
    p = output (@challenge_of E x) /\
    (issuer_verify i p = Ok {| vf_presentation := p |} <-> challenge p = @challenge_of E (question p)) /\
    seldom question challenge transcript_eq_dec (makes x output) /\
    seldom_on_bytes question challenge transcript_eq_dec (makes x output).
Proof.
  intros E L i u c m x1 z0 r os p r' os' Hc Hx Hu Hcr Ha Hsh Hn Hbad params rr zQ q question challenge.
  destruct (C17_invalid_credential_rejected E L i u c m x1 z0 r os p r' os' Hc Hx Hu Hcr Ha Hsh Hn Hbad) as (k & Hpe & _).
  fold params rr zQ in Hpe. exists k. cbv zeta.
  set (x := extend show_transcript (vc_messages q (vc_image q k))).
  set (s := shown_secrets m z0 zQ).
  split.
  { rewrite Hpe. unfold shown, pr_with. cbn [pr_rerandomized_mac_commitment pr_rerandomized_nonce pr_attributes_revealed pr_attributes_blinded pr_proof].
    f_equal. exact (proj1 (C109_valid_credential E L show_transcript show_transcript q q s k)). }
  split.
  { rewrite (C83_presentation_taken E L i x1 p Hc Hx) by (rewrite Hpe; reflexivity).
    unfold taken_presentation. fold question. split; [intros (_ & _ & H); exact H|intros H]. rewrite Hpe. repeat split. rewrite <- Hpe. exact H. }
  assert (HS : seldom question challenge transcript_eq_dec (makes x (fun c => pr_with p (vc_answer s k c)))).
  { apply makes_seldom; [reflexivity|]. intros d Hd Hq. unfold question, presentation_question, presentation_hashed in Hq. cbv zeta in Hq.
    apply (vc_own_question L) in Hq as [Hq|(_ & Hq & _)]; [exact Hq| |exact Hd]. exfalso.
    apply Hbad. apply (apply_to_tag_equation_iff L rr).
    - intros Hz. apply Hn. rewrite Hpe. cbn [shown pr_rerandomized_nonce]. rewrite (smul_eqm L _ _ _ Hz). apply smul_0.
    - apply (shown_publics_iff L i c x1 m z0 rr zQ Hx). intros rand. etransitivity; [|exact Hq].
      cbn [pr_with pr_rerandomized_nonce pr_rerandomized_mac_commitment pr_attributes_blinded]. rewrite Hpe. reflexivity. }
  split; [exact HS|]. apply seldom_bytes. exact HS.
Qed.
Print Assumptions C109_invalid_credential.

(** A presentation of several attributes whose nonces or attributes do not fit (C108). *)
Theorem C109_several_attributes : forall E, ExtLaws E -> forall (i : Issuer E) u c m0 ms z0 zs r os p r' os',
  consistent i -> holds_all i u c (m0 :: ms) -> (List.length zs <= List.length ms)%nat ->
  let params := iss_system_parameters i in
  let h := sp_h params in
  let key := kp_secret (iss_keypair i) in
  let xs := sk_xn key in
  let P := smul (fst (scalar_random (@show_csprng E r))) (tag_nonce (cr_mac c)) in
  let zQ := fst (scalar_random (snd (scalar_random (@show_csprng E r)))) in
  let X0 := smul (hd 0 xs) h in
  let C := padd (smul m0 P) (smul z0 h) in
  let q := about params X0 P (psub (smul (dot xs (z0 :: zs)) h) (smul zQ h)) C in
  show u (z0 :: zs) r os = Ok (p, r', os') ->
  ~ (smul (dot (tl xs) zs) h = pzero /\
     smul (dot (skipn (S (List.length zs)) xs) (skipn (List.length zs) ms)) P = pzero) ->
  let question := fun p : CredentialPresentation E =>
    let q' := about params X0 (pr_rerandomized_nonce p) (remainder key p) (hd pzero (pr_attributes_blinded p)) in
    extend show_transcript (vc_messages q' (vc_recompute (pr_proof p) q')) in
  let challenge := fun p : CredentialPresentation E => vc_challenge (pr_proof p) in
  exists k,
    let x := extend show_transcript (vc_messages q (vc_image q k)) in
    let output := fun c => pr_with p (vc_answer (shown_secrets m0 z0 zQ) k c) in
    p = output (@challenge_of E x) /\
    (issuer_verify i p = Ok {| vf_presentation := p |} <-> challenge p = @challenge_of E (question p)) /\
    seldom question challenge transcript_eq_dec (makes x output) /\
    seldom_on_bytes question challenge transcript_eq_dec (makes x output).
Proof.
  intros E L i u c m0 ms z0 zs r os p r' os' Hc Hu Hl params h key xs P zQ X0 C q Hsh Hno question challenge.
  destruct (presented E L i u c m0 ms z0 zs r os Hc Hu Hl) as (p1 & r1 & os1 & k & H1 & H2 & H3 & H4 & H5 & H6 & Hver & Hrel & Hq).
  fold params h key xs P zQ X0 C q in H2, H5, H6, Hver, Hrel, Hq. cbv zeta in Hver, Hq.
  rewrite Hsh in H1. apply ok3 in H1 as [<- _].
  exists k. cbv zeta.
  set (x := extend show_transcript (vc_messages q (vc_image q k))).
  set (s := shown_secrets m0 z0 zQ).
  assert (HC : hd pzero (pr_attributes_blinded p) = C) by (rewrite H5; reflexivity).
  split.
  { destruct p as [CQ N rev bl pf]. unfold pr_with. cbn [pr_rerandomized_mac_commitment pr_rerandomized_nonce pr_attributes_revealed pr_attributes_blinded pr_proof] in *.
    f_equal. rewrite H6. exact (proj1 (C109_valid_credential E L show_transcript show_transcript q q s k)). }
  split.
  { rewrite Hver. unfold challenge, question. rewrite H2, HC. cbv zeta. rewrite <- (vc_verify_iff (pr_proof p)).
    destruct (vc_verify (pr_proof p) show_transcript (about params X0 P (remainder key p) C)) as [[]|[]|]; split; congruence. }
  assert (HS : seldom question challenge transcript_eq_dec (makes x (fun c => pr_with p (vc_answer s k c)))).
  { apply makes_seldom; [reflexivity|]. intros d Hd Hx. unfold question in Hx. cbv zeta in Hx.
    apply (vc_own_question L) in Hx as [Hx|(_ & Hx & HR)]; [exact Hx| |exact Hd]. exfalso. apply Hno.
    change (about params X0 (pr_rerandomized_nonce p) (remainder key p) (hd pzero (pr_attributes_blinded p)) = q) in Hx.
    change (vc_relation (about params X0 (pr_rerandomized_nonce p) (remainder key p) (hd pzero (pr_attributes_blinded p))) s) in HR.
    rewrite Hx in HR. rewrite H2, HC in Hx. split; [apply Hrel; exact HR|apply Hq; exact Hx]. }
  split; [exact HS|]. apply seldom_bytes. exact HS.
Qed.
Print Assumptions C109_several_attributes.

(** A member who shows an entry that the opening does not open (C22). *)
Theorem C109_wrong_entry : forall E, ExtLaws E ->
  forall (i : Issuer E) u c m ms X0 Xs entry r os p r' os',
  us_system_parameters (su_user u) = iss_system_parameters i ->
  us_credential (su_user u) = Some c -> cr_attributes c = m :: ms ->
  pk_Xn (us_issuer_parameters (su_user u)) = X0 :: Xs ->
  re_commitment entry <> padd (smul m (sp_h (iss_system_parameters i)))
                              (smul (re_opening entry) (sp_g (iss_system_parameters i))) ->
  signal_show u r os entry = Ok (p, r', os') ->
  let params := iss_system_parameters i in
  let z0 := fst (scalar_random r) in
  let P := pr_rerandomized_nonce (sc_presentation p) in
  let q := roster_publics params P (padd (smul m P) (smul z0 (sp_h params))) (re_commitment entry) in
  let s := {| ces_m0 := m; ces_z0 := z0; ces_z1 := re_opening entry |} in
  let question := membership_question params in
  let challenge := fun p : SignalCredentialPresentation E => ce_challenge (sc_roster_membership_proof p) in
  exists k,
    let x := extend roster_transcript (ce_messages q (ce_image q k)) in
    let output := fun c => sc_with p (ce_answer s k c) in
    p = output (@challenge_of E x) /\
    (verify_roster_membership i {| vs_presentation := p |} = Ok (sc_roster_entry_commitment p) <->
     challenge p = @challenge_of E (question p)) /\
    seldom question challenge transcript_eq_dec (makes x output) /\
    seldom_on_bytes question challenge transcript_eq_dec (makes x output) /\
    that_often question challenge transcript_eq_dec (makes x output) (2 * ell - 1).
Proof.
  intros E L i u c m ms X0 Xs entry r os p r' os' Hp Hu Ha HX Hne Hsh params z0 P q s question challenge.
  destruct (signal_show_ok u c m ms X0 Xs entry r os Hu Ha HX) as (rand & k & Hsh'). cbv zeta in Hsh'.
  destruct Hsh' as (r1 & os1 & Hsh'). rewrite Hsh' in Hsh. apply ok3 in Hsh as [Hpe _]. clear Hsh' r' os' r1 os1.
  rewrite Hp in Hpe. fold params z0 s in Hpe.
  assert (HP : P = smul (fst (scalar_random (@show_csprng E (snd (scalar_random r))))) (tag_nonce (cr_mac c)))
    by (unfold P; rewrite <- Hpe; reflexivity).
  rewrite <- HP in Hpe. fold q in Hpe.
  assert (HB : pr_attributes_blinded (sc_presentation p) = [padd (smul m P) (smul z0 (sp_h params))])
    by (rewrite HP, <- Hpe; reflexivity).
  assert (HR : sc_roster_entry_commitment p = re_commitment entry) by (rewrite <- Hpe; reflexivity).
  assert (HF : sc_roster_membership_proof p = ce_create_with (ce_create_absorb roster_transcript q) q s k) by (rewrite <- Hpe; reflexivity).
  clear Hpe HP. exists k. cbv zeta.
  set (x := extend roster_transcript (ce_messages q (ce_image q k))).
  pose proof (C109_committed_values_equal E L roster_transcript roster_transcript q q s k) as (M1 & _).
  assert (HQ : forall pf, question (sc_with p pf) = extend roster_transcript (ce_messages q (ce_recompute pf q))).
  { intros pf. unfold question, membership_question, membership_hashed.
    cbn [sc_with sc_presentation sc_roster_entry_commitment sc_roster_membership_proof]. rewrite HB, HR. reflexivity. }
  split.
  { destruct p as [R pr pf]. unfold sc_with. cbn [sc_roster_entry_commitment sc_presentation sc_roster_membership_proof] in *.
    f_equal. rewrite HF. exact M1. }
  split.
  { rewrite (C83_membership_taken E L i p) by (rewrite HB; discriminate). unfold taken_membership.
    split; [intros [_ H]; exact H|intros H; split; [rewrite HB; discriminate|exact H]]. }
  assert (HS : seldom question challenge transcript_eq_dec (makes x (fun c => sc_with p (ce_answer s k c)))).
  { apply makes_seldom; [reflexivity|]. intros d Hd Hx. rewrite HQ in Hx.
    apply (ce_own_question L) in Hx as [Hx|(_ & _ & HRel)]; [exact Hx| |exact Hd]. exfalso. apply Hne.
    exact (proj1 (roster_relation params P m z0 entry) HRel). }
  split; [exact HS|]. split; [apply seldom_bytes; exact HS|].
  apply makes_often; [reflexivity|]. rewrite HQ, (ce_zero_question L). reflexivity.
Qed.
Print Assumptions C109_wrong_entry.

(** An issuer whose public key does not fit, or who issues several attributes (C46). *)
Theorem C109_issuance : forall E, ExtLaws E -> forall (i : Issuer E) u rq r os iss r' os' X1 Xs x1 xs m1 ms,
  user_of i u -> issue i rq r os = Ok (iss, r', os') ->
  pk_Xn (kp_public (iss_keypair i)) = X1 :: Xs -> sk_xn (kp_secret (iss_keypair i)) = x1 :: xs ->
  rq_attributes_revealed rq = m1 :: ms ->
  ~ (smul (dot xs ms) (tag_nonce (cr_mac (is_credential iss))) = pzero /\
     X1 = smul x1 (sp_h (iss_system_parameters i))) ->
  let params := iss_system_parameters i in
  let q := issuance_publics params X1 iss in
  let question := issuance_hashed params X1 in
  let challenge := fun iss : CredentialIssuance E => ir_challenge (is_proof iss) in
  exists x0_tilde k,
    let s := {| irs_x0 := sk_x0 (kp_secret (iss_keypair i)); irs_x1 := x1; irs_x0_tilde := x0_tilde; irs_m1x1 := s_mul m1 x1 |} in
    let x := extend issuance_transcript (ir_messages q (ir_image q k)) in
    let output := fun c => is_with iss (ir_answer s k c) in
    is_secret_key_commitment iss = padd (smul (irs_x0 s) (sp_g params)) (smul x0_tilde (sp_h params)) /\
    iss = output (@challenge_of E x) /\
    (snd (obtain_finish u (Some iss)) = Ok tt <-> challenge iss = @challenge_of E (question iss)) /\
    seldom question challenge transcript_eq_dec (makes x output) /\
    seldom_on_bytes question challenge transcript_eq_dec (makes x output) /\
    that_often question challenge transcript_eq_dec (makes x output) (2 * ell - 1).
Proof.
  intros E L i u rq r os iss r' os' X1 Xs x1 xs m1 ms [Hp Hk] H HX Hx Hm Hno params q question challenge.
  apply (issue_inv L) in H as (X1' & Xs' & x1' & xs' & m1' & ms' & tag & x0t & k & H). cbv zeta in H.
  destruct H as (HX' & Hx' & Hm' & Hl & He & Hn & HC & Hcr & Hpf).
  rewrite HX in HX'. rewrite Hx in Hx'. rewrite Hm in Hm'. injection HX' as <- <-. injection Hx' as <- <-. injection Hm' as <- <-.
  exists x0t, k. cbv zeta. fold params q in Hpf.
  set (s := {| irs_x0 := sk_x0 (kp_secret (iss_keypair i)); irs_x1 := x1; irs_x0_tilde := x0t; irs_m1x1 := s_mul m1 x1 |}) in *.
  set (x := extend issuance_transcript (ir_messages q (ir_image q k))).
  split; [exact HC|].
  assert (HQ : forall pf, question (is_with iss pf) = extend issuance_transcript (ir_messages q (ir_recompute pf q))) by (intros pf; reflexivity).
  split.
  { transitivity (is_with iss (is_proof iss)); [destruct iss; reflexivity|]. f_equal. rewrite Hpf.
    exact (proj1 (C109_issuance_revealed E L issuance_transcript issuance_transcript q q s k)). }
  split.
  { rewrite (C11_acceptance E L u X1 Xs iss) by (rewrite Hk; exact HX). rewrite Hp. reflexivity. }
  assert (HS : seldom question challenge transcript_eq_dec (makes x (fun c => is_with iss (ir_answer s k c)))).
  { apply makes_seldom; [reflexivity|]. intros d Hd Hq. rewrite HQ in Hq.
    apply (ir_own_question L) in Hq as [Hq|(_ & _ & HR)]; [exact Hq| |exact Hd]. exfalso. apply Hno.
    apply (honest_relation L i iss X1 x1 xs m1 ms tag x0t Hx He HC) in HR; [|rewrite Hcr; reflexivity].
    rewrite Hcr. exact HR. }
  split; [exact HS|]. split; [apply seldom_bytes; exact HS|].
  apply makes_often; [reflexivity|]. rewrite HQ, (ir_zero_question L). reflexivity.
Qed.
Print Assumptions C109_issuance.

(** ** Examples *)
(** A statement of which [wrong] is not a witness, and [right] is one. *)
Example C109_met_systems :
  let q := roster_publics sample_params (pt 3) (pt (100 * 3 + 4 * 33)) (pt (100 * 33 + 6)) in
  ce_relation q {| ces_m0 := 100; ces_z0 := 4; ces_z1 := 6 |} /\
  ~ ce_relation q {| ces_m0 := 101; ces_z0 := 4; ces_z1 := 6 |}.
Proof.
  split; [split; apply toy_eq; vm_compute; reflexivity|].
  intros [H _]. apply (f_equal tv) in H. vm_compute in H. discriminate.
Qed.
(** With a witness every pair of answers will do, without one, those with a first answer
    zero, and those that agree. *)
Example C109_met_passes :
  let q := roster_publics sample_params (pt 3) (pt (100 * 3 + 4 * 33)) (pt (100 * 33 + 6)) in
  let k := {| ces_m0 := 8; ces_z0 := 9; ces_z1 := 10 |} in
  let x := extend roster_transcript (ce_messages q (ce_image q k)) in
  let asked pf := extend roster_transcript (ce_messages q (ce_recompute pf q)) in
  let tries s := passes asked ce_challenge transcript_eq_dec (makes x (ce_answer s k)) in
  tries {| ces_m0 := 100; ces_z0 := 4; ces_z1 := 6 |} [7; 11] /\
  ~ tries {| ces_m0 := 101; ces_z0 := 4; ces_z1 := 6 |} [7; 11] /\
  tries {| ces_m0 := 101; ces_z0 := 4; ces_z1 := 6 |} [0; 11] /\
  tries {| ces_m0 := 101; ces_z0 := 4; ces_z1 := 6 |} [7; 7].
Proof.
  cbv zeta. set (q := roster_publics _ _ _ _). set (k := {| ces_m0 := 8; ces_z0 := 9; ces_z1 := 10 |}).
  destruct C109_met_systems as [Hy Hn]. fold q in Hy, Hn.
  pose proof (C109_committed_values_equal toy toy_laws roster_transcript roster_transcript q q
    {| ces_m0 := 100; ces_z0 := 4; ces_z1 := 6 |} k) as (_ & _ & H1 & _ & _).
  split; [apply H1; auto|].
  set (x := extend _ _). set (asked := fun pf : ce_Proof => _).
  set (wrong := {| ces_m0 := 101; ces_z0 := 4; ces_z1 := 6 |}) in *.
  assert (Hp : forall c c', passes asked ce_challenge transcript_eq_dec (makes x (ce_answer wrong k)) [c; c'] <->
                            asked (ce_answer wrong k c) = x \/ c = c').
  { intros c c'. apply (makes_pass asked ce_challenge x (ce_answer wrong k)). reflexivity. }
  split; [|split; [apply Hp; left; unfold asked; rewrite (ce_zero_question toy_laws); reflexivity|apply Hp; right; reflexivity]].
  intros H. apply Hp in H as [H|H]; [|discriminate].
  apply (ce_own_question toy_laws) in H as [H|(_ & _ & H)]; [discriminate|contradiction|].
  pose proof ell_gt_252. unfold canonical. lia.
Qed.
Example C109_met_invalid_credential : consistent sample_issuer /\ user_of sample_issuer bad_holder /\
  ~ mac_equation (kp_secret (iss_keypair sample_issuer)) [101] (cr_mac sample_credential) /\
  exists p r' os', show bad_holder [3] (toy_stream 8) (toy_stream 9) = Ok (p, r', os') /\
    negb (peqb (pr_rerandomized_nonce p) pzero) && is_err (issuer_verify sample_issuer p) = true.
Proof.
  split; [apply sample_consistent|]. split; [split; reflexivity|]. split.
  - intros [_ H]. apply (f_equal tv) in H. vm_compute in H. discriminate.
  - apply run3. vm_compute. reflexivity.
Qed.
Example C109_met_several_attributes : holds_all two_issuer two_holder two_credential [100; 3] /\
  (exists p r' os', show two_holder [4; 6] (toy_stream 8) (toy_stream 9) = Ok (p, r', os') /\
     is_err (issuer_verify two_issuer p) = true) /\
  smul (dot [11] [6]) (sp_h sample_params) <> pzero.
Proof.
  destruct C108_met_presented as (H1 & H2 & _). split; [exact H1|]. split; [exact H2|].
  intros H. apply (f_equal tv) in H. vm_compute in H. discriminate.
Qed.
Example C109_met_wrong_entry :
  re_commitment (sample_entry 101) <> padd (smul 100 (sp_h sample_params)) (smul (re_opening (sample_entry 101)) (sp_g sample_params)) /\
  exists p r' os', signal_show sample_signal_holder (toy_stream 8) (toy_stream 9) (sample_entry 101) = Ok (p, r', os') /\
    is_err (verify_roster_membership sample_issuer {| vs_presentation := p |}) = true.
Proof.
  split; [intros H; apply (f_equal tv) in H; vm_compute in H; discriminate|]. apply run3. vm_compute. reflexivity.
Qed.
Example C109_met_issuance :
  let two := issuer_with toy sample_params [pt 231; pt 99] 5 [7; 3] in
  exists iss r' os', issue two (request [9; 4]) (toy_stream 1) (toy_stream 2) = Ok (iss, r', os') /\
    negb (peqb (smul (dot [3] [4]) (tag_nonce (cr_mac (is_credential iss)))) pzero) = true.
Proof. cbv zeta. apply run3. vm_compute. reflexivity. Qed.
