(** Who presents a credential as the owner of a roster entry has a credential for the
    number in the entry (C84): aeonflux/src/issuer.rs, signal-credential/src/issuer.rs. *)
From Verif Require Import SpecFork ForkFacts HeavyFacts Polynomials PropertiesGame PropertiesIssue PropertiesShow PropertiesSignal SignalFacts PropertiesFork Toy.
From Coq Require Import Setoid.

(** ** C84 *)

(** For a prover whose output has two questions: for at least half of the values for which both
    are taken there are many others for running it again from the one question, and many for
    running it again from the other. *)
Theorem C84_two_forks : forall Q A (Q_eq : forall x y : Q, {x = y} + {x <> y}) (one other : A -> Q) (taken_one taken_other : A -> scalar -> Prop)
    (p : prover Q A) q (W : list (list scalar)),
  NoDup W ->
  (forall v, In v W -> List.length v = q /\ Forall canonical v /\
     exists a c d, proved Q_eq one p v = Some (a, c) /\ taken_one a c /\ proved Q_eq other p v = Some (a, d) /\ taken_other a d) ->
  exists H : list (list scalar),
    NoDup H /\ incl H W /\ Z.of_nat (List.length W) <= 2 * Z.of_nat (List.length H) /\
    forall v, In v H -> exists F G : list (list scalar),
      NoDup F /\ Z.of_nat (List.length W) <= 4 * Z.of_nat q * (Z.of_nat (List.length F) + ell ^ (Z.of_nat q - 1)) /\
      NoDup G /\ Z.of_nat (List.length W) <= 4 * Z.of_nat q * (Z.of_nat (List.length G) + ell ^ (Z.of_nat q - 1)) /\
      forall v' v'', In v' F -> In v'' G ->
        (List.length v' = q /\ Forall canonical v') /\ (List.length v'' = q /\ Forall canonical v'') /\
        exists a c d a' c' a'' d'',
          (proved Q_eq one p v = Some (a, c) /\ taken_one a c) /\ (proved Q_eq other p v = Some (a, d) /\ taken_other a d) /\
          (proved Q_eq one p (forked (asked_at Q_eq one p v) v v') = Some (a', c') /\ taken_one a' c' /\
           one a' = one a /\ c mod ell <> c' mod ell) /\
          (proved Q_eq other p (forked (asked_at Q_eq other p v) v v'') = Some (a'', d'') /\ taken_other a'' d'' /\
           other a'' = other a /\ d mod ell <> d'' mod ell).
Proof.
  intros Q A Q_eq one other taken_one taken_other p q W Hnd HW.
  destruct (range_exists ell ltac:(pose proof ell_pos; lia)) as (R & R1 & R2 & R3).
  assert (HI : forall question : A -> Q, (forall v, In v W -> exists a c, proved Q_eq question p v = Some (a, c)) ->
    forall v, In v W -> In v (tuples R q) /\ (asked_at Q_eq question p v < q)%nat).
  { intros question Hq v Hv. destruct (HW v Hv) as (H1 & H2 & _). destruct (Hq v Hv) as (a & c & H3).
    split; [apply (in_tuples R R2); split; [exact H1|exact H2]|].
    destruct (asked_spec Q_eq _ _ _ _ _ H3) as (_ & _ & _ & H & _). rewrite <- H1. exact H. }
  assert (H1 : forall v, In v W -> exists a c, proved Q_eq one p v = Some (a, c)).
  { intros v Hv. destruct (HW v Hv) as (_ & _ & a & c & d & H & _). eauto. }
  assert (H2 : forall v, In v W -> exists a c, proved Q_eq other p v = Some (a, c)).
  { intros v Hv. destruct (HW v Hv) as (_ & _ & a & c & d & _ & _ & H & _). eauto. }
  pose proof (HI one H1) as I1. pose proof (HI other H2) as I2.
  set (i1 := asked_at Q_eq one p) in *. set (i2 := asked_at Q_eq other p) in *. set (D := 4 * Z.of_nat q).
  set (l1 := light i1 W D). set (l2 := light i2 W D).
  assert (HD : 0 <= D) by (unfold D; lia).
  exists (filter (fun v => negb (l1 v || l2 v)%bool) W).
  split; [apply NoDup_filter; exact Hnd|]. split; [intros v Hv; apply filter_In in Hv; apply Hv|]. split.
  { change (Z.of_nat (List.length (filter (fun v => negb (l1 v || l2 v)%bool) W))) with (count (fun v => negb (l1 v || l2 v)%bool) W).
    rewrite count_negb.
    assert (Ho : count (fun v => l1 v || l2 v)%bool W <= count l1 W + count l2 W).
    { apply count_or. intros v _ H. apply orb_true_iff in H. exact H. }
    pose proof (light_few R R1 R2 R3 i1 W q D I1 HD) as F1. pose proof (light_few R R1 R2 R3 i2 W q D I2 HD) as F2.
    fold l1 in F1. fold l2 in F2. unfold D in F1, F2. destruct q as [|q].
    - destruct W as [|v W']; [cbn; lia|]. pose proof (proj2 (I1 v (or_introl eq_refl))). lia.
    - unfold scalar in *. nia. }
  intros v Hv. apply filter_In in Hv as [Hv Hl]. apply negb_true_iff, orb_false_iff in Hl as [L1 L2].
  exists (forks_of R i1 W v), (forks_of R i2 W v).
  split; [exact (forks_of_nodup R R1 R2 i1 W Hnd v)|].
  split; [exact (heavy_many R R2 R3 i1 W q D I1 Hnd v HD Hv L1)|].
  split; [exact (forks_of_nodup R R1 R2 i2 W Hnd v)|].
  split; [exact (heavy_many R R2 R3 i2 W q D I2 Hnd v HD Hv L2)|].
  intros v' v'' H' H''.
  destruct (forks_of_in R R2 i1 W q D I1 v v' Hv H') as (A1 & A2 & A3 & A4).
  destruct (forks_of_in R R2 i2 W q D I2 v v'' Hv H'') as (B1 & B2 & B3 & B4).
  split; [apply (in_tuples R R2); exact A1|]. split; [apply (in_tuples R R2); exact B1|].
  destruct (HW _ Hv) as (Lv & Cv & a & c & d & P1 & T1 & P2 & T2).
  destruct (HW _ A2) as (La & Ca & a' & c' & d' & P1' & T1' & _).
  destruct (HW _ B2) as (Lb & Cb & a'' & c'' & d'' & _ & _ & P2'' & T2'').
  exists a, c, d, a', c', a'', d''. split; [split; assumption|]. split; [split; assumption|].
  assert (G : forall (question : A -> Q) w u x y b z, Forall canonical (forked (asked_at Q_eq question p w) w u) -> Forall canonical w ->
    proved Q_eq question p w = Some (x, y) ->
    proved Q_eq question p (forked (asked_at Q_eq question p w) w u) = Some (b, z) ->
    asked_at Q_eq question p (forked (asked_at Q_eq question p w) w u) = asked_at Q_eq question p w ->
    nth (asked_at Q_eq question p w) w 0 <> nth (asked_at Q_eq question p w) (forked (asked_at Q_eq question p w) w u) 0 ->
    question b = question x /\ y mod ell <> z mod ell).
  { clear. intros question w u x y b z C3 C1 P1 P3 H4 H5. set (idx := asked_at Q_eq question p) in *. split.
    - apply (one_question Q_eq question p _ _ _ _ _ _ P1 P3 H4). fold (idx w).
      unfold forked. rewrite firstn_app, firstn_firstn, Nat.min_id.
      destruct (asked_spec Q_eq _ _ _ _ _ P1) as (_ & _ & _ & Hlt & _). fold idx in Hlt.
      rewrite firstn_length. replace (idx w - Nat.min (idx w) (List.length w))%nat with 0%nat by lia.
      cbn [firstn]. apply app_nil_r.
    - destruct (asked_spec Q_eq _ _ _ _ _ P1) as (_ & _ & _ & K1 & N1). destruct (asked_spec Q_eq _ _ _ _ _ P3) as (_ & _ & _ & K3 & N3).
      fold idx in N1, N3, K1, K3. rewrite H4 in N3, K3.
      assert (Hcc : y <> z) by (intros Hcc; apply H5; transitivity y; [exact N1|rewrite Hcc; symmetry; exact N3]).
      assert (Cc : canonical y) by (rewrite <- N1; apply (proj1 (Forall_forall _ _) C1); apply nth_In; exact K1).
      assert (Cc' : canonical z) by (rewrite <- N3; apply (proj1 (Forall_forall _ _) C3); apply nth_In; exact K3).
      intros He. apply Hcc. exact (eqm_canonical y z Cc Cc' He). }
  destruct (G one v v' a c a' c' Ca Cv P1 P1' A3 A4) as [G1 G2].
  destruct (G other v v'' a d a'' d'' Cb Cv P2 P2'' B3 B4) as [G3 G4].
  split; (split; [assumption|split; [assumption|split; assumption]]).
Qed.
Print Assumptions C84_two_forks.

(** The verifier of the presentation of a user who claims a roster entry has two questions,
    one for each proof. *)
Definition owner_question {E : Ext} (i : Issuer E) x1 (p : SignalCredentialPresentation E) : transcript :=
  presentation_question i x1 (sc_presentation p).
Definition owner_verified {E : Ext} (i : Issuer E) x1 (p : prover transcript (SignalCredentialPresentation E)) :
    prover transcript (SignalCredentialPresentation E) :=
  asking (membership_question (iss_system_parameters i)) (asking (owner_question i x1) p).

(** With the code's challenges both are taken when the code accepts both. *)
Theorem C84_accepted : forall E, ExtLaws E -> forall (i : Issuer E) x1 (p : SignalCredentialPresentation E),
  consistent i -> sk_xn (kp_secret (iss_keypair i)) = [x1] ->
  pr_attributes_revealed (sc_presentation p) = [] -> List.length (pr_attributes_blinded (sc_presentation p)) = 1%nat ->
  (signal_verify i p = Ok {| vs_presentation := p |} /\
   verify_roster_membership i {| vs_presentation := p |} = Ok (sc_roster_entry_commitment p) <->
   taken_presentation (sc_presentation p) (@challenge_of E (owner_question i x1 p)) /\
   taken_membership p (@challenge_of E (membership_question (iss_system_parameters i) p))).
Proof.
  intros E L i x1 p Hc Hx Hr Hb. rewrite signal_verify_ok.
  rewrite (C83_presentation_taken E L i x1 _ Hc Hx Hr Hb), (C83_membership_taken E L i p).
  - reflexivity.
  - destruct (pr_attributes_blinded (sc_presentation p)); discriminate.
Qed.
Print Assumptions C84_accepted.

(** From three runs one gets a tag for a number and an opening of the entry.  The two numbers are one, or a tag for
    every number is got. *)
Theorem C84_owner : forall E, ExtLaws E -> forall (i : Issuer E) x1 (p : prover transcript (SignalCredentialPresentation E)) q W,
  consistent i -> sk_xn (kp_secret (iss_keypair i)) = [x1] -> NoDup W ->
  let params := iss_system_parameters i in
  let shown := proved transcript_eq_dec (owner_question i x1) (owner_verified i x1 p) in
  let owned := proved transcript_eq_dec (membership_question params) (owner_verified i x1 p) in
  let shown_at := asked_at transcript_eq_dec (owner_question i x1) (owner_verified i x1 p) in
  let owned_at := asked_at transcript_eq_dec (membership_question params) (owner_verified i x1 p) in
  (forall v, In v W -> List.length v = q /\ Forall canonical v /\
     exists pr c d, shown v = Some (pr, c) /\ taken_presentation (sc_presentation pr) c /\
       owned v = Some (pr, d) /\ taken_membership pr d) ->
  exists H : list (list scalar),
    NoDup H /\ incl H W /\ Z.of_nat (List.length W) <= 2 * Z.of_nat (List.length H) /\
    forall v, In v H -> exists F G : list (list scalar),
      NoDup F /\ Z.of_nat (List.length W) <= 4 * Z.of_nat q * (Z.of_nat (List.length F) + ell ^ (Z.of_nat q - 1)) /\
      NoDup G /\ Z.of_nat (List.length W) <= 4 * Z.of_nat q * (Z.of_nat (List.length G) + ell ^ (Z.of_nat q - 1)) /\
      forall v' v'', In v' F -> In v'' G ->
        (List.length v' = q /\ Forall canonical v') /\ (List.length v'' = q /\ Forall canonical v'') /\
        exists pr c pr' c' pr'' c'',
          shown v = Some (pr, c) /\ shown (forked (shown_at v) v v') = Some (pr', c') /\
          owned (forked (owned_at v) v v'') = Some (pr'', c'') /\
          let w := vc_extract (pr_proof (sc_presentation pr)) (pr_proof (sc_presentation pr')) in
          let o := ce_extract (sc_roster_membership_proof pr) (sc_roster_membership_proof pr'') in
          let P := pr_rerandomized_nonce (sc_presentation pr) in
          let mac := padd (pr_rerandomized_mac_commitment (sc_presentation pr)) (smul (vcs_minus_zQ w) (sp_h params)) in
          let t := (ces_z0 o - vcs_z0 w) * s_inv (vcs_m0 w - ces_m0 o) in
          let X1 := smul x1 (sp_h params) in
          mac_equation (kp_secret (iss_keypair i)) [vcs_m0 w] {| tag_nonce := P; tag_mac := mac |} /\
          sc_roster_entry_commitment pr = padd (smul (ces_m0 o) (sp_h params)) (smul (ces_z1 o) (sp_g params)) /\
          (vcs_m0 w mod ell = ces_m0 o mod ell \/
           forall n, mac_equation (kp_secret (iss_keypair i)) [n]
             {| tag_nonce := P; tag_mac := padd mac (smul ((n - vcs_m0 w) * t) X1) |}).
Proof.
  intros E L i x1 p q W Hc Hx Hnd params shown owned shown_at owned_at HW.
  destruct (C84_two_forks _ _ transcript_eq_dec (owner_question i x1) (membership_question params)
    (fun pr c => taken_presentation (sc_presentation pr) c) taken_membership (owner_verified i x1 p) q W Hnd HW)
    as (H & H1 & H2 & H3 & H4).
  exists H. split; [exact H1|]. split; [exact H2|]. split; [exact H3|]. intros v Hv.
  destruct (H4 v Hv) as (F & G & F1 & F2 & G1 & G2 & H5). exists F, G.
  split; [exact F1|]. split; [exact F2|]. split; [exact G1|]. split; [exact G2|]. intros v' v'' I1 I2.
  destruct (H5 v' v'' I1 I2) as (L1 & L2 & pr & c & d & pr' & c' & pr'' & d'' &
    (P1 & _ & T1 & T1') & (P2 & T2 & T2') & (P3 & (_ & T3 & T3') & Q3 & N3) & (P4 & (T4 & T4') & Q4 & N4)).
  split; [exact L1|]. split; [exact L2|]. exists pr, c, pr', c', pr'', d''.
  split; [exact P1|]. split; [exact P3|]. split; [exact P4|]. intros w o P mac t X1.
  destruct (C18_rewinding E L i x1 (sc_presentation pr) (sc_presentation pr')
    (hd pzero (pr_attributes_blinded (sc_presentation pr))) (hd pzero (pr_attributes_blinded (sc_presentation pr')))
    (fun _ => c) (fun _ => c') Hc Hx T1' T3' (eq_sym Q3) N3) as (_ & _ & _ & K1 & K2).
  unfold membership_question, membership_hashed in Q4.
  apply (ce_transcript_inj L) in Q4 as (_ & Hq & Hcom). rewrite Hq in Hcom.
  assert (Hne : ce_challenge (sc_roster_membership_proof pr) mod ell <> ce_challenge (sc_roster_membership_proof pr'') mod ell)
    by (rewrite T2', T4'; exact N4).
  destruct (C21_membership_sound E L params _ _ _ _ _ Hne (eq_sym Hcom)) as [M1 M2].
  fold o in M1, M2. change (padd (pr_rerandomized_mac_commitment (sc_presentation pr)) _) with mac in K2.
  split; [exact K2|]. split; [exact M2|].
  fold w in K1, K2. fold P in K1, K2, M1. fold params in K1, K2. rewrite K1 in M1.
  destruct (same_number L P (sp_h params) _ _ _ _ M1) as [Heq|[Hz HS]]; [left; exact Heq|right].
  pose proof (s_inv_spec _ Hz) as Hi.
  assert (HP : P = smul t (sp_h params)).
  { unfold t. rewrite Z.mul_comm, (smul_mul L), <- HS, <- (smul_mul L).
    rewrite (smul_eqm L _ 1 P Hi). symmetry. apply smul_1. }
  intros n. destruct K2 as [_ K2]. split; [rewrite Hx; reflexivity|]. cbn [tag_mac tag_nonce] in *. rewrite K2, Hx. unfold X1.
  cbn [dot]. rewrite HP. generalize (vcs_m0 w), t, (sp_h params), (sk_x0 (kp_secret (iss_keypair i))). clear - L. intros m t h x0. pring L.
Qed.
Print Assumptions C84_owner.

(** A prover which holds a credential and the opening of an entry; it asks once for each proof. *)
Definition twice {Q A} (x y : Q) (output : scalar -> scalar -> A) : prover Q A := PAsk x (fun c => PAsk y (fun d => PDone (output c d))).
Lemma twice_proved {Q A} (Q_eq : forall x y : Q, {x = y} + {x <> y}) (one other : A -> Q) x y output c d :
  x <> y -> one (output c d) = x -> other (output c d) = y ->
  proved Q_eq one (asking other (asking one (twice x y output))) [c; d] = Some (output c d, c) /\
  proved Q_eq other (asking other (asking one (twice x y output))) [c; d] = Some (output c d, d).
Proof.
  intros Hne H1 H2. unfold proved, twice. split;
    (cbn [asking prove SpecFork.answer app];
     repeat (rewrite ?H1, ?H2; cbn [asking prove SpecFork.answer app];
             try match goal with |- context [Q_eq ?a ?b] => destruct (Q_eq a b); [try (elim Hne; congruence)|try congruence] end);
     reflexivity).
Qed.
Definition sample_owner (c d : Z) : SignalCredentialPresentation toy :=
  {| sc_roster_entry_commitment := pt (33 * 100 + 17); sc_presentation := sample_shown c;
     sc_roster_membership_proof := sc_roster_membership_proof (sample_member d) |}.
Definition sample_owner_prover : prover transcript (SignalCredentialPresentation toy) :=
  twice (owner_question sample_issuer 7 (sample_owner 7 7)) (membership_question (iss_system_parameters sample_issuer) (sample_owner 7 7)) sample_owner.
Lemma sample_owner_proved c d : In c [7; 11] -> In d [7; 11] ->
  proved transcript_eq_dec (owner_question sample_issuer 7) (owner_verified sample_issuer 7 sample_owner_prover) [c; d] = Some (sample_owner c d, c) /\
  proved transcript_eq_dec (membership_question (iss_system_parameters sample_issuer)) (owner_verified sample_issuer 7 sample_owner_prover) [c; d] =
    Some (sample_owner c d, d).
Proof.
  intros Hc Hd. unfold owner_verified, sample_owner_prover.
  set (x := owner_question sample_issuer 7 (sample_owner 7 7)).
  set (y := membership_question (iss_system_parameters sample_issuer) (sample_owner 7 7)).
  assert (Hne : x <> y) by (unfold x, y, owner_question, presentation_question, membership_question, presentation_hashed, membership_hashed;
    intros H; discriminate H).
  assert (Hx : smul 7 (sp_h (iss_system_parameters sample_issuer)) = pt 231) by (apply toy_eq; vm_compute; reflexivity).
  assert (H1 : owner_question sample_issuer 7 (sample_owner c d) = x).
  { destruct Hc as [<-|[<-|[]]]; [reflexivity|].
    unfold x, owner_question, presentation_question. rewrite Hx. symmetry. exact (proj2 (proj2 C18_met)). }
  assert (H2 : membership_question (iss_system_parameters sample_issuer) (sample_owner c d) = y).
  { destruct Hd as [<-|[<-|[]]]; [reflexivity|]. symmetry. exact (proj2 (proj2 (proj2 C21_met))). }
  clearbody x y. apply twice_proved; assumption.
Qed.
Definition sample_values : list (list scalar) := [[7; 7]; [7; 11]; [11; 7]; [11; 11]].
Lemma sample_values_in v : In v sample_values ->
  exists c d, v = [c; d] /\ In c [7; 11] /\ In d [7; 11] /\ List.length v = 2%nat /\ Forall canonical v.
Proof.
  pose proof ell_gt_252 as He.
  assert (R7 : canonical 7) by (split; [discriminate|exact (Z.lt_trans 7 (2 ^ 252) ell eq_refl He)]).
  assert (R11 : canonical 11) by (split; [discriminate|exact (Z.lt_trans 11 (2 ^ 252) ell eq_refl He)]).
  intros [<-|[<-|[<-|[<-|[]]]]]; eexists; eexists; (split; [reflexivity|]); (split; [cbn; tauto|]); (split; [cbn; tauto|]);
    (split; [reflexivity|]); (constructor; [assumption|constructor; [assumption|constructor]]).
Qed.
Example C84_met : consistent sample_issuer /\ sk_xn (kp_secret (iss_keypair sample_issuer)) = [7] /\
  let params := iss_system_parameters sample_issuer in
  NoDup sample_values /\
  forall v, In v sample_values -> List.length v = 2%nat /\ Forall canonical v /\
    exists pr c d,
      proved transcript_eq_dec (owner_question sample_issuer 7) (owner_verified sample_issuer 7 sample_owner_prover) v = Some (pr, c) /\
      taken_presentation (sc_presentation pr) c /\
      proved transcript_eq_dec (membership_question params) (owner_verified sample_issuer 7 sample_owner_prover) v = Some (pr, d) /\
      taken_membership pr d.
Proof.
  split; [apply sample_consistent|]. split; [reflexivity|]. cbv zeta.
  split; [repeat constructor; cbn; intuition discriminate|].
  intros v Hv. destruct (sample_values_in v Hv) as (c & d & -> & Hc & Hd & H1 & H2). split; [exact H1|]. split; [exact H2|].
  destruct (sample_owner_proved c d Hc Hd) as [K1 K2]. exists (sample_owner c d), c, d.
  split; [exact K1|]. split; [split; [reflexivity|split; reflexivity]|]. split; [exact K2|]. split; [discriminate|reflexivity].
Qed.
