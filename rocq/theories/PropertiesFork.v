(** Who convinces a verifier can be made to tell the witness, by running it twice (C83):
    aeonflux/src/proofs.rs, issuer.rs and user.rs, signal-credential/src/issuer.rs. *)
From Verif Require Import SpecFork ForkFacts Polynomials PropertiesGame PropertiesIssue PropertiesShow PropertiesSignal SignalFacts Toy.
From Coq Require Import Setoid.
Local Open Scope string_scope.

(** ** C83 *)

(** For a prover whose output is taken for the values in [W], there are [F] pairs of
    values for which the second run, the same up to the answer to the question of
    the first output, ends with the same question and a different answer, and is taken too.  With
    [a] the fraction of the values in [W] and [f] that of the pairs in [F], f >= a^2 / q - a / l. *)
Theorem C83_forking : forall Q A (Q_eq : forall x y : Q, {x = y} + {x <> y}) (question : A -> Q) (taken : A -> scalar -> Prop)
    (p : prover Q A) q (W : list (list scalar)),
  NoDup W ->
  (forall v, In v W -> List.length v = q /\ Forall canonical v /\
     exists a c, proved Q_eq question p v = Some (a, c) /\ taken a c) ->
  exists F : list (list scalar * list scalar),
    NoDup F /\
    Z.of_nat (List.length W) ^ 2 <= Z.of_nat q * (Z.of_nat (List.length F) + Z.of_nat (List.length W) * ell ^ (Z.of_nat q - 1)) /\
    forall v v', In (v, v') F -> In v W /\ List.length v' = q /\ Forall canonical v' /\
      exists a c a' c',
        proved Q_eq question p v = Some (a, c) /\ taken a c /\
        proved Q_eq question p (forked (asked_at Q_eq question p v) v v') = Some (a', c') /\ taken a' c' /\
        question a' = question a /\ c mod ell <> c' mod ell.
Proof.
  intros Q A Q_eq question taken p q W Hnd HW.
  destruct (range_exists ell ltac:(pose proof ell_pos; lia)) as (R & R1 & R2 & R3).
  set (idx := asked_at Q_eq question p).
  assert (HW' : forall v, In v W -> In v (tuples R q) /\ (idx v < q)%nat).
  { intros v Hv. destruct (HW v Hv) as (H1 & H2 & a & c & H3 & _).
    split; [apply (in_tuples R R2); split; [exact H1|exact H2]|].
    destruct (asked_spec Q_eq _ _ _ _ _ H3) as (_ & _ & _ & H & _). rewrite <- H1. exact H. }
  exists (all_forks R idx W q). split; [exact (all_forks_nodup R R1 R2 idx W q HW' Hnd)|].
  split; [exact (all_forks_many R R1 R2 R3 idx W q HW' Hnd)|].
  intros v v' H. apply (all_forks_in R R2 idx W q v v' HW') in H as (H1 & H2 & H3 & H4 & H5).
  apply (in_tuples R R2) in H2 as [H2 H2']. split; [exact H1|]. split; [exact H2|]. split; [exact H2'|].
  destruct (HW _ H1) as (L1 & C1 & a & c & P1 & T1). destruct (HW _ H3) as (L3 & C3 & a' & c' & P3 & T3).
  exists a, c, a', c'. split; [exact P1|]. split; [exact T1|]. split; [exact P3|]. split; [exact T3|].
  split.
  - apply (one_question Q_eq question p _ _ _ _ _ _ P1 P3 H4). fold (idx v).
    unfold forked. rewrite firstn_app, firstn_firstn, Nat.min_id.
    destruct (asked_spec Q_eq _ _ _ _ _ P1) as (_ & _ & _ & Hlt & _). fold idx in Hlt.
    rewrite firstn_length. replace (idx v - Nat.min (idx v) (List.length v))%nat with 0%nat by lia.
    cbn [firstn]. apply app_nil_r.
  - destruct (asked_spec Q_eq _ _ _ _ _ P1) as (_ & _ & _ & K1 & N1). destruct (asked_spec Q_eq _ _ _ _ _ P3) as (_ & _ & _ & K3 & N3).
    fold idx in N1, N3, K1, K3. rewrite H4 in N3, K3.
    assert (Hcc : c <> c') by (intros Hcc; apply H5; transitivity c; [exact N1|rewrite Hcc; symmetry; exact N3]).
    assert (Cc : canonical c) by (rewrite <- N1; apply (proj1 (Forall_forall _ _) C1); apply nth_In; exact K1).
    assert (Cc' : canonical c') by (rewrite <- N3; apply (proj1 (Forall_forall _ _) C3); apply nth_In; exact K3).
    intros He. apply Hcc. exact (eqm_canonical c c' Cc Cc' He).
Qed.
Print Assumptions C83_forking.

(** *** Presentations *)
(** A presentation with one hidden attribute is accepted, the challenges being the
    values of [f]. *)
Definition taken_presentation {E : Ext} (p : CredentialPresentation E) (c : scalar) : Prop :=
  pr_attributes_revealed p = [] /\ List.length (pr_attributes_blinded p) = 1%nat /\ vc_challenge (pr_proof p) = c.
Definition presentation_question {E : Ext} (i : Issuer E) x1 (p : CredentialPresentation E) : transcript :=
  presentation_hashed i (smul x1 (sp_h (iss_system_parameters i))) x1 p (hd pzero (pr_attributes_blinded p)).
Theorem C83_presentation_taken : forall E, ExtLaws E -> forall (i : Issuer E) x1 (p : CredentialPresentation E),
  consistent i -> sk_xn (kp_secret (iss_keypair i)) = [x1] ->
  pr_attributes_revealed p = [] -> List.length (pr_attributes_blinded p) = 1%nat ->
  (issuer_verify i p = Ok {| vf_presentation := p |} <->
   taken_presentation p (@challenge_of E (presentation_question i x1 p))).
Proof.
  intros E L i x1 p Hc Hx Hr Hb. destruct (pr_attributes_blinded p) as [|C [|]] eqn:Eb; try discriminate.
  rewrite (C18_acceptance E L i _ [] x1 p C (consistent_single i x1 Hc Hx) Hx Hr Eb).
  unfold taken_presentation, presentation_question. rewrite Eb. cbn [hd List.length]. tauto.
Qed.
Print Assumptions C83_presentation_taken.

(** Whoever makes presentations that are accepted gives away a tag for a number, and the
    scalar that hides it. *)
Theorem C83_presentation : forall E, ExtLaws E -> forall (i : Issuer E) x1 (p : prover transcript (CredentialPresentation E)) q W,
  consistent i -> sk_xn (kp_secret (iss_keypair i)) = [x1] -> NoDup W ->
  let runs := proved transcript_eq_dec (presentation_question i x1) p in
  let h := sp_h (iss_system_parameters i) in
  (forall v, In v W -> List.length v = q /\ Forall canonical v /\ exists pr c, runs v = Some (pr, c) /\ taken_presentation pr c) ->
  exists F : list (list scalar * list scalar),
    NoDup F /\
    Z.of_nat (List.length W) ^ 2 <= Z.of_nat q * (Z.of_nat (List.length F) + Z.of_nat (List.length W) * ell ^ (Z.of_nat q - 1)) /\
    forall v v', In (v, v') F -> In v W /\ List.length v' = q /\ Forall canonical v' /\
      exists pr c pr' c', runs v = Some (pr, c) /\
        runs (forked (asked_at transcript_eq_dec (presentation_question i x1) p v) v v') = Some (pr', c') /\
        let w := vc_extract (pr_proof pr) (pr_proof pr') in
        let P := pr_rerandomized_nonce pr in
        pr_attributes_blinded pr = [padd (smul (vcs_m0 w) P) (smul (vcs_z0 w) h)] /\
        mac_equation (kp_secret (iss_keypair i)) [vcs_m0 w]
          {| tag_nonce := P; tag_mac := padd (pr_rerandomized_mac_commitment pr) (smul (vcs_minus_zQ w) h) |}.
Proof.
  intros E L i x1 p q W Hc Hx Hnd runs h HW.
  destruct (C83_forking _ _ transcript_eq_dec (presentation_question i x1) taken_presentation p q W Hnd HW)
    as (F & H1 & H2 & H3).
  exists F. split; [exact H1|]. split; [exact H2|]. intros v v' Hin.
  destruct (H3 v v' Hin) as (A1 & A2 & A3 & pr & c & pr' & c' & P1 & (_ & T1 & T1') & P2 & (_ & T2 & T2') & Hq & Hne).
  split; [exact A1|]. split; [exact A2|]. split; [exact A3|]. exists pr, c, pr', c'. split; [exact P1|]. split; [exact P2|].
  intros w P.
  destruct (C18_rewinding E L i x1 pr pr' (hd pzero (pr_attributes_blinded pr)) (hd pzero (pr_attributes_blinded pr'))
    (fun _ => c) (fun _ => c') Hc Hx T1' T2' (eq_sym Hq) Hne) as (_ & _ & _ & K1 & K2).
  split; [|exact K2].
  destruct (pr_attributes_blinded pr) as [|C [|]]; try discriminate. cbn [hd] in K1. f_equal. exact K1.
Qed.
Print Assumptions C83_presentation.

(** *** Membership *)
Definition taken_membership {E : Ext} (p : SignalCredentialPresentation E) (c : scalar) : Prop :=
  pr_attributes_blinded (sc_presentation p) <> [] /\ ce_challenge (sc_roster_membership_proof p) = c.
Definition membership_question {E : Ext} (params : SystemParameters E) (p : SignalCredentialPresentation E) : transcript :=
  membership_hashed params p (hd pzero (pr_attributes_blinded (sc_presentation p))).
Theorem C83_membership_taken : forall E, ExtLaws E -> forall (i : Issuer E) (p : SignalCredentialPresentation E),
  pr_attributes_blinded (sc_presentation p) <> [] ->
  (verify_roster_membership i {| vs_presentation := p |} = Ok (sc_roster_entry_commitment p) <->
   taken_membership p (@challenge_of E (membership_question (iss_system_parameters i) p))).
Proof.
  intros E L i p Hb. destruct (pr_attributes_blinded (sc_presentation p)) as [|C Cs] eqn:Eb; [contradiction|].
  rewrite (C21_acceptance E L i p C Cs _ Eb). unfold taken_membership, membership_question. rewrite Eb. cbn [hd].
  split; [intros [_ H]; split; [discriminate|exact H]|intros [_ H]; auto].
Qed.
Print Assumptions C83_membership_taken.
(** Whoever proves membership gives away an opening of the roster entry. *)
Theorem C83_membership : forall E, ExtLaws E -> forall (params : SystemParameters E) (p : prover transcript (SignalCredentialPresentation E)) q W,
  NoDup W ->
  let runs := proved transcript_eq_dec (membership_question params) p in
  (forall v, In v W -> List.length v = q /\ Forall canonical v /\ exists pr c, runs v = Some (pr, c) /\ taken_membership pr c) ->
  exists F : list (list scalar * list scalar),
    NoDup F /\
    Z.of_nat (List.length W) ^ 2 <= Z.of_nat q * (Z.of_nat (List.length F) + Z.of_nat (List.length W) * ell ^ (Z.of_nat q - 1)) /\
    forall v v', In (v, v') F -> In v W /\ List.length v' = q /\ Forall canonical v' /\
      exists pr c pr' c', runs v = Some (pr, c) /\
        runs (forked (asked_at transcript_eq_dec (membership_question params) p v) v v') = Some (pr', c') /\
        let w := ce_extract (sc_roster_membership_proof pr) (sc_roster_membership_proof pr') in
        hd pzero (pr_attributes_blinded (sc_presentation pr)) =
          padd (smul (ces_m0 w) (pr_rerandomized_nonce (sc_presentation pr))) (smul (ces_z0 w) (sp_h params)) /\
        sc_roster_entry_commitment pr = padd (smul (ces_m0 w) (sp_h params)) (smul (ces_z1 w) (sp_g params)).
Proof.
  intros E L params p q W Hnd runs HW.
  destruct (C83_forking _ _ transcript_eq_dec (membership_question params) taken_membership p q W Hnd HW)
    as (F & H1 & H2 & H3).
  exists F. split; [exact H1|]. split; [exact H2|]. intros v v' Hin.
  destruct (H3 v v' Hin) as (A1 & A2 & A3 & pr & c & pr' & c' & P1 & (T1 & T1') & P2 & (T2 & T2') & Hq & Hne).
  split; [exact A1|]. split; [exact A2|]. split; [exact A3|]. exists pr, c, pr', c'. split; [exact P1|]. split; [exact P2|].
  intros w. unfold membership_question, membership_hashed in Hq.
  apply (ce_transcript_inj L) in Hq as (_ & Hq & Hcom). rewrite Hq in Hcom.
  refine (C21_membership_sound E L params _ _ _ _ _ _ (eq_sym Hcom)). rewrite T1', T2'. exact Hne.
Qed.
Print Assumptions C83_membership.

(** *** Issuance *)
Definition taken_issuance {E : Ext} (iss : CredentialIssuance E) (c : scalar) : Prop := ir_challenge (is_proof iss) = c.
(** Whoever makes issuances that a user stores gives away a key with the public key
    the user has, and the tag is one under that key. *)
Theorem C83_issuance : forall E, ExtLaws E -> forall (params : SystemParameters E) X1 (p : prover transcript (CredentialIssuance E)) q W,
  NoDup W ->
  let runs := proved transcript_eq_dec (issuance_hashed params X1) p in
  (forall v, In v W -> List.length v = q /\ Forall canonical v /\ exists iss c, runs v = Some (iss, c) /\ taken_issuance iss c) ->
  exists F : list (list scalar * list scalar),
    NoDup F /\
    Z.of_nat (List.length W) ^ 2 <= Z.of_nat q * (Z.of_nat (List.length F) + Z.of_nat (List.length W) * ell ^ (Z.of_nat q - 1)) /\
    forall v v', In (v, v') F -> In v W /\ List.length v' = q /\ Forall canonical v' /\
      exists iss c iss' c', runs v = Some (iss, c) /\
        runs (forked (asked_at transcript_eq_dec (issuance_hashed params X1) p v) v v') = Some (iss', c') /\
        let w := ir_extract (is_proof iss) (is_proof iss') in
        let t := cr_mac (is_credential iss) in
        tag_mac t = smul (irs_x0 w + irs_m1x1 w) (tag_nonce t) /\
        is_secret_key_commitment iss = padd (smul (irs_x0 w) (sp_g params)) (smul (irs_x0_tilde w) (sp_h params)) /\
        X1 = smul (irs_x1 w) (sp_h params).
Proof.
  intros E L params X1 p q W Hnd runs HW.
  destruct (C83_forking _ _ transcript_eq_dec (issuance_hashed params X1) taken_issuance p q W Hnd HW)
    as (F & H1 & H2 & H3).
  exists F. split; [exact H1|]. split; [exact H2|]. intros v v' Hin.
  destruct (H3 v v' Hin) as (A1 & A2 & A3 & iss & c & iss' & c' & P1 & T1 & P2 & T2 & Hq & Hne).
  split; [exact A1|]. split; [exact A2|]. split; [exact A3|]. exists iss, c, iss', c'. split; [exact P1|]. split; [exact P2|].
  destruct (C11_rewinding E L params X1 iss iss' (fun _ => c) (fun _ => c') T1 T2 (eq_sym Hq) Hne) as (_ & _ & K).
  exact K.
Qed.
Print Assumptions C83_issuance.

(** A prover which asks once, and answers all challenges: it holds a credential, the
    opening of an entry, or a key. *)
Definition once {Q A} (x : Q) (output : scalar -> A) : prover Q A := PAsk x (fun c => PDone (output c)).
Lemma once_proved {Q A} (Q_eq : forall x y : Q, {x = y} + {x <> y}) (question : A -> Q) x output c :
  question (output c) = x -> proved Q_eq question (once x output) [c] = Some (output c, c).
Proof.
  intros H. unfold proved, once. cbn [asking prove SpecFork.answer app].
  destruct (Q_eq _ _) as [_|Hn]; [|contradiction].
  cbn [SpecFork.answer]. destruct (Q_eq _ _) as [_|Hn]; [reflexivity|contradiction].
Qed.
Lemma once_values {Q A} (Q_eq : forall x y : Q, {x = y} + {x <> y}) (question : A -> Q) output (taken : A -> scalar -> Prop) :
  question (output 11) = question (output 7) -> taken (output 7) 7 -> taken (output 11) 11 ->
  NoDup [[7]; [11]] /\
  forall v, In v [[7]; [11]] -> List.length v = 1%nat /\ Forall canonical v /\
    exists a c, proved Q_eq question (once (question (output 7)) output) v = Some (a, c) /\ taken a c.
Proof.
  intros H H7 H11. split; [repeat constructor; cbn; intuition discriminate|].
  pose proof ell_gt_252 as He.
  assert (Hcan : forall c, 0 <= c < 2 ^ 252 -> Forall canonical [c]) by (intros c Hc; constructor; [unfold canonical; lia|constructor]).
  intros v [<-|[<-|[]]]; (split; [reflexivity|]; split; [apply Hcan; split; [discriminate|reflexivity]|]).
  - exists (output 7), 7. split; [apply once_proved; reflexivity|exact H7].
  - exists (output 11), 11. split; [apply once_proved; exact H|exact H11].
Qed.
Example C83_met : consistent sample_issuer /\
  let question := presentation_question sample_issuer 7 in
  NoDup [[7]; [11]] /\
  forall v, In v [[7]; [11]] -> List.length v = 1%nat /\ Forall canonical v /\
    exists pr c, proved transcript_eq_dec question (once (question (sample_shown 7)) sample_shown) v = Some (pr, c) /\
      taken_presentation pr c.
Proof.
  split; [apply sample_consistent|]. cbv zeta. apply once_values; [|repeat split|repeat split].
  assert (Hx : smul 7 (sp_h (iss_system_parameters sample_issuer)) = pt 231) by (apply toy_eq; vm_compute; reflexivity).
  unfold presentation_question. rewrite Hx. symmetry. exact (proj2 (proj2 C18_met)).
Qed.
Example C83_met_membership :
  let question := membership_question sample_params in
  NoDup [[7]; [11]] /\
  forall v, In v [[7]; [11]] -> List.length v = 1%nat /\ Forall canonical v /\
    exists pr c, proved transcript_eq_dec question (once (question (sample_member 7)) sample_member) v = Some (pr, c) /\
      taken_membership pr c.
Proof.
  cbv zeta. apply once_values; [|split; [discriminate|reflexivity]|split; [discriminate|reflexivity]].
  symmetry. exact (proj2 (proj2 (proj2 C21_met))).
Qed.
Example C83_met_issuance :
  let question := issuance_hashed sample_params (pt 231) in
  NoDup [[7]; [11]] /\
  forall v, In v [[7]; [11]] -> List.length v = 1%nat /\ Forall canonical v /\
    exists iss c, proved transcript_eq_dec question (once (question (sample_issuance 7)) sample_issuance) v = Some (iss, c) /\
      taken_issuance iss c.
Proof. cbv zeta. apply once_values; [symmetry; exact C11_met_rewinding|reflexivity|reflexivity]. Qed.
