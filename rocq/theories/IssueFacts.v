(** Facts about issuing and obtaining credentials: aeonflux/src/issuer.rs and user.rs *)
From Verif Require Export MacFacts.
From Coq Require Import Setoid.
Local Open Scope string_scope.

Lemma ok3 {A B C X} (a a' : A) (b b' : B) (c c' : C) :
  @Ok X _ (a, b, c) = Ok (a', b', c') -> a = a' /\ b = b' /\ c = c'.
Proof. intros H; injection H; auto. Qed.

Section issue_facts.
  Context {E : Ext} (L : ExtLaws E).
  Implicit Types (i : Issuer E) (u : User E) (rq : CredentialRequest) (iss : CredentialIssuance E).

  (** The random source of [issue] and [show], and what is left of the caller's. *)
  Definition issue_csprng (r : rng) : rng := fst (@reseed E issuance_transcript [] r).

  Lemma ir_create_some_rand t p s os : exists rand,
    fst (ir_create t p s os) = ir_create_with (E := E) (ir_create_absorb t p) p s rand.
  Proof.
    unfold ir_create. destruct (ir_randomness (ir_create_absorb t p) s os) as [rand os'].
    exists rand; reflexivity.
  Qed.

  Lemma issue_no_parameters i rq r os :
    pk_Xn (kp_public (iss_keypair i)) = [] -> issue i rq r os = Err NoIssuerParameters.
  Proof. intros H. unfold issue. rewrite H. reflexivity. Qed.
  Lemma issue_no_key i rq r os :
    pk_Xn (kp_public (iss_keypair i)) <> [] -> sk_xn (kp_secret (iss_keypair i)) = [] ->
    issue i rq r os = Err NoIssuerKey.
  Proof.
    intros H1 H2. unfold issue. rewrite H2.
    destruct (pk_Xn (kp_public (iss_keypair i))); [contradiction|reflexivity].
  Qed.
  Lemma issue_bad_length i rq r os :
    pk_Xn (kp_public (iss_keypair i)) <> [] -> sk_xn (kp_secret (iss_keypair i)) <> [] ->
    List.length (rq_attributes_revealed rq) <> List.length (sk_xn (kp_secret (iss_keypair i))) ->
    issue i rq r os = Err MacCreation.
  Proof.
    intros H1 H2 H3. unfold issue.
    destruct (pk_Xn (kp_public (iss_keypair i))) as [|X1 Xs]; [contradiction|].
    destruct (nth_error (sk_xn (kp_secret (iss_keypair i))) 0) as [x1|] eqn:H;
      [|destruct (sk_xn (kp_secret (iss_keypair i))); [contradiction|discriminate]].
    cbn [nth_error ok_or bind]. destruct (@reseed E _ _ r) as [c r1].
    rewrite mac_err by exact H3. reflexivity.
  Qed.

  (** A successful issue. *)
  Lemma issue_ok i rq r os X1 Xs x1 xs m1 ms :
    pk_Xn (kp_public (iss_keypair i)) = X1 :: Xs ->
    sk_xn (kp_secret (iss_keypair i)) = x1 :: xs ->
    rq_attributes_revealed rq = m1 :: ms ->
    List.length ms = List.length xs ->
    exists tag x0_tilde,
      let params := iss_system_parameters i in
      let x0 := sk_x0 (kp_secret (iss_keypair i)) in
      let secrets := {| irs_x0 := x0; irs_x1 := x1; irs_x0_tilde := x0_tilde; irs_m1x1 := s_mul m1 x1 |} in
      let iss pf := {|
        is_secret_key_commitment := padd (smul x0 (sp_g params)) (smul x0_tilde (sp_h params));
        is_credential := {| cr_mac := tag; cr_attributes := m1 :: ms |}; is_proof := pf |} in
      let p := issuance_publics params X1 (iss {| ir_challenge := 0; ir_responses := secrets |}) in
      mac_equation (kp_secret (iss_keypair i)) (m1 :: ms) tag /\
      tag_nonce tag = smul (fst (scalar_random (issue_csprng r))) basepoint /\
      x0_tilde = fst (scalar_random (snd (scalar_random (issue_csprng r)))) /\
      issue i rq r os =
        Ok (iss (fst (ir_create issuance_transcript p secrets os)), snd (@reseed E issuance_transcript [] r),
            snd (ir_create issuance_transcript p secrets os)).
  Proof.
    intros HX Hx Hm Hl. unfold issue, issue_csprng. rewrite HX, Hx, Hm. cbn [nth_error ok_or bind].
    change (transcript_new "AEONFLUX ISSUANCE") with issuance_transcript.
    destruct (@reseed E issuance_transcript [] r) as [c r1]. cbn [fst snd].
    destruct (mac_ok (E := E) (kp_secret (iss_keypair i)) (m1 :: ms) c) as [tag Ht].
    { rewrite Hx. cbn. congruence. }
    rewrite Ht. cbn [map_err bind]. pose proof (mac_spec L _ _ _ _ _ Ht) as (Hn & _ & He).
    unfold ephemeral_new. destruct (scalar_random (snd (scalar_random c))) as [x0t c2].
    exists tag, x0t. cbv zeta. split; [exact He|]. split; [exact Hn|]. split; [reflexivity|].
    unfold issue_statement, commitment_to, index. cbn [nth_error or_panic bind].
    unfold issuance_publics. cbn [is_credential cr_mac is_secret_key_commitment].
    destruct (ir_create issuance_transcript _ _ os) as [pf os']. reflexivity.
  Qed.

  Lemma issue_inv i rq r os iss r' os' : issue i rq r os = Ok (iss, r', os') ->
    exists X1 Xs x1 xs m1 ms tag x0_tilde rand,
      let params := iss_system_parameters i in
      let x0 := sk_x0 (kp_secret (iss_keypair i)) in
      let secrets := {| irs_x0 := x0; irs_x1 := x1; irs_x0_tilde := x0_tilde; irs_m1x1 := s_mul m1 x1 |} in
      let p := issuance_publics params X1 iss in
      pk_Xn (kp_public (iss_keypair i)) = X1 :: Xs /\
      sk_xn (kp_secret (iss_keypair i)) = x1 :: xs /\
      rq_attributes_revealed rq = m1 :: ms /\
      List.length ms = List.length xs /\
      mac_equation (kp_secret (iss_keypair i)) (m1 :: ms) tag /\
      tag_nonce tag = smul (fst (scalar_random (issue_csprng r))) basepoint /\
      is_secret_key_commitment iss = padd (smul x0 (sp_g params)) (smul x0_tilde (sp_h params)) /\
      is_credential iss = {| cr_mac := tag; cr_attributes := m1 :: ms |} /\
      is_proof iss = ir_create_with (ir_create_absorb issuance_transcript p) p secrets rand.
  Proof.
    intros H.
    destruct (pk_Xn (kp_public (iss_keypair i))) as [|X1 Xs] eqn:HX;
      [rewrite issue_no_parameters in H by exact HX; discriminate|].
    destruct (sk_xn (kp_secret (iss_keypair i))) as [|x1 xs] eqn:Hx;
      [rewrite issue_no_key in H; [discriminate|rewrite HX; discriminate|exact Hx]|].
    destruct (Nat.eq_dec (List.length (rq_attributes_revealed rq)) (List.length (x1 :: xs))) as [Hl|Hl].
    2:{ rewrite issue_bad_length in H; [discriminate|rewrite HX; discriminate|rewrite Hx; discriminate|].
        rewrite Hx; exact Hl. }
    destruct (rq_attributes_revealed rq) as [|m1 ms] eqn:Hm; [discriminate|].
    injection Hl as Hl.
    destruct (issue_ok i rq r os X1 Xs x1 xs m1 ms HX Hx Hm Hl) as (tag & x0t & He & Hn & _ & Hi).
    cbv zeta in Hi. rewrite H in Hi. apply ok3 in Hi as (-> & _ & _). clear H.
    match goal with |- context [ir_create ?a ?b ?c ?d] => 
      destruct (ir_create_some_rand a b c d) as [rand Hr]; rewrite Hr end.
    exists X1, Xs, x1, xs, m1, ms, tag, x0t, rand. cbv zeta.
    repeat (split; [first [reflexivity|assumption|apply He]|]). reflexivity.
  Qed.

  Lemma issue_no_panic i rq r os : issue i rq r os <> Panic.
  Proof.
    destruct (pk_Xn (kp_public (iss_keypair i))) as [|X1 Xs] eqn:HX;
      [rewrite issue_no_parameters by exact HX; discriminate|].
    destruct (sk_xn (kp_secret (iss_keypair i))) as [|x1 xs] eqn:Hx;
      [rewrite issue_no_key; [discriminate|rewrite HX; discriminate|exact Hx]|].
    destruct (Nat.eq_dec (List.length (rq_attributes_revealed rq)) (List.length (x1 :: xs))) as [Hl|Hl].
    2:{ rewrite issue_bad_length; [discriminate|rewrite HX; discriminate|rewrite Hx; discriminate|].
        rewrite Hx; exact Hl. }
    destruct (rq_attributes_revealed rq) as [|m1 ms] eqn:Hm; [discriminate|].
    injection Hl as Hl.
    destruct (issue_ok i rq r os X1 Xs x1 xs m1 ms HX Hx Hm Hl) as (tag & x0t & _ & _ & _ & Hi).
    cbv zeta in Hi. rewrite Hi. discriminate.
  Qed.

  (** Obtaining *)
  Lemma obtain_finish_ok u iss : snd (obtain_finish u (Some iss)) = Ok tt <->
    exists X1 Xs, pk_Xn (us_issuer_parameters u) = X1 :: Xs /\
      ir_verify (is_proof iss) issuance_transcript
        (issuance_publics (us_system_parameters u) X1 iss) = Ok tt.
  Proof.
    unfold obtain_finish. destruct (pk_Xn (us_issuer_parameters u)) as [|X1 Xs]; cbn [nth_error].
    { split; [discriminate|intros (X1 & Xs & H & _); discriminate]. }
    change (transcript_new "AEONFLUX ISSUANCE") with issuance_transcript. cbv zeta.
    unfold issuance_publics. split.
    - intros H. exists X1, Xs. split; [reflexivity|]. destruct (ir_verify _ _ _) as [[]| |]; cbn in H; congruence.
    - intros (Y & Ys & [= <- <-] & H). rewrite H. reflexivity.
  Qed.
  Lemma obtain_finish_result u oi :
    obtain_finish u oi =
    match snd (obtain_finish u oi), oi with
    | Ok tt, Some iss =>
      ({| us_system_parameters := us_system_parameters u; us_issuer_parameters := us_issuer_parameters u;
          us_key := us_key u; us_credential := Some (is_credential iss) |}, Ok tt)
    | res, _ => (u, res)
    end.
  Proof.
    unfold obtain_finish. destruct oi as [iss|]; [|reflexivity].
    destruct (nth_error _ 0); [|reflexivity]. destruct (ir_verify _ _ _) as [[]| |]; reflexivity.
  Qed.
  Lemma obtain_finish_no_panic u oi : snd (obtain_finish u oi) <> Panic.
  Proof.
    unfold obtain_finish. destruct oi as [iss|]; [|discriminate].
    destruct (nth_error _ 0); [|discriminate].
    match goal with |- context [ir_verify ?a ?b ?c] => pose proof (ir_verify_no_panic a b c);
      destruct (ir_verify a b c) as [[]| |] end; cbn; congruence.
  Qed.
  Lemma obtain_finish_accept u iss : snd (obtain_finish u (Some iss)) = Ok tt ->
    obtain_finish u (Some iss) =
      ({| us_system_parameters := us_system_parameters u; us_issuer_parameters := us_issuer_parameters u;
          us_key := us_key u; us_credential := Some (is_credential iss) |}, Ok tt).
  Proof. intros H. rewrite obtain_finish_result, H. reflexivity. Qed.

  Lemma consistent_cons i X1 Xs x1 xs : consistent i ->
    pk_Xn (kp_public (iss_keypair i)) = X1 :: Xs -> sk_xn (kp_secret (iss_keypair i)) = x1 :: xs ->
    X1 = smul x1 (sp_h (iss_system_parameters i)).
  Proof. unfold consistent, key_matches. intros H HX Hx. rewrite HX, Hx in H. inversion H; assumption. Qed.
  Lemma consistent_length i : consistent i ->
    List.length (pk_Xn (kp_public (iss_keypair i))) = List.length (sk_xn (kp_secret (iss_keypair i))).
  Proof. apply Forall2_length'. Qed.

  (** Which honest issuances satisfy the statement that is proved. *)
  Lemma honest_relation i iss X1 x1 xs m1 ms tag x0_tilde :
    sk_xn (kp_secret (iss_keypair i)) = x1 :: xs ->
    mac_equation (kp_secret (iss_keypair i)) (m1 :: ms) tag ->
    is_secret_key_commitment iss =
      padd (smul (sk_x0 (kp_secret (iss_keypair i))) (sp_g (iss_system_parameters i)))
           (smul x0_tilde (sp_h (iss_system_parameters i))) ->
    cr_mac (is_credential iss) = tag ->
    (ir_relation (issuance_publics (iss_system_parameters i) X1 iss)
       {| irs_x0 := sk_x0 (kp_secret (iss_keypair i)); irs_x1 := x1; irs_x0_tilde := x0_tilde;
          irs_m1x1 := s_mul m1 x1 |} <->
     smul (dot xs ms) (tag_nonce tag) = pzero /\ X1 = smul x1 (sp_h (iss_system_parameters i))).
  Proof.
    intros Hx [Hl He] HC Ht. unfold ir_relation, issuance_publics. cbn. rewrite HC, Ht, He, Hx.
    cbn [dot]. destruct tag as [P Q]; cbn [tag_nonce tag_mac] in *.
    assert (HQ : smul (sk_x0 (kp_secret (iss_keypair i)) + (x1 * m1 + dot xs ms)) P =
      padd (smul (sk_x0 (kp_secret (iss_keypair i))) P) (smul (s_mul m1 x1) P) <-> smul (dot xs ms) P = pzero).
    { clear - L. generalize (sk_x0 (kp_secret (iss_keypair i))) (dot xs ms). intros x0 d.
      dlogs L. to_base L. rewrite !(smul_base_iff L). rewrite eqm_sub_0.
      assert (H : (x0 + (x1 * m1 + d)) * k - (x0 * k + s_mul m1 x1 * k) == d * k) by eqm_ring.
      rewrite H. tauto. }
    rewrite HQ. tauto.
  Qed.

  (** Completeness of issuance. *)
  Theorem issuance_accepted i u rq r os iss r' os' :
    consistent i -> single_attribute i -> user_of i u ->
    issue i rq r os = Ok (iss, r', os') -> snd (obtain_finish u (Some iss)) = Ok tt.
  Proof.
    intros Hc Hs [Hp Hk] H.
    apply issue_inv in H as (X1 & Xs & x1 & xs & m1 & ms & tag & x0t & rand & H). cbv zeta in H.
    destruct H as (HX & Hx & Hm & Hl & He & Hn & HC & Hcr & Hpf).
    apply obtain_finish_ok. exists X1, Xs. rewrite Hp, Hk. split; [exact HX|].
    rewrite Hpf. apply (ir_complete L).
    apply (honest_relation i iss X1 x1 xs m1 ms tag x0t Hx He HC); [rewrite Hcr; reflexivity|].
    unfold single_attribute in Hs. rewrite Hx in Hs. destruct xs; [|discriminate].
    split; [reflexivity|]. exact (consistent_cons i X1 Xs x1 [] Hc HX Hx).
  Qed.

  (** What it takes for an honest issuance to be accepted. *)
  Theorem issuance_accepted_only i u rq r os iss r' os' X1 Xs x1 xs m1 ms :
    user_of i u -> issue i rq r os = Ok (iss, r', os') ->
    pk_Xn (kp_public (iss_keypair i)) = X1 :: Xs -> sk_xn (kp_secret (iss_keypair i)) = x1 :: xs ->
    rq_attributes_revealed rq = m1 :: ms ->
    snd (obtain_finish u (Some iss)) = Ok tt ->
    (smul (dot xs ms) (tag_nonce (cr_mac (is_credential iss))) = pzero /\
     X1 = smul x1 (sp_h (iss_system_parameters i))) \/
    ir_challenge (is_proof iss) = 0 \/
    exists x0_tilde rand,
      let x0 := sk_x0 (kp_secret (iss_keypair i)) in
      let secrets := {| irs_x0 := x0; irs_x1 := x1; irs_x0_tilde := x0_tilde; irs_m1x1 := s_mul m1 x1 |} in
      let p := issuance_publics (iss_system_parameters i) X1 iss in
      is_secret_key_commitment iss = padd (smul x0 (sp_g (iss_system_parameters i)))
                                          (smul x0_tilde (sp_h (iss_system_parameters i))) /\
      is_proof iss = ir_create_with (ir_create_absorb issuance_transcript p) p secrets rand /\
      @challenge_collision E (extend issuance_transcript (ir_messages p (ir_image p rand)))
                             (extend issuance_transcript (ir_messages p (ir_recompute (is_proof iss) p))).
  Proof.
    intros [Hp Hk] H HX Hx Hm Hok.
    apply issue_inv in H as (X1' & Xs' & x1' & xs' & m1' & ms' & tag & x0t & rand & H). cbv zeta in H.
    destruct H as (HX' & Hx' & Hm' & Hl & He & Hn & HC & Hcr & Hpf).
    rewrite HX in HX'. rewrite Hx in Hx'. rewrite Hm in Hm'. injection HX' as <- <-. injection Hx' as <- <-. injection Hm' as <- <-.
    apply obtain_finish_ok in Hok as (Y & Ys & HY & Hv). rewrite Hk, HX in HY. injection HY as <- <-.
    rewrite Hp in Hv. pose proof Hpf as Hpf'. rewrite Hpf in Hv.
    apply (ir_false_rejected L) in Hv. rewrite <- Hpf in Hv.
    destruct Hv as [(_ & _ & Hr)|[H0|Hcol]].
    - left. rewrite Hcr. cbn [cr_mac].
      apply (honest_relation i iss X1 x1 xs m1 ms tag x0t Hx He HC) in Hr; [exact Hr|rewrite Hcr; reflexivity].
    - right; left; exact H0.
    - right; right. exists x0t, rand. cbv zeta. split; [exact HC|]. split; [exact Hpf|exact Hcol].
  Qed.

  (** Creating issuers *)
  Lemma scalars_random_length n r : List.length (fst (scalars_random n r)) = n.
  Proof.
    revert r; induction n as [|n IH]; intros r; [reflexivity|]. cbn [scalars_random].
    destruct (scalar_random r) as [x r1]. specialize (IH r1).
    destruct (scalars_random n r1) as [xs r2]. cbn in *. congruence.
  Qed.
  Lemma issuer_create_facts (params : SystemParameters E) r :
    let i := fst (issuer_create params r) in
    iss_system_parameters i = params /\ consistent i /\ single_attribute i.
  Proof.
    unfold issuer_create, keypair_new, secret_key_new, NUMBER_OF_ATTRIBUTES.
    destruct (scalar_random r) as [x0 r1].
    pose proof (scalars_random_length 1 r1) as Hl.
    destruct (scalars_random 1 r1) as [xn r2]. cbn [fst] in *. cbn.
    split; [reflexivity|]. split; [|exact Hl].
    unfold consistent, key_matches. cbn. clear. induction xn; cbn; constructor; auto.
  Qed.
End issue_facts.
