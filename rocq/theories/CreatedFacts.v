(** What the library creates can be encoded and decoded again. *)
From Verif Require Export SpecCodec CompositeFacts ShowFacts SignalFacts PhoneFacts PropertiesIssue PropertiesShow PropertiesPhone PropertiesCodec.

Lemma scalar_random_canonical r : canonical (fst (scalar_random r)).
Proof. unfold scalar_random. destruct (fill_bytes 64 r). apply mod_range. Qed.
Lemma scalars_random_canonical n r : Forall canonical (fst (scalars_random n r)).
Proof.
  revert r; induction n as [|n IH]; intros r; [constructor|]. cbn [scalars_random].
  pose proof (scalar_random_canonical r) as Hx. destruct (scalar_random r) as [x r1]. specialize (IH r1).
  destruct (scalars_random n r1) as [xs r2]. constructor; assumption.
Qed.
Lemma try_from_bytes_nonzero b n : try_from_bytes b = Ok n -> n <> 0.
Proof.
  intros H. pose proof (try_from_bytes_inv _ _ H) as Hl. rewrite try_from_bytes_ok in H by exact Hl.
  assert (n = le_decode (number_layout b) mod ell) by congruence. subst n. clear H.
  destruct (Nat.eq_dec (List.length b) 27) as [He|Hn].
  - rewrite number_long_mod by exact He. pose proof (number_value_long b He). pose proof ell_bounds. lia.
  - rewrite number_short_mod by lia. unfold number_layout. rewrite le_decode_app.
    change (le_decode [zb 15; zb 15]) with (15 + 15 * 256).
    match goal with |- _ + _ * le_decode ?l <> 0 => pose proof (le_decode_range l) end.
    change (256 ^ Z.of_nat (List.length [zb 15; zb 15])) with 65536. lia.
Qed.

Section created.
  Context {E : Ext} (L : ExtLaws E).

  Lemma created_issuer (params : SystemParameters E) r :
    let i := fst (issuer_create params r) in
    issuer_wf i /\ exists X1 x1, pk_Xn (kp_public (iss_keypair i)) = [X1] /\ sk_xn (kp_secret (iss_keypair i)) = [x1].
  Proof.
    unfold issuer_create, keypair_new, secret_key_new, NUMBER_OF_ATTRIBUTES.
    pose proof (scalar_random_canonical r) as H0. destruct (scalar_random r) as [x0 r1].
    cbn [scalars_random]. pose proof (scalar_random_canonical r1) as H1. destruct (scalar_random r1) as [x1 r2].
    cbn [fst iss_keypair] in *. split; [|eexists _, _; split; reflexivity].
    split; [|discriminate]. split; [|reflexivity]. split; [exact H0|]. constructor; [exact H1|constructor].
  Qed.
  Lemma ir_create_wf t p s r : ir_wf (@ir_create_with E (ir_create_absorb t p) p s r).
  Proof.
    rewrite (ir_create_with_eq L). cbv zeta. unfold ir_wf, ir_proof_scalars.
    cbn [ir_challenge ir_responses irs_x0 irs_x1 irs_x0_tilde irs_m1x1].
    repeat constructor; try apply challenge_of_range; try apply mod_range.
  Qed.
  Lemma vc_create_wf t p s r : vc_wf (@vc_create_with E (vc_create_absorb t p) p s r).
  Proof.
    rewrite (vc_create_with_eq L). cbv zeta. unfold vc_wf, vc_proof_scalars.
    cbn [vc_challenge vc_responses vcs_m0 vcs_z0 vcs_minus_zQ].
    repeat constructor; try apply challenge_of_range; try apply mod_range.
  Qed.
  Lemma ce_create_wf t p s r : ce_wf (@ce_create_with E (ce_create_absorb t p) p s r).
  Proof.
    rewrite (ce_create_with_eq L). cbv zeta. unfold ce_wf, ce_proof_scalars.
    cbn [ce_challenge ce_responses ces_m0 ces_z0 ces_z1].
    repeat constructor; try apply challenge_of_range; try apply mod_range.
  Qed.
  Lemma created_issuance (i : Issuer E) rq r os iss r' os' :
    issue i rq r os = Ok (iss, r', os') -> List.length (rq_attributes_revealed rq) = 1%nat ->
    Forall canonical (rq_attributes_revealed rq) ->
    issuance_wf iss /\ cr_attributes (is_credential iss) = rq_attributes_revealed rq.
  Proof.
    intros H Hl Hc. apply (issue_inv L) in H as (X1 & Xs & x1 & xs & m1 & ms & tag & x0t & rand & H). cbv zeta in H.
    destruct H as (_ & _ & Hm & _ & _ & _ & _ & Hcr & Hpf). rewrite Hcr. cbn [cr_attributes]. split; [|symmetry; exact Hm].
    split; [rewrite Hcr; split; cbn [cr_attributes]; rewrite <- Hm; assumption|]. rewrite Hpf. apply ir_create_wf.
  Qed.
  Lemma created_presentation (u : SignalUser E) r os entry p r' os' X0 :
    signal_show u r os entry = Ok (p, r', os') -> pk_Xn (us_issuer_parameters (su_user u)) = [X0] ->
    signal_presentation_wf p.
  Proof.
    intros H HX. pose proof (C37_signal_show_outcomes E L u r os entry) as Ho.
    destruct (us_credential (su_user u)) as [c|] eqn:Hc; [|congruence].
    destruct Ho as [[_ Ho]|(Ha & _)]; [congruence|].
    destruct (cr_attributes c) as [|m0 ms] eqn:Hm; [contradiction|].
    destruct (signal_show_ok u c m0 ms X0 [] entry r os Hc Hm HX) as (rand & rand' & Hs). cbv zeta in Hs.
    destruct Hs as (r1 & os1 & Hs). rewrite Hs in H. assert (Hp := f_equal (fun o => match o with Ok (x, _, _) => Some x | _ => None end) H).
    cbn beta iota in Hp. injection Hp as <-. clear H Hs.
    split; cbn [sc_presentation sc_roster_membership_proof]; [|apply ce_create_wf].
    split; [reflexivity|]. split; [reflexivity|]. apply vc_create_wf.
  Qed.
  Lemma created_entry number (params : SystemParameters E) r e r' : roster_create number params r = Ok (e, r') ->
    canonical (re_opening e).
  Proof.
    unfold roster_create, ephemeral_new. pose proof (scalar_random_canonical r) as Ho. destruct (scalar_random r) as [o r1].
    destruct (try_from_bytes number); cbn [bind]; try discriminate. intros [= <- _]. exact Ho.
  Qed.
  Lemma canonical_bits s : canonical s -> bits255 s.
  Proof. intros H. unfold canonical in H. pose proof ell_bounds. unfold bits255. change (2 ^ 255) with (128 * 2 ^ 248). lia. Qed.
End created.
