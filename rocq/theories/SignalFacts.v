(** Unlinkability of presentations, and facts about signal-credential/src/issuer.rs and user.rs *)
From Verif Require Export ShowFacts.
From Coq Require Import Setoid.
Local Open Scope string_scope.

Section unlinkability.
  Context {E : Ext} (L : ExtLaws E).

  Lemma unique_log (P Q : point E) : P <> pzero -> exists! k, canonical k /\ smul k P = Q.
  Proof.
    intros HP. destruct (basepoint_generates E L P) as [a Ha]. destruct (basepoint_generates E L Q) as [b Hb].
    assert (Hn : ~ a == 0).
    { intros H. apply HP. rewrite Ha. apply (smul_zero_iff L); [apply (basepoint_nonzero E L)|exact H]. }
    exists ((b * s_inv a) mod ell). split.
    - split; [apply mod_range|]. rewrite (smul_mod L), Ha, Hb. to_base L. apply (smul_base_iff L).
      transitivity (b * (s_inv a * a)); [apply eqm_of_eq; zring|]. rewrite (s_inv_spec a Hn).
      apply eqm_of_eq; zring.
    - intros k [Hk1 Hk2]. apply eqm_canonical; [apply mod_range|exact Hk1|].
      symmetry. apply (smul_inj L k _ P HP). rewrite Hk2, (smul_mod L), Ha, Hb. to_base L.
      apply (smul_base_iff L). symmetry.
      transitivity (b * (s_inv a * a)); [apply eqm_of_eq; zring|]. rewrite (s_inv_spec a Hn).
      apply eqm_of_eq; zring.
  Qed.
  Lemma unique_opening (A P Q : point E) : A <> pzero -> exists! k, canonical k /\ padd P (smul k A) = Q.
  Proof.
    intros HA. destruct (unique_log A (psub Q P) HA) as (k & [Hk1 Hk2] & Hu).
    assert (H : forall k, padd P (smul k A) = Q <-> smul k A = psub Q P).
    { intros k'. generalize (smul k' A) as R. intros R. split; [intros <-|intros ->]; clear - L; pring L. }
    exists k. split; [split; [exact Hk1|]; apply H; exact Hk2|].
    intros k' [H1 H2]. apply Hu. split; [exact H1|]. apply H; exact H2.
  Qed.

  (** [User::show] with every random scalar given (one attribute). *)
  Definition show_with (u : User E) (c : Credential E) (z0 rr zQ : scalar) (rand : vc_Scalars)
    : outcome CredentialError (CredentialPresentation E) :=
    do (CQ, Cs, q, s) <- show_statement u c [z0] rr zQ;
    Ok (show_presentation CQ Cs q (vc_create_with (vc_create_absorb show_transcript q) q s rand)).

  Lemma show_with_shown u c m0 ms X0 Xs z0 rr zQ rand :
    cr_attributes c = m0 :: ms -> pk_Xn (us_issuer_parameters u) = X0 :: Xs ->
    show_with u c z0 rr zQ rand = Ok (shown (us_system_parameters u) X0 c m0 z0 rr zQ rand).
  Proof.
    intros Ha HX. unfold show_with, show_statement, show_commitments, commitment_to, apply_to_tag, index.
    rewrite Ha, HX. reflexivity.
  Qed.

  (** The scalars [show] draws. *)
  Lemma show_draws u c z0 r os :
    us_credential u = Some c ->
    let rr := fst (scalar_random (@show_csprng E r)) in
    let zQ := fst (scalar_random (snd (scalar_random (@show_csprng E r)))) in
    exists rand, forall p r' os', show u [z0] r os = Ok (p, r', os') -> show_with u c z0 rr zQ rand = Ok p.
  Proof.
    intros Hc rr zQ.
    destruct (cr_attributes c) as [|m0 ms] eqn:Ha.
    { exists {| vcs_m0 := 0; vcs_z0 := 0; vcs_minus_zQ := 0 |}. intros p r' os' H.
      destruct (show_some u c [z0] r os Hc) as [(_ & H2 & _)|[_ H2]]; [contradiction|congruence]. }
    destruct (pk_Xn (us_issuer_parameters u)) as [|X0 Xs] eqn:HX.
    { exists {| vcs_m0 := 0; vcs_z0 := 0; vcs_minus_zQ := 0 |}. intros p r' os' H.
      destruct (show_some u c [z0] r os Hc) as [(_ & _ & H2 & _)|[_ H2]]; [rewrite HX in H2; cbn in H2; lia|congruence]. }
    pose proof (show_ok u c m0 ms X0 Xs z0 r os Hc Ha HX) as Hs. cbv zeta in Hs. fold rr zQ in Hs.
    eexists. intros p r' os' H. rewrite Hs in H. apply ok3 in H as [<- _].
    rewrite (show_with_shown u c m0 ms X0 Xs _ _ _ _ Ha HX). reflexivity.
  Qed.

  Theorem presentation_unlinkable (i : Issuer E) (u : User E) (c : Credential E) m x1 p C :
    consistent i -> sk_xn (kp_secret (iss_keypair i)) = [x1] -> user_of i u ->
    sp_h (iss_system_parameters i) <> pzero ->
    valid_credential i c m -> tag_nonce (cr_mac c) <> pzero ->
    issuer_verify i p = Ok {| vf_presentation := p |} ->
    pr_attributes_revealed p = [] -> pr_attributes_blinded p = [C] ->
    vc_canonical (vc_responses (pr_proof p)) ->
    exists! w : scalar * scalar * scalar * vc_Scalars,
      let '(z0, rr, zQ, rand) := w in
      canonical z0 /\ canonical rr /\ canonical zQ /\ vc_canonical rand /\
      show_with u c z0 rr zQ rand = Ok p.
  Proof.
    intros Hc Hx [Hup Huk] Hh [Ha He] HP0 Hv Hr Hb Hcan.
    set (params := iss_system_parameters i) in *. set (X1 := smul x1 (sp_h params)).
    assert (HX : pk_Xn (kp_public (iss_keypair i)) = [X1]) by (apply consistent_single; assumption).
    destruct (unique_log (tag_nonce (cr_mac c)) (pr_rerandomized_nonce p) HP0) as (rr & [Hrr1 Hrr2] & Hrru).
    destruct (unique_opening (sp_h params) (smul rr (tag_mac (cr_mac c))) (pr_rerandomized_mac_commitment p) Hh)
      as (zQ & [HzQ1 HzQ2] & HzQu).
    destruct (unique_opening (sp_h params) (smul m (pr_rerandomized_nonce p)) C Hh) as (z0 & [Hz1 Hz2] & Hzu).
    rewrite (issuer_verify_ok1 i p X1 [] x1 C HX Hx Hr Hb) in Hv. fold params in Hv.
    set (q := presentation_publics params X1 (sk_x0 (kp_secret (iss_keypair i))) x1
                (pr_rerandomized_nonce p) (pr_rerandomized_mac_commitment p) C) in *.
    assert (V : vc_verify (pr_proof p) show_transcript q = Ok tt).
    { destruct (vc_verify (pr_proof p) show_transcript q) as [[]| |]; congruence. }
    assert (Hq : q = shown_publics params X1 c m z0 rr zQ).
    { pose proof (apply_to_tag_equation L rr _ _ _ He) as He'.
      apply (shown_publics_iff L i c x1 m z0 rr zQ Hx) with (rand := vc_responses (pr_proof p)) in He'.
      cbv zeta in He'. fold params X1 in He'. rewrite <- He'. unfold q, shown.
      cbn [pr_rerandomized_nonce pr_rerandomized_mac_commitment]. rewrite Hrr2, HzQ2, Hz2. reflexivity. }
    assert (R : vc_relation q (shown_secrets m z0 zQ)) by (rewrite Hq; apply (shown_relation L)).
    destruct (vc_witness_indistinguishable L show_transcript q (shown_secrets m z0 zQ) (pr_proof p) R Hcan V)
      as (rand & [Hrand1 Hrand2] & Hrandu).
    assert (HX' : pk_Xn (us_issuer_parameters u) = [X1]) by (rewrite Huk; exact HX).
    exists (z0, rr, zQ, rand). split.
    - repeat (split; [assumption|]). rewrite (show_with_shown u c m [] X1 [] z0 rr zQ rand Ha HX'), Hup.
      unfold shown. fold params. rewrite Hrr2, HzQ2, Hz2, <- Hq, Hrand2.
      f_equal. rewrite <- Hr, <- Hb. destruct p; reflexivity.
    - intros [[[z0' rr'] zQ'] rand'] (H1 & H2 & H3 & H4 & H5).
      rewrite (show_with_shown u c m [] X1 [] z0' rr' zQ' rand' Ha HX'), Hup in H5. fold params in H5.
      assert (H5' : shown params X1 c m z0' rr' zQ' rand' = p) by congruence. clear H5.
      assert (Erf : rr = rr').
      { apply Hrru. split; [exact H2|]. rewrite <- H5'. reflexivity. }
      subst rr'.
      assert (EzQ : zQ = zQ').
      { apply HzQu. split; [exact H3|]. rewrite <- H5'. reflexivity. }
      subst zQ'.
      assert (Ez : z0 = z0').
      { apply Hzu. split; [exact H1|]. rewrite <- H5' in Hb |- *. cbn in Hb |- *. congruence. }
      subst z0'.
      assert (Er : rand = rand').
      { apply Hrandu. split; [exact H4|]. rewrite <- H5'. rewrite Hq. reflexivity. }
      subst rand'. reflexivity.
  Qed.

  (** Changing a presentation. *)
  Theorem presentation_binding (i : Issuer E) (X1 : point E) Xs x1 p p' C C' :
    pk_Xn (kp_public (iss_keypair i)) = X1 :: Xs -> sk_xn (kp_secret (iss_keypair i)) = [x1] ->
    pr_attributes_revealed p = [] -> pr_attributes_blinded p = [C] ->
    pr_attributes_revealed p' = [] -> pr_attributes_blinded p' = [C'] ->
    issuer_verify i p = Ok {| vf_presentation := p |} ->
    issuer_verify i p' = Ok {| vf_presentation := p' |} ->
    pr_proof p = pr_proof p' ->
    let q p C := presentation_publics (iss_system_parameters i) X1 (sk_x0 (kp_secret (iss_keypair i))) x1
               (pr_rerandomized_nonce p) (pr_rerandomized_mac_commitment p) C in
    p = p' \/
    @challenge_collision E (extend show_transcript (vc_messages (q p C) (vc_recompute (pr_proof p) (q p C))))
      (extend show_transcript (vc_messages (q p' C') (vc_recompute (pr_proof p) (q p' C')))).
  Proof.
    intros HX Hx Hr Hb Hr' Hb' Hv Hv' Hpf q.
    rewrite (issuer_verify_ok1 i p X1 Xs x1 C HX Hx Hr Hb) in Hv. 
    rewrite (issuer_verify_ok1 i p' X1 Xs x1 C' HX Hx Hr' Hb') in Hv'.
    fold (q p C) in Hv. fold (q p' C') in Hv'. rewrite <- Hpf in Hv'.
    assert (V : vc_verify (pr_proof p) show_transcript (q p C) = Ok tt).
    { destruct (vc_verify _ _ _) as [[]| |]; congruence. }
    assert (V' : vc_verify (pr_proof p) show_transcript (q p' C') = Ok tt).
    { destruct (vc_verify _ _ (q p' C')) as [[]| |]; congruence. }
    apply vc_verify_iff in V, V'.
    destruct (transcript_eq_dec
      (extend show_transcript (vc_messages (q p C) (vc_recompute (pr_proof p) (q p C))))
      (extend show_transcript (vc_messages (q p' C') (vc_recompute (pr_proof p) (q p' C'))))) as [He|He];
      [|right; split; [exact He|congruence]].
    left. apply (vc_transcript_inj L) in He as (_ & He & _).
    pose proof (f_equal vcp_P He) as H1. pose proof (f_equal vcp_Cm0 He) as H2. pose proof (f_equal vcp_V He) as H3.
    unfold q, presentation_publics in H1, H2, H3. cbn in H1, H2, H3.
    destruct p as [CQ P rv bl pf], p' as [CQ' P' rv' bl' pf']. cbn in *. subst.
    f_equal. generalize dependent (padd (smul (sk_x0 (kp_secret (iss_keypair i))) P') (smul x1 C')). 
    clear - L. intros R H. dlogs L. to_base_in L H. apply (smul_base_iff L) in H. apply (smul_base_iff L).
    apply eqm_sub_0 in H. apply eqm_sub_0.
    match type of H with ?a == _ => match goal with |- ?b == _ => assert (Hz : b == - a) end end.
    { apply eqm_of_eq; zring. }
    rewrite Hz, H. reflexivity.
  Qed.
End unlinkability.

(** ** Roster membership *)
Section roster_facts.
  Context {E : Ext} (L : ExtLaws E).
  Implicit Types (i : Issuer E) (u : SignalUser E).

  Lemma signal_verify_ok i p : signal_verify i p = Ok {| vs_presentation := p |} <->
    issuer_verify i (sc_presentation p) = Ok {| vf_presentation := sc_presentation p |}.
  Proof.
    unfold signal_verify. split.
    - intros H. apply bind_ok in H as (v & Hv & _). pose proof (issuer_verify_value _ _ _ Hv). congruence.
    - intros ->. reflexivity.
  Qed.

  Lemma verify_roster_ok i p C Cs :
    pr_attributes_blinded (sc_presentation p) = C :: Cs ->
    verify_roster_membership i {| vs_presentation := p |} =
    match ce_verify (sc_roster_membership_proof p) roster_transcript
            (roster_publics (iss_system_parameters i) (pr_rerandomized_nonce (sc_presentation p)) C
               (sc_roster_entry_commitment p)) with
    | Ok _ => Ok (sc_roster_entry_commitment p)
    | Err _ => Err VerificationFailure
    | Panic => Panic
    end.
  Proof.
    intros Hb. unfold verify_roster_membership. cbn [vs_presentation]. rewrite Hb.
    cbn [index nth_error or_panic bind].
    change (transcript_new "SIGNAL GROUP MEMBERSHIP") with roster_transcript.
    unfold roster_publics. destruct (ce_verify _ _ _); reflexivity.
  Qed.
  Lemma verify_roster_empty i p : pr_attributes_blinded (sc_presentation p) = [] ->
    verify_roster_membership i {| vs_presentation := p |} = Panic.
  Proof. intros Hb. unfold verify_roster_membership. cbn [vs_presentation]. rewrite Hb. reflexivity. Qed.

  Lemma ce_create_some_rand t q s os :
    fst (ce_create t q s os) = ce_create_with (E := E) (ce_create_absorb t q) q s
      (fst (@ce_randomness E (ce_create_absorb t q) s os)).
  Proof. unfold ce_create. destruct (ce_randomness (ce_create_absorb t q) s os); reflexivity. Qed.

  (** What [SignalUser::show] returns. *)
  Lemma signal_show_ok u c m0 ms X0 Xs entry r os :
    us_credential (su_user u) = Some c -> cr_attributes c = m0 :: ms ->
    pk_Xn (us_issuer_parameters (su_user u)) = X0 :: Xs ->
    exists rand rand',
    let params := us_system_parameters (su_user u) in
    let z0 := fst (scalar_random r) in
    let cs := @show_csprng E (snd (scalar_random r)) in
    let rr := fst (scalar_random cs) in
    let zQ := fst (scalar_random (snd (scalar_random cs))) in
    let q := roster_publics params (smul rr (tag_nonce (cr_mac c)))
               (padd (smul m0 (smul rr (tag_nonce (cr_mac c)))) (smul z0 (sp_h params))) (re_commitment entry) in
    let s := {| ces_m0 := m0; ces_z0 := z0; ces_z1 := re_opening entry |} in
    exists r' os', signal_show u r os entry =
      Ok ({| sc_roster_entry_commitment := re_commitment entry;
             sc_presentation := shown params X0 c m0 z0 rr zQ rand;
             sc_roster_membership_proof := ce_create_with (ce_create_absorb roster_transcript q) q s rand' |},
          r', os').
  Proof.
    intros Hc Ha HX. unfold signal_show. rewrite Hc. cbn [ok_or bind].
    unfold nonces_new, NUMBER_OF_ATTRIBUTES. cbn [scalars_random].
    destruct (scalar_random r) as [z0 r1]. cbn [fst snd].
    pose proof (show_ok (su_user u) c m0 ms X0 Xs z0 r1 os Hc Ha HX) as Hs. cbv zeta in Hs.
    set (params := us_system_parameters (su_user u)) in *.
    set (rr := fst (scalar_random (show_csprng r1))) in *.
    set (zQ := fst (scalar_random (snd (scalar_random (show_csprng r1))))) in *.
    rewrite Hs. cbn [bind].
    match goal with |- context [shown params X0 c m0 z0 rr zQ ?x] => generalize x as rand end. intros rand.
    match goal with |- context [snd (vc_create ?a ?b ?d ?e)] => generalize (snd (vc_create a b d e)) as os1 end. intros os1.
    unfold roster_statement. rewrite Ha. unfold index. cbn [nth_error or_panic bind shown pr_attributes_blinded pr_rerandomized_nonce].
    change (transcript_new "SIGNAL GROUP MEMBERSHIP") with roster_transcript. fold params.
    match goal with |- context [ce_create ?a ?b ?d ?e] => pose proof (ce_create_some_rand a b d e) as Hr;
      destruct (ce_create a b d e) as [pf os2]; cbn [fst] in Hr end.
    match type of Hr with _ = ce_create_with _ _ _ ?x => exists rand, x end.
    cbv zeta. rewrite Hr. eexists _, _. reflexivity.
  Qed.

  Lemma roster_relation params P m z0 entry :
    ce_relation (roster_publics params P (padd (smul m P) (smul z0 (sp_h params))) (re_commitment entry))
      {| ces_m0 := m; ces_z0 := z0; ces_z1 := re_opening entry |} <->
    re_commitment entry = padd (smul m (sp_h params)) (smul (re_opening entry) (sp_g params)) :> point E.
  Proof. unfold ce_relation, roster_publics. cbn. tauto. Qed.

  Theorem signal_presentation_accepted i u c m r os entry :
    consistent i -> single_attribute i -> user_of i (su_user u) -> us_credential (su_user u) = Some c ->
    valid_credential i c m ->
    re_commitment entry = padd (smul m (sp_h (iss_system_parameters i)))
                               (smul (re_opening entry) (sp_g (iss_system_parameters i))) ->
    exists p r' os', signal_show u r os entry = Ok (p, r', os') /\
      signal_verify i p = Ok {| vs_presentation := p |} /\
      verify_roster_membership i {| vs_presentation := p |} = Ok (re_commitment entry).
  Proof.
    intros Hc Hs [Hp Hk] Hu [Ha He] Hre. destruct (single_cons i Hs) as [x1 Hx].
    pose proof (consistent_single i x1 Hc Hx) as HX.
    assert (HX' : pk_Xn (us_issuer_parameters (su_user u)) = [smul x1 (sp_h (iss_system_parameters i))])
      by (rewrite Hk; exact HX).
    destruct (signal_show_ok u c m [] _ [] entry r os Hu Ha HX') as (rand & rand' & Hsh). cbv zeta in Hsh.
    destruct Hsh as (r' & os' & Hsh). rewrite Hp in Hsh.
    eexists _, r', os'. split; [exact Hsh|]. split.
    - apply signal_verify_ok. cbn [sc_presentation]. apply (shown_verify L); assumption.
    - erewrite verify_roster_ok by reflexivity. cbn [sc_roster_membership_proof sc_presentation sc_roster_entry_commitment shown pr_rerandomized_nonce].
      rewrite (ce_complete L); [reflexivity|]. apply roster_relation. exact Hre.
  Qed.

  Theorem signal_wrong_entry i u c m ms X0 Xs entry r os p r' os' :
    us_system_parameters (su_user u) = iss_system_parameters i ->
    us_credential (su_user u) = Some c -> cr_attributes c = m :: ms ->
    pk_Xn (us_issuer_parameters (su_user u)) = X0 :: Xs ->
    signal_show u r os entry = Ok (p, r', os') ->
    verify_roster_membership i {| vs_presentation := p |} <> Err VerificationFailure ->
    re_commitment entry = padd (smul m (sp_h (iss_system_parameters i)))
                               (smul (re_opening entry) (sp_g (iss_system_parameters i))) \/
    ce_challenge (sc_roster_membership_proof p) = 0 \/
    exists C rand,
      let s := {| ces_m0 := m; ces_z0 := fst (scalar_random r); ces_z1 := re_opening entry |} in
      let q := roster_publics (iss_system_parameters i) (pr_rerandomized_nonce (sc_presentation p)) C (re_commitment entry) in
      pr_attributes_blinded (sc_presentation p) = [C] /\
      sc_roster_membership_proof p = ce_create_with (ce_create_absorb roster_transcript q) q s rand /\
      @challenge_collision E (extend roster_transcript (ce_messages q (ce_image q rand)))
        (extend roster_transcript (ce_messages q (ce_recompute (sc_roster_membership_proof p) q))).
  Proof.
    intros Hp Hu Ha HX Hsh Hv.
    destruct (signal_show_ok u c m ms X0 Xs entry r os Hu Ha HX) as (rand & rand' & Hsh'). cbv zeta in Hsh'.
    destruct Hsh' as (r1 & os1 & Hsh'). rewrite Hsh' in Hsh. apply ok3 in Hsh as [<- _]. clear Hsh'.
    rewrite Hp in *. erewrite verify_roster_ok in Hv by reflexivity.
    cbn [sc_roster_membership_proof sc_presentation sc_roster_entry_commitment shown pr_rerandomized_nonce pr_attributes_blinded] in *.
    match goal with |- context [smul ?rr (tag_nonce (cr_mac c))] => set (P := smul rr (tag_nonce (cr_mac c))) in * end.
    set (z0 := fst (scalar_random r)) in *.
    set (C := padd (smul m P) (smul z0 (sp_h (iss_system_parameters i)))) in *.
    set (q := roster_publics (iss_system_parameters i) P C (re_commitment entry)) in *.
    set (s := {| ces_m0 := m; ces_z0 := z0; ces_z1 := re_opening entry |}) in *.
    set (pf := ce_create_with (ce_create_absorb roster_transcript q) q s rand') in *.
    assert (V : ce_verify pf roster_transcript q = Ok tt).
    { pose proof (ce_verify_no_panic pf roster_transcript q).
      destruct (ce_verify pf roster_transcript q) as [[]|[]|]; congruence. }
    apply (ce_false_rejected L) in V. destruct V as [(_ & _ & R)|[H0|Hcol]].
    - left. exact (proj1 (roster_relation (iss_system_parameters i) P m z0 entry) R).
    - right; left; exact H0.
    - right; right. exists C, rand'. cbv zeta. split; [reflexivity|]. split; [reflexivity|]. exact Hcol.
  Qed.

  Theorem roster_sound params (P C R : point E) pf1 pf2 :
    let q := roster_publics params P C R in
    ~ ce_challenge pf1 == ce_challenge pf2 -> ce_recompute pf1 q = ce_recompute pf2 q ->
    let w := ce_extract pf1 pf2 in
    C = padd (smul (ces_m0 w) P) (smul (ces_z0 w) (sp_h params)) /\
    R = padd (smul (ces_m0 w) (sp_h params)) (smul (ces_z1 w) (sp_g params)).
  Proof.
    intros q Hch Hrec w. exact (ce_special_sound L q pf1 pf2 Hch Hrec).
  Qed.

  Lemma same_number (P h : point E) m z m' z' :
    padd (smul m P) (smul z h) = padd (smul m' P) (smul z' h) ->
    m == m' \/ (~ m - m' == 0 /\ smul (m - m') P = smul (z' - z) h).
  Proof.
    intros H. destruct (Z.eq_dec ((m - m') mod ell) (0 mod ell)) as [Hz|Hz].
    - left. apply eqm_sub_0. exact Hz.
    - right. split; [exact Hz|]. dlogs L. to_base_in L H. to_base L. apply (smul_base_iff L) in H.
      apply (smul_base_iff L). apply eqm_sub_0 in H. apply eqm_sub_0. rewrite <- H. apply eqm_of_eq; zring.
  Qed.

  Theorem signal_forgery i x1 m z0 zQ entry os os' :
    consistent i -> sk_xn (kp_secret (iss_keypair i)) = [x1] ->
    re_commitment entry = padd (smul m (sp_h (iss_system_parameters i)))
                               (smul (re_opening entry) (sp_g (iss_system_parameters i))) ->
    let p := forge_signal_presentation (iss_system_parameters i)
               (smul x1 (sp_h (iss_system_parameters i))) m z0 zQ entry os os' in
    signal_verify i p = Ok {| vs_presentation := p |} /\
    verify_roster_membership i {| vs_presentation := p |} = Ok (re_commitment entry).
  Proof.
    intros Hc Hx Hre p. split.
    - apply signal_verify_ok. apply (forge_accepted L); assumption.
    - erewrite verify_roster_ok by reflexivity. unfold p, forge_signal_presentation.
      cbn [sc_roster_membership_proof sc_presentation sc_roster_entry_commitment forge_presentation pr_rerandomized_nonce].
      fold (roster_publics (iss_system_parameters i) pzero (smul z0 (sp_h (iss_system_parameters i))) (re_commitment entry)).
      rewrite (ce_create_complete L); [reflexivity|].
      unfold ce_relation, roster_publics. cbn. rewrite (smul_pzero L), (padd_zero E L).
      split; [reflexivity|exact Hre].
  Qed.
End roster_facts.
