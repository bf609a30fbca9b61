(** What a roster presentation tells the issuer (C66), and to which issuer it
    is bound (C67): signal-credential/src/user.rs and issuer.rs,
    aeonflux/src/issuer.rs and user.rs. *)
From Verif Require Import SignalFacts PropertiesIssue PropertiesShow PropertiesPhone PropertiesSignal CodecFacts Toy.
From Coq Require Import Setoid.
Local Open Scope string_scope.

(** ** C66: a presentation tells which roster entry is used, and not the number *)

(** [SignalUser::show] (signal-credential/src/user.rs:99-140) with every random
    scalar given: [z0] hides the number, [rr] re-randomises the tag, [zQ] hides
    the MAC, [rand] and [rand'] blind the two proofs. *)
Definition signal_show_with {E : Ext} (u : SignalUser E) (c : Credential E) (entry : RosterEntryCommitment E)
    (z0 rr zQ : scalar) (rand : vc_Scalars) (rand' : ce_Scalars)
  : outcome CredentialError (SignalCredentialPresentation E) :=
  do p <- show_with (su_user u) c z0 rr zQ rand;
  do (q, s) <- roster_statement u c [z0] p entry;
  Ok {| sc_roster_entry_commitment := re_commitment entry;
        sc_presentation := p;
        sc_roster_membership_proof := ce_create_with (ce_create_absorb roster_transcript q) q s rand' |}.

Lemma signal_show_with_ok {E : Ext} (u : SignalUser E) c entry m ms X0 Xs z0 rr zQ rand rand' :
  cr_attributes c = m :: ms -> pk_Xn (us_issuer_parameters (su_user u)) = X0 :: Xs ->
  signal_show_with u c entry z0 rr zQ rand rand' =
  let params := us_system_parameters (su_user u) in
  let p := shown params X0 c m z0 rr zQ rand in
  let P := smul rr (tag_nonce (cr_mac c)) in
  let q := roster_publics params P (padd (smul m P) (smul z0 (sp_h params))) (re_commitment entry) in
  Ok {| sc_roster_entry_commitment := re_commitment entry; sc_presentation := p;
        sc_roster_membership_proof := ce_create_with (ce_create_absorb roster_transcript q) q
          {| ces_m0 := m; ces_z0 := z0; ces_z1 := re_opening entry |} rand' |}.
Proof.
  intros Ha HX. unfold signal_show_with. rewrite (show_with_shown _ _ _ _ _ _ _ _ _ _ Ha HX). cbn [bind].
  unfold roster_statement. rewrite Ha. reflexivity.
Qed.

(** Every presentation that passes both checks of the issuer is made by every
    valid credential, whatever its number [m]: there is exactly one opening of the
    roster entry to [m] and one choice of the random scalars that give it. *)
Theorem C66_number_hidden : forall E, ExtLaws E ->
  forall (i : Issuer E) (u : SignalUser E) c m x1 p C,
  consistent i -> sk_xn (kp_secret (iss_keypair i)) = [x1] -> user_of i (su_user u) ->
  sp_h (iss_system_parameters i) <> pzero -> sp_g (iss_system_parameters i) <> pzero ->
  valid_credential i c m -> tag_nonce (cr_mac c) <> pzero ->
  signal_verify i p = Ok {| vs_presentation := p |} ->
  is_ok (verify_roster_membership i {| vs_presentation := p |}) = true ->
  pr_attributes_revealed (sc_presentation p) = [] -> pr_attributes_blinded (sc_presentation p) = [C] ->
  vc_canonical (vc_responses (pr_proof (sc_presentation p))) ->
  ce_canonical (ce_responses (sc_roster_membership_proof p)) ->
  exists! w : scalar * scalar * scalar * scalar * vc_Scalars * ce_Scalars,
    let '(opening, z0, rr, zQ, rand, rand') := w in
    let R := sc_roster_entry_commitment p in
    R = padd (smul m (sp_h (iss_system_parameters i))) (smul opening (sp_g (iss_system_parameters i))) /\
    canonical opening /\ canonical z0 /\ canonical rr /\ canonical zQ /\ vc_canonical rand /\ ce_canonical rand' /\
    signal_show_with u c {| re_commitment := R; re_opening := opening |} z0 rr zQ rand rand' = Ok p.
Proof.
  intros E L i u c m x1 p C Hc Hx Hu Hh Hg Hv Hn V1 V2 Hr Hb Hcan Hcan'.
  apply signal_verify_ok in V1.
  destruct (presentation_unlinkable L i (su_user u) c m x1 _ C Hc Hx Hu Hh Hv Hn V1 Hr Hb Hcan)
    as ([[[z0 rr] zQ] rand] & (H1 & H2 & H3 & H4 & H5) & Huniq).
  set (params := iss_system_parameters i) in *.
  destruct (unique_opening L (sp_g params) (smul m (sp_h params)) (sc_roster_entry_commitment p) Hg)
    as (z1 & [Hz1 Hz2] & Hzu).
  pose proof (consistent_single i x1 Hc Hx) as HX. fold params in HX.
  destruct Hu as [Hup Huk]. destruct Hv as [Ha He].
  assert (HX' : pk_Xn (us_issuer_parameters (su_user u)) = [smul x1 (sp_h params)]) by (rewrite Huk; exact HX).
  assert (Hsh : forall z0 rr zQ rand, show_with (su_user u) c z0 rr zQ rand =
    Ok (shown params (smul x1 (sp_h params)) c m z0 rr zQ rand)).
  { intros. rewrite (show_with_shown (su_user u) c m [] _ [] _ _ _ _ Ha HX'), Hup. reflexivity. }
  assert (Hsw : forall entry z0 rr zQ rand rand', signal_show_with u c entry z0 rr zQ rand rand' =
    let P := smul rr (tag_nonce (cr_mac c)) in
    let q := roster_publics params P (padd (smul m P) (smul z0 (sp_h params))) (re_commitment entry) in
    Ok {| sc_roster_entry_commitment := re_commitment entry;
          sc_presentation := shown params (smul x1 (sp_h params)) c m z0 rr zQ rand;
          sc_roster_membership_proof := ce_create_with (ce_create_absorb roster_transcript q) q
          {| ces_m0 := m; ces_z0 := z0; ces_z1 := re_opening entry |} rand' |}).
  { intros. rewrite (signal_show_with_ok u c entry m [] _ [] _ _ _ _ _ Ha HX'), Hup. reflexivity. }
  rewrite Hsh in H5. assert (H5' : shown params (smul x1 (sp_h params)) c m z0 rr zQ rand = sc_presentation p) by congruence.
  clear H5.
  assert (HP : smul rr (tag_nonce (cr_mac c)) = pr_rerandomized_nonce (sc_presentation p)) by (rewrite <- H5'; reflexivity).
  assert (HC : padd (smul m (smul rr (tag_nonce (cr_mac c)))) (smul z0 (sp_h params)) = C).
  { rewrite <- H5' in Hb. cbn in Hb. congruence. }
  set (P := smul rr (tag_nonce (cr_mac c))) in *.
  set (q := roster_publics params P C (sc_roster_entry_commitment p)).
  assert (V : ce_verify (sc_roster_membership_proof p) roster_transcript q = Ok tt).
  { rewrite (verify_roster_ok i p C [] Hb), <- HP in V2. fold params q in V2.
    destruct (ce_verify _ _ q) as [[]| |]; cbn in V2; congruence. }
  assert (R : forall z1, ce_relation q {| ces_m0 := m; ces_z0 := z0; ces_z1 := z1 |} <->
    padd (smul m (sp_h params)) (smul z1 (sp_g params)) = sc_roster_entry_commitment p).
  { intros z. unfold ce_relation, q, roster_publics. cbn. split; [intros [_ ->]; reflexivity|intros ->; split; [symmetry; exact HC|reflexivity]]. }
  destruct (ce_witness_indistinguishable L roster_transcript q _ _ (proj2 (R z1) Hz2) Hcan' V)
    as (rand' & [Hr1 Hr2] & Hru).
  exists (z1, z0, rr, zQ, rand, rand'). split.
  - cbv zeta. split; [symmetry; exact Hz2|]. repeat (split; [assumption|]). rewrite Hsw. cbv zeta. cbn [re_commitment re_opening]. fold P. rewrite HC. fold q.
    rewrite Hr2, H5'. destruct p; reflexivity.
  - intros [[[[[y1 y0] r0] yQ] rnd] rnd'] (K0 & K1 & K2 & K3 & K4 & K5 & K6 & K7).
    rewrite Hsw in K7. cbv zeta in K7. cbn [re_commitment re_opening] in K7.
    assert (Eq : (z0, rr, zQ, rand) = (y0, r0, yQ, rnd)).
    { apply Huniq. repeat (split; [assumption|]). rewrite Hsh. f_equal.
      assert (K8 : forall a b d, Ok {| sc_roster_entry_commitment := a; sc_presentation := b; sc_roster_membership_proof := d |}
        = @Ok CredentialError _ p -> b = sc_presentation p) by (intros a b d [= <-]; reflexivity).
      exact (K8 _ _ _ K7). }
    injection Eq as <- <- <- <-. fold P in K7. rewrite HC in K7. fold q in K7.
    assert (K8 : ce_create_with (ce_create_absorb roster_transcript q) q {| ces_m0 := m; ces_z0 := z0; ces_z1 := y1 |} rnd'
      = sc_roster_membership_proof p).
    { assert (K8 : forall a b d, Ok {| sc_roster_entry_commitment := a; sc_presentation := b; sc_roster_membership_proof := d |}
        = @Ok CredentialError _ p -> d = sc_roster_membership_proof p) by (intros a b d [= <-]; reflexivity).
      exact (K8 _ _ _ K7). }
    assert (Ez : z1 = y1) by (apply Hzu; split; [exact K1|symmetry; exact K0]). subst y1.
    assert (Er : rand' = rnd') by (apply Hru; split; [exact K6|exact K8]). subst rnd'. reflexivity.
Qed.
Print Assumptions C66_number_hidden.

(** [signal_show_with] is [signal_show] with the scalars made explicit. *)
Theorem C66_show_is_show_with : forall E, ExtLaws E -> forall (u : SignalUser E) c entry r os p r' os',
  us_credential (su_user u) = Some c -> signal_show u r os entry = Ok (p, r', os') ->
  let z0 := fst (scalar_random r) in
  let cs := @show_csprng E (snd (scalar_random r)) in
  let rr := fst (scalar_random cs) in
  let zQ := fst (scalar_random (snd (scalar_random cs))) in
  exists rand rand', signal_show_with u c entry z0 rr zQ rand rand' = Ok p.
Proof.
  intros E L u c entry r os p r' os' Hc H z0 cs rr zQ.
  assert (Hok : exists m ms X0 Xs, cr_attributes c = m :: ms /\ pk_Xn (us_issuer_parameters (su_user u)) = X0 :: Xs).
  { unfold signal_show in H. rewrite Hc in H. cbn [ok_or bind] in H.
    unfold nonces_new, NUMBER_OF_ATTRIBUTES in H. cbn [scalars_random] in H.
    destruct (scalar_random r) as [z r1].
    apply bind_ok in H as ([[pr r2] os2] & H & _).
    destruct (show_some (su_user u) c [z] r1 os Hc) as [(_ & H1 & H2 & _)|[_ H1]]; [|congruence].
    destruct (cr_attributes c) as [|m ms]; [contradiction|].
    destruct (pk_Xn _) as [|X0 Xs]; [cbn in H2; lia|]. exists m, ms, X0, Xs. auto. }
  destruct Hok as (m & ms & X0 & Xs & Ha & HX).
  destruct (signal_show_ok u c m ms X0 Xs entry r os Hc Ha HX) as (rand & rand' & Hsh). cbv zeta in Hsh.
  destruct Hsh as (r1 & os1 & Hsh). rewrite Hsh in H. apply ok3 in H as [<- _].
  exists rand, rand'. rewrite (signal_show_with_ok u c entry m ms X0 Xs _ _ _ _ _ Ha HX). reflexivity.
Qed.
Print Assumptions C66_show_is_show_with.

(** In terms of two members: what one member presents for a roster entry of
    their own, the other could have presented for the same entry. *)
Theorem C66_two_members : forall E, ExtLaws E ->
  forall (i : Issuer E) (u1 u2 : SignalUser E) c1 c2 m1 m2 entry z0 rr zQ rand rand' p,
  consistent i -> single_attribute i -> user_of i (su_user u1) -> user_of i (su_user u2) ->
  sp_h (iss_system_parameters i) <> pzero -> sp_g (iss_system_parameters i) <> pzero ->
  valid_credential i c1 m1 -> valid_credential i c2 m2 -> tag_nonce (cr_mac c2) <> pzero ->
  re_commitment entry = padd (smul m1 (sp_h (iss_system_parameters i)))
                             (smul (re_opening entry) (sp_g (iss_system_parameters i))) ->
  signal_show_with u1 c1 entry z0 rr zQ rand rand' = Ok p ->
  exists! w : scalar * scalar * scalar * scalar * vc_Scalars * ce_Scalars,
    let '(opening', z0', rr', zQ', rnd, rnd') := w in
    re_commitment entry = padd (smul m2 (sp_h (iss_system_parameters i))) (smul opening' (sp_g (iss_system_parameters i))) /\
    canonical opening' /\ canonical z0' /\ canonical rr' /\ canonical zQ' /\ vc_canonical rnd /\ ce_canonical rnd' /\
    signal_show_with u2 c2 {| re_commitment := re_commitment entry; re_opening := opening' |} z0' rr' zQ' rnd rnd' = Ok p.
Proof.
  intros E L i u1 u2 c1 c2 m1 m2 entry z0 rr zQ rand rand' p Hc Hs [Hp1 Hk1] Hu2 Hh Hg [Ha1 He1] Hv2 Hn Hre Hsh.
  destruct (single_cons i Hs) as [x1 Hx]. pose proof (consistent_single i x1 Hc Hx) as HX.
  set (params := iss_system_parameters i) in *.
  assert (HX' : pk_Xn (us_issuer_parameters (su_user u1)) = [smul x1 (sp_h params)]) by (rewrite Hk1; exact HX).
  rewrite (signal_show_with_ok u1 c1 entry m1 [] _ [] z0 rr zQ rand rand' Ha1 HX'), Hp1 in Hsh. cbv zeta in Hsh.
  match type of Hsh with Ok ?x = _ => assert (Hpe : x = p) by congruence end. clear Hsh.
  assert (HR : sc_roster_entry_commitment p = re_commitment entry) by (rewrite <- Hpe; reflexivity).
  rewrite <- HR.
  set (P := smul rr (tag_nonce (cr_mac c1))) in *.
  apply (C66_number_hidden E L i u2 c2 m2 x1 p (padd (smul m1 P) (smul z0 (sp_h params)))); try assumption.
  - apply signal_verify_ok. rewrite <- Hpe. cbn [sc_presentation]. apply (shown_verify L); assumption.
  - rewrite <- Hpe. erewrite verify_roster_ok by reflexivity.
    cbn [sc_roster_membership_proof sc_presentation sc_roster_entry_commitment shown pr_rerandomized_nonce].
    fold P params. rewrite (ce_complete L); [reflexivity|]. apply roster_relation. exact Hre.
  - rewrite <- Hpe. reflexivity.
  - rewrite <- Hpe. reflexivity.
  - rewrite <- Hpe. cbn. repeat split; apply mod_range.
  - rewrite <- Hpe. cbn. repeat split; apply mod_range.
Qed.
Print Assumptions C66_two_members.

(** But the roster entry is part of the presentation, and the issuer returns it:
    who uses an entry is not hidden among the entries of the roster, and two
    presentations with one entry are linked. *)
Theorem C66_entry_shown : forall E, ExtLaws E -> forall (u : SignalUser E) r os entry p r' os',
  signal_show u r os entry = Ok (p, r', os') -> sc_roster_entry_commitment p = re_commitment entry.
Proof.
  intros E L u r os entry p r' os' H. unfold signal_show in H.
  apply bind_ok in H as (c & _ & H). destruct (nonces_new r _) as [zs r1].
  apply bind_ok in H as ([[pr r2] os2] & _ & H). apply bind_ok in H as ([q s] & _ & H).
  destruct (ce_create _ q s os2) as [pf os3]. apply ok3 in H as [<- _]. reflexivity.
Qed.
Print Assumptions C66_entry_shown.
Theorem C66_anonymous_in_roster_refuted : forall E, ExtLaws E ->
  forall (i : Issuer E) (u1 u2 : SignalUser E) entry1 entry2 r1 os1 r2 os2 p1 r1' os1' p2 r2' os2' R,
  re_commitment entry1 <> re_commitment entry2 ->
  signal_show u1 r1 os1 entry1 = Ok (p1, r1', os1') ->
  signal_show u2 r2 os2 entry2 = Ok (p2, r2', os2') ->
  p1 <> p2 /\
  (verify_roster_membership i {| vs_presentation := p1 |} = Ok R -> R = re_commitment entry1).
Proof.
  intros E L i u1 u2 e1 e2 r1 os1 r2 os2 p1 r1' os1' p2 r2' os2' R Hne H1 H2.
  apply (C66_entry_shown E L) in H1, H2. split; [congruence|].
  intros H. unfold verify_roster_membership in H. apply bind_ok in H as (C & _ & H).
  destruct (ce_verify _ _ _); [|discriminate|discriminate]. cbn in H. congruence.
Qed.
Print Assumptions C66_anonymous_in_roster_refuted.
Definition sample_signal_holder2 : SignalUser toy :=
  {| su_phone_number := 200;
     su_user := {| us_system_parameters := us_system_parameters sample_holder;
                   us_issuer_parameters := us_issuer_parameters sample_holder;
                   us_key := us_key sample_holder; us_credential := Some sample_credential2 |} |}.
(** A presentation by the holder of the credential for 100.  The holder of the one
    for 200 makes it too, if 17 - 3300 = 3317 - 200 * 33 opens the entry. *)
Example C66_met : consistent sample_issuer /\ single_attribute sample_issuer /\
  user_of sample_issuer (su_user sample_signal_holder) /\ user_of sample_issuer (su_user sample_signal_holder2) /\
  sp_h (iss_system_parameters sample_issuer) <> pzero /\ sp_g (iss_system_parameters sample_issuer) <> pzero /\
  valid_credential sample_issuer sample_credential 100 /\
  valid_credential sample_issuer sample_credential2 200 /\ tag_nonce (cr_mac sample_credential2) <> pzero /\
  re_commitment (sample_entry 100) = padd (smul 100 (sp_h sample_params)) (smul 17 (sp_g sample_params)) /\
  re_commitment (sample_entry 100) = padd (smul 200 (sp_h sample_params)) (smul (17 - 3300) (sp_g sample_params)) /\
  exists p, signal_show_with sample_signal_holder sample_credential (sample_entry 100) 3 4 5
              {| vcs_m0 := 6; vcs_z0 := 7; vcs_minus_zQ := 8 |} {| ces_m0 := 9; ces_z0 := 10; ces_z1 := 11 |} = Ok p /\
    is_ok (signal_verify sample_issuer p) &&
    is_ok (verify_roster_membership sample_issuer {| vs_presentation := p |}) = true.
Proof.
  split; [apply sample_consistent|]. split; [apply sample_consistent|].
  split; [split; reflexivity|]. split; [split; reflexivity|].
  split; [intros H; apply (f_equal tv) in H; vm_compute in H; discriminate|].
  split; [intros H; apply (f_equal tv) in H; vm_compute in H; discriminate|].
  split; [apply sample_valid|].
  split; [apply C23_met|].
  split; [apply C23_met|].
  split; [apply toy_eq; vm_compute; reflexivity|].
  split; [apply toy_eq; vm_compute; reflexivity|].
  apply run1. vm_compute. reflexivity.
Qed.
Example C66_met_entries : re_commitment (sample_entry 100) <> re_commitment (sample_entry 101) /\
  (exists p r' os', signal_show sample_signal_holder (toy_stream 8) (toy_stream 9) (sample_entry 100) = Ok (p, r', os') /\
     is_ok (verify_roster_membership sample_issuer {| vs_presentation := p |}) = true) /\
  exists p r' os', signal_show sample_signal_holder (toy_stream 8) (toy_stream 9) (sample_entry 101) = Ok (p, r', os') /\ true = true.
Proof.
  split; [intros H; apply (f_equal tv) in H; vm_compute in H; discriminate|].
  split; apply run3; vm_compute; reflexivity.
Qed.

(** ** C67: presentations and issuances are bound to one issuer *)

(** A presentation two issuers accept: they have the same parameters and the same
    attribute key, and the same [x0] unless the nonce is the identity. *)
Theorem C67_presentation_one_issuer : forall E, ExtLaws E ->
  forall (i i' : Issuer E) x1 x1' p C,
  consistent i -> sk_xn (kp_secret (iss_keypair i)) = [x1] ->
  consistent i' -> sk_xn (kp_secret (iss_keypair i')) = [x1'] ->
  sp_h (iss_system_parameters i) <> pzero ->
  pr_attributes_revealed p = [] -> pr_attributes_blinded p = [C] ->
  issuer_verify i p = Ok {| vf_presentation := p |} ->
  issuer_verify i' p = Ok {| vf_presentation := p |} ->
  (iss_system_parameters i = iss_system_parameters i' /\ x1 mod ell = x1' mod ell /\
   (pr_rerandomized_nonce p = pzero \/
    sk_x0 (kp_secret (iss_keypair i)) mod ell = sk_x0 (kp_secret (iss_keypair i')) mod ell)) \/
  @challenge_collision E
    (presentation_hashed i (smul x1 (sp_h (iss_system_parameters i))) x1 p C)
    (presentation_hashed i' (smul x1' (sp_h (iss_system_parameters i'))) x1' p C).
Proof.
  intros E L i i' x1 x1' p C Hc Hx Hc' Hx' Hh Hr Hb V V'.
  pose proof (consistent_single i x1 Hc Hx) as HX. pose proof (consistent_single i' x1' Hc' Hx') as HX'.
  apply (C18_acceptance E L i _ [] x1 p C HX Hx Hr Hb) in V.
  apply (C18_acceptance E L i' _ [] x1' p C HX' Hx' Hr Hb) in V'.
  match goal with |- _ \/ challenge_collision ?a ?b => destruct (transcript_eq_dec a b) as [He|He]; [left|right; split; [exact He|congruence]] end.
  apply (vc_transcript_inj L) in He as (_ & He & _).
  pose proof (f_equal vcp_B He) as H1. pose proof (f_equal vcp_A He) as H2.
  pose proof (f_equal vcp_X0 He) as H3. pose proof (f_equal vcp_V He) as H4.
  unfold presentation_publics in H1, H2, H3, H4. cbn in H1, H2, H3, H4.
  rewrite <- H2 in H3. apply (smul_inj L _ _ _ Hh) in H3.
  split; [destruct (iss_system_parameters i), (iss_system_parameters i'); cbn in *; congruence|].
  split; [exact H3|].
  rewrite <- (smul_eqm L _ _ C H3) in H4.
  set (x0 := sk_x0 (kp_secret (iss_keypair i))) in *. set (y0 := sk_x0 (kp_secret (iss_keypair i'))) in *.
  assert (H5 : smul x0 (pr_rerandomized_nonce p) = smul y0 (pr_rerandomized_nonce p)).
  { clear - L H4. generalize dependent (smul x1 C). intros R H4.
    generalize dependent (pr_rerandomized_mac_commitment p). generalize (pr_rerandomized_nonce p). intros P Q H4.
    dlogs L. to_base_in L H4. to_base L. apply (smul_base_iff L) in H4. apply (smul_base_iff L).
    apply eqm_sub_0 in H4. apply eqm_sub_0. rewrite <- H4. apply eqm_of_eq; zring. }
  destruct (peqb (pr_rerandomized_nonce p) pzero) eqn:Hz; [left; apply (peqb_true L); exact Hz|].
  right. apply (smul_inj L _ _ (pr_rerandomized_nonce p)); [apply (peqb_false L); exact Hz|exact H5].
Qed.
Print Assumptions C67_presentation_one_issuer.

(** With the identity as nonce [x0] is not used: a presentation one issuer accepts,
    every other issuer with the same parameters and attribute key accepts. *)
Theorem C67_identity_nonce_refuted : forall E, ExtLaws E ->
  forall (i i' : Issuer E) p C,
  consistent i -> consistent i' -> single_attribute i ->
  iss_system_parameters i = iss_system_parameters i' ->
  sk_xn (kp_secret (iss_keypair i)) = sk_xn (kp_secret (iss_keypair i')) ->
  pr_rerandomized_nonce p = pzero ->
  pr_attributes_revealed p = [] -> pr_attributes_blinded p = [C] ->
  issuer_verify i p = Ok {| vf_presentation := p |} ->
  issuer_verify i' p = Ok {| vf_presentation := p |}.
Proof.
  intros E L i i' p C Hc Hc' Hs Hp Hx HP Hr Hb V. destruct (single_cons i Hs) as [x1 Hx1].
  pose proof (eq_trans (eq_sym Hx) Hx1) as Hx1'.
  pose proof (consistent_single i x1 Hc Hx1) as HX. pose proof (consistent_single i' x1 Hc' Hx1') as HX'.
  apply (C18_acceptance E L i _ [] x1 p C HX Hx1 Hr Hb) in V.
  apply (C18_acceptance E L i' _ [] x1 p C HX' Hx1' Hr Hb). rewrite V. unfold presentation_hashed, presentation_publics.
  rewrite HP, Hp, !(smul_pzero L). reflexivity.
Qed.
Print Assumptions C67_identity_nonce_refuted.
(** Such presentations exist for every issuer. *)
Theorem C67_identity_forgery_refuted : forall E, ExtLaws E ->
  forall (i i' : Issuer E) x1 m z0 zQ os,
  consistent i -> consistent i' -> sk_xn (kp_secret (iss_keypair i)) = [x1] ->
  sk_xn (kp_secret (iss_keypair i')) = [x1] ->
  iss_system_parameters i = iss_system_parameters i' ->
  let p := forge_presentation (iss_system_parameters i) (smul x1 (sp_h (iss_system_parameters i))) m z0 zQ os in
  issuer_verify i p = Ok {| vf_presentation := p |} /\ issuer_verify i' p = Ok {| vf_presentation := p |}.
Proof.
  intros E L i i' x1 m z0 zQ os Hc Hc' Hx Hx' Hp p.
  split; [apply (forge_accepted L); assumption|]. unfold p. rewrite Hp. apply (forge_accepted L); assumption.
Qed.
Print Assumptions C67_identity_forgery_refuted.

(** An issuance two users accept: both have the same parameters and the same
    issuer key. *)
Theorem C67_issuance_one_issuer : forall E, ExtLaws E ->
  forall (u u' : User E) X1 Xs X1' Xs' iss,
  pk_Xn (us_issuer_parameters u) = X1 :: Xs -> pk_Xn (us_issuer_parameters u') = X1' :: Xs' ->
  snd (obtain_finish u (Some iss)) = Ok tt -> snd (obtain_finish u' (Some iss)) = Ok tt ->
  (us_system_parameters u = us_system_parameters u' /\ X1 = X1') \/
  @challenge_collision E (issuance_hashed (us_system_parameters u) X1 iss) (issuance_hashed (us_system_parameters u') X1' iss).
Proof.
  intros E L u u' X1 Xs X1' Xs' iss HX HX' V V'.
  apply (C11_acceptance E L u X1 Xs iss HX) in V. apply (C11_acceptance E L u' X1' Xs' iss HX') in V'.
  match goal with |- _ \/ challenge_collision ?a ?b => destruct (transcript_eq_dec a b) as [He|He]; [left|right; split; [exact He|congruence]] end.
  apply (ir_transcript_inj L) in He as (_ & He & _).
  pose proof (f_equal irp_B He) as H1. pose proof (f_equal irp_A He) as H2. pose proof (f_equal irp_X1 He) as H3.
  unfold issuance_publics in H1, H2, H3. cbn in H1, H2, H3. split; [|exact H3].
  destruct (us_system_parameters u), (us_system_parameters u'); cbn in *; congruence.
Qed.
Print Assumptions C67_issuance_one_issuer.

(** The roster check alone is bound to the parameters and to no key. *)
Theorem C67_roster_check_any_issuer : forall E, ExtLaws E ->
  forall (i i' : Issuer E) (v : VerifiedSignalCredential E),
  iss_system_parameters i = iss_system_parameters i' ->
  verify_roster_membership i v = verify_roster_membership i' v.
Proof. intros E L i i' v Hp. unfold verify_roster_membership. rewrite Hp. reflexivity. Qed.
Print Assumptions C67_roster_check_any_issuer.
(** And only to the parameters: two different ones do not both accept. *)
Theorem C67_roster_one_parameters : forall E, ExtLaws E ->
  forall (i i' : Issuer E) (p : SignalCredentialPresentation E) C Cs,
  pr_attributes_blinded (sc_presentation p) = C :: Cs ->
  is_ok (verify_roster_membership i {| vs_presentation := p |}) = true ->
  is_ok (verify_roster_membership i' {| vs_presentation := p |}) = true ->
  iss_system_parameters i = iss_system_parameters i' \/
  @challenge_collision E (membership_hashed (iss_system_parameters i) p C) (membership_hashed (iss_system_parameters i') p C).
Proof.
  intros E L i i' p C Cs Hb V V'.
  assert (K : forall j : Issuer E, is_ok (verify_roster_membership j {| vs_presentation := p |}) = true ->
    ce_challenge (sc_roster_membership_proof p) = @challenge_of E (membership_hashed (iss_system_parameters j) p C)).
  { intros j H. rewrite (verify_roster_ok j p C Cs Hb) in H.
    match type of H with context [ce_verify ?a ?b ?d] => destruct (ce_verify a b d) as [[]| |] eqn:Hv; try discriminate end.
    apply ce_verify_iff in Hv. exact Hv. }
  apply K in V. apply K in V'.
  match goal with |- _ \/ challenge_collision ?a ?b => destruct (transcript_eq_dec a b) as [He|He]; [left|right; split; [exact He|congruence]] end.
  apply (ce_transcript_inj L) in He as (_ & He & _).
  pose proof (f_equal cep_B He) as H1. pose proof (f_equal cep_A He) as H2.
  unfold roster_publics in H1, H2. cbn in H1, H2.
  destruct (iss_system_parameters i), (iss_system_parameters i'); cbn in *; congruence.
Qed.
Print Assumptions C67_roster_one_parameters.

(** Issuers which differ in [x0] only, in the attribute key, and in the parameters. *)
Definition sample_issuer_x0 : Issuer toy := issuer_with toy sample_params [pt 231] 6 [7].
Definition sample_issuer_x1 : Issuer toy := issuer_with toy sample_params [pt 264] 5 [8].
Example C67_met : consistent sample_issuer_x0 /\ consistent sample_issuer_x1 /\
  single_attribute sample_issuer_x0 /\ single_attribute sample_issuer_x1 /\
  sp_h (iss_system_parameters sample_issuer) <> pzero /\
  exists p r' os', signal_show sample_signal_holder (toy_stream 8) (toy_stream 9) (sample_entry 100) = Ok (p, r', os') /\
    is_ok (issuer_verify sample_issuer (sc_presentation p)) &&
    is_err (issuer_verify sample_issuer_x0 (sc_presentation p)) &&
    is_err (issuer_verify sample_issuer_x1 (sc_presentation p)) &&
    is_ok (verify_roster_membership sample_issuer_x0 {| vs_presentation := p |}) &&
    is_ok (verify_roster_membership sample_issuer_x1 {| vs_presentation := p |}) = true.
Proof.
  split; [repeat constructor; apply toy_eq; vm_compute; reflexivity|].
  split; [repeat constructor; apply toy_eq; vm_compute; reflexivity|].
  split; [reflexivity|]. split; [reflexivity|].
  split; [intros H; apply (f_equal tv) in H; vm_compute in H; discriminate|].
  apply run3. vm_compute. reflexivity.
Qed.
Example C67_met_forgery :
  let p := forge_presentation sample_params (pt 231) 100 2 3 (toy_stream 1) in
  is_ok (issuer_verify sample_issuer p) && is_ok (issuer_verify sample_issuer_x0 p) &&
  is_err (issuer_verify sample_issuer_x1 p) = true.
Proof. vm_compute. reflexivity. Qed.
Example C67_met_issuance : exists iss r' os',
  issue sample_issuer (request [100]) (toy_stream 1) (toy_stream 2) = Ok (iss, r', os') /\
  is_ok (snd (obtain_finish sample_user (Some iss))) &&
  is_err (snd (obtain_finish (user_new sample_params {| pk_Xn := [pt 264] |} None) (Some iss))) = true.
Proof. apply run3. vm_compute. reflexivity. Qed.

(** ** C68: parameters read from bytes are not checked *)

(** aeonflux/src/parameters.rs:52-81 reads two points and checks nothing about
    them, for every group: the identity twice, or any other two points. *)
Theorem C68_parameters_checked_refuted : forall E, ExtLaws E ->
  system_parameters_from_bytes (repeat x00 64) = Ok {| sp_g := @pzero E; sp_h := pzero |} /\
  forall g h : point E,
  system_parameters_from_bytes (compress g ++ compress h)%list = Ok {| sp_g := g; sp_h := h |}.
Proof.
  intros E L.
  assert (H : forall g h : point E,
    system_parameters_from_bytes (compress g ++ compress h)%list = Ok {| sp_g := g; sp_h := h |}).
  { intros g h. apply (system_parameters_iff L). reflexivity. }
  split; [|exact H]. rewrite <- H, (compress_zero E L). reflexivity.
Qed.
Print Assumptions C68_parameters_checked_refuted.

(** What such parameters do.  With the identity for [h] a presentation shows the
    number times its nonce: whoever sees it can test a guess of the number. *)
Theorem C68_identity_h_shows_number_refuted : forall E, ExtLaws E ->
  forall (u : User E) c m ms z0 r os p r' os',
  sp_h (us_system_parameters u) = pzero ->
  us_credential u = Some c -> cr_attributes c = m :: ms ->
  show u [z0] r os = Ok (p, r', os') ->
  pr_attributes_blinded p = [smul m (pr_rerandomized_nonce p)] /\
  (pr_rerandomized_nonce p <> pzero ->
   forall m', pr_attributes_blinded p = [smul m' (pr_rerandomized_nonce p)] <-> m' mod ell = m mod ell).
Proof.
  intros E L u c m ms z0 r os p r' os' Hh Hc Ha Hs.
  destruct (show_some u c [z0] r os Hc) as [(_ & _ & HX & _)|[_ H]]; [|congruence].
  destruct (pk_Xn (us_issuer_parameters u)) as [|X0 Xs] eqn:HXe; [cbn in HX; lia|].
  pose proof (show_ok u c m ms X0 Xs z0 r os Hc Ha HXe) as Hs'. cbv zeta in Hs'. rewrite Hs' in Hs.
  apply ok3 in Hs as [<- _]. unfold shown. cbn [pr_attributes_blinded pr_rerandomized_nonce].
  rewrite Hh, (smul_pzero L), (padd_zero_r L). split; [reflexivity|].
  intros Hn m'. split.
  - intros H. assert (K : forall a b : point E, [a] = [b] -> a = b) by congruence.
    apply K in H. symmetry in H. exact (proj1 (smul_inj L _ _ _ Hn) H).
  - intros H. f_equal. symmetry. exact (smul_eqm L _ _ _ H).
Qed.
Print Assumptions C68_identity_h_shows_number_refuted.

(** With the identity for [g] a roster entry is the number times [h], whatever
    random source it was made with. *)
Theorem C68_identity_g_entry_refuted : forall E, ExtLaws E ->
  forall b n (params : SystemParameters E) r e r',
  sp_g params = pzero -> try_from_bytes b = Ok n ->
  roster_create b params r = Ok (e, r') -> re_commitment e = smul n (sp_h params).
Proof.
  intros E L b n params r e r' Hg Hn H. unfold roster_create in H. destruct (ephemeral_new r) as [k r1].
  rewrite Hn in H. cbn [bind] in H. assert (He : forall e1 : RosterEntryCommitment E, Ok (e1, r1) = @Ok PhoneNumberError _ (e, r') -> e1 = e) by congruence.
  apply He in H. rewrite <- H. cbn [re_commitment].
  unfold committed_from_phone_number, commitment_to. rewrite Hg, (smul_pzero L), ?(padd_zero_r L). reflexivity.
Qed.
Print Assumptions C68_identity_g_entry_refuted.

(** Whoever made the parameters with [h = t g] for a [t] they know opens every
    entry, made for any number by anybody who told them its opening, as any other. *)
Theorem C68_trapdoor_refuted : forall E, ExtLaws E ->
  forall (e : RosterEntryCommitment E) b b' n n' params t,
  sp_h params = smul t (sp_g params) ->
  try_from_bytes b = Ok n -> try_from_bytes b' = Ok n' ->
  roster_open e b params = Ok tt ->
  roster_open {| re_commitment := re_commitment e; re_opening := (re_opening e + t * (n - n')) mod ell |} b' params = Ok tt.
Proof.
  intros E L e b b' n n' params t Ht Hn Hn' H.
  apply (C29_open_exactly E L e b n params Hn) in H. apply (C29_open_exactly E L _ b' n' params Hn').
  cbn [re_commitment re_opening]. rewrite H, (smul_mod L), Ht. generalize (sp_g params) (re_opening e). clear - L. intros G k. pring L.
Qed.
Print Assumptions C68_trapdoor_refuted.
Example C68_met : exists p r' os',
  show {| us_system_parameters := {| sp_g := pt 1; sp_h := pzero |}; us_issuer_parameters := {| pk_Xn := [pzero] |};
          us_key := None; us_credential := Some sample_credential |} [77] (toy_stream 1) (toy_stream 2) = Ok (p, r', os') /\
  match pr_attributes_blinded p with
  | [C] => peqb C (smul 100 (pr_rerandomized_nonce p)) && negb (peqb (pr_rerandomized_nonce p) pzero)
  | _ => false
  end = true.
Proof. apply run3. vm_compute. reflexivity. Qed.
Example C68_met_trapdoor : exists n n',
  try_from_bytes (str "123") = Ok n /\ try_from_bytes (str "124") = Ok n' /\ n <> n' /\
  sp_h sample_params = smul 33 (sp_g sample_params) /\
  is_ok (roster_open (sample_entry n) (str "123") sample_params) = true /\
  is_ok (roster_create (str "123") {| sp_g := @pzero toy; sp_h := pt 33 |} (toy_stream 4)) = true.
Proof.
  eexists _, _. split; [vm_compute; reflexivity|]. split; [vm_compute; reflexivity|].
  split; [discriminate|]. split; [apply toy_eq; vm_compute; reflexivity|]. split; vm_compute; reflexivity.
Qed.
