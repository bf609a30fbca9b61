(** Properties of showing and verifying credentials: aeonflux/src/user.rs and
    issuer.rs (C16 - C19, C23, C24, C36, C37, C56). *)
From Verif Require Import MacFacts IssueFacts ShowFacts SignalFacts Toy PropertiesIssue.
Local Open Scope string_scope.

(** ** C16: presentations of a valid credential are accepted *)
Theorem C16_presentation_accepted : forall E, ExtLaws E ->
  forall (i : Issuer E) (u : User E) c m z0 r os,
  consistent i -> single_attribute i -> user_of i u -> us_credential u = Some c ->
  valid_credential i c m ->
  exists p r' os', show u [z0] r os = Ok (p, r', os') /\
    issuer_verify i p = Ok {| vf_presentation := p |}.
Proof. exact (fun E L => presentation_accepted L). Qed.
Print Assumptions C16_presentation_accepted.
Definition sample_credential : Credential toy :=
  {| cr_mac := {| tag_nonce := pt 3; tag_mac := pt ((5 + 7 * 100) * 3) |}; cr_attributes := [100] |}.
Definition sample_holder : User toy :=
  {| us_system_parameters := sample_params; us_issuer_parameters := {| pk_Xn := [pt 231] |};
     us_key := None; us_credential := Some sample_credential |}.
Lemma sample_valid : valid_credential sample_issuer sample_credential 100.
Proof. split; [reflexivity|]. split; [reflexivity|]. apply toy_eq. vm_compute. reflexivity. Qed.
Example C16_met : consistent sample_issuer /\ single_attribute sample_issuer /\
  user_of sample_issuer sample_holder /\ us_credential sample_holder = Some sample_credential /\
  valid_credential sample_issuer sample_credential 100.
Proof.
  split; [apply sample_consistent|]. split; [apply sample_consistent|].
  split; [split; reflexivity|]. split; [reflexivity|apply sample_valid].
Qed.
Example C16_met_run : exists p r' os', show sample_holder [3] (toy_stream 8) (toy_stream 9) = Ok (p, r', os') /\
  is_ok (issuer_verify sample_issuer p) && negb (peqb (pr_rerandomized_nonce p) pzero) = true.
Proof. apply run3. vm_compute. reflexivity. Qed.

(** ** C17: a presentation of an invalid credential is rejected *)
Theorem C17_invalid_credential_rejected : forall E, ExtLaws E ->
  forall (i : Issuer E) (u : User E) c m x1 z0 r os p r' os',
  consistent i -> sk_xn (kp_secret (iss_keypair i)) = [x1] -> user_of i u ->
  us_credential u = Some c -> cr_attributes c = [m] ->
  show u [z0] r os = Ok (p, r', os') ->
  pr_rerandomized_nonce p <> pzero ->
  ~ mac_equation (kp_secret (iss_keypair i)) [m] (cr_mac c) ->
  let params := iss_system_parameters i in
  let X1 := smul x1 (sp_h params) in
  let rr := fst (scalar_random (@show_csprng E r)) in
  let zQ := fst (scalar_random (snd (scalar_random (@show_csprng E r)))) in
  let q' := shown_publics params X1 c m z0 rr zQ in
  let q := presentation_publics params X1 (sk_x0 (kp_secret (iss_keypair i))) x1
             (pr_rerandomized_nonce p) (pr_rerandomized_mac_commitment p) (vcp_Cm0 q') in
  exists rand, p = shown params X1 c m z0 rr zQ rand /\
  (issuer_verify i p = Err MacVerification \/ vc_challenge (pr_proof p) = 0 \/
   @challenge_collision E (extend show_transcript (vc_messages q' (vc_image q' rand)))
     (extend show_transcript (vc_messages q (vc_recompute (pr_proof p) q)))).
Proof.
  intros E L i u c m x1 z0 r os p r' os' Hc Hx [Hp Hk] Hcr Ha Hsh Hn Hbad params X1 rr zQ q' q.
  pose proof (consistent_single i x1 Hc Hx) as HX. fold params in HX. fold X1 in HX.
  assert (HX' : pk_Xn (us_issuer_parameters u) = [X1]) by (rewrite Hk; exact HX).
  pose proof (show_ok u c m [] X1 [] z0 r os Hcr Ha HX') as Hsh'. cbv zeta in Hsh'. fold rr zQ in Hsh'.
  rewrite Hp in Hsh'. fold params in Hsh'. rewrite Hsh' in Hsh. apply ok3 in Hsh as [Hpe _]. clear Hsh'.
  match type of Hpe with shown _ _ _ _ _ _ _ ?x = _ => exists x; generalize dependent x end.
  intros rand Hpe. split; [symmetry; exact Hpe|].
  assert (Hv : issuer_verify i p = Ok {| vf_presentation := p |} \/ issuer_verify i p = Err MacVerification).
  { rewrite (issuer_verify_ok1 i p X1 [] x1 (vcp_Cm0 q') HX Hx) by (rewrite <- Hpe; reflexivity).
    fold params. fold q. pose proof (vc_verify_no_panic (pr_proof p) show_transcript q).
    destruct (vc_verify _ _ _); [left; reflexivity|right; reflexivity|contradiction]. }
  destruct Hv as [Hv|Hv]; [right|left; exact Hv].
  rewrite <- Hpe in Hv.
  destruct (shown_rejected L i c x1 m z0 rr zQ rand Hc Hx Hv) as [He'|[H0|Hcol]].
  - exfalso. apply Hbad. apply (apply_to_tag_equation_iff L rr); [|exact He'].
    intros Hz. apply Hn. rewrite <- Hpe. cbn [shown pr_rerandomized_nonce].
    rewrite (smul_eqm L _ _ _ Hz). reflexivity.
  - left. fold params in H0. fold X1 in H0. rewrite Hpe in H0. exact H0.
  - right. fold params in Hcol. fold X1 in Hcol. fold q' in Hcol. rewrite Hpe in Hcol. exact Hcol.
Qed.
Print Assumptions C17_invalid_credential_rejected.
Definition bad_holder : User toy :=
  {| us_system_parameters := sample_params; us_issuer_parameters := {| pk_Xn := [pt 231] |};
     us_key := None;
     us_credential := Some {| cr_mac := cr_mac sample_credential; cr_attributes := [101] |} |}.
Example C17_met : user_of sample_issuer bad_holder /\
  ~ mac_equation (kp_secret (iss_keypair sample_issuer)) [101] (cr_mac sample_credential) /\
  exists p r' os', show bad_holder [3] (toy_stream 8) (toy_stream 9) = Ok (p, r', os') /\
    negb (peqb (pr_rerandomized_nonce p) pzero) && negb (is_ok (issuer_verify sample_issuer p)) = true.
Proof.
  split; [split; reflexivity|]. split.
  - intros [_ H]. apply (f_equal tv) in H. vm_compute in H. discriminate.
  - apply run3. vm_compute. reflexivity.
Qed.

(** ** C18: accepted presentations are sound *)
Theorem C18_presentation_sound : forall E, ExtLaws E ->
  forall (i : Issuer E) x1 P CQ C pf1 pf2,
  consistent i -> sk_xn (kp_secret (iss_keypair i)) = [x1] ->
  let h := sp_h (iss_system_parameters i) in
  let q := presentation_publics (iss_system_parameters i) (smul x1 h) (sk_x0 (kp_secret (iss_keypair i))) x1 P CQ C in
  vc_challenge pf1 mod ell <> vc_challenge pf2 mod ell -> vc_recompute pf1 q = vc_recompute pf2 q ->
  let w := vc_extract pf1 pf2 in
  C = padd (smul (vcs_m0 w) P) (smul (vcs_z0 w) h) /\
  mac_equation (kp_secret (iss_keypair i)) [vcs_m0 w]
    {| tag_nonce := P; tag_mac := padd CQ (smul (vcs_minus_zQ w) h) |}.
Proof. intros E L i x1 P CQ C pf1 pf2 Hc Hx h q. exact (presentation_sound L i x1 C P CQ pf1 pf2 Hc Hx). Qed.
Print Assumptions C18_presentation_sound.
(** What [verify] hashes for a presentation with one blinded attribute [C]. *)
Definition presentation_hashed {E : Ext} (i : Issuer E) X1 x1 (p : CredentialPresentation E) C : transcript :=
  let q := presentation_publics (iss_system_parameters i) X1 (sk_x0 (kp_secret (iss_keypair i))) x1
             (pr_rerandomized_nonce p) (pr_rerandomized_mac_commitment p) C in
  extend show_transcript (vc_messages q (vc_recompute (pr_proof p) q)).
Theorem C18_acceptance : forall E, ExtLaws E -> forall (i : Issuer E) X1 Xs x1 p C,
  pk_Xn (kp_public (iss_keypair i)) = X1 :: Xs -> sk_xn (kp_secret (iss_keypair i)) = [x1] ->
  pr_attributes_revealed p = [] -> pr_attributes_blinded p = [C] ->
  (issuer_verify i p = Ok {| vf_presentation := p |} <->
   vc_challenge (pr_proof p) = @challenge_of E (presentation_hashed i X1 x1 p C)).
Proof.
  intros E L i X1 Xs x1 p C HX Hx Hr Hb. rewrite (issuer_verify_ok1 i p X1 Xs x1 C HX Hx Hr Hb).
  unfold presentation_hashed. cbv zeta. rewrite <- vc_verify_iff.
  destruct (vc_verify _ _ _) as [[]|e|]; split; try discriminate; reflexivity.
Qed.
Print Assumptions C18_acceptance.
Theorem C18_rewinding : forall E, ExtLaws E ->
  forall (i : Issuer E) x1 p1 p2 C1 C2 (f1 f2 : transcript -> scalar),
  consistent i -> sk_xn (kp_secret (iss_keypair i)) = [x1] ->
  let h := sp_h (iss_system_parameters i) in
  let T1 := presentation_hashed i (smul x1 h) x1 p1 C1 in
  let T2 := presentation_hashed i (smul x1 h) x1 p2 C2 in
  vc_challenge (pr_proof p1) = f1 T1 -> vc_challenge (pr_proof p2) = f2 T2 ->
  T1 = T2 -> f1 T1 mod ell <> f2 T1 mod ell ->
  let w := vc_extract (pr_proof p1) (pr_proof p2) in
  let P := pr_rerandomized_nonce p1 in
  pr_rerandomized_nonce p2 = P /\ C2 = C1 /\
  pr_rerandomized_mac_commitment p2 = pr_rerandomized_mac_commitment p1 /\
  C1 = padd (smul (vcs_m0 w) P) (smul (vcs_z0 w) h) /\
  mac_equation (kp_secret (iss_keypair i)) [vcs_m0 w]
    {| tag_nonce := P; tag_mac := padd (pr_rerandomized_mac_commitment p1) (smul (vcs_minus_zQ w) h) |}.
Proof.
  intros E L i x1 p1 p2 C1 C2 f1 f2 Hc Hx h T1 T2 H1 H2 HT Hf w P.
  pose proof HT as HT'. apply (vc_transcript_inj L) in HT' as (_ & Hq & Hcom). rewrite <- Hq in Hcom.
  pose proof (f_equal vcp_P Hq) as HP. pose proof (f_equal vcp_Cm0 Hq) as HC. pose proof (f_equal vcp_V Hq) as HV.
  cbn in HP, HC, HV. subst P. split; [symmetry; exact HP|]. split; [symmetry; exact HC|]. split.
  - rewrite HP, HC in HV. 
    generalize dependent (padd (smul (sk_x0 (kp_secret (iss_keypair i))) (pr_rerandomized_nonce p2)) (smul x1 C2)).
    generalize (pr_rerandomized_mac_commitment p1) (pr_rerandomized_mac_commitment p2).
    clear - L. intros Q1 Q2 R H. dlogs L. to_base_in L H. apply (smul_base_iff L) in H. apply (smul_base_iff L).
    apply eqm_sub_0 in H. apply eqm_sub_0.
    match type of H with ?a == _ => match goal with |- ?b == _ => assert (Hz : b == a) end end.
    { apply eqm_of_eq; zring. }
    rewrite Hz. exact H.
  - apply (presentation_sound L i x1 C1 (pr_rerandomized_nonce p1) (pr_rerandomized_mac_commitment p1)
             (pr_proof p1) (pr_proof p2) Hc Hx); [|exact Hcom].
    rewrite H1, H2, <- HT. exact Hf.
Qed.
Print Assumptions C18_rewinding.
Definition sample_shown (c : Z) : CredentialPresentation toy :=
  {| pr_rerandomized_mac_commitment := pt (705 * 3 + 8 * 33); pr_rerandomized_nonce := pt 3;
     pr_attributes_revealed := []; pr_attributes_blinded := [pt (300 + 2 * 33)];
     pr_proof := {| vc_challenge := c;
                    vc_responses := {| vcs_m0 := 100 * c + 1; vcs_z0 := 2 * c + 2; vcs_minus_zQ := -8 * c + 3 |} |} |}.
Example C18_met : consistent sample_issuer /\ 7 mod ell <> 11 mod ell /\
  presentation_hashed sample_issuer (pt 231) 7 (sample_shown 7) (pt (300 + 2 * 33)) =
  presentation_hashed sample_issuer (pt 231) 7 (sample_shown 11) (pt (300 + 2 * 33)).
Proof.
  split; [apply sample_consistent|]. split; [vm_compute; discriminate|].
  assert (H : forall q, q = presentation_publics sample_params (pt 231) 5 7 (pt 3) (pt (705 * 3 + 8 * 33)) (pt (300 + 2 * 33)) ->
    vc_recompute (pr_proof (sample_shown 7)) q = vc_recompute (pr_proof (sample_shown 11)) q).
  { intros q ->. unfold vc_recompute; f_equal; apply toy_eq; vm_compute; reflexivity. }
  exact (f_equal (fun c => extend show_transcript (vc_messages _ c)) (H _ eq_refl)).
Qed.

(** ** C19: anybody can make accepted presentations *)
Theorem C19_forged_presentation_accepted_refuted : forall E, ExtLaws E ->
  forall (i : Issuer E) x1 m z0 zQ os,
  consistent i -> sk_xn (kp_secret (iss_keypair i)) = [x1] ->
  let X1 := smul x1 (sp_h (iss_system_parameters i)) in
  pk_Xn (kp_public (iss_keypair i)) = [X1] /\
  let p := forge_presentation (iss_system_parameters i) X1 m z0 zQ os in
  issuer_verify i p = Ok {| vf_presentation := p |}.
Proof.
  intros E L i x1 m z0 zQ os Hc Hx X1. split; [apply consistent_single; assumption|].
  apply (forge_accepted L); assumption.
Qed.
Print Assumptions C19_forged_presentation_accepted_refuted.
Example C19_met : consistent sample_issuer /\
  is_ok (issuer_verify sample_issuer (forge_presentation sample_params (pt 231) 100 2 3 (toy_stream 1))) = true /\
  (* with a non-identity nonce the same presentation is refused *)
  is_ok (issuer_verify sample_issuer
    (let p := forge_presentation sample_params (pt 231) 100 2 3 (toy_stream 1) in
     {| pr_rerandomized_mac_commitment := pr_rerandomized_mac_commitment p;
        pr_rerandomized_nonce := pt 1; pr_attributes_revealed := [];
        pr_attributes_blinded := pr_attributes_blinded p; pr_proof := pr_proof p |})) = false.
Proof. split; [apply sample_consistent|]. split; vm_compute; reflexivity. Qed.

(** ** C23: presentations are unlinkable *)
(** Every presentation with one blinded attribute that the issuer accepts is
    made by every valid credential, with exactly one choice of random scalars. *)
Theorem C23_unlinkable : forall E, ExtLaws E ->
  forall (i : Issuer E) (u : User E) c m x1 p C,
  consistent i -> sk_xn (kp_secret (iss_keypair i)) = [x1] -> user_of i u ->
  sp_h (iss_system_parameters i) <> pzero ->
  valid_credential i c m -> tag_nonce (cr_mac c) <> pzero ->
  issuer_verify i p = Ok {| vf_presentation := p |} ->
  pr_attributes_revealed p = [] -> pr_attributes_blinded p = [C] ->
  vc_canonical (vc_responses (pr_proof p)) ->
  exists! w : scalar * scalar * scalar * vc_Scalars,
    let '(z0, rr, zQ, rand) := w in
    canonical z0 /\ canonical rr /\ canonical zQ /\ vc_canonical rand /\
    show_with u c z0 rr zQ rand = Ok p.
Proof. exact (fun E L => presentation_unlinkable L). Qed.
Print Assumptions C23_unlinkable.
(** [show_with] is [show] with the scalars it draws made explicit. *)
Theorem C23_show_is_show_with : forall E, ExtLaws E -> forall (u : User E) c z0 r os,
  us_credential u = Some c ->
  let rr := fst (scalar_random (@show_csprng E r)) in
  let zQ := fst (scalar_random (snd (scalar_random (@show_csprng E r)))) in
  exists rand, forall p r' os', show u [z0] r os = Ok (p, r', os') -> show_with u c z0 rr zQ rand = Ok p.
Proof. exact (fun E L => show_draws). Qed.
Print Assumptions C23_show_is_show_with.
Lemma show_with_canonical {E : Ext} (u : User E) c z0 rr zQ rand p :
  show_with u c z0 rr zQ rand = Ok p -> vc_canonical (vc_responses (pr_proof p)).
Proof.
  unfold show_with. intros H. apply bind_ok in H as ([[[CQ Cs] q] s] & _ & H).
  injection H as <-. unfold show_presentation, vc_create_with. cbn. repeat split; apply mod_range.
Qed.
(** In terms of two credentials, possibly for different attributes. *)
Theorem C23_two_credentials : forall E, ExtLaws E ->
  forall (i : Issuer E) (u1 u2 : User E) c1 c2 m1 m2 z0 rr zQ rand p,
  consistent i -> single_attribute i -> user_of i u1 -> user_of i u2 ->
  sp_h (iss_system_parameters i) <> pzero ->
  valid_credential i c1 m1 -> valid_credential i c2 m2 -> tag_nonce (cr_mac c2) <> pzero ->
  show_with u1 c1 z0 rr zQ rand = Ok p ->
  exists! w : scalar * scalar * scalar * vc_Scalars,
    let '(z0', rr', zQ', rand') := w in
    canonical z0' /\ canonical rr' /\ canonical zQ' /\ vc_canonical rand' /\
    show_with u2 c2 z0' rr' zQ' rand' = Ok p.
Proof.
  intros E L i u1 u2 c1 c2 m1 m2 z0 rr zQ rand p Hc Hs [Hp1 Hk1] Hu2 Hh [Ha1 He1] Hv2 Hn Hsh.
  destruct (single_cons i Hs) as [x1 Hx]. pose proof (consistent_single i x1 Hc Hx) as HX.
  assert (HX' : pk_Xn (us_issuer_parameters u1) = [smul x1 (sp_h (iss_system_parameters i))]) by (rewrite Hk1; exact HX).
  pose proof (show_with_canonical _ _ _ _ _ _ _ Hsh) as Hcan.
  rewrite (show_with_shown u1 c1 m1 [] _ [] z0 rr zQ rand Ha1 HX'), Hp1 in Hsh.
  assert (Hpe : shown (iss_system_parameters i) (smul x1 (sp_h (iss_system_parameters i))) c1 m1 z0 rr zQ rand = p) by congruence.
  eapply (presentation_unlinkable L i u2 c2 m2 x1 p _ Hc Hx Hu2 Hh Hv2 Hn); [| | |exact Hcan].
  - rewrite <- Hpe. apply (shown_verify L i c1 x1 m1 z0 rr zQ rand Hc Hx He1).
  - rewrite <- Hpe. reflexivity.
  - rewrite <- Hpe. reflexivity.
Qed.
Print Assumptions C23_two_credentials.
Definition sample_credential2 : Credential toy :=
  {| cr_mac := {| tag_nonce := pt 4; tag_mac := pt ((5 + 7 * 200) * 4) |}; cr_attributes := [200] |}.
Example C23_met : consistent sample_issuer /\ single_attribute sample_issuer /\
  user_of sample_issuer sample_holder /\
  sp_h (iss_system_parameters sample_issuer) <> pzero /\
  valid_credential sample_issuer sample_credential 100 /\
  valid_credential sample_issuer sample_credential2 200 /\
  tag_nonce (cr_mac sample_credential2) <> pzero /\
  exists p, show_with sample_holder sample_credential 3 4 5 {| vcs_m0 := 6; vcs_z0 := 7; vcs_minus_zQ := 8 |} = Ok p /\
    is_ok (issuer_verify sample_issuer p) = true.
Proof.
  split; [apply sample_consistent|]. split; [apply sample_consistent|]. split; [split; reflexivity|].
  split; [intros H; apply (f_equal tv) in H; vm_compute in H; discriminate|].
  split; [apply sample_valid|].
  split; [split; [reflexivity|]; split; [reflexivity|]; apply toy_eq; vm_compute; reflexivity|].
  split; [intros H; apply (f_equal tv) in H; vm_compute in H; discriminate|].
  apply run1. vm_compute. reflexivity.
Qed.

(** ** C24: reusing a seed makes presentations linkable *)
Theorem C24_same_seed_same_values : forall E, ExtLaws E ->
  forall (u : User E) nonces r os1 os2 p1 r1 os1' p2 r2 os2',
  show u nonces r os1 = Ok (p1, r1, os1') -> show u nonces r os2 = Ok (p2, r2, os2') ->
  pr_rerandomized_nonce p1 = pr_rerandomized_nonce p2 /\
  pr_rerandomized_mac_commitment p1 = pr_rerandomized_mac_commitment p2 /\
  pr_attributes_blinded p1 = pr_attributes_blinded p2 /\
  pr_attributes_revealed p1 = [] /\ pr_attributes_revealed p2 = [] /\ r1 = r2.
Proof.
  intros E L u zs r os1 os2 p1 r1 os1' p2 r2 os2'. unfold show.
  destruct (us_credential u) as [c|]; cbn [ok_or bind]; [|discriminate].
  destruct (reseed _ _ r) as [cs r3]. destruct (scalar_random cs) as [rr cs1].
  destruct (ephemeral_new cs1) as [zQ cs2].
  destruct (show_statement u c zs rr zQ) as [[[[CQ Cs] q] s]| |]; cbn [bind]; try discriminate.
  destruct (vc_create _ q s os1) as [pf1 o1], (vc_create _ q s os2) as [pf2 o2].
  intros H1 H2. apply ok3 in H1 as (<- & <- & _). apply ok3 in H2 as (<- & <- & _). cbn. auto 10.
Qed.
Print Assumptions C24_same_seed_same_values.
(** Also through [SignalUser::show], and for different roster entries. *)
Theorem C24_signal_same_seed_same_values : forall E, ExtLaws E ->
  forall (u : SignalUser E) e1 e2 r os1 os2 p1 r1 os1' p2 r2 os2',
  signal_show u r os1 e1 = Ok (p1, r1, os1') -> signal_show u r os2 e2 = Ok (p2, r2, os2') ->
  pr_rerandomized_nonce (sc_presentation p1) = pr_rerandomized_nonce (sc_presentation p2) /\
  pr_rerandomized_mac_commitment (sc_presentation p1) = pr_rerandomized_mac_commitment (sc_presentation p2) /\
  pr_attributes_blinded (sc_presentation p1) = pr_attributes_blinded (sc_presentation p2).
Proof.
  intros E L u e1 e2 r os1 os2 p1 r1 os1' p2 r2 os2'. unfold signal_show.
  destruct (us_credential (su_user u)) as [c|]; cbn [ok_or bind]; [|discriminate].
  destruct (nonces_new r NUMBER_OF_ATTRIBUTES) as [zs r0]. intros H1 H2.
  apply bind_ok in H1 as ([[q1 ra] oa] & Hs1 & H1). apply bind_ok in H2 as ([[q2 rb] ob] & Hs2 & H2).
  pose proof (C24_same_seed_same_values E L _ _ _ _ _ _ _ _ _ _ _ Hs1 Hs2) as (Ha & Hb & Hd & _).
  apply bind_ok in H1 as ([qa sa] & _ & H1). apply bind_ok in H2 as ([qb sb] & _ & H2).
  destruct (ce_create _ qa sa oa) as [pfa ofa], (ce_create _ qb sb ob) as [pfb ofb].
  apply ok3 in H1 as (<- & _). apply ok3 in H2 as (<- & _). cbn. auto.
Qed.
Print Assumptions C24_signal_same_seed_same_values.
Example C24_met : exists p r' os', show sample_holder [3] (toy_stream 8) (toy_stream 9) = Ok (p, r', os') /\
  match show sample_holder [3] (toy_stream 8) (toy_stream 10) with
  | Ok (p2, _, _) => negb (vc_challenge (pr_proof p) =? vc_challenge (pr_proof p2))%Z
  | _ => false
  end = true.
Proof. apply run3. vm_compute. reflexivity. Qed.

(** ** C36: when verify panics *)
Theorem C36_verify_panics_exactly : forall E, ExtLaws E -> forall (i : Issuer E) p,
  let n := List.length (sk_xn (kp_secret (iss_keypair i))) in
  issuer_verify i p = Panic <->
  (pk_Xn (kp_public (iss_keypair i)) = [] \/ pr_attributes_blinded p = [] \/
   (n < List.length (pr_attributes_revealed p))%nat \/ (n < List.length (pr_attributes_blinded p))%nat).
Proof.
  intros E L i p n. rewrite issuer_verify_panic. unfold verify_fits. fold n.
  destruct (pk_Xn (kp_public (iss_keypair i))) as [|X Xs]; [intuition congruence|].
  destruct (pr_attributes_blinded p) as [|C Cs]; [intuition congruence|].
  destruct (Nat.le_gt_cases (List.length (pr_attributes_revealed p)) n), (Nat.le_gt_cases (List.length (C :: Cs)) n);
    split; intros K; try tauto.
  - exfalso. apply K. split; [discriminate|]. split; [discriminate|]. tauto.
  - destruct K as [K|[K|[K|K]]]; try discriminate; lia.
  - intros (_ & _ & _ & K'). lia.
  - intros (_ & _ & K' & _). lia.
  - intros (_ & _ & K' & _). lia.
Qed.
Print Assumptions C36_verify_panics_exactly.
Example C36_met :
  is_panic (issuer_verify sample_issuer {| pr_rerandomized_mac_commitment := pt 1; pr_rerandomized_nonce := pt 1;
    pr_attributes_revealed := []; pr_attributes_blinded := []; pr_proof := pr_proof (sample_shown 7) |}) &&
  is_panic (issuer_verify sample_issuer {| pr_rerandomized_mac_commitment := pt 1; pr_rerandomized_nonce := pt 1;
    pr_attributes_revealed := [1; 2]; pr_attributes_blinded := [pt 1]; pr_proof := pr_proof (sample_shown 7) |}) &&
  is_err (issuer_verify sample_issuer (sample_shown 7)) = true.
Proof. vm_compute. reflexivity. Qed.

(** ** C37: when show panics *)
Theorem C37_show_outcomes : forall E, ExtLaws E -> forall (u : User E) nonces r os,
  match us_credential u with
  | None => show u nonces r os = Err MissingData
  | Some c =>
    ((nonces = [] \/ cr_attributes c = [] \/
      (List.length (pk_Xn (us_issuer_parameters u)) < List.length nonces)%nat) /\
     show u nonces r os = Panic) \/
    (nonces <> [] /\ cr_attributes c <> [] /\
     (List.length nonces <= List.length (pk_Xn (us_issuer_parameters u)))%nat /\
     exists x, show u nonces r os = Ok x)
  end.
Proof.
  intros E L u zs r os. destruct (us_credential u) as [c|] eqn:Hc; [|apply show_none; exact Hc].
  destruct (show_some u c zs r os Hc) as [H|H]; [right; exact H|left; exact H].
Qed.
Print Assumptions C37_show_outcomes.
Theorem C37_signal_show_outcomes : forall E, ExtLaws E -> forall (u : SignalUser E) r os entry,
  match us_credential (su_user u) with
  | None => signal_show u r os entry = Err MissingData
  | Some c =>
    ((cr_attributes c = [] \/ pk_Xn (us_issuer_parameters (su_user u)) = []) /\
     signal_show u r os entry = Panic) \/
    (cr_attributes c <> [] /\ pk_Xn (us_issuer_parameters (su_user u)) <> [] /\
     exists x, signal_show u r os entry = Ok x)
  end.
Proof.
  intros E L u r os entry. destruct (us_credential (su_user u)) as [c|] eqn:Hc;
    [|unfold signal_show; rewrite Hc; reflexivity].
  destruct (cr_attributes c) as [|m ms] eqn:Ha; [|destruct (pk_Xn (us_issuer_parameters (su_user u))) as [|X Xs] eqn:HX].
  - left. split; [left; reflexivity|]. unfold signal_show. rewrite Hc. cbn [ok_or bind].
    destruct (nonces_new r NUMBER_OF_ATTRIBUTES) as [zs r0].
    destruct (show_some (su_user u) c zs r0 os Hc) as [(_ & H & _)|[_ ->]]; [contradiction|reflexivity].
  - left. split; [right; reflexivity|]. unfold signal_show. rewrite Hc. cbn [ok_or bind].
    unfold nonces_new, NUMBER_OF_ATTRIBUTES. cbn [scalars_random]. destruct (scalar_random r) as [z r0].
    destruct (show_some (su_user u) c [z] r0 os Hc) as [(_ & _ & H & _)|[_ ->]]; [rewrite HX in H; cbn in H; lia|reflexivity].
  - right. split; [discriminate|]. split; [discriminate|].
    destruct (signal_show_ok u c m ms X Xs entry r os Hc Ha HX) as (? & ? & ? & ? & H). eexists. exact H.
Qed.
Print Assumptions C37_signal_show_outcomes.
Example C37_met :
  is_err (show sample_user [3] (toy_stream 8) (toy_stream 9)) &&
  is_panic (show {| us_system_parameters := sample_params; us_issuer_parameters := {| pk_Xn := [] |}; us_key := None;
          us_credential := Some sample_credential |} [3] (toy_stream 8) (toy_stream 9)) &&
  is_panic (show {| us_system_parameters := sample_params; us_issuer_parameters := {| pk_Xn := [pt 231] |}; us_key := None;
          us_credential := Some {| cr_mac := cr_mac sample_credential; cr_attributes := [] |} |}
       [3] (toy_stream 8) (toy_stream 9)) = true.
Proof. vm_compute. reflexivity. Qed.

(** ** C56: presentations cannot be altered *)
Theorem C56_same_proof_same_presentation : forall E, ExtLaws E ->
  forall (i : Issuer E) X1 Xs x1 p p' C C',
  pk_Xn (kp_public (iss_keypair i)) = X1 :: Xs -> sk_xn (kp_secret (iss_keypair i)) = [x1] ->
  pr_attributes_revealed p = [] -> pr_attributes_blinded p = [C] ->
  pr_attributes_revealed p' = [] -> pr_attributes_blinded p' = [C'] ->
  issuer_verify i p = Ok {| vf_presentation := p |} ->
  issuer_verify i p' = Ok {| vf_presentation := p' |} ->
  pr_proof p = pr_proof p' ->
  p = p' \/
  @challenge_collision E (presentation_hashed i X1 x1 p C) (presentation_hashed i X1 x1 p' C').
Proof.
  intros E L i X1 Xs x1 p p' C C' HX Hx Hr Hb Hr' Hb' Hv Hv' Hpf.
  pose proof (presentation_binding L i X1 Xs x1 p p' C C' HX Hx Hr Hb Hr' Hb' Hv Hv' Hpf) as H.
  cbv zeta in H. unfold presentation_hashed. cbv zeta. rewrite <- Hpf. exact H.
Qed.
Print Assumptions C56_same_proof_same_presentation.
Example C56_met : exists p r' os', show sample_holder [3] (toy_stream 8) (toy_stream 9) = Ok (p, r', os') /\
  is_ok (issuer_verify sample_issuer p) && (List.length (pr_attributes_blinded p) =? 1)%nat
  && negb (is_ok (issuer_verify sample_issuer
       {| pr_rerandomized_mac_commitment := padd (pr_rerandomized_mac_commitment p) (pt 1);
          pr_rerandomized_nonce := pr_rerandomized_nonce p;
          pr_attributes_revealed := []; pr_attributes_blinded := pr_attributes_blinded p;
          pr_proof := pr_proof p |})) = true.
Proof. apply run3. vm_compute. reflexivity. Qed.
