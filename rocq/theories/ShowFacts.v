(** Facts about showing and verifying credentials: aeonflux/src/user.rs and issuer.rs *)
From Verif Require Export IssueFacts.
From Coq Require Import Setoid.
Local Open Scope string_scope.

Section show_facts.
  Context {E : Ext} (L : ExtLaws E).
  Implicit Types (i : Issuer E) (u : User E) (c : Credential E) (p : CredentialPresentation E).

  Definition show_csprng (r : rng) : rng := fst (@reseed E show_transcript [] r).

  (** ** Showing, with the random scalars given.  One attribute. *)
  Definition shown_publics (params : SystemParameters E) (X0 : point E) (c : Credential E)
      (m0 z0 rr zQ : scalar) : vc_Publics E :=
    let A := sp_h params in
    let P := smul rr (tag_nonce (cr_mac c)) in
    {| vcp_B := sp_g params; vcp_A := A; vcp_X0 := X0; vcp_P := P;
       vcp_V := psub (padd pzero (smul z0 X0)) (smul zQ A);
       vcp_Cm0 := padd (smul m0 P) (smul z0 A) |}.
  Definition shown_secrets (m0 z0 zQ : scalar) : vc_Scalars :=
    {| vcs_m0 := m0; vcs_z0 := z0; vcs_minus_zQ := s_neg zQ |}.
  Definition shown (params : SystemParameters E) (X0 : point E) (c : Credential E)
      (m0 z0 rr zQ : scalar) (rand : vc_Scalars) : CredentialPresentation E :=
    let q := shown_publics params X0 c m0 z0 rr zQ in
    {| pr_rerandomized_mac_commitment := padd (smul rr (tag_mac (cr_mac c))) (smul zQ (sp_h params));
       pr_rerandomized_nonce := smul rr (tag_nonce (cr_mac c));
       pr_attributes_revealed := [];
       pr_attributes_blinded := [padd (smul m0 (smul rr (tag_nonce (cr_mac c)))) (smul z0 (sp_h params))];
       pr_proof := vc_create_with (vc_create_absorb show_transcript q) q (shown_secrets m0 z0 zQ) rand |}.

  Lemma vc_create_some_rand t q s os :
    fst (vc_create t q s os) = vc_create_with (E := E) (vc_create_absorb t q) q s
      (fst (@vc_randomness E (vc_create_absorb t q) s os)).
  Proof. unfold vc_create. destruct (vc_randomness (vc_create_absorb t q) s os); reflexivity. Qed.

  Lemma show_ok u c m0 ms X0 Xs z0 r os :
    us_credential u = Some c -> cr_attributes c = m0 :: ms ->
    pk_Xn (us_issuer_parameters u) = X0 :: Xs ->
    let rr := fst (scalar_random (show_csprng r)) in
    let zQ := fst (scalar_random (snd (scalar_random (show_csprng r)))) in
    let q := shown_publics (us_system_parameters u) X0 c m0 z0 rr zQ in
    let s := shown_secrets m0 z0 zQ in
    show u [z0] r os =
      Ok (shown (us_system_parameters u) X0 c m0 z0 rr zQ
            (fst (@vc_randomness E (vc_create_absorb show_transcript q) s os)),
          snd (@reseed E show_transcript [] r), snd (vc_create show_transcript q s os)).
  Proof.
    intros Hc Ha HX rr zQ q s. unfold show. rewrite Hc. cbn [ok_or bind].
    change (transcript_new "AEONFLUX SHOW") with show_transcript.
    unfold rr, zQ, show_csprng in *.
    destruct (@reseed E show_transcript [] r) as [cs r1]. cbn [fst snd] in *.
    destruct (scalar_random cs) as [rr' cs1]. cbn [fst snd] in *. unfold ephemeral_new.
    destruct (scalar_random cs1) as [zQ' cs2]. cbn [fst snd] in *.
    unfold show_statement, show_commitments, commitment_to, apply_to_tag, index.
    rewrite Ha, HX. cbn [show_error_factor index nth_error or_panic bind combine map fst snd tag_nonce tag_mac].
    change {| vcp_B := sp_g (us_system_parameters u); vcp_A := _; vcp_X0 := X0; vcp_P := _;
              vcp_V := _; vcp_Cm0 := _ |} with q.
    change (vcs_m0 {| vcs_m0 := m0; vcs_z0 := z0; vcs_minus_zQ := ephemeral_neg zQ' |}) with m0.
    change {| vcs_m0 := m0; vcs_z0 := z0; vcs_minus_zQ := ephemeral_neg zQ' |} with s.
    unfold shown, show_presentation. fold q. fold s.
    rewrite <- vc_create_some_rand.
    destruct (vc_create show_transcript q s os) as [pf os']. reflexivity.
  Qed.

  (** ** Panics of [show] *)
  Lemma show_error_factor_ok Xs k zs V :
    (exists V', show_error_factor (E := E) Xs k zs V = Ok V') <-> (k + List.length zs <= List.length Xs \/ zs = [])%nat.
  Proof.
    revert k V; induction zs as [|z zs IH]; intros k V; cbn [show_error_factor List.length].
    - split; [auto|]. intros _. eexists; reflexivity.
    - unfold index. destruct (nth_error Xs k) as [X|] eqn:HX; cbn [or_panic bind].
      + assert (Hk : (k < List.length Xs)%nat) by (apply nth_error_Some; congruence).
        rewrite IH. split; [intros [H|H]; [left; lia|subst; cbn; left; lia]|].
        intros [H|H]; [left; lia|discriminate].
      + apply nth_error_None in HX. split; [intros [V' H]; discriminate|].
        intros [H|H]; [lia|discriminate].
  Qed.
  Lemma show_error_factor_no_err Xs k zs V e : show_error_factor (E := E) Xs k zs V <> Err e.
  Proof.
    revert k V; induction zs as [|z zs IH]; intros k V; cbn; [discriminate|].
    destruct (index Xs k); cbn; [apply IH|discriminate].
  Qed.

  Lemma show_statement_cases u c zs rr zQ :
    (zs <> [] /\ cr_attributes c <> [] /\
     (List.length zs <= List.length (pk_Xn (us_issuer_parameters u)))%nat /\
     exists x, show_statement u c zs rr zQ = Ok x) \/
    ((zs = [] \/ cr_attributes c = [] \/
      (List.length (pk_Xn (us_issuer_parameters u)) < List.length zs)%nat) /\
     show_statement u c zs rr zQ = Panic).
  Proof.
    unfold show_statement.
    set (Xs := pk_Xn (us_issuer_parameters u)).
    pose proof (show_error_factor_ok Xs 0 zs pzero) as H.
    pose proof (show_error_factor_no_err Xs 0 zs pzero) as He.
    destruct (show_error_factor Xs 0 zs pzero) as [V|e|]; cbn [bind].
    - destruct zs as [|z zs].
      { right. split; [auto|]. destruct (index (cr_attributes c) 0); reflexivity. }
      assert (Hl : (List.length (z :: zs) <= List.length Xs)%nat).
      { destruct H as [H _]. destruct H as [H|H]; [eexists; reflexivity|cbn in *; lia|discriminate]. }
      destruct (cr_attributes c) as [|m0 ms] eqn:Hm; [right; auto|].
      left. split; [discriminate|]. split; [discriminate|]. split; [exact Hl|].
      unfold show_commitments. destruct Xs as [|X0 Xs']; [cbn in Hl; lia|].
      cbn. eexists; reflexivity.
    - exfalso. eapply He; reflexivity.
    - right. split; [|reflexivity].
      destruct zs as [|z zs]; [auto|]. right; right.
      destruct (Nat.le_gt_cases (List.length (z :: zs)) (List.length Xs)) as [Hl|Hl]; [|exact Hl].
      exfalso. destruct H as [_ H]. destruct H as [V H]; [left; exact Hl|discriminate].
  Qed.

  Lemma show_none u zs r os : us_credential u = None -> show u zs r os = Err MissingData.
  Proof. intros H. unfold show. rewrite H. reflexivity. Qed.
  Lemma show_some u c zs r os : us_credential u = Some c ->
    (zs <> [] /\ cr_attributes c <> [] /\
     (List.length zs <= List.length (pk_Xn (us_issuer_parameters u)))%nat /\
     exists x, show u zs r os = Ok x) \/
    ((zs = [] \/ cr_attributes c = [] \/
      (List.length (pk_Xn (us_issuer_parameters u)) < List.length zs)%nat) /\
     show u zs r os = Panic).
  Proof.
    intros Hc. unfold show. rewrite Hc. cbn [ok_or bind].
    destruct (@reseed E _ [] r) as [cs r1]. destruct (scalar_random cs) as [rr cs1].
    destruct (ephemeral_new cs1) as [zQ cs2].
    destruct (show_statement_cases u c zs rr zQ) as [(H1 & H2 & H3 & [[[[CQ C] q] s] H4])|[H1 H2]].
    - left. rewrite H4. cbn [bind]. repeat (split; [assumption|]).
      destruct (vc_create _ q s os). eexists; reflexivity.
    - right. rewrite H2. auto.
  Qed.

  (** ** Verifying *)
  Lemma verify_revealed_ok xn P k ms V :
    (exists V', verify_revealed (E := E) xn P k ms V = Ok V') <-> (k + List.length ms <= List.length xn \/ ms = [])%nat.
  Proof.
    revert k V; induction ms as [|z zs IH]; intros k V; cbn [verify_revealed List.length].
    - split; [auto|]. intros _. eexists; reflexivity.
    - unfold index. destruct (nth_error xn k) as [X|] eqn:HX; cbn [or_panic bind].
      + assert (Hk : (k < List.length xn)%nat) by (apply nth_error_Some; congruence).
        rewrite IH. split; [intros [H|H]; [left; lia|subst; cbn; left; lia]|].
        intros [H|H]; [left; lia|discriminate].
      + apply nth_error_None in HX. split; [intros [V' H]; discriminate|].
        intros [H|H]; [lia|discriminate].
  Qed.
  Lemma verify_blinded_ok xn k Cs V :
    (exists V', verify_blinded (E := E) xn k Cs V = Ok V') <-> (k + List.length Cs <= List.length xn \/ Cs = [])%nat.
  Proof.
    revert k V; induction Cs as [|z zs IH]; intros k V; cbn [verify_blinded List.length].
    - split; [auto|]. intros _. eexists; reflexivity.
    - unfold index. destruct (nth_error xn k) as [X|] eqn:HX; cbn [or_panic bind].
      + assert (Hk : (k < List.length xn)%nat) by (apply nth_error_Some; congruence).
        rewrite IH. split; [intros [H|H]; [left; lia|subst; cbn; left; lia]|].
        intros [H|H]; [left; lia|discriminate].
      + apply nth_error_None in HX. split; [intros [V' H]; discriminate|].
        intros [H|H]; [lia|discriminate].
  Qed.
  Lemma verify_revealed_no_err xn P k ms V e : verify_revealed (E := E) xn P k ms V <> Err e.
  Proof.
    revert k V; induction ms as [|z zs IH]; intros k V; cbn; [discriminate|].
    destruct (index xn k); cbn; [apply IH|discriminate].
  Qed.
  Lemma verify_blinded_no_err xn k Cs V e : verify_blinded (E := E) xn k Cs V <> Err e.
  Proof.
    revert k V; induction Cs as [|z zs IH]; intros k V; cbn; [discriminate|].
    destruct (index xn k); cbn; [apply IH|discriminate].
  Qed.

  Definition verify_fits i p : Prop :=
    let n := List.length (sk_xn (kp_secret (iss_keypair i))) in
    pk_Xn (kp_public (iss_keypair i)) <> [] /\ pr_attributes_blinded p <> [] /\
    (List.length (pr_attributes_revealed p) <= n)%nat /\
    (List.length (pr_attributes_blinded p) <= n)%nat.
  Lemma verify_statement_cases i p :
    (verify_fits i p /\ exists q, verify_statement i p = Ok q) \/
    (~ verify_fits i p /\ verify_statement i p = Panic).
  Proof.
    unfold verify_statement, verify_fits. cbv zeta.
    set (xn := sk_xn (kp_secret (iss_keypair i))).
    set (V0 := smul (sk_x0 (kp_secret (iss_keypair i))) (pr_rerandomized_nonce p)).
    pose proof (verify_revealed_ok xn (pr_rerandomized_nonce p) 0 (pr_attributes_revealed p) V0) as Hr.
    pose proof (verify_revealed_no_err xn (pr_rerandomized_nonce p) 0 (pr_attributes_revealed p) V0) as Hr'.
    destruct (verify_revealed _ _ _ _ V0) as [V1|e|]; cbn [bind].
    2:{ exfalso. eapply Hr'; reflexivity. }
    2:{ right. split; [|reflexivity]. intros (_ & _ & H & _).
        destruct Hr as [_ Hr]. destruct Hr as [V H']; [left; lia|discriminate]. }
    assert (H1 : (List.length (pr_attributes_revealed p) <= List.length xn)%nat).
    { destruct Hr as [Hr _]. destruct Hr as [Hr|Hr]; [eexists; reflexivity|lia|rewrite Hr; cbn; lia]. }
    pose proof (verify_blinded_ok xn 0 (pr_attributes_blinded p) V1) as Hb.
    pose proof (verify_blinded_no_err xn 0 (pr_attributes_blinded p) V1) as Hb'.
    destruct (verify_blinded _ _ _ V1) as [V2|e|]; cbn [bind].
    2:{ exfalso. eapply Hb'; reflexivity. }
    2:{ right. split; [|reflexivity]. intros (_ & _ & _ & H).
        destruct Hb as [_ Hb]. destruct Hb as [V H']; [left; lia|discriminate]. }
    assert (H2 : (List.length (pr_attributes_blinded p) <= List.length xn)%nat).
    { destruct Hb as [Hb _]. destruct Hb as [Hb|Hb]; [eexists; reflexivity|lia|rewrite Hb; cbn; lia]. }
    unfold index.
    destruct (pk_Xn (kp_public (iss_keypair i))) as [|X0 Xs]; cbn [nth_error or_panic bind].
    { right. split; [|reflexivity]. intros (H & _). apply H; reflexivity. }
    destruct (pr_attributes_blinded p) as [|C Cs]; cbn [nth_error or_panic bind].
    { right. split; [|reflexivity]. intros (_ & H & _). apply H; reflexivity. }
    left. split; [|eexists; reflexivity].
    split; [discriminate|]. split; [discriminate|]. auto.
  Qed.
  Lemma issuer_verify_panic i p : issuer_verify i p = Panic <-> ~ verify_fits i p.
  Proof.
    unfold issuer_verify. destruct (verify_statement_cases i p) as [[H [q ->]]|[H ->]]; cbn [bind].
    - pose proof (vc_verify_no_panic (pr_proof p) (transcript_new "AEONFLUX SHOW") q).
      destruct (vc_verify _ _ q); cbn; split; intros; try congruence; contradiction.
    - tauto.
  Qed.

  Lemma issuer_verify_ok1 i p X1 Xs x1 C : 
    pk_Xn (kp_public (iss_keypair i)) = X1 :: Xs -> sk_xn (kp_secret (iss_keypair i)) = [x1] ->
    pr_attributes_revealed p = [] -> pr_attributes_blinded p = [C] ->
    issuer_verify i p =
    match vc_verify (pr_proof p) show_transcript
            (presentation_publics (iss_system_parameters i) X1 (sk_x0 (kp_secret (iss_keypair i))) x1
              (pr_rerandomized_nonce p) (pr_rerandomized_mac_commitment p) C) with
    | Ok _ => Ok {| vf_presentation := p |}
    | Err _ => Err MacVerification
    | Panic => Panic
    end.
  Proof.
    intros HX Hx Hr Hb. unfold issuer_verify, verify_statement. rewrite HX, Hx, Hr, Hb. cbv zeta.
    cbn [verify_revealed verify_blinded index nth_error or_panic bind].
    change (transcript_new "AEONFLUX SHOW") with show_transcript. unfold presentation_publics.
    destruct (vc_verify _ _ _); reflexivity.
  Qed.
  Lemma issuer_verify_value i p v : issuer_verify i p = Ok v -> v = {| vf_presentation := p |}.
  Proof.
    unfold issuer_verify. intros H. apply bind_ok in H as (q & _ & H). apply bind_ok in H as (_ & _ & H). congruence.
  Qed.

  (** ** Presentations of one-attribute credentials *)
  Lemma single_cons i : single_attribute i -> exists x1, sk_xn (kp_secret (iss_keypair i)) = [x1].
  Proof. unfold single_attribute. intros H. destruct (sk_xn _) as [|x1 [|]]; try discriminate. eauto. Qed.
  Lemma consistent_single i x1 : consistent i -> sk_xn (kp_secret (iss_keypair i)) = [x1] ->
    pk_Xn (kp_public (iss_keypair i)) = [smul x1 (sp_h (iss_system_parameters i))].
  Proof.
    unfold consistent, key_matches. intros H Hx. rewrite Hx in H.
    inversion H as [|X x Xs xs HX HXs]; subst. inversion HXs; subst. reflexivity.
  Qed.

  (** Whether the statements of prover and verifier agree and are true. *)
  Lemma shown_publics_iff i c x1 m z0 rr zQ :
    sk_xn (kp_secret (iss_keypair i)) = [x1] ->
    let params := iss_system_parameters i in
    let X1 := smul x1 (sp_h params) in
    let s := shown params X1 c m z0 rr zQ in
    (forall rand, presentation_publics params X1 (sk_x0 (kp_secret (iss_keypair i))) x1
        (pr_rerandomized_nonce (s rand)) (pr_rerandomized_mac_commitment (s rand))
        (padd (smul m (smul rr (tag_nonce (cr_mac c)))) (smul z0 (sp_h params)))
      = shown_publics params X1 c m z0 rr zQ) <->
    mac_equation (kp_secret (iss_keypair i)) [m] (apply_to_tag rr (cr_mac c)).
  Proof.
    intros Hx params X1 s. unfold presentation_publics, shown_publics, mac_equation, apply_to_tag.
    rewrite Hx. cbn [dot tag_nonce tag_mac List.length].
    unfold s, shown. cbn [pr_rerandomized_nonce pr_rerandomized_mac_commitment]. unfold X1.
    destruct c as [[P Q] at_]. cbn [cr_mac tag_nonce tag_mac]. generalize (sk_x0 (kp_secret (iss_keypair i))) as x0; intros x0.
    destruct params as [g h]; cbn [sp_g sp_h]. split.
    - intros H. specialize (H {| vcs_m0 := 0; vcs_z0 := 0; vcs_minus_zQ := 0 |}).
      split; [reflexivity|]. apply (f_equal vcp_V) in H. cbn [vcp_V] in H. clear s X1.
      dlogs L. to_base_in L H. to_base L. apply (smul_base_iff L) in H. apply (smul_base_iff L).
      apply eqm_sub_0 in H. apply eqm_sub_0.
      match type of H with ?a == _ => match goal with |- ?b == _ => assert (Hz : b == - a) end end.
      { apply eqm_of_eq; zring. }
      rewrite Hz, H. reflexivity.
    - intros [_ H] rand. f_equal. rewrite H. clear s X1 H. pring L.
  Qed.
  Lemma shown_relation params X1 c m z0 rr zQ :
    vc_relation (shown_publics params X1 c m z0 rr zQ) (shown_secrets m z0 zQ).
  Proof.
    unfold vc_relation, shown_publics, shown_secrets. cbn. split; [reflexivity|].
    destruct params as [g h]; cbn. rewrite (padd_zero E L). clear c. pring L.
  Qed.

  Lemma shown_verify i c x1 m z0 rr zQ rand :
    consistent i -> sk_xn (kp_secret (iss_keypair i)) = [x1] ->
    let X1 := smul x1 (sp_h (iss_system_parameters i)) in
    let p := shown (iss_system_parameters i) X1 c m z0 rr zQ rand in
    mac_equation (kp_secret (iss_keypair i)) [m] (cr_mac c) ->
    issuer_verify i p = Ok {| vf_presentation := p |}.
  Proof.
    intros Hc Hx X1 p He.
    rewrite (issuer_verify_ok1 i p X1 [] x1 (padd (smul m (smul rr (tag_nonce (cr_mac c)))) (smul z0 (sp_h (iss_system_parameters i)))));
      [|apply consistent_single; assumption|exact Hx|reflexivity|reflexivity].
    pose proof (apply_to_tag_equation L rr _ _ _ He) as He'.
    apply (shown_publics_iff i c x1 m z0 rr zQ Hx) with (rand := rand) in He'. cbv zeta in He'.
    fold X1 in He'. fold p in He'. rewrite He'. unfold p, shown. cbn [pr_proof].
    rewrite (vc_complete L) by apply shown_relation. reflexivity.
  Qed.

  Theorem presentation_accepted i u c m z0 r os :
    consistent i -> single_attribute i -> user_of i u -> us_credential u = Some c ->
    valid_credential i c m ->
    exists p r' os', show u [z0] r os = Ok (p, r', os') /\
      issuer_verify i p = Ok {| vf_presentation := p |}.
  Proof.
    intros Hc Hs [Hp Hk] Hu [Ha He]. destruct (single_cons i Hs) as [x1 Hx].
    pose proof (consistent_single i x1 Hc Hx) as HX.
    assert (HX' : pk_Xn (us_issuer_parameters u) = [smul x1 (sp_h (iss_system_parameters i))])
      by (rewrite Hk; exact HX).
    pose proof (show_ok u c m [] _ [] z0 r os Hu Ha HX') as H. cbv zeta in H.
    eexists _, _, _. split; [exact H|]. rewrite Hp. apply shown_verify; assumption.
  Qed.

  Lemma shown_rejected i c x1 m z0 rr zQ rand :
    consistent i -> sk_xn (kp_secret (iss_keypair i)) = [x1] ->
    let params := iss_system_parameters i in
    let X1 := smul x1 (sp_h params) in
    let p := shown params X1 c m z0 rr zQ rand in
    let q' := shown_publics params X1 c m z0 rr zQ in
    let q := presentation_publics params X1 (sk_x0 (kp_secret (iss_keypair i))) x1
               (pr_rerandomized_nonce p) (pr_rerandomized_mac_commitment p) (vcp_Cm0 q') in
    issuer_verify i p = Ok {| vf_presentation := p |} ->
    mac_equation (kp_secret (iss_keypair i)) [m] (apply_to_tag rr (cr_mac c)) \/
    vc_challenge (pr_proof p) = 0 \/
    @challenge_collision E (extend show_transcript (vc_messages q' (vc_image q' rand)))
      (extend show_transcript (vc_messages q (vc_recompute (pr_proof p) q))).
  Proof.
    intros Hc Hx params X1 p q' q H.
    rewrite (issuer_verify_ok1 i p X1 [] x1 (vcp_Cm0 q')) in H;
      [|apply consistent_single; assumption|exact Hx|reflexivity|reflexivity].
    fold params q in H.
    assert (V : vc_verify (pr_proof p) show_transcript q = Ok tt).
    { destruct (vc_verify (pr_proof p) show_transcript q) as [[]| |]; congruence. }
    change (pr_proof p) with (vc_create_with (vc_create_absorb show_transcript q') q' (shown_secrets m z0 zQ) rand) in V.
    apply (vc_false_rejected L) in V. destruct V as [(_ & Hq & _)|[H0|Hcol]]; [left|right; left; exact H0|right; right; exact Hcol].
    apply (shown_publics_iff i c x1 m z0 rr zQ Hx). intros rand'. exact Hq.
  Qed.

  (** ** Soundness *)
  Theorem presentation_sound i x1 C P CQ pf1 pf2 :
    consistent i -> sk_xn (kp_secret (iss_keypair i)) = [x1] ->
    let X1 := smul x1 (sp_h (iss_system_parameters i)) in
    let q := presentation_publics (iss_system_parameters i) X1 (sk_x0 (kp_secret (iss_keypair i))) x1 P CQ C in
    ~ vc_challenge pf1 == vc_challenge pf2 -> vc_recompute pf1 q = vc_recompute pf2 q ->
    let w := vc_extract pf1 pf2 in
    C = padd (smul (vcs_m0 w) P) (smul (vcs_z0 w) (sp_h (iss_system_parameters i))) /\
    mac_equation (kp_secret (iss_keypair i)) [vcs_m0 w]
      {| tag_nonce := P; tag_mac := padd CQ (smul (vcs_minus_zQ w) (sp_h (iss_system_parameters i))) |}.
  Proof.
    intros Hc Hx X1 q Hch Hrec w.
    pose proof (vc_special_sound L q pf1 pf2 Hch Hrec) as R. fold w in R. clearbody w.
    unfold vc_relation, q, presentation_publics in R. cbn in R. destruct R as [R1 R2].
    split; [exact R1|]. unfold mac_equation. rewrite Hx. cbn [List.length dot tag_nonce tag_mac].
    split; [reflexivity|]. unfold X1 in R2. clear q Hrec. rewrite R1 in R2.
    destruct (iss_system_parameters i) as [g h]; cbn [sp_h] in *.
    generalize dependent (sk_x0 (kp_secret (iss_keypair i))). intros x0 R2. clear R1.
    clear C X1 Hc.
    dlogs L. to_base_in L R2. to_base L. apply (smul_base_iff L) in R2. apply (smul_base_iff L).
    apply eqm_sub_0 in R2. apply eqm_sub_0.
    match type of R2 with ?a == _ => match goal with |- ?b == _ => assert (Hz : b == - a) end end.
    { apply eqm_of_eq; zring. }
    rewrite Hz, R2. reflexivity.
  Qed.

  (** ** Forgery *)
  Lemma forge_accepted i x1 m z0 zQ os :
    consistent i -> sk_xn (kp_secret (iss_keypair i)) = [x1] ->
    let p := forge_presentation (iss_system_parameters i) (smul x1 (sp_h (iss_system_parameters i))) m z0 zQ os in
    issuer_verify i p = Ok {| vf_presentation := p |}.
  Proof.
    intros Hc Hx p. set (h := sp_h (iss_system_parameters i)). set (X1 := smul x1 h).
    rewrite (issuer_verify_ok1 i p X1 [] x1 (smul z0 h));
      [|apply consistent_single; assumption|exact Hx|reflexivity|reflexivity].
    unfold p, forge_presentation. cbn [pr_proof pr_rerandomized_nonce pr_rerandomized_mac_commitment]. cbv zeta.
    fold h. fold X1.
    match goal with |- context [vc_create _ ?q' ?s os] =>
      match goal with |- context [vc_verify _ _ ?q] =>
        assert (Hq : q = q'); [|rewrite Hq; pose proof (vc_create_complete L show_transcript q' s os) as V] end end.
    - unfold presentation_publics. f_equal. rewrite (smul_pzero L). unfold X1.
      clear p X1. subst h. destruct (iss_system_parameters i) as [g h]; cbn [sp_h]. 
      rewrite (padd_zero E L). f_equal. pring L.
    - rewrite V; [reflexivity|]. unfold vc_relation. cbn. fold h. clear V Hq p.
      rewrite (smul_pzero L), (padd_zero E L). split; [reflexivity|]. unfold psub. f_equal.
      rewrite <- (smul_opp L). apply (smul_eqm L). symmetry. apply eqm_s_neg.
  Qed.
End show_facts.
