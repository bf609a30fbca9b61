(** Credentials with several attributes (C108): aeonflux/src/user.rs:176-251 and
    aeonflux/src/issuer.rs:197-229. *)
From Verif Require Import Toy Algebra ShowFacts SignalFacts SpecMany PropertiesIssue PropertiesShow PropertiesRevealed.
From Coq Require Import Lia Bool.
Local Open Scope string_scope.
Local Open Scope Z_scope.

Lemma forall2_len {A B} (R : A -> B -> Prop) l l' : Forall2 R l l' -> List.length l = List.length l'.
Proof. induction 1; cbn; congruence. Qed.

Section facts.
  Context {E : Ext} (L : ExtLaws E).
  Implicit Types (i : Issuer E) (u : User E) (c : Credential E) (p : CredentialPresentation E).

  Lemma weigh_keyed xs (Ps : list (point E)) : PropertiesRevealed.keyed xs Ps = weigh xs Ps.
  Proof. revert Ps; induction xs as [|x xs IH]; intros [|P Ps]; cbn; [reflexivity..|]. rewrite IH. reflexivity. Qed.

  (** ** What is proved and what is checked *)
  Lemma error_factor Xs zs : forall k (V V' : point E), show_error_factor Xs k zs V = Ok V' ->
    V' = padd V (weigh zs (skipn k Xs)).
  Proof.
    induction zs as [|z zs IH]; intros k V V' H.
    - cbn in H. injection H as <-. cbn. rewrite (padd_zero_r L). reflexivity.
    - cbn [show_error_factor] in H. unfold index in H. destruct (nth_error Xs k) as [X|] eqn:HX; [|discriminate].
      cbn [or_panic bind] in H. apply IH in H. subst V'.
      assert (skipn k Xs = X :: skipn (S k) Xs) as ->.
      { clear - HX. revert Xs HX; induction k as [|k IH]; intros [|Y Xs] H; try discriminate; cbn in H.
        - injection H as ->. reflexivity.
        - cbn [skipn]. rewrite (IH Xs H). reflexivity. }
      cbn [weigh]. generalize (weigh zs (skipn (S k) Xs)) as d. intros d. clear HX. pring L.
  Qed.

  Lemma checked i p X0 Xs C Cs :
    pk_Xn (kp_public (iss_keypair i)) = X0 :: Xs -> pr_attributes_blinded p = C :: Cs ->
    (List.length (pr_attributes_revealed p) <= List.length (sk_xn (kp_secret (iss_keypair i))))%nat ->
    (List.length (C :: Cs) <= List.length (sk_xn (kp_secret (iss_keypair i))))%nat ->
    verify_statement i p =
      Ok (about (iss_system_parameters i) X0 (pr_rerandomized_nonce p) (remainder (kp_secret (iss_keypair i)) p) C).
  Proof.
    intros HX HC Hr Hb.
    assert (Hf : verify_fits i p).
    { split; [rewrite HX; discriminate|]. split; [rewrite HC; discriminate|]. rewrite HC. auto. }
    destruct (verify_statement_cases i p) as [[_ [q Hq]]|[H _]]; [|contradiction].
    pose proof (C76_statement E L i p q Hq) as HV. cbv zeta in HV. destruct HV as (HV & _ & _).
    rewrite Hq. unfold verify_statement in Hq.
    apply bind_ok in Hq as (V1 & _ & Hq). apply bind_ok in Hq as (V2 & _ & Hq). cbv zeta in Hq.
    apply bind_ok in Hq as (Y & HY & Hq). apply bind_ok in Hq as (D & HD & Hq). injection Hq as <-.
    rewrite HX in HY. rewrite HC in HD. cbn in HY, HD. injection HY as ->. injection HD as ->.
    cbn [vcp_V] in HV. unfold about. f_equal. f_equal. rewrite HV, weigh_keyed. unfold remainder. f_equal. f_equal.
    clear - L. generalize (dot (sk_xn (kp_secret (iss_keypair i))) (pr_attributes_revealed p)) as d, (pr_rerandomized_nonce p) as P, (sk_x0 (kp_secret (iss_keypair i))) as x0. intros d P x0. pring L.
  Qed.
  Lemma verify_checked i p X0 Xs C Cs :
    pk_Xn (kp_public (iss_keypair i)) = X0 :: Xs -> pr_attributes_blinded p = C :: Cs ->
    (List.length (pr_attributes_revealed p) <= List.length (sk_xn (kp_secret (iss_keypair i))))%nat ->
    (List.length (C :: Cs) <= List.length (sk_xn (kp_secret (iss_keypair i))))%nat ->
    let q := about (iss_system_parameters i) X0 (pr_rerandomized_nonce p) (remainder (kp_secret (iss_keypair i)) p) C in
    issuer_verify i p = match vc_verify (pr_proof p) show_transcript q with
                        | Ok _ => Ok {| vf_presentation := p |} | Err _ => Err MacVerification | Panic => Panic end.
  Proof.
    intros HX HC Hr Hb q. unfold issuer_verify. rewrite (checked i p X0 Xs C Cs HX HC Hr Hb). cbn [bind]. fold q.
    change (transcript_new "AEONFLUX SHOW") with show_transcript. destruct (vc_verify _ _ _); reflexivity.
  Qed.

  (** Sums over the key. *)
  Lemma weigh_public xs h : forall zs Xs, Forall2 (fun X x => X = smul x h :> point E) Xs xs ->
    weigh zs Xs = smul (dot xs zs) h.
  Proof.
    intros zs Xs H; revert zs; induction H as [|X x Xs xs -> H IH]; intros [|z zs]; cbn [weigh dot]; try (rewrite smul_0; reflexivity).
    rewrite IH. generalize (dot xs zs) as d. intros d. pring L.
  Qed.
  Lemma weigh_commitments P h : forall zs (ms : list scalar) xs, (List.length zs <= List.length ms)%nat -> List.length ms = List.length xs ->
    weigh xs (map (fun zm => padd (smul (snd zm) P) (smul (fst zm) h)) (combine zs ms)) =
    padd (smul (dot xs zs) h) (smul (dot xs ms - dot (skipn (List.length zs) xs) (skipn (List.length zs) ms)) P) :> point E.
  Proof.
    induction zs as [|z zs IH]; intros [|m ms] [|x xs] Hl Hl'; cbn in Hl, Hl'; try lia;
      cbn [combine map weigh dot skipn List.length].
    - rewrite Z.sub_diag, !smul_0. rewrite (padd_zero_r L). reflexivity.
    - rewrite Z.sub_diag, !smul_0. rewrite (padd_zero_r L). reflexivity.
    - cbn [fst snd]. rewrite (IH ms xs) by lia.
      generalize (dot (skipn (List.length zs) xs) (skipn (List.length zs) ms)) as d, (dot xs zs) as e, (dot xs ms) as f.
      intros d e f. pring L.
  Qed.
  Lemma weigh_multiples h : forall zs xs, weigh xs (map (fun z => smul z h) zs) = smul (dot xs zs) h :> point E.
  Proof.
    induction zs as [|z zs IH]; intros [|x xs]; cbn [map weigh dot]; try (rewrite smul_0; reflexivity).
    rewrite IH. generalize (dot xs zs) as d. intros d. pring L.
  Qed.
End facts.

Lemma presented : forall E, ExtLaws E -> forall (i : Issuer E) u c m0 ms z0 zs r os,
  consistent i -> holds_all i u c (m0 :: ms) -> (List.length zs <= List.length ms)%nat ->
  let params := iss_system_parameters i in
  let h := sp_h params in
  let k := kp_secret (iss_keypair i) in
  let xs := sk_xn k in
  let P := smul (fst (scalar_random (@show_csprng E r))) (tag_nonce (cr_mac c)) in
  let zQ := fst (scalar_random (snd (scalar_random (@show_csprng E r)))) in
  let X0 := smul (hd 0 xs) h in
  let C := padd (smul m0 P) (smul z0 h) in
  let q := about params X0 P (psub (smul (dot xs (z0 :: zs)) h) (smul zQ h)) C in
  exists p r' os' rand, show u (z0 :: zs) r os = Ok (p, r', os') /\
    pr_rerandomized_nonce p = P /\
    pr_rerandomized_mac_commitment p = padd (smul (fst (scalar_random (@show_csprng E r))) (tag_mac (cr_mac c))) (smul zQ h) /\
    pr_attributes_revealed p = [] /\
    pr_attributes_blinded p = map (fun zm => padd (smul (snd zm) P) (smul (fst zm) h)) (combine (z0 :: zs) (m0 :: ms)) /\
    pr_proof p = vc_create_with (vc_create_absorb show_transcript q) q (shown_secrets m0 z0 zQ) rand /\
    let q' := about params X0 P (remainder k p) C in
    issuer_verify i p = match vc_verify (pr_proof p) show_transcript q' with
                        | Ok _ => Ok {| vf_presentation := p |} | Err _ => Err MacVerification | Panic => Panic end /\
    (vc_relation q (shown_secrets m0 z0 zQ) <-> smul (dot (tl xs) zs) h = pzero) /\
    (q' = q <-> smul (dot (skipn (S (List.length zs)) xs) (skipn (List.length zs) ms)) P = pzero).
Proof.
  intros E L i u c m0 ms z0 zs r os Hc ([Hp Hk] & Hcr & Ha & He) Hl params h k xs P zQ X0 C q.
  destruct He as [Hlen HQ]. fold k in Hlen, HQ. fold xs in Hlen, HQ.
  pose proof Hc as HF. unfold consistent, key_matches in HF. fold params h k xs in HF.
  assert (Hxs : exists x xs', xs = x :: xs').
  { destruct xs as [|x xs']; [discriminate|]. eauto. }
  destruct Hxs as (x & xs' & Hxs).
  assert (HXn : exists Xs, pk_Xn (kp_public (iss_keypair i)) = X0 :: Xs).
  { unfold X0. rewrite Hxs in *. inversion HF as [|Y y Ys ys HY HYs]; subst. eauto. }
  destruct HXn as (Xs & HX).
  assert (HlX : List.length (X0 :: Xs) = S (List.length ms)).
  { rewrite <- HX. etransitivity; [|symmetry; exact Hlen]. exact (forall2_len _ _ _ HF). }
  (* show *)
  set (rr := fst (scalar_random (@show_csprng E r))) in *.
  assert (HS : exists rand r' os',
    show u (z0 :: zs) r os = Ok ({| pr_rerandomized_mac_commitment := padd (smul rr (tag_mac (cr_mac c))) (smul zQ h);
       pr_rerandomized_nonce := P; pr_attributes_revealed := [];
       pr_attributes_blinded := map (fun zm => padd (smul (snd zm) P) (smul (fst zm) h)) (combine (z0 :: zs) (m0 :: ms));
       pr_proof := vc_create_with (vc_create_absorb show_transcript q) q (shown_secrets m0 z0 zQ) rand |}, r', os')).
  { unfold show. rewrite Hcr. cbn [ok_or bind]. change (transcript_new "AEONFLUX SHOW") with show_transcript.
    subst q C P rr zQ. unfold show_csprng in *.
    destruct (@reseed E show_transcript [] r) as [cs r1]. cbn [fst snd] in *.
    destruct (scalar_random cs) as [rr' cs1]. cbn [fst snd] in *. unfold ephemeral_new.
    destruct (scalar_random cs1) as [zQ' cs2]. cbn [fst snd] in *.
    unfold show_statement. rewrite Ha, Hp, Hk, HX. fold params h. cbv zeta.
    destruct (proj2 (show_error_factor_ok (E := E) (X0 :: Xs) 0 (z0 :: zs) pzero)) as [V HV].
    { left. cbn [List.length] in *. lia. }
    rewrite HV. cbn [bind]. apply (error_factor L) in HV.
    cbn [skipn] in HV. rewrite (padd_zero E L) in HV. rewrite HX in HF. rewrite (weigh_public L xs h (z0 :: zs) _ HF) in HV. subst V.
    cbn [index nth_error or_panic bind show_commitments combine map fst snd].
    match goal with |- context [vc_create show_transcript ?q1 ?s1 os] =>
      pose proof (vc_create_some_rand show_transcript q1 s1 os) as HR;
      destruct (vc_create show_transcript q1 s1 os) as [pf os1] end.
    cbn [fst] in HR. subst pf. eexists _, r1, os1. reflexivity. }
  destruct HS as (rand & r' & os' & HS).
  match type of HS with _ = Ok (?x, _, _) => set (p := x) in * end.
  exists p, r', os', rand. split; [exact HS|]. do 5 (split; [reflexivity|]).
  assert (Hb : pr_attributes_blinded p = C :: map (fun zm => padd (smul (snd zm) P) (smul (fst zm) h)) (combine zs ms)) by reflexivity.
  assert (HV : remainder k p = psub (psub (smul (dot xs (z0 :: zs)) h) (smul zQ h))
    (smul (dot (skipn (S (List.length zs)) xs) (skipn (List.length zs) ms)) P)).
  { unfold remainder. fold xs.
    change (pr_attributes_blinded p) with (map (fun zm => padd (smul (snd zm) P) (smul (fst zm) h)) (combine (z0 :: zs) (m0 :: ms))).
    change (pr_attributes_revealed p) with (@nil scalar). change (pr_rerandomized_nonce p) with P.
    change (pr_rerandomized_mac_commitment p) with (padd (smul rr (tag_mac (cr_mac c))) (smul zQ h)).
    rewrite (weigh_commitments L P h (z0 :: zs) (m0 :: ms) xs); [|cbn; lia|exact Hlen].
    change (skipn (List.length (z0 :: zs)) xs) with (skipn (S (List.length zs)) xs).
    change (skipn (List.length (z0 :: zs)) (m0 :: ms)) with (skipn (List.length zs) ms).
    assert (dot xs (@nil scalar) = 0) as -> by (destruct xs; reflexivity). rewrite Z.add_0_r.
    generalize (dot (skipn (S (List.length zs)) xs) (skipn (List.length zs) ms)) as d. intros d. unfold P.
    change (tag_mac (cr_mac c) = smul (sk_x0 k + dot xs (m0 :: ms)) (tag_nonce (cr_mac c))) in HQ. rewrite HQ.
    generalize (dot xs (z0 :: zs)) as e, (dot xs (m0 :: ms)) as f, (tag_nonce (cr_mac c)) as N, (sk_x0 k) as x0.
    clear - L. intros e f N x0. generalize rr zQ h. intros a b H. pring L. }
  assert (Hver : issuer_verify i p = match vc_verify (pr_proof p) show_transcript (about params X0 P (remainder k p) C) with
                        | Ok _ => Ok {| vf_presentation := p |} | Err _ => Err MacVerification | Panic => Panic end).
  { apply (verify_checked L i p X0 Xs C _ HX Hb).
    - cbn. lia.
    - fold k xs. rewrite <- Hlen. cbn [List.length]. rewrite map_length, combine_length. lia. }
  assert (Hsum : dot xs (z0 :: zs) = hd 0 xs * z0 + dot (tl xs) zs) by (rewrite Hxs; reflexivity).
  assert (Hrel : vc_relation q (shown_secrets m0 z0 zQ) <-> smul (dot (tl xs) zs) h = pzero).
  { unfold vc_relation, q, about, shown_secrets. cbn [vcp_Cm0 vcp_P vcp_A vcp_V vcp_X0 vcs_m0 vcs_z0 vcs_minus_zQ].
    fold h. rewrite Hsum. unfold X0.
    assert (Hneg : smul (s_neg zQ) h = smul (- zQ) h) by (apply (smul_eqm L); apply eqm_s_neg). rewrite Hneg. clear Hneg.
    generalize (dot (tl xs) zs) as e, (hd 0 xs) as y. intros e y. split.
    - intros [_ H]. clear - L H. revert H. generalize h zQ z0. intros h0 zq z1 H.
      apply (padd_cancel_l L (padd (smul z1 (smul y h0)) (smul (- zq) h0))). rewrite <- H at 2. clear H. pring L.
    - intros H. split; [reflexivity|]. clear - L H.
      replace (smul (y * z0 + e) h) with (padd (smul (y * z0) h) (smul e h)) by (clear H; generalize h; intros h0; clear - L; pring L).
      rewrite H. clear H. generalize h zQ z0. intros h0 zq z1. clear - L. pring L. }
  cbv zeta. split; [exact Hver|]. split; [exact Hrel|]. split.
  - intros Hq. apply (f_equal vcp_V) in Hq. unfold q, about in Hq. cbn [vcp_V] in Hq. rewrite HV in Hq. clear - L Hq. revert Hq.
    generalize (psub (smul (dot xs (z0 :: zs)) h) (smul zQ h)) as Q.
    generalize (smul (dot (skipn (S (List.length zs)) xs) (skipn (List.length zs) ms)) P) as R. intros R Q H.
    apply (padd_cancel_l L Q). rewrite <- H at 1. clear H. pring L.
  - intros H2. unfold q. f_equal. rewrite HV, H2. clear - L. generalize (psub (smul (dot xs (z0 :: zs)) h) (smul zQ h)). intros Q. pring L.
Qed.

(** ** C108: presentations of several attributes *)
(** A holder of a credential for [ms] presents it with the nonces [zs].  It is
    accepted when the nonces after the first and the attributes without a
    nonce, weighed with the key, both come to nothing; otherwise it is refused, unless
    a challenge is zero or two transcripts, named here, collide. *)
Theorem C108_presented : forall E, ExtLaws E -> forall (i : Issuer E) u c m0 ms z0 zs r os,
  consistent i -> holds_all i u c (m0 :: ms) -> (List.length zs <= List.length ms)%nat ->
  let params := iss_system_parameters i in
  let h := sp_h params in
  let k := kp_secret (iss_keypair i) in
  let xs := sk_xn k in
  let P := smul (fst (scalar_random (@show_csprng E r))) (tag_nonce (cr_mac c)) in
  let zQ := fst (scalar_random (snd (scalar_random (@show_csprng E r)))) in
  let X0 := smul (hd 0 xs) h in
  let C := padd (smul m0 P) (smul z0 h) in
  let q := about params X0 P (psub (smul (dot xs (z0 :: zs)) h) (smul zQ h)) C in
  let fits := smul (dot (tl xs) zs) h = pzero /\
              smul (dot (skipn (S (List.length zs)) xs) (skipn (List.length zs) ms)) P = pzero in
  exists p r' os' rand, show u (z0 :: zs) r os = Ok (p, r', os') /\
    pr_rerandomized_nonce p = P /\
    pr_rerandomized_mac_commitment p = padd (smul (fst (scalar_random (@show_csprng E r))) (tag_mac (cr_mac c))) (smul zQ h) /\
    pr_attributes_revealed p = [] /\
    pr_attributes_blinded p = map (fun zm => padd (smul (snd zm) P) (smul (fst zm) h)) (combine (z0 :: zs) (m0 :: ms)) /\
    pr_proof p = vc_create_with (vc_create_absorb show_transcript q) q (shown_secrets m0 z0 zQ) rand /\
    (fits -> issuer_verify i p = Ok {| vf_presentation := p |}) /\
    (fits \/ issuer_verify i p = Err MacVerification \/ vc_challenge (pr_proof p) = 0 \/
     @challenge_collision E (extend show_transcript (vc_messages q (vc_image q rand)))
       (let q' := about params X0 P (remainder k p) C in
        extend show_transcript (vc_messages q' (vc_recompute (pr_proof p) q')))).
Proof.
  intros E L i u c m0 ms z0 zs r os Hc Hu Hl params h k xs P zQ X0 C q fits.
  destruct (presented E L i u c m0 ms z0 zs r os Hc Hu Hl) as (p & r' & os' & rand & H1 & H2 & H3 & H4 & H5 & H6 & Hver & Hrel & Hq).
  exists p, r', os', rand. do 6 (split; [assumption|]).
  fold params h k xs P zQ X0 C q in H6, Hver, Hrel, Hq. cbv zeta in Hver, Hq. split.
  - intros [F1 F2]. rewrite Hver. apply Hq in F2. rewrite F2, H6.
    rewrite (vc_complete L) by (apply Hrel; exact F1). reflexivity.
  - destruct (vc_verify (pr_proof p) show_transcript (about params X0 P (remainder k p) C)) as [[]|e|] eqn:Hv.
    2:{ right; left. exact Hver. }
    2:{ exfalso. exact (vc_verify_no_panic _ _ _ Hv). }
    rewrite H6 in Hv |- *.
    apply (vc_false_rejected L) in Hv as [(_ & He & Hr)|[H|H]]; [left|right; right; left; exact H|right; right; right; exact H].
    split; [apply Hrel; rewrite <- He; exact Hr|apply Hq; exact He].
Qed.
Print Assumptions C108_presented.

(** Of the nonces after the first one is determined by the others: with fresh
    nonces a holder of several attributes is refused, except by chance. *)
Theorem C108_fresh_nonces_refuted : forall E, ExtLaws E -> forall (h : point E) xs x a b,
  h <> pzero -> nth_error xs (List.length a) = Some x -> x mod ell <> 0 ->
  exists! z, canonical z /\ smul (dot xs (a ++ z :: b)%list) h = pzero.
Proof.
  intros E L h xs x a b Hh Hx Hx0.
  assert (Hd : exists d, forall z, dot xs (a ++ z :: b)%list = d + x * z).
  { clear - Hx. revert xs Hx; induction a as [|y a IH]; intros [|x' xs] Hx; try discriminate; cbn [List.length nth_error] in Hx.
    - injection Hx as ->. exists (dot xs b). intros z. cbn [app dot]. lia.
    - destruct (IH xs Hx) as [d Hd]. exists (x' * y + d). intros z. cbn [app dot]. rewrite Hd. lia. }
  destruct Hd as [d Hd].
  assert (Hxh : smul x h <> pzero).
  { intros H. apply (smul_zero_iff L) in H; [|exact Hh]. apply Hx0. unfold eqm in H. rewrite H. apply Z.mod_0_l. pose proof ell_pos; lia. }
  destruct (unique_log L (smul x h) (smul (- d) h) Hxh) as (z & [Hz1 Hz2] & Hu).
  assert (Heq : forall z, smul (dot xs (a ++ z :: b)%list) h = pzero <-> smul z (smul x h) = smul (- d) h).
  { intros z'. rewrite Hd. clear - L. split; intros H.
    - apply (padd_cancel_l L (smul d h)). transitivity (smul (d + x * z') h); [pring L|]. rewrite H. pring L.
    - transitivity (padd (smul d h) (smul z' (smul x h))); [pring L|]. rewrite H. pring L. }
  exists z. split; [split; [exact Hz1|apply Heq; exact Hz2]|].
  intros z' [H1 H2]. apply Hu. split; [exact H1|apply Heq; exact H2].
Qed.
Print Assumptions C108_fresh_nonces_refuted.
(** With zeros for them all the presentation is accepted, and shows every
    attribute after the first to whoever guesses it. *)
Theorem C108_zero_nonces_refuted : forall E, ExtLaws E -> forall (i : Issuer E) u c m0 ms z0 r os,
  consistent i -> holds_all i u c (m0 :: ms) ->
  exists p r' os', show u (z0 :: repeat 0 (List.length ms)) r os = Ok (p, r', os') /\
    issuer_verify i p = Ok {| vf_presentation := p |} /\
    (pr_rerandomized_nonce p <> pzero -> forall j m m', nth_error ms j = Some m ->
       (nth_error (pr_attributes_blinded p) (S j) = Some (smul m' (pr_rerandomized_nonce p)) <-> m' mod ell = m mod ell)).
Proof.
  intros E L i u c m0 ms z0 r os Hc Hh.
  pose proof (C108_presented E L i u c m0 ms z0 (repeat 0 (List.length ms)) r os Hc Hh) as H. cbv zeta in H.
  destruct H as (p & r' & os' & rand & H1 & HP & _ & _ & Hb & _ & Hacc & _); [rewrite repeat_length; lia|].
  exists p, r', os'. split; [exact H1|]. split.
  - apply Hacc. split.
    + assert (Hz : forall xs n, dot xs (repeat 0 n) = 0).
      { induction xs as [|y ys IH]; intros [|n]; cbn [repeat dot]; try reflexivity. rewrite IH. lia. }
      rewrite Hz. apply smul_0.
    + rewrite repeat_length. rewrite skipn_all.
      match goal with |- smul (dot ?l _) _ = _ => destruct l; apply smul_0 end.
  - intros Hn j m m' Hj. rewrite <- HP in Hb. set (P := pr_rerandomized_nonce p) in *.
    assert (Hg : forall j ms, nth_error ms j = Some m ->
      nth_error (map (fun zm : scalar * scalar => padd (smul (snd zm) P) (smul (fst zm) (sp_h (iss_system_parameters i))))
        (combine (repeat 0 (List.length ms)) ms)) j = Some (smul m P)).
    { clear - L. induction j as [|j IH]; intros [|y ys] Hj; try discriminate; cbn [List.length repeat combine map nth_error] in *.
      - injection Hj as ->. cbn [fst snd]. rewrite smul_0, (padd_zero_r L). reflexivity.
      - apply IH. exact Hj. }
    specialize (Hg j ms Hj). etransitivity; [|exact (smul_inj L m' m P Hn)].
    assert (Hbj : nth_error (pr_attributes_blinded p) (S j) = Some (smul m P)) by (rewrite Hb; exact Hg).
    rewrite Hbj. split; [intros H; injection H as H; symmetry; exact H|intros ->; reflexivity].
Qed.
Print Assumptions C108_zero_nonces_refuted.
(** What the proof is made for is accepted whenever it is true. *)
Lemma stated_accepted {E : Ext} (L : ExtLaws E) (i : Issuer E) X0 Xs P CQ V C Cs revealed m0 z0 zQ os :
  pk_Xn (kp_public (iss_keypair i)) = X0 :: Xs ->
  (List.length revealed <= List.length (sk_xn (kp_secret (iss_keypair i))))%nat ->
  (List.length (C :: Cs) <= List.length (sk_xn (kp_secret (iss_keypair i))))%nat ->
  let p := stated (iss_system_parameters i) X0 P CQ V (C :: Cs) revealed m0 z0 zQ os in
  remainder (kp_secret (iss_keypair i)) p = V ->
  V = psub (smul z0 X0) (smul zQ (sp_h (iss_system_parameters i))) ->
  C = padd (smul m0 P) (smul z0 (sp_h (iss_system_parameters i))) ->
  issuer_verify i p = Ok {| vf_presentation := p |}.
Proof.
  intros HX Hr Hb p HV HV' HC.
  rewrite (verify_checked L i p X0 Xs C Cs HX eq_refl Hr Hb). rewrite HV.
  change (pr_rerandomized_nonce p) with P. unfold p, stated. cbn [pr_proof hd].
  rewrite (vc_create_complete L); [reflexivity|].
  unfold vc_relation, about. cbn [vcp_Cm0 vcp_P vcp_A vcp_V vcp_X0 vcs_m0 vcs_z0 vcs_minus_zQ]. split; [exact HC|].
  rewrite HV'. unfold psub. f_equal. rewrite <- (smul_opp L). apply (smul_eqm L). symmetry. apply eqm_s_neg.
Qed.
(** A holder who puts the sum of the other nonces into the commitment to the
    tag hides all attributes and is accepted with any nonces. *)
Theorem C108_repaired : forall E, ExtLaws E -> forall (i : Issuer E) X0 Xs t m0 ms z0 zs rr zQ os,
  consistent i -> pk_Xn (kp_public (iss_keypair i)) = X0 :: Xs ->
  mac_equation (kp_secret (iss_keypair i)) (m0 :: ms) t -> List.length zs = List.length ms ->
  let p := show_many (iss_system_parameters i) X0 Xs t m0 ms z0 zs rr zQ os in
  issuer_verify i p = Ok {| vf_presentation := p |}.
Proof.
  intros E L i X0 Xs t m0 ms z0 zs rr zQ os Hc HX [Hlen HQ] Hl p.
  unfold consistent, key_matches in Hc. rewrite HX in Hc. unfold p, show_many. cbn [combine map].
  set (h := sp_h (iss_system_parameters i)) in *. set (k := kp_secret (iss_keypair i)) in *.
  remember (sk_xn k) as xs eqn:Hxs. destruct xs as [|x xs]; [discriminate|]. inversion Hc as [|? ? ? ? HX0 HXs]; subst X0.
  apply (stated_accepted L i _ Xs); fold k h; rewrite <- ?Hxs.
  - rewrite HX. reflexivity.
  - cbn. lia.
  - cbn [List.length] in *. rewrite map_length, combine_length. lia.
  - unfold remainder, stated. cbn [pr_attributes_revealed pr_attributes_blinded pr_rerandomized_nonce pr_rerandomized_mac_commitment].
    rewrite <- Hxs. cbn [weigh dot]. rewrite (weigh_commitments L _ h zs ms xs); [|lia|cbn in Hlen; lia].
    rewrite (weigh_public L xs h zs Xs HXs), HQ, Hl, skipn_all.
    assert (dot (skipn (List.length ms) xs) (@nil scalar) = 0) as -> by (destruct (skipn _ xs); reflexivity).
    cbn [dot fst snd]. generalize (dot xs zs) as e, (dot xs ms) as f, (tag_nonce t) as N, (sk_x0 k) as y0, h as h0.
    clear - L. intros. pring L.
  - reflexivity.
  - reflexivity.
Qed.
Print Assumptions C108_repaired.
(** Without any credential anybody is accepted, for any number of attributes, and
    may reveal what they like. *)
Theorem C108_forged_refuted : forall E, ExtLaws E -> forall (i : Issuer E) X0 Xs z0 zs revealed m0 zQ os,
  consistent i -> pk_Xn (kp_public (iss_keypair i)) = X0 :: Xs ->
  (List.length zs <= List.length Xs)%nat -> (List.length revealed <= S (List.length Xs))%nat ->
  let p := forge_many (iss_system_parameters i) X0 Xs z0 zs revealed m0 zQ os in
  issuer_verify i p = Ok {| vf_presentation := p |} /\ pr_attributes_revealed p = revealed.
Proof.
  intros E L i X0 Xs z0 zs revealed m0 zQ os Hc HX Hl Hr p. split; [|reflexivity].
  unfold consistent, key_matches in Hc. rewrite HX in Hc. pose proof (forall2_len _ _ _ Hc) as Hlen. cbn [List.length] in Hlen.
  unfold p, forge_many. cbn [map].
  set (h := sp_h (iss_system_parameters i)) in *. set (k := kp_secret (iss_keypair i)) in *.
  remember (sk_xn k) as xs eqn:Hxs. destruct xs as [|x xs]; [discriminate|]. inversion Hc as [|? ? ? ? HX0 HXs]; subst X0.
  apply (stated_accepted L i _ Xs); fold k h; rewrite <- ?Hxs.
  - rewrite HX. reflexivity.
  - cbn [List.length] in *. lia.
  - cbn [List.length] in *. rewrite map_length. lia.
  - unfold remainder, stated. cbn [pr_attributes_revealed pr_attributes_blinded pr_rerandomized_nonce pr_rerandomized_mac_commitment].
    rewrite <- Hxs. cbn [weigh]. rewrite (weigh_multiples L h zs xs), (weigh_public L xs h zs Xs HXs), (smul_pzero L).
    generalize (dot xs zs) as e, h as h0. clear - L. intros. pring L.
  - reflexivity.
  - rewrite (smul_pzero L), (padd_zero E L). reflexivity.
Qed.
Print Assumptions C108_forged_refuted.
(** What an accepted presentation proves (from two answers to one
    commitment): the first attribute is known, and nothing of the other
    commitments but that with them the tag comes out. *)
Theorem C108_proves : forall E, ExtLaws E -> forall (i : Issuer E) (p : CredentialPresentation E) q pf1 pf2 x1 xs C Cs,
  consistent i -> verify_statement i p = Ok q -> sk_xn (kp_secret (iss_keypair i)) = x1 :: xs ->
  pr_attributes_blinded p = C :: Cs ->
  vc_challenge pf1 mod ell <> vc_challenge pf2 mod ell -> vc_recompute pf1 q = vc_recompute pf2 q ->
  let w := vc_extract pf1 pf2 in
  let h := sp_h (iss_system_parameters i) in
  let P := pr_rerandomized_nonce p in
  C = padd (smul (vcs_m0 w) P) (smul (vcs_z0 w) h) /\
  padd (pr_rerandomized_mac_commitment p) (smul (vcs_minus_zQ w) h) =
  padd (smul (sk_x0 (kp_secret (iss_keypair i)) + dot (x1 :: xs) (pr_attributes_revealed p) + x1 * vcs_m0 w) P) (weigh xs Cs).
Proof.
  intros E L i p q pf1 pf2 x1 xs C Cs Hc Hq Hx HC Hch Hrec w h P.
  pose proof (vc_special_sound L q pf1 pf2 Hch Hrec) as R. fold w in R. clearbody w.
  assert (Hf : verify_fits i p).
  { destruct (verify_statement_cases i p) as [[H _]|[_ H]]; [exact H|]. rewrite H in Hq. discriminate. }
  destruct Hf as (HXn & _ & Hr & Hb).
  unfold consistent, key_matches in Hc. rewrite Hx in Hc. inversion Hc as [|X0 ? Xs ? HX0 HXs HXe]; subst. symmetry in HXe.
  rewrite (checked L i p _ Xs C Cs HXe HC Hr) in Hq by (rewrite <- HC; exact Hb). injection Hq as <-.
  unfold vc_relation, about in R. cbn [vcp_Cm0 vcp_P vcp_A vcp_V vcp_X0] in R. destruct R as [R1 R2]. fold h P in R1, R2.
  split; [exact R1|]. unfold remainder in R2. rewrite Hx, HC in R2. cbn [weigh] in R2. fold P in R2.
  rewrite R1 in R2. clear - L R2. revert R2.
  generalize (dot (x1 :: xs) (pr_attributes_revealed p)) as d, (weigh xs Cs) as W, (pr_rerandomized_mac_commitment p) as Q, (sk_x0 (kp_secret (iss_keypair i))) as x0.
  fold h. generalize h P (vcs_m0 w) (vcs_z0 w) (vcs_minus_zQ w). clear h P. intros h P m z y d W Q x0 H.
  apply (padd_cancel_l L (smul z (smul x1 h))).
  transitivity (padd Q (padd (smul z (smul x1 h)) (smul y h))); [clear H; pring L|]. rewrite <- H. clear H. pring L.
Qed.
Print Assumptions C108_proves.
(** And that is enough: whoever knows such values is accepted with them. *)
Theorem C108_enough : forall E, ExtLaws E -> forall (i : Issuer E) x1 xs P CQ C Cs revealed m0 z0 zQ os,
  consistent i -> sk_xn (kp_secret (iss_keypair i)) = x1 :: xs ->
  (List.length Cs <= List.length xs)%nat -> (List.length revealed <= S (List.length xs))%nat ->
  let h := sp_h (iss_system_parameters i) in
  C = padd (smul m0 P) (smul z0 h) ->
  psub CQ (smul zQ h) =
  padd (smul (sk_x0 (kp_secret (iss_keypair i)) + dot (x1 :: xs) revealed + x1 * m0) P) (weigh xs Cs) ->
  let p := stated (iss_system_parameters i) (smul x1 h) P CQ (psub (smul z0 (smul x1 h)) (smul zQ h)) (C :: Cs) revealed m0 z0 zQ os in
  issuer_verify i p = Ok {| vf_presentation := p |}.
Proof.
  intros E L i x1 xs P CQ C Cs revealed m0 z0 zQ os Hc Hx Hl Hr h HC HQ p.
  unfold consistent, key_matches in Hc. rewrite Hx in Hc. inversion Hc as [|X0 ? Xs ? HX0 HXs HXe]; subst X0. symmetry in HXe.
  apply (stated_accepted L i (smul x1 h) Xs P CQ _ C Cs revealed m0 z0 zQ os HXe); rewrite ?Hx; cbn [List.length]; try lia.
  - exact Hr.
  - unfold remainder, stated. cbn [pr_attributes_revealed pr_attributes_blinded pr_rerandomized_nonce pr_rerandomized_mac_commitment].
    rewrite Hx. cbn [weigh]. rewrite HC. clear - L HQ. revert HQ.
    generalize (dot (x1 :: xs) revealed) as d, (weigh xs Cs) as W, (sk_x0 (kp_secret (iss_keypair i))) as y0, h as h0. intros d W y0 h0 H.
    apply (padd_cancel_l L (psub CQ (smul zQ h0))). rewrite H at 2. clear H. pring L.
  - reflexivity.
  - exact HC.
Qed.
Print Assumptions C108_enough.

(** ** Examples *)
Definition two_issuer : Issuer toy := issuer_with toy sample_params [pt 231; pt 363] 5 [7; 11].
Definition two_credential : Credential toy :=
  {| cr_mac := {| tag_nonce := pt 3; tag_mac := pt ((5 + 7 * 100 + 11 * 3) * 3) |}; cr_attributes := [100; 3] |}.
Definition two_holder : User toy :=
  {| us_system_parameters := sample_params; us_issuer_parameters := {| pk_Xn := [pt 231; pt 363] |};
     us_key := None; us_credential := Some two_credential |}.
Lemma two_consistent : consistent two_issuer.
Proof. unfold consistent, key_matches. cbn. repeat constructor; apply toy_eq; vm_compute; reflexivity. Qed.
Example C108_met_presented : holds_all two_issuer two_holder two_credential [100; 3] /\
  (exists p r' os', show two_holder [4; 6] (toy_stream 8) (toy_stream 9) = Ok (p, r', os') /\
     is_err (issuer_verify two_issuer p) = true) /\
  (exists p r' os', show two_holder [4] (toy_stream 8) (toy_stream 9) = Ok (p, r', os') /\
     is_err (issuer_verify two_issuer p) = true) /\
  (exists p r' os', show two_holder [4; 0] (toy_stream 8) (toy_stream 9) = Ok (p, r', os') /\
     negb (peqb (pr_rerandomized_nonce p) pzero) && is_ok (issuer_verify two_issuer p) = true).
Proof.
  split. { split; [split; reflexivity|]. split; [reflexivity|]. split; [reflexivity|]. split; [reflexivity|].
           apply toy_eq. vm_compute. reflexivity. }
  repeat split; apply run3; vm_compute; reflexivity.
Qed.
Example C108_met_fresh : sp_h sample_params <> pzero /\ nth_error [7; 11] (List.length [4]) = Some 11 /\ 11 mod ell <> 0.
Proof.
  split; [intros H; apply (f_equal tv) in H; vm_compute in H; discriminate|]. split; [reflexivity|]. vm_compute. discriminate.
Qed.
Example C108_met_repaired : mac_equation (kp_secret (iss_keypair two_issuer)) [100; 3] (cr_mac two_credential) /\
  is_ok (issuer_verify two_issuer
    (show_many sample_params (pt 231) [pt 363] (cr_mac two_credential) 100 [3] 4 [6] 2 5 (toy_stream 9))) = true.
Proof. split; [split; [reflexivity|]; apply toy_eq; vm_compute; reflexivity|]. vm_compute. reflexivity. Qed.
Example C108_met_forged : pk_Xn (kp_public (iss_keypair two_issuer)) = [pt 231; pt 363] /\
  is_ok (issuer_verify two_issuer (forge_many sample_params (pt 231) [pt 363] 4 [6] [1; 2] 100 5 (toy_stream 9))) = true.
Proof. split; [reflexivity|]. vm_compute. reflexivity. Qed.
(** [P = 3], [C = 100 P + 4 h], [C' = 12345]: [CQ = (5 + 700) P + 11 C' + 5 h]. *)
Example C108_met_enough :
  is_ok (issuer_verify two_issuer
    (stated sample_params (pt 231) (pt 3) (pt (705 * 3 + 11 * 12345 + 5 * 33)) (pt (4 * 231 - 5 * 33))
       [pt (100 * 3 + 4 * 33); pt 12345] [] 100 4 5 (toy_stream 9))) = true /\
  psub (pt (705 * 3 + 11 * 12345 + 5 * 33)) (smul 5 (sp_h sample_params)) =
  padd (smul (5 + dot [7; 11] [] + 7 * 100) (pt 3)) (weigh [11] [pt 12345] : point toy).
Proof. split; [vm_compute; reflexivity|]. apply toy_eq; vm_compute; reflexivity. Qed.
