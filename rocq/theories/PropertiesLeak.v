(** What the seed of one call gives away (C112).  The seeds are passed by
    ffi/src/c.rs, wasm/src/js.rs and swift/Credential/Credential.swift to
    [Issuer::issue], aeonflux/src/issuer.rs:136-195, [User::show],
    aeonflux/src/user.rs:176-251, and [RosterEntryCommitment::create],
    signal-credential/src/phone_number.rs:351-363. *)
From Verif Require Import Toy Algebra IssueFacts ShowFacts SignalFacts SpecLeak SpecSeeds PropertiesIssue PropertiesShow PropertiesPhone PropertiesSignal
  PropertiesAnonymity PropertiesHistory CodecFacts CompositeFacts CreatedFacts PropertiesSeeds.
From Verif Require SpecCalls.
From Coq Require Import Lia Bool.

Section leak.
  Context {E : Ext} (L : ExtLaws E).

  Lemma unscaled (b a : Z) (B : point E) : b mod ell <> 0 -> smul (s_inv b) (smul a (smul b B)) = smul a B.
  Proof.
    intros Hb. assert (Hi : s_inv b * b == 1) by (apply s_inv_spec; intros H; apply Hb; exact H).
    rewrite <- !(smul_mul L). apply (smul_eqm L).
    transitivity (a * (s_inv b * b)); [apply eqm_of_eq; ring|]. rewrite Hi. apply eqm_of_eq. ring.
  Qed.
  Lemma divided (m x : Z) (B : point E) : m mod ell <> 0 -> smul (s_inv m) (smul (m * x) B) = smul x B.
  Proof.
    intros Hb. assert (Hi : s_inv m * m == 1) by (apply s_inv_spec; intros H; apply Hb; exact H).
    rewrite <- (smul_mul L). apply (smul_eqm L).
    transitivity (x * (s_inv m * m)); [apply eqm_of_eq; ring|]. rewrite Hi. apply eqm_of_eq. ring.
  Qed.

  Lemma key_points_right (i : Issuer E) x1 m r os iss r' os' :
    sk_xn (kp_secret (iss_keypair i)) = [x1] -> sp_g (iss_system_parameters i) = basepoint ->
    issue i {| rq_attributes_revealed := [m] |} r os = Ok (iss, r', os') ->
    m mod ell <> 0 -> fst (@drawn E "AEONFLUX ISSUANCE" r) mod ell <> 0 ->
    key_points (iss_system_parameters i) r m iss = (smul (sk_x0 (kp_secret (iss_keypair i))) basepoint, smul x1 basepoint).
  Proof.
    intros Hx Hg H Hm Hb. pose proof H as H0.
    apply (issue_inv L) in H0 as (X1 & Xs & x1' & xs & m1 & ms & tag0 & x0t0 & rand0 & H0). cbv zeta in H0.
    destruct H0 as (HX & Hx' & Hm' & Hl & _). cbn [rq_attributes_revealed] in Hm'. rewrite Hx in Hx'.
    injection Hx' as <- <-. injection Hm' as <- <-.
    destruct (issue_ok L i {| rq_attributes_revealed := [m] |} r os X1 Xs x1 [] m [] HX Hx eq_refl Hl) as (tag & x0t & H1). cbv zeta in H1.
    destruct H1 as (He & Hn & Ht & Hi). rewrite Hi in H. apply ok3 in H as [<- _]. clear Hi.
    unfold key_points, drawn in *. cbn [is_secret_key_commitment is_credential cr_mac fst snd] in *.
    change (transcript_new "AEONFLUX ISSUANCE") with issuance_transcript in *.
    change (fst (@reseed E issuance_transcript [] r)) with (@issue_csprng E r) in *.
    unfold mac_equation in He. rewrite Hx in He. destruct He as [_ He]. rewrite He, Hn. rewrite <- Ht. rewrite Hg.
    rewrite (unscaled _ _ _ Hb).
    set (x0 := sk_x0 (kp_secret (iss_keypair i))) in *. set (h := sp_h (iss_system_parameters i)).
    assert (E1 : psub (padd (smul x0 basepoint) (smul x0t h)) (smul x0t h) = smul x0 basepoint).
    { generalize (@basepoint E) h. clear - L. intros B h. pring L. }
    rewrite E1. f_equal. rewrite <- (divided m x1 basepoint Hm). f_equal.
    cbn [dot]. generalize (@basepoint E). clear - L. intros B. pring L.
  Qed.
  (** What [x0 B] and [x1 B] are good for. *)
  Lemma key_points_enough (i : Issuer E) x1 XY :
    sk_xn (kp_secret (iss_keypair i)) = [x1] ->
    XY = (smul (sk_x0 (kp_secret (iss_keypair i))) basepoint, smul x1 basepoint) ->
    forall m, valid_credential i (from_key_points XY m) m.
  Proof.
    intros Hx -> m. split; [reflexivity|]. split; [rewrite Hx; reflexivity|].
    rewrite Hx. cbn [from_key_points cr_mac tag_mac tag_nonce dot fst snd].
    generalize (@basepoint E) (sk_x0 (kp_secret (iss_keypair i))). clear - L. intros B x0. pring L.
  Qed.
End leak.

(** ** Issuing *)
(** Whoever knows the seed of one issuance, and has the issuance, can make a
    credential for every number, which passes everywhere. *)
Theorem C112_issue_refuted : forall E, ExtLaws E ->
  forall (i : Issuer E) number n r os iss r' os',
  consistent i -> single_attribute i -> sp_g (iss_system_parameters i) = basepoint ->
  try_from_bytes number = Ok n -> signal_issue i number r os = Ok (iss, r', os') ->
  fst (@drawn E "AEONFLUX ISSUANCE" r) mod ell <> 0 ->
  let params := iss_system_parameters i in
  forall m,
  let u := thief params (get_issuer_parameters i) (key_points params r n iss) m in
  valid_credential i (from_key_points (key_points params r n iss) m) m /\
  forall entry r1 os1,
    re_commitment entry = padd (smul m (sp_h params)) (smul (re_opening entry) (sp_g params)) ->
    exists p r1' os1', signal_show u r1 os1 entry = Ok (p, r1', os1') /\
      signal_verify i p = Ok {| vs_presentation := p |} /\
      verify_roster_membership i {| vs_presentation := p |} = Ok (re_commitment entry).
Proof.
  intros E L i number n r os iss r' os' Hcon Hs Hg Hn Hi Hb params m u.
  unfold signal_issue in Hi. rewrite Hn in Hi. cbn [map_err bind] in Hi.
  destruct (single_cons i Hs) as [x1 Hx].
  assert (Hn0 : n mod ell <> 0).
  { pose proof (try_from_bytes_nonzero _ _ Hn). pose proof (number_cases number) as K. rewrite Hn in K. destruct K as [_ K].
    unfold canonical in K. rewrite Z.mod_small by exact K. assumption. }
  pose proof (key_points_right L i x1 n r os iss r' os' Hx Hg Hi Hn0 Hb) as Hk. fold params in Hk.
  pose proof (key_points_enough L i x1 _ Hx Hk m) as Hv. split; [exact Hv|].
  intros entry r1 os1 He. apply (signal_presentation_accepted L i u (from_key_points (key_points params r n iss) m) m r1 os1 entry Hcon Hs); [|reflexivity|exact Hv|exact He].
  split; reflexivity.
Qed.
Print Assumptions C112_issue_refuted.

(** The nonces of two issuances, for two attributes, are enough. *)
Theorem C112_nonces_refuted : forall E, ExtLaws E ->
  forall (i : Issuer E) m1 m2 b1 b2 (t1 t2 : Tag E),
  single_attribute i ->
  mac_equation (kp_secret (iss_keypair i)) [m1] t1 -> mac_equation (kp_secret (iss_keypair i)) [m2] t2 ->
  tag_nonce t1 = smul b1 basepoint -> tag_nonce t2 = smul b2 basepoint ->
  b1 mod ell <> 0 -> b2 mod ell <> 0 -> m1 mod ell <> m2 mod ell ->
  forall m, valid_credential i (from_key_points (key_points_of_tags b1 b2 m1 m2 t1 t2) m) m.
Proof.
  intros E L i m1 m2 b1 b2 t1 t2 Hs H1 H2 Hn1 Hn2 Hb1 Hb2 Hm m.
  destruct (single_cons i Hs) as [x1 Hx]. apply (key_points_enough L i x1 _ Hx).
  unfold mac_equation in H1, H2. rewrite Hx in H1, H2. destruct H1 as [_ H1], H2 as [_ H2]. unfold key_points_of_tags. rewrite H1, H2, Hn1, Hn2.
  rewrite (unscaled L b1 _ _ Hb1), (unscaled L b2 _ _ Hb2). cbn [dot].
  set (x0 := sk_x0 (kp_secret (iss_keypair i))).
  assert (Hd : (m1 - m2) mod ell <> 0).
  { clear - Hm. unfold scalar in *. intros K. apply Hm. change (m1 == m2). transitivity ((m1 - m2) + m2); [apply eqm_of_eq; ring|].
    assert (K' : m1 - m2 == 0) by exact K. rewrite K'. apply eqm_of_eq. ring. }
  assert (HY : smul (s_inv (m1 - m2)) (psub (smul (x0 + (x1 * m1 + 0)) basepoint) (smul (x0 + (x1 * m2 + 0)) basepoint)) = smul x1 (@basepoint E)).
  { rewrite <- (divided L (m1 - m2) x1 basepoint Hd). f_equal. generalize (@basepoint E). clear - L. intros B. pring L. }
  rewrite HY. f_equal. generalize (@basepoint E). clear - L. intros B. pring L.
Qed.
Print Assumptions C112_nonces_refuted.

(** ** Showing *)
(** Whoever knows the seed of one presentation has the credential but for the
    number, and can try numbers. *)
Theorem C112_show_refuted : forall E, ExtLaws E ->
  forall (u : SignalUser E) c m X1 entry r os p r' os',
  let params := us_system_parameters (su_user u) in
  us_credential (su_user u) = Some c -> cr_attributes c = [m] -> pk_Xn (us_issuer_parameters (su_user u)) = [X1] ->
  signal_show u r os entry = Ok (p, r', os') ->
  fst (@drawn E "AEONFLUX SHOW" (snd (scalar_random r))) mod ell <> 0 ->
  stolen_tag params r p = cr_mac c /\
  (tag_nonce (cr_mac c) <> pzero -> forall m', presents params r p m' <-> m' mod ell = m mod ell) /\
  (tag_nonce (cr_mac c) <> pzero -> forall number guess,
     try_from_bytes number = Ok m -> (exists m', try_from_bytes guess = Ok m' /\ presents params r p m') <-> guess = number).
Proof.
  intros E L u c m X1 entry r os p r' os' params Hc Ha HX H Hb.
  destruct (signal_show_ok u c m [] X1 [] entry r os Hc Ha HX) as (rand & rand' & Hs). cbv zeta in Hs.
  destruct Hs as (r1 & os1 & Hs). rewrite Hs in H. apply ok3 in H as [<- _]. clear Hs.
  unfold stolen_tag, presents, drawn, blinding in *. fold params.
  change (transcript_new "AEONFLUX SHOW") with show_transcript in *.
  cbn [sc_presentation shown pr_rerandomized_nonce pr_rerandomized_mac_commitment pr_attributes_blinded fst snd] in *.
  change (fst (@reseed E show_transcript [] (snd (scalar_random r)))) with (@show_csprng E (snd (scalar_random r))) in *.
  set (rr := fst (scalar_random (@show_csprng E (snd (scalar_random r))))) in *.
  set (zQ := fst (scalar_random (snd (scalar_random (@show_csprng E (snd (scalar_random r))))))) in *.
  set (z0 := fst (scalar_random r)) in *. fold params. set (h := sp_h params) in *.
  assert (Hone : forall Q : point E, smul (s_inv rr) (smul rr Q) = Q).
  { intros Q. pose proof (unscaled L rr 1 Q Hb) as K. rewrite !smul_1 in K. exact K. }
  assert (Ht : forall m', [padd (smul m (smul rr (tag_nonce (cr_mac c)))) (smul z0 h)] = [padd (smul m' (smul rr (tag_nonce (cr_mac c)))) (smul z0 h)] <->
               padd (smul m (smul rr (tag_nonce (cr_mac c)))) (smul z0 h) = padd (smul m' (smul rr (tag_nonce (cr_mac c)))) (smul z0 h)).
  { intros m'. split; [intros K; congruence|intros ->; reflexivity]. }
  split.
  - destruct (cr_mac c) as [P Q]. cbn [tag_nonce tag_mac] in *. f_equal; [apply Hone|].
    rewrite <- (Hone Q) at 2. f_equal. generalize (smul rr Q) h zQ. clear - L. intros P' h zQ. pring L.
  - assert (Hm : tag_nonce (cr_mac c) <> pzero -> forall m',
      [padd (smul m (smul rr (tag_nonce (cr_mac c)))) (smul z0 h)] = [padd (smul m' (smul rr (tag_nonce (cr_mac c)))) (smul z0 h)] <-> m' mod ell = m mod ell).
    { intros HP m'. rewrite Ht. apply (tells L). intros K. apply HP. rewrite <- (Hone (tag_nonce (cr_mac c))), K. apply (smul_pzero L). }
    split; [exact Hm|]. intros HP number guess Hn. split.
    + intros (m' & Hg & K). apply (Hm HP) in K.
      pose proof (number_cases guess) as C1. rewrite Hg in C1. destruct C1 as [_ C1].
      pose proof (number_cases number) as C2. rewrite Hn in C2. destruct C2 as [_ C2].
      unfold canonical in *. rewrite !Z.mod_small in K by assumption. subst m'. exact (C26_bytes_injective _ _ _ Hg Hn).
    + intros ->. exists m. split; [exact Hn|]. apply (Hm HP). reflexivity.
Qed.
Print Assumptions C112_show_refuted.

(** ** Making an entry *)
(** Whoever knows the seed of an entry can try numbers. *)
Theorem C112_entry_refuted : forall E, ExtLaws E ->
  forall (params : SystemParameters E) number r entry r',
  sp_h params <> pzero -> roster_create number params r = Ok (entry, r') ->
  forall guess, (exists entry' r'', roster_create guess params r = Ok (entry', r'') /\ re_commitment entry' = re_commitment entry) <-> guess = number.
Proof.
  intros E L params number r entry r' Hh H guess. split.
  - intros (entry' & r'' & H' & HR).
    pose proof (entry_made _ _ _ _ _ H) as (n & Hn & Ho & HC). pose proof (entry_made _ _ _ _ _ H') as (n' & Hn' & Ho' & HC').
    assert (K : roster_open entry number params = Ok tt) by (apply (C29_open_exactly E L _ _ n params Hn); rewrite Ho; exact HC).
    assert (K' : roster_open entry guess params = Ok tt).
    { apply (C29_open_exactly E L _ _ n' params Hn'). rewrite Ho, <- HR. exact HC'. }
    exact (C29_one_number E L entry guess number params Hh K' K).
  - intros ->. exists entry, r'. auto.
Qed.
Print Assumptions C112_entry_refuted.

(** ** Bytes *)
(** The same from the results of the C, JavaScript and Swift functions ([gives] of
    C87): parameters, an issuer and one issuance are made; who has the parameters,
    the public key, this issuance and its seed computes the bytes of a user for any
    number, whose presentations pass. *)
Theorem C112_bytes_refuted : forall E, ExtLaws E ->
  forall fuel os1 os2 os3 os4 os5 os6 params keypair issuer keys issuance entry seed1 seed2 seed3 seed4 number target os1' os2' os3' os4' os5' os6',
  SpecCalls.gives E fuel os1 (SpecCalls.MakeParameters seed1) params os1' ->
  SpecCalls.gives E fuel os2 (SpecCalls.MakeKeypair params seed2) keypair os2' ->
  SpecCalls.gives E fuel os3 (SpecCalls.MakeIssuer params keypair) issuer os3' ->
  SpecCalls.gives E fuel os4 (SpecCalls.GetParameters issuer) keys os4' ->
  SpecCalls.gives E fuel os5 (SpecCalls.Issue issuer number seed3) issuance os5' ->
  SpecCalls.gives E fuel os6 (SpecCalls.MakeEntry target params seed4) entry os6' ->
  fst (@drawn E "AEONFLUX ISSUANCE" (@chacha E seed3)) mod ell <> 0 ->
  exists user, @thief_bytes E params keys issuance seed3 number target = Some user /\
  forall os seed, exists presentation os' commitment,
    SpecCalls.gives E fuel os (SpecCalls.Show user entry seed) presentation os' /\
    (forall os, SpecCalls.gives E fuel os (SpecCalls.Verify issuer presentation) presentation os) /\
    (forall os, SpecCalls.gives E fuel os (SpecCalls.VerifyRoster issuer presentation) commitment os) /\
    (forall os, SpecCalls.gives E fuel os (SpecCalls.RemoveOpening entry) commitment os).
Proof.
  intros E L fuel os1 os2 os3 os4 os5 os6 pb kb ib ipb ser eb seed1 seed2 seed3 seed4 number target os1' os2' os3' os4' os5' os6'
    (params & rest1 & Hp & -> & _) (params2 & Hp2 & -> & _) (params3 & keys3 & Hp3 & Hk3 & -> & _) (i4 & Hi4 & -> & _)
    (i5 & iss & rest5 & Hi5 & Hiss & ->) (params6 & en & rest6 & Hp6 & Hen & -> & _) Hb.
  rewrite (C33_system_parameters E L) in Hp2, Hp3, Hp6.
  assert (params2 = params) by congruence. assert (params3 = params) by congruence. assert (params6 = params) by congruence. subst params2 params3 params6.
  clear Hp2 Hp3 Hp6. pose proof (new_issuer L params (@chacha E seed2)) as Hok.
  set (i := fst (signal_issuer_create params (@chacha E seed2))) in *. pose proof Hok as (Hpar & Hcon & Hs & Hw).
  rewrite (proj2 (C33_keypair E L _) (proj1 Hw)) in Hk3. assert (keys3 = iss_keypair i) by congruence. subst keys3. clear Hk3.
  assert (Hi : signal_issuer_new params (iss_keypair i) = i) by (rewrite <- Hpar; destruct i; reflexivity).
  rewrite Hi in *. assert (Hdec : @signal_issuer_from_bytes E (signal_issuer_to_bytes i) = Ok i) by (apply (C33_issuer E L); exact Hw).
  assert (i4 = i) by congruence. assert (i5 = i) by congruence. subst i4 i5. clear Hi4 Hi5.
  destruct (C44_h_is_not_g E L fuel _ _ _ Hp) as [Hg _]. rewrite <- Hpar in Hg.
  pose proof (entry_made _ _ _ _ _ Hen) as (m & Hm & Ho & HC). rewrite <- Ho in HC.
  pose proof (created_entry _ _ _ _ _ Hen) as Hoc.
  pose proof Hiss as Hiss0. unfold signal_issue in Hiss0. apply bind_ok in Hiss0 as (n & Hn & Hiss0).
  assert (Hn' : try_from_bytes number = Ok n) by (destruct (try_from_bytes number); cbn in Hn; congruence). clear Hn. rename Hn' into Hn.
  assert (Hcn : canonical n) by (pose proof (number_cases number) as K; rewrite Hn in K; apply K).
  assert (Hcm : canonical m) by (pose proof (number_cases target) as K; rewrite Hm in K; apply K).
  assert (Hwi : wf_issuance iss).
  { destruct (created_issuance L i _ _ _ _ _ _ Hiss0) as [K _]; [reflexivity|constructor; [exact Hcn|constructor]|]. apply wf_issuance_iff. exact K. }
  destruct (C112_issue_refuted E L i number n _ _ iss _ _ Hcon Hs Hg Hn Hiss Hb m) as [Hv Hacc]. rewrite Hpar in Hacc, Hv.
  set (u := thief params (get_issuer_parameters i) (key_points params (chacha seed3) n iss) m) in *.
  exists (signal_user_to_bytes u). split.
  { unfold thief_bytes. rewrite (C33_system_parameters E L), (C33_public_key E L), (proj2 (C33_issuance E L iss) Hwi), Hn, Hm. reflexivity. }
  destruct (single_cons i Hs) as [x1 Hx]. pose proof (consistent_single i x1 Hcon Hx) as HX.
  assert (Hu : @signal_user_from_bytes E (signal_user_to_bytes u) = Ok u).
  { apply (C33_signal_user E L). split; [|apply canonical_bits; exact Hcm]. split; [eexists; exact HX|]. split; [discriminate|].
    intros c Hc. cbn [u thief su_user us_credential] in Hc. injection Hc as <-. split; [exists m; split; [exact Hcm|reflexivity]|].
    cbn [from_key_points cr_mac tag_nonce cr_attributes]. intros (K & _ & _). exact (basepoint_nonzero E L K). }
  intros os seed. destruct (Hacc en (@chacha E seed) os HC) as (p & r1 & os1'' & Hsh & Hve & Hme).
  pose proof (created_presentation L u _ _ _ _ _ _ _ Hsh HX) as Hpw. apply wf_signal_presentation_iff in Hpw.
  exists (signal_presentation_to_bytes p), os1'', (committed_to_bytes (re_commitment en)). split; [|split; [|split]].
  - exists u, en, p, r1. split; [exact Hu|]. split; [apply (C33_roster E L), canonical_bits, Hoc|]. split; [exact Hsh|reflexivity].
  - intros os'. exists i, p, {| vs_presentation := p |}. split; [exact Hdec|]. split; [apply (C33_signal_presentation E L), Hpw|].
    split; [exact Hve|]. split; reflexivity.
  - intros os'. exists i, {| vs_presentation := p |}, (re_commitment en). split; [exact Hdec|].
    split; [apply (proj2 (C33_verified E L {| vf_presentation := sc_presentation p |} {| vs_presentation := p |})); exact Hpw|].
    split; [exact Hme|]. split; reflexivity.
  - intros os'. exists en. split; [apply (C33_roster E L), canonical_bits, Hoc|]. split; reflexivity.
Qed.
Print Assumptions C112_bytes_refuted.

(** ** The hypotheses are met *)
Definition sample_issued : bool :=
  match signal_issue sample_issuer (str "14155551234") (toy_stream 1) (toy_stream 2) with Ok _ => true | _ => false end.
Example C112_met_issue :
  consistent sample_issuer /\ single_attribute sample_issuer /\ sp_g (iss_system_parameters sample_issuer) = basepoint /\
  sample_issued = true /\ fst (@drawn toy "AEONFLUX ISSUANCE" (toy_stream 1)) mod ell <> 0.
Proof.
  split; [exact (proj1 sample_consistent)|]. split; [reflexivity|]. split; [apply toy_eq; vm_compute; reflexivity|].
  split; [vm_compute; reflexivity|]. intros H. vm_compute in H. discriminate.
Qed.
(** Two tags under the key 5, 7, for 100 and 200. *)
Example C112_met_nonces :
  let k := kp_secret (iss_keypair sample_issuer) in
  mac_equation k [100] {| tag_nonce := pt 3; tag_mac := pt ((5 + 7 * 100) * 3) |} /\
  mac_equation k [200] {| tag_nonce := pt 4; tag_mac := pt ((5 + 7 * 200) * 4) |} /\
  pt 3 = smul 3 (@basepoint toy) /\ pt 4 = smul 4 (@basepoint toy) /\ 3 mod ell <> 0 /\ 4 mod ell <> 0 /\ 100 mod ell <> 200 mod ell.
Proof.
  split; [split; [reflexivity|apply toy_eq; vm_compute; reflexivity]|].
  split; [split; [reflexivity|apply toy_eq; vm_compute; reflexivity]|].
  split; [apply toy_eq; vm_compute; reflexivity|]. split; [apply toy_eq; vm_compute; reflexivity|].
  split; [intros H; vm_compute in H; discriminate|]. split; intros H; vm_compute in H; discriminate.
Qed.
Definition sample_shown_with : bool :=
  match signal_show sample_signal_holder (toy_stream 8) (toy_stream 9) (sample_entry 100) with Ok _ => true | _ => false end.
Example C112_met_show : sample_shown_with = true /\
  fst (@drawn toy "AEONFLUX SHOW" (snd (scalar_random (toy_stream 8)))) mod ell <> 0 /\
  option_map (fun c => bytes_eqb (compress (tag_nonce (cr_mac c))) (compress (@pzero toy))) (us_credential (su_user sample_signal_holder)) = Some false.
Proof. split; [vm_compute; reflexivity|]. split; [intros H; vm_compute in H; discriminate|]. vm_compute. reflexivity. Qed.
(** An entry, and two numbers tried for it. *)
Definition sample_tried (guess : bytes) : bool :=
  match roster_create (str "14155551234") sample_params (toy_stream 1), roster_create guess sample_params (toy_stream 1) with
  | Ok (entry, _), Ok (entry', _) => bytes_eqb (compress (re_commitment entry)) (compress (re_commitment entry'))
  | _, _ => false
  end.
Example C112_met_entry : sp_h sample_params <> pzero /\ sample_tried (str "14155551234") = true /\ sample_tried (str "33612345678") = false.
Proof.
  split; [intros H; apply (f_equal tv) in H; vm_compute in H; discriminate|]. split; vm_compute; reflexivity.
Qed.
(** The calls of C112_bytes_refuted, in the order in which they are made. *)
Example C112_met_bytes : exists params keypair issuer keys issuance entry os',
  SpecCalls.gives toy 4 (toy_stream 1) (SpecCalls.MakeParameters (zeros 32)) params (toy_stream 1) /\
  SpecCalls.gives toy 4 (toy_stream 1) (SpecCalls.MakeKeypair params (zeros 32)) keypair (toy_stream 1) /\
  SpecCalls.gives toy 4 (toy_stream 1) (SpecCalls.MakeIssuer params keypair) issuer (toy_stream 1) /\
  SpecCalls.gives toy 4 (toy_stream 1) (SpecCalls.GetParameters issuer) keys (toy_stream 1) /\
  SpecCalls.gives toy 4 (toy_stream 1) (SpecCalls.Issue issuer (str "14155551234") (repeat x01 32)) issuance os' /\
  SpecCalls.gives toy 4 (toy_stream 1) (SpecCalls.MakeEntry (str "33612345678") params (repeat x02 32)) entry (toy_stream 1) /\
  fst (@drawn toy "AEONFLUX ISSUANCE" (@chacha toy (repeat x01 32))) mod ell <> 0.
Proof.
  destruct (@hunt_and_peck toy 4 (@chacha toy (zeros 32))) as [[params rest]|] eqn:Hp.
  2:{ exfalso. assert (K : match @hunt_and_peck toy 4 (@chacha toy (zeros 32)) with Some _ => true | None => false end = true) by (vm_compute; reflexivity).
      rewrite Hp in K. discriminate. }
  pose proof (new_issuer toy_laws params (@chacha toy (zeros 32))) as Hok.
  set (i := fst (signal_issuer_create params (@chacha toy (zeros 32)))) in *. pose proof Hok as (Hpar & Hcon & Hs & Hw).
  assert (Hi : signal_issuer_new params (iss_keypair i) = i) by (rewrite <- Hpar; destruct i; reflexivity).
  assert (Hdec : @signal_issuer_from_bytes toy (signal_issuer_to_bytes i) = Ok i) by (apply (C33_issuer toy toy_laws); exact Hw).
  assert (Hpd : system_parameters_from_bytes (system_parameters_to_bytes params) = Ok params) by apply (C33_system_parameters toy toy_laws).
  destruct (try_from_bytes (str "14155551234")) as [n| |] eqn:Hn; [|exfalso..].
  2,3: assert (K : is_ok (try_from_bytes (str "14155551234")) = true) by (vm_compute; reflexivity); rewrite Hn in K; discriminate.
  destruct (issue_result toy_laws params i n (@chacha toy (repeat x01 32)) (toy_stream 1) Hok) as (iss & r' & os' & Hq & _).
  { pose proof (number_cases (str "14155551234")) as K; rewrite Hn in K; apply K. }
  destruct (C29_create_opens toy toy_laws (str "33612345678") params (@chacha toy (repeat x02 32))) as (en & r2 & Hen & _); [cbn; lia|].
  exists (system_parameters_to_bytes params), (keypair_to_bytes (iss_keypair i)), (signal_issuer_to_bytes i),
    (public_key_to_bytes (get_issuer_parameters i)), (issuance_to_bytes iss), (roster_to_bytes en), os'.
  split; [exists params, rest; auto|]. split; [exists params; auto|].
  split; [exists params, (iss_keypair i); rewrite Hi; split; [exact Hpd|]; split; [apply (C33_keypair toy toy_laws), Hw|]; split; reflexivity|].
  split; [exists i; auto|]. split; [exists i, iss, r'; split; [exact Hdec|]; split; [|reflexivity]; unfold signal_issue; rewrite Hn; exact Hq|].
  split; [exists params, en, r2; auto|]. intros H. vm_compute in H. discriminate.
Qed.
