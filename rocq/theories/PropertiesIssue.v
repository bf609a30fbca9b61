(** Properties of issuance: aeonflux/src/issuer.rs, user.rs and
    signal-credential/src/user.rs (C09 - C15). *)
From Verif Require Import MacFacts IssueFacts ShowFacts SignalFacts Toy.
Local Open Scope string_scope.

(** ** C09: issue succeeds exactly when key and attributes fit *)
Theorem C09_issue_outcomes : forall E, ExtLaws E -> forall (i : Issuer E) rq r os,
  let Xn := pk_Xn (kp_public (iss_keypair i)) in
  let xn := sk_xn (kp_secret (iss_keypair i)) in
  let ms := rq_attributes_revealed rq in
  (Xn = [] /\ issue i rq r os = Err NoIssuerParameters) \/
  (Xn <> [] /\ xn = [] /\ issue i rq r os = Err NoIssuerKey) \/
  (Xn <> [] /\ xn <> [] /\ List.length ms <> List.length xn /\ issue i rq r os = Err MacCreation) \/
  (Xn <> [] /\ xn <> [] /\ List.length ms = List.length xn /\
   exists iss r' os', issue i rq r os = Ok (iss, r', os') /\
     cr_attributes (is_credential iss) = ms /\
     mac_equation (kp_secret (iss_keypair i)) ms (cr_mac (is_credential iss))).
Proof.
  intros E L i rq r os Xn xn ms.
  destruct Xn as [|X1 Xs] eqn:HX; [left; split; [reflexivity|apply issue_no_parameters; exact HX]|].
  right. destruct xn as [|x1 xs] eqn:Hx.
  { left. split; [discriminate|]. split; [reflexivity|]. apply issue_no_key; [|exact Hx]. fold Xn. rewrite HX. discriminate. }
  right. destruct (Nat.eq_dec (List.length ms) (List.length (x1 :: xs))) as [Hl|Hl].
  - right. split; [discriminate|]. split; [discriminate|]. split; [exact Hl|].
    destruct ms as [|m1 ms'] eqn:Hm; [discriminate|].
    destruct (issue_ok L i rq r os X1 Xs x1 xs m1 ms' HX Hx Hm ltac:(cbn in Hl; lia)) as (tag & x0t & H).
    cbv zeta in H. destruct H as (He & _ & _ & H). eexists _, _, _. split; [exact H|]. split; [reflexivity|exact He].
  - left. split; [discriminate|]. split; [discriminate|]. split; [exact Hl|].
    apply issue_bad_length; fold Xn xn ms; rewrite ?HX, ?Hx; try discriminate. exact Hl.
Qed.
Print Assumptions C09_issue_outcomes.
Theorem C09_issue_never_panics : forall E, ExtLaws E -> forall (i : Issuer E) rq r os,
  issue i rq r os <> Panic.
Proof. intros E L. exact (issue_no_panic L). Qed.
Print Assumptions C09_issue_never_panics.

Definition issuer_with (E : Ext) params (X : list (point E)) x0 xn : Issuer E :=
  {| iss_system_parameters := params;
     iss_keypair := {| kp_public := {| pk_Xn := X |}; kp_secret := {| sk_x0 := x0; sk_xn := xn |} |} |}.
Definition sample_params : SystemParameters toy := {| sp_g := pt 1; sp_h := pt 33 |}.
Definition sample_issuer : Issuer toy := issuer_with toy sample_params [pt 231] 5 [7].
Definition sample_user : User toy :=
  {| us_system_parameters := sample_params; us_issuer_parameters := {| pk_Xn := [pt 231] |};
     us_key := None; us_credential := None |}.
Definition request m : CredentialRequest := {| rq_attributes_revealed := m |}.
Example C09_met :
  issue (issuer_with toy sample_params [] 5 [7]) (request [1]) (toy_stream 1) (toy_stream 2) = Err NoIssuerParameters /\
  issue (issuer_with toy sample_params [pt 1] 5 []) (request [1]) (toy_stream 1) (toy_stream 2) = Err NoIssuerKey /\
  issue sample_issuer (request [1; 2]) (toy_stream 1) (toy_stream 2) = Err MacCreation /\
  exists x, issue sample_issuer (request [1]) (toy_stream 1) (toy_stream 2) = Ok x.
Proof. repeat (split; [reflexivity|]). eexists. reflexivity. Qed.
Lemma sample_consistent : consistent sample_issuer /\ single_attribute sample_issuer.
Proof. split; [constructor; [apply toy_eq; vm_compute; reflexivity|constructor]|reflexivity]. Qed.
Lemma sample_user_of : user_of sample_issuer sample_user.
Proof. split; reflexivity. Qed.

(** ** C10: honest issuances are accepted and stored *)
Theorem C10_honest_issuance_accepted : forall E, ExtLaws E ->
  forall (i : Issuer E) (u : User E) m r os,
  consistent i -> single_attribute i -> user_of i u ->
  exists iss r' os',
    issue i {| rq_attributes_revealed := [m] |} r os = Ok (iss, r', os') /\
    valid_credential i (is_credential iss) m /\
    obtain_finish u (Some iss) =
      ({| us_system_parameters := us_system_parameters u; us_issuer_parameters := us_issuer_parameters u;
          us_key := us_key u; us_credential := Some (is_credential iss) |}, Ok tt).
Proof.
  intros E L i u m r os Hc Hs Hu.
  destruct (C09_issue_outcomes E L i {| rq_attributes_revealed := [m] |} r os) as [[H _]|[(_ & H & _)|[(_ & _ & H & _)|H]]];
    cbv zeta in H; cbn [rq_attributes_revealed] in H.
  - apply consistent_length in Hc. rewrite Hs, H in Hc. discriminate.
  - unfold single_attribute in Hs. rewrite H in Hs. discriminate.
  - unfold single_attribute in Hs. rewrite Hs in H. elim H; reflexivity.
  - destruct H as (_ & _ & _ & iss & r' & os' & H & Ha & He). exists iss, r', os'.
    split; [exact H|]. split; [split; assumption|].
    apply obtain_finish_accept. exact (issuance_accepted L i u _ r os iss r' os' Hc Hs Hu H).
Qed.
Print Assumptions C10_honest_issuance_accepted.
Example C10_met : consistent sample_issuer /\ single_attribute sample_issuer /\ user_of sample_issuer sample_user.
Proof. split; [apply sample_consistent|]. split; [apply sample_consistent|apply sample_user_of]. Qed.
Example C10_met_run : exists iss r' os',
  issue sample_issuer (request [100]) (toy_stream 1) (toy_stream 2) = Ok (iss, r', os') /\
  negb (ir_challenge (is_proof iss) =? 0)%Z && is_ok (snd (obtain_finish sample_user (Some iss))) = true.
Proof. apply run3. vm_compute. reflexivity. Qed.

(** ** C11: accepted issuance proofs are sound *)
Theorem C11_issuance_sound : forall E, ExtLaws E ->
  forall (params : SystemParameters E) X1 (iss : CredentialIssuance E) pf1 pf2,
  let q := issuance_publics params X1 iss in
  ir_challenge pf1 mod ell <> ir_challenge pf2 mod ell ->
  ir_recompute pf1 q = ir_recompute pf2 q ->
  let w := ir_extract pf1 pf2 in
  let t := cr_mac (is_credential iss) in
  tag_mac t = smul (irs_x0 w + irs_m1x1 w) (tag_nonce t) /\
  is_secret_key_commitment iss = padd (smul (irs_x0 w) (sp_g params)) (smul (irs_x0_tilde w) (sp_h params)) /\
  X1 = smul (irs_x1 w) (sp_h params).
Proof.
  intros E L params X1 iss pf1 pf2 q Hch Hrec w t.
  destruct (ir_special_sound L q pf1 pf2 Hch Hrec) as (H1 & H2 & H3). fold w in H1, H2, H3.
  clearbody w. unfold q, issuance_publics in H1, H2, H3. cbn in H1, H2, H3. fold t in H1. 
  split; [|split; assumption]. rewrite H1. clear - L. generalize (tag_nonce t). intros P. symmetry. apply (smul_add L).
Qed.
Print Assumptions C11_issuance_sound.
(** What [obtain_finish] hashes for an issuance. *)
Definition issuance_hashed {E : Ext} (params : SystemParameters E) X1 (iss : CredentialIssuance E) : transcript :=
  extend issuance_transcript
    (ir_messages (issuance_publics params X1 iss) (ir_recompute (is_proof iss) (issuance_publics params X1 iss))).
Theorem C11_acceptance : forall E, ExtLaws E -> forall (u : User E) X1 Xs iss,
  pk_Xn (us_issuer_parameters u) = X1 :: Xs ->
  (snd (obtain_finish u (Some iss)) = Ok tt <->
   ir_challenge (is_proof iss) = @challenge_of E (issuance_hashed (us_system_parameters u) X1 iss)).
Proof.
  intros E L u X1 Xs iss HX. rewrite obtain_finish_ok. split.
  - intros (Y & Ys & HY & H). rewrite HX in HY. injection HY as <- <-. apply ir_verify_iff in H. exact H.
  - intros H. exists X1, Xs. split; [exact HX|]. apply ir_verify_iff. exact H.
Qed.
Print Assumptions C11_acceptance.
(** Two issuances that are accepted for two challenge functions [f1], [f2]
    which answer the one transcript hashed differently: they carry the same
    values, and a witness is computed. *)
Theorem C11_rewinding : forall E, ExtLaws E ->
  forall (params : SystemParameters E) X1 (iss1 iss2 : CredentialIssuance E) (f1 f2 : transcript -> scalar),
  let T1 := issuance_hashed params X1 iss1 in
  let T2 := issuance_hashed params X1 iss2 in
  ir_challenge (is_proof iss1) = f1 T1 -> ir_challenge (is_proof iss2) = f2 T2 ->
  T1 = T2 -> f1 T1 mod ell <> f2 T1 mod ell ->
  let w := ir_extract (is_proof iss1) (is_proof iss2) in
  let t := cr_mac (is_credential iss1) in
  cr_mac (is_credential iss2) = t /\ is_secret_key_commitment iss2 = is_secret_key_commitment iss1 /\
  tag_mac t = smul (irs_x0 w + irs_m1x1 w) (tag_nonce t) /\
  is_secret_key_commitment iss1 = padd (smul (irs_x0 w) (sp_g params)) (smul (irs_x0_tilde w) (sp_h params)) /\
  X1 = smul (irs_x1 w) (sp_h params).
Proof.
  intros E L params X1 iss1 iss2 f1 f2 T1 T2 H1 H2 HT Hf w t.
  pose proof HT as HT'. apply (ir_transcript_inj L) in HT' as (_ & Hq & Hc).
  assert (Ht : cr_mac (is_credential iss2) = t /\ is_secret_key_commitment iss2 = is_secret_key_commitment iss1).
  { pose proof (f_equal irp_P Hq) as HP. pose proof (f_equal irp_Q Hq) as HQ. pose proof (f_equal irp_Cx0 Hq) as HC.
    cbn in HP, HQ, HC. split; [|symmetry; exact HC]. unfold t.
    destruct (cr_mac (is_credential iss1)), (cr_mac (is_credential iss2)). cbn in *. congruence. }
  split; [apply Ht|]. split; [apply Ht|]. rewrite <- Hq in Hc.
  apply (C11_issuance_sound E L params X1 iss1 (is_proof iss1) (is_proof iss2)); [|exact Hc].
  rewrite H1, H2, <- HT. exact Hf.
Qed.
Print Assumptions C11_rewinding.
Definition sample_proof (c : Z) : ir_Proof :=
  {| ir_challenge := c;
     ir_responses := {| irs_x0 := 5 * c + 1; irs_x1 := 7 * c + 2; irs_x0_tilde := 9 * c + 3; irs_m1x1 := 700 * c + 4 |} |}.
Definition sample_issuance (c : Z) : CredentialIssuance toy :=
  {| is_secret_key_commitment := pt (5 + 9 * 33);
     is_credential := {| cr_mac := {| tag_nonce := pt 3; tag_mac := pt (705 * 3) |}; cr_attributes := [100] |};
     is_proof := sample_proof c |}.
Example C11_met : 7 mod ell <> 11 mod ell /\
  ir_recompute (sample_proof 7) (issuance_publics sample_params (pt 231) (sample_issuance 7)) =
  ir_recompute (sample_proof 11) (issuance_publics sample_params (pt 231) (sample_issuance 11)).
Proof. split; [vm_compute; discriminate|unfold ir_recompute; f_equal; apply toy_eq; vm_compute; reflexivity]. Qed.
Example C11_met_rewinding :
  issuance_hashed sample_params (pt 231) (sample_issuance 7) =
  issuance_hashed sample_params (pt 231) (sample_issuance 11).
Proof.
  unfold issuance_hashed. cbn [is_proof sample_issuance]. rewrite (proj2 C11_met). reflexivity.
Qed.

(** ** C12: what is stored need not be a MAC on the stored attributes *)
Theorem C12_attributes_ignored_refuted : forall E, ExtLaws E -> forall (u : User E) iss ms',
  let iss' := {| is_secret_key_commitment := is_secret_key_commitment iss;
                 is_credential := {| cr_mac := cr_mac (is_credential iss); cr_attributes := ms' |};
                 is_proof := is_proof iss |} in
  snd (obtain_finish u (Some iss')) = snd (obtain_finish u (Some iss)) /\
  (snd (obtain_finish u (Some iss)) = Ok tt ->
   option_map (@cr_attributes E) (us_credential (fst (obtain_finish u (Some iss')))) = Some ms').
Proof.
  intros E L u iss ms' iss'.
  assert (H : snd (obtain_finish u (Some iss')) = snd (obtain_finish u (Some iss))).
  { unfold obtain_finish. destruct (nth_error _ 0); [|reflexivity]. cbn [is_proof is_credential cr_mac is_secret_key_commitment iss'].
    destruct (ir_verify _ _ _); reflexivity. }
  split; [exact H|]. intros Hok. rewrite obtain_finish_accept by (rewrite H; exact Hok). reflexivity.
Qed.
Print Assumptions C12_attributes_ignored_refuted.
Theorem C12_invalid_credential_stored_refuted : forall E, ExtLaws E ->
  forall (i : Issuer E) (u : User E) x1 m m' r os,
  consistent i -> sk_xn (kp_secret (iss_keypair i)) = [x1] -> user_of i u ->
  x1 mod ell <> 0 -> m mod ell <> m' mod ell ->
  exists iss r' os', issue i {| rq_attributes_revealed := [m] |} r os = Ok (iss, r', os') /\
    let c' := {| cr_mac := cr_mac (is_credential iss); cr_attributes := [m'] |} in
    let iss' := {| is_secret_key_commitment := is_secret_key_commitment iss;
                   is_credential := c'; is_proof := is_proof iss |} in
    snd (obtain_finish u (Some iss')) = Ok tt /\
    us_credential (fst (obtain_finish u (Some iss'))) = Some c' /\
    (tag_nonce (cr_mac c') <> pzero -> ~ valid_credential i c' m').
Proof.
  intros E L i u x1 m m' r os Hc Hx Hu Hx0 Hm.
  assert (Hs : single_attribute i) by (unfold single_attribute; rewrite Hx; reflexivity).
  destruct (C10_honest_issuance_accepted E L i u m r os Hc Hs Hu) as (iss & r' & os' & H1 & [Ha He] & H2).
  exists iss, r', os'. split; [exact H1|]. intros c' iss'.
  destruct (C12_attributes_ignored_refuted E L u iss [m']) as [H3 _]. cbv zeta in H3. fold c' in H3. fold iss' in H3.
  rewrite H2 in H3. cbn [snd] in H3. split; [exact H3|]. split.
  - rewrite obtain_finish_accept by exact H3. reflexivity.
  - intros Hn [_ [_ He']]. destruct He as [_ He]. rewrite Hx in He, He'. cbn [dot cr_mac c'] in *.
    rewrite He in He'. apply (smul_inj L) in He'; [|exact Hn]. apply Hm.
    apply (eqm_mul_cancel m m' x1).
    { intros K. apply Hx0. unfold Algebra.eqm in K. rewrite K. apply Z.mod_0_l. pose proof ell_pos; lia. }
    apply eqm_sub_0 in He'. apply eqm_sub_0. rewrite <- He'. apply eqm_of_eq; zring.
Qed.
Print Assumptions C12_invalid_credential_stored_refuted.
Example C12_met : consistent sample_issuer /\ user_of sample_issuer sample_user /\
  7 mod ell <> 0 /\ 100 mod ell <> 666 mod ell /\
  exists iss r' os', issue sample_issuer (request [100]) (toy_stream 1) (toy_stream 2) = Ok (iss, r', os') /\
    negb (peqb (tag_nonce (cr_mac (is_credential iss))) pzero) = true.
Proof.
  split; [apply sample_consistent|]. split; [apply sample_user_of|]. do 2 (split; [vm_compute; discriminate|]).
  apply run3. vm_compute. reflexivity.
Qed.

(** ** C13: a credential for another number is stored *)
Theorem C13_other_number_stored_refuted : forall E, ExtLaws E ->
  forall (i : Issuer E) (u : SignalUser E) number n r os,
  consistent i -> single_attribute i -> user_of i (su_user u) ->
  try_from_bytes number = Ok n ->
  exists iss r' os', signal_issue i number r os = Ok (iss, r', os') /\
    snd (signal_obtain_finish u (Some iss)) = Ok tt /\
    su_phone_number (fst (signal_obtain_finish u (Some iss))) = su_phone_number u /\
    option_map (@cr_attributes E) (us_credential (su_user (fst (signal_obtain_finish u (Some iss))))) = Some [n].
Proof.
  intros E L i u number n r os Hc Hs Hu Hn.
  destruct (C10_honest_issuance_accepted E L i (su_user u) n r os Hc Hs Hu) as (iss & r' & os' & H1 & [Ha He] & H2).
  exists iss, r', os'. unfold signal_issue, signal_obtain_finish. rewrite Hn, H2. cbn [map_err bind fst snd su_user su_phone_number us_credential option_map].
  split; [exact H1|]. split; [reflexivity|]. split; [reflexivity|]. f_equal. exact Ha.
Qed.
Print Assumptions C13_other_number_stored_refuted.
(** The user has the number 123; the issuer certifies 999. *)
Example C13_met : exists u : SignalUser toy, exists n,
  signal_user_new sample_params (kp_public (iss_keypair sample_issuer)) None (str "123") = Ok u /\
  user_of sample_issuer (su_user u) /\
  try_from_bytes (str "999") = Ok n /\ su_phone_number u <> n.
Proof.
  eexists _, _. split; [reflexivity|]. split; [split; reflexivity|]. split; [reflexivity|].
  vm_compute. discriminate.
Qed.

(** ** C14: the issuer can use another x0 for each user *)
Definition with_x0 {E : Ext} (i : Issuer E) (x0' : scalar) : Issuer E :=
  {| iss_system_parameters := iss_system_parameters i;
     iss_keypair := {| kp_public := kp_public (iss_keypair i);
                       kp_secret := {| sk_x0 := x0'; sk_xn := sk_xn (kp_secret (iss_keypair i)) |} |} |}.
Theorem C14_other_x0_accepted_refuted : forall E, ExtLaws E ->
  forall (i : Issuer E) (u : User E) x0' m r os,
  consistent i -> single_attribute i -> user_of i u ->
  exists iss r' os',
    issue (with_x0 i x0') {| rq_attributes_revealed := [m] |} r os = Ok (iss, r', os') /\
    snd (obtain_finish u (Some iss)) = Ok tt /\
    us_credential (fst (obtain_finish u (Some iss))) = Some (is_credential iss) /\
    valid_credential (with_x0 i x0') (is_credential iss) m.
Proof.
  intros E L i u x0' m r os Hc Hs Hu.
  destruct (C10_honest_issuance_accepted E L (with_x0 i x0') u m r os Hc Hs Hu) as (iss & r' & os' & H1 & Hv & H2).
  exists iss, r', os'. rewrite H2. auto.
Qed.
Print Assumptions C14_other_x0_accepted_refuted.
(** The two keys tell the users apart: a presentation made with such a
    credential is accepted under [x0'] and not under [x0]. *)
Theorem C14_users_linkable_refuted : forall E, ExtLaws E ->
  forall (i : Issuer E) (u : User E) c x0' x1 m z0 r os,
  consistent i -> sk_xn (kp_secret (iss_keypair i)) = [x1] -> user_of i u ->
  us_credential u = Some c -> valid_credential (with_x0 i x0') c m ->
  sk_x0 (kp_secret (iss_keypair i)) mod ell <> x0' mod ell ->
  let params := iss_system_parameters i in
  let X1 := smul x1 (sp_h params) in
  let rr := fst (scalar_random (@show_csprng E r)) in
  let zQ := fst (scalar_random (snd (scalar_random (@show_csprng E r)))) in
  exists p r' os' rand,
    show u [z0] r os = Ok (p, r', os') /\
    p = shown params X1 c m z0 rr zQ rand /\
    issuer_verify (with_x0 i x0') p = Ok {| vf_presentation := p |} /\
    (issuer_verify i p = Err MacVerification \/
     pr_rerandomized_nonce p = pzero \/ vc_challenge (pr_proof p) = 0 \/
     let q' := shown_publics params X1 c m z0 rr zQ in
     let q := presentation_publics params X1 (sk_x0 (kp_secret (iss_keypair i))) x1
                (pr_rerandomized_nonce p) (pr_rerandomized_mac_commitment p) (vcp_Cm0 q') in
     @challenge_collision E (extend show_transcript (vc_messages q' (vc_image q' rand)))
       (extend show_transcript (vc_messages q (vc_recompute (pr_proof p) q)))).
Proof.
  intros E L i u c x0' x1 m z0 r os Hc Hx [Hp Hk] Hcr [Ha He] Hne params X1 rr zQ.
  pose proof (consistent_single i x1 Hc Hx) as HX. fold params in HX. fold X1 in HX.
  assert (HX' : pk_Xn (us_issuer_parameters u) = [X1]) by (rewrite Hk; exact HX).
  pose proof (show_ok u c m [] X1 [] z0 r os Hcr Ha HX') as Hsh. cbv zeta in Hsh. fold rr zQ in Hsh.
  rewrite Hp in Hsh. fold params in Hsh.
  match type of Hsh with _ = Ok (shown _ _ _ _ _ _ _ ?x, _, _) => set (rand := x) in Hsh end.
  set (p := shown params X1 c m z0 rr zQ rand) in Hsh.
  eexists p, _, _, rand. split; [exact Hsh|]. split; [reflexivity|]. split.
  - exact (shown_verify L (with_x0 i x0') c x1 m z0 rr zQ rand Hc Hx He).
  - assert (Hv : issuer_verify i p = Ok {| vf_presentation := p |} \/ issuer_verify i p = Err MacVerification).
    { rewrite (issuer_verify_ok1 i p X1 [] x1 _ HX Hx eq_refl eq_refl).
      pose proof (vc_verify_no_panic (pr_proof p) show_transcript
        (presentation_publics (iss_system_parameters i) X1 (sk_x0 (kp_secret (iss_keypair i))) x1
           (pr_rerandomized_nonce p) (pr_rerandomized_mac_commitment p)
           (padd (smul m (smul rr (tag_nonce (cr_mac c)))) (smul z0 (sp_h params))))).
      destruct (vc_verify _ _ _); [left; reflexivity|right; reflexivity|contradiction]. }
    destruct Hv as [Hv|Hv]; [right|left; exact Hv].
    destruct (shown_rejected L i c x1 m z0 rr zQ rand Hc Hx Hv) as [He'|[H0|Hcol]].
    + left. pose proof (apply_to_tag_equation L rr _ _ _ He) as [_ He2]. destruct He' as [_ He'].
      cbn [with_x0 iss_keypair kp_secret sk_x0 sk_xn] in He2. rewrite Hx in He2, He'. rewrite He2 in He'.
      unfold p. cbn [shown pr_rerandomized_nonce]. unfold apply_to_tag in He'. cbn [tag_nonce] in He'.
      destruct (point_eq_dec L (smul rr (tag_nonce (cr_mac c))) pzero) as [Hz|Hz]; [exact Hz|].
      apply (smul_inj L _ _ _ Hz) in He'. exfalso. apply Hne.
      change (sk_x0 (kp_secret (iss_keypair i)) == x0').
      apply eqm_sub_0 in He'. apply eqm_sub_0.
      match type of He' with ?a == _ => match goal with |- ?b == _ => assert (Hz' : b == - a) by (apply eqm_of_eq; zring) end end.
      rewrite Hz', He'. reflexivity.
    + right; left. exact H0.
    + right; right. exact Hcol.
Qed.
Print Assumptions C14_users_linkable_refuted.
Example C14_met : 5 mod ell <> 6 mod ell /\
  exists iss r' os',
  issue (with_x0 sample_issuer 6) (request [100]) (toy_stream 1) (toy_stream 2) = Ok (iss, r', os') /\
  match show (fst (obtain_finish sample_user (Some iss))) [3] (toy_stream 8) (toy_stream 9) with
  | Ok (p, _, _) => is_ok (issuer_verify (with_x0 sample_issuer 6) p) && negb (is_ok (issuer_verify sample_issuer p))
  | _ => false
  end = true.
Proof. split; [vm_compute; discriminate|]. apply run3. vm_compute. reflexivity. Qed.

(** ** C15: histories of obtain_finish *)
Definition finish_all {E : Ext} (u : User E) (h : list (option (CredentialIssuance E))) : User E :=
  fold_left (fun u oi => fst (obtain_finish u oi)) h u.
Theorem C15_history : forall E, ExtLaws E -> forall (u : User E) h,
  let accepts oi := snd (obtain_finish u oi) = Ok tt in
  let u' := finish_all u h in
  us_system_parameters u' = us_system_parameters u /\
  us_issuer_parameters u' = us_issuer_parameters u /\ us_key u' = us_key u /\
  (forall oi, snd (obtain_finish u' oi) = snd (obtain_finish u oi)) /\
  ((Forall (fun oi => ~ accepts oi) h /\ us_credential u' = us_credential u) \/
   exists h1 iss h2, h = (h1 ++ Some iss :: h2)%list /\ accepts (Some iss) /\
     Forall (fun oi => ~ accepts oi) h2 /\ us_credential u' = Some (is_credential iss)).
Proof.
  intros E L u h. cbv zeta.
  assert (Hind : forall u1 u2 : User E, us_system_parameters u1 = us_system_parameters u2 ->
    us_issuer_parameters u1 = us_issuer_parameters u2 ->
    forall oi, snd (obtain_finish u1 oi) = snd (obtain_finish u2 oi)).
  { intros u1 u2 H1 H2 [iss|]; [|reflexivity]. unfold obtain_finish. rewrite H1, H2.
    destruct (nth_error _ 0); [|reflexivity]. destruct (ir_verify _ _ _); reflexivity. }
  induction h as [|oi h IH] using rev_ind.
  - cbn. repeat (split; [reflexivity|]). left. split; [constructor|reflexivity].
  - unfold finish_all in *. rewrite fold_left_app. cbn [fold_left].
    set (u1 := fold_left (fun u oi => fst (obtain_finish u oi)) h u) in *.
    destruct IH as (I1 & I2 & I3 & I4 & I5).
    pose proof (I4 oi) as Hoi.
    rewrite (obtain_finish_result u1 oi). rewrite Hoi.
    destruct oi as [iss|].
    + destruct (snd (obtain_finish u (Some iss))) as [[]|e|] eqn:Hs; cbn [fst].
      * cbn [us_system_parameters us_issuer_parameters us_key us_credential].
        split; [exact I1|]. split; [exact I2|]. split; [exact I3|]. split; [apply Hind; assumption|].
        right. exists h, iss, []. split; [reflexivity|]. split; [exact Hs|]. split; [constructor|reflexivity].
      * split; [exact I1|]. split; [exact I2|]. split; [exact I3|]. split; [exact I4|].
        destruct I5 as [[Hf Hc]|(h1 & iss' & h2 & -> & Ha & Hf & Hc)].
        -- left. split; [|exact Hc]. apply Forall_app. split; [exact Hf|]. constructor; [|constructor]. rewrite Hs; discriminate.
        -- right. exists h1, iss', (h2 ++ [Some iss])%list. split; [rewrite <- app_assoc; reflexivity|].
           split; [exact Ha|]. split; [|exact Hc]. apply Forall_app. split; [exact Hf|]. constructor; [|constructor]. rewrite Hs; discriminate.
      * exfalso. exact (obtain_finish_no_panic u (Some iss) Hs).
    + assert (Hs : snd (obtain_finish u None) = Err CredentialIssuanceError) by reflexivity. rewrite Hs. cbn [fst].
      split; [exact I1|]. split; [exact I2|]. split; [exact I3|]. split; [exact I4|].
      destruct I5 as [[Hf Hc]|(h1 & iss' & h2 & -> & Ha & Hf & Hc)].
      -- left. split; [|exact Hc]. apply Forall_app. split; [exact Hf|]. constructor; [|constructor]. rewrite Hs; discriminate.
      -- right. exists h1, iss', (h2 ++ [None])%list. split; [rewrite <- app_assoc; reflexivity|].
         split; [exact Ha|]. split; [|exact Hc]. apply Forall_app. split; [exact Hf|]. constructor; [|constructor]. rewrite Hs; discriminate.
Qed.
Print Assumptions C15_history.
(** A failing call, at any point, changes nothing. *)
Theorem C15_failure_changes_nothing : forall E, ExtLaws E -> forall (u : User E) oi,
  snd (obtain_finish u oi) <> Ok tt -> fst (obtain_finish u oi) = u.
Proof.
  intros E L u oi H. rewrite obtain_finish_result. destruct (snd (obtain_finish u oi)) as [[]|e|] eqn:Hs; [contradiction| |];
    destruct oi; reflexivity.
Qed.
Print Assumptions C15_failure_changes_nothing.
Theorem C15_signal_phone_number_kept : forall E, ExtLaws E -> forall (u : SignalUser E) h,
  let u' := fold_left (fun u oi => fst (signal_obtain_finish u oi)) h u in
  su_phone_number u' = su_phone_number u /\ su_user u' = finish_all (su_user u) h.
Proof.
  intros E L u h. revert u. induction h as [|oi h IH]; intros u; [split; reflexivity|].
  cbn [fold_left finish_all]. destruct (IH (fst (signal_obtain_finish u oi))) as [H1 H2].
  unfold signal_obtain_finish in H1, H2 |- *. destruct (obtain_finish (su_user u) oi) as [u1 res].
  cbn in *. split; assumption.
Qed.
Print Assumptions C15_signal_phone_number_kept.
Example C15_met : exists iss r' os',
  issue sample_issuer (request [100]) (toy_stream 1) (toy_stream 2) = Ok (iss, r', os') /\
  match us_credential (finish_all sample_user [None; Some iss; Some (sample_issuance 7)]),
        us_credential (finish_all sample_user [None; Some (sample_issuance 7)]) with
  | Some c, None => peqb (tag_nonce (cr_mac c)) (tag_nonce (cr_mac (is_credential iss)))
  | _, _ => false
  end = true.
Proof. apply run3. vm_compute. reflexivity. Qed.
