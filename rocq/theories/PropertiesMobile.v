(** What the Swift wrapper can be used for: swift/Credential/Credential.swift, FFI.md (C99). *)
From Verif Require Import Algebra BaseFacts CodecFacts CompositeFacts IssueFacts CreatedFacts FfiFacts ShowFacts SignalFacts.
From Verif Require Import Spec SpecCodec PropertiesMac PropertiesIssue PropertiesCodec PropertiesProofs PropertiesSignal PropertiesFfi PropertiesCalls PropertiesSwift Toy SpecMobile SpecSwift ModelSwift.

(** ** C99: the parameters of an issuer *)
Theorem C99_parameters_refuted : forall E, ExtLaws E -> forall reuse d, parameters_object E reuse d ->
  (d = zeros 32 \/ List.length d = 96%nat) /\
  forall k : IssuerParameters E, public_key_from_bytes d = Ok k -> List.length (pk_Xn k) = 1%nat -> pk_Xn k = [pzero].
Proof.
  intros E L reuse d H.
  assert (K : d = zeros 32 \/ List.length d = 96%nat).
  { assert (W : forall b, SwIssuerParameters_withBytes b = Some d -> d = zeros 32 \/ List.length d = 96%nat).
    { intros b. unfold SwIssuerParameters_withBytes, sw_init_with_bytes, SW_LENGTH_ISSUER_KEYPAIR.
      destruct (Nat.eqb_spec (List.length b) 96) as [Hb|Hb]; intros [= <-]; [right; exact Hb|left; reflexivity]. }
    destruct H as [(b & H)|(m & os & issuer & os' & F & H)]; [exact (W _ H)|].
    destruct (sw_get_parameters_cases L reuse m os issuer F) as [(i & id & _ & K)|[_ K]].
    - rewrite K in H. injection H as H _. exact (W _ H).
    - rewrite K in H. injection H as <- _. left. reflexivity. }
  split; [exact K|]. intros k Hk Hl. destruct K as [-> |K].
  - assert (Hz : public_key_from_bytes (zeros 32) = Ok {| pk_Xn := [@pzero E] |}).
    { apply (public_key_iff L). unfold public_key_to_bytes. cbn [pk_Xn flat_map]. rewrite app_nil_r, (compress_zero E L). reflexivity. }
    rewrite Hz in Hk. injection Hk as <-. reflexivity.
  - apply (public_key_iff L) in Hk. rewrite Hk, (public_key_length L), Hl in K. discriminate.
Qed.
Print Assumptions C99_parameters_refuted.

(** ** C99: users *)
Theorem C99_show_refuted : forall E, ExtLaws E -> forall reuse d number params issuance user p,
  parameters_object E reuse d -> user_object E reuse number params d issuance user -> can_show E reuse user p ->
  p = zeros 448 \/ (d = zeros 32 /\ obtains E number params d issuance).
Proof.
  intros E L reuse d number params issuance user p Hd (m & os & os' & F & Hu) (m1 & os1 & entry & seed & os1' & F' & Hs).
  destruct (C99_parameters_refuted E L reuse d Hd) as [Hd' _].
  assert (Hseed : List.length seed = 32%nat).
  { unfold sw_show in Hs. destruct (Nat.eqb_spec (List.length seed) 32); [assumption|discriminate]. }
  assert (Hempty : forall b : bytes, b = [] -> fits E b).
  { intros b ->. unfold fits. destruct (usize_bits_cases E L) as [-> | ->]; reflexivity. }
  apply Forall_cons_iff in F' as [F1 F']. apply Forall_cons_iff in F' as [F2 _].
  pose proof (C87_swift_calls E L reuse 0%nat m1 os1 {| sw_keypair := []; sw_data := [] |} seed [] [] [] [] [] [] user entry Hseed) as C.
  destruct C as (_ & _ & _ & _ & _ & _ & _ & C).
  { repeat (apply Forall_cons; [first [assumption|apply Hempty; reflexivity]|]). apply Forall_nil. }
  assert (Hno : (forall u, @signal_user_from_bytes E user <> Ok u) -> p = zeros 448).
  { intros Hn. destruct C as [(id & ser & o & _ & G & K)|[[[K|K] _]|[K _]]].
    - destruct G as (u & e & pr & rest & D & _). elim (Hn _ D).
    - rewrite K in Hs. injection Hs as <- _. reflexivity.
    - rewrite K in Hs. discriminate.
    - rewrite K in Hs. discriminate. }
  apply Forall_cons_iff in F as [Fn F]. apply Forall_cons_iff in F as [Fp F]. apply Forall_cons_iff in F as [Fd F].
  apply Forall_cons_iff in F as [Fi _].
  destruct (sw_user_cases L reuse m os number params d issuance Fn Fp Fd Fi) as [K|[(Ho & id & u & K)|(_ & K)]].
  - rewrite K in Hu. discriminate.
  - destruct Hd' as [-> |Hd']; [right; split; [reflexivity|exact Ho]|]. left. apply Hno. intros w Hw.
    pose proof (C87_swift_calls E L reuse 0%nat m os {| sw_keypair := []; sw_data := [] |} seed number params d [] issuance [] [] [] Hseed) as C'.
    destruct C' as (_ & _ & _ & _ & _ & _ & C' & _).
    { repeat (apply Forall_cons; [first [assumption|apply Hempty; reflexivity]|]). apply Forall_nil. }
    apply (signal_user_iff L) in Hw as (n & Hn & _ & Hw & Hb).
    assert (Hlen : List.length user = 288%nat) by (rewrite Hb, app_length, Hn, (user_length L _ Hw); reflexivity).
    destruct C' as [(id' & ser & o & _ & G & K')|[[[K'|K'] _]|[K' _]]]; rewrite K' in Hu; [| | discriminate..].
    + injection Hu as Hu _. apply (C87_header_lengths E L) in G. cbn [header_length] in G.
      unfold SW_LENGTH_USER, SW_LENGTH_ISSUER_PARAMETERS in G. rewrite <- Hu, found_length in Hlen. apply G in Hlen. congruence.
    + injection Hu as <- _. discriminate.
  - rewrite K in Hu. injection Hu as <- _. left. apply Hno. intros w Hw. vm_compute in Hw. discriminate.
Qed.
Print Assumptions C99_show_refuted.

(** An issuance that a user would take with the issuer's key is of no use. *)
Theorem C99_issued_refuted : forall E, ExtLaws E -> forall reuse d number params issuance user p (X : point E),
  X <> pzero -> obtains E number params (compress X) issuance ->
  parameters_object E reuse d -> user_object E reuse number params d issuance user -> can_show E reuse user p ->
  p = zeros 448 \/
  exists (sp : SystemParameters E) (iss : CredentialIssuance E), system_parameters_from_bytes params = Ok sp /\ issuance_from_bytes issuance = Ok iss /\
    @challenge_collision E
      (extend issuance_transcript (ir_messages (issuance_publics sp X iss) (ir_recompute (is_proof iss) (issuance_publics sp X iss))))
      (extend issuance_transcript (ir_messages (issuance_publics sp pzero iss) (ir_recompute (is_proof iss) (issuance_publics sp pzero iss)))).
Proof.
  intros E L reuse d number params issuance user p X HX Ho Hd Hu Hs.
  destruct (C99_show_refuted E L reuse d number params issuance user p Hd Hu Hs) as [K|[-> K]]; [left; exact K|right].
  exact (C53_issuance_unusable_refuted E L number params issuance X HX Ho K).
Qed.
Print Assumptions C99_issued_refuted.
(** No issuer takes what is shown then, and [verify] gives the same for it as
    for all else that is refused. *)
Theorem C99_zeros : forall E, ExtLaws E -> forall reuse m os issuer, fits E (sw_data issuer) ->
  ~ accepts E (sw_data issuer) (zeros 448) /\
  @sw_verify E reuse m os issuer (zeros 448) = SwReturns (Some (zeros 448)) os.
Proof.
  intros E L reuse m os issuer F.
  assert (Hno : ~ accepts E (sw_data issuer) (zeros 448)).
  { intros (i & p & v & _ & D & _). apply (signal_presentation_iff L) in D as [[[W0 W1] W2] (rest & D)].
    assert (I : In x20 (zeros 448)).
    { rewrite D. apply in_or_app. left. unfold signal_presentation_to_bytes. apply in_or_app. right. apply in_or_app. right. left. reflexivity. }
    apply repeat_spec in I. discriminate. }
  split; [exact Hno|]. apply (C53_verify_rejected_refuted E L); [exact F| |exact Hno].
  unfold fits. rewrite zeros_length. destruct (usize_bits_cases E L) as [-> | ->]; reflexivity.
Qed.
Print Assumptions C99_zeros.

(** ** C99: what does work *)
Lemma gives_fun E fuel os a s o s' o' : gives E fuel os a s o -> gives E fuel os a s' o' -> s = s' /\ o = o'.
Proof.
  destruct a; cbn [gives]; intros H H';
    repeat match goal with H : ex _ |- _ => destruct H | H : _ /\ _ |- _ => destruct H end; subst; split; congruence.
Qed.
Lemma does_unchanged {A} E fuel os a (k : bytes -> A) r ser os' :
  sw_does E unchanged fuel os a k r -> Forall (fun b => b <> []) (strings_of a) -> gives E fuel os a ser os' ->
  r = SwReturns (k ser) os'.
Proof.
  intros H Hne G. destruct H as [(id & s & o & _ & G' & ->)|[[_ [K|K]]|[_ (s & -> & K)]]].
  - destruct (gives_fun _ _ _ _ _ _ _ _ G G') as [<- <-]. rewrite found_unchanged. reflexivity.
  - exfalso. apply Exists_exists in K as (b & Hb & ->). rewrite Forall_forall in Hne. elim (Hne _ Hb eq_refl).
  - elim (K _ _ G).
  - destruct G as (p & rest & G & _). congruence.
Qed.

(** An issuer whose public key is the identity.  With freed memory left as it
    is, everything works from Swift - and what it issues for one number is good
    for every number. *)
Theorem C99_identity_key : forall E, ExtLaws E -> forall (i : Issuer E) ib, signal_issuer_from_bytes ib = Ok i ->
  consistent i -> pk_Xn (kp_public (iss_keypair i)) = [pzero] ->
  (sp_h (iss_system_parameters i) <> pzero -> forall m m' (t : Tag E),
     mac_equation (kp_secret (iss_keypair i)) [m] t -> mac_equation (kp_secret (iss_keypair i)) [m'] t) /\
  forall number seed_issue seed_entry seed_show m os1 os2, (1 <= List.length number <= 27)%nat ->
  Forall (fun s => List.length s = 32%nat) [seed_issue; seed_entry; seed_show] ->
  let params := system_parameters_to_bytes (iss_system_parameters i) in
  let issuer kb := {| sw_keypair := kb; sw_data := ib |} in
  exists issuance user entry presentation os1' os2',
    (forall kb, @sw_get_parameters E unchanged m os1 (issuer kb) = SwReturns (Some (zeros 32)) os1) /\
    (forall kb, @sw_issue E unchanged m os1 (issuer kb) number seed_issue = SwReturns (Some issuance) os1') /\
    @sw_user_init E unchanged m os1 number params (zeros 32) issuance = SwReturns (Some user) os1 /\
    @sw_roster_entry_with_seed E unchanged m os1 seed_entry number params = SwReturns (Some entry) os1 /\
    @sw_show E unchanged m os2 user entry seed_show = SwReturns (Some presentation) os2' /\
    (forall kb, @sw_verify E unchanged m os1 (issuer kb) presentation = SwReturns (Some presentation) os1) /\
    accepts E ib presentation.
Proof.
  intros E L i ib Hdec Hc HX.
  assert (Hx : exists x1, sk_xn (kp_secret (iss_keypair i)) = [x1] /\ smul x1 (sp_h (iss_system_parameters i)) = pzero).
  { unfold consistent, key_matches in Hc. rewrite HX in Hc. inversion Hc as [|? x1 ? l H1 H2 H3 H4]; subst. inversion H2; subst.
    exists x1. split; [reflexivity|symmetry; exact H1]. }
  destruct Hx as (x1 & Hx & Hx0). split.
  { intros Hh m m' t [_ Ht]. split; [rewrite Hx; reflexivity|]. rewrite Ht, Hx.
    apply (smul_zero_iff L _ _ Hh) in Hx0. apply (smul_eqm L). cbn [dot]. unfold Algebra.eqm in *.
    rewrite <- (Z.add_mod_idemp_r _ (x1 * m + 0)), <- (Z.add_mod_idemp_r _ (x1 * m' + 0)) by (pose proof ell_pos; lia).
    f_equal. f_equal. rewrite !Z.add_0_r, (Z.mul_mod x1 m), (Z.mul_mod x1 m'), Hx0 by (pose proof ell_pos; lia). reflexivity. }
  intros number ss se sh m os1 os2 Hn Hseeds params issuer.
  apply Forall_cons_iff in Hseeds as [S1 Hseeds]. apply Forall_cons_iff in Hseeds as [S2 Hseeds]. apply Forall_cons_iff in Hseeds as [S3 _].
  apply (issuer_iff L) in Hdec as [Hwi Hib]. subst ib.
  assert (Hs : single_attribute i) by (unfold single_attribute; rewrite Hx; reflexivity).
  set (sp := iss_system_parameters i) in *.
  destruct (proj1 (C27_outcomes number) ltac:(lia)) as [(n & Hnum & Hncan) _].
  pose (u := {| su_phone_number := n; su_user := user_new sp (get_issuer_parameters i) None |}).
  assert (Hu : user_of i (su_user u)) by (split; reflexivity).
  destruct (C10_honest_issuance_accepted E L i (su_user u) n (@chacha E ss) os1 Hc Hs Hu) as (iss & ri' & oi' & Hi & Hv & Ho).
  destruct (C29_create_opens E L number sp (@chacha E se) ltac:(lia)) as (entry & re' & He & Hop).
  apply (C29_open_exactly E L entry number n sp Hnum) in Hop.
  set (usr := {| us_system_parameters := us_system_parameters (su_user u);
                 us_issuer_parameters := us_issuer_parameters (su_user u);
                 us_key := us_key (su_user u); us_credential := Some (is_credential iss) |}) in Ho.
  pose (u' := {| su_phone_number := n; su_user := usr |}).
  destruct (signal_presentation_accepted L i u' (is_credential iss) n (@chacha E sh) os2 entry Hc Hs) as (p & rs' & os' & Hsh & Hv1 & Hv2).
  { split; reflexivity. }
  { reflexivity. }
  { exact Hv. }
  { exact Hop. }
  assert (Hsi : signal_issue i number (@chacha E ss) os1 = Ok (iss, ri', oi')) by (unfold signal_issue; rewrite Hnum; exact Hi).
  assert (Hsu : signal_user_new sp (get_issuer_parameters i) None number = Ok u) by (unfold signal_user_new; rewrite Hnum; reflexivity).
  assert (Hso : signal_obtain_finish u (Some iss) = (u', Ok tt)) by (unfold signal_obtain_finish; rewrite Ho; reflexivity).
  assert (Hcred : issuance_wf iss /\ cr_attributes (is_credential iss) = [n]).
  { apply (created_issuance L) in Hi; [exact Hi|reflexivity|]. constructor; [exact Hncan|constructor]. }
  destruct Hcred as [Hwiss Hattr].
  assert (Hwu : user_wf (su_user u')).
  { split; [exact (f_equal (@List.length _) HX)|].
    split; [exact I|]. cbn [su_user us_credential u' usr]. split; [apply Hwiss|]. unfold credential_to_bytes. rewrite Hattr.
    cbn [flat_map]. rewrite app_nil_r. intros K. change (zeros 96) with (zeros (64 + 32)) in K. rewrite zeros_app in K.
    apply app_inj_l in K as [_ K]; [|rewrite (tag_length L); reflexivity].
    apply (scalar_zeros n Hncan) in K. exact (try_from_bytes_nonzero _ _ Hnum K). }
  pose proof (created_presentation L u' _ _ _ _ _ _ pzero Hsh ltac:(exact HX)) as Hwp.
  pose proof (created_entry _ _ _ _ _ He) as Hopen.
  assert (D1 : system_parameters_from_bytes params = Ok sp) by (apply (C33_system_parameters E L)).
  assert (D3 : issuer_from_bytes (issuer_to_bytes i) = Ok i) by (apply (issuer_iff L); auto).
  assert (Hz : public_key_to_bytes (get_issuer_parameters i) = zeros 32).
  { unfold get_issuer_parameters, public_key_to_bytes. rewrite HX. cbn [flat_map]. rewrite app_nil_r. apply (compress_zero E L). }
  assert (D4 : public_key_from_bytes (zeros 32) = Ok (get_issuer_parameters i)) by (apply (public_key_iff L); symmetry; exact Hz).
  assert (D5 : issuance_from_bytes (issuance_to_bytes iss) = Ok iss).
  { apply (issuance_iff L). split; [exact Hwiss|]. exists []. rewrite app_nil_r. reflexivity. }
  assert (D6 : roster_from_bytes (roster_to_bytes entry) = Ok entry).
  { apply (C33_roster E L). apply canonical_bits, Hopen. }
  assert (D7 : signal_user_from_bytes (signal_user_to_bytes u') = Ok u').
  { apply (signal_user_iff L). exists (scalar_to_bytes (su_phone_number u')). split; [apply scalar_to_bytes_length|].
    split; [|split; [exact Hwu|reflexivity]]. cbn [su_phone_number u']. symmetry. apply from_bits_roundtrip, canonical_bits, Hncan. }
  assert (D8 : signal_presentation_from_bytes (signal_presentation_to_bytes p) = Ok p).
  { apply (signal_presentation_iff L). split; [exact Hwp|]. exists []. rewrite app_nil_r. reflexivity. }
  assert (L1 : List.length params = 64%nat) by apply (system_parameters_length L).
  assert (L3 : List.length (issuer_to_bytes i) = 160%nat) by (rewrite (issuer_length L), HX, Hx; reflexivity).
  assert (L5 : List.length (issuance_to_bytes iss) = 328%nat) by (rewrite (issuance_length L), Hattr; reflexivity).
  assert (L6 : List.length (roster_to_bytes entry) = 64%nat) by apply (roster_length L).
  assert (L7 : List.length (signal_user_to_bytes u') = 288%nat).
  { unfold signal_user_to_bytes, phone_number_to_bytes. rewrite app_length, scalar_to_bytes_length, (user_length L _ Hwu). reflexivity. }
  assert (L8 : List.length (signal_presentation_to_bytes p) = 448%nat) by (apply (signal_presentation_length L), Hwp).
  assert (Hfit : forall b : bytes, (List.length b < 1000)%nat -> fits E b).
  { intros b Hb. unfold fits. destruct (usize_bits_cases E L) as [-> | ->]; lia. }
  assert (Hne : forall (b : bytes), (1 <= List.length b)%nat -> b <> []) by (intros [|? ?] K; [cbn in K; lia|discriminate]).
  assert (F : forall kb, Forall (fits E) [sw_data (issuer kb); number; params; zeros 32; []; issuance_to_bytes iss;
    signal_presentation_to_bytes p; signal_user_to_bytes u'; roster_to_bytes entry]).
  { intros kb. unfold issuer. cbn [sw_data].
    repeat (apply Forall_cons; [apply Hfit; first [rewrite zeros_length; lia|cbn [List.length]; lia|unfold bytes in *; lia]|]). apply Forall_nil. }
  assert (Ha : accepts E (issuer_to_bytes i) (signal_presentation_to_bytes p)) by (exists i, p, {| vs_presentation := p |}; auto).
  pose proof (fun kb seed os H => C87_swift_calls E L unchanged 0%nat m os (issuer kb) seed number params (zeros 32) [] (issuance_to_bytes iss)
    (signal_presentation_to_bytes p) (signal_user_to_bytes u') (roster_to_bytes entry) H (F kb)) as C. cbn [issuer sw_data] in C.
  assert (Hstr : forall b, In b [issuer_to_bytes i; number; params; zeros 32; issuance_to_bytes iss; signal_presentation_to_bytes p;
    signal_user_to_bytes u'; roster_to_bytes entry] -> b <> []).
  { intros b Hb. apply Hne. cbn [In] in Hb. unfold bytes in *.
    repeat (destruct Hb as [<-|Hb]; [first [rewrite zeros_length; lia|lia]|]). contradiction. }
  exists (issuance_to_bytes iss), (signal_user_to_bytes u'), (roster_to_bytes entry), (signal_presentation_to_bytes p), oi', os'.
  Ltac strs Hstr := cbn [strings_of]; repeat (apply Forall_cons; [apply Hstr; cbn [In]; tauto|]); apply Forall_nil.
  split; [|split; [|split; [|split; [|split; [|split]]]]].
  - intros kb. destruct (C kb ss os1 S1) as (_ & _ & _ & K & _).
    rewrite (does_unchanged _ _ _ _ _ _ (public_key_to_bytes (get_issuer_parameters i)) os1 K); [rewrite Hz; reflexivity|strs Hstr|].
    exists i. auto.
  - intros kb. destruct (C kb ss os1 S1) as (_ & _ & _ & _ & K & _).
    rewrite (does_unchanged _ _ _ _ _ _ (issuance_to_bytes iss) oi' K); [|strs Hstr|exists i, iss, ri'; auto].
    unfold SwIssuance_withBytes, sw_init_with_bytes, SW_LENGTH_CREDENTIAL_ISSUANCE. rewrite L5. reflexivity.
  - destruct (C [] ss os1 S1) as (_ & _ & _ & _ & _ & _ & K & _).
    apply (does_unchanged _ _ _ _ _ _ (signal_user_to_bytes u') os1 K); [strs Hstr|].
    exists sp, (get_issuer_parameters i), iss, u, u'. auto 10.
  - destruct (C [] se os1 S2) as (_ & K & _).
    apply (does_unchanged _ _ _ _ _ _ (roster_to_bytes entry) os1 K); [strs Hstr|]. exists sp, entry, re'. auto.
  - destruct (C [] sh os2 S3) as (_ & _ & _ & _ & _ & _ & _ & K).
    rewrite (does_unchanged _ _ _ _ _ _ (signal_presentation_to_bytes p) os' K); [|strs Hstr|exists u', entry, p, rs'; auto].
    unfold SwPresentation_withBytes, sw_init_with_bytes, SW_LENGTH_CREDENTIAL_PRESENTATION. rewrite L8. reflexivity.
  - intros kb. destruct (C kb ss os1 S1) as (_ & _ & _ & _ & _ & K & _).
    rewrite (does_unchanged _ _ _ _ _ _ (signal_presentation_to_bytes p) os1 K); [|strs Hstr|exists i, p, {| vs_presentation := p |}; auto 10].
    unfold SwVerified_withBytes, sw_init_with_bytes, SW_LENGTH_VERIFIED_CREDENTIAL. rewrite L8. reflexivity.
  - exact Ha.
Qed.
Print Assumptions C99_identity_key.

(** ** Examples *)
(** An issuance which the user takes with the issuer's key.  With the parameters
    got from Swift the user is empty; with 96 bytes, which Swift takes, it is
    made, too long, and shows zeros as well. *)
Definition thrice : bytes := (compress (pt 231) ++ compress (pt 231) ++ compress (pt 231))%list.
Example C99_met_objects : parameters_object toy unchanged (zeros 32) /\ parameters_object toy unchanged thrice /\
  fits toy thrice /\ pt 231 <> pzero.
Proof.
  split; [left; exists []; reflexivity|]. split; [left; exists thrice; vm_compute; reflexivity|].
  split; [apply fits_toy; apply Nat.ltb_lt; vm_compute; reflexivity|].
  intros H. apply (f_equal tv) in H. vm_compute in H. discriminate.
Qed.
Definition shown_by (user : sw_result (option bytes)) : option (option (nat * bool)) :=
  match user with
  | SwReturns (Some u) os =>
    sw_summary (@sw_show toy unchanged (blocks []) os u (roster_to_bytes (sample_entry 9)) (zeros 32))
  | _ => None
  end.
Example C99_met_users : exists iss r os, signal_issue sample_issuer (str "123") (toy_stream 7) (toy_stream 8) = Ok (iss, r, os) /\
  (let made d := @sw_user_init toy unchanged (blocks []) (toy_stream 1) (str "123") (system_parameters_to_bytes sample_params) d (issuance_to_bytes iss) in
   match sw_summary (made (compress (pt 231))), sw_summary (made (zeros 32)), shown_by (made (zeros 32)),
         sw_summary (made thrice), shown_by (made thrice) with
   | Some (Some (288%nat, false)), Some (Some (0%nat, true)), Some (Some (448%nat, true)),
     Some (Some (352%nat, false)), Some (Some (448%nat, true)) => true
   | _, _, _, _, _ => false
   end) = true.
Proof. apply run3. vm_compute. reflexivity. Qed.
Definition identity_issuer : Issuer toy :=
  {| iss_system_parameters := sample_params;
     iss_keypair := {| kp_public := {| pk_Xn := [pzero] |}; kp_secret := {| sk_x0 := 5; sk_xn := [0] |} |} |}.
Example C99_met_identity : signal_issuer_from_bytes (signal_issuer_to_bytes identity_issuer) = Ok identity_issuer /\
  consistent identity_issuer /\ pk_Xn (kp_public (iss_keypair identity_issuer)) = [pzero] /\ sp_h sample_params <> pzero.
Proof.
  split; [|split; [|split]].
  - apply (issuer_iff toy_laws). split; [|reflexivity]. split; [|discriminate].
    split; [|reflexivity]. split; repeat constructor; vm_compute; congruence.
  - constructor; [|constructor]. symmetry. apply smul_0.
  - reflexivity.
  - intros H. apply (f_equal tv) in H. vm_compute in H. discriminate.
Qed.
