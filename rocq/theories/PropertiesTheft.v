(** What a credential gives to whoever reads it on its way (C118). *)
From Verif Require Import Toy Algebra IssueFacts ShowFacts SignalFacts PhoneFacts SpecTheft SpecLeak PropertiesIssue PropertiesShow PropertiesPhone PropertiesSignal
  PropertiesAnonymity PropertiesHistory CodecFacts CompositeFacts CreatedFacts PropertiesSeeds PropertiesCodec.
From Verif Require SpecCalls.
From Coq Require Import Lia Bool.
Local Open Scope Z_scope.

Lemma issued_number {E} (L : ExtLaws E) (i : Issuer E) number r os iss r' os' :
  signal_issue i number r os = Ok (iss, r', os') ->
  exists m, try_from_bytes number = Ok m /\ cr_attributes (is_credential iss) = [m] /\ canonical m.
Proof.
  intros H. unfold signal_issue in H. apply bind_ok in H as (m & Hm & H). exists m.
  assert (Hm' : try_from_bytes number = Ok m) by (destruct (try_from_bytes number); cbn in Hm; congruence).
  split; [exact Hm'|]. split; [|pose proof (number_cases number) as K; rewrite Hm' in K; apply K].
  apply (issue_inv L) in H as (X1 & Xs & y1 & ys & m1 & ms & tag & x0t & rand & H). cbv zeta in H.
  destruct H as (_ & _ & Hms & _ & _ & _ & _ & -> & _). cbn [rq_attributes_revealed] in Hms. injection Hms as <- <-. reflexivity.
Qed.
Lemma drop_zeros_zeros n l : drop_zeros (zeros n ++ l)%list = drop_zeros l.
Proof. unfold zeros. induction n as [|n IH]; [reflexivity|]. cbn [repeat app drop_zeros]. exact IH. Qed.
Lemma rev_zeros n : rev (zeros n) = zeros n.
Proof.
  unfold zeros. induction n as [|n IH]; [reflexivity|]. cbn [repeat rev]. rewrite IH. clear IH.
  induction n as [|n IH]; [reflexivity|]. cbn [repeat app]. rewrite IH. reflexivity.
Qed.
Lemma number_read d : (1 <= List.length d <= 26)%nat -> 
  match drop_zeros (rev (number_layout d)) with
  | c :: _ => firstn (Z.to_nat (bz c)) (skipn 2 (number_layout d))
  | [] => []
  end = d.
Proof.
  intros H. unfold number_layout at 1. rewrite !rev_app_distr, rev_zeros, <- !app_assoc, drop_zeros_zeros. cbn [rev app drop_zeros].
  rewrite bz_zb, Z.mod_small by lia. destruct (Z.eqb_spec (Z.of_nat (List.length d)) 0) as [K|_]; [lia|].
  rewrite bz_zb, Z.mod_small, Nat2Z.id by lia. unfold number_layout. cbn [app skipn]. rewrite firstn_app, firstn_all, Nat.sub_diag. cbn [firstn].
  apply app_nil_r.
Qed.

(** ** C118: the number stands in the bytes *)
Theorem C118_in_clear : forall E, ExtLaws E -> forall fuel os issuer number seed issuance os',
  SpecCalls.gives E fuel os (SpecCalls.Issue issuer number seed) issuance os' ->
  (1 <= List.length number <= 26)%nat -> number_in issuance = number.
Proof.
  intros E L fuel os ib number seed ser os' (i & iss & rest & _ & H & ->) Hl.
  destruct (issued_number L _ _ _ _ _ _ _ H) as (m & Hm & Ha & _).
  destruct (C32_issuance E L iss m Ha) as (_ & _ & _ & _ & Hf & _). unfold number_in. rewrite Hf. unfold le32.
  rewrite try_from_bytes_ok in Hm by lia. assert (Hs : le_encode 32 m = number_layout number).
  { assert (K : forall x y : Z, @Ok PhoneNumberError Z x = Ok y -> x = y) by congruence. apply K in Hm. rewrite <- Hm.
    exact (scalar_to_bytes_short number ltac:(lia)). }
  rewrite Hs. apply number_read, Hl.
Qed.
Print Assumptions C118_in_clear.

(** Of every length: the 32 bytes stand for one number. *)
Theorem C118_tells : forall E, ExtLaws E -> forall fuel fuel' os os1 issuer issuer1 number number1 seed seed1 issuance issuance1 os' os1',
  SpecCalls.gives E fuel os (SpecCalls.Issue issuer number seed) issuance os' ->
  SpecCalls.gives E fuel' os1 (SpecCalls.Issue issuer1 number1 seed1) issuance1 os1' ->
  (field 96 32 issuance = field 96 32 issuance1 <-> number = number1).
Proof.
  intros E L fuel fuel' os os1 ib ib1 number number1 seed seed1 ser ser1 os' os1' (i & iss & rest & _ & H & ->) (i1 & iss1 & rest1 & _ & H1 & ->).
  destruct (issued_number L _ _ _ _ _ _ _ H) as (m & Hm & Ha & Hc). destruct (issued_number L _ _ _ _ _ _ _ H1) as (m1 & Hm1 & Ha1 & Hc1).
  destruct (C32_issuance E L iss m Ha) as (_ & _ & _ & _ & -> & _). destruct (C32_issuance E L iss1 m1 Ha1) as (_ & _ & _ & _ & -> & _).
  split.
  - intros K. apply (f_equal le_decode) in K. unfold le32 in K. pose proof ell_lt_255 as Hb. unfold canonical in Hc, Hc1.
    assert (H256 : 2 ^ 255 < 256 ^ Z.of_nat 32) by (vm_compute; reflexivity).
    rewrite !le_decode_encode_small in K by lia. subst m1. exact (try_from_bytes_inj _ _ _ Hm Hm1).
  - intros ->. assert (m = m1) as -> by congruence. reflexivity.
Qed.
Print Assumptions C118_tells.

(** ** C118: with the bytes anybody is the user *)
(** That a credential is of use only to its user is false.  Whoever has the bytes that
    [issuer_issue] gave for a number, and what is public, makes of them the very bytes that
    the user makes, and with entries for the number, whatever the seeds, presentations
    that pass both checks. *)
Theorem C118_stolen_refuted : forall E, ExtLaws E ->
  forall fuel os issuer (i : Issuer E) params keys number seed issuance os',
  signal_issuer_from_bytes issuer = Ok i -> consistent i -> single_attribute i ->
  system_parameters_from_bytes params = Ok (iss_system_parameters i) ->
  (forall os, SpecCalls.gives E fuel os (SpecCalls.GetParameters issuer) keys os) ->
  SpecCalls.gives E fuel os (SpecCalls.Issue issuer number seed) issuance os' ->
  (1 <= List.length number <= 26)%nat ->
  fst (@drawn E "AEONFLUX ISSUANCE" (@chacha E seed)) mod ell <> 0 ->
  exists user,
    (forall os, SpecCalls.gives E fuel os (SpecCalls.Obtain (number_in issuance) params keys issuance) user os) /\
    (forall os os' owner, SpecCalls.gives E fuel os (SpecCalls.Obtain number params keys issuance) owner os' -> owner = user) /\
    forall seed1 seed2 os, exists entry presentation commitment os',
      SpecCalls.gives E fuel os (SpecCalls.MakeEntry (number_in issuance) params seed1) entry os /\
      SpecCalls.gives E fuel os (SpecCalls.RemoveOpening entry) commitment os /\
      SpecCalls.gives E fuel os (SpecCalls.Show user entry seed2) presentation os' /\
      SpecCalls.gives E fuel os (SpecCalls.Verify issuer presentation) presentation os /\
      SpecCalls.gives E fuel os (SpecCalls.VerifyRoster issuer presentation) commitment os.
Proof.
  intros E L fuel os ib i pb kb number seed ser os' Hdec Hcon Hs Hp Hk Hg Hl Hb.
  rewrite (C118_in_clear E L _ _ _ _ _ _ _ Hg Hl).
  destruct (Hk os) as (i0 & Hi0 & -> & _). assert (i0 = i) as -> by congruence. clear Hk Hi0.
  destruct Hg as (i1 & iss & rest & Hi1 & Hiss & ->). assert (i1 = i) as -> by congruence. clear Hi1.
  destruct (issued_number L _ _ _ _ _ _ _ Hiss) as (m & Hm & Ha & Hcm).
  pose proof Hiss as Hq. unfold signal_issue in Hq. rewrite Hm in Hq. cbn [map_err bind] in Hq.
  assert (Hwi : wf_issuance iss).
  { destruct (created_issuance L i _ _ _ _ _ _ Hq) as [K _]; [reflexivity|constructor; [exact Hcm|constructor]|]. apply wf_issuance_iff. exact K. }
  pose (u0 := {| su_phone_number := m; su_user := user_new (iss_system_parameters i) (get_issuer_parameters i) None |}).
  assert (Hu0 : user_of i (su_user u0)) by (split; reflexivity).
  destruct (C10_honest_issuance_accepted E L i (su_user u0) m (@chacha E seed) os Hcon Hs Hu0) as (iss' & r1 & os1 & Hq' & Hv & Hfin).
  assert (iss' = iss) as ->.
  { assert (K : forall (a b : CredentialIssuance E) (x y x' y' : rng), @Ok CredentialError _ (a, x, y) = Ok (b, x', y') -> a = b) by congruence.
    refine (K _ _ _ _ _ _ (eq_trans (eq_sym Hq') Hq)). }
  clear Hq'.
  pose (u := {| su_phone_number := m; su_user := {| us_system_parameters := iss_system_parameters i; us_issuer_parameters := get_issuer_parameters i;
                us_key := None; us_credential := Some (is_credential iss) |} |}).
  assert (Hfin' : signal_obtain_finish u0 (Some iss) = (u, Ok tt)) by (unfold signal_obtain_finish; rewrite Hfin; reflexivity).
  assert (Hnew : signal_user_new (iss_system_parameters i) (get_issuer_parameters i) None number = Ok u0)
    by (unfold signal_user_new; rewrite Hm; reflexivity).
  assert (Hkd : @public_key_from_bytes E (public_key_to_bytes (get_issuer_parameters i)) = Ok (get_issuer_parameters i)) by apply (C33_public_key E L).
  assert (Hid : @issuance_from_bytes E (issuance_to_bytes iss) = Ok iss) by exact (proj2 (C33_issuance E L iss) Hwi).
  destruct (single_cons i Hs) as [x1 Hx]. pose proof (consistent_single i x1 Hcon Hx) as HX.
  assert (Hnz : tag_nonce (cr_mac (is_credential iss)) <> pzero).
  { apply (issue_inv L) in Hq as (X1 & Xs & y1 & ys & m1 & ms & tag & x0t & rand & Hq). cbv zeta in Hq.
    destruct Hq as (_ & _ & _ & _ & _ & Hnonce & _ & Hcred & _). rewrite Hcred. cbn [cr_mac]. rewrite Hnonce. intros K.
    apply (smul_zero_iff L) in K; [|apply (basepoint_nonzero E L)]. apply Hb. exact K. }
  assert (HX' : exists X, pk_Xn (us_issuer_parameters (su_user u)) = [X]) by (eexists; exact HX).
  assert (Hud : @signal_user_from_bytes E (signal_user_to_bytes u) = Ok u).
  { apply (C33_signal_user E L). split; [|apply canonical_bits; exact Hcm]. split; [exact HX'|].
    split; [discriminate|]. intros c Hc. injection Hc as <-.
    split; [exists m; split; [exact Hcm|apply Hv]|]. intros (K & _ & _). exact (Hnz K). }
  exists (signal_user_to_bytes u). split; [|split].
  - intros os2. exists (iss_system_parameters i), (get_issuer_parameters i), iss, u0, u. auto 8.
  - intros os2 os2' owner (p2 & k2 & iss2 & v0 & v & Hp2 & Hk2 & Hi2 & Hv0 & Hvf & -> & _).
    assert (p2 = iss_system_parameters i) as -> by congruence. assert (k2 = get_issuer_parameters i) as -> by congruence.
    assert (iss2 = iss) as -> by congruence. assert (v0 = u0) as -> by congruence. assert (v = u) as -> by congruence. reflexivity.
  - intros seed1 seed2 os2.
    destruct (C29_create_opens E L number (iss_system_parameters i) (@chacha E seed1) ltac:(lia)) as (e & r2 & He & Hopen).
    pose proof (created_entry _ _ _ _ _ He) as Hoc.
    assert (Hrd : @roster_from_bytes E (roster_to_bytes e) = Ok e) by (apply (C33_roster E L), canonical_bits, Hoc).
    pose proof (entry_made _ _ _ _ _ He) as (n & Hn & Ho & HC). rewrite <- Ho in HC. assert (n = m) as -> by congruence.
    destruct (signal_presentation_accepted L i u _ m (@chacha E seed2) os2 e Hcon Hs (conj eq_refl eq_refl) eq_refl Hv HC) as (p & r3 & os3 & Hsh & Hve & Hme).
    destruct HX' as [X HX']. pose proof (created_presentation L u _ _ _ _ _ _ _ Hsh HX') as Hpw. apply wf_signal_presentation_iff in Hpw.
    exists (roster_to_bytes e), (signal_presentation_to_bytes p), (committed_to_bytes (re_commitment e)), os3.
    split; [exists (iss_system_parameters i), e, r2; auto|]. split; [exists e; auto|].
    split; [exists u, e, p, r3; auto|]. split.
    + exists i, p, {| vs_presentation := p |}. split; [exact Hdec|]. split; [apply (C33_signal_presentation E L), Hpw|].
      split; [exact Hve|]. split; reflexivity.
    + exists i, {| vs_presentation := p |}, (re_commitment e). split; [exact Hdec|].
      split; [apply (proj2 (C33_verified E L {| vf_presentation := sc_presentation p |} {| vs_presentation := p |})); exact Hpw|].
      split; [exact Hme|]. split; reflexivity.
Qed.
Print Assumptions C118_stolen_refuted.

(** ** C118: what is left to the user *)
(** The entry that the user made for themselves: with any opening but its own, the
    credential is of no use, up to a challenge of zero or a collision. *)
Theorem C118_entry_safe : forall E, ExtLaws E ->
  forall (i : Issuer E) u c m ms X0 Xs number entry r0 r0' opening r os p r' os',
  us_system_parameters (su_user u) = iss_system_parameters i ->
  us_credential (su_user u) = Some c -> cr_attributes c = m :: ms -> try_from_bytes number = Ok m ->
  pk_Xn (us_issuer_parameters (su_user u)) = X0 :: Xs -> sp_g (iss_system_parameters i) <> pzero ->
  roster_create number (iss_system_parameters i) r0 = Ok (entry, r0') ->
  let entry' := {| re_commitment := re_commitment entry; re_opening := opening |} in
  opening mod ell <> re_opening entry mod ell ->
  signal_show u r os entry' = Ok (p, r', os') ->
  sc_roster_entry_commitment p = re_commitment entry /\
  (verify_roster_membership i {| vs_presentation := p |} = Err VerificationFailure \/
   ce_challenge (sc_roster_membership_proof p) = 0 \/
   membership_collision (iss_system_parameters i) p m (fst (scalar_random r)) opening).
Proof.
  intros E L i u c m ms X0 Xs number entry r0 r0' opening r os p r' os' Hp Hc Ha Hm HX Hg He entry' Ho Hs.
  split; [exact (C66_entry_shown E L u r os entry' p r' os' Hs)|].
  apply (C22_wrong_entry_rejected E L i u c m ms X0 Xs entry' r os p r' os' Hp Hc Ha HX); [|exact Hs].
  cbn [entry' re_commitment re_opening]. pose proof (entry_made _ _ _ _ _ He) as (n & Hn & Hr & HC). rewrite <- Hr in HC.
  assert (n = m) as -> by congruence. rewrite HC. intros K. apply (padd_cancel_l L) in K.
  apply (smul_inj L _ _ _ Hg) in K. apply Ho. symmetry. exact K.
Qed.
Print Assumptions C118_entry_safe.

(** ** The hypotheses are met *)
Example C118_met : exists issuer (i : Issuer toy) params keys issuance os',
  signal_issuer_from_bytes issuer = Ok i /\ consistent i /\ single_attribute i /\
  system_parameters_from_bytes params = Ok (iss_system_parameters i) /\
  (forall os, SpecCalls.gives toy 4 os (SpecCalls.GetParameters issuer) keys os) /\
  SpecCalls.gives toy 4 (toy_stream 1) (SpecCalls.Issue issuer (str "14155551234") (repeat x01 32)) issuance os' /\
  (1 <= List.length (str "14155551234") <= 26)%nat /\
  fst (@drawn toy "AEONFLUX ISSUANCE" (@chacha toy (repeat x01 32))) mod ell <> 0.
Proof.
  pose proof (new_issuer toy_laws sample_params (@chacha toy (zeros 32))) as Hok.
  set (i := fst (signal_issuer_create sample_params (@chacha toy (zeros 32)))) in *. pose proof Hok as (Hpar & Hcon & Hs & Hw).
  assert (Hdec : @signal_issuer_from_bytes toy (signal_issuer_to_bytes i) = Ok i) by (apply (C33_issuer toy toy_laws); exact Hw).
  destruct (try_from_bytes (str "14155551234")) as [n| |] eqn:Hn; [|exfalso..].
  2,3: assert (K : is_ok (try_from_bytes (str "14155551234")) = true) by (vm_compute; reflexivity); rewrite Hn in K; discriminate.
  destruct (issue_result toy_laws sample_params i n (@chacha toy (repeat x01 32)) (toy_stream 1) Hok) as (iss & r' & os' & Hq & _).
  { pose proof (number_cases (str "14155551234")) as K; rewrite Hn in K; apply K. }
  exists (signal_issuer_to_bytes i), i, (system_parameters_to_bytes sample_params), (public_key_to_bytes (get_issuer_parameters i)), (issuance_to_bytes iss), os'.
  split; [exact Hdec|]. split; [exact Hcon|]. split; [exact Hs|].
  split; [rewrite Hpar; apply (C33_system_parameters toy toy_laws)|]. split; [intros os; exists i; auto|].
  split; [exists i, iss, r'; split; [exact Hdec|]; split; [|reflexivity]; unfold signal_issue; rewrite Hn; exact Hq|].
  split; [cbn; lia|]. intros H. vm_compute in H. discriminate.
Qed.
(** Bytes 96 to 127 of an issuance for 1415555: the length 7 is the last byte that is not zero. *)
Example C118_met_layout :
  number_in (zeros 96 ++ [x0f; x0f; x31; x34; x31; x35; x35; x35; x35; x0f; x0f; x07] ++ zeros 220)%list = str "1415555".
Proof. vm_compute. reflexivity. Qed.
(** The credential of 14155551234 shown with the commitment of their entry and the opening 5. *)
Definition sample_thief (m : scalar) : SignalUser toy :=
  {| su_phone_number := m;
     su_user := {| us_system_parameters := iss_system_parameters sample_issuer; us_issuer_parameters := get_issuer_parameters sample_issuer;
                   us_key := None; us_credential := Some {| cr_mac := cr_mac sample_credential; cr_attributes := [m] |} |} |}.
Example C118_met_entry : exists m X0 x,
  try_from_bytes (str "14155551234") = Ok m /\ pk_Xn (us_issuer_parameters (su_user (sample_thief m))) = [X0] /\
  @sp_g toy (iss_system_parameters sample_issuer) <> pzero /\
  roster_create (str "14155551234") (iss_system_parameters sample_issuer) (toy_stream 4) = Ok x /\
  5 mod ell <> re_opening (fst x) mod ell /\
  is_ok (signal_show (sample_thief m) (toy_stream 8) (toy_stream 9) {| re_commitment := re_commitment (fst x); re_opening := 5 |}) = true.
Proof.
  assert (K : exists x, roster_create (str "14155551234") (iss_system_parameters sample_issuer) (toy_stream 4) = Ok x /\
    match try_from_bytes (str "14155551234") with
    | Ok m => negb (5 mod ell =? re_opening (fst x) mod ell) &&
              is_ok (signal_show (sample_thief m) (toy_stream 8) (toy_stream 9) {| re_commitment := re_commitment (fst x); re_opening := 5 |})
    | _ => false
    end = true).
  { apply run1 with (test := fun x => match try_from_bytes (str "14155551234") with
      | Ok m => negb (5 mod ell =? re_opening (fst x) mod ell) &&
                is_ok (signal_show (sample_thief m) (toy_stream 8) (toy_stream 9) {| re_commitment := re_commitment (fst x); re_opening := 5 |})
      | _ => false
      end). vm_compute. reflexivity. }
  destruct K as (x & Hx & K). destruct (try_from_bytes (str "14155551234")) as [m| |] eqn:Hm; [|discriminate..].
  apply andb_true_iff in K as [K1 K2]. eexists m, _, x. split; [reflexivity|]. split; [reflexivity|].
  split; [intros H; apply (f_equal tv) in H; vm_compute in H; discriminate|]. split; [exact Hx|].
  split; [apply Z.eqb_neq, negb_true_iff, K1|exact K2].
Qed.
