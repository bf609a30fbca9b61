(** What the tests of the C interface can show (C72). *)
From Verif Require Import PropertiesFfi Toy CreatedFacts FfiFacts ModelFfi ModelTestsFfi.
Local Open Scope Z_scope.

Section facts.
  Context {E : Ext} (L : ExtLaws E).
  Lemma as_size_t_small z : 0 <= z < 2 ^ 32 -> @as_size_t E z = Z.to_nat z.
  Proof.
    intros H. unfold as_size_t. rewrite Z.mod_small; [reflexivity|].
    destruct (usize_bits_cases E L) as [-> | ->]; [lia|].
    assert (2 ^ 32 <= 2 ^ 64) by (vm_compute; discriminate). lia.
  Qed.
  (** Reading a returned buffer of the length asserted. *)
  Lemma read_back fuel m os f b m' os' length k : @c_run E fuel m os f = Returns b m' os' ->
    0 < length < 2 ^ 32 ->
    forall {Er A} (from_bytes : bytes -> outcome Er A) (g : A -> test_end),
    k = @assert_deserialized E Er A from_bytes m' (buf_len b) (buf_ptr b) g ->
    asserting_length b length k = (if buf_len b =? length then ReadsInvalidMemory else Failed).
  Proof.
    intros H Hl Er A from_bytes g ->. unfold asserting_length, asserting.
    destruct (Z.eqb_spec (buf_len b) length) as [He|He]; [|destruct (negb _); reflexivity].
    destruct (Z.eqb_spec (buf_len b) 0); [lia|]. cbn [negb]. unfold assert_deserialized.
    rewrite (C47_buffer_valid_refuted E L fuel m os f b m' os' H); [reflexivity|assumption|].
    rewrite as_size_t_small by lia. lia.
  Qed.
  (** A returned buffer is not an argument that can be decoded. *)
  Lemma not_given fuel m os f b m' os' bs : @c_run E fuel m os f = Returns b m' os' ->
    @given E m' (buf_ptr b) (buf_len b) bs -> bs = [].
  Proof.
    intros H (_ & Hn & Hr). destruct (Nat.eq_dec (@as_size_t E (buf_len b)) 0) as [Hz|Hz].
    - apply read_length in Hr. rewrite Hz in Hr. destruct bs; [reflexivity|discriminate].
    - rewrite (C47_buffer_valid_refuted E L fuel m os f b m' os' H Hn) in Hr by lia. discriminate.
  Qed.
  Lemma given_undefined {Er A} (from_bytes : bytes -> outcome Er A) fuel m os f b m' os' :
    @c_run E fuel m os f = Returns b m' os' -> ~ is_open f -> 0 < buf_len b < 2 ^ 32 ->
    @deserialize_or_return E Er A from_bytes m' (buf_len b) (buf_ptr b) = Undefined.
  Proof.
    intros H Ho Hl. unfold deserialize_or_return, len_and_ptr_to_slice.
    assert (Hp : is_null (buf_ptr b) = false).
    { apply (c_run_returns L) in H as [(ser & _ & -> & _)|[[_ ->]|(K & _)]]; [reflexivity|reflexivity|contradiction]. }
    rewrite Hp. destruct (Z.eqb_spec (buf_len b) 0); [lia|]. cbn [orb].
    rewrite (C47_buffer_valid_refuted E L fuel m os f b m' os' H); [reflexivity|assumption|].
    rewrite as_size_t_small by lia. lia.
  Qed.
  Lemma issuer_not_empty : (forall i, @signal_issuer_from_bytes E [] <> Ok i) /\ (forall e, @roster_from_bytes E [] <> Ok e).
  Proof.
    assert (G : forall i, @signal_issuer_from_bytes E [] <> Ok i).
    { intros i H. apply (issuer_iff L) in H as [_ H]. apply (f_equal (@List.length byte)) in H.
      rewrite (issuer_length L) in H. cbn in H. lia. }
    split; [exact G|]. intros e H. discriminate.
  Qed.
End facts.

(** Whatever the constants, the memory and the generator, seven of the eight tests do not pass. *)
Theorem C72_tests_pass_refuted : forall E, ExtLaws E -> forall c fuel m os,
  @test_system_parameters_create E c fuel m os <> Passed /\
  @test_issuer_create E c m os <> Passed /\
  @test_issuer_new E c m os <> Passed /\
  @test_issuer_get_issuer_parameters E c m os <> Passed /\
  @test_issuer_issue E c m os <> Passed /\
  @test_issuer_verify E c m os <> Passed /\
  @test_user_show E c m os <> Passed.
Proof.
  intros E L c fuel m os. destruct (issuer_not_empty L) as (Hie & Hre).
  assert (D : forall f b m' os' length Er A (g : bytes -> outcome Er A) k, @c_run E fuel m os f = Returns b m' os' ->
    0 < length < 2 ^ 32 -> asserting_length b length (@assert_deserialized E Er A g m' (buf_len b) (buf_ptr b) k) <> Passed).
  { intros f b m' os' length Er A g k H Hl. rewrite (read_back L fuel m os f b m' os' length _ H Hl g k eq_refl).
    destruct (buf_len b =? length); discriminate. }
  assert (B : 0 < 64 < 2 ^ 32 /\ 0 < 96 < 2 ^ 32 /\ 0 < 160 < 2 ^ 32 /\ 0 < 448 < 2 ^ 32) by (repeat split; reflexivity).
  destruct B as (B1 & B2 & B3 & B4).
  assert (Z0 : forall length k, asserting_length zero_len_and_ptr length k = Failed) by reflexivity.
  split; [|split; [|split; [|split; [|split; [|split]]]]].
  - unfold test_system_parameters_create, calling. destruct (c_system_parameters_create _ _ _ _) as [b m' os'| | |] eqn:H; try discriminate.
    apply (D (SystemParametersCreate (SEED c)) b m' os'); assumption.
  - unfold test_issuer_create, calling. destruct (c_issuer_create _ _ _ _ _) as [b m' os'| | |] eqn:H; try discriminate.
    apply (D (IssuerCreate _ _ _) b m' os' _ _ _ _ _ H); assumption.
  - unfold test_issuer_new, calling, issuer_of_constants. destruct (c_issuer_new _ _ _ _ _ _) as [b m' os'| | |] eqn:H; try discriminate.
    apply (D (IssuerNew _ _ _ _) b m' os' _ _ _ _ _ H); assumption.
  - unfold test_issuer_get_issuer_parameters, calling, issuer_of_constants.
    destruct (c_issuer_new _ _ _ _ _ _) as [i m' os'| | |] eqn:H; try discriminate.
    destruct (c_issuer_get_issuer_parameters _ _ _ _) as [b m2 os2| | |] eqn:H2; try discriminate.
    unfold c_issuer_get_issuer_parameters in H2. apply call_returns in H2 as [H2|(H2 & _)].
    + exfalso. apply then_next in H2 as (x & H2 & _). apply des_next in H2 as (bs & G & K).
      apply (not_given L fuel m os (IssuerNew _ _ _ _) i m' os' bs H) in G. subst bs. exact (Hie _ K).
    + match type of H2 with ?x = _ => assert (K : only_empty x) by empties L; rewrite (K _ H2) end. rewrite Z0. discriminate.
  - unfold test_issuer_issue, calling, issuer_of_constants.
    destruct (c_issuer_new _ _ _ _ _ _) as [i m' os'| | |] eqn:H; try discriminate.
    destruct (c_issuer_issue _ _ _ _ _ _ _) as [b m2 os2| | |] eqn:H2; try discriminate.
    unfold c_issuer_issue in H2. apply call_returns in H2 as [H2|(H2 & _)].
    + exfalso. apply then_next in H2 as (x & H2 & _). apply des_next in H2 as (bs & G & K).
      apply (not_given L fuel m os (IssuerNew _ _ _ _) i m' os' bs H) in G. subst bs. exact (Hie _ K).
    + match type of H2 with ?x = _ => assert (K : only_empty x) by empties L; rewrite (K _ H2) end. rewrite Z0. discriminate.
  - unfold test_issuer_verify, calling, issuer_of_constants.
    destruct (c_issuer_new _ _ _ _ _ _) as [i m' os'| | |] eqn:H; try discriminate.
    destruct (c_issuer_verify _ _ _ _ _ _) as [b m2 os2| | |] eqn:H2; try discriminate.
    unfold c_issuer_verify in H2. apply call_returns in H2 as [H2|(H2 & _)].
    + exfalso. apply then_next in H2 as (x & H2 & _). apply des_next in H2 as (bs & G & K).
      apply (not_given L fuel m os (IssuerNew _ _ _ _) i m' os' bs H) in G. subst bs. exact (Hie _ K).
    + match type of H2 with ?x = _ => assert (K : only_empty x) by empties L; rewrite (K _ H2) end. rewrite Z0. discriminate.
  - unfold test_user_show, calling.
    destruct (c_roster_entry_commitment_create _ _ _ _ _ _ _) as [e m' os'| | |] eqn:H; try discriminate.
    destruct (c_user_show _ _ _ _ _ _ _) as [b m2 os2| | |] eqn:H2; try discriminate.
    unfold c_user_show in H2. apply call_returns in H2 as [H2|(H2 & _)].
    + exfalso. apply then_next in H2 as (r & _ & H2). apply then_next in H2 as (u & _ & H2).
      apply then_next in H2 as (x & H2 & _). apply des_next in H2 as (bs & G & K).
      apply (not_given L fuel m os (RosterEntryCommitmentCreate _ _ _ _ _) e m' os' bs H) in G. subst bs. exact (Hre _ K).
    + match type of H2 with ?x = _ => assert (K : only_empty x) by empties L; rewrite (K _ H2) end. rewrite Z0. discriminate.
Qed.
Print Assumptions C72_tests_pass_refuted.

(** They read memory that was freed, as soon as the function under test, or the one that
    prepares its argument, succeeds. *)
Theorem C72_tests_read_freed_memory : forall E, ExtLaws E -> forall c fuel m os b m' os',
  (@c_run E fuel m os (SystemParametersCreate (SEED c)) = Returns b m' os' -> buf_len b <> 0 ->
   @test_system_parameters_create E c fuel m os = ReadsInvalidMemory) /\
  (@c_run E fuel m os (IssuerCreate (at_ (SYSTEM_PARAMETERS c)) (size (SYSTEM_PARAMETERS c)) (SEED c)) = Returns b m' os' ->
   buf_len b <> 0 -> @test_issuer_create E c m os = ReadsInvalidMemory) /\
  (@c_run E fuel m os (IssuerNew (at_ (SYSTEM_PARAMETERS c)) (size (SYSTEM_PARAMETERS c))
                        (at_ (ISSUER_KEYPAIR c)) (size (ISSUER_KEYPAIR c))) = Returns b m' os' -> buf_len b = 160 ->
   @test_issuer_new E c m os = ReadsInvalidMemory /\
   @test_issuer_get_issuer_parameters E c m os = ReadsInvalidMemory /\
   @test_issuer_issue E c m os = ReadsInvalidMemory /\
   @test_issuer_verify E c m os = ReadsInvalidMemory) /\
  (@c_run E fuel m os (RosterEntryCommitmentCreate (at_ (PHONE_NUMBER c)) (size (PHONE_NUMBER c))
                        (at_ (SYSTEM_PARAMETERS c)) (size (SYSTEM_PARAMETERS c)) (SEED c)) = Returns b m' os' -> buf_len b <> 0 ->
   forall sb ub u, given_seed m' (SEED c) sb ->
   @given E m' (at_ (USER_WITH_CREDENTIAL c)) (size (USER_WITH_CREDENTIAL c)) ub -> @signal_user_from_bytes E ub = Ok u ->
   @test_user_show E c m os = ReadsInvalidMemory).
Proof.
  intros E L c fuel m os b m' os'.
  assert (B : 0 < 64 < 2 ^ 32 /\ 0 < 96 < 2 ^ 32 /\ 0 < 160 < 2 ^ 32 /\ 0 < 448 < 2 ^ 32) by (repeat split; reflexivity).
  destruct B as (B1 & B2 & B3 & B4). split; [|split; [|split]]; intros H Hl.
  - destruct (C60_result_lengths E L _ _ _ _ _ _ _ 64 H eq_refl) as [K|K]; [contradiction|].
    unfold test_system_parameters_create. pose proof H as H'. cbn [c_run] in H'. rewrite H'. cbn [calling].
    rewrite (read_back L fuel m os _ b m' os' _ _ H B1 _ _ eq_refl), K. reflexivity.
  - destruct (C60_result_lengths E L _ _ _ _ _ _ _ 96 H eq_refl) as [K|K]; [contradiction|].
    unfold test_issuer_create. pose proof H as H'. cbn [c_run] in H'. rewrite H'. cbn [calling].
    rewrite (read_back L fuel m os _ b m' os' _ _ H B2 _ _ eq_refl), K. reflexivity.
  - pose proof H as H'. cbn [c_run] in H'.
    unfold test_issuer_new, test_issuer_get_issuer_parameters, test_issuer_issue, test_issuer_verify, issuer_of_constants.
    rewrite H'. cbn [calling]. split; [rewrite (read_back L fuel m os _ b m' os' _ _ H B3 _ _ eq_refl), Hl; reflexivity|].
    assert (U : @deserialize_or_return E _ _ (@signal_issuer_from_bytes E) m' (buf_len b) (buf_ptr b) = Undefined).
    { apply (given_undefined L _ fuel m os _ b m' os' H); [intros []|rewrite Hl; exact B3]. }
    unfold c_issuer_get_issuer_parameters, c_issuer_issue, c_issuer_verify. rewrite U. repeat split.
  - intros sb ub u Hs Hu Hd. destruct (C60_result_lengths E L _ _ _ _ _ _ _ 64 H eq_refl) as [K|K]; [contradiction|].
    pose proof H as H'. cbn [c_run] in H'. unfold test_user_show. rewrite H'. cbn [calling]. unfold c_user_show.
    rewrite (proj2 (csprng_next L m' (SEED c) (@chacha E sb))) by eauto. cbn [then_].
    rewrite (proj2 (des_next _ m' _ _ u)) by eauto. cbn [then_].
    rewrite (given_undefined L _ fuel m os _ b m' os' H); [reflexivity|intros []|rewrite K; exact B1].
Qed.
Print Assumptions C72_tests_read_freed_memory.

(** The test of [user_obtain_finish] does not look at the result; it passes exactly if the
    constants can be decoded and the issuance is accepted. *)
Theorem C72_obtain_finish_test : forall E, ExtLaws E -> forall c m os,
  @test_user_obtain_finish E c m os = Passed <->
  exists pb (params : SystemParameters E) ipb X1 sb (iss : CredentialIssuance E) nb,
    @given E m (at_ (SYSTEM_PARAMETERS c)) (size (SYSTEM_PARAMETERS c)) pb /\ system_parameters_from_bytes pb = Ok params /\
    @given E m (at_ (ISSUER_PARAMETERS c)) (size (ISSUER_PARAMETERS c)) ipb /\ public_key_from_bytes ipb = Ok {| pk_Xn := [X1] |} /\
    @given E m (at_ (ISSUANCE c)) (size (ISSUANCE c)) sb /\ issuance_from_bytes sb = Ok iss /\
    @given E m (at_ (PHONE_NUMBER c)) (size (PHONE_NUMBER c)) nb /\ (List.length nb <= 27)%nat /\
    snd (obtain_finish (user_new params {| pk_Xn := [X1] |} None) (Some iss)) = Ok tt.
Proof.
  intros E L c m os. split.
  - unfold test_user_obtain_finish, calling. destruct (c_user_obtain_finish _ _ _ _ _ _ _ _ _ _) as [b m' os'| | |] eqn:H; try discriminate.
    unfold asserting_length, asserting. destruct (Z.eqb_spec (buf_len b) 0) as [Hz|Hz]; [discriminate|]. cbn [negb].
    destruct (Z.eqb_spec (buf_len b) LENGTH_USER) as [Hl|Hl]; [|discriminate]. intros _.
    match type of H with c_user_obtain_finish _ _ ?n ?nl ?p ?pl ?ip ?ipl ?s ?sl = _ =>
      assert (R : exists ub, Z.of_nat (List.length ub) = LENGTH_USER /\ returned (@c_run E 0 m os (UserObtainFinish n nl p pl ip ipl s sl)) ub) end.
    { destruct (C48_positive_length_is_success E L 0 m os (UserObtainFinish _ _ _ _ _ _ _ _) b m' os' H) as [K|(ser & _ & K1 & K2)];
        [intros []|contradiction|]. exists ser. split; [congruence|]. exists b, m', os'. auto. }
    destruct R as (ub & Hub & R).
    apply (c_obtain_inv L) in R as (pb & params & ipb & ips & sb & iss & nb & num & X1 & Xs & G1 & D1 & G2 & D2 & G3 & D3 & G4 & D4 & HX & Hv & ->).
    assert (Hone : Xs = []).
    { apply (issuance_iff L) in D3 as [[Hwc _] _]. pose proof (proj1 Hwc) as Hlen.
      unfold signal_user_to_bytes, phone_number_to_bytes in Hub. cbn [su_user su_phone_number] in Hub.
      rewrite app_length, scalar_to_bytes_length, (user_bytes_length L) in Hub;
        [|reflexivity|intros c0 Hc0; assert (c0 = is_credential iss) by (cbn in Hc0; congruence); subst; exact Hlen].
      cbn [us_issuer_parameters] in Hub. rewrite HX in Hub. destruct Xs; [reflexivity|]. unfold LENGTH_USER in Hub. cbn [List.length] in Hub. lia. }
    subst Xs. destruct ips as [Xn]. cbn [pk_Xn] in HX. subst Xn.
    exists pb, params, ipb, X1, sb, iss, nb. do 7 (split; [assumption|]). split.
    + destruct (Nat.le_gt_cases (List.length nb) 27) as [?|Hgt]; [assumption|]. exfalso.
      destruct (Nat.le_gt_cases (List.length nb) 32) as [Hle|Hgt'].
      * destruct (proj1 (proj2 (C27_outcomes nb))) as [K _]; [lia|]. congruence.
      * destruct (proj2 (proj2 (C27_outcomes nb))) as [K _]; [lia|]. congruence.
    + apply obtain_finish_ok. exists X1, []. split; [reflexivity|exact Hv].
  - intros (pb & params & ipb & X1 & sb & iss & nb & G1 & D1 & G2 & D2 & G3 & D3 & G4 & Hn & Hok).
    destruct (proj1 (proj1 (C27_outcomes nb) Hn)) as (num & Hnum & _).
    unfold test_user_obtain_finish, c_user_obtain_finish.
    rewrite (proj2 (des_next _ m _ _ params)) by eauto. cbn [then_].
    rewrite (proj2 (des_next _ m _ _ {| pk_Xn := [X1] |})) by eauto. cbn [then_].
    rewrite (proj2 (des_next _ m _ _ iss)) by eauto. cbn [then_].
    rewrite (proj2 (slice_next m _ _ nb)) by assumption. cbn [then_].
    unfold signal_user_new. rewrite Hnum. cbn [map_err bind ok_or_return then_].
    unfold signal_obtain_finish. cbn [su_user su_phone_number].
    pose proof (obtain_finish_accept (user_new params {| pk_Xn := [X1] |} None) iss Hok) as Ha.
    destruct (obtain_finish (user_new params {| pk_Xn := [X1] |} None) (Some iss)) as [v res]. cbn [snd] in Hok. subst res.
    cbn [ok_or_return then_]. injection Ha as ->.
    assert (Hlen : List.length (cr_attributes (is_credential iss)) = 1%nat).
    { apply (issuance_iff L) in D3 as [[Hwc _] _]. exact (proj1 Hwc). }
    match goal with |- context [signal_user_to_bytes ?u] => assert (Hl : List.length (signal_user_to_bytes u) = 288%nat) end.
    { unfold signal_user_to_bytes, phone_number_to_bytes. cbn [su_user su_phone_number].
      rewrite app_length, scalar_to_bytes_length, (user_bytes_length L);
        [reflexivity|reflexivity|]. intros c0 Hc0. assert (c0 = is_credential iss) by (cbn in Hc0; congruence). subst. exact Hlen. }
    match goal with |- context [return_serialized m os ?ser] => set (bs := ser) in * end.
    unfold return_serialized, vec_new. destruct bs as [|x bs']; [discriminate|].
    cbn [call calling]. unfold asserting_length, asserting, slice_to_len_and_ptr. cbn [buf_len]. rewrite Hl. reflexivity.
Qed.
Print Assumptions C72_obtain_finish_test.
Definition sample_constants : constants :=
  {| SEED := Block 0 0; PHONE_NUMBER := {| at_ := Block 1 0; size := 3 |}; SYSTEM_PARAMETERS := {| at_ := Block 2 0; size := 64 |};
     ISSUER_PARAMETERS := {| at_ := Block 3 0; size := 32 |}; ISSUER_KEYPAIR := {| at_ := Block 4 0; size := 96 |};
     ISSUANCE := {| at_ := Block 5 0; size := 328 |}; USER_WITH_CREDENTIAL := {| at_ := Block 6 0; size := 288 |};
     PRESENTATION := {| at_ := Block 7 0; size := 448 |} |}.
Definition sample_memory (iss : CredentialIssuance toy) : memory :=
  blocks [zeros 32; str "123"; system_parameters_to_bytes sample_params; public_key_to_bytes (kp_public (iss_keypair sample_issuer));
          keypair_to_bytes (iss_keypair sample_issuer); issuance_to_bytes iss].
Definition passed (t : test_end) : bool := match t with Passed => true | _ => false end.
Definition invalid (t : test_end) : bool := match t with ReadsInvalidMemory => true | _ => false end.
Example C72_met : exists iss r os, signal_issue sample_issuer (str "123") (toy_stream 7) (toy_stream 8) = Ok (iss, r, os) /\
  (let m := sample_memory iss in
   passed (@test_user_obtain_finish toy sample_constants m (toy_stream 1)) &&
   invalid (@test_system_parameters_create toy sample_constants 4 m (toy_stream 1)) &&
   invalid (@test_issuer_create toy sample_constants m (toy_stream 1)) &&
   invalid (@test_issuer_new toy sample_constants m (toy_stream 1)) &&
   invalid (@test_issuer_issue toy sample_constants m (toy_stream 1)))%bool = true.
Proof. apply run3. vm_compute. reflexivity. Qed.
