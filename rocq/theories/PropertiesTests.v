(** What the tests of the two crates can show (C71): for which random choices, and
    which constants, each of them passes. *)
From Verif Require Import ModelTests CreatedFacts MacFacts PropertiesMac PropertiesSignal PropertiesUniform.
From Verif Require Import Toy.
From Coq Require Import Setoid.
Local Open Scope Z_scope.

Definition passes_exactly (t : outcome unit unit) (P : Prop) : Prop :=
  (t = Ok tt /\ P) \/ (t = Panic /\ ~ P).

Section facts.
  Context {E : Ext} (L : ExtLaws E).
  Lemma peqb_refl (a : point E) : peqb a a = true.
  Proof. apply (peqb_true L). reflexivity. Qed.
  Lemma list_eqb_refl {A} (eqb : A -> A -> bool) : (forall a, eqb a a = true) -> forall l, list_eqb eqb l l = true.
  Proof. intros H l. induction l as [|x l IH]; [reflexivity|]. cbn [list_eqb]. rewrite H, IH. reflexivity. Qed.
  Lemma scalar_eqb_refl s : scalar_eqb s s = true.
  Proof. apply Z.eqb_refl. Qed.
  Lemma presentation_eqb_refl (p : CredentialPresentation E) : presentation_eqb p p = true.
  Proof.
    unfold presentation_eqb, vc_proof_eqb. rewrite !peqb_refl, !scalar_eqb_refl, (list_eqb_refl _ scalar_eqb_refl), (list_eqb_refl _ peqb_refl).
    reflexivity.
  Qed.
  Lemma signal_presentation_eqb_refl (p : SignalCredentialPresentation E) : signal_presentation_eqb p p = true.
  Proof. unfold signal_presentation_eqb, ce_proof_eqb. rewrite !peqb_refl, presentation_eqb_refl, !scalar_eqb_refl. reflexivity. Qed.
  Lemma signal_user_eqb_refl (u : SignalUser E) : signal_user_eqb u u = true.
  Proof.
    unfold signal_user_eqb, user_eqb, system_parameters_eqb.
    rewrite !peqb_refl, scalar_eqb_refl, (list_eqb_refl _ peqb_refl). cbn [andb].
    assert (Hk : option_eqb elgamal_keypair_eqb (us_key (su_user u)) (us_key (su_user u)) = true).
    { destruct (us_key (su_user u)); [|reflexivity]. cbn [option_eqb]. unfold elgamal_keypair_eqb. rewrite scalar_eqb_refl, peqb_refl. reflexivity. }
    rewrite Hk. destruct (us_credential (su_user u)) as [c|]; [|reflexivity]. cbn [option_eqb]. unfold credential_eqb, tag_eqb.
    rewrite !peqb_refl, (list_eqb_refl _ scalar_eqb_refl). reflexivity.
  Qed.
  (** Two verifications of one tag, whatever the tag. *)
  Lemma verify_twice key tag m1 m2 :
    passes_exactly
      (do ok <- result_is_ok (mac_verify (E := E) key tag m1); do _ <- assert ok;
       do err <- result_is_err (mac_verify key tag m2); assert err)
      (mac_verify key tag m1 = Ok tt /\ mac_verify key tag m2 <> Ok tt).
  Proof.
    destruct (mac_verify_cases key tag m1) as [H|H], (mac_verify_cases key tag m2) as [H'|H']; rewrite H, H';
      cbn [result_is_ok result_is_err assert bind].
    - right. split; [reflexivity|]. intros [_ K]. congruence.
    - left. split; [reflexivity|]. split; [reflexivity|discriminate].
    - right. split; [reflexivity|]. intros [K _]. discriminate.
    - right. split; [reflexivity|]. intros [K _]. discriminate.
  Qed.
End facts.

Lemma passes_iff t P Q : (P <-> Q) -> passes_exactly t P -> passes_exactly t Q.
Proof. unfold passes_exactly. tauto. Qed.

(** ** C71: the MAC tests *)
(** Scalar number [i] drawn from a stream. *)
Definition drawn (i : nat) (r : rng) : scalar := from_bytes_mod_order_wide (block i r).
Lemma drawn_canonical i r : canonical (drawn i r).
Proof. apply mod_range. Qed.
Lemma shift_rng_draw i r : drawn i (fun j => r (64 + j)%nat) = drawn (S i) r.
Proof. unfold drawn. rewrite shift_block. reflexivity. Qed.

Section mac_tests.
  Context {E : Ext} (L : ExtLaws E).
  Lemma scalar_random_drawn r : @scalar_random r = (drawn 0 r, fun j => r (64 + j)%nat).
  Proof. apply scalar_random_block. Qed.
  Lemma tagged_eq r : exists t r',
    tagged (E := E) r = Ok ({| sk_x0 := drawn 0 r; sk_xn := [drawn 1 r; drawn 2 r] |},
                   [drawn 3 r; drawn 4 r], [drawn 3 r; drawn 5 r], t, r') /\
    fst (scalar_random r') = drawn 7 r /\
    tag_nonce t = smul (drawn 6 r) (@basepoint E) /\
    tag_mac t = smul (drawn 0 r + (drawn 1 r * drawn 3 r + drawn 2 r * drawn 4 r)) (tag_nonce t).
  Proof.
    unfold tagged, secret_key_new. cbn [scalars_random]. rewrite !scalar_random_drawn.
    repeat rewrite shift_rng_draw.
    match goal with |- context [mac ?k ?m ?q] => destruct (mac_ok (E := E) k m q eq_refl) as [t Ht] end.
    pose proof (mac_spec L _ _ _ _ _ Ht) as (Hn & _ & _ & He).
    rewrite Ht. cbn [unwrap bind fst snd]. eexists t, _. split; [reflexivity|].
    rewrite !scalar_random_drawn in *. cbn [fst snd] in *. rewrite ?scalar_random_drawn in *. cbn [fst snd] in *.
    repeat rewrite shift_rng_draw in *. split; [reflexivity|]. split; [exact Hn|].
    cbn [sk_x0 sk_xn] in He. rewrite He. apply (smul_eqm L), eqm_of_eq. cbn [dot].
    change (drawn 0 (fun j : nat => r (64 + (64 + j))%nat)) with (drawn 2 r).
    change (drawn 0 (fun j : nat => r (64 + (64 + (64 + j)))%nat)) with (drawn 3 r).
    change (drawn 0 (fun j : nat => r (64 + (64 + (64 + (64 + j))))%nat)) with (drawn 4 r).
    zring.
  Qed.
End mac_tests.

Section protocol_tests.
  Context {E : Ext} (L : ExtLaws E).
  Lemma obtain_finish_parameters (u : User E) oi :
    us_issuer_parameters (fst (obtain_finish u oi)) = us_issuer_parameters u.
  Proof. rewrite obtain_finish_result. destruct (snd (obtain_finish u oi)) as [[]| |], oi; reflexivity. Qed.
  (** The constant the tests take as the second generator is acceptable. *)
  Lemma from_array_cases H :
    (exists h, @decompress E H = Some h /\ ~ (debug_build E = true /\ H = compress (@basepoint E)) /\
       system_parameters_from_array H = Ok {| sp_g := basepoint; sp_h := h |}) \/
    (system_parameters_from_array (E := E) H = Panic /\
       ~ ((exists h, @decompress E H = Some h) /\ ~ (debug_build E = true /\ H = compress (@basepoint E)))).
  Proof.
    unfold system_parameters_from_array. destruct (debug_build E && bytes_eqb H (compress basepoint))%bool eqn:Hd.
    - right. split; [reflexivity|]. apply andb_prop in Hd as [H1 H2]. apply bytes_eqb_true in H2. tauto.
    - assert (Hn : ~ (debug_build E = true /\ H = compress (@basepoint E))).
      { intros [H1 H2]. rewrite H1 in Hd. cbn [andb] in Hd. apply bytes_eqb_false in Hd. contradiction. }
      destruct (decompress H) as [h|] eqn:He; cbn [or_panic bind].
      + left. exists h. auto.
      + right. split; [reflexivity|]. intros [[h Hh] _]. discriminate.
  Qed.
  Lemma presented_ok (s : nat -> rng) H h : @system_parameters_from_array E H = Ok {| sp_g := basepoint; sp_h := h |} ->
    exists (i : Issuer E) (p : CredentialPresentation E), presented H s = Ok (i, p) /\ issuer_verify i p = Ok {| vf_presentation := p |} /\ wf_presentation p.
  Proof.
    intros Hp. unfold presented. rewrite Hp. cbn [unwrap bind].
    set (params := {| sp_g := basepoint; sp_h := h |}).
    destruct (issuer_create_facts params (s 0%nat)) as (Hi & Hc & Hs). set (i := fst (issuer_create params (s 0%nat))) in *.
    destruct (created_issuer params (s 0%nat)) as (_ & X1 & x1 & HX & _). fold i in HX.
    set (u := user_new params (get_issuer_parameters i) None). set (m := fst (scalar_random (s 1%nat))).
    assert (Hu : user_of i u) by (split; [cbn; symmetry; exact Hi|reflexivity]).
    change (obtain u [m]) with {| rq_attributes_revealed := [m] |}.
    destruct (C10_honest_issuance_accepted E L i u m (s 2%nat) (s 3%nat) Hc Hs Hu) as (iss & r' & os' & H1 & Hv & H2).
    rewrite H1. cbn [unwrap bind]. rewrite H2. cbn [unwrap bind].
    set (u' := {| us_system_parameters := _ |}).
    assert (Hn : fst (nonces_new (s 4%nat) NUMBER_OF_ATTRIBUTES) = [fst (scalar_random (s 4%nat))]).
    { unfold nonces_new, NUMBER_OF_ATTRIBUTES. cbn [scalars_random]. destruct (scalar_random (s 4%nat)). reflexivity. }
    rewrite Hn. set (z0 := fst (scalar_random (s 4%nat))).
    assert (Hu' : user_of i u') by exact Hu. assert (Hc' : us_credential u' = Some (is_credential iss)) by reflexivity.
    destruct (C16_presentation_accepted E L i u' (is_credential iss) m z0 (s 5%nat) (s 6%nat) Hc Hs Hu' Hc' Hv)
      as (p & r2 & os2 & H3 & H4).
    rewrite H3. cbn [unwrap bind]. exists i, p. split; [reflexivity|]. split; [exact H4|].
    apply wf_presentation_iff. destruct Hv as [Ha _].
    pose proof (show_ok u' (is_credential iss) m [] X1 [] z0 (s 5%nat) (s 6%nat) Hc' Ha HX) as Hsh. cbv zeta in Hsh.
    rewrite H3 in Hsh. apply ok3 in Hsh as (-> & _ & _). clear H3 H4. split; [reflexivity|]. split; [reflexivity|]. apply (vc_create_wf L).
  Qed.
End protocol_tests.

(** The constant the tests use as second generator decodes, and is not the
    basepoint in a build with debug assertions. *)
Definition good_constant (E : Ext) (H : bytes) : Prop :=
  (exists h, @decompress E H = Some h) /\ ~ (debug_build E = true /\ H = compress (@basepoint E)).

Theorem C71_mac_tests : forall E, ExtLaws E -> forall (r : rng),
  passes_exactly (@test_mac_authentication E r)
    (drawn 6 r <> 0 /\ drawn 6 r <> 1 /\ drawn 2 r <> 0 /\ drawn 4 r <> drawn 5 r) /\
  passes_exactly (@test_rerandomised_mac_authentication E r)
    ((drawn 7 r * drawn 6 r) mod ell <> 0 /\ (drawn 7 r * drawn 6 r) mod ell <> 1 /\
     drawn 2 r <> 0 /\ drawn 4 r <> drawn 5 r).
Proof.
  intros E L r.
  assert (G : forall b (t : Tag E), tag_nonce t = smul b basepoint ->
     tag_mac t = smul (drawn 0 r + (drawn 1 r * drawn 3 r + drawn 2 r * drawn 4 r)) (tag_nonce t) ->
     let key := {| sk_x0 := drawn 0 r; sk_xn := [drawn 1 r; drawn 2 r] |} in
     (mac_verify key t [drawn 3 r; drawn 4 r] = Ok tt /\ mac_verify key t [drawn 3 r; drawn 5 r] <> Ok tt) <->
     (b mod ell <> 0 /\ b mod ell <> 1 /\ drawn 2 r <> 0 /\ drawn 4 r <> drawn 5 r)).
  { intros b t Hn Hm key. rewrite !(mac_verify_iff L). cbn [sk_x0 sk_xn key dot]. rewrite Hm.
    assert (B1 : tag_nonce t = basepoint <-> b mod ell = 1).
    { rewrite Hn, (base_iff_1 L). unfold eqm. rewrite (Z.mod_small 1) by (pose proof ell_gt_1; lia). reflexivity. }
    assert (B0 : tag_nonce t = pzero <-> b mod ell = 0).
    { rewrite Hn. rewrite <- (smul_0 (@basepoint E)), (smul_base_iff L). unfold eqm. rewrite Z.mod_0_l by (pose proof ell_pos; lia). reflexivity. }
    assert (K1 : smul (drawn 0 r + (drawn 1 r * drawn 3 r + drawn 2 r * drawn 4 r)) (tag_nonce t) =
                 smul (drawn 0 r + (drawn 1 r * drawn 3 r + (drawn 2 r * drawn 4 r + 0))) (tag_nonce t)).
    { apply (smul_eqm L), eqm_of_eq. zring. }
    assert (K2 : smul (drawn 0 r + (drawn 1 r * drawn 3 r + drawn 2 r * drawn 4 r)) (tag_nonce t) =
                 smul (drawn 0 r + (drawn 1 r * drawn 3 r + (drawn 2 r * drawn 5 r + 0))) (tag_nonce t) <->
                 tag_nonce t = pzero \/ drawn 2 r = 0 \/ drawn 4 r = drawn 5 r).
    { destruct (point_eq_dec L (tag_nonce t) pzero) as [Hz|Hz].
      - rewrite Hz, !(smul_pzero L). tauto.
      - rewrite (smul_inj L) by exact Hz. split.
        + intros H. right. apply eqm_sub_0 in H.
          assert (H' : drawn 2 r * (drawn 4 r - drawn 5 r) == 0) by (rewrite <- H; apply eqm_of_eq; zring).
          apply eqm_mul_0 in H' as [H'|H'].
          * left. apply eqm_canonical; [apply drawn_canonical|split; [lia|apply ell_pos]|exact H'].
          * right. apply eqm_canonical; [apply drawn_canonical..|apply eqm_sub_0; exact H'].
        + intros [H|[H|H]]; [contradiction|rewrite H|rewrite H]; apply eqm_of_eq; zring. }
    tauto. }
  destruct (tagged_eq L r) as (t & r' & Ht & Hr & Hn & Hm).
  unfold test_mac_authentication, test_rerandomised_mac_authentication. rewrite Ht. cbn [bind]. split.
  - eapply passes_iff; [|apply verify_twice]. rewrite (G (drawn 6 r) t Hn Hm).
    rewrite Z.mod_small by apply drawn_canonical. reflexivity.
  - rewrite Hr. eapply passes_iff; [|apply verify_twice]. apply G.
    + cbn [apply_to_tag tag_nonce]. rewrite Hn. clear - L. pring L.
    + cbn [apply_to_tag tag_nonce tag_mac]. rewrite Hm. generalize (tag_nonce t). clear - L. intros. pring L.
Qed.
Print Assumptions C71_mac_tests.
(** It passes on one stream, and fails on the stream of zeros. *)
Example C71_mac_tests_met :
  @test_mac_authentication toy (toy_stream 5) = Ok tt /\ @test_mac_authentication toy (fun _ => x00) = Panic /\
  @test_rerandomised_mac_authentication toy (toy_stream 5) = Ok tt.
Proof. split; [|split]; vm_compute; reflexivity. Qed.

(** The tests of issuance and presentation do not depend on the random choices. *)
Theorem C71_presentation_tests : forall E, ExtLaws E -> forall H (s : nat -> rng),
  passes_exactly (@test_issuance_and_presentation E H s) (good_constant E H) /\
  passes_exactly (@test_presentation_serialize E H s) (good_constant E H) /\
  passes_exactly (@test_verified_serialize E H s) (good_constant E H).
Proof.
  intros E L H s. destruct (from_array_cases (E := E) H) as [(h & Hd & Hn & Hp)|[Hp Hb]].
  - assert (G : good_constant E H) by (split; [exists h|]; assumption).
    destruct (presented_ok L s H h Hp) as (i & p & Hs & Hv & Hw).
    unfold test_issuance_and_presentation, test_presentation_serialize, test_verified_serialize.
    rewrite Hs. cbn [bind]. rewrite Hv. cbn [unwrap bind].
    rewrite (proj2 (C33_presentation E L p) Hw). cbn [unwrap bind result_is_ok assert]. rewrite (presentation_eqb_refl L).
    pose proof (proj2 (proj1 (C33_verified E L {| vf_presentation := p |} {| vs_presentation :=
      {| sc_roster_entry_commitment := basepoint; sc_roster_membership_proof := {| ce_challenge := 0; ce_responses := Build_ce_Scalars 0 0 0 |};
         sc_presentation := p |} |})) Hw) as Hr.
    rewrite Hr. cbn [unwrap bind result_is_ok assert vf_presentation]. rewrite (presentation_eqb_refl L).
    repeat split; left; split; trivial.
  - unfold test_issuance_and_presentation, test_presentation_serialize, test_verified_serialize, presented. rewrite Hp.
    cbn [unwrap bind]. repeat split; right; split; trivial.
Qed.
Print Assumptions C71_presentation_tests.
Example C71_presentation_tests_met :
  @test_issuance_and_presentation toy (compress (pt 33)) (fun k => toy_stream (Z.of_nat k)) = Ok tt /\
  @test_presentation_serialize toy (zeros 31) (fun k => toy_stream (Z.of_nat k)) = Panic.
Proof. split; vm_compute; reflexivity. Qed.

Theorem C71_parameters_tests : forall E, ExtLaws E -> forall H b r,
  passes_exactly (@test_parameters_serialize E H) (good_constant E H) /\
  passes_exactly (@test_signal_user_serialize E H r) (good_constant E H) /\
  (List.length b = 64%nat ->
   passes_exactly (@test_parameters_from_bytes E b)
     (@decompress E (firstn 32 b) = None \/ @decompress E (skipn 32 b) = None)).
Proof.
  intros E L H b r. split; [|split].
  - unfold test_parameters_serialize. destruct (from_array_cases (E := E) H) as [(h & Hd & Hn & Hp)|[Hp Hb]]; rewrite Hp; cbn [unwrap bind].
    + rewrite (C33_system_parameters E L). cbn [unwrap bind]. unfold system_parameters_eqb. rewrite !(peqb_refl L). cbn [andb assert bind].
      unfold system_parameters_to_bytes. cbn [sp_g sp_h]. rewrite (slice_skip 32) by (try apply (compress_length E L); lia).
      rewrite slice_all by apply (compress_length E L). cbn [or_panic bind]. rewrite (compress_decompress E L H h Hd), bytes_eqb_refl.
      left. split; [reflexivity|]. split; [exists h|]; assumption.
    + right. split; [reflexivity|exact Hb].
  - unfold test_signal_user_serialize. destruct (from_array_cases (E := E) H) as [(h & Hd & Hn & Hp)|[Hp Hb]]; rewrite Hp; cbn [unwrap bind].
    + set (params := {| sp_g := basepoint; sp_h := h |}). set (i := fst (signal_issuer_create params r)).
      destruct (created_issuer params r) as (_ & X1 & x1 & HX & _).
      unfold signal_user_new. destruct (proj1 (C27_outcomes alice_number)) as [(n & Hnum & Hc) _]; [cbn; lia|].
      rewrite Hnum. cbn [map_err bind unwrap].
      match goal with |- context [signal_user_to_bytes ?u] => assert (Hu : signal_user_from_bytes (signal_user_to_bytes u) = Ok u) end.
      { apply (C33_signal_user E L). cbn [su_user su_phone_number]. split.
        - split; [exists X1; exact HX|]. split; intros ? K; discriminate.
        - destruct Hc as [? ?]. split; [assumption|]. pose proof ell_lt_255. lia. }
      rewrite Hu. cbn [unwrap bind]. rewrite (signal_user_eqb_refl L). left. split; [reflexivity|]. split; [exists h|]; assumption.
    + right. split; [reflexivity|exact Hb].
  - intros Hb. unfold test_parameters_from_bytes, system_parameters_from_bytes. rewrite Hb. cbn [Nat.eqb negb].
    rewrite !slice_some by lia. cbn [or_panic bind]. change (skipn 0 b) with b. change (32 - 0)%nat with 32%nat. change (64 - 32)%nat with 32%nat.
    assert (Hs : firstn 32 (skipn 32 b) = skipn 32 b) by (apply firstn_all2; rewrite skipn_length; lia).
    rewrite Hs. destruct (decompress (firstn 32 b)) as [g|], (decompress (skipn 32 b)) as [h|]; cbn [ok_or bind result_is_err assert];
      [right; split; [reflexivity|intros [K|K]; discriminate]|left; auto..].
Qed.
Print Assumptions C71_parameters_tests.
Example C71_parameters_tests_met :
  @test_parameters_serialize toy (compress (pt 33)) = Ok tt /\ @test_parameters_serialize toy (repeat xff 32) = Panic /\
  @test_signal_user_serialize toy (compress (pt 33)) (toy_stream 5) = Ok tt /\
  @test_parameters_from_bytes toy (compress (pt 33) ++ repeat xff 32) = Ok tt.
Proof. repeat split; vm_compute; reflexivity. Qed.

(** The test of the parameter search never panics: it passes as soon as a block
    of 32 random bytes decodes and is not the basepoint, and goes on otherwise. *)
Theorem C71_hunt_and_peck_test : forall E, ExtLaws E -> forall fuel (r : rng),
  (@test_hunt_and_peck E fuel r = Some (Ok tt) <->
   exists k h, (k < fuel)%nat /\ @decompress E (PropertiesPhone.block r k) = Some h /\ h <> basepoint) /\
  (@test_hunt_and_peck E fuel r <> Some (Ok tt) -> @test_hunt_and_peck E fuel r = None).
Proof.
  intros E L fuel r. unfold test_hunt_and_peck.
  assert (U : forall b h, @decompress E b = Some h -> (h <> basepoint <-> b <> compress (@basepoint E))).
  { intros b h Hd. pose proof (compress_decompress E L _ _ Hd) as Hc. rewrite <- Hc. split; intros K J; apply K.
    - apply (compress_inj L). exact J.
    - rewrite J. reflexivity. }
  destruct (hunt_and_peck fuel r) as [[p r']|] eqn:Hh; (split; [|congruence]); split; try discriminate; try reflexivity.
  - intros _. destruct (proj1 (C44_first_usable_block E L fuel r p) (ex_intro _ r' Hh)) as (k & h & Hk & _ & [Hd Hb] & _).
    exists k, h. split; [exact Hk|]. split; [exact Hd|]. apply (U _ _ Hd), Hb.
  - intros (k & h & Hk & Hd & Hn). exfalso.
    assert (M : forall n, (n <= k)%nat -> (forall j h', (j < n)%nat -> ~ @usable E (PropertiesPhone.block r j) h') ->
      exists k' h', (k' < fuel)%nat /\ @usable E (PropertiesPhone.block r k') h' /\ forall j h'', (j < k')%nat -> ~ @usable E (PropertiesPhone.block r j) h'').
    { intros n Hnk. remember (k - n)%nat as d eqn:Hdd. revert n Hnk Hdd. induction d as [|d IH]; intros n Hnk Hdd Hno.
      - exists k, h. split; [exact Hk|]. split; [split; [exact Hd|apply (U _ _ Hd), Hn]|]. intros j h'' Hj. apply Hno. lia.
      - destruct (@peck E (PropertiesPhone.block r n)) as [h'|] eqn:Hp.
        + apply peck_spec in Hp. exists n, h'. split; [lia|]. split; [exact Hp|exact Hno].
        + apply (IH (S n)); [lia|lia|]. intros j h' Hj Hu. destruct (Nat.eq_dec j n) as [->|]; [|apply (Hno j h'); [lia|exact Hu]].
          apply peck_spec in Hu. congruence. }
    destruct (M 0%nat) as (k' & h' & Hk' & Hu & Hno); [lia|intros j h' Hj; lia|].
    destruct (proj2 (C44_first_usable_block E L fuel r {| sp_g := basepoint; sp_h := h' |})) as [r' K]; [|congruence].
    exists k', h'. auto.
Qed.
Print Assumptions C71_hunt_and_peck_test.
Example C71_hunt_and_peck_met : (match @test_hunt_and_peck toy 5 (toy_stream 1) with Some (Ok _) => true | _ => false end) = true.
Proof. vm_compute. reflexivity. Qed.
Theorem C71_commitment_tests : forall E, ExtLaws E -> forall H (r : rng),
  passes_exactly (@test_good_commitment E H r) (exists h, @decompress E H = Some h) /\
  passes_exactly (@test_bad_commitment E H r) ((exists h, @decompress E H = Some h) /\ drawn 1 r <> drawn 2 r) /\
  @test_elgamal_roundtrip E r = Ok tt.
Proof.
  intros E L H r. split; [|split].
  - unfold test_good_commitment. destruct (ephemeral_new r) as [n r1]. destruct (decompress H) as [h|]; cbn [or_panic bind].
    + rewrite (proj2 (C30_opens_exactly E L _ _ _ _)) by reflexivity. left. split; [reflexivity|]. exists h; reflexivity.
    + right. split; [reflexivity|]. intros [h Hh]; discriminate.
  - unfold test_bad_commitment, ephemeral_new. rewrite !scalar_random_drawn. cbn [fst]. repeat rewrite shift_rng_draw.
    change (drawn 0 (fun j : nat => r (64 + (64 + j))%nat)) with (drawn 2 r).
    destruct (decompress H) as [h|] eqn:Hd; cbn [or_panic bind].
    + match goal with |- context [commitment_open ?c ?v ?n ?b] =>
        assert (K : commitment_open c v n b = Ok tt <-> drawn 1 r = drawn 2 r);
        [|destruct (Z.eq_dec (drawn 1 r) (drawn 2 r)) as [He|He];
          [rewrite (proj2 K He)|
           rewrite (C30_rejects_otherwise E L c v n b) by (rewrite <- (C30_opens_exactly E L); tauto)]] end.
      * rewrite (C30_opens_exactly E L). unfold commitment_to. split.
        -- intros Hq. apply eqm_canonical; [apply drawn_canonical..|]. apply (smul_base_iff L).
           apply (f_equal (fun p => padd p (pneg (smul (drawn 0 r) h)))) in Hq. revert Hq.
           generalize (smul (drawn 0 r) h) (smul (drawn 1 r) (@basepoint E)) (smul (drawn 2 r) (@basepoint E)).
           intros a b c Hq. rewrite <- !(padd_assoc E L), (padd_pneg E L), !(padd_zero_r L) in Hq. exact Hq.
        -- intros ->. reflexivity.
      * cbn [result_is_err bind assert]. right. split; [reflexivity|]. tauto.
      * cbn [result_is_err bind assert]. left. split; [reflexivity|]. split; [exists h; reflexivity|exact He].
    + right. split; [reflexivity|]. intros [[h Hh] _]; discriminate.
  - unfold test_elgamal_roundtrip, elgamal_keypair_generate. destruct (ephemeral_new r) as [n r1]. destruct (elgamal_secret_generate r1) as [k r2].
    cbn [eg_public eg_secret]. rewrite (C31_decrypts E L), (peqb_refl L). reflexivity.
Qed.
Print Assumptions C71_commitment_tests.
Example C71_commitment_tests_met :
  @test_bad_commitment toy (compress (pt 33)) (toy_stream 5) = Ok tt /\
  @test_bad_commitment toy (compress (pt 33)) (fun _ => x07) = Panic.
Proof. split; vm_compute; reflexivity. Qed.

(** The tests of phone numbers, and those that search for the parameters first. *)
Theorem C71_number_tests : test_number_roundtrip = Ok tt /\ test_equality_leading_zeroes = Ok tt.
Proof. split; vm_compute; reflexivity. Qed.
Print Assumptions C71_number_tests.

Theorem C71_signal_test : forall E, ExtLaws E -> forall fuel (s : nat -> rng),
  @test_signal_verified_serialize E fuel s =
  match @hunt_and_peck E fuel (s 0%nat) with Some _ => Some (Ok tt) | None => None end.
Proof.
  intros E L fuel s. unfold test_signal_verified_serialize. destruct (hunt_and_peck fuel (s 0%nat)) as [[params r0]|]; [|reflexivity].
  f_equal. set (i := fst (signal_issuer_create params (s 1%nat))).
  destruct (created_issuer params (s 1%nat)) as (_ & X1 & x1 & HX & _).
  destruct (C01_protocol_completes E L params None alice_number (s 1%nat) (s 2%nat) (s 3%nat) (s 4%nat) (s 5%nat) (s 6%nat))
    as (iss & u & u' & entry & p & ri & oi & re & rs & os & H1 & H2 & H3 & H4 & H5 & H6 & H7 & H8); [cbn; lia|]. fold i in H1, H2, H7, H8.
  rewrite H2. cbn [unwrap bind]. rewrite H1. cbn [unwrap bind]. rewrite H3. cbn [unwrap bind]. rewrite H5. cbn [unwrap bind].
  rewrite H6. cbn [unwrap bind]. rewrite H7. cbn [unwrap bind].
  assert (Hw : wf_signal_presentation p).
  { apply wf_signal_presentation_iff. eapply (created_presentation L); [exact H6|].
    assert (Hu : us_issuer_parameters (su_user u') = us_issuer_parameters (su_user u)).
    { unfold signal_obtain_finish in H3. pose proof (obtain_finish_parameters (su_user u) (Some iss)) as Hq.
      destruct (obtain_finish (su_user u) (Some iss)) as [v res]. apply (f_equal fst) in H3. cbn [fst] in H3, Hq.
      rewrite <- H3. apply Hq. }
    rewrite Hu. unfold signal_user_new in H2. apply bind_ok in H2 as (n & _ & H2).
    assert (H2' : u = {| su_phone_number := n; su_user := user_new params (get_issuer_parameters i) None |}) by congruence.
    rewrite H2'. exact HX. }
  pose proof (proj2 (proj2 (C33_verified E L {| vf_presentation := sc_presentation p |} {| vs_presentation := p |})) Hw) as Hr.
  rewrite Hr. cbn [unwrap bind result_is_ok assert vs_presentation]. rewrite (signal_presentation_eqb_refl L). reflexivity.
Qed.
Print Assumptions C71_signal_test.

(** The full protocol: the last assertions compare Alice's commitment with Bob's. *)
Theorem C71_full_protocol : forall E, ExtLaws E -> forall fuel (s : nat -> rng) params r' n_alice n_bob,
  @hunt_and_peck E fuel (s 0%nat) = Some (params, r') ->
  try_from_bytes alice_number = Ok n_alice -> try_from_bytes bob_number = Ok n_bob ->
  exists t, @test_full_protocol E fuel s = Some t /\
    passes_exactly t
      (padd (smul n_alice (sp_h params)) (smul (drawn 0 (s 7%nat)) (sp_g params)) <>
       padd (smul n_bob (sp_h params)) (smul (drawn 0 (s 6%nat)) (sp_g params))).
Proof.
  intros E L fuel s params r' nA nB Hf HA HB. unfold test_full_protocol. rewrite Hf. eexists. split; [reflexivity|].
  set (i := fst (signal_issuer_create params (s 1%nat))).
  change (kp_public (iss_keypair i)) with (get_issuer_parameters i).
  destruct (C01_protocol_completes E L params None alice_number (s 1%nat) (s 2%nat) (s 3%nat) (s 7%nat) (s 8%nat) (s 9%nat))
    as (iss & u & u' & entry & p & ri & oi & re & rs & os & H1 & H2 & H3 & H4 & H5 & H6 & H7 & H8); [cbn; lia|]. fold i in H1, H2, H7, H8.
  destruct (C01_protocol_completes E L params None bob_number (s 1%nat) (s 4%nat) (s 5%nat) (s 6%nat) (s 8%nat) (s 9%nat))
    as (iss' & v & v' & entry' & p' & ri' & oi' & re' & rs' & os' & K1 & K2 & K3 & _ & K5 & _); [cbn; lia|]. fold i in K1, K2.
  rewrite H2. cbn [unwrap bind]. rewrite K2. cbn [unwrap bind]. rewrite H1. cbn [unwrap bind]. rewrite H3. cbn [unwrap bind].
  rewrite K1. cbn [unwrap bind]. rewrite K3. cbn [unwrap bind]. rewrite K5. cbn [unwrap bind]. rewrite H5. cbn [unwrap bind].
  rewrite H6. cbn [unwrap bind]. rewrite H7. cbn [unwrap bind]. rewrite H8. cbn [unwrap bind result_is_ok assert existsb].
  rewrite (peqb_refl L), orb_false_r. cbn [orb].
  assert (G : forall b n e q r, try_from_bytes b = Ok n -> roster_create b params r = Ok (e, q) ->
            re_commitment e = padd (smul n (sp_h params)) (smul (drawn 0 r) (sp_g params))).
  { clear. intros b n e q r Hn H. unfold roster_create, ephemeral_new in H. rewrite scalar_random_drawn in H. rewrite Hn in H.
    cbn [bind] in H. assert (He := f_equal (fun o => match o with Ok (x, _) => re_commitment x | _ => basepoint end) H).
    cbn beta iota in He. rewrite <- He. reflexivity. }
  rewrite <- (G _ _ _ _ _ HA H5), <- (G _ _ _ _ _ HB K5).
  destruct (peqb (re_commitment entry) (re_commitment entry')) eqn:Hq; cbn [negb assert bind].
  - apply (peqb_true L) in Hq. right. split; [reflexivity|]. tauto.
  - apply (peqb_false L) in Hq. left. split; [reflexivity|exact Hq].
Qed.
Print Assumptions C71_full_protocol.
Definition streams (k : nat) : rng := toy_stream (Z.of_nat k).
Example C71_full_protocol_met :
  match @hunt_and_peck toy 4 (streams 0) with Some _ => true | None => false end = true /\
  @test_full_protocol toy 4 streams = Some (Ok tt).
Proof. split; vm_compute; reflexivity. Qed.
