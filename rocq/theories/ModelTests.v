(** The tests of the two crates, as programs: [Ok tt] is a passed test, [Panic] a
    failed one.

    A test that calls [thread_rng] once uses one stream.  Where several handles
    of [thread_rng] are in use they share one generator, and [issue] and [show]
    use it too; there every call is given streams of its own, [s 0], [s 1], ...:
    what the calls read from one generator, in any order, is a special case. *)
From Verif Require Export ModelSignal.

Definition unwrap {Er A} (o : outcome Er A) : outcome unit A :=
  match o with Ok a => Ok a | _ => Panic end.
Definition assert (b : bool) : outcome unit unit := if b then Ok tt else Panic.
Definition result_is_ok {Er A} (o : outcome Er A) : outcome unit bool :=
  match o with Ok _ => Ok true | Err _ => Ok false | Panic => Panic end.
Definition result_is_err {Er A} (o : outcome Er A) : outcome unit bool :=
  match o with Ok _ => Ok false | Err _ => Ok true | Panic => Panic end.

(** [#[derive(PartialEq)]] *)
Section equality.
  Context {E : Ext}.
  Fixpoint list_eqb {A} (eqb : A -> A -> bool) (a b : list A) {struct a} : bool :=
    match a, b with
    | [], [] => true
    | x :: a', y :: b' => eqb x y && list_eqb eqb a' b'
    | _, _ => false
    end.
  Definition option_eqb {A} (eqb : A -> A -> bool) (a b : option A) : bool :=
    match a, b with
    | None, None => true
    | Some x, Some y => eqb x y
    | _, _ => false
    end.
  (** aeonflux/src/parameters.rs:45-49 *)
  Definition system_parameters_eqb (a b : SystemParameters E) : bool :=
    peqb (sp_g a) (sp_g b) && peqb (sp_h a) (sp_h b).
  (** aeonflux/src/proofs.rs:626-637 *)
  Definition vc_proof_eqb (a b : vc_Proof) : bool :=
    scalar_eqb (vc_challenge a) (vc_challenge b) &&
    scalar_eqb (vcs_m0 (vc_responses a)) (vcs_m0 (vc_responses b)) &&
    scalar_eqb (vcs_z0 (vc_responses a)) (vcs_z0 (vc_responses b)) &&
    scalar_eqb (vcs_minus_zQ (vc_responses a)) (vcs_minus_zQ (vc_responses b)).
  (** aeonflux/src/proofs.rs:754-765 *)
  Definition ce_proof_eqb (a b : ce_Proof) : bool :=
    scalar_eqb (ce_challenge a) (ce_challenge b) &&
    scalar_eqb (ces_m0 (ce_responses a)) (ces_m0 (ce_responses b)) &&
    scalar_eqb (ces_z0 (ce_responses a)) (ces_z0 (ce_responses b)) &&
    scalar_eqb (ces_z1 (ce_responses a)) (ces_z1 (ce_responses b)).
  (** aeonflux/src/credential.rs:248-261, 359-361 *)
  Definition presentation_eqb (a b : CredentialPresentation E) : bool :=
    peqb (pr_rerandomized_mac_commitment a) (pr_rerandomized_mac_commitment b) &&
    peqb (pr_rerandomized_nonce a) (pr_rerandomized_nonce b) &&
    list_eqb scalar_eqb (pr_attributes_revealed a) (pr_attributes_revealed b) &&
    list_eqb peqb (pr_attributes_blinded a) (pr_attributes_blinded b) &&
    vc_proof_eqb (pr_proof a) (pr_proof b).
  (** signal-credential/src/credential.rs:51-62, 125-126 *)
  Definition signal_presentation_eqb (a b : SignalCredentialPresentation E) : bool :=
    peqb (sc_roster_entry_commitment a) (sc_roster_entry_commitment b) &&
    presentation_eqb (sc_presentation a) (sc_presentation b) &&
    ce_proof_eqb (sc_roster_membership_proof a) (sc_roster_membership_proof b).
  (** aeonflux/src/elgamal.rs:43-57; aeonflux/src/amacs.rs:118-125; aeonflux/src/credential.rs:67-76 *)
  Definition elgamal_keypair_eqb (a b : ElgamalKeypair E) : bool :=
    scalar_eqb (eg_secret a) (eg_secret b) && peqb (eg_public a) (eg_public b).
  Definition tag_eqb (a b : Tag E) : bool :=
    peqb (tag_nonce a) (tag_nonce b) && peqb (tag_mac a) (tag_mac b).
  Definition credential_eqb (a b : Credential E) : bool :=
    tag_eqb (cr_mac a) (cr_mac b) && list_eqb scalar_eqb (cr_attributes a) (cr_attributes b).
  (** aeonflux/src/user.rs:46-52; signal-credential/src/user.rs:39-43 *)
  Definition user_eqb (a b : User E) : bool :=
    system_parameters_eqb (us_system_parameters a) (us_system_parameters b) &&
    list_eqb peqb (pk_Xn (us_issuer_parameters a)) (pk_Xn (us_issuer_parameters b)) &&
    option_eqb elgamal_keypair_eqb (us_key a) (us_key b) &&
    option_eqb credential_eqb (us_credential a) (us_credential b).
  Definition signal_user_eqb (a b : SignalUser E) : bool :=
    scalar_eqb (su_phone_number a) (su_phone_number b) && user_eqb (su_user a) (su_user b).
End equality.

Section tests.
  Context {E : Ext}.

  (** ** aeonflux *)

  (** The common part of aeonflux/src/amacs.rs:450-464 and 469-484: a key for two attributes,
      three scalars, and a tag for the first two. *)
  Definition tagged (r : rng) : outcome unit (SecretKey * Message * Message * Tag E * rng) :=
    let (key, r) := secret_key_new 2 r in
    let (s1, r) := scalar_random r in
    let (s2, r) := scalar_random r in
    let (s3, r) := scalar_random r in
    let m1 := [s1; s2] in
    let m2 := [s1; s3] in
    do tr <- unwrap (mac key m1 r);
    Ok (key, m1, m2, fst tr, snd tr).

  (** [test_mac_authentication]; aeonflux/src/amacs.rs:450-467. *)
  Definition test_mac_authentication (r : rng) : outcome unit unit :=
    do (key, m1, m2, tag, _) <- tagged r;
    do ok <- result_is_ok (mac_verify key tag m1);
    do _ <- assert ok;
    do err <- result_is_err (mac_verify key tag m2);
    assert err.

  (** [test_rerandomised_mac_authentication]; aeonflux/src/amacs.rs:469-488.
      [Rerandomization::new] (aeonflux/src/amacs.rs:425-430) draws one scalar. *)
  Definition test_rerandomised_mac_authentication (r : rng) : outcome unit unit :=
    do (key, m1, m2, tag, r) <- tagged r;
    let rerandomised := apply_to_tag (fst (scalar_random r)) tag in
    do ok <- result_is_ok (mac_verify key rerandomised m1);
    do _ <- assert ok;
    do err <- result_is_err (mac_verify key rerandomised m2);
    assert err.

  (** Issuer, user, credential and presentation; the common part of
      aeonflux/src/issuer.rs:250-281 and aeonflux/src/credential.rs:394-413, 422-441.  [H] is a constant
      of the test module. *)
  Definition presented (H : bytes) (s : nat -> rng) : outcome unit (Issuer E * CredentialPresentation E) :=
    do params <- unwrap (system_parameters_from_array H);
    let issuer := fst (issuer_create params (s 0%nat)) in
    let alice := user_new params (get_issuer_parameters issuer) None in
    let request := obtain alice [fst (scalar_random (s 1%nat))] in
    do (issuance, _, _) <- unwrap (issue issuer request (s 2%nat) (s 3%nat));
    let (alice, res) := obtain_finish alice (Some issuance) in
    do _ <- unwrap res;
    let nonces := fst (nonces_new (s 4%nat) NUMBER_OF_ATTRIBUTES) in
    do (presentation, _, _) <- unwrap (show alice nonces (s 5%nat) (s 6%nat));
    Ok (issuer, presentation).

  (** [credential_issuance_and_presentation]; aeonflux/src/issuer.rs:250-282. *)
  Definition test_issuance_and_presentation (H : bytes) (s : nat -> rng) : outcome unit unit :=
    do (issuer, presentation) <- presented H s;
    do _ <- unwrap (issuer_verify issuer presentation);
    Ok tt.

  (** [credential_presentation_serialize_deserialize]; aeonflux/src/credential.rs:394-420. *)
  Definition test_presentation_serialize (H : bytes) (s : nat -> rng) : outcome unit unit :=
    do (_, presentation) <- presented H s;
    let deserialized := presentation_from_bytes (presentation_to_bytes presentation) in
    do ok <- result_is_ok deserialized;
    do _ <- assert ok;
    do p <- unwrap deserialized;
    assert (presentation_eqb p presentation).

  (** [verified_credential_serialize_deserialize]; aeonflux/src/credential.rs:422-450. *)
  Definition test_verified_serialize (H : bytes) (s : nat -> rng) : outcome unit unit :=
    do (issuer, presentation) <- presented H s;
    do verified <- unwrap (issuer_verify issuer presentation);
    let deserialized := verified_from_bytes (verified_to_bytes verified) in
    do ok <- result_is_ok deserialized;
    do _ <- assert ok;
    do v <- unwrap deserialized;
    assert (presentation_eqb (vf_presentation v) (vf_presentation verified)).

  (** [roundtrip]; aeonflux/src/elgamal.rs:243-251. *)
  Definition test_elgamal_roundtrip (r : rng) : outcome unit unit :=
    let (nonce, r) := ephemeral_new r in
    let msg := smul nonce (@basepoint E) in
    let (keypair, _) := elgamal_keypair_generate r in
    let enc := elgamal_encrypt (eg_public keypair) msg nonce in
    assert (peqb (elgamal_decrypt (eg_secret keypair) enc) msg).

  (** [system_parameters_serialize_deserialize]; aeonflux/src/parameters.rs:187-196. *)
  Definition test_parameters_serialize (H : bytes) : outcome unit unit :=
    do params <- unwrap (@system_parameters_from_array E H);
    let serialized := system_parameters_to_bytes params in
    do deserialized <- unwrap (system_parameters_from_bytes serialized);
    do _ <- assert (system_parameters_eqb params deserialized);
    do h <- or_panic (slice 32 64 serialized);
    assert (bytes_eqb h H).

  (** [system_parameters_from_bytes]; aeonflux/src/parameters.rs:198-211.  [b] is a constant. *)
  Definition test_parameters_from_bytes (b : bytes) : outcome unit unit :=
    do err <- result_is_err (@system_parameters_from_bytes E b);
    assert err.

  (** [hunt_and_peck]; aeonflux/src/parameters.rs:213-217. *)
  Definition test_hunt_and_peck (fuel : nat) (r : rng) : option (outcome unit unit) :=
    match @hunt_and_peck E fuel r with Some _ => Some (Ok tt) | None => None end.

  (** [good_commitment]; aeonflux/src/pedersen.rs:128-138. *)
  Definition test_good_commitment (H : bytes) (r : rng) : outcome unit unit :=
    let (nonce, r) := ephemeral_new r in
    let value := smul (fst (scalar_random r)) (@basepoint E) in
    do base <- or_panic (decompress H);
    do ok <- result_is_ok (commitment_open (commitment_to value nonce base) value nonce base);
    assert ok.

  (** [bad_commitment]; aeonflux/src/pedersen.rs:140-151. *)
  Definition test_bad_commitment (H : bytes) (r : rng) : outcome unit unit :=
    let (nonce, r) := ephemeral_new r in
    let (x, r) := scalar_random r in
    let value := smul x (@basepoint E) in
    let other_value := smul (fst (scalar_random r)) (@basepoint E) in
    do base <- or_panic (decompress H);
    do err <- result_is_err (commitment_open (commitment_to value nonce base) other_value nonce base);
    assert err.

  (** ** signal-credential *)

  (** [alice_phone_number_input], [bob_phone_number_input] *)
  Definition alice_number : bytes := map zb [1; 4; 1; 5; 5; 5; 5; 1; 2; 3; 4].
  Definition bob_number : bytes := map zb [1; 4; 1; 5; 5; 5; 5; 6; 6; 6; 6].

  (** [verified_credential_serialize_deserialize]; signal-credential/src/credential.rs:153-180.
      [None]: the parameters are still being looked for. *)
  Definition test_signal_verified_serialize (fuel : nat) (s : nat -> rng) : option (outcome unit unit) :=
    match @hunt_and_peck E fuel (s 0%nat) with
    | None => None
    | Some (params, _) => Some (
      let issuer := fst (signal_issuer_create params (s 1%nat)) in
      do alice <- unwrap (signal_user_new params (get_issuer_parameters issuer) None alice_number);
      do (issuance, _, _) <- unwrap (signal_issue issuer alice_number (s 2%nat) (s 3%nat));
      let (alice, res) := signal_obtain_finish alice (Some issuance) in
      do _ <- unwrap res;
      do (entry, _) <- unwrap (roster_create alice_number params (s 4%nat));
      do (presentation, _, _) <- unwrap (signal_show alice (s 5%nat) (s 6%nat) entry);
      do verified <- unwrap (signal_verify issuer presentation);
      let deserialized := verified_signal_from_bytes (verified_signal_to_bytes verified) in
      do ok <- result_is_ok deserialized;
      do _ <- assert ok;
      do v <- unwrap deserialized;
      assert (signal_presentation_eqb (vs_presentation v) (vs_presentation verified)))
    end.

  (** [signal_user_serialize_deserialize]; signal-credential/src/user.rs:271-288. *)
  Definition test_signal_user_serialize (H : bytes) (r : rng) : outcome unit unit :=
    do params <- unwrap (@system_parameters_from_array E H);
    let issuer := fst (signal_issuer_create params r) in
    do alice <- unwrap (signal_user_new params (kp_public (iss_keypair issuer)) None alice_number);
    do deserialized <- unwrap (signal_user_from_bytes (signal_user_to_bytes alice));
    assert (signal_user_eqb deserialized alice).

  (** [test_roundtrip]; signal-credential/src/phone_number.rs:388-397. *)
  Definition test_number_roundtrip : outcome unit unit :=
    let input := str "0018005551234" in
    do number <- unwrap (try_from_string input);
    do check <- phone_number_to_string number;
    assert (bytes_eqb input check).

  (** [test_equality_leading_zeroes]; signal-credential/src/phone_number.rs:399-404. *)
  Definition test_equality_leading_zeroes : outcome unit unit :=
    do a <- unwrap (try_from_string (str "0018005551234"));
    do b <- unwrap (try_from_string (str "00018005551234"));
    assert (negb (scalar_eqb a b)).

  (** [credential_issuance_and_presentation]; signal-credential/tests/full-protocol.rs:24-93. *)
  Definition test_full_protocol (fuel : nat) (s : nat -> rng) : option (outcome unit unit) :=
    match @hunt_and_peck E fuel (s 0%nat) with
    | None => None
    | Some (params, _) => Some (
      let issuer := fst (signal_issuer_create params (s 1%nat)) in
      let issuer_parameters := kp_public (iss_keypair issuer) in
      do alice <- unwrap (signal_user_new params issuer_parameters None alice_number);
      do bob <- unwrap (signal_user_new params issuer_parameters None bob_number);
      do (alice_issuance, _, _) <- unwrap (signal_issue issuer alice_number (s 2%nat) (s 3%nat));
      let (alice, res) := signal_obtain_finish alice (Some alice_issuance) in
      do _ <- unwrap res;
      do (bob_issuance, _, _) <- unwrap (signal_issue issuer bob_number (s 4%nat) (s 5%nat));
      let (bob, res) := signal_obtain_finish bob (Some bob_issuance) in
      do _ <- unwrap res;
      do (bob_entry, _) <- unwrap (roster_create bob_number params (s 6%nat));
      let roster_admins := [re_commitment bob_entry] in
      do (alice_entry, _) <- unwrap (roster_create alice_number params (s 7%nat));
      let roster_users := [re_commitment alice_entry] in
      do (alice_presentation, _, _) <- unwrap (signal_show alice (s 8%nat) (s 9%nat) alice_entry);
      do verified_credential <- unwrap (signal_verify issuer alice_presentation);
      let user_proof := verify_roster_membership issuer verified_credential in
      do ok <- result_is_ok user_proof;
      do _ <- assert ok;
      do server_copy <- unwrap user_proof;
      do _ <- assert (negb (existsb (peqb server_copy) roster_admins));
      assert (existsb (peqb server_copy) roster_users))
    end.
End tests.
