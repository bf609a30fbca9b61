(** What [#[derive(Debug)]], [#[derive(PartialEq)]] and [#[derive(Default)]]
    generate for the types of aeonflux and signal-credential

    [{:?}] of a struct is [Name { field: .., field: .. }], of a tuple struct
    [Name(..)], of a [Vec] [[.., ..]], of an [Option] [Some(..)] or [None].  The
    texts of [Scalar] and [RistrettoPoint] are those of curve25519-dalek and
    parameters here; [scalar_debug] is that of the version used.  The comparisons
    missing here are in ModelTests.v. *)
From Verif Require Export ModelTests.
From Coq Require Import String DecimalString.
Local Open Scope string_scope.

(** ** Debug *)
Definition join (texts : list string) : string := String.concat ", " texts.
Definition debug_struct (name : string) (fields : list (string * string)) : string :=
  name ++ " { " ++ join (map (fun f => fst f ++ ": " ++ snd f) fields) ++ " }".
Definition debug_tuple (name text : string) : string := name ++ "(" ++ text ++ ")".
Definition debug_list (texts : list string) : string := "[" ++ join texts ++ "]".
Definition debug_option (text : option string) : string :=
  match text with Some t => debug_tuple "Some" t | None => "None" end.

(** [Debug for Scalar] of curve25519-dalek 0.21:
    ["Scalar{{\n\tbytes: {:?},\n}}"] of the 32 bytes. *)
Definition byte_text (b : byte) : string := NilZero.string_of_uint (Nat.to_uint (Z.to_nat (bz b))).
Definition newline : string := String (Ascii.ascii_of_nat 10) "".
Definition tab : string := String (Ascii.ascii_of_nat 9) "".
Definition scalar_debug (s : scalar) : string :=
  "Scalar{" ++ newline ++ tab ++ "bytes: " ++ debug_list (map byte_text (scalar_to_bytes s)) ++ "," ++ newline ++ "}".

Section debug.
  Context {E : Ext} (ds : scalar -> string) (dp : point E -> string).

  (** aeonflux/src/amacs.rs:63-65, 118-123, 158-163, 205-210, 344-349, 399-400 *)
  Definition debug_message (m : list scalar) : string := debug_tuple "Message" (debug_list (map ds m)).
  Definition debug_tag (t : Tag E) : string := debug_struct "Tag" [("nonce", dp (tag_nonce t)); ("mac", dp (tag_mac t))].
  Definition debug_public_key (k : PublicKey E) : string := debug_struct "PublicKey" [("Xn", debug_list (map dp (pk_Xn k)))].
  Definition debug_secret_key (k : SecretKey) : string :=
    debug_struct "SecretKey" [("x0", ds (sk_x0 k)); ("xn", debug_list (map ds (sk_xn k)))].
  Definition debug_keypair (k : Keypair E) : string :=
    debug_struct "Keypair" [("public", debug_public_key (kp_public k)); ("secret", debug_secret_key (kp_secret k))].
  Definition debug_rerandomization (s : scalar) : string := debug_tuple "Rerandomization" (ds s).

  (** aeonflux/src/elgamal.rs:43-56, 80-84 *)
  Definition debug_elgamal_public_key (k : point E) : string := debug_tuple "PublicKey" (dp k).
  Definition debug_elgamal_secret_key (k : scalar) : string := debug_tuple "SecretKey" (ds k).
  Definition debug_elgamal_keypair (k : ElgamalKeypair E) : string :=
    debug_struct "Keypair" [("secret", debug_elgamal_secret_key (eg_secret k)); ("public", debug_elgamal_public_key (eg_public k))].
  Definition debug_encryption (e : Encryption E) : string :=
    debug_struct "Encryption" [("commitment", dp (enc_commitment e)); ("encryption", dp (enc_encryption e))].

  (** aeonflux/src/nonces.rs:32-33, 157-158 *)
  Definition debug_ephemeral (s : scalar) : string := debug_tuple "Ephemeral" (ds s).
  Definition debug_nonces (l : list scalar) : string := debug_tuple "Nonces" (debug_list (map debug_ephemeral l)).

  (** aeonflux/src/parameters.rs:45-49; aeonflux/src/pedersen.rs:35-36 *)
  Definition debug_system_parameters (p : SystemParameters E) : string :=
    debug_struct "SystemParameters" [("g", dp (sp_g p)); ("h", dp (sp_h p))].
  Definition debug_commitment (c : point E) : string := debug_tuple "Commitment" (dp c).

  (** aeonflux/src/proofs.rs:70-82, 626-637, 754-765 *)
  Definition debug_proof (challenge : scalar) (responses : list (string * scalar)) : string :=
    debug_struct "Proof"
      [("challenge", ds challenge); ("responses", debug_struct "Responses" (map (fun f => (fst f, ds (snd f))) responses))].
  Definition debug_ir_proof (p : ir_Proof) : string :=
    let r := ir_responses p in
    debug_proof (ir_challenge p) [("x0", irs_x0 r); ("x1", irs_x1 r); ("x0_tilde", irs_x0_tilde r); ("m1x1", irs_m1x1 r)].
  Definition debug_vc_proof (p : vc_Proof) : string :=
    let r := vc_responses p in
    debug_proof (vc_challenge p) [("m0", vcs_m0 r); ("z0", vcs_z0 r); ("minus_zQ", vcs_minus_zQ r)].
  Definition debug_ce_proof (p : ce_Proof) : string :=
    let r := ce_responses p in
    debug_proof (ce_challenge p) [("m0", ces_m0 r); ("z0", ces_z0 r); ("z1", ces_z1 r)].

  (** aeonflux/src/credential.rs:67-76, 156-160, 202-208, 248-264, 359-361 *)
  Definition debug_credential (c : Credential E) : string :=
    debug_struct "Credential" [("mac", debug_tag (cr_mac c)); ("attributes", debug_list (map ds (cr_attributes c)))].
  Definition debug_request (r : CredentialRequest) : string :=
    debug_struct "CredentialRequest" [("attributes_revealed", debug_list (map ds (rq_attributes_revealed r)))].
  Definition debug_issuance (i : CredentialIssuance E) : string :=
    debug_struct "CredentialIssuance"
      [("secret_key_commitment", debug_commitment (is_secret_key_commitment i));
       ("credential", debug_credential (is_credential i)); ("proof", debug_ir_proof (is_proof i))].
  Definition debug_presentation (p : CredentialPresentation E) : string :=
    debug_struct "CredentialPresentation"
      [("rerandomized_mac_commitment", debug_commitment (pr_rerandomized_mac_commitment p));
       ("rerandomized_nonce", dp (pr_rerandomized_nonce p));
       ("attributes_revealed", debug_list (map ds (pr_attributes_revealed p)));
       ("attributes_blinded", debug_list (map debug_commitment (pr_attributes_blinded p)));
       ("proof", debug_vc_proof (pr_proof p))].
  Definition debug_verified (v : VerifiedCredential E) : string :=
    debug_tuple "VerifiedCredential" (debug_presentation (vf_presentation v)).

  (** aeonflux/src/user.rs:46-52 *)
  Definition debug_user (u : User E) : string :=
    debug_struct "User"
      [("system_parameters", debug_system_parameters (us_system_parameters u));
       ("issuer_parameters", debug_public_key (us_issuer_parameters u));
       ("key", debug_option (option_map debug_elgamal_keypair (us_key u)));
       ("credential", debug_option (option_map debug_credential (us_credential u)))].

  (** signal-credential/src/phone_number.rs:54-56, 262-263, 275-276 *)
  Definition debug_phone_number (n : PhoneNumber) : string := debug_tuple "PhoneNumber" (ds n).
  Definition debug_encrypted_phone_number (e : Encryption E) : string := debug_tuple "EncryptedPhoneNumber" (debug_encryption e).
  Definition debug_committed_phone_number (c : point E) : string := debug_tuple "CommittedPhoneNumber" (debug_commitment c).
  (** signal-credential/src/credential.rs:51-62, 125-126; signal-credential/src/user.rs:39-43 *)
  Definition debug_signal_presentation (p : SignalCredentialPresentation E) : string :=
    debug_struct "SignalCredentialPresentation"
      [("roster_entry_commitment", debug_committed_phone_number (sc_roster_entry_commitment p));
       ("presentation", debug_presentation (sc_presentation p));
       ("roster_membership_proof", debug_ce_proof (sc_roster_membership_proof p))].
  Definition debug_verified_signal (v : VerifiedSignalCredential E) : string :=
    debug_tuple "VerifiedSignalCredential" (debug_signal_presentation (vs_presentation v)).
  Definition debug_signal_user (u : SignalUser E) : string :=
    debug_struct "SignalUser" [("phone_number", debug_phone_number (su_phone_number u)); ("user", debug_user (su_user u))].
End debug.

(** ** PartialEq *)
Section equality.
  Context {E : Ext}.
  (** aeonflux/src/amacs.rs:158-163; aeonflux/src/elgamal.rs:80-84 *)
  Definition public_key_eqb (a b : PublicKey E) : bool := list_eqb peqb (pk_Xn a) (pk_Xn b).
  Definition encryption_eqb (a b : Encryption E) : bool :=
    peqb (enc_commitment a) (enc_commitment b) && peqb (enc_encryption a) (enc_encryption b).
  (** aeonflux/src/proofs.rs:70-82, 213-225, 395-409 *)
  Definition ir_proof_eqb (a b : ir_Proof) : bool :=
    scalar_eqb (ir_challenge a) (ir_challenge b) &&
    scalar_eqb (irs_x0 (ir_responses a)) (irs_x0 (ir_responses b)) &&
    scalar_eqb (irs_x1 (ir_responses a)) (irs_x1 (ir_responses b)) &&
    scalar_eqb (irs_x0_tilde (ir_responses a)) (irs_x0_tilde (ir_responses b)) &&
    scalar_eqb (irs_m1x1 (ir_responses a)) (irs_m1x1 (ir_responses b)).
  Definition ab_proof_eqb (a b : ab_Proof) : bool :=
    scalar_eqb (ab_challenge a) (ab_challenge b) &&
    scalar_eqb (abs_d (ab_responses a)) (abs_d (ab_responses b)) &&
    scalar_eqb (abs_e0 (ab_responses a)) (abs_e0 (ab_responses b)) &&
    scalar_eqb (abs_m0 (ab_responses a)) (abs_m0 (ab_responses b)) &&
    scalar_eqb (abs_nonce (ab_responses a)) (abs_nonce (ab_responses b)).
  Definition ib_proof_eqb (a b : ib_Proof) : bool :=
    scalar_eqb (ib_challenge a) (ib_challenge b) &&
    scalar_eqb (ibs_x0_tilde (ib_responses a)) (ibs_x0_tilde (ib_responses b)) &&
    scalar_eqb (ibs_x0 (ib_responses a)) (ibs_x0 (ib_responses b)) &&
    scalar_eqb (ibs_x1 (ib_responses a)) (ibs_x1 (ib_responses b)) &&
    scalar_eqb (ibs_s (ib_responses a)) (ibs_s (ib_responses b)) &&
    scalar_eqb (ibs_b (ib_responses a)) (ibs_b (ib_responses b)) &&
    scalar_eqb (ibs_t0 (ib_responses a)) (ibs_t0 (ib_responses b)).
  (** aeonflux/src/credential.rs:156-160, 202-208, 359-361; signal-credential/src/credential.rs:125-126 *)
  Definition request_eqb (a b : CredentialRequest) : bool :=
    list_eqb scalar_eqb (rq_attributes_revealed a) (rq_attributes_revealed b).
  Definition issuance_eqb (a b : CredentialIssuance E) : bool :=
    peqb (is_secret_key_commitment a) (is_secret_key_commitment b) &&
    credential_eqb (is_credential a) (is_credential b) && ir_proof_eqb (is_proof a) (is_proof b).
  Definition verified_eqb (a b : VerifiedCredential E) : bool := presentation_eqb (vf_presentation a) (vf_presentation b).
  Definition verified_signal_eqb (a b : VerifiedSignalCredential E) : bool :=
    signal_presentation_eqb (vs_presentation a) (vs_presentation b).
End equality.

(** ** Default; [Scalar::default()] is zero *)
(** aeonflux/src/amacs.rs:205-210, 399-400 *)
Definition secret_key_default : SecretKey := {| sk_x0 := 0; sk_xn := [] |}.
Definition rerandomization_default : scalar := 0.
(** aeonflux/src/elgamal.rs:47-49 *)
Definition elgamal_secret_key_default : scalar := 0.
(** aeonflux/src/nonces.rs:32-33, 157-158 *)
Definition ephemeral_default : scalar := 0.
Definition nonces_default : list scalar := [].
