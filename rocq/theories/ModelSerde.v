(** aeonflux/src/macros.rs: the [Serialize] and [Deserialize] implementations
    made by [impl_serde_with_to_bytes_and_from_bytes!], and the derived ones of
    proofs.rs, with the two data formats used with them: bincode and JSON
    (external crates). *)
From Verif Require Export ModelSignal.

(** ** The macro; aeonflux/src/macros.rs:11-50. *)

(** What the macro is given: a type with [to_bytes] and [from_bytes].  The error
    of [from_bytes] is only printed, and replaced by [invalid_length]. *)
Record codec : Type := {
  cd_value : Type;
  cd_to_bytes : cd_value -> bytes;
  cd_from_bytes : bytes -> outcome unit cd_value;
}.

Definition make_codec {Er A} (to : A -> bytes) (from : bytes -> outcome Er A) : codec :=
  {| cd_value := A; cd_to_bytes := to; cd_from_bytes := fun b => map_err (fun _ => tt) (from b) |}.

(** [serialize]: the argument of [serializer.serialize_bytes]; aeonflux/src/macros.rs:14-19. *)
Definition serialized_bytes (c : codec) (x : cd_value c) : bytes := cd_to_bytes c x.

(** [visit_bytes]; aeonflux/src/macros.rs:34-46. *)
Definition visit_bytes (c : codec) (v : bytes) : outcome unit (cd_value c) := cd_from_bytes c v.

(** [visit_seq] and every other method of the visitor are the provided ones,
    which fail. *)
Definition visit_other (c : codec) : outcome unit (cd_value c) := Err tt.

(** The uses of the macro. *)
Inductive serde_type : Type :=
| TTag                          (* aeonflux/src/amacs.rs:156 *)
| TPublicKey                    (* aeonflux/src/amacs.rs:202; also IssuerParameters *)
| TSecretKey                    (* aeonflux/src/amacs.rs:342 *)
| TKeypair                      (* aeonflux/src/amacs.rs:383 *)
| TCredential                   (* aeonflux/src/credential.rs:117 *)
| TCredentialRequest            (* aeonflux/src/credential.rs:199 *)
| TCredentialIssuance           (* aeonflux/src/credential.rs:245; also SignalCredentialIssuance *)
| TCredentialPresentation       (* aeonflux/src/credential.rs:349 *)
| TVerifiedCredential           (* aeonflux/src/credential.rs:373 *)
| TUser                         (* aeonflux/src/user.rs:107 *)
| TElgamalPublicKey             (* aeonflux/src/elgamal.rs:119 *)
| TElgamalSecretKey             (* aeonflux/src/elgamal.rs:167 *)
| TElgamalKeypair               (* aeonflux/src/elgamal.rs:217 *)
| TIssuer                       (* aeonflux/src/issuer.rs:73 *)
| TSystemParameters             (* aeonflux/src/parameters.rs:93 *)
| TCommitment                   (* aeonflux/src/pedersen.rs:84 *)
| TSignalIssuer                 (* signal-credential/src/issuer.rs:58 *)
| TSignalCredentialPresentation (* signal-credential/src/credential.rs:111 *)
| TVerifiedSignalCredential     (* signal-credential/src/credential.rs:138 *)
| TSignalUser                   (* signal-credential/src/user.rs:63 *)
| TPhoneNumber                  (* signal-credential/src/phone_number.rs:85 *)
| TCommittedPhoneNumber         (* signal-credential/src/phone_number.rs:288 *)
| TRosterEntryCommitment.       (* signal-credential/src/phone_number.rs:347 *)

Definition codec_of (E : Ext) (t : serde_type) : codec :=
  match t with
  | TTag => make_codec (@tag_to_bytes E) tag_from_bytes
  | TPublicKey => make_codec (@public_key_to_bytes E) public_key_from_bytes
  | TSecretKey => make_codec secret_key_to_bytes secret_key_from_bytes
  | TKeypair => make_codec (@keypair_to_bytes E) keypair_from_bytes
  | TCredential => make_codec (@credential_to_bytes E) credential_from_bytes
  | TCredentialRequest => make_codec request_to_bytes request_from_bytes
  | TCredentialIssuance => make_codec (@issuance_to_bytes E) issuance_from_bytes
  | TCredentialPresentation => make_codec (@presentation_to_bytes E) presentation_from_bytes
  | TVerifiedCredential => make_codec (@verified_to_bytes E) verified_from_bytes
  | TUser => make_codec (@user_to_bytes E) user_from_bytes
  | TElgamalPublicKey => make_codec (@elgamal_public_to_bytes E) elgamal_public_from_bytes
  | TElgamalSecretKey => make_codec elgamal_secret_to_bytes elgamal_secret_from_bytes
  | TElgamalKeypair => make_codec (@elgamal_keypair_to_bytes E) elgamal_keypair_from_bytes
  | TIssuer => make_codec (@issuer_to_bytes E) issuer_from_bytes
  | TSystemParameters => make_codec (@system_parameters_to_bytes E) system_parameters_from_bytes
  | TCommitment => make_codec (@commitment_to_bytes E) commitment_from_bytes
  | TSignalIssuer => make_codec (@signal_issuer_to_bytes E) signal_issuer_from_bytes
  | TSignalCredentialPresentation => make_codec (@signal_presentation_to_bytes E) signal_presentation_from_bytes
  | TVerifiedSignalCredential => make_codec (@verified_signal_to_bytes E) verified_signal_from_bytes
  | TSignalUser => make_codec (@signal_user_to_bytes E) signal_user_from_bytes
  | TPhoneNumber => make_codec phone_number_to_bytes phone_number_from_bytes
  | TCommittedPhoneNumber => make_codec (@committed_to_bytes E) committed_from_bytes
  | TRosterEntryCommitment => make_codec (@roster_to_bytes E) roster_from_bytes
  end.

(** ** bincode 1 (external crate) *)

(** [bincode::serialize]: a byte string is its length as a little-endian [u64]
    and its bytes. *)
Definition bincode_serialize_value (c : codec) (x : cd_value c) : bytes :=
  let b := serialized_bytes c x in
  (le_encode 8 (Z.of_nat (List.length b)) ++ b)%list.

(** Reading one value from the front of [b]: the value and what follows it. *)
Definition bincode_read_value (c : codec) (b : bytes) : outcome unit (cd_value c * bytes) :=
  if (List.length b <? 8)%nat then Err tt else
  let len := le_decode (firstn 8 b) in
  let b := skipn 8 b in
  if Z.of_nat (List.length b) <? len then Err tt else
  do x <- visit_bytes c (firstn (Z.to_nat len) b);
  Ok (x, skipn (Z.to_nat len) b).

(** [bincode::deserialize] ignores what follows the value. *)
Definition bincode_deserialize_value (c : codec) (b : bytes) : outcome unit (cd_value c) :=
  do (x, _) <- bincode_read_value c b;
  Ok x.

(** The derived implementations of the two proofs that are in no other type:
    [attributes_blinded::Proof], aeonflux/src/proofs.rs:213-226, and
    [issuance_blinded::Proof], aeonflux/src/proofs.rs:395-411.  The others are in
    ModelCredential. *)
Definition ab_proof_scalars (p : ab_Proof) : list scalar :=
  let r := ab_responses p in
  [ab_challenge p; abs_d r; abs_e0 r; abs_m0 r; abs_nonce r].
Definition ab_proof_of_scalars (l : list scalar) : option ab_Proof :=
  match l with
  | [c; d; e0; m0; nonce] =>
    Some {| ab_challenge := c;
            ab_responses := {| abs_d := d; abs_e0 := e0; abs_m0 := m0; abs_nonce := nonce |} |}
  | _ => None
  end.
Definition ab_serialize (p : ab_Proof) : bytes := bincode_serialize (ab_proof_scalars p).
Definition ab_deserialize (b : bytes) : option ab_Proof :=
  match bincode_deserialize 5 b with Some l => ab_proof_of_scalars l | None => None end.

Definition ib_proof_scalars (p : ib_Proof) : list scalar :=
  let r := ib_responses p in
  [ib_challenge p; ibs_x0_tilde r; ibs_x0 r; ibs_x1 r; ibs_s r; ibs_b r; ibs_t0 r].
Definition ib_proof_of_scalars (l : list scalar) : option ib_Proof :=
  match l with
  | [c; x0_tilde; x0; x1; s; b; t0] =>
    Some {| ib_challenge := c;
            ib_responses := {| ibs_x0_tilde := x0_tilde; ibs_x0 := x0; ibs_x1 := x1;
                               ibs_s := s; ibs_b := b; ibs_t0 := t0 |} |}
  | _ => None
  end.
Definition ib_serialize (p : ib_Proof) : bytes := bincode_serialize (ib_proof_scalars p).
Definition ib_deserialize (b : bytes) : option ib_Proof :=
  match bincode_deserialize 7 b with Some l => ib_proof_of_scalars l | None => None end.

(** ** JSON (serde_json, external crate) *)

(** A JSON value.  A string is the list of its Unicode scalar values; the other
    kinds matter only in being other kinds. *)
Inductive json : Type :=
| JNull
| JBool (b : bool)
| JNumber (z : Z)
| JString (s : list Z)
| JArray (l : list json)
| JObject (l : list (list Z * json)).

(** UTF-8; [c mod 128] is [c] for a Unicode scalar value below 128. *)
Definition utf8_char (c : Z) : bytes :=
  let tail k := zb (128 + c / 2 ^ (6 * k) mod 64) in
  if c <? 128 then [zb (c mod 128)] else
  if c <? 2048 then [zb (192 + c / 2 ^ 6 mod 32); tail 0] else
  if c <? 65536 then [zb (224 + c / 2 ^ 12 mod 16); tail 1; tail 0] else
  [zb (240 + c / 2 ^ 18 mod 8); tail 2; tail 1; tail 0].
Definition utf8 (s : list Z) : bytes := flat_map utf8_char s.

(** serde_json's [serialize_bytes] writes an array of numbers. *)
Definition json_serialize (c : codec) (x : cd_value c) : json :=
  JArray (map (fun b => JNumber (bz b)) (serialized_bytes c x)).

(** serde_json's [deserialize_bytes]: a string gives its UTF-8 bytes to
    [visit_bytes], an array goes to [visit_seq], anything else is an error. *)
Definition json_deserialize (c : codec) (v : json) : outcome unit (cd_value c) :=
  match v with
  | JString s => visit_bytes c (utf8 s)
  | JArray _ => visit_other c
  | _ => Err tt
  end.
