(** bincode 1 for the proofs of proofs.rs, and aeonflux/src/credential.rs *)
From Verif Require Export ModelPrims ModelProofs.

(** ** bincode (external crate), for the one shape /repo uses: a struct whose
    leaves are all [Scalar]s.

    [Serialize for Scalar] writes its reduced 32 bytes with [serialize_bytes];
    bincode prefixes byte strings with their length as a little-endian [u64].
    [Deserialize for Scalar] asks for bytes and accepts exactly 32 canonical
    ones.  Struct fields are concatenated in declaration order.
    [bincode::deserialize] ignores trailing bytes. *)
Definition bincode_scalar (s : scalar) : bytes :=
  (le_encode 8 32 ++ scalar_serialize_bytes s)%list.

Definition bincode_serialize (l : list scalar) : bytes := flat_map bincode_scalar l.

Definition bincode_read_scalar (b : bytes) : option (scalar * bytes) :=
  if (List.length b <? 8)%nat then None else
  let len := le_decode (firstn 8 b) in
  let b := skipn 8 b in
  if negb (len =? 32) then None else
  if (List.length b <? 32)%nat then None else
  match from_canonical_bytes (firstn 32 b) with
  | Some s => Some (s, skipn 32 b)
  | None => None
  end.

Fixpoint bincode_read_scalars (n : nat) (b : bytes) : option (list scalar * bytes) :=
  match n with
  | O => Some ([], b)
  | S n' =>
    match bincode_read_scalar b with
    | Some (s, b) =>
      match bincode_read_scalars n' b with
      | Some (l, b) => Some (s :: l, b)
      | None => None
      end
    | None => None
    end
  end.

Definition bincode_deserialize (n : nat) (b : bytes) : option (list scalar) :=
  match bincode_read_scalars n b with Some (l, _) => Some l | None => None end.

(** The derived [Serialize]/[Deserialize] of [issuance_revealed::Proof];
    aeonflux/src/proofs.rs:69-81. *)
Definition ir_proof_scalars (p : ir_Proof) : list scalar :=
  let r := ir_responses p in
  [ir_challenge p; irs_x0 r; irs_x1 r; irs_x0_tilde r; irs_m1x1 r].
Definition ir_proof_of_scalars (l : list scalar) : option ir_Proof :=
  match l with
  | [c; x0; x1; x0_tilde; m1x1] =>
    Some {| ir_challenge := c;
            ir_responses := {| irs_x0 := x0; irs_x1 := x1;
                               irs_x0_tilde := x0_tilde; irs_m1x1 := m1x1 |} |}
  | _ => None
  end.
Definition ir_serialize (p : ir_Proof) : bytes := bincode_serialize (ir_proof_scalars p).
Definition ir_deserialize (b : bytes) : option ir_Proof :=
  match bincode_deserialize 5 b with Some l => ir_proof_of_scalars l | None => None end.

(** [valid_credential::Proof]; aeonflux/src/proofs.rs:584-594. *)
Definition vc_proof_scalars (p : vc_Proof) : list scalar :=
  let r := vc_responses p in
  [vc_challenge p; vcs_m0 r; vcs_z0 r; vcs_minus_zQ r].
Definition vc_proof_of_scalars (l : list scalar) : option vc_Proof :=
  match l with
  | [c; m0; z0; minus_zQ] =>
    Some {| vc_challenge := c;
            vc_responses := {| vcs_m0 := m0; vcs_z0 := z0; vcs_minus_zQ := minus_zQ |} |}
  | _ => None
  end.
Definition vc_serialize (p : vc_Proof) : bytes := bincode_serialize (vc_proof_scalars p).
Definition vc_deserialize (b : bytes) : option vc_Proof :=
  match bincode_deserialize 4 b with Some l => vc_proof_of_scalars l | None => None end.

(** [committed_values_equal::Proof]; aeonflux/src/proofs.rs:720-735. *)
Definition ce_proof_scalars (p : ce_Proof) : list scalar :=
  let r := ce_responses p in
  [ce_challenge p; ces_m0 r; ces_z0 r; ces_z1 r].
Definition ce_proof_of_scalars (l : list scalar) : option ce_Proof :=
  match l with
  | [c; m0; z0; z1] =>
    Some {| ce_challenge := c;
            ce_responses := {| ces_m0 := m0; ces_z0 := z0; ces_z1 := z1 |} |}
  | _ => None
  end.
Definition ce_serialize (p : ce_Proof) : bytes := bincode_serialize (ce_proof_scalars p).
Definition ce_deserialize (b : bytes) : option ce_Proof :=
  match bincode_deserialize 4 b with Some l => ce_proof_of_scalars l | None => None end.

(** ** credential.rs *)

(** [SIZEOF_CREDENTIAL], [SIZEOF_CREDENTIAL_PRESENTATION]; aeonflux/src/credential.rs:41-42. *)
Definition SIZEOF_CREDENTIAL : nat := 96.
Definition SIZEOF_CREDENTIAL_PRESENTATION : nat := 256.

(** [PRESENTATION_NUMBER_OF_REVEALED_ATTRIBUTES],
    [PRESENTATION_NUMBER_OF_BLINDED_ATTRIBUTES]; aeonflux/src/credential.rs:51, 54. *)
Definition PRESENTATION_NUMBER_OF_REVEALED_ATTRIBUTES : nat := 0.
Definition PRESENTATION_NUMBER_OF_BLINDED_ATTRIBUTES : nat := 1.

(** [Credential]; aeonflux/src/credential.rs:66-76. *)
Record Credential {E : Ext} : Type := { cr_mac : Tag E; cr_attributes : list scalar }.
Arguments Credential : clear implicits.

(** [CredentialRequest]; aeonflux/src/credential.rs:156-160. *)
Record CredentialRequest : Type := { rq_attributes_revealed : list scalar }.

(** [CredentialIssuance]; aeonflux/src/credential.rs:202-208. *)
Record CredentialIssuance {E : Ext} : Type := {
  is_secret_key_commitment : point E;
  is_credential : Credential E;
  is_proof : ir_Proof;
}.
Arguments CredentialIssuance : clear implicits.

(** [CredentialPresentation]; aeonflux/src/credential.rs:248-264. *)
Record CredentialPresentation {E : Ext} : Type := {
  pr_rerandomized_mac_commitment : point E;
  pr_rerandomized_nonce : point E;
  pr_attributes_revealed : list scalar;
  pr_attributes_blinded : list (point E);
  pr_proof : vc_Proof;
}.
Arguments CredentialPresentation : clear implicits.

(** [VerifiedCredential]; aeonflux/src/credential.rs:360-361. *)
Record VerifiedCredential {E : Ext} : Type := { vf_presentation : CredentialPresentation E }.
Arguments VerifiedCredential : clear implicits.

Section credential.
  Context {E : Ext}.

  (** [tmp.copy_from_slice(chunk); Scalar::from_canonical_bytes(tmp)] in the
      loops of aeonflux/src/credential.rs:90-99, 172-183, 286-293. *)
  Definition attribute_from_chunk (chunk : bytes) : outcome CredentialError scalar :=
    do tmp <- or_panic (to_array 32 chunk);
    ok_or ScalarFormatError (from_canonical_bytes tmp).

  (** [Credential::from_bytes]; aeonflux/src/credential.rs:79-102. *)
  Definition credential_from_bytes (b : bytes) : outcome CredentialError (Credential E) :=
    let length := List.length b in
    if negb (Nat.modulo length 32 =? 0)%nat || (length <? 96)%nat
       || negb (length =? SIZEOF_CREDENTIAL)%nat
    then Err WrongNumberOfBytes else
    do tb <- or_panic (slice 0 64 b);
    do mac <- map_err mac_to_credential_error (tag_from_bytes tb);
    do ab <- or_panic (slice_from 64 b);
    do attributes <- try_map attribute_from_chunk (chunks 32 ab);
    Ok {| cr_mac := mac; cr_attributes := attributes |}.

  (** [Credential::to_bytes]; aeonflux/src/credential.rs:104-114. *)
  Definition credential_to_bytes (c : Credential E) : bytes :=
    (tag_to_bytes (cr_mac c) ++ flat_map scalar_to_bytes (cr_attributes c))%list.

  (** [CredentialRequest::from_bytes]; aeonflux/src/credential.rs:163-186. *)
  Definition request_from_bytes (b : bytes) : outcome CredentialError CredentialRequest :=
    let length := List.length b in
    if negb (Nat.modulo length 32 =? 0)%nat then Err WrongNumberOfBytes else
    do attributes <- try_map attribute_from_chunk (chunks 32 b);
    Ok {| rq_attributes_revealed := attributes |}.

  (** [CredentialRequest::to_bytes]; aeonflux/src/credential.rs:188-196. *)
  Definition request_to_bytes (r : CredentialRequest) : bytes :=
    flat_map scalar_to_bytes (rq_attributes_revealed r).

  (** [CredentialIssuance::from_bytes]; aeonflux/src/credential.rs:211-224. *)
  Definition issuance_from_bytes (b : bytes) : outcome CredentialError (CredentialIssuance E) :=
    do cb <- or_panic (slice 0 32 b);
    do secret_key_commitment <- commitment_from_bytes cb;
    do kb <- or_panic (slice 32 (32 + SIZEOF_CREDENTIAL) b);
    do credential <- credential_from_bytes kb;
    do pb <- or_panic (slice_from (32 + SIZEOF_CREDENTIAL) b);
    do proof <- ok_or MissingData (ir_deserialize pb);
    Ok {| is_secret_key_commitment := secret_key_commitment;
          is_credential := credential;
          is_proof := proof |}.

  (** [CredentialIssuance::to_bytes]; aeonflux/src/credential.rs:226-242.  [serialize] of
      these types never fails. *)
  Definition issuance_to_bytes (i : CredentialIssuance E) : bytes :=
    (commitment_to_bytes (is_secret_key_commitment i)
     ++ credential_to_bytes (is_credential i)
     ++ ir_serialize (is_proof i))%list.

  (** The loop over the attribute chunks of [CredentialPresentation::from_bytes];
      aeonflux/src/credential.rs:284-302. *)
  Fixpoint presentation_attributes (processed : nat) (cs : list bytes)
    : outcome CredentialError (list scalar * list (point E)) :=
    match cs with
    | [] => Ok ([], [])
    | chunk :: cs' =>
      if (processed <? PRESENTATION_NUMBER_OF_REVEALED_ATTRIBUTES)%nat then
        do x <- attribute_from_chunk chunk;
        do (revealed, blinded) <- presentation_attributes (S processed) cs';
        Ok (x :: revealed, blinded)
      else
        do x <- map_err (fun _ => PointDecompressionError) (commitment_from_bytes chunk);
        do (revealed, blinded) <- presentation_attributes (S processed) cs';
        Ok (revealed, x :: blinded)
    end.

  (** [CredentialPresentation::from_bytes]; aeonflux/src/credential.rs:267-321. *)
  Definition presentation_from_bytes (b : bytes) : outcome CredentialError (CredentialPresentation E) :=
    let length := List.length b in
    if negb (Nat.modulo length 32 =? 0)%nat then Err WrongNumberOfBytes else
    do cb <- or_panic (slice 0 32 b);
    do mac_commitment <- commitment_from_bytes cb;
    do nb <- or_panic (slice 32 64 b);
    do nonce <- ok_or none_credential (decompress nb);
    let attributes_offset :=
      (32 * (PRESENTATION_NUMBER_OF_REVEALED_ATTRIBUTES
             + PRESENTATION_NUMBER_OF_BLINDED_ATTRIBUTES))%nat in
    do ab <- or_panic (slice 64 (64 + attributes_offset) b);
    do (revealed, blinded) <- presentation_attributes 0 (chunks 32 ab);
    do pb <- or_panic (slice_from (64 + attributes_offset) b);
    do proof <- ok_or MissingData (vc_deserialize pb);
    Ok {| pr_rerandomized_mac_commitment := mac_commitment;
          pr_rerandomized_nonce := nonce;
          pr_attributes_revealed := revealed;
          pr_attributes_blinded := blinded;
          pr_proof := proof |}.

  (** [CredentialPresentation::to_bytes]; aeonflux/src/credential.rs:323-346. *)
  Definition presentation_to_bytes (p : CredentialPresentation E) : bytes :=
    (commitment_to_bytes (pr_rerandomized_mac_commitment p)
     ++ compress (pr_rerandomized_nonce p)
     ++ flat_map scalar_to_bytes (pr_attributes_revealed p)
     ++ flat_map commitment_to_bytes (pr_attributes_blinded p)
     ++ vc_serialize (pr_proof p))%list.

  (** [VerifiedCredential::from_bytes]; aeonflux/src/credential.rs:364-366. *)
  Definition verified_from_bytes (b : bytes) : outcome CredentialError (VerifiedCredential E) :=
    do p <- presentation_from_bytes b;
    Ok {| vf_presentation := p |}.

  (** [VerifiedCredential::to_bytes]; aeonflux/src/credential.rs:368-370. *)
  Definition verified_to_bytes (v : VerifiedCredential E) : bytes :=
    presentation_to_bytes (vf_presentation v).
End credential.
