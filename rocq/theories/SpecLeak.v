(** What somebody computes who has learned the seed of one call.

    All of it is computed from the stream of bytes that the call read, from what
    the call gave out, and from what is public. *)
From Verif Require Export Spec ModelSignal.

Section leak.
  Context {E : Ext}.

  (** The first and the second scalar of a generator made from the stream [r]
      with this label. *)
  Definition drawn (label : string) (r : rng) : scalar * scalar :=
    let s := fst (@reseed E (transcript_new label) [] r) in
    (fst (scalar_random s), fst (scalar_random (snd (scalar_random s)))).

  (** ** From an issuance for the attribute [m] *)
  (** Two points that are to be [x0 B] and [x1 B]. *)
  Definition key_points (params : SystemParameters E) (r : rng) (m : scalar) (iss : CredentialIssuance E) : point E * point E :=
    let (b, x0_tilde) := drawn "AEONFLUX ISSUANCE" r in
    let X := psub (is_secret_key_commitment iss) (smul x0_tilde (sp_h params)) in
    (X, smul (s_inv m) (psub (smul (s_inv b) (tag_mac (cr_mac (is_credential iss)))) X)).
  (** The same from two tags, for [m1] and [m2], whose nonces are [b1 B] and [b2 B]. *)
  Definition key_points_of_tags (b1 b2 m1 m2 : scalar) (t1 t2 : Tag E) : point E * point E :=
    let Y := smul (s_inv (m1 - m2)) (psub (smul (s_inv b1) (tag_mac t1)) (smul (s_inv b2) (tag_mac t2))) in
    (psub (smul (s_inv b1) (tag_mac t1)) (smul m1 Y), Y).
  (** A credential for [m] from two points. *)
  Definition from_key_points (XY : point E * point E) (m : scalar) : Credential E :=
    {| cr_mac := {| tag_nonce := basepoint; tag_mac := padd (fst XY) (smul m (snd XY)) |}; cr_attributes := [m] |}.
  (** A user with it. *)
  Definition thief (params : SystemParameters E) (keys : IssuerParameters E) (XY : point E * point E) (m : scalar) : SignalUser E :=
    {| su_phone_number := m;
       su_user := {| us_system_parameters := params; us_issuer_parameters := keys; us_key := None;
                     us_credential := Some (from_key_points XY m) |} |}.
  (** The bytes of this user from bytes: of the parameters, of the issuer's public
      key, and of the issuance for [number]. *)
  Definition thief_bytes (params keys issuance seed number target : bytes) : option bytes :=
    match @system_parameters_from_bytes E params, @public_key_from_bytes E keys, @issuance_from_bytes E issuance,
          try_from_bytes number, try_from_bytes target with
    | Ok p, Ok k, Ok iss, Ok m, Ok m' => Some (signal_user_to_bytes (thief p k (key_points p (@chacha E seed) m iss) m'))
    | _, _, _, _, _ => None
    end.

  (** ** From a presentation *)
  Definition blinding (r : rng) : scalar := fst (scalar_random r).
  Definition stolen_tag (params : SystemParameters E) (r : rng) (p : SignalCredentialPresentation E) : Tag E :=
    let (rr, zQ) := drawn "AEONFLUX SHOW" (snd (scalar_random r)) in
    {| tag_nonce := smul (s_inv rr) (pr_rerandomized_nonce (sc_presentation p));
       tag_mac := smul (s_inv rr) (psub (pr_rerandomized_mac_commitment (sc_presentation p)) (smul zQ (sp_h params))) |}.
  (** Whether the presentation is for [m]. *)
  Definition presents (params : SystemParameters E) (r : rng) (p : SignalCredentialPresentation E) (m : scalar) : Prop :=
    pr_attributes_blinded (sc_presentation p) =
      [padd (smul m (pr_rerandomized_nonce (sc_presentation p))) (smul (blinding r) (sp_h params))].
End leak.
