(** aeonflux/src/amacs.rs: algebraic message authentication codes. *)
From Verif Require Export ModelErrors.

(** [Message]; aeonflux/src/amacs.rs:62-65. *)
Definition Message := list scalar.

(** [From<String> for Message]; aeonflux/src/amacs.rs:76-84. *)
Definition message_of_string {E : Ext} (source : bytes) : Message :=
  [from_bytes_mod_order_wide (@sha512 E source)].

(** [From<Scalar> for Message]; aeonflux/src/amacs.rs:86-94. *)
Definition message_of_scalar (source : scalar) : Message := [source].

(** [Tag]; aeonflux/src/amacs.rs:118-123. *)
Record Tag {E : Ext} : Type := { tag_nonce : point E; tag_mac : point E }.
Arguments Tag : clear implicits.

(** [PublicKey]; aeonflux/src/amacs.rs:158-163 (also [issuer::IssuerParameters]). *)
Record PublicKey {E : Ext} : Type := { pk_Xn : list (point E) }.
Arguments PublicKey : clear implicits.

(** [SecretKey]; aeonflux/src/amacs.rs:205-210. *)
Record SecretKey : Type := { sk_x0 : scalar; sk_xn : list scalar }.

(** [Keypair]; aeonflux/src/amacs.rs:344-349. *)
Record Keypair {E : Ext} : Type := { kp_public : PublicKey E; kp_secret : SecretKey }.
Arguments Keypair : clear implicits.

(** [parameters::NUMBER_OF_ATTRIBUTES]; aeonflux/src/parameters.rs:28. *)
Definition NUMBER_OF_ATTRIBUTES : nat := 1.

Section amacs.
  Context {E : Ext}.

  (** [Tag::from_bytes]; aeonflux/src/amacs.rs:126-144. *)
  Definition tag_from_bytes (b : bytes) : outcome MacError (Tag E) :=
    if negb (List.length b =? 64)%nat then Err MacPointDecompressionError else
    do P_bytes <- or_panic (slice 0 32 b);
    do Q_bytes <- or_panic (slice 32 64 b);
    do P <- ok_or none_mac (decompress P_bytes);
    do Q <- ok_or none_mac (decompress Q_bytes);
    Ok {| tag_nonce := P; tag_mac := Q |}.

  (** [Tag::to_bytes]; aeonflux/src/amacs.rs:146-153. *)
  Definition tag_to_bytes (t : Tag E) : bytes :=
    (compress (tag_nonce t) ++ compress (tag_mac t))%list.

  (** [PublicKey::from_bytes]; aeonflux/src/amacs.rs:166-185. *)
  Definition public_key_from_bytes (b : bytes) : outcome MacError (PublicKey E) :=
    let length := List.length b in
    if negb (Nat.modulo length 32 =? 0)%nat then Err (MessageLengthError length) else
    do Xn <- try_map (fun chunk => ok_or MacPointDecompressionError (decompress chunk))
                     (chunks 32 b);
    Ok {| pk_Xn := Xn |}.

  (** [PublicKey::to_bytes]; aeonflux/src/amacs.rs:187-195. *)
  Definition public_key_to_bytes (k : PublicKey E) : bytes :=
    flat_map compress (pk_Xn k).

  (** [PublicKey::len]; aeonflux/src/amacs.rs:197-199. *)
  Definition public_key_len (k : PublicKey E) : nat := List.length (pk_Xn k).

  (** [SecretKey::new]; aeonflux/src/amacs.rs:225-237. *)
  Fixpoint scalars_random (n : nat) (r : rng) : list scalar * rng :=
    match n with
    | O => ([], r)
    | S n' =>
      let (x, r) := scalar_random r in
      let (xs, r) := scalars_random n' r in
      (x :: xs, r)
    end.
  Definition secret_key_new (n : nat) (r : rng) : SecretKey * rng :=
    let (x0, r) := scalar_random r in
    let (xn, r) := scalars_random n r in
    ({| sk_x0 := x0; sk_xn := xn |}, r).

  (** [SecretKey::from_bytes]; aeonflux/src/amacs.rs:240-270.  On the empty string
      [(length / 32) - 1] underflows: a panic in debug builds, and in release
      builds the wrapped capacity makes [Vec::with_capacity] panic. *)
  Definition secret_key_from_bytes (b : bytes) : outcome MacError SecretKey :=
    let length := List.length b in
    if negb (Nat.modulo length 32 =? 0)%nat then Err (MessageLengthError length) else
    if (length =? 0)%nat then Panic else
    do xs <- try_map (fun chunk => ok_or MacScalarFormatError (from_canonical_bytes chunk))
                     (chunks 32 b);
    match xs with
    | [] => Err (MessageLengthError length)
    | x0 :: xn => Ok {| sk_x0 := x0; sk_xn := xn |}
    end.

  (** [SecretKey::to_bytes]; aeonflux/src/amacs.rs:272-282. *)
  Definition secret_key_to_bytes (k : SecretKey) : bytes :=
    (scalar_to_bytes (sk_x0 k) ++ flat_map scalar_to_bytes (sk_xn k))%list.

  (** [SecretKey::len]; aeonflux/src/amacs.rs:284-286. *)
  Definition secret_key_len (k : SecretKey) : nat := (List.length (sk_xn k) + 1)%nat.

  (** [SecretKey::get_public_key]; aeonflux/src/amacs.rs:294-302. *)
  Definition get_public_key (k : SecretKey) (h : point E) : PublicKey E :=
    {| pk_Xn := map (fun xi => smul xi h) (sk_xn k) |}.

  (** The loop [for (xi, mi) in xn.zip(message) { exponent += xi * mi }];
      aeonflux/src/amacs.rs:312-316. *)
  Fixpoint mac_exponent (exponent : scalar) (xn : list scalar) (message : Message) : scalar :=
    match xn, message with
    | xi :: xn', mi :: message' => mac_exponent (s_add exponent (s_mul xi mi)) xn' message'
    | _, _ => exponent
    end.

  (** [SecretKey::mac] with the scalar drawn for the nonce given; aeonflux/src/amacs.rs:304-321. *)
  Definition mac_with (k : SecretKey) (message : Message) (nonce : scalar) : outcome MacError (Tag E) :=
    if negb (List.length (sk_xn k) =? List.length message)%nat
    then Err (MessageLengthError (List.length (sk_xn k))) else
    let P := smul nonce basepoint in
    Ok {| tag_nonce := P; tag_mac := smul (mac_exponent (sk_x0 k) (sk_xn k) message) P |}.

  (** [SecretKey::mac]; aeonflux/src/amacs.rs:304-321. *)
  Definition mac (k : SecretKey) (message : Message) (r : rng) : outcome MacError (Tag E * rng) :=
    if negb (List.length (sk_xn k) =? List.length message)%nat
    then Err (MessageLengthError (List.length (sk_xn k))) else
    let (nonce, r) := scalar_random r in
    do t <- mac_with k message nonce;
    Ok (t, r).

  (** The loop of [verify]; aeonflux/src/amacs.rs:328-331. *)
  Fixpoint verify_exponent (exponent : scalar) (xn : list scalar) (message : Message) : scalar :=
    match xn, message with
    | xi :: xn', mi :: message' => verify_exponent (s_add (s_mul xi mi) exponent) xn' message'
    | _, _ => exponent
    end.

  (** [SecretKey::verify]; aeonflux/src/amacs.rs:323-339. *)
  Definition mac_verify (k : SecretKey) (t : Tag E) (message : Message) : outcome MacError unit :=
    if peqb (tag_nonce t) basepoint then Err AuthenticationError else
    let check := smul (verify_exponent (sk_x0 k) (sk_xn k) message) (tag_nonce t) in
    if peqb (tag_mac t) check then Ok tt else Err AuthenticationError.

  (** [Keypair::from_bytes]; aeonflux/src/amacs.rs:352-367.  [length - 32] underflows for
      [length < 32]: a panic in debug builds; in release builds it wraps modulo
      [2^usize_bits], and so does [length - public_key_length]. *)
  Definition keypair_from_bytes (b : bytes) : outcome MacError (Keypair E) :=
    let length := Z.of_nat (List.length b) in
    let wrapping_sub a b := if a <? b then a - b + 2 ^ usize_bits E else a - b in
    if debug_build E && (length <? 32) then Panic else
    let public_key_length := wrapping_sub length 32 / 2 in
    let secret_key_length := wrapping_sub length public_key_length in
    if negb (public_key_length mod 32 =? 0) || negb (secret_key_length mod 32 =? 0)
    then Err KeypairDeserialisation else
    do pb <- or_panic (if public_key_length <=? length
                       then slice 0 (Z.to_nat public_key_length) b else None);
    do public <- public_key_from_bytes pb;
    do sb <- or_panic (slice_from (Z.to_nat public_key_length) b);
    do secret <- secret_key_from_bytes sb;
    Ok {| kp_public := public; kp_secret := secret |}.

  (** [Keypair::to_bytes]; aeonflux/src/amacs.rs:369-376. *)
  Definition keypair_to_bytes (k : Keypair E) : bytes :=
    (public_key_to_bytes (kp_public k) ++ secret_key_to_bytes (kp_secret k))%list.

  (** [Keypair::len]; aeonflux/src/amacs.rs:378-380. *)
  Definition keypair_len (k : Keypair E) : nat :=
    (public_key_len (kp_public k) + secret_key_len (kp_secret k))%nat.

  (** [Keypair::new]; aeonflux/src/amacs.rs:386-394. *)
  Definition keypair_new (h : point E) (r : rng) : Keypair E * rng :=
    let (secret, r) := secret_key_new NUMBER_OF_ATTRIBUTES r in
    ({| kp_public := get_public_key secret h; kp_secret := secret |}, r).

  (** [Rerandomization::apply_to_tag] with the scalar given; aeonflux/src/amacs.rs:403-412, 433-435. *)
  Definition apply_to_tag (s : scalar) (t : Tag E) : Tag E :=
    {| tag_nonce := smul s (tag_nonce t); tag_mac := smul s (tag_mac t) |}.
End amacs.
