(** What an observer of running time sees of a call: which way each branch
    went, how often each loop turned, which array elements were read or
    written, and the inputs of the operations whose running time depends on
    them.

    A [timed] computation is the list of those events with the result.  Each
    [t_f] follows the Rust function line by line as [f] does, and
    [PropertiesTiming.C92_computes] shows that its result is that of [f].

    Taken from the documentation of the external crates, not proved: scalar and
    point arithmetic, [Scalar::random], [multiscalar_mul], [compress],
    [to_bytes], [from_bytes_mod_order], [==] on scalars and points, and the
    transcript operations show nothing but the lengths of their inputs;
    [decompress] and [from_canonical_bytes] show whether they succeed;
    [vartime_multiscalar_mul] shows its scalars; comparing two byte slices
    shows where they first differ. *)
From Verif Require Export ModelSignal.

Inductive event : Type :=
| Branch (taken : bool)          (* an [if], [match] on an [Option]/[Result], [?], or loop test *)
| Index (i : nat)                (* [l[i]] *)
| Length (n : nat)               (* how many elements an external operation was given *)
| Scalars (ks : list scalar)     (* the scalars of a vartime operation *)
| Differ (n : nat)               (* where a comparison of two byte slices stopped *)
| Arm (v : byte).                (* which arm of a [match] on a byte was taken *)

Definition timed (A : Type) : Type := (list event * A)%type.

Definition now {A} (a : A) : timed A := ([], a).
Definition seen {A} (e : event) (a : A) : timed A := ([e], a).
Definition tbind {A B} (m : timed A) (k : A -> timed B) : timed B :=
  let r := k (snd m) in (fst m ++ fst r, snd r)%list.

Notation "'time!' x <- e ; k" := (tbind e (fun x => k))
  (at level 200, x pattern, e at level 100, k at level 200, right associativity).

(** [if b] *)
Definition t_if (b : bool) : timed bool := seen (Branch b) b.

(** [a || b] as the condition of an [if]. *)
Definition t_or (a b : bool) : timed bool :=
  time! x <- t_if a; if x then now true else t_if b.

(** A result which is passed on as it is. *)
Definition pass {Er A B} (m : timed (outcome Er A)) (k : A -> timed (outcome Er B))
  : timed (outcome Er B) :=
  time! o <- m;
  match o with
  | Ok a => k a
  | Err e => now (Err e)
  | Panic => now Panic
  end.

(** A result on which [?], [match] or a bounds check branches. *)
Definition is_ok {Er A} (o : outcome Er A) : bool :=
  match o with Ok _ => true | _ => false end.
Definition attempt {Er A} (m : timed (outcome Er A)) : timed (outcome Er A) :=
  time! o <- m; time! _ <- t_if (is_ok o); now o.

Notation "'pass!' x <- e ; k" := (pass e (fun x => k))
  (at level 200, x pattern, e at level 100, k at level 200, right associativity).
Notation "'try!' x <- e ; k" := (pass (attempt e) (fun x => k))
  (at level 200, x pattern, e at level 100, k at level 200, right associativity).

Definition t_map_err {Er F A} (f : Er -> F) (m : timed (outcome Er A)) : timed (outcome F A) :=
  time! o <- m; now (map_err f o).

(** [l[i]] *)
Definition t_index {Er A} (l : list A) (i : nat) : timed (outcome Er A) :=
  attempt (seen (Index i) (or_panic (index l i))).

(** A loop which pushes the result of [f] on each element. *)
Fixpoint t_try_map {Er A B} (f : A -> timed (outcome Er B)) (l : list A)
  : timed (outcome Er (list B)) :=
  match l with
  | [] => seen (Branch false) (Ok [])
  | x :: l' =>
    time! _ <- t_if true;
    pass! y <- f x;
    pass! ys <- t_try_map f l';
    now (Ok (y :: ys))
  end.

(** [a == b] on byte slices of the same length: where they first differ. *)
Fixpoint common (a b : bytes) : nat :=
  match a, b with
  | x :: a', y :: b' => if Byte.eqb x y then S (common a' b') else O
  | _, _ => O
  end.
Definition t_bytes_eqb (a b : bytes) : timed bool :=
  time! same <- seen (Differ (common a b)) (bytes_eqb a b); t_if same.

Section external.
  Context {E : Ext}.
  Definition t_multiscalar_mul (ks : list scalar) (Ps : list (point E)) : timed (point E) :=
    seen (Length (List.length ks)) (multiscalar_mul ks Ps).
  Definition t_vartime_multiscalar_mul (ks : list scalar) (Ps : list (point E)) : timed (point E) :=
    seen (Scalars ks) (multiscalar_mul ks Ps).
End external.

(** ** amacs.rs *)
Section amacs.
  Context {E : Ext}.

  (** [Tag::from_bytes]; aeonflux/src/amacs.rs:126-144. *)
  Definition t_tag_from_bytes (b : bytes) : timed (outcome MacError (Tag E)) :=
    time! bad <- t_if (negb (List.length b =? 64)%nat);
    if bad then now (Err MacPointDecompressionError) else
    try! P_bytes <- now (or_panic (slice 0 32 b));
    try! Q_bytes <- now (or_panic (slice 32 64 b));
    try! P <- now (ok_or none_mac (decompress P_bytes));
    try! Q <- now (ok_or none_mac (decompress Q_bytes));
    now (Ok {| tag_nonce := P; tag_mac := Q |}).

  (** [PublicKey::from_bytes]; aeonflux/src/amacs.rs:166-185. *)
  Definition t_public_key_from_bytes (b : bytes) : timed (outcome MacError (PublicKey E)) :=
    let length := List.length b in
    time! bad <- t_if (negb (Nat.modulo length 32 =? 0)%nat);
    if bad then now (Err (MessageLengthError length)) else
    pass! Xn <- t_try_map (fun chunk =>
                  attempt (now (ok_or MacPointDecompressionError (decompress chunk))))
                  (chunks 32 b);
    now (Ok {| pk_Xn := Xn |}).

  (** [SecretKey::new]; aeonflux/src/amacs.rs:225-237. *)
  Fixpoint t_scalars_random (n : nat) (r : rng) : timed (list scalar * rng) :=
    match n with
    | O => seen (Branch false) ([], r)
    | S n' =>
      time! _ <- t_if true;
      let (x, r) := scalar_random r in
      time! (xs, r) <- t_scalars_random n' r;
      now (x :: xs, r)
    end.
  Definition t_secret_key_new (n : nat) (r : rng) : timed (SecretKey * rng) :=
    let (x0, r) := scalar_random r in
    time! (xn, r) <- t_scalars_random n r;
    now ({| sk_x0 := x0; sk_xn := xn |}, r).

  (** The loop of [SecretKey::from_bytes]; aeonflux/src/amacs.rs:251-264. *)
  Fixpoint t_read_secret (chunks : list bytes) (x0 : option scalar) (xn : list scalar)
    : timed (outcome MacError (option scalar * list scalar)) :=
    match chunks with
    | [] => seen (Branch false) (Ok (x0, xn))
    | chunk :: chunks' =>
      time! _ <- t_if true;
      try! x <- now (ok_or MacScalarFormatError (from_canonical_bytes chunk));
      time! first <- t_if (match x0 with None => true | Some _ => false end);
      if first then t_read_secret chunks' (Some x) xn
      else t_read_secret chunks' x0 (xn ++ [x])
    end.

  (** [SecretKey::from_bytes]; aeonflux/src/amacs.rs:240-270. *)
  Definition t_secret_key_from_bytes (b : bytes) : timed (outcome MacError SecretKey) :=
    let length := List.length b in
    time! bad <- t_if (negb (Nat.modulo length 32 =? 0)%nat);
    if bad then now (Err (MessageLengthError length)) else
    time! underflow <- t_if (length =? 0)%nat;
    if underflow then now Panic else
    pass! (x0, xn) <- t_read_secret (chunks 32 b) None [];
    try! x0 <- now (ok_or (MessageLengthError length) x0);
    now (Ok {| sk_x0 := x0; sk_xn := xn |}).

  (** [SecretKey::get_public_key]; aeonflux/src/amacs.rs:294-302. *)
  Fixpoint t_public_elements (h : point E) (xn : list scalar) : timed (list (point E)) :=
    match xn with
    | [] => seen (Branch false) []
    | xi :: xn' =>
      time! _ <- t_if true;
      time! Xn <- t_public_elements h xn';
      now (smul xi h :: Xn)
    end.
  Definition t_get_public_key (k : SecretKey) (h : point E) : timed (PublicKey E) :=
    time! Xn <- t_public_elements h (sk_xn k);
    now {| pk_Xn := Xn |}.

  (** The loop of [mac]; aeonflux/src/amacs.rs:315-317. *)
  Fixpoint t_mac_exponent (exponent : scalar) (xn : list scalar) (message : Message) : timed scalar :=
    match xn, message with
    | xi :: xn', mi :: message' =>
      time! _ <- t_if true;
      t_mac_exponent (s_add exponent (s_mul xi mi)) xn' message'
    | _, _ => seen (Branch false) exponent
    end.

  (** [SecretKey::mac]; aeonflux/src/amacs.rs:304-321. *)
  Definition t_mac (k : SecretKey) (message : Message) (r : rng)
    : timed (outcome MacError (Tag E * rng)) :=
    time! bad <- t_if (negb (List.length (sk_xn k) =? List.length message)%nat);
    if bad then now (Err (MessageLengthError (List.length (sk_xn k)))) else
    let (nonce, r) := scalar_random r in
    let P := smul nonce basepoint in
    time! exponent <- t_mac_exponent (sk_x0 k) (sk_xn k) message;
    now (Ok ({| tag_nonce := P; tag_mac := smul exponent P |}, r)).

  (** The loop of [verify]; aeonflux/src/amacs.rs:329-331. *)
  Fixpoint t_verify_exponent (exponent : scalar) (xn : list scalar) (message : Message) : timed scalar :=
    match xn, message with
    | xi :: xn', mi :: message' =>
      time! _ <- t_if true;
      t_verify_exponent (s_add (s_mul xi mi) exponent) xn' message'
    | _, _ => seen (Branch false) exponent
    end.

  (** [SecretKey::verify]; aeonflux/src/amacs.rs:323-339. *)
  Definition t_mac_verify (k : SecretKey) (t : Tag E) (message : Message)
    : timed (outcome MacError unit) :=
    time! bad <- t_if (peqb (tag_nonce t) basepoint);
    if bad then now (Err AuthenticationError) else
    time! exponent <- t_verify_exponent (sk_x0 k) (sk_xn k) message;
    time! same <- t_if (peqb (tag_mac t) (smul exponent (tag_nonce t)));
    now (if same then Ok tt else Err AuthenticationError).

  (** [Keypair::from_bytes]; aeonflux/src/amacs.rs:352-367. *)
  Definition t_keypair_from_bytes (b : bytes) : timed (outcome MacError (Keypair E)) :=
    let length := Z.of_nat (List.length b) in
    let wrapping_sub a b := if a <? b then a - b + 2 ^ usize_bits E else a - b in
    time! underflow <- t_if (debug_build E && (length <? 32));
    if underflow then now Panic else
    let public_key_length := wrapping_sub length 32 / 2 in
    let secret_key_length := wrapping_sub length public_key_length in
    time! bad <- t_or (negb (public_key_length mod 32 =? 0)) (negb (secret_key_length mod 32 =? 0));
    if bad then now (Err KeypairDeserialisation) else
    try! pb <- now (or_panic (if public_key_length <=? length
                              then slice 0 (Z.to_nat public_key_length) b else None));
    try! public <- t_public_key_from_bytes pb;
    try! sb <- now (or_panic (slice_from (Z.to_nat public_key_length) b));
    try! secret <- t_secret_key_from_bytes sb;
    now (Ok {| kp_public := public; kp_secret := secret |}).

  (** [Keypair::new]; aeonflux/src/amacs.rs:386-394. *)
  Definition t_keypair_new (h : point E) (r : rng) : timed (Keypair E * rng) :=
    time! (secret, r) <- t_secret_key_new NUMBER_OF_ATTRIBUTES r;
    time! public <- t_get_public_key secret h;
    now ({| kp_public := public; kp_secret := secret |}, r).
End amacs.

(** ** parameters.rs, nonces.rs, pedersen.rs, elgamal.rs *)
Section prims.
  Context {E : Ext}.

  (** [SystemParameters::from_bytes]; aeonflux/src/parameters.rs:52-81. *)
  Definition t_system_parameters_from_bytes (b : bytes)
    : timed (outcome CredentialError (SystemParameters E)) :=
    time! bad <- t_if (negb (List.length b =? 64)%nat);
    if bad then now (Err NoSystemParameters) else
    try! g_bytes <- now (or_panic (slice 0 32 b));
    try! h_bytes <- now (or_panic (slice 32 64 b));
    try! g <- now (ok_or PointDecompressionError (decompress g_bytes));
    try! h <- now (ok_or PointDecompressionError (decompress h_bytes));
    now (Ok {| sp_g := g; sp_h := h |}).

  (** [Nonces::new]; aeonflux/src/nonces.rs:177-191. *)
  Definition t_nonces_new (r : rng) (size : nat) : timed (list scalar * rng) :=
    t_scalars_random size r.

  (** [Commitment::open]; aeonflux/src/pedersen.rs:98-109. *)
  Definition t_commitment_open (c value : point E) (nonce : scalar) (base : point E)
    : timed (outcome unit unit) :=
    time! same <- t_if (peqb value (psub c (smul nonce base)));
    now (if same then Ok tt else Err tt).

  (** [PublicKey::from_bytes]; aeonflux/src/elgamal.rs:98-108. *)
  Definition t_elgamal_public_from_bytes (b : bytes) : timed (outcome CredentialError (point E)) :=
    time! bad <- t_if (negb (List.length b =? 32)%nat);
    if bad then now Panic else
    attempt (now (ok_or none_credential (decompress b))).

  (** [SecretKey::from_bytes]; aeonflux/src/elgamal.rs:146-156. *)
  Definition t_elgamal_secret_from_bytes (b : bytes) : timed (outcome CredentialError scalar) :=
    time! bad <- t_if (negb (List.length b =? 32)%nat);
    if bad then now Panic else
    attempt (now (ok_or none_credential (from_canonical_bytes b))).

  (** [Keypair::from_bytes]; aeonflux/src/elgamal.rs:198-205. *)
  Definition t_elgamal_keypair_from_bytes (b : bytes)
    : timed (outcome CredentialError (ElgamalKeypair E)) :=
    time! bad <- t_if (negb (List.length b =? 64)%nat);
    if bad then now Panic else
    try! s <- now (or_panic (slice 0 32 b));
    try! secret <- t_elgamal_secret_from_bytes s;
    try! p <- now (or_panic (slice 32 64 b));
    try! public <- t_elgamal_public_from_bytes p;
    now (Ok {| eg_secret := secret; eg_public := public |}).
End prims.

(** ** proofs.rs *)
Section proofs.
  Context {E : Ext}.
  Local Open Scope string_scope.

  (** [Proof::create] after drawing the randomness; aeonflux/src/proofs.rs:87-135. *)
  Definition t_ir_create_with (t : transcript) (publics : ir_Publics E)
      (secrets rand : ir_Scalars) : timed ir_Proof :=
    time! Q_com <- t_multiscalar_mul [irs_x0 rand; irs_m1x1 rand]
      [irp_P publics; irp_P publics];
    time! Cx0_com <- t_multiscalar_mul [irs_x0 rand; irs_x0_tilde rand]
      [irp_B publics; irp_A publics];
    time! X1_com <- t_multiscalar_mul [irs_x1 rand]
      [irp_A publics];
    let commitments := {|
      irc_Q := Q_com;
      irc_Cx0 := Cx0_com;
      irc_X1 := X1_com
    |} in
    let t := commit_bytes t "com Q" (compress (irc_Q commitments)) in
    let t := commit_bytes t "com Cx0" (compress (irc_Cx0 commitments)) in
    let t := commit_bytes t "com X1" (compress (irc_X1 commitments)) in
    let challenge := @get_challenge E t in
    now
    {| ir_challenge := challenge;
       ir_responses := {|
         irs_x0 := s_add (s_mul challenge (irs_x0 secrets)) (irs_x0 rand);
         irs_x1 := s_add (s_mul challenge (irs_x1 secrets)) (irs_x1 rand);
         irs_x0_tilde := s_add (s_mul challenge (irs_x0_tilde secrets)) (irs_x0_tilde rand);
         irs_m1x1 := s_add (s_mul challenge (irs_m1x1 secrets)) (irs_m1x1 rand)
       |} |}.

  (** [Proof::create]; aeonflux/src/proofs.rs:87-135. *)
  Definition t_ir_create (t : transcript) (publics : ir_Publics E) (secrets : ir_Scalars)
      (os : rng) : timed (ir_Proof * rng) :=
    let t := ir_create_absorb t publics in
    let (rand, os) := @ir_randomness E t secrets os in
    time! proof <- t_ir_create_with t publics secrets rand;
    now (proof, os).

  (** [Proof::verify]; aeonflux/src/proofs.rs:139-176. *)
  Definition t_ir_verify (proof : ir_Proof) (t : transcript) (publics : ir_Publics E)
    : timed (outcome unit unit) :=
    let responses := ir_responses proof in
    let minus_c := s_neg (ir_challenge proof) in
    time! Q_com <- t_vartime_multiscalar_mul [irs_x0 responses; irs_m1x1 responses; minus_c]
      [irp_P publics; irp_P publics; irp_Q publics];
    time! Cx0_com <- t_vartime_multiscalar_mul [irs_x0 responses; irs_x0_tilde responses; minus_c]
      [irp_B publics; irp_A publics; irp_Cx0 publics];
    time! X1_com <- t_vartime_multiscalar_mul [irs_x1 responses; minus_c]
      [irp_A publics; irp_X1 publics];
    let commitments := {|
      irc_Q := Q_com;
      irc_Cx0 := Cx0_com;
      irc_X1 := X1_com
    |} in
    let t := commit_bytes t "domain-sep" (str "issuance_revealed") in
    let t := commit_bytes t "P" (compress (irp_P publics)) in
    let t := commit_bytes t "Q" (compress (irp_Q publics)) in
    let t := commit_bytes t "Cx0" (compress (irp_Cx0 publics)) in
    let t := commit_bytes t "B" (compress (irp_B publics)) in
    let t := commit_bytes t "A" (compress (irp_A publics)) in
    let t := commit_bytes t "X1" (compress (irp_X1 publics)) in
    let t := commit_bytes t "com Q" (compress (irc_Q commitments)) in
    let t := commit_bytes t "com Cx0" (compress (irc_Cx0 commitments)) in
    let t := commit_bytes t "com X1" (compress (irc_X1 commitments)) in
    let challenge := @get_challenge E t in
    time! same <- t_if (scalar_eqb challenge (ir_challenge proof));
    now (if same then Ok tt else Err tt).

  (** [Proof::create] after drawing the randomness; aeonflux/src/proofs.rs:230-288. *)
  Definition t_ab_create_with (t : transcript) (publics : ab_Publics E)
      (secrets rand : ab_Scalars) : timed ab_Proof :=
    time! D_com <- t_multiscalar_mul [abs_d rand]
      [abp_B publics];
    time! encrypted_attribute_0_0_com <- t_multiscalar_mul [abs_e0 rand]
      [abp_B publics];
    time! encrypted_attribute_0_1_com <- t_multiscalar_mul [abs_m0 rand; abs_e0 rand]
      [abp_B publics; abp_D publics];
    let commitments := {|
      abc_D := D_com;
      abc_encrypted_attribute_0_0 := encrypted_attribute_0_0_com;
      abc_encrypted_attribute_0_1 := encrypted_attribute_0_1_com
    |} in
    let t := commit_bytes t "com D" (compress (abc_D commitments)) in
    let t := commit_bytes t "com encrypted_attribute_0_0" (compress (abc_encrypted_attribute_0_0 commitments)) in
    let t := commit_bytes t "com encrypted_attribute_0_1" (compress (abc_encrypted_attribute_0_1 commitments)) in
    let challenge := @get_challenge E t in
    now
    {| ab_challenge := challenge;
       ab_responses := {|
         abs_d := s_add (s_mul challenge (abs_d secrets)) (abs_d rand);
         abs_e0 := s_add (s_mul challenge (abs_e0 secrets)) (abs_e0 rand);
         abs_m0 := s_add (s_mul challenge (abs_m0 secrets)) (abs_m0 rand);
         abs_nonce := s_add (s_mul challenge (abs_nonce secrets)) (abs_nonce rand)
       |} |}.

  (** [Proof::create]; aeonflux/src/proofs.rs:230-288. *)
  Definition t_ab_create (t : transcript) (publics : ab_Publics E) (secrets : ab_Scalars)
      (os : rng) : timed (ab_Proof * rng) :=
    let t := ab_create_absorb t publics in
    let (rand, os) := @ab_randomness E t secrets os in
    time! proof <- t_ab_create_with t publics secrets rand;
    now (proof, os).

  (** [Proof::verify]; aeonflux/src/proofs.rs:291-343. *)
  Definition t_ab_verify (proof : ab_Proof) (t : transcript) (publics : ab_Publics E)
    : timed (outcome unit unit) :=
    let responses := ab_responses proof in
    let minus_c := s_neg (ab_challenge proof) in
    time! D_com <- t_vartime_multiscalar_mul [abs_d responses; minus_c]
      [abp_B publics; abp_D publics];
    time! encrypted_attribute_0_0_com <- t_vartime_multiscalar_mul [abs_e0 responses; minus_c]
      [abp_B publics; abp_encrypted_attribute_0_0 publics];
    time! encrypted_attribute_0_1_com <- t_vartime_multiscalar_mul [abs_m0 responses; abs_e0 responses; minus_c]
      [abp_B publics; abp_D publics; abp_encrypted_attribute_0_1 publics];
    let commitments := {|
      abc_D := D_com;
      abc_encrypted_attribute_0_0 := encrypted_attribute_0_0_com;
      abc_encrypted_attribute_0_1 := encrypted_attribute_0_1_com
    |} in
    let t := commit_bytes t "domain-sep" (str "attributes_blinded") in
    let t := commit_bytes t "B" (compress (abp_B publics)) in
    let t := commit_bytes t "A" (compress (abp_A publics)) in
    let t := commit_bytes t "D" (compress (abp_D publics)) in
    let t := commit_bytes t "encrypted_attribute_0_0" (compress (abp_encrypted_attribute_0_0 publics)) in
    let t := commit_bytes t "encrypted_attribute_0_1" (compress (abp_encrypted_attribute_0_1 publics)) in
    let t := commit_bytes t "com D" (compress (abc_D commitments)) in
    let t := commit_bytes t "com encrypted_attribute_0_0" (compress (abc_encrypted_attribute_0_0 commitments)) in
    let t := commit_bytes t "com encrypted_attribute_0_1" (compress (abc_encrypted_attribute_0_1 commitments)) in
    let challenge := @get_challenge E t in
    time! same <- t_if (scalar_eqb challenge (ab_challenge proof));
    now (if same then Ok tt else Err tt).

  (** [Proof::create] after drawing the randomness; aeonflux/src/proofs.rs:414-502. *)
  Definition t_ib_create_with (t : transcript) (publics : ib_Publics E)
      (secrets rand : ib_Scalars) : timed ib_Proof :=
    time! X0_com <- t_multiscalar_mul [ibs_x0 rand; ibs_x0_tilde rand]
      [ibp_B publics; ibp_A publics];
    time! X1_com <- t_multiscalar_mul [ibs_x1 rand]
      [ibp_A publics];
    time! P_com <- t_multiscalar_mul [ibs_b rand]
      [ibp_B publics];
    time! T0_0_com <- t_multiscalar_mul [ibs_b rand]
      [ibp_X0 publics];
    time! T0_1_com <- t_multiscalar_mul [ibs_t0 rand]
      [ibp_A publics];
    time! EQ_commitment_com <- t_multiscalar_mul [ibs_s rand; ibs_t0 rand]
      [ibp_B publics; ibp_encrypted_attribute_0_0 publics];
    time! EQ_encryption_com <- t_multiscalar_mul [ibs_s rand; ibs_t0 rand]
      [ibp_D publics; ibp_encrypted_attribute_0_1 publics];
    let commitments := {|
      ibc_X0 := X0_com;
      ibc_X1 := X1_com;
      ibc_P := P_com;
      ibc_T0_0 := T0_0_com;
      ibc_T0_1 := T0_1_com;
      ibc_EQ_commitment := EQ_commitment_com;
      ibc_EQ_encryption := EQ_encryption_com
    |} in
    let t := commit_bytes t "com X0" (compress (ibc_X0 commitments)) in
    let t := commit_bytes t "com X1" (compress (ibc_X1 commitments)) in
    let t := commit_bytes t "com P" (compress (ibc_P commitments)) in
    let t := commit_bytes t "com T0_0" (compress (ibc_T0_0 commitments)) in
    let t := commit_bytes t "com T0_1" (compress (ibc_T0_1 commitments)) in
    let t := commit_bytes t "com EQ_commitment" (compress (ibc_EQ_commitment commitments)) in
    let t := commit_bytes t "com EQ_encryption" (compress (ibc_EQ_encryption commitments)) in
    let challenge := @get_challenge E t in
    now
    {| ib_challenge := challenge;
       ib_responses := {|
         ibs_x0_tilde := s_add (s_mul challenge (ibs_x0_tilde secrets)) (ibs_x0_tilde rand);
         ibs_x0 := s_add (s_mul challenge (ibs_x0 secrets)) (ibs_x0 rand);
         ibs_x1 := s_add (s_mul challenge (ibs_x1 secrets)) (ibs_x1 rand);
         ibs_s := s_add (s_mul challenge (ibs_s secrets)) (ibs_s rand);
         ibs_b := s_add (s_mul challenge (ibs_b secrets)) (ibs_b rand);
         ibs_t0 := s_add (s_mul challenge (ibs_t0 secrets)) (ibs_t0 rand)
       |} |}.

  (** [Proof::create]; aeonflux/src/proofs.rs:414-502. *)
  Definition t_ib_create (t : transcript) (publics : ib_Publics E) (secrets : ib_Scalars)
      (os : rng) : timed (ib_Proof * rng) :=
    let t := ib_create_absorb t publics in
    let (rand, os) := @ib_randomness E t secrets os in
    time! proof <- t_ib_create_with t publics secrets rand;
    now (proof, os).

  (** [Proof::verify]; aeonflux/src/proofs.rs:506-591. *)
  Definition t_ib_verify (proof : ib_Proof) (t : transcript) (publics : ib_Publics E)
    : timed (outcome unit unit) :=
    let responses := ib_responses proof in
    let minus_c := s_neg (ib_challenge proof) in
    time! X0_com <- t_vartime_multiscalar_mul [ibs_x0 responses; ibs_x0_tilde responses; minus_c]
      [ibp_B publics; ibp_A publics; ibp_X0 publics];
    time! X1_com <- t_vartime_multiscalar_mul [ibs_x1 responses; minus_c]
      [ibp_A publics; ibp_X1 publics];
    time! P_com <- t_vartime_multiscalar_mul [ibs_b responses; minus_c]
      [ibp_B publics; ibp_P publics];
    time! T0_0_com <- t_vartime_multiscalar_mul [ibs_b responses; minus_c]
      [ibp_X0 publics; ibp_T0_0 publics];
    time! T0_1_com <- t_vartime_multiscalar_mul [ibs_t0 responses; minus_c]
      [ibp_A publics; ibp_T0_1 publics];
    time! EQ_commitment_com <- t_vartime_multiscalar_mul [ibs_s responses; ibs_t0 responses; minus_c]
      [ibp_B publics; ibp_encrypted_attribute_0_0 publics; ibp_EQ_commitment publics];
    time! EQ_encryption_com <- t_vartime_multiscalar_mul [ibs_s responses; ibs_t0 responses; minus_c]
      [ibp_D publics; ibp_encrypted_attribute_0_1 publics; ibp_EQ_encryption publics];
    let commitments := {|
      ibc_X0 := X0_com;
      ibc_X1 := X1_com;
      ibc_P := P_com;
      ibc_T0_0 := T0_0_com;
      ibc_T0_1 := T0_1_com;
      ibc_EQ_commitment := EQ_commitment_com;
      ibc_EQ_encryption := EQ_encryption_com
    |} in
    let t := commit_bytes t "domain-sep" (str "issuance_blinded") in
    let t := commit_bytes t "B" (compress (ibp_B publics)) in
    let t := commit_bytes t "A" (compress (ibp_A publics)) in
    let t := commit_bytes t "X0" (compress (ibp_X0 publics)) in
    let t := commit_bytes t "X1" (compress (ibp_X1 publics)) in
    let t := commit_bytes t "D" (compress (ibp_D publics)) in
    let t := commit_bytes t "P" (compress (ibp_P publics)) in
    let t := commit_bytes t "T0_0" (compress (ibp_T0_0 publics)) in
    let t := commit_bytes t "T0_1" (compress (ibp_T0_1 publics)) in
    let t := commit_bytes t "EQ_commitment" (compress (ibp_EQ_commitment publics)) in
    let t := commit_bytes t "EQ_encryption" (compress (ibp_EQ_encryption publics)) in
    let t := commit_bytes t "encrypted_attribute_0_0" (compress (ibp_encrypted_attribute_0_0 publics)) in
    let t := commit_bytes t "encrypted_attribute_0_1" (compress (ibp_encrypted_attribute_0_1 publics)) in
    let t := commit_bytes t "com X0" (compress (ibc_X0 commitments)) in
    let t := commit_bytes t "com X1" (compress (ibc_X1 commitments)) in
    let t := commit_bytes t "com P" (compress (ibc_P commitments)) in
    let t := commit_bytes t "com T0_0" (compress (ibc_T0_0 commitments)) in
    let t := commit_bytes t "com T0_1" (compress (ibc_T0_1 commitments)) in
    let t := commit_bytes t "com EQ_commitment" (compress (ibc_EQ_commitment commitments)) in
    let t := commit_bytes t "com EQ_encryption" (compress (ibc_EQ_encryption commitments)) in
    let challenge := @get_challenge E t in
    time! same <- t_if (scalar_eqb challenge (ib_challenge proof));
    now (if same then Ok tt else Err tt).

  (** [Proof::create] after drawing the randomness; aeonflux/src/proofs.rs:642-684. *)
  Definition t_vc_create_with (t : transcript) (publics : vc_Publics E)
      (secrets rand : vc_Scalars) : timed vc_Proof :=
    time! Cm0_com <- t_multiscalar_mul [vcs_m0 rand; vcs_z0 rand]
      [vcp_P publics; vcp_A publics];
    time! V_com <- t_multiscalar_mul [vcs_z0 rand; vcs_minus_zQ rand]
      [vcp_X0 publics; vcp_A publics];
    let commitments := {|
      vcc_Cm0 := Cm0_com;
      vcc_V := V_com
    |} in
    let t := commit_bytes t "com Cm0" (compress (vcc_Cm0 commitments)) in
    let t := commit_bytes t "com V" (compress (vcc_V commitments)) in
    let challenge := @get_challenge E t in
    now
    {| vc_challenge := challenge;
       vc_responses := {|
         vcs_m0 := s_add (s_mul challenge (vcs_m0 secrets)) (vcs_m0 rand);
         vcs_z0 := s_add (s_mul challenge (vcs_z0 secrets)) (vcs_z0 rand);
         vcs_minus_zQ := s_add (s_mul challenge (vcs_minus_zQ secrets)) (vcs_minus_zQ rand)
       |} |}.

  (** [Proof::create]; aeonflux/src/proofs.rs:642-684. *)
  Definition t_vc_create (t : transcript) (publics : vc_Publics E) (secrets : vc_Scalars)
      (os : rng) : timed (vc_Proof * rng) :=
    let t := vc_create_absorb t publics in
    let (rand, os) := @vc_randomness E t secrets os in
    time! proof <- t_vc_create_with t publics secrets rand;
    now (proof, os).

  (** [Proof::verify]; aeonflux/src/proofs.rs:688-720. *)
  Definition t_vc_verify (proof : vc_Proof) (t : transcript) (publics : vc_Publics E)
    : timed (outcome unit unit) :=
    let responses := vc_responses proof in
    let minus_c := s_neg (vc_challenge proof) in
    time! Cm0_com <- t_vartime_multiscalar_mul [vcs_m0 responses; vcs_z0 responses; minus_c]
      [vcp_P publics; vcp_A publics; vcp_Cm0 publics];
    time! V_com <- t_vartime_multiscalar_mul [vcs_z0 responses; vcs_minus_zQ responses; minus_c]
      [vcp_X0 publics; vcp_A publics; vcp_V publics];
    let commitments := {|
      vcc_Cm0 := Cm0_com;
      vcc_V := V_com
    |} in
    let t := commit_bytes t "domain-sep" (str "valid_credential") in
    let t := commit_bytes t "B" (compress (vcp_B publics)) in
    let t := commit_bytes t "A" (compress (vcp_A publics)) in
    let t := commit_bytes t "X0" (compress (vcp_X0 publics)) in
    let t := commit_bytes t "P" (compress (vcp_P publics)) in
    let t := commit_bytes t "V" (compress (vcp_V publics)) in
    let t := commit_bytes t "Cm0" (compress (vcp_Cm0 publics)) in
    let t := commit_bytes t "com Cm0" (compress (vcc_Cm0 commitments)) in
    let t := commit_bytes t "com V" (compress (vcc_V commitments)) in
    let challenge := @get_challenge E t in
    time! same <- t_if (scalar_eqb challenge (vc_challenge proof));
    now (if same then Ok tt else Err tt).

  (** [Proof::create] after drawing the randomness; aeonflux/src/proofs.rs:770-810. *)
  Definition t_ce_create_with (t : transcript) (publics : ce_Publics E)
      (secrets rand : ce_Scalars) : timed ce_Proof :=
    time! Cm0_com <- t_multiscalar_mul [ces_m0 rand; ces_z0 rand]
      [cep_P publics; cep_A publics];
    time! Cm1_com <- t_multiscalar_mul [ces_m0 rand; ces_z1 rand]
      [cep_A publics; cep_B publics];
    let commitments := {|
      cec_Cm0 := Cm0_com;
      cec_Cm1 := Cm1_com
    |} in
    let t := commit_bytes t "com Cm0" (compress (cec_Cm0 commitments)) in
    let t := commit_bytes t "com Cm1" (compress (cec_Cm1 commitments)) in
    let challenge := @get_challenge E t in
    now
    {| ce_challenge := challenge;
       ce_responses := {|
         ces_m0 := s_add (s_mul challenge (ces_m0 secrets)) (ces_m0 rand);
         ces_z0 := s_add (s_mul challenge (ces_z0 secrets)) (ces_z0 rand);
         ces_z1 := s_add (s_mul challenge (ces_z1 secrets)) (ces_z1 rand)
       |} |}.

  (** [Proof::create]; aeonflux/src/proofs.rs:770-810. *)
  Definition t_ce_create (t : transcript) (publics : ce_Publics E) (secrets : ce_Scalars)
      (os : rng) : timed (ce_Proof * rng) :=
    let t := ce_create_absorb t publics in
    let (rand, os) := @ce_randomness E t secrets os in
    time! proof <- t_ce_create_with t publics secrets rand;
    now (proof, os).

  (** [Proof::verify]; aeonflux/src/proofs.rs:814-845. *)
  Definition t_ce_verify (proof : ce_Proof) (t : transcript) (publics : ce_Publics E)
    : timed (outcome unit unit) :=
    let responses := ce_responses proof in
    let minus_c := s_neg (ce_challenge proof) in
    time! Cm0_com <- t_vartime_multiscalar_mul [ces_m0 responses; ces_z0 responses; minus_c]
      [cep_P publics; cep_A publics; cep_Cm0 publics];
    time! Cm1_com <- t_vartime_multiscalar_mul [ces_m0 responses; ces_z1 responses; minus_c]
      [cep_A publics; cep_B publics; cep_Cm1 publics];
    let commitments := {|
      cec_Cm0 := Cm0_com;
      cec_Cm1 := Cm1_com
    |} in
    let t := commit_bytes t "domain-sep" (str "committed_values_equal") in
    let t := commit_bytes t "B" (compress (cep_B publics)) in
    let t := commit_bytes t "A" (compress (cep_A publics)) in
    let t := commit_bytes t "P" (compress (cep_P publics)) in
    let t := commit_bytes t "Cm0" (compress (cep_Cm0 publics)) in
    let t := commit_bytes t "Cm1" (compress (cep_Cm1 publics)) in
    let t := commit_bytes t "com Cm0" (compress (cec_Cm0 commitments)) in
    let t := commit_bytes t "com Cm1" (compress (cec_Cm1 commitments)) in
    let challenge := @get_challenge E t in
    time! same <- t_if (scalar_eqb challenge (ce_challenge proof));
    now (if same then Ok tt else Err tt).

End proofs.

(** ** credential.rs, issuer.rs *)
Section issuer.
  Context {E : Ext}.
  Local Open Scope string_scope.

  (** [Credential::from_bytes]; aeonflux/src/credential.rs:79-102. *)
  Definition t_attribute_from_chunk (chunk : bytes) : timed (outcome CredentialError scalar) :=
    try! tmp <- now (or_panic (to_array 32 chunk));
    attempt (now (ok_or ScalarFormatError (from_canonical_bytes tmp))).
  Definition t_credential_from_bytes (b : bytes) : timed (outcome CredentialError (Credential E)) :=
    let length := List.length b in
    time! bad <- t_or (negb (Nat.modulo length 32 =? 0)%nat) (length <? 96)%nat;
    time! bad <- (if bad then now true else t_if (negb (length =? SIZEOF_CREDENTIAL)%nat));
    if bad then now (Err WrongNumberOfBytes) else
    try! tb <- now (or_panic (slice 0 64 b));
    try! mac <- t_map_err mac_to_credential_error (t_tag_from_bytes tb);
    try! ab <- now (or_panic (slice_from 64 b));
    pass! attributes <- t_try_map t_attribute_from_chunk (chunks 32 ab);
    now (Ok {| cr_mac := mac; cr_attributes := attributes |}).

  (** [Issuer::from_bytes]; aeonflux/src/issuer.rs:52-61. *)
  Definition t_issuer_from_bytes (b : bytes) : timed (outcome CredentialError (Issuer E)) :=
    time! bad <- t_if (List.length b <? 64 + 96)%nat;
    if bad then now (Err MissingData) else
    try! pb <- now (or_panic (slice 0 64 b));
    try! params <- t_system_parameters_from_bytes pb;
    try! kb <- now (or_panic (slice_from 64 b));
    try! keypair <- t_map_err mac_to_credential_error (t_keypair_from_bytes kb);
    now (Ok {| iss_system_parameters := params; iss_keypair := keypair |}).

  (** [Issuer::create]; aeonflux/src/issuer.rs:86-96. *)
  Definition t_issuer_create (params : SystemParameters E) (r : rng) : timed (Issuer E * rng) :=
    time! (keypair, r) <- t_keypair_new (sp_h params) r;
    now ({| iss_system_parameters := params; iss_keypair := keypair |}, r).

  (** [Issuer::issue]; aeonflux/src/issuer.rs:136-195.  Copying the attributes shows their
      number. *)
  Definition t_issue_statement (i : Issuer E) (X1 : point E) (x1 : scalar)
      (attributes : list scalar) (tag : Tag E) (x0_tilde : scalar)
    : timed (outcome CredentialError (ir_Publics E * ir_Scalars)) :=
    let g := sp_g (iss_system_parameters i) in
    let h := sp_h (iss_system_parameters i) in
    let x0 := sk_x0 (kp_secret (iss_keypair i)) in
    let Cx0 := commitment_to (smul x0 g) x0_tilde h in
    pass! m1 <- t_index attributes 0;
    now (Ok ({| irp_P := tag_nonce tag; irp_Q := tag_mac tag; irp_Cx0 := Cx0;
                irp_B := g; irp_A := h; irp_X1 := X1 |},
             {| irs_x0 := x0; irs_x1 := x1; irs_x0_tilde := x0_tilde;
                irs_m1x1 := s_mul m1 x1 |})).
  Definition t_issue (i : Issuer E) (request : CredentialRequest) (r os : rng)
    : timed (outcome CredentialError (CredentialIssuance E * rng * rng)) :=
    try! X1 <- now (ok_or NoIssuerParameters (nth_error (pk_Xn (kp_public (iss_keypair i))) 0));
    try! x1 <- now (ok_or NoIssuerKey (nth_error (sk_xn (kp_secret (iss_keypair i))) 0));
    let attributes := rq_attributes_revealed request in
    let t := transcript_new "AEONFLUX ISSUANCE" in
    let (csprng, r) := @reseed E t [] r in
    time! message <- seen (Length (List.length attributes)) attributes;
    try! (tag, csprng) <- t_map_err (fun _ => MacCreation)
                            (t_mac (kp_secret (iss_keypair i)) message csprng);
    let (x0_tilde, csprng) := ephemeral_new csprng in
    pass! (publics, secrets) <- t_issue_statement i X1 x1 attributes tag x0_tilde;
    time! (proof, os) <- t_ir_create t publics secrets os;
    time! attributes <- seen (Length (List.length attributes)) attributes;
    now (Ok ({| is_secret_key_commitment := irp_Cx0 publics;
                is_credential := {| cr_mac := tag; cr_attributes := attributes |};
                is_proof := proof |}, r, os)).

  (** The loops of [Issuer::verify]; aeonflux/src/issuer.rs:205-211. *)
  Fixpoint t_verify_revealed (xn : list scalar) (P : point E) (index0 : nat)
      (attributes : list scalar) (V : point E) : timed (outcome CredentialError (point E)) :=
    match attributes with
    | [] => seen (Branch false) (Ok V)
    | m :: attributes' =>
      time! _ <- t_if true;
      pass! x <- t_index xn index0;
      t_verify_revealed xn P (S index0) attributes' (padd V (smul (s_mul x m) P))
    end.
  Fixpoint t_verify_blinded (xn : list scalar) (index0 : nat)
      (attributes : list (point E)) (V : point E) : timed (outcome CredentialError (point E)) :=
    match attributes with
    | [] => seen (Branch false) (Ok V)
    | C :: attributes' =>
      time! _ <- t_if true;
      pass! x <- t_index xn index0;
      t_verify_blinded xn (S index0) attributes' (padd V (smul x C))
    end.

  (** [Issuer::verify]; aeonflux/src/issuer.rs:197-229. *)
  Definition t_verify_statement (i : Issuer E) (p : CredentialPresentation E)
    : timed (outcome CredentialError (vc_Publics E)) :=
    let P := pr_rerandomized_nonce p in
    let secret := kp_secret (iss_keypair i) in
    pass! V <- t_verify_revealed (sk_xn secret) P 0 (pr_attributes_revealed p) (smul (sk_x0 secret) P);
    pass! V <- t_verify_blinded (sk_xn secret) 0 (pr_attributes_blinded p) V;
    let V := psub V (pr_rerandomized_mac_commitment p) in
    pass! X0 <- t_index (pk_Xn (kp_public (iss_keypair i))) 0;
    pass! Cm0 <- t_index (pr_attributes_blinded p) 0;
    now (Ok {| vcp_B := sp_g (iss_system_parameters i);
               vcp_A := sp_h (iss_system_parameters i);
               vcp_X0 := X0; vcp_P := P; vcp_V := V; vcp_Cm0 := Cm0 |}).
  Definition t_issuer_verify (i : Issuer E) (p : CredentialPresentation E)
    : timed (outcome CredentialError (VerifiedCredential E)) :=
    pass! publics <- t_verify_statement i p;
    let t := transcript_new "AEONFLUX SHOW" in
    try! _ <- t_map_err (fun _ => MacVerification) (t_vc_verify (pr_proof p) t publics);
    now (Ok {| vf_presentation := p |}).
End issuer.

(** ** user.rs *)
Section user.
  Context {E : Ext}.
  Local Open Scope string_scope.

  (** [User::from_bytes]; aeonflux/src/user.rs:55-85. *)
  Definition t_user_from_bytes (b : bytes) : timed (outcome CredentialError (User E)) :=
    time! bad <- t_if (negb (List.length b =? 256)%nat);
    if bad then now (Err MissingData) else
    try! pb <- now (or_panic (slice 0 64 b));
    try! params <- t_system_parameters_from_bytes pb;
    try! ib <- now (or_panic (slice 64 96 b));
    try! issuer_params <- t_map_err mac_to_credential_error (t_public_key_from_bytes ib);
    try! kb <- now (or_panic (slice 96 160 b));
    pass! key <- (time! absent <- t_bytes_eqb kb (zeros 64);
                  if absent then now (Ok None)
                  else try! k <- t_elgamal_keypair_from_bytes kb; now (Ok (Some k)));
    try! cb <- now (or_panic (slice 160 256 b));
    pass! credential <- (time! absent <- t_bytes_eqb cb (zeros 96);
                         if absent then now (Ok None)
                         else try! cb <- now (or_panic (slice_from 160 b));
                              try! c <- t_credential_from_bytes cb; now (Ok (Some c)));
    now (Ok {| us_system_parameters := params; us_issuer_parameters := issuer_params;
               us_key := key; us_credential := credential |}).

  (** [User::obtain_finish]; aeonflux/src/user.rs:140-172.  Copying the credential shows how
      many attributes it has. *)
  Definition t_obtain_finish (u : User E) (issuance : option (CredentialIssuance E))
    : timed (User E * outcome CredentialError unit) :=
    let t := transcript_new "AEONFLUX ISSUANCE" in
    match issuance with
    | None => seen (Branch false) (u, Err CredentialIssuanceError)
    | Some issue =>
      time! _ <- t_if true;
      match nth_error (pk_Xn (us_issuer_parameters u)) 0 with
      | None => seen (Branch false) (u, Err NoIssuerParameters)
      | Some X1 =>
        time! _ <- t_if true;
        let publics := {| irp_P := tag_nonce (cr_mac (is_credential issue));
                          irp_Q := tag_mac (cr_mac (is_credential issue));
                          irp_Cx0 := is_secret_key_commitment issue;
                          irp_B := sp_g (us_system_parameters u);
                          irp_A := sp_h (us_system_parameters u);
                          irp_X1 := X1 |} in
        time! checked <- attempt (t_ir_verify (is_proof issue) t publics);
        match checked with
        | Ok _ =>
          seen (Length (List.length (cr_attributes (is_credential issue))))
            (set_credential u (is_credential issue), Ok tt)
        | Err _ => now (u, Err CredentialIssuanceError)
        | Panic => now (u, Panic)
        end
      end
    end.

  (** The loops of [User::show]; aeonflux/src/user.rs:210-214, 219-221. *)
  Fixpoint t_show_commitments (P A : point E) (nonces attributes : list scalar)
    : timed (list (point E)) :=
    match nonces, attributes with
    | z :: nonces', m :: attributes' =>
      time! _ <- t_if true;
      time! Cs <- t_show_commitments P A nonces' attributes';
      now (commitment_to (smul m P) z A :: Cs)
    | _, _ => seen (Branch false) []
    end.
  Fixpoint t_show_error_factor (Xn : list (point E)) (index0 : nat) (nonces : list scalar)
      (V : point E) : timed (outcome CredentialError (point E)) :=
    match nonces with
    | [] => seen (Branch false) (Ok V)
    | z :: nonces' =>
      time! _ <- t_if true;
      pass! X <- t_index Xn index0;
      t_show_error_factor Xn (S index0) nonces' (padd V (smul z X))
    end.

  (** [User::show]; aeonflux/src/user.rs:176-251. *)
  Definition t_show_statement (u : User E) (credential : Credential E) (nonces : list scalar)
      (rerandomization zQ : scalar)
    : timed (outcome CredentialError (point E * list (point E) * vc_Publics E * vc_Scalars)) :=
    let A := sp_h (us_system_parameters u) in
    let B := sp_g (us_system_parameters u) in
    let tag := apply_to_tag rerandomization (cr_mac credential) in
    let P := tag_nonce tag in
    let CQ := commitment_to (tag_mac tag) zQ A in
    time! commitments <- t_show_commitments P A nonces (cr_attributes credential);
    pass! V <- t_show_error_factor (pk_Xn (us_issuer_parameters u)) 0 nonces pzero;
    let V := psub V (smul zQ A) in
    let minus_zQ := ephemeral_neg zQ in
    pass! m0 <- t_index (cr_attributes credential) 0;
    pass! z0 <- t_index nonces 0;
    pass! X0 <- t_index (pk_Xn (us_issuer_parameters u)) 0;
    pass! Cm0 <- t_index commitments 0;
    now (Ok (CQ, commitments,
        {| vcp_B := B; vcp_A := A; vcp_X0 := X0; vcp_P := P; vcp_V := V; vcp_Cm0 := Cm0 |},
        {| vcs_m0 := m0; vcs_z0 := z0; vcs_minus_zQ := minus_zQ |})).
  Definition t_show (u : User E) (nonces : list scalar) (r os : rng)
    : timed (outcome CredentialError (CredentialPresentation E * rng * rng)) :=
    try! credential <- now (ok_or MissingData (us_credential u));
    let t := transcript_new "AEONFLUX SHOW" in
    let (csprng, r) := @reseed E t [] r in
    let (rerandomization, csprng) := scalar_random csprng in
    let (zQ, csprng) := ephemeral_new csprng in
    pass! (CQ, commitments, publics, secrets) <-
      t_show_statement u credential nonces rerandomization zQ;
    time! (proof, os) <- t_vc_create t publics secrets os;
    now (Ok (show_presentation CQ commitments publics proof, r, os)).
End user.

(** ** phone_number.rs *)

(** [PhoneNumber::from_bytes]; signal-credential/src/phone_number.rs:68-78. *)
Definition t_phone_number_from_bytes (b : bytes) : timed (outcome PhoneNumberError PhoneNumber) :=
  time! bad <- t_if (negb (List.length b =? 32)%nat);
  if bad then now (Err LengthExceeded) else
  try! tmp <- now (or_panic (slice 0 32 b));
  now (Ok (from_bits tmp)).

(** [bits[i] = v] *)
Definition t_array_set {Er} (i : nat) (v : byte) (l : bytes) : timed (outcome Er bytes) :=
  attempt (seen (Index i) (or_panic (array_set i v l))).

(** [for i in 2..length+2 { bits[i] = f(bytes[i-2]); }];
    signal-credential/src/phone_number.rs:147-164, 188-190. *)
Fixpoint t_write_digits (f : byte -> timed byte) (i : nat) (digits : bytes) (bits : bytes)
  : timed (outcome PhoneNumberError bytes) :=
  match digits with
  | [] => seen (Branch false) (Ok bits)
  | d :: digits' =>
    time! _ <- t_if true;
    time! d <- seen (Index (i - 2)) d;
    time! v <- f d;
    pass! bits <- t_array_set i v bits;
    t_write_digits f (S i) digits' bits
  end.

(** The body shared by [try_from_string] and [try_from_bytes];
    signal-credential/src/phone_number.rs:134-173, 175-200. *)
Definition t_phone_number_encode (f : byte -> timed byte) (b : bytes)
  : timed (outcome PhoneNumberError PhoneNumber) :=
  let length := List.length b in
  time! bad <- t_if (32 <? length)%nat;
  if bad then now (Err LengthExceeded) else
  let bits := zeros 32 in
  pass! bits <- t_array_set 0 (zb 15) bits;
  pass! bits <- t_array_set 1 (zb 15) bits;
  pass! bits <- t_write_digits f 2 b bits;
  pass! bits <- t_array_set (length + 2) (zb 15) bits;
  pass! bits <- t_array_set (length + 3) (zb 15) bits;
  pass! bits <- t_array_set (length + 4) (zb (Z.of_nat length)) bits;
  now (Ok (from_bytes_mod_order bits)).

(** [PhoneNumber::try_from_string]; signal-credential/src/phone_number.rs:134-173. *)
Definition t_try_from_string (source : bytes) : timed (outcome PhoneNumberError PhoneNumber) :=
  t_phone_number_encode (fun d => seen (Arm (ascii_digit d)) (ascii_digit d)) source.

(** [PhoneNumber::try_from_bytes]; signal-credential/src/phone_number.rs:175-200. *)
Definition t_try_from_bytes (b : bytes) : timed (outcome PhoneNumberError PhoneNumber) :=
  t_phone_number_encode (fun d => now d) b.

(** [for i in (0..32).rev()]; signal-credential/src/phone_number.rs:207-215.  [l] is
    the part still to be read, last byte first, and [i] the index of its head plus one. *)
Fixpoint t_find_length (i : nat) (l : bytes) : timed Z :=
  match l with
  | [] => seen (Branch false) 0
  | b :: l' =>
    time! _ <- t_if true;
    time! b <- seen (Index (i - 1)) b;
    time! zero <- t_if (bz b =? 0);
    if zero then t_find_length (i - 1) l'
    else seen (Index (i - 1)) (bz b)
  end.

(** [for i in 2..length+2 { match source[i] {..} }];
    signal-credential/src/phone_number.rs:219-237. *)
Fixpoint t_read_digits (n : nat) (i : nat) (source : bytes) : timed (outcome unit bytes) :=
  match n with
  | O => seen (Branch false) (Ok [])
  | S n' =>
    time! _ <- t_if true;
    pass! d <- t_index source i;
    time! digit <- seen (Arm (if bz d <=? 9 then d else zb 15)) (bz d <=? 9);
    pass! s <- t_read_digits n' (S i) source;
    now (Ok (if digit then zb (bz d + 48) :: s else s))
  end.

(** [From<PhoneNumber> for String]; signal-credential/src/phone_number.rs:203-241. *)
Definition t_phone_number_to_string (n : PhoneNumber) : timed (outcome unit bytes) :=
  let source := scalar_to_bytes n in
  time! length <- t_find_length 32 (rev source);
  time! length <- seen (Length (Z.to_nat length)) length;
  t_read_digits (Z.to_nat length) 2 source.

Section roster.
  Context {E : Ext}.

  (** [RosterEntryCommitment::create]; signal-credential/src/phone_number.rs:351-366. *)
  Definition t_roster_create (phone_number : bytes) (params : SystemParameters E) (r : rng)
    : timed (outcome PhoneNumberError (RosterEntryCommitment E * rng)) :=
    let (opening, r) := ephemeral_new r in
    try! number <- t_try_from_bytes phone_number;
    now (Ok ({| re_commitment :=
                  committed_from_phone_number number opening (sp_g params) (sp_h params);
                re_opening := opening |}, r)).

  (** [RosterEntryCommitment::open]; signal-credential/src/phone_number.rs:368-380. *)
  Definition t_roster_open (e : RosterEntryCommitment E) (phone_number : bytes)
      (params : SystemParameters E) : timed (outcome PhoneNumberError unit) :=
    try! number <- t_try_from_bytes phone_number;
    t_map_err (fun _ => InvalidPhoneNumber)
      (t_commitment_open (re_commitment e) (smul number (sp_h params)) (re_opening e) (sp_g params)).
End roster.

(** ** signal-credential issuer.rs and user.rs *)
Section signal.
  Context {E : Ext}.
  Local Open Scope string_scope.

  (** [SignalIssuer::issue]; signal-credential/src/issuer.rs:130-147. *)
  Definition t_signal_issue (i : Issuer E) (phone_number : bytes) (r os : rng)
    : timed (outcome CredentialError (CredentialIssuance E * rng * rng)) :=
    try! number <- t_map_err phone_to_credential_error (t_try_from_bytes phone_number);
    t_issue i {| rq_attributes_revealed := [number] |} r os.

  (** [SignalIssuer::verify]; signal-credential/src/issuer.rs:149-155. *)
  Definition t_signal_verify (i : Issuer E) (p : SignalCredentialPresentation E)
    : timed (outcome CredentialError (VerifiedSignalCredential E)) :=
    try! _ <- t_issuer_verify i (sc_presentation p);
    now (Ok {| vs_presentation := p |}).

  (** [SignalIssuer::verify_roster_membership]; signal-credential/src/issuer.rs:162-181. *)
  Definition t_verify_roster_membership (i : Issuer E) (credential : VerifiedSignalCredential E)
    : timed (outcome CredentialError (point E)) :=
    let p := vs_presentation credential in
    pass! Cm0 <- t_index (pr_attributes_blinded (sc_presentation p)) 0;
    let publics := {| cep_B := sp_g (iss_system_parameters i);
                      cep_A := sp_h (iss_system_parameters i);
                      cep_P := pr_rerandomized_nonce (sc_presentation p);
                      cep_Cm0 := Cm0;
                      cep_Cm1 := sc_roster_entry_commitment p |} in
    let t := transcript_new "SIGNAL GROUP MEMBERSHIP" in
    try! _ <- t_map_err (fun _ => VerificationFailure)
                (t_ce_verify (sc_roster_membership_proof p) t publics);
    now (Ok (sc_roster_entry_commitment p)).

  (** [SignalUser::from_bytes]; signal-credential/src/user.rs:46-51. *)
  Definition t_signal_user_from_bytes (b : bytes) : timed (outcome CredentialError (SignalUser E)) :=
    try! nb <- now (or_panic (slice 0 32 b));
    try! number <- t_map_err phone_to_credential_error (t_phone_number_from_bytes nb);
    try! ub <- now (or_panic (slice_from 32 b));
    try! user <- t_user_from_bytes ub;
    now (Ok {| su_phone_number := number; su_user := user |}).

  (** [SignalUser::new]; signal-credential/src/user.rs:68-84. *)
  Definition t_signal_user_new (params : SystemParameters E) (issuer_params : IssuerParameters E)
      (key : option (ElgamalKeypair E)) (phone_number : bytes)
    : timed (outcome CredentialError (SignalUser E)) :=
    let user := user_new params issuer_params key in
    try! number <- t_map_err phone_to_credential_error (t_try_from_bytes phone_number);
    now (Ok {| su_phone_number := number; su_user := user |}).

  (** [SignalUser::obtain_finish]; signal-credential/src/user.rs:87-93. *)
  Definition t_signal_obtain_finish (u : SignalUser E) (issuance : option (CredentialIssuance E))
    : timed (SignalUser E * outcome CredentialError unit) :=
    time! (user, res) <- t_obtain_finish (su_user u) issuance;
    now ({| su_phone_number := su_phone_number u; su_user := user |}, res).

  (** [SignalUser::show]; signal-credential/src/user.rs:99-140. *)
  Definition t_roster_statement (u : SignalUser E) (credential : Credential E) (nonces : list scalar)
      (presentation : CredentialPresentation E) (entry : RosterEntryCommitment E)
    : timed (outcome CredentialError (ce_Publics E * ce_Scalars)) :=
    pass! m0 <- t_index (cr_attributes credential) 0;
    pass! z0 <- t_index nonces 0;
    pass! Cm0 <- t_index (pr_attributes_blinded presentation) 0;
    now (Ok ({| cep_B := sp_g (us_system_parameters (su_user u));
                cep_A := sp_h (us_system_parameters (su_user u));
                cep_P := pr_rerandomized_nonce presentation;
                cep_Cm0 := Cm0;
                cep_Cm1 := re_commitment entry |},
             {| ces_m0 := m0; ces_z0 := z0; ces_z1 := re_opening entry |})).
  Definition t_signal_show (u : SignalUser E) (r os : rng) (entry : RosterEntryCommitment E)
    : timed (outcome CredentialError (SignalCredentialPresentation E * rng * rng)) :=
    try! credential <- now (ok_or MissingData (us_credential (su_user u)));
    time! (nonces, r) <- t_nonces_new r NUMBER_OF_ATTRIBUTES;
    try! (presentation, r, os) <- t_show (su_user u) nonces r os;
    let t := transcript_new "SIGNAL GROUP MEMBERSHIP" in
    pass! (publics, secrets) <- t_roster_statement u credential nonces presentation entry;
    time! (proof, os) <- t_ce_create t publics secrets os;
    now (Ok ({| sc_roster_entry_commitment := re_commitment entry;
                sc_presentation := presentation;
                sc_roster_membership_proof := proof |}, r, os)).
End signal.
