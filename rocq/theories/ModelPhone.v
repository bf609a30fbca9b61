(** signal-credential/src/phone_number.rs *)
From Verif Require Export ModelUser.

(** [PhoneNumber] (signal-credential/src/phone_number.rs:54-56) wraps a scalar. *)
Definition PhoneNumber := scalar.

(** [PhoneNumber::from_bytes]; signal-credential/src/phone_number.rs:68-78. *)
Definition phone_number_from_bytes (b : bytes) : outcome PhoneNumberError PhoneNumber :=
  if negb (List.length b =? 32)%nat then Err LengthExceeded else
  do tmp <- or_panic (slice 0 32 b);
  Ok (from_bits tmp).

(** [PhoneNumber::to_bytes]; signal-credential/src/phone_number.rs:80-82. *)
Definition phone_number_to_bytes (n : PhoneNumber) : bytes := scalar_to_bytes n.

(** [bits[i] = v] on a fixed-size array: [None] is the out-of-range panic. *)
Definition array_set (i : nat) (v : byte) (l : bytes) : option bytes :=
  if (i <? List.length l)%nat
  then Some (firstn i l ++ v :: skipn (S i) l)%list
  else None.

(** [for i in 2..length+2 { bits[i] = f(bytes[i-2]); }] *)
Fixpoint write_digits (f : byte -> byte) (i : nat) (digits : bytes) (bits : bytes) : option bytes :=
  match digits with
  | [] => Some bits
  | d :: digits' =>
    match array_set i (f d) bits with
    | Some bits => write_digits f (S i) digits' bits
    | None => None
    end
  end.

(** The body shared by [try_from_string] and [try_from_bytes];
    signal-credential/src/phone_number.rs:134-173, 175-200. *)
Definition phone_number_encode (f : byte -> byte) (b : bytes) : outcome PhoneNumberError PhoneNumber :=
  let length := List.length b in
  if (32 <? length)%nat then Err LengthExceeded else
  let bits := zeros 32 in
  do bits <- or_panic (array_set 0 (zb 15) bits);
  do bits <- or_panic (array_set 1 (zb 15) bits);
  do bits <- or_panic (write_digits f 2 b bits);
  do bits <- or_panic (array_set (length + 2) (zb 15) bits);
  do bits <- or_panic (array_set (length + 3) (zb 15) bits);
  do bits <- or_panic (array_set (length + 4) (zb (Z.of_nat length)) bits);
  Ok (from_bytes_mod_order bits).

(** "Undo UTF-8 encoding"; signal-credential/src/phone_number.rs:150-163. *)
Definition ascii_digit (b : byte) : byte :=
  let z := bz b in
  if (48 <=? z) && (z <=? 57) then zb (z - 48) else zb 15.

(** [PhoneNumber::try_from_string]; signal-credential/src/phone_number.rs:134-173. *)
Definition try_from_string (source : bytes) : outcome PhoneNumberError PhoneNumber :=
  phone_number_encode ascii_digit source.

(** [PhoneNumber::try_from_bytes]; signal-credential/src/phone_number.rs:175-200. *)
Definition try_from_bytes (b : bytes) : outcome PhoneNumberError PhoneNumber :=
  phone_number_encode (fun d => d) b.

(** [for i in (0..32).rev()]: the value of the last non-zero byte;
    signal-credential/src/phone_number.rs:207-215. *)
Fixpoint last_nonzero (l : bytes) : Z :=
  match l with
  | [] => 0
  | b :: l' => let z := last_nonzero l' in if z =? 0 then bz b else z
  end.

(** [for i in 2..length+2 { match source[i] {..} }]; signal-credential/src/phone_number.rs:219-237. *)
Fixpoint read_digits (n : nat) (i : nat) (source : bytes) : option bytes :=
  match n with
  | O => Some []
  | S n' =>
    match index source i with
    | None => None
    | Some d =>
      match read_digits n' (S i) source with
      | None => None
      | Some s => Some (if bz d <=? 9 then zb (bz d + 48) :: s else s)
      end
    end
  end.

(** [From<PhoneNumber> for String]; signal-credential/src/phone_number.rs:203-241. *)
Definition phone_number_to_string (n : PhoneNumber) : outcome unit bytes :=
  let source := scalar_to_bytes n in
  or_panic (read_digits (Z.to_nat (last_nonzero source)) 2 source).

(** [From<PhoneNumber> for amacs::Message]; signal-credential/src/phone_number.rs:243-247. *)
Definition phone_number_message (n : PhoneNumber) : Message := message_of_scalar n.

Section phone.
  Context {E : Ext}.

  (** [PhoneNumber::encrypt]; signal-credential/src/phone_number.rs:250-259. *)
  Definition phone_number_encrypt (n : PhoneNumber) (key : ElgamalKeypair E) (nonce : scalar) : Encryption E :=
    elgamal_encrypt (eg_public key) (elgamal_message n) nonce.

  (** [CommittedPhoneNumber::from_bytes]; signal-credential/src/phone_number.rs:279-281. *)
  Definition committed_from_bytes (b : bytes) : outcome PhoneNumberError (point E) :=
    map_err credential_to_phone_error (commitment_from_bytes b).

  (** [CommittedPhoneNumber::to_bytes]; signal-credential/src/phone_number.rs:283-285. *)
  Definition committed_to_bytes (c : point E) : bytes := commitment_to_bytes c.

  (** [CommittedPhoneNumber::from_phone_number]; signal-credential/src/phone_number.rs:292-302. *)
  Definition committed_from_phone_number (n : PhoneNumber) (nonce : scalar) (g h : point E) : point E :=
    commitment_to (smul n h) nonce g.

  (** [CommittedPhoneNumber::open]; signal-credential/src/phone_number.rs:304-315. *)
  Definition committed_open (c : point E) (n : PhoneNumber) (nonce : scalar) (g h : point E) : outcome unit unit :=
    commitment_open c (smul n h) nonce g.
End phone.

(** [RosterEntryCommitment]; signal-credential/src/phone_number.rs:319-322. *)
Record RosterEntryCommitment {E : Ext} : Type := { re_commitment : point E; re_opening : scalar }.
Arguments RosterEntryCommitment : clear implicits.

Section roster.
  Context {E : Ext}.

  (** [RosterEntryCommitment::from_bytes]; signal-credential/src/phone_number.rs:325-335. *)
  Definition roster_from_bytes (b : bytes) : outcome PhoneNumberError (RosterEntryCommitment E) :=
    do cb <- or_panic (slice 0 32 b);
    do commitment <- committed_from_bytes cb;
    do ob <- or_panic (slice_from 32 b);
    do tmp <- or_panic (to_array 32 ob);
    Ok {| re_commitment := commitment; re_opening := from_bits tmp |}.

  (** [RosterEntryCommitment::to_bytes]; signal-credential/src/phone_number.rs:337-344. *)
  Definition roster_to_bytes (e : RosterEntryCommitment E) : bytes :=
    (committed_to_bytes (re_commitment e) ++ scalar_to_bytes (re_opening e))%list.

  (** [RosterEntryCommitment::create]; signal-credential/src/phone_number.rs:351-366. *)
  Definition roster_create (phone_number : bytes) (params : SystemParameters E) (r : rng)
    : outcome PhoneNumberError (RosterEntryCommitment E * rng) :=
    let (opening, r) := ephemeral_new r in
    do number <- try_from_bytes phone_number;
    Ok ({| re_commitment := committed_from_phone_number number opening (sp_g params) (sp_h params);
           re_opening := opening |}, r).

  (** [RosterEntryCommitment::open]; signal-credential/src/phone_number.rs:368-380. *)
  Definition roster_open (e : RosterEntryCommitment E) (phone_number : bytes) (params : SystemParameters E)
    : outcome PhoneNumberError unit :=
    do number <- try_from_bytes phone_number;
    map_err (fun _ => InvalidPhoneNumber)
      (committed_open (re_commitment e) number (re_opening e) (sp_g params) (sp_h params)).
End roster.
