(** Who reads what from ElGamal encryptions.

    An eavesdropper is given the public key, names two messages as often as it
    likes, is given each time the encryption of one of the two, always the first
    or always the second, and in the end says something. *)
From Verif Require Export SpecGame ModelPhone.

(** Exactly [n] things are [P]. *)
Definition exactly {T} (n : Z) (P : T -> Prop) : Prop :=
  exists l, NoDup l /\ (forall x, In x l <-> P x) /\ Z.of_nat (List.length l) = n.

Section eavesdropping.
  Context {E : Ext}.

  Inductive chooser : Type :=
  | Says (b : bool)
  | Chooses (first second : point E) (next : Encryption E -> chooser).
  Definition eavesdropper : Type := point E -> chooser.

  (** What it says when given [encrypt m r] each time for the next [r]; [false]
      when there is none left. *)
  Fixpoint says {X} (encrypt : point E -> X -> Encryption E) (second : bool) (c : chooser) (coins : list X) : bool :=
    match c with
    | Says b => b
    | Chooses m m' next =>
      match coins with
      | [] => false
      | r :: coins' => says encrypt second (next (encrypt (if second then m' else m) r)) coins'
      end
    end.

  (** Against the keys [a] and the nonces given. *)
  Definition overhears (second : bool) (e : eavesdropper) (a : scalar) (nonces : list scalar) : bool :=
    let k := elgamal_public_of_secret a in says (elgamal_encrypt k) second (e k) nonces.

  (** The same eavesdropper put to use by somebody who has points [A], [B] and
      [C] and wonders whether [C] is the Diffie-Hellman secret of [A] and [B].
      Each encryption is made with two scalars [u] and [v] and no other secret. *)
  Definition pretended (A B C m : point E) (uv : scalar * scalar) : Encryption E :=
    {| enc_commitment := padd (smul (fst uv) B) (smul (snd uv) basepoint);
       enc_encryption := padd m (padd (smul (fst uv) C) (smul (snd uv) A)) |}.
  Definition tells_apart (second : bool) (e : eavesdropper) (A B C : point E) (coins : list (scalar * scalar)) : bool :=
    says (pretended A B C) second (e A) coins.

  (** [n] scalars, and [n] pairs of scalars. *)
  Definition given_scalars (n : nat) (l : list scalar) : Prop := List.length l = n /\ Forall canonical l.
  Definition given_pairs (n : nat) (l : list (scalar * scalar)) : Prop :=
    List.length l = n /\ Forall (fun uv => canonical (fst uv) /\ canonical (snd uv)) l.

  (** The secret key and the nonces for which it says true. *)
  Definition hears (second : bool) (e : eavesdropper) (n : nat) (x : scalar * list scalar) : Prop :=
    canonical (fst x) /\ given_scalars n (snd x) /\ overhears second e (fst x) (snd x) = true.
  (** The [a], [b] and coins for which it says true about [a B], [b B] and [a b B]. *)
  Definition says_on_secret (second : bool) (e : eavesdropper) (n : nat) (x : scalar * scalar * list (scalar * scalar)) : Prop :=
    let '(a, b, coins) := x in
    canonical a /\ canonical b /\ given_pairs n coins /\
    tells_apart second e (smul a basepoint) (smul b basepoint) (smul (a * b) basepoint) coins = true.
  (** The [a], [b], [c] and coins for which it says true about [a B], [b B] and [c B]. *)
  Definition says_on_random (second : bool) (e : eavesdropper) (n : nat) (x : scalar * scalar * scalar * list (scalar * scalar)) : Prop :=
    let '(a, b, c, coins) := x in
    canonical a /\ canonical b /\ canonical c /\ given_pairs n coins /\
    tells_apart second e (smul a basepoint) (smul b basepoint) (smul c basepoint) coins = true.

  (** A generic eavesdropper never sees an encoding of a point.  It forms its
      messages as combinations of the points it was given, and learns which
      combinations are the identity. *)
  Inductive listener : Type :=
  | Concludes (b : bool)
  | Names (first second : list scalar) (next : listener)
  | Compares (c : list scalar) (yes no : listener).
  Fixpoint comparisons (l : listener) : nat :=
    match l with
    | Concludes _ => 0
    | Names _ _ next => comparisons next
    | Compares _ yes no => S (Nat.max (comparisons yes) (comparisons no))
    end.
  Fixpoint concludes (k : point E) (second : bool) (l : listener) (held : list (point E)) (nonces : list scalar) : bool :=
    match l with
    | Concludes b => b
    | Names m m' next =>
      match nonces with
      | [] => false
      | r :: nonces' =>
        let c := elgamal_encrypt k (combination (if second then m' else m) held) r in
        concludes k second next (held ++ [enc_commitment c; enc_encryption c])%list nonces'
      end
    | Compares c yes no =>
      concludes k second (if peqb (combination c held) pzero then yes else no) held nonces
    end.
  Definition listens (second : bool) (l : listener) (n : nat) (x : scalar * list scalar) : Prop :=
    let k := elgamal_public_of_secret (fst x) in
    canonical (fst x) /\ given_scalars n (snd x) /\ concludes k second l [basepoint; k] (snd x) = true.
End eavesdropping.
Arguments chooser : clear implicits.
Arguments eavesdropper : clear implicits.

(** An eavesdropper on encryptions of phone numbers: it names numbers. *)
Section numbers.
  Context {E : Ext}.
  Inductive tapper : Type :=
  | Reports (b : bool)
  | Picks (first second : PhoneNumber) (next : Encryption E -> tapper).
  Fixpoint reports (key : ElgamalKeypair E) (second : bool) (t : tapper) (nonces : list scalar) : bool :=
    match t with
    | Reports b => b
    | Picks n n' next =>
      match nonces with
      | [] => false
      | r :: nonces' => reports key second (next (phone_number_encrypt (if second then n' else n) key r)) nonces'
      end
    end.
End numbers.
Arguments tapper : clear implicits.
