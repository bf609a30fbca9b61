(** The external crates: curve25519-dalek (group), merlin (transcripts), rand
    (random sources), sha2.

    [Ext] packages the operations the code in /repo calls; theorems quantify
    over every [Ext] satisfying [ExtLaws].  Scalar multiplication is not an
    assumption: it is defined as iterated addition. *)
From Verif Require Export Scalar.

(** A merlin transcript: the label given to [Transcript::new] and the labelled
    messages committed so far. *)
Definition transcript : Type := string * list (string * bytes).

(** A random source is the stream of bytes it is going to produce. *)
Definition rng := nat -> byte.

Record Ext : Type := {
  (** [RistrettoPoint] and its operations *)
  point : Type;
  pzero : point;
  padd : point -> point -> point;
  pneg : point -> point;
  peqb : point -> point -> bool;
  basepoint : point;                          (* RISTRETTO_BASEPOINT_POINT *)
  compress : point -> bytes;
  decompress : bytes -> option point;         (* CompressedRistretto(..).decompress() *)
  (** merlin: the bytes squeezed by [challenge_bytes label n] *)
  tr_challenge : transcript -> string -> nat -> bytes;
  (** merlin: [fork_transcript().commit_witness_bytes(..)*.reseed_from_rng(rng)],
      given the transcript, the witnesses and the 32 bytes drawn from [rng].
      The stream is what consecutive [Scalar::random] calls (64 bytes each, the
      only use made of it) obtain. *)
  tr_rng : transcript -> list (string * bytes) -> bytes -> rng;
  (** [ChaChaRng::from_seed] *)
  chacha : bytes -> rng;
  (** SHA-512 *)
  sha512 : bytes -> bytes;
  (** the build: [cfg(debug_assertions)] with overflow checks (the debug
      profile) or neither (the release profile), and the width of [usize] *)
  debug_build : bool;
  usize_bits : Z;
}.

Arguments pzero {_}.
Arguments padd {_}.
Arguments pneg {_}.
Arguments peqb {_}.
Arguments basepoint {_}.
Arguments compress {_}.
Arguments decompress {_}.
Arguments tr_challenge {_}.
Arguments tr_rng {_}.
Arguments chacha {_}.
Arguments sha512 {_}.

Section Ops.
  Context {E : Ext}.

  Definition psub (a b : point E) : point E := padd a (pneg b).

  (** Scalar multiplication: iterated addition (double-and-add). *)
  Fixpoint pmul_pos (p : positive) (P : point E) : point E :=
    match p with
    | xH => P
    | xO p' => pmul_pos p' (padd P P)
    | xI p' => padd P (pmul_pos p' (padd P P))
    end.

  Definition smul (k : scalar) (P : point E) : point E :=
    match k with
    | Z0 => pzero
    | Zpos p => pmul_pos p P
    | Zneg p => pneg (pmul_pos p P)
    end.

  (** [RistrettoPoint::multiscalar_mul] and its vartime variant. *)
  Fixpoint multiscalar_mul (ks : list scalar) (Ps : list (point E)) : point E :=
    match ks, Ps with
    | k :: ks', P :: Ps' => padd (smul k P) (multiscalar_mul ks' Ps')
    | _, _ => pzero
    end.

  (** merlin *)
  Definition transcript_new (label : string) : transcript := (label, []).

  Definition commit_bytes (t : transcript) (label : string) (data : bytes) : transcript :=
    (fst t, snd t ++ [(label, data)])%list.

  (** [rng.fill_bytes(&mut [0u8; n])] *)
  Definition fill_bytes (n : nat) (r : rng) : bytes * rng :=
    (map r (seq 0 n), fun i => r (n + i)%nat).

  (** [Scalar::random]: 64 bytes reduced modulo the group order. *)
  Definition scalar_random (r : rng) : scalar * rng :=
    let (b, r') := fill_bytes 64 r in (from_bytes_mod_order_wide b, r').

  (** [.reseed_from_rng(&mut rng)]: draws 32 bytes from [rng]. *)
  Definition reseed (t : transcript) (witness : list (string * bytes)) (r : rng) : rng * rng :=
    let (b, r') := fill_bytes 32 r in (@tr_rng E t witness b, r').
End Ops.

(** What is assumed of the external crates. *)
Record ExtLaws (E : Ext) : Prop := {
  padd_assoc : forall a b c : point E, padd a (padd b c) = padd (padd a b) c;
  padd_comm : forall a b : point E, padd a b = padd b a;
  padd_zero : forall a : point E, padd pzero a = a;
  padd_pneg : forall a : point E, padd a (pneg a) = pzero;
  (** the group has exponent [ell] and is generated by the basepoint *)
  smul_ell : forall a : point E, smul ell a = pzero;
  basepoint_nonzero : @basepoint E <> pzero;
  basepoint_generates : forall a : point E, exists k, a = smul k basepoint;
  peqb_spec : forall a b : point E, peqb a b = true <-> a = b;
  (** Ristretto encodings are canonical and the identity is all zeros *)
  compress_length : forall a : point E, List.length (compress a) = 32%nat;
  decompress_compress : forall a : point E, decompress (compress a) = Some a;
  compress_decompress : forall b (a : point E),
      decompress b = Some a -> compress a = b;
  compress_zero : compress (@pzero E) = zeros 32;
  (** the supported targets have 32-bit or 64-bit pointers *)
  usize_bits_cases : usize_bits E = 32 \/ usize_bits E = 64;
}.
