(** curve25519-dalek's [Scalar] (external crate, used throughout /repo).

    A Rust [Scalar] stores 32 bytes; the model keeps the integer they encode in
    little-endian order.  Every constructor gives an integer in [0, 2^255);
    every arithmetic operation gives one in [0, ell). *)
From Verif Require Export Base.

(** The order of the Ristretto group. *)
Definition ell : Z := 2 ^ 252 + 27742317777372353535851937790883648493.

Definition scalar := Z.

Definition s_add (a b : scalar) : scalar := (a + b) mod ell.
Definition s_mul (a b : scalar) : scalar := (a * b) mod ell.
Definition s_neg (a : scalar) : scalar := (- a) mod ell.

(** [Scalar::to_bytes] / [Scalar::as_bytes]: the stored bytes. *)
Definition scalar_to_bytes (s : scalar) : bytes := le_encode 32 s.

(** [Scalar::from_canonical_bytes]: only fully reduced encodings. *)
Definition from_canonical_bytes (b : bytes) : option scalar :=
  let n := le_decode b in
  if n <? ell then Some n else None.

(** [Scalar::from_bits]: clears the top bit, does not reduce. *)
Definition from_bits (b : bytes) : scalar := le_decode b mod 2 ^ 255.

(** [Scalar::from_bytes_mod_order] *)
Definition from_bytes_mod_order (b : bytes) : scalar := le_decode b mod ell.

(** [Scalar::from_bytes_mod_order_wide] (64 bytes) *)
Definition from_bytes_mod_order_wide (b : bytes) : scalar := le_decode b mod ell.

(** Equality of [Scalar]s compares the stored bytes. *)
Definition scalar_eqb (a b : scalar) : bool := a =? b.

(** [Scalar]'s [Serialize] reduces before writing; the 32 bytes are written
    with [serialize_bytes]. *)
Definition scalar_serialize_bytes (s : scalar) : bytes := scalar_to_bytes (s mod ell).
