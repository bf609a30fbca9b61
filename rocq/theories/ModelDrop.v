(** The destructors of the types which hold secret scalars, over a memory of
    scalars

    A cell is the place of one [Scalar].  A [Vec<Scalar>] has a block of cells
    on the heap; a local variable or field of type [Scalar] has one cell.
    Freeing memory does not change it.  Not modelled: copies which the
    compiler makes when it moves a value, and byte arrays such as [tmp]. *)
From Verif Require Export ModelPrims.

Record heap : Type := { cell : nat -> scalar; next_cell : nat }.

Definition write (h : heap) (a : nat) (x : scalar) : heap :=
  {| cell := fun j => if (j =? a)%nat then x else cell h j; next_cell := next_cell h |}.

(** [n] new cells; their contents are whatever was there. *)
Definition allocate (h : heap) (n : nat) : nat * heap :=
  (next_cell h, {| cell := cell h; next_cell := next_cell h + n |}).

Record hvec : Type := { vec_base : nat; vec_len : nat; vec_capacity : nat }.

Definition vec_cells (v : hvec) : list nat := seq (vec_base v) (vec_len v).
Definition vec_contents (h : heap) (v : hvec) : list scalar := map (cell h) (vec_cells v).

(** [Vec::with_capacity] *)
Definition vec_with_capacity (h : heap) (n : nat) : hvec * heap :=
  let (a, h) := allocate h n in
  ({| vec_base := a; vec_len := 0; vec_capacity := n |}, h).

(** The copy when a vector grows. *)
Fixpoint copy_cells (h : heap) (from to n : nat) : heap :=
  match n with
  | O => h
  | S n' => copy_cells (write h to (cell h from)) (S from) (S to) n'
  end.

(** [Vec::push]; a full vector is copied to a block of twice the capacity and
    the old block freed as it is. *)
Definition vec_push (h : heap) (v : hvec) (x : scalar) : hvec * heap :=
  if (vec_len v <? vec_capacity v)%nat
  then ({| vec_base := vec_base v; vec_len := S (vec_len v); vec_capacity := vec_capacity v |},
        write h (vec_base v + vec_len v) x)
  else
    let capacity := Nat.max (2 * vec_capacity v) (S (vec_len v)) in
    let (a, h) := allocate h capacity in
    let h := copy_cells h (vec_base v) a (vec_len v) in
    ({| vec_base := a; vec_len := S (vec_len v); vec_capacity := capacity |}, write h (a + vec_len v) x).

(** [Clear::clear] of clear_on_drop for a [Scalar]: the bytes are set to zero,
    and then to [Scalar::default()], which is zero. *)
Definition clear_scalar (h : heap) (a : nat) : heap := write h a 0.

(** The [Drop] of a [Scalar], and so of the elements of a [Vec<Scalar>]: there
    is none. *)
Definition drop_scalar (h : heap) (a : nat) : heap := h.
Definition drop_scalar_vec (h : heap) (v : hvec) : heap := fold_left drop_scalar (vec_cells v) h.

(** ** amacs.rs *)

(** [SecretKey]; aeonflux/src/amacs.rs:205-210. *)
Record HSecretKey : Type := { hsk_x0 : nat; hsk_xn : hvec }.

(** [Drop for SecretKey]; aeonflux/src/amacs.rs:213-221, followed by the destructor of the
    field [xn]. *)
Definition drop_secret_key (h : heap) (k : HSecretKey) : heap :=
  let h := clear_scalar h (hsk_x0 k) in
  let h := fold_left clear_scalar (vec_cells (hsk_xn k)) h in
  drop_scalar_vec h (hsk_xn k).

(** [for _ in 0..n { xn.push(Scalar::random(csprng)); }]; aeonflux/src/amacs.rs:232-234. *)
Fixpoint h_push_random (n : nat) (h : heap) (v : hvec) (r : rng) : hvec * heap * rng :=
  match n with
  | O => (v, h, r)
  | S n' =>
    let (x, r) := scalar_random r in
    let (v, h) := vec_push h v x in
    h_push_random n' h v r
  end.

(** [SecretKey::new]; aeonflux/src/amacs.rs:225-237. *)
Definition h_secret_key_new (h : heap) (n : nat) (r : rng) : HSecretKey * heap * rng :=
  let (xn, h) := vec_with_capacity h n in
  let (x0, h) := allocate h 1 in
  let (s, r) := scalar_random r in
  let h := write h x0 s in
  let '(xn, h, r) := h_push_random n h xn r in
  ({| hsk_x0 := x0; hsk_xn := xn |}, h, r).

(** The loop of [SecretKey::from_bytes]; aeonflux/src/amacs.rs:251-265.  [seen] is whether
    [x0] is [Some].  [None]: the early return, which drops [xn]. *)
Fixpoint h_from_chunks (h : heap) (x0 : nat) (seen : bool) (xn : hvec) (chunks : list bytes)
    : option (bool * hvec) * heap :=
  match chunks with
  | [] => (Some (seen, xn), h)
  | chunk :: chunks' =>
    match from_canonical_bytes chunk with
    | None => (None, drop_scalar_vec (drop_scalar h x0) xn)
    | Some x =>
      if seen
      then let (xn, h) := vec_push h xn x in h_from_chunks h x0 true xn chunks'
      else h_from_chunks (write h x0 x) x0 true xn chunks'
    end
  end.

(** [SecretKey::from_bytes]; aeonflux/src/amacs.rs:240-270. *)
Definition h_secret_key_from_bytes (h : heap) (b : bytes) : outcome MacError HSecretKey * heap :=
  let length := List.length b in
  if negb (Nat.modulo length 32 =? 0)%nat then (Err (MessageLengthError length), h) else
  if (length =? 0)%nat then (Panic, h) else
  let (x0, h) := allocate h 1 in
  let (xn, h) := vec_with_capacity h (length / 32 - 1) in
  match h_from_chunks h x0 false xn (chunks 32 b) with
  | (None, h) => (Err MacScalarFormatError, h)
  | (Some (false, xn), h) => (Err (MessageLengthError length), drop_scalar_vec h xn)
  | (Some (true, xn), h) => (Ok {| hsk_x0 := x0; hsk_xn := xn |}, h)
  end.

(** [Rerandomization::new] and its [Drop]; aeonflux/src/amacs.rs:426-431, 437-441. *)
Definition h_rerandomization_new (h : heap) (r : rng) : nat * heap * rng :=
  let (a, h) := allocate h 1 in
  let (s, r) := scalar_random r in
  (a, write h a s, r).
Definition drop_rerandomization (h : heap) (a : nat) : heap := clear_scalar h a.

(** ** nonces.rs *)

(** [Ephemeral::new] and its [Drop]; aeonflux/src/nonces.rs:42-49, 63-67. *)
Definition h_ephemeral_new (h : heap) (r : rng) : nat * heap * rng :=
  let (a, h) := allocate h 1 in
  let (s, r) := scalar_random r in
  (a, write h a s, r).
Definition drop_ephemeral (h : heap) (a : nat) : heap := clear_scalar h a.

(** [Clear::clear] for an [Ephemeral]: the value is dropped, its bytes set to
    zero, and [Ephemeral::default()] written. *)
Definition clear_ephemeral (h : heap) (a : nat) : heap :=
  write (write (drop_ephemeral h a) a 0) a 0.

(** [Nonces::new]; aeonflux/src/nonces.rs:177-191. *)
Definition h_nonces_new (h : heap) (r : rng) (size : nat) : hvec * heap * rng :=
  let (v, h) := vec_with_capacity h size in
  h_push_random size h v r.

(** [Drop for Nonces]; aeonflux/src/nonces.rs:160-166, and then the destructor of the
    [Vec<Ephemeral>], which drops each element. *)
Definition drop_nonces (h : heap) (v : hvec) : heap :=
  let h := fold_left clear_ephemeral (vec_cells v) h in
  fold_left drop_ephemeral (vec_cells v) h.

(** ** elgamal.rs *)

(** [Drop for SecretKey]; aeonflux/src/elgamal.rs:191-195. *)
Definition drop_elgamal_secret (h : heap) (a : nat) : heap := clear_scalar h a.

Section elgamal.
  Context {E : Ext}.

  (** [SecretKey::from_bytes]; aeonflux/src/elgamal.rs:146-156. *)
  Definition h_elgamal_secret_from_bytes (h : heap) (b : bytes) : outcome CredentialError nat * heap :=
    if negb (List.length b =? 32)%nat then (Panic, h) else
    match from_canonical_bytes b with
    | None => (Err none_credential, h)
    | Some s => let (a, h) := allocate h 1 in (Ok a, write h a s)
    end.

  (** [SecretKey::generate]; aeonflux/src/elgamal.rs:170-175. *)
  Definition h_elgamal_secret_generate (h : heap) (r : rng) : nat * heap * rng :=
    let (a, h) := allocate h 1 in
    let (s, r) := scalar_random r in
    (a, write h a s, r).

  (** [Keypair::from_bytes]; aeonflux/src/elgamal.rs:198-205.  When the public key is
      rejected, [secret] goes out of scope. *)
  Definition h_elgamal_keypair_from_bytes (h : heap) (b : bytes) : outcome CredentialError (nat * point E) * heap :=
    if negb (List.length b =? 64)%nat then (Panic, h) else
    match h_elgamal_secret_from_bytes h (firstn 32 b) with
    | (Ok a, h) =>
      match elgamal_public_from_bytes (skipn 32 b) with
      | Ok p => (Ok (a, p), h)
      | Err e => (Err e, drop_elgamal_secret h a)
      | Panic => (Panic, drop_elgamal_secret h a)
      end
    | (Err e, h) => (Err e, h)
    | (Panic, h) => (Panic, h)
    end.
End elgamal.
