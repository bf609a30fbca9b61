(** Rust outcomes, bytes, little-endian integers and slices.

    Shared vocabulary of the model.  Nothing here is specific to /repo except
    where cited. *)
From Coq Require Export List ZArith Lia Bool.
From Coq Require Export Strings.Byte Strings.String.
From Coq Require Import ZifyBool ZifyNat ZifyN.
Export ListNotations.
Global Open Scope Z_scope.

(** ** Outcomes.  A Rust function returning [Result<A, E>] may return [Ok],
    return [Err], or panic (unwind). *)
Inductive outcome (E A : Type) : Type :=
| Ok (a : A)
| Err (e : E)
| Panic.
Arguments Ok {E A} a.
Arguments Err {E A} e.
Arguments Panic {E A}.

(** The [?] operator without error conversion. *)
Definition bind {E A B} (x : outcome E A) (k : A -> outcome E B) : outcome E B :=
  match x with
  | Ok a => k a
  | Err e => Err e
  | Panic => Panic
  end.

(** The error conversion ([From]) which [?] applies. *)
Definition map_err {E F A} (f : E -> F) (x : outcome E A) : outcome F A :=
  match x with
  | Ok a => Ok a
  | Err e => Err (f e)
  | Panic => Panic
  end.

(** [Option::ok_or] / [?] on an [Option] (with the error given by [From<NoneError>]). *)
Definition ok_or {E A} (e : E) (x : option A) : outcome E A :=
  match x with Some a => Ok a | None => Err e end.

(** An [Option] whose [None] stands for a panic (indexing, slicing, [unwrap]). *)
Definition or_panic {E A} (x : option A) : outcome E A :=
  match x with Some a => Ok a | None => Panic end.

Notation "'do' x <- e ; k" := (bind e (fun x => k))
  (at level 200, x pattern, e at level 100, k at level 200, right associativity).

(** ** Bytes ([u8]). *)
Definition bytes := list byte.

Definition bz (b : byte) : Z := Z.of_N (Byte.to_N b).

(** [z as u8] (wrapping). *)
Definition zb (z : Z) : byte :=
  match Byte.of_N (Z.to_N (z mod 256)) with
  | Some b => b
  | None => x00
  end.

Definition byte_eqb (a b : byte) : bool := Byte.eqb a b.

Fixpoint bytes_eqb (a b : bytes) : bool :=
  match a, b with
  | [], [] => true
  | x :: a', y :: b' => Byte.eqb x y && bytes_eqb a' b'
  | _, _ => false
  end.

Definition zeros (n : nat) : bytes := repeat x00 n.

(** Little-endian integers. *)
Fixpoint le_decode (l : bytes) : Z :=
  match l with
  | [] => 0
  | b :: l' => bz b + 256 * le_decode l'
  end.

Fixpoint le_encode (n : nat) (z : Z) : bytes :=
  match n with
  | O => []
  | S n' => zb z :: le_encode n' (z / 256)
  end.

(** ** Slices.  [slice a b l] is [&l[a..b]]; [None] is the panic of an
    out-of-range index. *)
Definition slice {A} (a b : nat) (l : list A) : option (list A) :=
  if (a <=? b)%nat && (b <=? List.length l)%nat
  then Some (firstn (b - a) (skipn a l))
  else None.

(** [&l[a..]] *)
Definition slice_from {A} (a : nat) (l : list A) : option (list A) :=
  slice a (List.length l) l.

(** [let mut tmp = [0u8; n]; tmp.copy_from_slice(l)]: panics unless the
    lengths agree. *)
Definition to_array (n : nat) (l : bytes) : option bytes :=
  if (List.length l =? n)%nat then Some l else None.

(** [l.chunks(n)]: the last chunk may be shorter.  The fuel [length l] always
    suffices for [n > 0]. *)
Fixpoint chunks_aux {A} (fuel n : nat) (l : list A) : list (list A) :=
  match fuel with
  | O => []
  | S f => match l with
           | [] => []
           | _ => firstn n l :: chunks_aux f n (skipn n l)
           end
  end.
Definition chunks {A} (n : nat) (l : list A) : list (list A) :=
  chunks_aux (List.length l) n l.

(** A loop which pushes the result of [f] on each element and returns early on
    the first error or panic. *)
Fixpoint try_map {E A B} (f : A -> outcome E B) (l : list A) : outcome E (list B) :=
  match l with
  | [] => Ok []
  | x :: l' =>
    do y <- f x;
    do ys <- try_map f l';
    Ok (y :: ys)
  end.

(** [l[i]]: [None] is the panic of an out-of-range index. *)
Definition index {A} (l : list A) (i : nat) : option A := nth_error l i.

(** [str::as_bytes] for the ASCII literals used as labels. *)
Definition str (s : string) : bytes := list_byte_of_string s.
