(** Vocabulary for C94: how much work a call does. *)
From Verif Require Export ModelTiming.

(** A branch, an access to an array, an arm of a [match]: one step each.  An
    operation on many elements: one step and one for every element. *)
Definition steps (e : event) : nat :=
  match e with
  | Branch _ => 1
  | Index _ => 1
  | Arm _ => 1
  | Length n => 1 + n
  | Scalars ks => 1 + List.length ks
  | Differ n => 1 + n
  end.
Definition work {A} (m : timed A) : nat := list_sum (map steps (fst m)).
