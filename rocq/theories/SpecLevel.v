(** Fractions in powers of two, for reading the bounds of C85, C91 and C109 as numbers. *)
From Verif Require Export SpecBlocks SpecBytes SpecRare.

(** At most one in [2 ^ k] of [total]. *)
Definition one_in (k n total : Z) : Prop := n * 2 ^ k <= total.

(** At most [2 ^ s]. *)
Definition work (s : Z) (n : nat) : Prop := Z.of_nat n <= 2 ^ s.

(** As many as there are lists of [n] strings of 64 bytes. *)
Definition strings (n : nat) : Z := (2 ^ 512) ^ Z.of_nat n.

(** [b] is at most [b'] and one in [2 ^ k] of it. *)
Definition close (k b b' : Z) : Prop := b * 2 ^ k <= b' * (2 ^ k + 1).
