(** What those learn who watch (SpecObserve.v) or eavesdrop (SpecElgamal.v) when
    every scalar is made from 64 random bytes (SpecBlocks.v).

    How likely something is becomes: for how many strings it is so. *)
From Verif Require Export SpecBlocks SpecElgamal SpecObserve.

(** [n] scalars, and [n] strings of 64 bytes, for which something is so. *)
Definition on_scalars (n : nat) (P : list scalar -> Prop) (v : list scalar) : Prop := given_scalars n v /\ P v.
Definition on_bytes (n : nat) (P : list scalar -> Prop) (w : list bytes) : Prop :=
  List.length w = n /\ Forall (fun b => List.length b = 64%nat) w /\ P (reduced w).

(** Of the strings of 64 bytes, at least so many give a scalar, and at most one more. *)
Definition shares : Z := 2 ^ 512 / ell.

Section watching.
  Context {E : Ext}.

  (** The openings of [N] entries and the scalars of [K] presentations. *)
  Definition watched_coins (N K : nat) (v : list scalar) : observed_coins :=
    (firstn N v, map presentation_coins (pieces 9 K (skipn N v))).
  (** Something is concluded from all that is seen. *)
  Definition concluded_from (params : SystemParameters E) (members : nat -> member E) (second : bool)
      (o : SpecObserve.observer E) (conclude : list (sight E) -> bool) (N K : nat) (v : list scalar) : Prop :=
    conclude (fst (observe params members second o (watched_coins N K v) [])) = true.

  (** The first scalar is the secret key, the others are nonces. *)
  Definition overheard_from (second : bool) (e : eavesdropper E) (v : list scalar) : Prop :=
    overhears second e (hd 0 v) (tl v) = true.
  Definition listened_from (second : bool) (l : listener) (v : list scalar) : Prop :=
    let k := elgamal_public_of_secret (E := E) (hd 0 v) in concludes k second l [basepoint; k] (tl v) = true.
End watching.
