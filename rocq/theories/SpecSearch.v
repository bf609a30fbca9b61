(** Looking for the number in a roster entry by trying numbers (C117; FFI.md:46-60). *)
From Verif Require Export Spec ModelSignal.

(** The strings of [n] decimal digits. *)
Definition digits : list Byte.byte := map (fun d => zb (48 + Z.of_nat d)) (seq 0 10).
Fixpoint strings (n : nat) : list bytes :=
  match n with
  | O => [[]]
  | S n => flat_map (fun d => map (cons d) (strings n)) digits
  end.

Section search.
  Context {E : Ext}.
  (** Those of some candidates to which the entry opens. *)
  Definition search (e : RosterEntryCommitment E) (params : SystemParameters E) (candidates : list bytes) : list bytes :=
    filter (fun s => match roster_open e s params with Ok _ => true | _ => false end) candidates.
  (** The same from the bytes of an entry and of the parameters. *)
  Definition search_bytes (entry params : bytes) (candidates : list bytes) : list bytes :=
    match @roster_from_bytes E entry, @system_parameters_from_bytes E params with
    | Ok e, Ok p => search e p candidates
    | _, _ => []
    end.
End search.
