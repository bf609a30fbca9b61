(** Vocabulary for C106: which calls through the C interface succeed, and how
    wide a byte is in decimal. *)
From Verif Require Export SpecFfi SpecTiming.

(** The caller gets something: all functions say with the length 0 that they
    failed. *)
Definition succeeds (r : call_result) : Prop :=
  exists b m os, r = Returns b m os /\ buf_len b <> 0.

(** The functions which make something, or take it apart, and check nothing. *)
Definition maker (f : c_function) : Prop :=
  match f with
  | IssuerCreate _ _ _ | IssuerNew _ _ _ _ | IssuerGetIssuerParameters _ _ | IssuerIssue _ _ _ _ _
  | RosterEntryCommitmentCreate _ _ _ _ _ | RosterEntryCommitmentRemoveOpening _ _ => True
  | _ => False
  end.

(** How many decimal digits a byte has. *)
Definition width (b : byte) : nat :=
  if bz b <? 10 then 1%nat else if bz b <? 100 then 2%nat else 3%nat.

(** The number which decimal digits in ASCII stand for, and texts with commas
    between them. *)
Definition decimal_value (l : bytes) : Z := fold_left (fun a d => 10 * a + (bz d - 48)) l 0.
Definition joined (l : list bytes) : bytes :=
  match l with [] => [] | x :: l' => (x ++ flat_map (fun y => x2c :: y) l')%list end.
