(** What it means that a call reads so many bytes of a generator; runs of the
    protocol with one generator and with several. *)
From Verif Require Export ModelThread.

Definition agree (n : nat) (r s : rng) : Prop := forall i, (i < n)%nat -> r i = s i.
Definition after (n : nat) (r : rng) : rng := fun i => r (n + i)%nat.
Definition left_at (n : nat) (r r' : rng) : Prop := forall i, r' i = r (n + i)%nat.

(** The result of [f] is determined by the first [n] bytes, and [f] leaves the
    generator behind these. *)
Definition reads {Er A : Type} (n : nat) (f : rng -> outcome Er (A * rng)) : Prop :=
  forall r s, agree n r s ->
  match f r, f s with
  | Ok (a, r'), Ok (b, s') => a = b /\ left_at n r r' /\ left_at n s s'
  | Err e, Err e' => e = e'
  | Panic, Panic => True
  | _, _ => False
  end.
(** The same of two generators. *)
Definition reads_two {Er A : Type} (n k : nat) (f : rng -> rng -> outcome Er (A * rng * rng)) : Prop :=
  forall r s o q, agree n r s -> agree k o q ->
  match f r o, f s q with
  | Ok (a, r', o'), Ok (b, s', q') => a = b /\ left_at n r r' /\ left_at n s s' /\ left_at k o o' /\ left_at k q q'
  | Err e, Err e' => e = e'
  | Panic, Panic => True
  | _, _ => False
  end.

(** What comes of a run: the issuer, the issuance, the entry, and the
    presentation of the user who got the issuance. *)
Section runs.
  Context {E : Ext}.
  Definition results : Type := Issuer E * CredentialIssuance E * RosterEntryCommitment E * SignalCredentialPresentation E.
  Definition holder (params : SystemParameters E) (i : Issuer E) (number : bytes) (iss : CredentialIssuance E) : option (SignalUser E) :=
    match signal_user_new params (get_issuer_parameters i) None number with
    | Ok u => Some (fst (signal_obtain_finish u (Some iss)))
    | _ => None
    end.
  (** A generator for each call. *)
  Definition run_apart (params : SystemParameters E) (number : bytes) (r1 r2 o2 r3 r4 o4 : rng) : option results :=
    let (i, _) := signal_issuer_create params r1 in
    match signal_issue i number r2 o2 with
    | Ok (iss, _, _) =>
      match holder params i number iss, roster_create number params r3 with
      | Some u, Ok (entry, _) =>
        match signal_show u r4 o4 entry with
        | Ok (p, _, _) => Some (i, iss, entry, p)
        | _ => None
        end
      | _, _ => None
      end
    | _ => None
    end.
  (** One generator of the caller's for all calls, besides [thread_rng]. *)
  Definition run_one (params : SystemParameters E) (number : bytes) (r o : rng) : option results :=
    let (i, r) := signal_issuer_create params r in
    match signal_issue i number r o with
    | Ok (iss, r, o) =>
      match holder params i number iss, roster_create number params r with
      | Some u, Ok (entry, r) =>
        match signal_show u r o entry with
        | Ok (p, _, _) => Some (i, iss, entry, p)
        | _ => None
        end
      | _, _ => None
      end
    | _ => None
    end.
  (** [thread_rng] for everything, as in signal-credential/tests/full-protocol.rs:31-93
      and most other tests. *)
  Definition run_thread (params : SystemParameters E) (number : bytes) (r : rng) : option results :=
    let (i, r) := signal_issuer_create params r in
    match signal_issue_thread i number r with
    | Ok (iss, r) =>
      match holder params i number iss, roster_create number params r with
      | Some u, Ok (entry, r) =>
        match signal_show_thread u r entry with
        | Ok (p, _) => Some (i, iss, entry, p)
        | _ => None
        end
      | _, _ => None
      end
    | _ => None
    end.
End runs.

(** A call with [thread_rng] is the call that finds in [rng] what comes first and
    in [thread_rng] what comes after [n] bytes, and leaves off [k] bytes further. *)
Definition thread_is {Er A : Type} (n k : nat) (f : rng -> outcome Er (A * rng)) (g : rng -> rng -> outcome Er (A * rng * rng)) : Prop :=
  forall r, match f r, g r (after n r) with
  | Ok (a, r'), Ok (b, _, _) => a = b /\ left_at (n + k) r r'
  | Err e, Err e' => e = e'
  | Panic, Panic => True
  | _, _ => False
  end.
