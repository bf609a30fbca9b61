(** The maker of the system parameters, who may know how the generator [h] was
    made: [h] is [t] times [g].  [SystemParameters] is aeonflux/src/parameters.rs:33-36,
    [RosterEntryCommitment] is signal-credential/src/phone_number.rs:319-322. *)
From Verif Require Export Spec ModelSignal.

Section trapdoor.
  Context {E : Ext}.

  Definition trapdoor (p : SystemParameters E) (t : Z) : Prop := sp_h p = smul t (sp_g p).

  (** [n h + o g] is [n' h + (o + (n - n') t) g]. *)
  Definition reopened (t n o n' : Z) : Z := (o + (n - n') * t) mod ell.
  Definition reopen (t : Z) (entry : RosterEntryCommitment E) (n n' : Z) : RosterEntryCommitment E :=
    {| re_commitment := re_commitment entry; re_opening := reopened t n (re_opening entry) n' |}.

  (** The trapdoor computed from the openings [o] to [n] and [o'] to [n']. *)
  Definition trapdoor_of (n o n' o' : Z) : Z := (o' - o) * s_inv (n - n').

  (** On bytes: the entry made for [number], opened to [number']. *)
  Definition reopen_bytes (t : Z) (entry number number' : bytes) : option bytes :=
    match @roster_from_bytes E entry, try_from_bytes number, try_from_bytes number' with
    | Ok e, Ok n, Ok n' => Some (roster_to_bytes (reopen t e n n'))
    | _, _, _ => None
    end.
End trapdoor.
