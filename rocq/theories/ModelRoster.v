(** The list of members a server keeps of a group, and the check it makes of
    a presentation: signal-credential/tests/full-protocol.rs:66-92, and the
    note at signal-credential/src/issuer.rs:157-163.

    The library has no type for a roster: the test keeps a [Vec] of
    commitments for each permission level, [push]es to it, and calls
    [contains]. *)
From Verif Require Export ModelSignal.

(** The two levels; signal-credential/tests/full-protocol.rs:67-68. *)
Inductive level := Admins | Users.

Section roster.
  Context {E : Ext}.

  (** [roster_admins] and [roster_users]; signal-credential/tests/full-protocol.rs:67-68. *)
  Record Roster := { ro_admins : list (point E); ro_users : list (point E) }.
  Definition roster_new : Roster := {| ro_admins := []; ro_users := [] |}.
  Definition listed (ro : Roster) (v : level) : list (point E) :=
    match v with Admins => ro_admins ro | Users => ro_users ro end.
  (** [Vec::push] at a level; signal-credential/tests/full-protocol.rs:70,77. *)
  Definition roster_push (ro : Roster) (v : level) (c : point E) : Roster :=
    match v with
    | Admins => {| ro_admins := ro_admins ro ++ [c]; ro_users := ro_users ro |}
    | Users => {| ro_admins := ro_admins ro; ro_users := ro_users ro ++ [c] |}
    end.
  (** [slice::contains] with the derived [PartialEq] of [CommittedPhoneNumber]
      (signal-credential/src/phone_number.rs:275) and of [Commitment]
      (aeonflux/src/pedersen.rs:35), which compare the points. *)
  Definition contains (l : list (point E)) (c : point E) : bool := existsb (fun x => peqb x c) l.
  (** Verify, verify membership, and look the result up at a level;
      signal-credential/tests/full-protocol.rs:82-92. *)
  Definition allowed (i : Issuer E) (ro : Roster) (v : level) (p : SignalCredentialPresentation E)
    : outcome CredentialError bool :=
    do verified_credential <- signal_verify i p;
    do server_copy <- verify_roster_membership i verified_credential;
    Ok (contains (listed ro v) server_copy).
  (** The same by a server which keeps the 32 bytes of each commitment
      ([CommittedPhoneNumber::to_bytes], signal-credential/src/phone_number.rs:283-285)
      and compares bytes. *)
  Definition allowed_bytes (i : Issuer E) (stored : list bytes) (p : SignalCredentialPresentation E)
    : outcome CredentialError bool :=
    do verified_credential <- signal_verify i p;
    do server_copy <- verify_roster_membership i verified_credential;
    Ok (existsb (fun x => bytes_eqb x (compress server_copy)) stored).
End roster.
Arguments Roster : clear implicits.
