(** A game for the privacy of users: somebody who holds the issuer's key, and all
    credentials, watches a group.

    He lets users join, naming two for each entry of the roster, and sees the
    commitment of the entry; he lets the owner of an entry present the credential as
    often as he likes, and sees all that is sent.  What he does next may depend on all
    he saw.  In one world the first of the two named users joins, in the other the
    second. *)
From Verif Require Export PropertiesAnonymity SpecOverheard.

Section observing.
  Context {E : Ext}.

  Inductive observer : Type :=
  | OStop
  | OJoin (first second : nat) (next : point E -> observer)
  | OShow (entry : nat) (next : SignalCredentialPresentation E -> observer).

  (** A user with a credential for its number. *)
  Record member : Type := {
    mb_user : SignalUser E;
    mb_credential : Credential E;
    mb_number : scalar
  }.
  Definition member_of (i : Issuer E) (m : member) : Prop :=
    user_of i (su_user (mb_user m)) /\ us_credential (su_user (mb_user m)) = Some (mb_credential m) /\
    valid_credential i (mb_credential m) (mb_number m) /\ tag_nonce (cr_mac (mb_credential m)) <> pzero.

  (** The entry of a user, the opening given (signal-credential/src/phone_number.rs). *)
  Definition entry_with (params : SystemParameters E) (m : member) (opening : scalar) : RosterEntryCommitment E :=
    {| re_commitment := padd (smul (mb_number m) (sp_h params)) (smul opening (sp_g params));
       re_opening := opening |}.

  (** What is seen. *)
  Inductive sight : Type :=
  | SEntry (commitment : point E)
  | SShown (presentation : SignalCredentialPresentation E).

  (** The random scalars: an opening for each entry; for each presentation the scalar
      which re-randomises the tag, the two that hide the number and the tag and those of
      the proofs. *)
  Definition observed_coins : Type := list scalar * list show_coins.
  Definition observed_canonical (w : observed_coins) : Prop :=
    Forall canonical (fst w) /\ shows_canonical (snd w).

  (** All that is seen, and the scalars left.  The game ends when there are none. *)
  Fixpoint observe (params : SystemParameters E) (members : nat -> member) (second : bool)
      (o : observer) (w : observed_coins) (roster : list (member * RosterEntryCommitment E))
    : list sight * observed_coins :=
    match o with
    | OStop => ([], w)
    | OJoin a b next =>
      match fst w with
      | [] => ([], w)
      | r :: rs =>
        let m := members (if second then b else a) in
        let e := entry_with params m r in
        let '(seen, rest) := observe params members second (next (re_commitment e)) (rs, snd w) (roster ++ [(m, e)])%list in
        (SEntry (re_commitment e) :: seen, rest)
      end
    | OShow k next =>
      match nth_error roster k, snd w with
      | Some (m, e), ((rr, z0, zQ), (v, v')) :: shows =>
        match signal_show_with (mb_user m) (mb_credential m) e z0 rr zQ v v' with
        | Ok p =>
          let '(seen, rest) := observe params members second (next p) (fst w, shows) roster in
          (SShown p :: seen, rest)
        | _ => ([], w)
        end
      | _, _ => ([], w)
      end
    end.
End observing.
Arguments observer : clear implicits.
Arguments member : clear implicits.
Arguments sight : clear implicits.
