(** What the check of a roster is to decide, said with lists of points.

    [takes] (an issuer takes a presentation and its roster entry) and
    [commits] (an entry is a commitment to a number) are those of
    [SpecDenial]. *)
From Verif Require Export SpecDenial ModelRoster.

Section roster.
  Context {E : Ext}.

  (** A user who holds a credential of this issuer for [m]. *)
  Definition holds_for (i : Issuer E) (u : SignalUser E) (m : scalar) : Prop :=
    user_of i (su_user u) /\ exists c, us_credential (su_user u) = Some c /\ valid_credential i c m.
  (** With this entry the user is let in at this level, whatever is random. *)
  Definition let_in (i : Issuer E) (ro : Roster E) (v : level) (u : SignalUser E)
    (entry : RosterEntryCommitment E) : Prop :=
    forall r os, exists p r' os', signal_show u r os entry = Ok (p, r', os') /\ allowed i ro v p = Ok true.
  (** The members left when those commitments are taken off. *)
  Definition without (gone l l' : list (point E)) : Prop :=
    forall c, In c l' <-> In c l /\ ~ In c gone.
  (** Another entry for the same number, and one for another number.  The
      commitment in each can be computed from the commitment of the first. *)
  Definition shifted (params : SystemParameters E) (d : scalar) (entry : RosterEntryCommitment E)
    : RosterEntryCommitment E :=
    {| re_commitment := padd (re_commitment entry) (smul d (sp_g params));
       re_opening := (re_opening entry + d) mod ell |}.
  Definition renumbered (params : SystemParameters E) (k : scalar) (entry : RosterEntryCommitment E)
    : RosterEntryCommitment E :=
    {| re_commitment := padd (re_commitment entry) (smul k (sp_h params));
       re_opening := re_opening entry |}.
End roster.
