(** What a presentation proves, and to whom.

    A presentation is shown to an issuer.  Here are the issuer that may be
    anybody's, a credential that nobody issued, and the state a service among
    strangers is in after a history. *)
From Verif Require Export SpecStrangers.

Section denial.
  Context {E : Ext}.

  (** The issuer with these parameters and this key. *)
  Definition issuer_of (params : SystemParameters E) (x0 x1 : scalar) : Issuer E :=
    {| iss_system_parameters := params;
       iss_keypair := {| kp_public := {| pk_Xn := [smul x1 (sp_h params)] |};
                         kp_secret := {| sk_x0 := x0; sk_xn := [x1] |} |} |}.
  (** What the public knows of an issuer with one attribute. *)
  Definition known_as (params : SystemParameters E) (X1 : point E) (i : Issuer E) : Prop :=
    iss_system_parameters i = params /\ kp_public (iss_keypair i) = {| pk_Xn := [X1] |} /\
    consistent i /\ single_attribute i.
  Definition knows (params : SystemParameters E) (X1 : point E) (u : User E) : Prop :=
    us_system_parameters u = params /\ us_issuer_parameters u = {| pk_Xn := [X1] |}.
  (** A credential for [m] which nobody issued: its tag is any point. *)
  Definition made_up (m : scalar) (Q : point E) : Credential E :=
    {| cr_mac := {| tag_nonce := basepoint; tag_mac := Q |}; cr_attributes := [m] |}.
  (** The entry is a commitment to [m]. *)
  Definition commits (params : SystemParameters E) (entry : RosterEntryCommitment E) (m : scalar) : Prop :=
    re_commitment entry = padd (smul m (sp_h params)) (smul (re_opening entry) (sp_g params)).
  (** An issuer takes a presentation, and the roster entry in it. *)
  Definition takes (i : Issuer E) (p : SignalCredentialPresentation E) : Prop :=
    signal_verify i p = Ok {| vs_presentation := p |} /\
    verify_roster_membership i {| vs_presentation := p |} = Ok (sc_roster_entry_commitment p).

  Definition open_after (params : SystemParameters E) (h : list (open_event E)) (s : service E) : service E :=
    fold_left (fun s x => fst (open_step params s x)) h s.
End denial.
