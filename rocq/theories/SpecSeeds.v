(** One seed for two calls.

    A seed of 32 bytes gives one stream of bytes; a call that is given the seed of
    an earlier call reads the same stream. *)
From Verif Require Export Spec ModelSignal.

Section seeds.
  Context {E : Ext}.

  (** A credential for [m] from the parameters, the public key and one scalar. *)
  Definition from_scalar (params : SystemParameters E) (X1 : point E) (x m : scalar) : Credential E :=
    {| cr_mac := {| tag_nonce := sp_h params; tag_mac := padd (smul x (sp_h params)) (smul m X1) |}; cr_attributes := [m] |}.

  (** [entry] with the opening of another one. *)
  Definition opened_with (entry other : RosterEntryCommitment E) : RosterEntryCommitment E :=
    {| re_commitment := re_commitment entry; re_opening := re_opening other |}.

  (** The nonce and the commitment to the number that a presentation shows. *)
  Definition shows (p : SignalCredentialPresentation E) (P C : point E) : Prop :=
    pr_rerandomized_nonce (sc_presentation p) = P /\ pr_attributes_blinded (sc_presentation p) = [C].
End seeds.
