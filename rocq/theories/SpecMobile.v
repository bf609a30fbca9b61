(** What the objects of the Swift wrapper are that programs can make. *)
From Verif Require Export SpecCalls.

Section objects.
  Context (E : Ext) (reuse : reuse_of_freed).

  (** The data of an [IssuerParameters]: made from bytes, or got from an issuer. *)
  Definition parameters_object (d : bytes) : Prop :=
    (exists b, SwIssuerParameters_withBytes b = Some d) \/
    (exists m os issuer os', fits E (sw_data issuer) /\ @sw_get_parameters E reuse m os issuer = SwReturns (Some d) os').

  (** The data of a [User], and what it can show. *)
  Definition user_object (number params issuer_params issuance d : bytes) : Prop :=
    exists m os os', Forall (fits E) [number; params; issuer_params; issuance] /\
      @sw_user_init E reuse m os number params issuer_params issuance = SwReturns (Some d) os'.
  Definition can_show (user d : bytes) : Prop :=
    exists m os entry seed os', Forall (fits E) [user; entry] /\
      @sw_show E reuse m os user entry seed = SwReturns (Some d) os'.
End objects.
