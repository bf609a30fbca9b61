(** Vocabulary for C92: what two issuers or users have in common when all the
    lists they hold have the same lengths. *)
From Verif Require Export ModelSignal.

Section counts.
  Context {E : Ext}.

  (** Keys with as many components. *)
  Definition same_counts (i i' : Issuer E) : Prop :=
    List.length (pk_Xn (kp_public (iss_keypair i))) = List.length (pk_Xn (kp_public (iss_keypair i'))) /\
    List.length (sk_xn (kp_secret (iss_keypair i))) = List.length (sk_xn (kp_secret (iss_keypair i'))).

  (** Issuer parameters with as many components, and both or neither with a
      credential, of as many attributes. *)
  Definition same_holding (u u' : User E) : Prop :=
    List.length (pk_Xn (us_issuer_parameters u)) = List.length (pk_Xn (us_issuer_parameters u')) /\
    match us_credential u, us_credential u' with
    | Some c, Some c' => List.length (cr_attributes c) = List.length (cr_attributes c')
    | None, None => True
    | _, _ => False
    end.
End counts.

Definition accepts {Er A} (o : outcome Er A) : Prop := exists a, o = Ok a.

(** How many bytes at the front are zero. *)
Fixpoint leading_zeros (l : bytes) : nat :=
  match l with
  | x00 :: l' => S (leading_zeros l')
  | _ => O
  end.
