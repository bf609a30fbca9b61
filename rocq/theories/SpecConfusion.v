(** What the encodings do not say: of what kind they are.

    The calls of the API take and return byte strings, and nothing in them says what
    they stand for.  [made] are the strings that calls return, [taken] those that the
    decoder of an argument accepts, and [table] which of the first are among the second. *)
From Verif Require Export SpecCodec ModelSignal.

Inductive kind : Type :=
| KParameters | KKeypair | KIssuer | KIssuerParameters | KIssuance | KUser | KEntry | KCommitment | KPresentation | KVerified.
(** What a call may ask for. *)
Inductive wanted : Type :=
| WParameters | WKeypair | WIssuer | WIssuerParameters | WIssuance | WUser | WEntry | WPresentation | WVerified | WNumber.

Section confusion.
  Context (E : Ext).

  (** The strings of a kind, of one attribute as the calls make them. *)
  Definition one_key (k : Keypair E) : Prop :=
    exists X x0 x1, k = {| kp_public := {| pk_Xn := [X] |}; kp_secret := {| sk_x0 := x0; sk_xn := [x1] |} |} /\
      canonical x0 /\ canonical x1.
  Definition made (k : kind) (b : bytes) : Prop :=
    match k with
    | KParameters => exists p : SystemParameters E, b = system_parameters_to_bytes p
    | KKeypair => exists k, one_key k /\ b = keypair_to_bytes k
    | KIssuer => exists i : Issuer E, one_key (iss_keypair i) /\ b = signal_issuer_to_bytes i
    | KIssuerParameters => exists X : point E, b = public_key_to_bytes {| pk_Xn := [X] |}
    | KIssuance => exists i : CredentialIssuance E, wf_issuance i /\ b = issuance_to_bytes i
    | KUser => exists u : SignalUser E, wf_user (su_user u) /\ bits255 (su_phone_number u) /\ b = signal_user_to_bytes u
    | KEntry => exists e : RosterEntryCommitment E, bits255 (re_opening e) /\ b = roster_to_bytes e
    | KCommitment => exists C : point E, b = committed_to_bytes C
    | KPresentation => exists p : SignalCredentialPresentation E, wf_signal_presentation p /\ b = signal_presentation_to_bytes p
    | KVerified => exists v : VerifiedSignalCredential E, wf_signal_presentation (vs_presentation v) /\ b = verified_signal_to_bytes v
    end.

  Definition accepts {X A} (o : outcome X A) : Prop := exists a, o = Ok a.
  Definition taken (w : wanted) (b : bytes) : Prop :=
    match w with
    | WParameters => accepts (@system_parameters_from_bytes E b)
    | WKeypair => accepts (@keypair_from_bytes E b)
    | WIssuer => accepts (@signal_issuer_from_bytes E b)
    | WIssuerParameters => accepts (@public_key_from_bytes E b)
    | WIssuance => accepts (@issuance_from_bytes E b)
    | WUser => accepts (@signal_user_from_bytes E b)
    | WEntry => accepts (@roster_from_bytes E b)
    | WPresentation => accepts (@signal_presentation_from_bytes E b)
    | WVerified => accepts (@verified_signal_from_bytes E b)
    | WNumber => accepts (try_from_bytes b)
    end.

  (** The word with this number, and what words may be. *)
  Definition word (k : nat) (b : bytes) : bytes := field (32 * k) 32 b.
  Definition is_point (w : bytes) : Prop := exists P : point E, w = compress P.
  Definition is_scalar (w : bytes) : Prop := exists x, canonical x /\ w = le32 x.
  Definition points (l : list nat) (b : bytes) : Prop := Forall (fun k => is_point (word k b)) l.
  Definition scalars (l : list nat) (b : bytes) : Prop := Forall (fun k => is_scalar (word k b)) l.

  Definition table (k : kind) (w : wanted) (b : bytes) : Prop :=
    match k, w with
    (* what it is *)
    | KParameters, WParameters | KKeypair, WKeypair | KIssuer, WIssuer | KIssuerParameters, WIssuerParameters
    | KIssuance, WIssuance | KUser, WUser | KEntry, WEntry | KPresentation, WPresentation | KVerified, WVerified => True
    (* always something else as well *)
    | KPresentation, WVerified | KVerified, WPresentation => True
    | KParameters, WIssuerParameters | KParameters, WEntry | KCommitment, WIssuerParameters => True
    (* something else if a scalar happens to be the encoding of a point, or the
       encoding of a point that of a scalar *)
    | KEntry, WParameters | KEntry, WIssuerParameters => points [1]%nat b
    | KCommitment, WKeypair | KIssuerParameters, WKeypair => scalars [0]%nat b
    | KKeypair, WIssuerParameters => points [1; 2]%nat b
    | KIssuer, WIssuerParameters => points [3; 4]%nat b
    | KIssuer, WKeypair => scalars [2]%nat b
    | KUser, WIssuerParameters => points [0; 4; 8]%nat b
    | KUser, WKeypair => points [0]%nat b /\ scalars [5; 6; 7]%nat b
    | KUser, WIssuer => points [0; 4]%nat b /\ scalars [5; 6; 7]%nat b
    | KPresentation, WIssuance | KVerified, WIssuance => scalars [3]%nat b
    | KPresentation, WIssuerParameters | KVerified, WIssuerParameters => points (seq 4 10) b
    (* nothing else *)
    | _, _ => False
    end.

  (** Which of the strings stop the program when they are passed for something else. *)
  Definition crashes (w : wanted) (b : bytes) : Prop :=
    match w with
    | WParameters => @system_parameters_from_bytes E b = Panic
    | WKeypair => @keypair_from_bytes E b = Panic
    | WIssuer => @signal_issuer_from_bytes E b = Panic
    | WIssuerParameters => @public_key_from_bytes E b = Panic
    | WIssuance => @issuance_from_bytes E b = Panic
    | WUser => @signal_user_from_bytes E b = Panic
    | WEntry => @roster_from_bytes E b = Panic
    | WPresentation => @signal_presentation_from_bytes E b = Panic
    | WVerified => @verified_signal_from_bytes E b = Panic
    | WNumber => try_from_bytes b = Panic
    end.
  Definition crash_table (k : kind) (w : wanted) (b : bytes) : Prop :=
    match k, w with
    | (KParameters | KKeypair | KIssuerParameters | KEntry | KCommitment), WIssuance => True
    | (KKeypair | KIssuer | KIssuerParameters | KIssuance | KCommitment | KPresentation | KVerified), WEntry => True
    | KUser, WEntry => points [0]%nat b
    | (KIssuerParameters | KCommitment), WNumber => True
    | _, _ => False
    end.
End confusion.
