(** What the statements about the C API mean, without reference to how the
    functions work. *)
From Verif Require Export ModelFfi SpecCodec.

Section spec.
  Context {E : Ext}.

  (** The argument [(p, len)] is given, and its bytes are [b]. *)
  Definition given (m : memory) (p : pointer) (len : Z) (b : bytes) : Prop :=
    p <> Null /\ len <> 0 /\ read m p (@as_size_t E len) = Some b.

  (** The seed at [p] is [b]. *)
  Definition given_seed (m : memory) (p : pointer) (b : bytes) : Prop :=
    p <> Null /\ read m p 32 = Some b.
End spec.

(** The bytes [b] are in memory at [p]. *)
Definition holds (m : memory) (p : pointer) (b : bytes) : Prop :=
  p <> Null /\ read m p (List.length b) = Some b.
(** The length to pass for [b]. *)
Definition len (b : bytes) : Z := Z.of_nat (List.length b).

(** The arguments of a call: pointers with the lengths passed for them (a seed
    has no length). *)
Definition c_arguments (f : c_function) : list (pointer * option Z) :=
  match f with
  | SystemParametersCreate s => [(s, None)]
  | IssuerCreate p pl s => [(p, Some pl); (s, None)]
  | IssuerNew p pl k kl => [(p, Some pl); (k, Some kl)]
  | IssuerGetIssuerParameters i il => [(i, Some il)]
  | IssuerIssue i il n nl s => [(i, Some il); (n, Some nl); (s, None)]
  | IssuerVerify i il p pl => [(i, Some il); (p, Some pl)]
  | IssuerVerifyRosterMembership i il v vl => [(i, Some il); (v, Some vl)]
  | UserObtainFinish n nl p pl ip ipl s sl => [(n, Some nl); (p, Some pl); (ip, Some ipl); (s, Some sl)]
  | UserShow u ul e el s => [(u, Some ul); (e, Some el); (s, None)]
  | RosterEntryCommitmentCreate n nl p pl s => [(n, Some nl); (p, Some pl); (s, None)]
  | RosterEntryCommitmentRemoveOpening e el => [(e, Some el)]
  | RosterEntryCommitmentOpen e el n nl p pl => [(e, Some el); (n, Some nl); (p, Some pl)]
  end.

(** A null pointer, or a pointer with length zero. *)
Definition missing (a : pointer * option Z) : Prop := fst a = Null \/ snd a = Some 0.

(** The bytes of the argument can be read. *)
Definition readable (E : Ext) (m : memory) (a : pointer * option Z) : Prop :=
  match snd a with
  | None => exists b, read m (fst a) 32 = Some b
  | Some len => exists b, read m (fst a) (@as_size_t E len) = Some b
  end.

Definition is_open (f : c_function) : Prop :=
  match f with RosterEntryCommitmentOpen _ _ _ _ _ _ => True | _ => False end.

(** What the block [p] points to held when it was freed or, if live, holds. *)
Definition last_contents (m : memory) (p : pointer) (len : Z) : option bytes :=
  match p with
  | Block id 0 =>
    match mem_block m id with
    | Live c | Freed c => if Z.of_nat (List.length c) =? len then Some c else None
    | Absent => None
    end
  | _ => None
  end.

(** The call wrote the bytes [b] to the buffer it returned. *)
Definition returned (r : call_result) (b : bytes) : Prop :=
  exists buf m os, r = Returns buf m os /\ buf_len buf = Z.of_nat (List.length b) /\
    last_contents m (buf_ptr buf) (buf_len buf) = Some b.

(** The length of the results of the functions whose results have one length. *)
Definition result_length (f : c_function) : option Z :=
  match f with
  | SystemParametersCreate _ => Some 64
  | IssuerCreate _ _ _ => Some 96
  | IssuerVerify _ _ _ _ => Some 448
  | IssuerVerifyRosterMembership _ _ _ _ => Some 32
  | UserShow _ _ _ _ _ => Some 448
  | RosterEntryCommitmentCreate _ _ _ _ _ => Some 64
  | RosterEntryCommitmentRemoveOpening _ _ => Some 32
  | _ => None
  end.

(** Phone numbers which make the encoder panic. *)
Definition number_panics (b : bytes) : Prop := (28 <= List.length b <= 32)%nat.
(** Byte strings which make [RosterEntryCommitment::from_bytes] panic. *)
Definition entry_panics (E : Ext) (b : bytes) : Prop :=
  (List.length b < 32)%nat \/
  (List.length b <> 64%nat /\ exists P : point E, decompress (firstn 32 b) = Some P).
(** Byte strings which make [CredentialIssuance::from_bytes] panic. *)
Definition issuance_panics (E : Ext) (b : bytes) : Prop :=
  (List.length b < 32)%nat \/
  ((List.length b < 128)%nat /\ exists P : point E, decompress (firstn 32 b) = Some P).

(** When a call unwinds. *)
Definition c_panics (E : Ext) (m : memory) (f : c_function) : Prop :=
  match f with
  | SystemParametersCreate _ | IssuerCreate _ _ _ | IssuerGetIssuerParameters _ _
  | IssuerVerify _ _ _ _ | IssuerVerifyRosterMembership _ _ _ _ => False
  | IssuerNew p pl k kl =>
    exists pb params kb, @given E m p pl pb /\ @system_parameters_from_bytes E pb = Ok params /\
      @given E m k kl kb /\ debug_build E = true /\ (List.length kb < 32)%nat
  | IssuerIssue i il n nl s =>
    exists ib i' sb nb, @given E m i il ib /\ @issuer_from_bytes E ib = Ok i' /\
      given_seed m s sb /\ @given E m n nl nb /\ number_panics nb
  | UserObtainFinish n nl p pl ip ipl s sl =>
    exists pb params ipb ips sb, @given E m p pl pb /\ @system_parameters_from_bytes E pb = Ok params /\
      @given E m ip ipl ipb /\ @public_key_from_bytes E ipb = Ok ips /\ @given E m s sl sb /\
      (issuance_panics E sb \/
       exists iss nb, @issuance_from_bytes E sb = Ok iss /\ @given E m n nl nb /\ number_panics nb)
  | UserShow u ul e el s =>
    exists sb ub, given_seed m s sb /\ @given E m u ul ub /\
      ((List.length ub < 32)%nat \/
       exists u' eb, @signal_user_from_bytes E ub = Ok u' /\ @given E m e el eb /\ entry_panics E eb)
  | RosterEntryCommitmentCreate n nl p pl s =>
    exists sb nb pb params, given_seed m s sb /\ @given E m n nl nb /\
      @given E m p pl pb /\ @system_parameters_from_bytes E pb = Ok params /\ number_panics nb
  | RosterEntryCommitmentRemoveOpening e el =>
    exists eb, @given E m e el eb /\ entry_panics E eb
  | RosterEntryCommitmentOpen e el n nl p pl =>
    exists nb pb params eb, @given E m n nl nb /\ @given E m p pl pb /\
      @system_parameters_from_bytes E pb = Ok params /\ @given E m e el eb /\
      (entry_panics E eb \/ exists e', @roster_from_bytes E eb = Ok e' /\ number_panics nb)
  end.
