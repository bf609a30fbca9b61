(** Which values of a serialisable type survive being written and read. *)
From Verif Require Export SpecCodec ModelSerde.

Definition storable (E : Ext) (t : serde_type) : cd_value (codec_of E t) -> Prop :=
  match t with
  | TTag => fun _ => True
  | TPublicKey => fun _ => True
  | TSecretKey => wf_secret_key
  | TKeypair => @wf_keypair E
  | TCredential => @wf_credential E
  | TCredentialRequest => fun r => Forall canonical (rq_attributes_revealed r)
  | TCredentialIssuance => @wf_issuance E
  | TCredentialPresentation => @wf_presentation E
  | TVerifiedCredential => fun v => @wf_presentation E (vf_presentation v)
  | TUser => @wf_user E
  | TElgamalPublicKey => fun _ => True
  | TElgamalSecretKey => canonical
  | TElgamalKeypair => fun k => canonical (@eg_secret E k)
  | TIssuer => @wf_issuer E
  | TSystemParameters => fun _ => True
  | TCommitment => fun _ => True
  | TSignalIssuer => @wf_issuer E
  | TSignalCredentialPresentation => @wf_signal_presentation E
  | TVerifiedSignalCredential => fun v => @wf_signal_presentation E (vs_presentation v)
  | TSignalUser => fun u => @wf_user E (su_user u) /\ bits255 (su_phone_number u)
  | TPhoneNumber => bits255
  | TCommittedPhoneNumber => fun _ => True
  | TRosterEntryCommitment => fun e => bits255 (@re_opening E e)
  end.

(** A proof all of whose scalars are reduced. *)
Definition ab_reduced (p : ab_Proof) : Prop :=
  canonical (ab_challenge p) /\ canonical (abs_d (ab_responses p)) /\ canonical (abs_e0 (ab_responses p)) /\
  canonical (abs_m0 (ab_responses p)) /\ canonical (abs_nonce (ab_responses p)).
Definition ib_reduced (p : ib_Proof) : Prop :=
  canonical (ib_challenge p) /\ canonical (ibs_x0_tilde (ib_responses p)) /\ canonical (ibs_x0 (ib_responses p)) /\
  canonical (ibs_x1 (ib_responses p)) /\ canonical (ibs_s (ib_responses p)) /\ canonical (ibs_b (ib_responses p)) /\
  canonical (ibs_t0 (ib_responses p)).
Definition ir_reduced (p : ir_Proof) : Prop :=
  canonical (ir_challenge p) /\ ir_canonical (ir_responses p).
Definition vc_reduced (p : vc_Proof) : Prop :=
  canonical (vc_challenge p) /\ vc_canonical (vc_responses p).
Definition ce_reduced (p : ce_Proof) : Prop :=
  canonical (ce_challenge p) /\ ce_canonical (ce_responses p).
