(** What a valid MAC, a matching key pair and a valid credential are.

    These definitions are plain mathematics over the records of the model and
    the operations of the external crates.  Only the forgeries at the end call
    functions modelled from the code: an attacker runs the two provers. *)
From Verif Require Export SpecProofs ModelSignal.

(** [x1*m1 + x2*m2 + ...], the integers not reduced. *)
Fixpoint dot (xs ms : list Z) : Z :=
  match xs, ms with
  | x :: xs', m :: ms' => x * m + dot xs' ms'
  | _, _ => 0
  end.

Section spec.
  Context {E : Ext}.

  (** The tag [(P, Q)] authenticates the message [ms] under the key:
      there is one scalar per attribute key, and [Q = (x0 + sum xi*mi) P]. *)
  Definition mac_equation (k : SecretKey) (ms : list scalar) (t : Tag E) : Prop :=
    List.length ms = List.length (sk_xn k) /\
    tag_mac t = smul (sk_x0 k + dot (sk_xn k) ms) (tag_nonce t).

  (** The published points are the secret scalars times [h]. *)
  Definition key_matches (h : point E) (kp : Keypair E) : Prop :=
    Forall2 (fun X x => X = smul x h) (pk_Xn (kp_public kp)) (sk_xn (kp_secret kp)).

  (** An issuer for one attribute, such as [Issuer::create] makes. *)
  Definition single_attribute (i : Issuer E) : Prop :=
    List.length (sk_xn (kp_secret (iss_keypair i))) = 1%nat.
  Definition consistent (i : Issuer E) : Prop :=
    key_matches (sp_h (iss_system_parameters i)) (iss_keypair i).

  (** A user of the issuer: same parameters, and the issuer's public key. *)
  Definition user_of (i : Issuer E) (u : User E) : Prop :=
    us_system_parameters u = iss_system_parameters i /\
    us_issuer_parameters u = kp_public (iss_keypair i).

  (** A credential for the single attribute [m] issued by [i]. *)
  Definition valid_credential (i : Issuer E) (c : Credential E) (m : scalar) : Prop :=
    cr_attributes c = [m] /\ mac_equation (kp_secret (iss_keypair i)) [m] (cr_mac c).

  (** Computed from two tags with one nonce, on [m1] and [m2]: a tag for [m]. *)
  Definition interpolate (m1 m2 m : scalar) (t1 t2 : Tag E) : Tag E :=
    {| tag_nonce := tag_nonce t1;
       tag_mac := padd (tag_mac t1)
                    (smul ((m - m1) * s_inv (m2 - m1)) (psub (tag_mac t2) (tag_mac t1))) |}.
End spec.

(** The points an issuance proof is checked against. *)
Definition issuance_publics {E : Ext} (params : SystemParameters E) (X1 : point E)
    (i : CredentialIssuance E) : ir_Publics E :=
  {| irp_P := tag_nonce (cr_mac (is_credential i)); irp_Q := tag_mac (cr_mac (is_credential i));
     irp_Cx0 := is_secret_key_commitment i;
     irp_B := sp_g params; irp_A := sp_h params; irp_X1 := X1 |}.

(** The labels of the three transcripts in use. *)
Definition issuance_transcript : transcript := ("AEONFLUX ISSUANCE"%string, []).
Definition show_transcript : transcript := ("AEONFLUX SHOW"%string, []).
Definition roster_transcript : transcript := ("SIGNAL GROUP MEMBERSHIP"%string, []).

(** The points a presentation's proof is checked against by an issuer with the
    key scalars [x0], [x1] and the published point [X1]. *)
Definition presentation_publics {E : Ext} (params : SystemParameters E) (X1 : point E)
    (x0 x1 : scalar) (P CQ Cm0 : point E) : vc_Publics E :=
  {| vcp_B := sp_g params; vcp_A := sp_h params; vcp_X0 := X1; vcp_P := P;
     vcp_V := psub (padd (smul x0 P) (smul x1 Cm0)) CQ; vcp_Cm0 := Cm0 |}.

(** The points a roster membership proof is checked against. *)
Definition roster_publics {E : Ext} (params : SystemParameters E) (P Cm0 Cm1 : point E) : ce_Publics E :=
  {| cep_B := sp_g params; cep_A := sp_h params; cep_P := P; cep_Cm0 := Cm0; cep_Cm1 := Cm1 |}.

(** ** Forgeries.  What somebody without any key computes; [X1] is the issuer's
    public key. *)
Section forgery.
  Context {E : Ext}.

  (** A presentation with the identity as its nonce. *)
  Definition forge_presentation (params : SystemParameters E) (X1 : point E)
      (m z0 zQ : scalar) (os : rng) : CredentialPresentation E :=
    let A := sp_h params in
    let publics := {| vcp_B := sp_g params; vcp_A := A; vcp_X0 := X1; vcp_P := pzero;
                      vcp_V := psub (smul z0 X1) (smul zQ A); vcp_Cm0 := smul z0 A |} in
    {| pr_rerandomized_mac_commitment := smul zQ A;
       pr_rerandomized_nonce := pzero;
       pr_attributes_revealed := [];
       pr_attributes_blinded := [smul z0 A];
       pr_proof := fst (vc_create show_transcript publics
                          {| vcs_m0 := m; vcs_z0 := z0; vcs_minus_zQ := s_neg zQ |} os) |}.

  (** The same with a roster membership proof for an entry whose number [m] and
      opening are known. *)
  Definition forge_signal_presentation (params : SystemParameters E) (X1 : point E)
      (m z0 zQ : scalar) (entry : RosterEntryCommitment E) (os os' : rng)
    : SignalCredentialPresentation E :=
    {| sc_roster_entry_commitment := re_commitment entry;
       sc_presentation := forge_presentation params X1 m z0 zQ os;
       sc_roster_membership_proof :=
         fst (ce_create roster_transcript
                {| cep_B := sp_g params; cep_A := sp_h params; cep_P := pzero;
                   cep_Cm0 := smul z0 (sp_h params); cep_Cm1 := re_commitment entry |}
                {| ces_m0 := m; ces_z0 := z0; ces_z1 := re_opening entry |} os') |}.
End forgery.
