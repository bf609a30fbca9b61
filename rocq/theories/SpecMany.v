(** Credentials with several attributes: what a presentation of one says.

    [dot xs ms] is the sum of the products (of [Spec]); [weigh xs Ps] is the same
    with points. *)
From Verif Require Export Spec.

Section many.
  Context {E : Ext}.

  Fixpoint weigh (xs : list scalar) (Ps : list (point E)) : point E :=
    match xs, Ps with
    | x :: xs', P :: Ps' => padd (smul x P) (weigh xs' Ps')
    | _, _ => pzero
    end.
  (** A user who holds a credential of this issuer for the attributes [ms]. *)
  Definition holds_all (i : Issuer E) (u : User E) (c : Credential E) (ms : list scalar) : Prop :=
    user_of i u /\ us_credential u = Some c /\ cr_attributes c = ms /\
    mac_equation (kp_secret (iss_keypair i)) ms (cr_mac c).
  (** The statement of [valid_credential] with these values. *)
  Definition about (params : SystemParameters E) (X0 P V C : point E) : vc_Publics E :=
    {| vcp_B := sp_g params; vcp_A := sp_h params; vcp_X0 := X0; vcp_P := P; vcp_V := V; vcp_Cm0 := C |}.
  (** What the key says of the values of a presentation: [V]. *)
  Definition remainder (k : SecretKey) (p : CredentialPresentation E) : point E :=
    psub (padd (smul (sk_x0 k + dot (sk_xn k) (pr_attributes_revealed p)) (pr_rerandomized_nonce p))
               (weigh (sk_xn k) (pr_attributes_blinded p)))
         (pr_rerandomized_mac_commitment p).
  (** The presentation whose proof [show] would make for these values. *)
  Definition stated (params : SystemParameters E) (X0 P CQ V : point E) (Cs : list (point E)) (revealed : list scalar)
      (m0 z0 zQ : scalar) (os : rng) : CredentialPresentation E :=
    {| pr_rerandomized_mac_commitment := CQ; pr_rerandomized_nonce := P;
       pr_attributes_revealed := revealed; pr_attributes_blinded := Cs;
       pr_proof := fst (vc_create show_transcript (about params X0 P V (hd pzero Cs))
                          {| vcs_m0 := m0; vcs_z0 := z0; vcs_minus_zQ := s_neg zQ |} os) |}.
  (** Nobody's credential: the identity as nonce, and anything revealed. *)
  Definition forge_many (params : SystemParameters E) (X0 : point E) (Xs : list (point E))
      (z0 : scalar) (zs : list scalar) (revealed : list scalar) (m0 zQ : scalar) (os : rng) : CredentialPresentation E :=
    let h := sp_h params in
    stated params X0 pzero (padd (smul zQ h) (weigh zs Xs)) (psub (smul z0 X0) (smul zQ h))
      (map (fun z => smul z h) (z0 :: zs)) revealed m0 z0 zQ os.
  (** What a holder may do instead of [show]: the sum of the other nonces goes
      into the commitment to the tag. *)
  Definition show_many (params : SystemParameters E) (X0 : point E) (Xs : list (point E)) (t : Tag E)
      (m0 : scalar) (ms : list scalar) (z0 : scalar) (zs : list scalar) (rr zQ : scalar) (os : rng) : CredentialPresentation E :=
    let h := sp_h params in
    let P := smul rr (tag_nonce t) in
    stated params X0 P (padd (padd (smul rr (tag_mac t)) (smul zQ h)) (weigh zs Xs)) (psub (smul z0 X0) (smul zQ h))
      (map (fun zm => padd (smul (snd zm) P) (smul (fst zm) h)) (combine (z0 :: zs) (m0 :: ms))) [] m0 z0 zQ os.
End many.
