(** What is computed from three runs of somebody who presents as the owner of a
    roster entry. *)
From Verif Require Export SpecFork.

Section owner.
  Context {E : Ext}.
  (** [pr] is the first run, [pr'] one with another challenge for the presentation, [pr'']
      one with another challenge for the membership. *)
  Definition owner_witness (pr pr' : SignalCredentialPresentation E) : vc_Scalars :=
    vc_extract (pr_proof (sc_presentation pr)) (pr_proof (sc_presentation pr')).
  Definition entry_witness (pr pr'' : SignalCredentialPresentation E) : ce_Scalars :=
    ce_extract (sc_roster_membership_proof pr) (sc_roster_membership_proof pr'').

  (** A tag for the number [n]; [X1] is the issuer's public key. *)
  Definition owner_tag (params : SystemParameters E) (X1 : point E) (n : scalar)
      (pr pr' pr'' : SignalCredentialPresentation E) : Tag E :=
    let w := owner_witness pr pr' in
    let o := entry_witness pr pr'' in
    let t := (ces_z0 o - vcs_z0 w) * s_inv (vcs_m0 w - ces_m0 o) in
    {| tag_nonce := pr_rerandomized_nonce (sc_presentation pr);
       tag_mac := padd (padd (pr_rerandomized_mac_commitment (sc_presentation pr)) (smul (vcs_minus_zQ w) (sp_h params)))
                       (smul ((n - vcs_m0 w) * t) X1) |}.
  (** The logarithm of [h], if the entry has been opened to another number than [n]. *)
  Definition owner_log (n opening : scalar) (pr pr'' : SignalCredentialPresentation E) : scalar :=
    let o := entry_witness pr pr'' in
    (ces_z1 o - opening) * s_inv (n - ces_m0 o).
End owner.
