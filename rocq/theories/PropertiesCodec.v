(** Properties of the encodings (C25, C32 - C37, C45, C46). *)
From Verif Require Import SpecCodec CompositeFacts ShowFacts PropertiesIssue PropertiesShow PropertiesPhone PropertiesSignal Toy.

(** The predicates used in the proofs are those of SpecCodec. *)
Section wf_facts.
  Context {E : Ext} (L : ExtLaws E).
  Lemma wf_credential_iff (c : Credential E) : wf_credential c <-> credential_wf c.
  Proof.
    unfold wf_credential, credential_wf. split.
    - intros (m & Hm & ->). split; [reflexivity|]. constructor; [exact Hm|constructor].
    - destruct (cr_attributes c) as [|m [|]]; intros [H1 H2]; try discriminate. inversion H2; subst. eauto.
  Qed.
  Lemma wf_issuance_iff (i : CredentialIssuance E) : wf_issuance i <-> issuance_wf i.
  Proof.
    unfold wf_issuance, issuance_wf, ir_wf, ir_canonical, ir_proof_scalars. rewrite wf_credential_iff.
    split; intros [H1 H2]; (split; [exact H1|]).
    - destruct H2 as (? & ? & ? & ? & ?). repeat (constructor; try assumption).
    - repeat match goal with H : Forall _ (_ :: _) |- _ => inversion_clear H end. auto.
  Qed.
  Lemma wf_presentation_iff (p : CredentialPresentation E) : wf_presentation p <-> presentation_wf p.
  Proof.
    unfold wf_presentation, presentation_wf, vc_wf, vc_canonical, vc_proof_scalars.
    split; intros (H1 & H2 & H3); (split; [exact H1|]).
    - destruct H2 as [C ->]. split; [reflexivity|]. destruct H3 as (? & ? & ? & ?). repeat (constructor; try assumption).
    - split; [destruct (pr_attributes_blinded p) as [|C [|]]; try discriminate; eauto|].
      repeat match goal with H : Forall _ (_ :: _) |- _ => inversion_clear H end. auto.
  Qed.
  Lemma wf_signal_presentation_iff (p : SignalCredentialPresentation E) : wf_signal_presentation p <-> signal_presentation_wf p.
  Proof.
    unfold wf_signal_presentation, signal_presentation_wf, ce_wf, ce_canonical, ce_proof_scalars. rewrite wf_presentation_iff.
    split; intros [H1 H2]; (split; [exact H1|]).
    - destruct H2 as (? & ? & ? & ?). repeat (constructor; try assumption).
    - repeat match goal with H : Forall _ (_ :: _) |- _ => inversion_clear H end. auto.
  Qed.
  Lemma compress_zeros (P : point E) : compress P = zeros 32 <-> P = pzero.
  Proof. rewrite <- (compress_zero E L). split; [apply (compress_inj L)|intros ->; reflexivity]. Qed.
  Lemma scalar_zeros s : canonical s -> (scalar_to_bytes s = zeros 32 <-> s = 0).
  Proof.
    intros Hs. split; [|intros ->; reflexivity]. intros H. apply (f_equal le_decode) in H.
    unfold scalar_to_bytes in H. rewrite le_decode_encode_small in H by (apply canonical_256, Hs).
    rewrite H. apply le_decode_zeros.
  Qed.
  Lemma zeros_app n m : zeros (n + m) = (zeros n ++ zeros m)%list.
  Proof. apply repeat_app. Qed.
  Lemma wf_user_iff (u : User E) : wf_user u <-> user_wf u.
  Proof.
    unfold wf_user, user_wf.
    assert (H1 : (exists X, pk_Xn (us_issuer_parameters u) = [X]) <-> List.length (pk_Xn (us_issuer_parameters u)) = 1%nat).
    { split; [intros [X ->]; reflexivity|]. destruct (pk_Xn _) as [|X [|]]; try discriminate. eauto. }
    assert (H2 : (forall k, us_key u = Some k -> canonical (eg_secret k) /\ ~ (eg_secret k = 0 /\ eg_public k = pzero)) <->
      match us_key u with None => True | Some k => canonical (eg_secret k) /\ elgamal_keypair_to_bytes k <> zeros 64 end).
    { assert (A : forall k : ElgamalKeypair E, canonical (eg_secret k) -> (elgamal_keypair_to_bytes k = zeros 64 <-> eg_secret k = 0 /\ eg_public k = pzero)).
      { intros k Hk. unfold elgamal_keypair_to_bytes, elgamal_secret_to_bytes, elgamal_public_to_bytes.
        rewrite <- (scalar_zeros _ Hk), <- compress_zeros. change (zeros 64) with (zeros (32 + 32)). rewrite zeros_app. split.
        - intros H. apply app_inj_l in H; [exact H|]. rewrite scalar_to_bytes_length. reflexivity.
        - intros [-> ->]. reflexivity. }
      destruct (us_key u) as [k|].
      - split.
        + intros H. destruct (H k eq_refl) as [Hc Hn]. split; [exact Hc|]. rewrite (A k Hc). exact Hn.
        + intros [Hc Hn] k' [= <-]. split; [exact Hc|]. rewrite <- (A k Hc). exact Hn.
      - split; [auto|]. intros _ k; discriminate. }
    assert (H3 : (forall c, us_credential u = Some c -> wf_credential c /\
       ~ (tag_nonce (cr_mac c) = pzero /\ tag_mac (cr_mac c) = pzero /\ cr_attributes c = [0])) <->
      match us_credential u with None => True | Some c => credential_wf c /\ credential_to_bytes c <> zeros 96 end).
    { assert (A : forall c : Credential E, wf_credential c -> (credential_to_bytes c = zeros 96 <->
         tag_nonce (cr_mac c) = pzero /\ tag_mac (cr_mac c) = pzero /\ cr_attributes c = [0])).
      { intros c (m & Hm & Ha). unfold credential_to_bytes, tag_to_bytes. rewrite Ha. cbn [flat_map]. rewrite app_nil_r, <- app_assoc.
        rewrite <- !compress_zeros. replace ([m] = [0]) with (m :: [] = 0 :: []) by reflexivity.
        change (zeros 96) with (zeros (32 + (32 + 32))). rewrite !zeros_app. split.
        - intros H. apply app_inj_l in H as [K1 H]; [|rewrite (compress_len L); reflexivity].
          apply app_inj_l in H as [K2 H]; [|rewrite (compress_len L); reflexivity].
          apply (scalar_zeros m Hm) in H. subst m. auto.
        - intros (-> & -> & [= ->]). reflexivity. }
      destruct (us_credential u) as [c|].
      - rewrite <- wf_credential_iff. split.
        + intros H. destruct (H c eq_refl) as [Hc Hn]. split; [exact Hc|]. rewrite (A c Hc). exact Hn.
        + intros [Hc Hn] c' [= <-]. split; [exact Hc|]. rewrite <- (A c Hc). exact Hn.
      - split; [auto|]. intros _ k; discriminate. }
    rewrite H1, H2, H3. reflexivity.
  Qed.
End wf_facts.

(** ** C32: lengths and layouts *)
Lemma field_here {x y : bytes} n : List.length x = n -> field 0 n (x ++ y)%list = x.
Proof. intros H. apply firstn_exact, H. Qed.
Lemma field_all {x : bytes} n : List.length x = n -> field 0 n x = x.
Proof. intros <-. apply firstn_all. Qed.
Lemma field_skip {x y : bytes} k off n : List.length x = k -> (k <= off)%nat -> field off n (x ++ y)%list = field (off - k) n y.
Proof. intros <- H. unfold field. rewrite skipn_app, skipn_all2 by lia. reflexivity. Qed.
Lemma field_items {B} (g : B -> bytes) (l : list B) j x rest :
  (forall y, List.length (g y) = 32%nat) -> nth_error l j = Some x ->
  field (32 * j) 32 (flat_map g l ++ rest)%list = g x.
Proof.
  intros Hg. revert j. induction l as [|y l IH]; intros [|j] H; try discriminate.
  - cbn in H. injection H as ->. cbn [flat_map]. rewrite <- app_assoc. change (32 * 0)%nat with 0%nat. apply field_here, Hg.
  - cbn [flat_map]. rewrite <- app_assoc. rewrite (field_skip 32) by (try apply Hg; lia).
    replace (32 * S j - 32)%nat with (32 * j)%nat by lia. apply IH, H.
Qed.
Lemma prefixed_scalars_ok l off x rest : List.length x = off ->
  prefixed_scalars off l (x ++ bincode_serialize l ++ rest)%list.
Proof.
  revert off x. induction l as [|s l IH]; intros off x Hx; [exact I|]. cbn [prefixed_scalars].
  change (bincode_serialize (s :: l)) with (bincode_scalar s ++ bincode_serialize l)%list.
  unfold bincode_scalar, scalar_serialize_bytes. rewrite <- !app_assoc.
  split; [rewrite (field_skip off) by (assumption || lia); rewrite Nat.sub_diag; apply field_here; reflexivity|].
  split.
  - rewrite (field_skip off) by (assumption || lia). rewrite (field_skip 8) by (apply le_encode_length || lia).
    replace (off + 8 - off - 8)%nat with 0%nat by lia. apply field_here, le_encode_length.
  - replace (x ++ le_encode 8 32 ++ scalar_to_bytes (s mod ell) ++ bincode_serialize l ++ rest)%list
      with ((x ++ le_encode 8 32 ++ scalar_to_bytes (s mod ell)) ++ bincode_serialize l ++ rest)%list
      by (rewrite <- !app_assoc; reflexivity).
    apply IH. rewrite !app_length, le_encode_length, scalar_to_bytes_length. lia.
Qed.
Lemma prefixed_scalars_end l off x : List.length x = off -> prefixed_scalars off l (x ++ bincode_serialize l)%list.
Proof. intros H. rewrite <- (app_nil_r (bincode_serialize l)). apply prefixed_scalars_ok, H. Qed.
Ltac fld L :=
  repeat first
  [ apply field_here; solve [apply (compress_len L) | apply scalar_to_bytes_length | apply le_encode_length]
  | apply field_all; solve [apply (compress_len L) | apply scalar_to_bytes_length | apply le_encode_length]
  | rewrite (field_skip 32) by solve [apply (compress_len L) | apply scalar_to_bytes_length | apply le_encode_length | cbn; lia]; cbn [Nat.sub] ].

Theorem C32_system_parameters : forall E, ExtLaws E -> forall p : SystemParameters E,
  let b := system_parameters_to_bytes p in
  List.length b = 64%nat /\ field 0 32 b = compress (sp_g p) /\ field 32 32 b = compress (sp_h p).
Proof.
  intros E L p b. split; [apply (system_parameters_length L)|]. unfold b, system_parameters_to_bytes. split; fld L.
Qed.
Print Assumptions C32_system_parameters.
Theorem C32_tag : forall E, ExtLaws E -> forall t : Tag E,
  let b := tag_to_bytes t in
  List.length b = 64%nat /\ field 0 32 b = compress (tag_nonce t) /\ field 32 32 b = compress (tag_mac t).
Proof. intros E L t b. split; [apply (tag_length L)|]. unfold b, tag_to_bytes. split; fld L. Qed.
Print Assumptions C32_tag.
Theorem C32_public_key : forall E, ExtLaws E -> forall k : PublicKey E,
  let b := public_key_to_bytes k in
  List.length b = (32 * List.length (pk_Xn k))%nat /\
  forall j X, nth_error (pk_Xn k) j = Some X -> field (32 * j) 32 b = compress X.
Proof.
  intros E L k b. split; [apply (public_key_length L)|]. intros j X H. unfold b, public_key_to_bytes.
  rewrite <- (app_nil_r (flat_map _ _)). apply field_items; [apply (compress_len L)|exact H].
Qed.
Print Assumptions C32_public_key.
Theorem C32_secret_key : forall k,
  let b := secret_key_to_bytes k in
  List.length b = (32 * (1 + List.length (sk_xn k)))%nat /\ field 0 32 b = le32 (sk_x0 k) /\
  forall j x, nth_error (sk_xn k) j = Some x -> field (32 * (1 + j)) 32 b = le32 x.
Proof.
  intros k b. split; [apply secret_key_length|]. unfold b, secret_key_to_bytes. split.
  - apply field_here, scalar_to_bytes_length.
  - intros j x H. rewrite (field_skip 32) by (apply scalar_to_bytes_length || lia).
    replace (32 * (1 + j) - 32)%nat with (32 * j)%nat by lia. rewrite <- (app_nil_r (flat_map _ _)).
    apply (field_items scalar_to_bytes); [apply scalar_to_bytes_length|exact H].
Qed.
Print Assumptions C32_secret_key.
(** The public key comes first, one point for every attribute. *)
Theorem C32_keypair : forall E, ExtLaws E -> forall k : Keypair E,
  let b := keypair_to_bytes k in
  let n := List.length (pk_Xn (kp_public k)) in
  List.length b = (32 * n + 32 * (1 + List.length (sk_xn (kp_secret k))))%nat /\
  field 0 (32 * n) b = public_key_to_bytes (kp_public k) /\
  field (32 * n) (32 * (1 + List.length (sk_xn (kp_secret k)))) b = secret_key_to_bytes (kp_secret k).
Proof.
  intros E L k b n. split; [apply (keypair_length L)|]. unfold b, keypair_to_bytes. split.
  - apply field_here, (public_key_length L).
  - rewrite (field_skip (32 * n)) by (apply (public_key_length L) || lia). rewrite Nat.sub_diag. apply field_all, secret_key_length.
Qed.
Print Assumptions C32_keypair.
Theorem C32_elgamal_keypair : forall E, ExtLaws E -> forall k : ElgamalKeypair E,
  let b := elgamal_keypair_to_bytes k in
  List.length b = 64%nat /\ field 0 32 b = le32 (eg_secret k) /\ field 32 32 b = compress (eg_public k).
Proof.
  intros E L k b. split; [apply (elgamal_keypair_length L)|].
  unfold b, elgamal_keypair_to_bytes, elgamal_secret_to_bytes, elgamal_public_to_bytes. split; fld L.
Qed.
Print Assumptions C32_elgamal_keypair.
Theorem C32_credential : forall E, ExtLaws E -> forall (c : Credential E) m, cr_attributes c = [m] ->
  let b := credential_to_bytes c in
  List.length b = 96%nat /\ field 0 32 b = compress (tag_nonce (cr_mac c)) /\
  field 32 32 b = compress (tag_mac (cr_mac c)) /\ field 64 32 b = le32 m.
Proof.
  intros E L c m Hm b. split; [unfold b; rewrite (credential_length L), Hm; reflexivity|].
  unfold b, credential_to_bytes, tag_to_bytes. rewrite Hm. cbn [flat_map]. rewrite <- !app_assoc.
  split; [|split]; fld L.
Qed.
Print Assumptions C32_credential.
Theorem C32_request : forall r,
  let b := request_to_bytes r in
  List.length b = (32 * List.length (rq_attributes_revealed r))%nat /\
  forall j m, nth_error (rq_attributes_revealed r) j = Some m -> field (32 * j) 32 b = le32 m.
Proof.
  intros r b. unfold b, request_to_bytes. split; [apply flat_map_length32, scalar_to_bytes_length|].
  intros j m H. rewrite <- (app_nil_r (flat_map _ _)). apply (field_items scalar_to_bytes); [apply scalar_to_bytes_length|exact H].
Qed.
Print Assumptions C32_request.
Theorem C32_issuance : forall E, ExtLaws E -> forall (i : CredentialIssuance E) m,
  cr_attributes (is_credential i) = [m] ->
  let b := issuance_to_bytes i in
  let r := ir_responses (is_proof i) in
  List.length b = 328%nat /\ field 0 32 b = compress (is_secret_key_commitment i) /\
  field 32 32 b = compress (tag_nonce (cr_mac (is_credential i))) /\
  field 64 32 b = compress (tag_mac (cr_mac (is_credential i))) /\
  field 96 32 b = le32 m /\
  prefixed_scalars 128 [ir_challenge (is_proof i); irs_x0 r; irs_x1 r; irs_x0_tilde r; irs_m1x1 r] b.
Proof.
  intros E L i m Hm b r. split; [unfold b; rewrite (issuance_length L), Hm; reflexivity|].
  unfold b, issuance_to_bytes, credential_to_bytes, tag_to_bytes, commitment_to_bytes. rewrite Hm. cbn [flat_map].
  rewrite app_nil_r, <- !app_assoc.
  split; [fld L|]. split; [fld L|]. split; [fld L|]. split; [fld L|].
  unfold ir_serialize. rewrite ?app_assoc. apply prefixed_scalars_end. rewrite !app_length, !(compress_len L), scalar_to_bytes_length. reflexivity.
Qed.
Print Assumptions C32_issuance.
Theorem C32_presentation : forall E, ExtLaws E -> forall (p : CredentialPresentation E) C,
  pr_attributes_revealed p = [] -> pr_attributes_blinded p = [C] ->
  let b := presentation_to_bytes p in
  let r := vc_responses (pr_proof p) in
  List.length b = 256%nat /\ field 0 32 b = compress (pr_rerandomized_mac_commitment p) /\
  field 32 32 b = compress (pr_rerandomized_nonce p) /\ field 64 32 b = compress C /\
  prefixed_scalars 96 [vc_challenge (pr_proof p); vcs_m0 r; vcs_z0 r; vcs_minus_zQ r] b.
Proof.
  intros E L p C Hr Hb b r. split; [unfold b; rewrite (presentation_length L), Hr, Hb; reflexivity|].
  unfold b, presentation_to_bytes, commitment_to_bytes. rewrite Hr, Hb. cbn [flat_map app]. rewrite app_nil_r, <- ?app_assoc.
  split; [fld L|]. split; [fld L|]. split; [fld L|].
  unfold vc_serialize. rewrite ?app_assoc. apply prefixed_scalars_end. rewrite !app_length, !(compress_len L). reflexivity.
Qed.
Print Assumptions C32_presentation.
Theorem C32_signal_presentation : forall E, ExtLaws E -> forall (p : SignalCredentialPresentation E) C,
  pr_attributes_revealed (sc_presentation p) = [] -> pr_attributes_blinded (sc_presentation p) = [C] ->
  let b := signal_presentation_to_bytes p in
  let r := ce_responses (sc_roster_membership_proof p) in
  List.length b = 448%nat /\ field 0 32 b = compress (sc_roster_entry_commitment p) /\
  field 32 256 b = presentation_to_bytes (sc_presentation p) /\
  prefixed_scalars 288 [ce_challenge (sc_roster_membership_proof p); ces_m0 r; ces_z0 r; ces_z1 r] b.
Proof.
  intros E L p C Hr Hb b r.
  assert (Hl : List.length (presentation_to_bytes (sc_presentation p)) = 256%nat) by (rewrite (presentation_length L), Hr, Hb; reflexivity).
  unfold b, signal_presentation_to_bytes, committed_to_bytes, commitment_to_bytes.
  split; [rewrite !app_length, (compress_len L), Hl, ce_serialize_length; reflexivity|].
  split; [fld L|]. split; [rewrite (field_skip 32) by (apply (compress_len L) || lia); apply field_here, Hl|].
  unfold ce_serialize. rewrite ?app_assoc. apply prefixed_scalars_end. rewrite !app_length, !(compress_len L), Hl. reflexivity.
Qed.
Print Assumptions C32_signal_presentation.
Theorem C32_issuer : forall E, ExtLaws E -> forall (i : Issuer E) X x,
  pk_Xn (kp_public (iss_keypair i)) = [X] -> sk_xn (kp_secret (iss_keypair i)) = [x] ->
  let b := issuer_to_bytes i in
  List.length b = 160%nat /\
  field 0 32 b = compress (sp_g (iss_system_parameters i)) /\ field 32 32 b = compress (sp_h (iss_system_parameters i)) /\
  field 64 32 b = compress X /\ field 96 32 b = le32 (sk_x0 (kp_secret (iss_keypair i))) /\ field 128 32 b = le32 x.
Proof.
  intros E L i X x HX Hx b. split; [unfold b; rewrite (issuer_length L), HX, Hx; reflexivity|].
  unfold b, issuer_to_bytes, system_parameters_to_bytes, keypair_to_bytes, public_key_to_bytes, secret_key_to_bytes.
  rewrite HX, Hx. cbn [flat_map]. rewrite !app_nil_r, <- !app_assoc.
  split; [fld L|]. split; [fld L|]. split; [fld L|]. split; fld L.
Qed.
Print Assumptions C32_issuer.
Theorem C32_signal_user : forall E, ExtLaws E -> forall (u : SignalUser E) X,
  pk_Xn (us_issuer_parameters (su_user u)) = [X] ->
  (forall c, us_credential (su_user u) = Some c -> List.length (cr_attributes c) = 1%nat) ->
  let b := signal_user_to_bytes u in
  List.length b = 288%nat /\ field 0 32 b = le32 (su_phone_number u) /\
  field 32 32 b = compress (sp_g (us_system_parameters (su_user u))) /\
  field 64 32 b = compress (sp_h (us_system_parameters (su_user u))) /\
  field 96 32 b = compress X /\
  field 128 64 b = match us_key (su_user u) with None => zeros 64 | Some k => elgamal_keypair_to_bytes k end /\
  field 192 96 b = match us_credential (su_user u) with None => zeros 96 | Some c => credential_to_bytes c end.
Proof.
  intros E L u X HX Hc b.
  assert (Hk : List.length match us_key (su_user u) with None => zeros 64 | Some k => elgamal_keypair_to_bytes k end = 64%nat).
  { destruct (us_key (su_user u)); [apply (elgamal_keypair_length L)|apply zeros_length]. }
  assert (Hr : List.length match us_credential (su_user u) with None => zeros 96 | Some c => credential_to_bytes c end = 96%nat).
  { destruct (us_credential (su_user u)) as [c|]; [rewrite (credential_length L), (Hc c eq_refl); reflexivity|apply zeros_length]. }
  unfold b, signal_user_to_bytes, user_to_bytes, phone_number_to_bytes, system_parameters_to_bytes, public_key_to_bytes. rewrite HX.
  cbn [flat_map]. rewrite app_nil_r, <- !app_assoc.
  split; [rewrite !app_length, Hk, Hr, !(compress_len L), scalar_to_bytes_length; reflexivity|].
  split; [fld L|]. split; [fld L|]. split; [fld L|]. split; [fld L|].
  split; [do 4 (rewrite (field_skip 32) by (solve [apply (compress_len L)] || apply scalar_to_bytes_length || cbn; lia); cbn [Nat.sub]); apply field_here, Hk|].
  do 4 (rewrite (field_skip 32) by (solve [apply (compress_len L)] || apply scalar_to_bytes_length || cbn; lia); cbn [Nat.sub]).
  rewrite (field_skip 64) by (exact Hk || lia). cbn [Nat.sub]. apply field_all, Hr.
Qed.
Print Assumptions C32_signal_user.
Theorem C32_roster : forall E, ExtLaws E -> forall e : RosterEntryCommitment E,
  let b := roster_to_bytes e in
  List.length b = 64%nat /\ field 0 32 b = compress (re_commitment e) /\ field 32 32 b = le32 (re_opening e).
Proof.
  intros E L e b. split; [apply (roster_length L)|].
  unfold b, roster_to_bytes, committed_to_bytes, commitment_to_bytes. split; fld L.
Qed.
Print Assumptions C32_roster.

(** Examples: a credential with the attribute 258, and bytes it must have. *)
Definition sample_coded : Credential toy :=
  {| cr_mac := {| tag_nonce := pt 3; tag_mac := pt 515 |}; cr_attributes := [258] |}.
Example C32_met : bytes_eqb (field 64 3 (credential_to_bytes sample_coded)) [x02; x01; x00]
               && bytes_eqb (field 32 3 (credential_to_bytes sample_coded)) [x03; x02; x00] = true.
Proof. vm_compute; reflexivity. Qed.

(** ** C33: decoding inverts encoding, on exactly the well-formed values *)
Lemma app_self {A} (x r : list A) : x = (x ++ r)%list -> r = [].
Proof. intros H. apply (app_inv_head x). rewrite app_nil_r. symmetry; exact H. Qed.
Lemma from_bits_roundtrip s : le_decode (scalar_to_bytes s) mod 2 ^ 255 = s <-> bits255 s.
Proof.
  unfold scalar_to_bytes, bits255. rewrite le_decode_encode. change (256 ^ Z.of_nat 32) with (2 * 2 ^ 255).
  split.
  - intros H. rewrite <- H. apply Z.mod_pos_bound. lia.
  - intros H. rewrite (Z.mod_small s) by lia. apply Z.mod_small. exact H.
Qed.
Theorem C33_system_parameters : forall E, ExtLaws E -> forall p : SystemParameters E,
  system_parameters_from_bytes (system_parameters_to_bytes p) = Ok p.
Proof. intros E L p. apply (system_parameters_iff L). reflexivity. Qed.
Print Assumptions C33_system_parameters.
Theorem C33_tag : forall E, ExtLaws E -> forall t : Tag E, tag_from_bytes (tag_to_bytes t) = Ok t.
Proof. intros E L t. apply (tag_iff L). reflexivity. Qed.
Print Assumptions C33_tag.
Theorem C33_public_key : forall E, ExtLaws E -> forall k : PublicKey E, public_key_from_bytes (public_key_to_bytes k) = Ok k.
Proof. intros E L k. apply (public_key_iff L). reflexivity. Qed.
Print Assumptions C33_public_key.
Theorem C33_secret_key : forall k, secret_key_from_bytes (secret_key_to_bytes k) = Ok k <-> wf_secret_key k.
Proof. intros k. rewrite secret_key_iff. unfold wf_secret_key, secret_key_wf. tauto. Qed.
Print Assumptions C33_secret_key.
Theorem C33_keypair : forall E, ExtLaws E -> forall k : Keypair E,
  keypair_from_bytes (keypair_to_bytes k) = Ok k <-> wf_keypair k.
Proof. intros E L k. rewrite (keypair_iff L). unfold wf_keypair, keypair_wf, wf_secret_key, secret_key_wf. tauto. Qed.
Print Assumptions C33_keypair.
Theorem C33_commitment : forall E, ExtLaws E -> forall c : point E, commitment_from_bytes (commitment_to_bytes c) = Ok c.
Proof. intros E L c. apply (commitment_iff L). exists []. symmetry; apply app_nil_r. Qed.
Print Assumptions C33_commitment.
Theorem C33_elgamal : forall E, ExtLaws E -> forall (k : ElgamalKeypair E),
  elgamal_public_from_bytes (elgamal_public_to_bytes (eg_public k)) = Ok (eg_public k) /\
  (elgamal_secret_from_bytes (elgamal_secret_to_bytes (eg_secret k)) = Ok (eg_secret k) <-> canonical (eg_secret k)) /\
  (elgamal_keypair_from_bytes (elgamal_keypair_to_bytes k) = Ok k <-> canonical (eg_secret k)).
Proof.
  intros E L k. split; [apply (elgamal_public_iff L); reflexivity|]. split.
  - rewrite elgamal_secret_iff. unfold elgamal_secret_to_bytes. tauto.
  - rewrite (elgamal_keypair_iff L). tauto.
Qed.
Print Assumptions C33_elgamal.
Theorem C33_credential : forall E, ExtLaws E -> forall c : Credential E,
  credential_from_bytes (credential_to_bytes c) = Ok c <-> wf_credential c.
Proof. intros E L c. rewrite (credential_iff L), wf_credential_iff. tauto. Qed.
Print Assumptions C33_credential.
Theorem C33_request : forall r, request_from_bytes (request_to_bytes r) = Ok r <-> Forall canonical (rq_attributes_revealed r).
Proof. intros r. rewrite request_iff. tauto. Qed.
Print Assumptions C33_request.
Theorem C33_issuance : forall E, ExtLaws E -> forall i : CredentialIssuance E,
  issuance_from_bytes (issuance_to_bytes i) = Ok i <-> wf_issuance i.
Proof.
  intros E L i. rewrite (issuance_iff L), wf_issuance_iff. split; [tauto|].
  intros H. split; [exact H|]. exists []. symmetry; apply app_nil_r.
Qed.
Print Assumptions C33_issuance.
Theorem C33_presentation : forall E, ExtLaws E -> forall p : CredentialPresentation E,
  presentation_from_bytes (presentation_to_bytes p) = Ok p <-> wf_presentation p.
Proof.
  intros E L p. rewrite (presentation_iff L), wf_presentation_iff. split; [tauto|].
  intros H. split; [exact H|]. exists []. split; [reflexivity|]. symmetry; apply app_nil_r.
Qed.
Print Assumptions C33_presentation.
Theorem C33_signal_presentation : forall E, ExtLaws E -> forall p : SignalCredentialPresentation E,
  signal_presentation_from_bytes (signal_presentation_to_bytes p) = Ok p <-> wf_signal_presentation p.
Proof.
  intros E L p. rewrite (signal_presentation_iff L), wf_signal_presentation_iff. split; [tauto|].
  intros H. split; [exact H|]. exists []. symmetry; apply app_nil_r.
Qed.
Print Assumptions C33_signal_presentation.
Theorem C33_verified : forall E, ExtLaws E -> forall (v : VerifiedCredential E) (s : VerifiedSignalCredential E),
  (verified_from_bytes (verified_to_bytes v) = Ok v <-> wf_presentation (vf_presentation v)) /\
  (verified_signal_from_bytes (verified_signal_to_bytes s) = Ok s <-> wf_signal_presentation (vs_presentation s)).
Proof.
  intros E L [p] [q]. unfold verified_from_bytes, verified_to_bytes, verified_signal_from_bytes, verified_signal_to_bytes.
  cbn [vf_presentation vs_presentation]. rewrite <- (C33_presentation E L), <- (C33_signal_presentation E L). split.
  - rewrite bind_ok. split; [intros (x & H & Hx); congruence|intros H; exists p; auto].
  - rewrite bind_ok. split; [intros (x & H & Hx); congruence|intros H; exists q; auto].
Qed.
Print Assumptions C33_verified.
Theorem C33_issuer : forall E, ExtLaws E -> forall i : Issuer E,
  issuer_from_bytes (issuer_to_bytes i) = Ok i <-> wf_issuer i.
Proof.
  intros E L i. rewrite (issuer_iff L). unfold wf_issuer, issuer_wf, wf_keypair, keypair_wf, wf_secret_key, secret_key_wf. tauto.
Qed.
Print Assumptions C33_issuer.
Theorem C33_user : forall E, ExtLaws E -> forall u : User E,
  user_from_bytes (user_to_bytes u) = Ok u <-> wf_user u.
Proof. intros E L u. rewrite (user_iff L), (wf_user_iff L). tauto. Qed.
Print Assumptions C33_user.
Theorem C33_phone_number : forall n, phone_number_from_bytes (phone_number_to_bytes n) = Ok n <-> bits255 n.
Proof.
  intros n. rewrite phone_number_iff, <- from_bits_roundtrip. unfold phone_number_to_bytes. split.
  - intros [_ H]. symmetry; exact H.
  - intros H. split; [apply scalar_to_bytes_length|symmetry; exact H].
Qed.
Print Assumptions C33_phone_number.
Theorem C33_roster : forall E, ExtLaws E -> forall e : RosterEntryCommitment E,
  roster_from_bytes (roster_to_bytes e) = Ok e <-> bits255 (re_opening e).
Proof.
  intros E L e. rewrite (roster_iff L), <- from_bits_roundtrip. unfold roster_to_bytes, committed_to_bytes, commitment_to_bytes. split.
  - intros (o & Ho & Hb & He). apply app_inj_l in Hb as [_ ->]; [symmetry; exact He|reflexivity].
  - intros H. exists (scalar_to_bytes (re_opening e)). split; [apply scalar_to_bytes_length|]. split; [reflexivity|symmetry; exact H].
Qed.
Print Assumptions C33_roster.
Theorem C33_signal_user : forall E, ExtLaws E -> forall u : SignalUser E,
  signal_user_from_bytes (signal_user_to_bytes u) = Ok u <-> wf_user (su_user u) /\ bits255 (su_phone_number u).
Proof.
  intros E L u. rewrite (signal_user_iff L), <- from_bits_roundtrip, (wf_user_iff L). unfold signal_user_to_bytes, phone_number_to_bytes. split.
  - intros (n & Hn & Hp & Hw & Hb). split; [exact Hw|].
    apply app_inj_l in Hb as [<- _]; [symmetry; exact Hp|]. rewrite Hn, scalar_to_bytes_length. reflexivity.
  - intros [Hw Hp]. exists (scalar_to_bytes (su_phone_number u)). split; [apply scalar_to_bytes_length|].
    split; [symmetry; exact Hp|]. split; [exact Hw|reflexivity].
Qed.
Print Assumptions C33_signal_user.
(** A user with a key and a credential is well formed; one whose credential is
    the all-zero one loses it. *)
Definition sample_user_coded (c : Credential toy) : User toy :=
  {| us_system_parameters := {| sp_g := pt 1; sp_h := pt 2 |}; us_issuer_parameters := {| pk_Xn := [pt 6] |};
     us_key := Some {| eg_secret := 4; eg_public := pt 4 |}; us_credential := Some c |}.
Example C33_met : wf_user (sample_user_coded sample_coded) /\
  ~ wf_user (sample_user_coded {| cr_mac := {| tag_nonce := pzero; tag_mac := pzero |}; cr_attributes := [0] |}).
Proof.
  split.
  - split; [eexists; reflexivity|]. split.
    + intros k [= <-]. split; [split; [discriminate|reflexivity]|]. intros [H _]; discriminate H.
    + intros c [= <-]. split; [exists 258; split; [split; [discriminate|reflexivity]|reflexivity]|].
      intros (_ & _ & H). discriminate H.
  - intros (_ & _ & H). destruct (H _ eq_refl) as [_ K]. apply K. repeat split.
Qed.

(** ** C34: accepted encodings are canonical *)
Theorem C34_canonical : forall E, ExtLaws E -> forall b,
  (forall p : SystemParameters E, system_parameters_from_bytes b = Ok p -> b = system_parameters_to_bytes p) /\
  (forall t : Tag E, tag_from_bytes b = Ok t -> b = tag_to_bytes t) /\
  (forall k : PublicKey E, public_key_from_bytes b = Ok k -> b = public_key_to_bytes k) /\
  (forall k, secret_key_from_bytes b = Ok k -> b = secret_key_to_bytes k /\ wf_secret_key k) /\
  (forall k : Keypair E, keypair_from_bytes b = Ok k -> b = keypair_to_bytes k /\ wf_keypair k) /\
  (forall k : point E, elgamal_public_from_bytes b = Ok k -> b = elgamal_public_to_bytes k) /\
  (forall s, elgamal_secret_from_bytes b = Ok s -> b = elgamal_secret_to_bytes s /\ canonical s) /\
  (forall k : ElgamalKeypair E, elgamal_keypair_from_bytes b = Ok k -> b = elgamal_keypair_to_bytes k /\ canonical (eg_secret k)) /\
  (forall c : Credential E, credential_from_bytes b = Ok c -> b = credential_to_bytes c /\ wf_credential c) /\
  (forall r, request_from_bytes b = Ok r -> b = request_to_bytes r /\ Forall canonical (rq_attributes_revealed r)) /\
  (forall i : Issuer E, issuer_from_bytes b = Ok i -> b = issuer_to_bytes i /\ wf_issuer i) /\
  (forall u : User E, user_from_bytes b = Ok u -> b = user_to_bytes u /\ wf_user u).
Proof.
  intros E L b.
  split; [intros p; apply (system_parameters_iff L)|]. split; [intros p; apply (tag_iff L)|].
  split; [intros p; apply (public_key_iff L)|]. split; [intros k H; apply secret_key_iff in H as [H1 H2]; auto|].
  split; [intros k H; apply (keypair_iff L) in H as [H1 H2]; auto|]. split; [intros k; apply (elgamal_public_iff L)|].
  split; [intros k H; apply elgamal_secret_iff in H as [H1 H2]; auto|].
  split; [intros k H; apply (elgamal_keypair_iff L) in H as [H1 H2]; auto|].
  split; [intros k H; apply (credential_iff L) in H as [H1 H2]; rewrite wf_credential_iff; auto|].
  split; [intros k H; apply request_iff in H as [H1 H2]; auto|].
  split; [intros k H; apply (issuer_iff L) in H as [H1 H2]; auto|].
  intros k H. apply (user_iff L) in H as [H1 H2]. rewrite (wf_user_iff L). auto.
Qed.
Print Assumptions C34_canonical.
(** Which byte strings the other types accept: their own encoding followed by
    anything (for presentations, by a multiple of 32 bytes). *)
Theorem C34_trailing_refuted : forall E, ExtLaws E -> forall b,
  (forall c : point E, commitment_from_bytes b = Ok c <-> exists rest, b = (commitment_to_bytes c ++ rest)%list) /\
  (forall i : CredentialIssuance E, issuance_from_bytes b = Ok i <->
     wf_issuance i /\ exists rest, b = (issuance_to_bytes i ++ rest)%list) /\
  (forall p : CredentialPresentation E, presentation_from_bytes b = Ok p <->
     wf_presentation p /\ exists rest, Nat.modulo (List.length rest) 32 = 0%nat /\ b = (presentation_to_bytes p ++ rest)%list) /\
  (forall p : SignalCredentialPresentation E, signal_presentation_from_bytes b = Ok p <->
     wf_signal_presentation p /\ exists rest, b = (signal_presentation_to_bytes p ++ rest)%list).
Proof.
  intros E L b. split; [intros c; apply (commitment_iff L)|].
  split; [intros i; rewrite wf_issuance_iff; apply (issuance_iff L)|].
  split; [intros i; rewrite wf_presentation_iff; apply (presentation_iff L)|].
  intros i; rewrite wf_signal_presentation_iff; apply (signal_presentation_iff L).
Qed.
Print Assumptions C34_trailing_refuted.
(** Phone numbers: the top bit is ignored, and a number and the same number plus
    the group order are different encodings of values that commit and
    authenticate alike. *)
Theorem C34_phone_number_refuted : forall E, ExtLaws E -> forall n, 0 <= n < ell ->
  (forall k, 0 <= k < 7 ->
     phone_number_from_bytes (le32 (n + k * ell)) = Ok (n + k * ell) /\
     phone_number_from_bytes (le32 (n + k * ell + 2 ^ 255)) = Ok (n + k * ell) /\
     (forall nonce (g h : point E),
        committed_from_phone_number (n + k * ell) nonce g h = committed_from_phone_number n nonce g h) /\
     (forall c nonce (g h : point E), committed_open c (n + k * ell) nonce g h = committed_open c n nonce g h)).
Proof.
  intros E L n Hn k Hk. assert (Hr : 0 <= n + k * ell < 2 ^ 255).
  { assert (7 * ell <= 2 ^ 255) by (vm_compute; discriminate). nia. }
  assert (Hs : forall P : point E, smul (n + k * ell) P = smul n P).
  { intros P. apply (smul_eqm L). unfold eqm. apply Z.mod_add. pose proof ell_pos. lia. }
  split; [|split; [|split]].
  - apply phone_number_iff. split; [apply le_encode_length|]. unfold le32. rewrite le_decode_encode.
    change (256 ^ Z.of_nat 32) with (2 * 2 ^ 255). rewrite (Z.mod_small _ (2 * _)) by lia. symmetry. apply Z.mod_small, Hr.
  - apply phone_number_iff. split; [apply le_encode_length|]. unfold le32. rewrite le_decode_encode.
    change (256 ^ Z.of_nat 32) with (2 * 2 ^ 255). rewrite (Z.mod_small _ (2 * _)) by lia.
    replace (n + k * ell + 2 ^ 255) with (n + k * ell + 1 * 2 ^ 255) by lia. rewrite Z.mod_add by lia. symmetry. apply Z.mod_small, Hr.
  - intros nonce g h. unfold committed_from_phone_number, commitment_to. rewrite Hs. reflexivity.
  - intros c nonce g h. unfold committed_open, commitment_open. rewrite Hs. reflexivity.
Qed.
Print Assumptions C34_phone_number_refuted.
(** Roster entries: an entry has fourteen encodings or more that open alike. *)
Theorem C34_roster_refuted : forall E, ExtLaws E -> forall C n k params number, 0 <= n < ell -> 0 <= k < 7 ->
  exists e : RosterEntryCommitment E,
    roster_from_bytes (compress C ++ le32 (n + k * ell)) = Ok e /\
    roster_from_bytes (compress C ++ le32 (n + k * ell + 2 ^ 255)) = Ok e /\
    roster_open e number params = roster_open {| re_commitment := C; re_opening := n |} number params.
Proof.
  intros E L C n k params number Hn Hk. exists {| re_commitment := C; re_opening := n + k * ell |}.
  assert (Hr : 0 <= n + k * ell < 2 ^ 255).
  { assert (7 * ell <= 2 ^ 255) by (vm_compute; discriminate). nia. }
  split; [|split].
  - apply (roster_iff L). exists (le32 (n + k * ell)). split; [apply le_encode_length|]. split; [reflexivity|]. cbn [re_opening].
    unfold le32. rewrite le_decode_encode. change (256 ^ Z.of_nat 32) with (2 * 2 ^ 255).
    rewrite (Z.mod_small _ (2 * _)) by lia. symmetry. apply Z.mod_small, Hr.
  - apply (roster_iff L). exists (le32 (n + k * ell + 2 ^ 255)). split; [apply le_encode_length|]. split; [reflexivity|]. cbn [re_opening].
    unfold le32. rewrite le_decode_encode. change (256 ^ Z.of_nat 32) with (2 * 2 ^ 255).
    rewrite (Z.mod_small _ (2 * _)) by lia.
    replace (n + k * ell + 2 ^ 255) with (n + k * ell + 1 * 2 ^ 255) by lia. rewrite Z.mod_add by lia. symmetry. apply Z.mod_small, Hr.
  - unfold roster_open. cbn [re_commitment re_opening]. destruct (try_from_bytes number); [cbn [bind]|reflexivity..].
    unfold committed_open, commitment_open.
    replace (smul (n + k * ell) (sp_g params)) with (smul n (sp_g params)); [reflexivity|].
    symmetry. apply (smul_eqm L). unfold eqm. apply Z.mod_add. pose proof ell_pos. lia.
Qed.
Print Assumptions C34_roster_refuted.
(** Two encodings of one presentation. *)
Example C34_met : exists b1 b2, b1 <> b2 /\ forall E (L : ExtLaws E), exists c : point E,
  commitment_from_bytes b1 = Ok c /\ commitment_from_bytes b2 = Ok c.
Proof.
  exists (zeros 32), (zeros 33). split; [discriminate|]. intros E L. exists pzero.
  split; apply (commitment_iff L); rewrite (compress_zero E L); [exists []|exists [x00]]; reflexivity.
Qed.

(** ** C35: which byte strings make a decoder panic *)
Theorem C35_never_panic : forall E, ExtLaws E -> forall b,
  @system_parameters_from_bytes E b <> Panic /\ @tag_from_bytes E b <> Panic /\ @public_key_from_bytes E b <> Panic /\
  @credential_from_bytes E b <> Panic /\ request_from_bytes b <> Panic /\ @issuer_from_bytes E b <> Panic /\
  @user_from_bytes E b <> Panic /\ phone_number_from_bytes b <> Panic /\ @signal_presentation_from_bytes E b <> Panic /\
  @verified_signal_from_bytes E b <> Panic.
Proof.
  intros E L b.
  split; [apply system_parameters_no_panic|]. split; [apply tag_no_panic|]. split; [apply public_key_no_panic|].
  split; [apply credential_no_panic|]. split; [apply request_no_panic|]. split; [apply (issuer_no_panic L)|].
  split; [apply user_no_panic|]. split; [apply phone_number_no_panic|]. split; [apply (signal_presentation_no_panic L)|].
  unfold verified_signal_from_bytes. intros H. apply bind_panic in H as [H|(? & _ & H)]; [|discriminate].
  exact (signal_presentation_no_panic L b H).
Qed.
Print Assumptions C35_never_panic.
Theorem C35_panic_refuted : forall E, ExtLaws E -> forall b,
  (secret_key_from_bytes b = Panic <-> b = []) /\
  (@keypair_from_bytes E b = Panic <-> debug_build E = true /\ (List.length b < 32)%nat) /\
  (@commitment_from_bytes E b = Panic <-> (List.length b < 32)%nat) /\
  (@elgamal_public_from_bytes E b = Panic <-> List.length b <> 32%nat) /\
  (elgamal_secret_from_bytes b = Panic <-> List.length b <> 32%nat) /\
  (@elgamal_keypair_from_bytes E b = Panic <-> List.length b <> 64%nat) /\
  (@issuance_from_bytes E b = Panic <->
     (List.length b < 32)%nat \/
     (List.length b < 128)%nat /\ exists P : point E, decompress (field 0 32 b) = Some P) /\
  (@presentation_from_bytes E b = Panic <->
     List.length b = 0%nat \/
     (List.length b = 32%nat /\ exists P : point E, decompress b = Some P) \/
     (List.length b = 64%nat /\ (exists P : point E, decompress (field 0 32 b) = Some P)
                             /\ (exists P : point E, decompress (field 32 32 b) = Some P))) /\
  (@roster_from_bytes E b = Panic <->
     (List.length b < 32)%nat \/
     (List.length b <> 64%nat /\ exists P : point E, decompress (field 0 32 b) = Some P)) /\
  (@signal_user_from_bytes E b = Panic <-> (List.length b < 32)%nat).
Proof.
  intros E L b.
  split; [apply secret_key_panic|]. split; [apply (keypair_panic L)|]. split; [apply commitment_panic|].
  split; [apply elgamal_public_panic|]. split; [apply elgamal_secret_panic|]. split; [apply elgamal_keypair_panic|].
  split; [apply (issuance_panic L)|]. split.
  - rewrite (presentation_panic L). change (firstn 32 b) with (field 0 32 b).
    destruct (Nat.eq_dec (List.length b) 64) as [Hl|Hl]; [|intuition lia].
    unfold field at 3. rewrite (firstn_all2 (skipn 32 b)) by (rewrite skipn_length; lia). reflexivity.
  - split; [apply (roster_panic L)|apply (signal_user_panic)].
Qed.
Print Assumptions C35_panic_refuted.
(** Every one of these sets has a member for every group: the identity's
    encoding is 32 zeros.  (Key pairs need the overflow checks of a debug build.) *)
Theorem C35_panics_somewhere_refuted : forall E, ExtLaws E ->
  secret_key_from_bytes [] = Panic /\ @commitment_from_bytes E [] = Panic /\ @elgamal_public_from_bytes E [] = Panic /\
  elgamal_secret_from_bytes [] = Panic /\ @elgamal_keypair_from_bytes E [] = Panic /\
  @issuance_from_bytes E (zeros 127) = Panic /\ @presentation_from_bytes E (zeros 64) = Panic /\
  @roster_from_bytes E (zeros 65) = Panic /\ @signal_user_from_bytes E (zeros 31) = Panic /\
  (debug_build E = true -> @keypair_from_bytes E (zeros 31) = Panic).
Proof.
  intros E L. assert (Hz : exists P : point E, decompress (zeros 32) = Some P).
  { exists pzero. rewrite <- (compress_zero E L). apply (decompress_compress E L). }
  pose proof (C35_panic_refuted E L) as H.
  split; [reflexivity|]. split; [apply H; cbn; lia|]. split; [apply H; discriminate|]. split; [apply H; discriminate|].
  split; [apply H; discriminate|].
  split; [apply (H (zeros 127)); right; split; [cbn; lia|exact Hz]|].
  split; [apply (H (zeros 64)); right; right; split; [reflexivity|split; exact Hz]|].
  split; [apply (H (zeros 65)); right; split; [discriminate|exact Hz]|].
  split; [apply (H (zeros 31)); cbn; lia|]. intros Hd. apply (H (zeros 31)). split; [exact Hd|cbn; lia].
Qed.
Print Assumptions C35_panics_somewhere_refuted.
(** The boundaries: the longest issuance that panics and one more byte. *)
Example C35_met : is_panic (@issuance_from_bytes toy (zeros 127)) && negb (is_panic (@issuance_from_bytes toy (zeros 128))) &&
  is_panic (@commitment_from_bytes toy (zeros 31)) && is_ok (@commitment_from_bytes toy (zeros 32)) &&
  is_panic (secret_key_from_bytes []) && is_err (secret_key_from_bytes [x00]) = true.
Proof. vm_compute. reflexivity. Qed.

(** ** C25: a "verified" credential need not have been verified *)
Theorem C25_decoding_accepts_unverified_refuted : forall E, ExtLaws E -> forall b,
  (forall p : SignalCredentialPresentation E,
     verified_signal_from_bytes b = Ok {| vs_presentation := p |} <->
     wf_signal_presentation p /\ exists rest, b = (signal_presentation_to_bytes p ++ rest)%list) /\
  (forall p : CredentialPresentation E,
     verified_from_bytes b = Ok {| vf_presentation := p |} <->
     wf_presentation p /\ exists rest, Nat.modulo (List.length rest) 32 = 0%nat /\ b = (presentation_to_bytes p ++ rest)%list).
Proof.
  intros E L b. split; intros p.
  - rewrite wf_signal_presentation_iff, <- (signal_presentation_iff L). unfold verified_signal_from_bytes. rewrite bind_ok.
    split; [intros (q & H & Hq); congruence|intros H; exists p; auto].
  - rewrite wf_presentation_iff, <- (presentation_iff L). unfold verified_from_bytes. rewrite bind_ok.
    split; [intros (q & H & Hq); congruence|intros H; exists p; auto].
Qed.
Print Assumptions C25_decoding_accepts_unverified_refuted.

(** A presentation all of whose points are the identity, made without a
    credential, together with a membership proof for a known roster entry. *)
Definition blank_presentation {E : Ext} (c : scalar) (R : point E) (pf : ce_Proof) : SignalCredentialPresentation E :=
  {| sc_roster_entry_commitment := R;
     sc_presentation :=
       {| pr_rerandomized_mac_commitment := pzero; pr_rerandomized_nonce := pzero;
          pr_attributes_revealed := []; pr_attributes_blinded := [pzero];
          pr_proof := {| vc_challenge := c; vc_responses := {| vcs_m0 := 0; vcs_z0 := 0; vcs_minus_zQ := 0 |} |} |};
     sc_roster_membership_proof := pf |}.
Lemma ce_create_canonical {E} (L : ExtLaws E) t (q : ce_Publics E) s os : ce_wf (fst (ce_create t q s os)).
Proof.
  rewrite ce_create_some_rand, (ce_create_with_eq L). cbv zeta. unfold ce_wf, ce_proof_scalars.
  cbn [ce_challenge ce_responses ces_m0 ces_z0 ces_z1].
  repeat constructor; try apply challenge_of_range; try apply mod_range.
Qed.
Theorem C25_unverified_membership_refuted : forall E, ExtLaws E ->
  forall (i : Issuer E) X1 Xs x1 number n entry,
  pk_Xn (kp_public (iss_keypair i)) = X1 :: Xs -> sk_xn (kp_secret (iss_keypair i)) = [x1] ->
  try_from_bytes number = Ok n -> roster_open entry number (iss_system_parameters i) = Ok tt ->
  exists b p,
    signal_presentation_from_bytes b = Ok p /\ signal_verify i p = Err MacVerification /\
    verified_signal_from_bytes b = Ok {| vs_presentation := p |} /\
    verify_roster_membership i {| vs_presentation := p |} = Ok (re_commitment entry).
Proof.
  intros E L i X1 Xs x1 number n entry HX Hx Hn Ho.
  apply (C29_open_exactly E L entry number n _ Hn) in Ho.
  set (params := iss_system_parameters i) in *.
  pose (q := roster_publics params pzero pzero (re_commitment entry)).
  pose (pf := fst (ce_create roster_transcript q {| ces_m0 := n; ces_z0 := 0; ces_z1 := re_opening entry |} (fun _ => x00))).
  pose (pub := presentation_publics params X1 (sk_x0 (kp_secret (iss_keypair i))) x1 pzero pzero pzero).
  pose (com := {| vcc_Cm0 := pzero; vcc_V := pzero |} : vc_Commitments E).
  pose (right := @challenge_of E (extend show_transcript (vc_messages pub com))).
  pose (c := if right =? 0 then 1 else 0).
  assert (Hc : canonical c) by (unfold c, canonical; pose proof ell_gt_1; destruct (right =? 0); lia).
  assert (Hcr : c <> right) by (unfold c; destruct (Z.eqb_spec right 0); congruence).
  clearbody c.
  pose (p := blank_presentation c (re_commitment entry) pf).
  assert (Hw : signal_presentation_wf p).
  { split; [|apply (ce_create_canonical L)]. split; [reflexivity|]. split; [reflexivity|].
    unfold vc_wf, vc_proof_scalars, p, blank_presentation. cbn [pr_proof sc_presentation vc_challenge vc_responses vcs_m0 vcs_z0 vcs_minus_zQ].
    repeat constructor; try (apply Hc); try lia; pose proof ell_gt_1; lia. }
  exists (signal_presentation_to_bytes p), p.
  assert (Hd : signal_presentation_from_bytes (signal_presentation_to_bytes p) = Ok p).
  { apply (signal_presentation_iff L). split; [exact Hw|]. exists []. symmetry; apply app_nil_r. }
  split; [exact Hd|]. split; [|split].
  - unfold signal_verify. rewrite (issuer_verify_ok1 i (sc_presentation p) X1 Xs x1 pzero HX Hx eq_refl eq_refl).
    cbn [p blank_presentation sc_presentation pr_proof pr_rerandomized_nonce pr_rerandomized_mac_commitment]. fold params. fold pub.
    match goal with |- context [vc_verify ?a ?b ?d] => destruct (vc_verify a b d) as [[]|e|] eqn:Hv end; [|reflexivity|].
    + exfalso. apply vc_verify_iff in Hv. cbn [vc_challenge] in Hv. apply Hcr. rewrite Hv. unfold right. do 2 f_equal.
      unfold vc_recompute, pub, presentation_publics, com. cbn.
      rewrite ?smul_0, ?(smul_pzero L).
      f_equal. f_equal; pring L.
    + elim (vc_verify_no_panic _ _ _ Hv).
  - unfold verified_signal_from_bytes. rewrite Hd. reflexivity.
  - rewrite (verify_roster_ok i p pzero [] eq_refl). fold params.
    cbn [p blank_presentation sc_presentation sc_roster_entry_commitment pr_rerandomized_nonce sc_roster_membership_proof].
    fold q. unfold pf. rewrite (ce_create_complete L); [reflexivity|].
    unfold ce_relation, q, roster_publics. cbn [cep_Cm0 cep_Cm1 cep_P cep_A cep_B ces_m0 ces_z0 ces_z1].
    split; [|exact Ho]. pring L.
Qed.
Print Assumptions C25_unverified_membership_refuted.
Example C25_met : exists n, try_from_bytes (str "123") = Ok n /\
  is_ok (roster_open (sample_entry n) (str "123") sample_params) = true.
Proof. apply run1. vm_compute. reflexivity. Qed.

(** ** C36, C37: decoded values do not make verification or showing panic *)
Theorem C36_decoded_never_panics : forall E, ExtLaws E -> forall b1 b2 (i : Issuer E),
  issuer_from_bytes b1 = Ok i ->
  (forall p, presentation_from_bytes b2 = Ok p -> issuer_verify i p <> Panic) /\
  (forall p, signal_presentation_from_bytes b2 = Ok p -> signal_verify i p <> Panic) /\
  (forall v, verified_signal_from_bytes b2 = Ok v -> verify_roster_membership i v <> Panic).
Proof.
  intros E L b1 b2 i Hi. apply (issuer_iff L) in Hi as [[[_ Hl] Hne] _].
  assert (V : forall p, presentation_wf p -> issuer_verify i p <> Panic).
  { intros p (Hr & Hb & _) H. apply issuer_verify_panic in H. apply H. unfold verify_fits. rewrite Hr, Hb.
    destruct (pk_Xn (kp_public (iss_keypair i))) as [|X Xs]; [contradiction|]. cbn [List.length] in Hl.
    split; [discriminate|]. split; [|cbn [List.length]; lia]. intros K. rewrite K in Hb. discriminate. }
  split; [|split].
  - intros p Hp. apply (presentation_iff L) in Hp as [Hw _]. apply V, Hw.
  - intros p Hp. apply (signal_presentation_iff L) in Hp as [[Hw _] _]. intros H.
    unfold signal_verify in H. apply bind_panic in H as [H|(? & _ & H)]; [|discriminate]. exact (V _ Hw H).
  - intros v Hv. unfold verified_signal_from_bytes in Hv. apply bind_ok in Hv as (p & Hp & Hv).
    apply (signal_presentation_iff L) in Hp as [[(_ & Hb & _) _] _].
    assert (v = {| vs_presentation := p |}) by congruence. subst v.
    destruct (pr_attributes_blinded (sc_presentation p)) as [|C Cs] eqn:HC; [discriminate|].
    rewrite (verify_roster_ok i p C Cs HC).
    match goal with |- context [ce_verify ?a ?b ?d] => pose proof (ce_verify_no_panic a b d); destruct (ce_verify a b d) end; congruence.
Qed.
Print Assumptions C36_decoded_never_panics.
Theorem C36_created_never_panics : forall E, ExtLaws E -> forall params r b p,
  let i := fst (issuer_create params r) in
  @presentation_from_bytes E b = Ok p -> issuer_verify i p <> Panic.
Proof.
  intros E L params r b p i Hp. apply (presentation_iff L) in Hp as [(Hr & Hb & _) _].
  destruct (issuer_create_facts params r) as (_ & Hc & Hs). fold i in Hc, Hs. unfold single_attribute in Hs.
  apply consistent_length in Hc.
  intros H. apply issuer_verify_panic in H. apply H. unfold verify_fits. rewrite Hr, Hb, Hs.
  split; [intros K; rewrite K, Hs in Hc; discriminate|]. split; [intros K; rewrite K in Hb; discriminate|]. cbn [List.length]. lia.
Qed.
Print Assumptions C36_created_never_panics.
Theorem C37_decoded_never_panics : forall E, ExtLaws E -> forall b (u : SignalUser E) r os entry,
  signal_user_from_bytes b = Ok u -> signal_show u r os entry <> Panic.
Proof.
  intros E L b u r os entry Hu. apply (signal_user_iff L) in Hu as (_ & _ & _ & (Hn & _ & Hc) & _).
  pose proof (C37_signal_show_outcomes E L u r os entry) as H.
  destruct (us_credential (su_user u)) as [c|]; [|congruence]. destruct Hc as [[Ha _] _].
  destruct H as [[[K|K] _]|(_ & _ & x & Hx)]; [rewrite K in Ha; discriminate|rewrite K in Hn; discriminate|congruence].
Qed.
Print Assumptions C37_decoded_never_panics.
Theorem C37_obtained_never_panics : forall E, ExtLaws E -> forall b iss (u u' : SignalUser E) r os entry,
  issuance_from_bytes b = Ok iss -> signal_obtain_finish u (Some iss) = (u', Ok tt) ->
  signal_show u' r os entry <> Panic.
Proof.
  intros E L b iss u u' r os entry Hi Hu. apply (issuance_iff L) in Hi as [[[Ha _] _] _].
  unfold signal_obtain_finish in Hu. pose proof (obtain_finish_ok (su_user u) iss) as Hok.
  pose proof (obtain_finish_accept (su_user u) iss) as Hacc.
  destruct (obtain_finish (su_user u) (Some iss)) as [v res]. cbn [snd] in *.
  injection Hu as <- ->. destruct (proj1 Hok eq_refl) as (X1 & Xs & HX & _).
  specialize (Hacc eq_refl). injection Hacc as ->.
  match goal with |- signal_show ?w _ _ _ <> _ => pose proof (C37_signal_show_outcomes E L w r os entry) as H end.
  cbn [su_user us_credential us_issuer_parameters] in H.
  destruct H as [[[K|K] _]|(_ & _ & x & Hx)]; [rewrite K in Ha; discriminate|rewrite K in HX; discriminate|rewrite Hx; discriminate].
Qed.
Print Assumptions C37_obtained_never_panics.
Example C36_met : exists n, try_from_bytes (str "123") = Ok n /\
  (let p := forge_signal_presentation sample_params (pt 231) n 2 3 (sample_entry n) (toy_stream 1) (toy_stream 2) in
   match @issuer_from_bytes toy (issuer_to_bytes sample_issuer), @signal_presentation_from_bytes toy (signal_presentation_to_bytes p) with
   | Ok i, Ok p' => is_ok (signal_verify i p')
   | _, _ => false
   end) = true.
Proof. apply run1. vm_compute. reflexivity. Qed.

(** ** C45: decoding does not check that the key pair matches *)
Theorem C45_mismatched_key_decodes_refuted : forall E, ExtLaws E -> forall (i : Issuer E) Xs,
  wf_issuer i -> let n := List.length (pk_Xn (kp_public (iss_keypair i))) in List.length Xs = n ->
  let b := issuer_to_bytes i in
  issuer_from_bytes (field 0 64 b ++ flat_map compress Xs ++ skipn (64 + 32 * n) b) =
  Ok {| iss_system_parameters := iss_system_parameters i;
        iss_keypair := {| kp_public := {| pk_Xn := Xs |}; kp_secret := kp_secret (iss_keypair i) |} |}.
Proof.
  intros E L i Xs [[Hs Hl] Hne] n Hn b. apply (issuer_iff L). split.
  - split; [split; [exact Hs|cbn; lia]|]. cbn. intros ->. cbn in Hn. unfold n in Hn.
    destruct (pk_Xn (kp_public (iss_keypair i))); [contradiction|discriminate].
  - unfold issuer_to_bytes at 1. cbn [iss_system_parameters iss_keypair]. unfold keypair_to_bytes. cbn [kp_public kp_secret].
    unfold public_key_to_bytes. cbn [pk_Xn].
    assert (Hb : b = (system_parameters_to_bytes (iss_system_parameters i) ++
       public_key_to_bytes (kp_public (iss_keypair i)) ++ secret_key_to_bytes (kp_secret (iss_keypair i)))%list) by reflexivity.
    rewrite Hb. rewrite field_here by apply (system_parameters_length L). f_equal. f_equal.
    rewrite app_assoc. apply skipn_exact. rewrite app_length, (system_parameters_length L), (public_key_length L). reflexivity.
Qed.
Print Assumptions C45_mismatched_key_decodes_refuted.
(** The proof in [iss] was made honestly for the secrets of [i], and its
    verification nevertheless reaches the same challenge from other
    commitments: the challenge is zero or the two hashed transcripts collide. *)
Definition issuance_challenge_broken {E : Ext} (i : Issuer E) (iss : CredentialIssuance E) X1 x1 m1 : Prop :=
  ir_challenge (is_proof iss) = 0 \/
  exists x0_tilde rand,
    let params := iss_system_parameters i in
    let x0 := sk_x0 (kp_secret (iss_keypair i)) in
    let secrets := {| irs_x0 := x0; irs_x1 := x1; irs_x0_tilde := x0_tilde; irs_m1x1 := s_mul m1 x1 |} in
    let p := issuance_publics params X1 iss in
    is_secret_key_commitment iss = padd (smul x0 (sp_g params)) (smul x0_tilde (sp_h params)) /\
    is_proof iss = ir_create_with (ir_create_absorb issuance_transcript p) p secrets rand /\
    @challenge_collision E (extend issuance_transcript (ir_messages p (ir_image p rand)))
                           (extend issuance_transcript (ir_messages p (ir_recompute (is_proof iss) p))).
(** With such a key the user rejects every issuance of this issuer, unless the
    challenge is zero or two transcripts have one challenge. *)
Theorem C45_mismatched_key_useless : forall E, ExtLaws E -> forall (i : Issuer E) u rq r os iss r' os' X1 Xs x1 xs m1 ms,
  user_of i u -> issue i rq r os = Ok (iss, r', os') ->
  pk_Xn (kp_public (iss_keypair i)) = X1 :: Xs -> sk_xn (kp_secret (iss_keypair i)) = x1 :: xs ->
  rq_attributes_revealed rq = m1 :: ms ->
  X1 <> smul x1 (sp_h (iss_system_parameters i)) ->
  snd (obtain_finish u (Some iss)) = Ok tt ->
  issuance_challenge_broken i iss X1 x1 m1.
Proof.
  intros E L i u rq r os iss r' os' X1 Xs x1 xs m1 ms Hu Hi HX Hx Hm Hne Hok.
  destruct (issuance_accepted_only L i u rq r os iss r' os' X1 Xs x1 xs m1 ms Hu Hi HX Hx Hm Hok) as [[_ H]|[H|H]].
  - contradiction.
  - left; exact H.
  - right; exact H.
Qed.
Print Assumptions C45_mismatched_key_useless.
(** The public key of [sample_issuer] is 231, which is 7 times [h]. *)
Example C45_met : wf_issuer sample_issuer /\
  (let bad := issuer_with toy sample_params [pt 232] 5 [7] in
   match issue bad (request [9]) (toy_stream 1) (toy_stream 2) with
   | Ok (iss, _, _) =>
     is_err (snd (obtain_finish {| us_system_parameters := sample_params; us_issuer_parameters := {| pk_Xn := [pt 232] |};
                                   us_key := None; us_credential := None |} (Some iss)))
   | _ => false
   end) = true.
Proof.
  split; [|vm_compute; reflexivity]. split; [split; [|reflexivity]|discriminate].
  split; [split; [discriminate|reflexivity]|]. repeat constructor; discriminate.
Qed.

(** ** C46: more than one attribute *)
Theorem C46_multi_attribute_decodes_and_issues : forall E, ExtLaws E -> forall (i : Issuer E) rq r os,
  wf_issuer i -> List.length (rq_attributes_revealed rq) = List.length (sk_xn (kp_secret (iss_keypair i))) ->
  issuer_from_bytes (issuer_to_bytes i) = Ok i /\
  exists iss r' os', issue i rq r os = Ok (iss, r', os') /\
    mac_equation (kp_secret (iss_keypair i)) (rq_attributes_revealed rq) (cr_mac (is_credential iss)).
Proof.
  intros E L i rq r os Hw Hl. split; [apply (C33_issuer E L), Hw|]. destruct Hw as [[_ Hn] Hne].
  destruct (C09_issue_outcomes E L i rq r os) as [[H _]|[(_ & H & _)|[(_ & _ & H & _)|(_ & _ & _ & iss & r' & os' & H & _ & Hm)]]];
    cbv zeta in *.
  - contradiction.
  - rewrite H in Hn. destruct (pk_Xn _); [contradiction|discriminate].
  - contradiction.
  - exists iss, r', os'. auto.
Qed.
Print Assumptions C46_multi_attribute_decodes_and_issues.
Theorem C46_multi_attribute_rejected_refuted : forall E, ExtLaws E -> forall (i : Issuer E) u rq r os iss r' os' X1 Xs x1 xs m1 ms,
  user_of i u -> issue i rq r os = Ok (iss, r', os') ->
  pk_Xn (kp_public (iss_keypair i)) = X1 :: Xs -> sk_xn (kp_secret (iss_keypair i)) = x1 :: xs ->
  rq_attributes_revealed rq = m1 :: ms ->
  tag_nonce (cr_mac (is_credential iss)) <> pzero -> dot xs ms mod ell <> 0 ->
  snd (obtain_finish u (Some iss)) = Ok tt ->
  issuance_challenge_broken i iss X1 x1 m1.
Proof.
  intros E L i u rq r os iss r' os' X1 Xs x1 xs m1 ms Hu Hi HX Hx Hm HP Hd Hok.
  destruct (issuance_accepted_only L i u rq r os iss r' os' X1 Xs x1 xs m1 ms Hu Hi HX Hx Hm Hok) as [[H _]|[H|H]].
  - exfalso. apply Hd. apply (smul_zero_iff L) in H; [|exact HP]. unfold eqm in H. rewrite H. apply Z.mod_0_l.
    pose proof ell_pos; lia.
  - left; exact H.
  - right; exact H.
Qed.
Print Assumptions C46_multi_attribute_rejected_refuted.

Example C46_met :
  let two := issuer_with toy sample_params [pt 231; pt 99] 5 [7; 3] in
  wf_issuer two /\ dot [3] [4] mod ell <> 0 /\
  match issue two (request [9; 4]) (toy_stream 1) (toy_stream 2) with
  | Ok (iss, _, _) =>
    negb (peqb (tag_nonce (cr_mac (is_credential iss))) pzero) &&
    is_err (snd (obtain_finish {| us_system_parameters := sample_params; us_issuer_parameters := {| pk_Xn := [pt 231; pt 99] |};
                                  us_key := None; us_credential := None |} (Some iss)))
  | _ => false
  end = true.
Proof.
  split; [|split; [vm_compute; discriminate|vm_compute; reflexivity]].
  split; [split; [|reflexivity]|discriminate].
  split; [split; [discriminate|reflexivity]|]. repeat constructor; discriminate.
Qed.
