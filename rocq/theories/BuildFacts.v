(** The functions of the model on two builds: each commutes with the change of
    the representation of the points. *)
From Verif Require Import ModelSignal BaseFacts SpecBuilds.

Definition pmap {A B C} (g : A -> B) (p : A * C) : B * C := (g (fst p), snd p).

Lemma bind_omap {Er A B C} (g : A -> B) (o : outcome Er A) (k : B -> outcome Er C) :
  bind (omap g o) k = bind o (fun a => k (g a)).
Proof. destruct o; reflexivity. Qed.
Lemma omap_bind {Er A B C} (g : B -> C) (o : outcome Er A) (k : A -> outcome Er B) :
  omap g (bind o k) = bind o (fun a => omap g (k a)).
Proof. destruct o; reflexivity. Qed.
Lemma bind_ext {Er A B} (o : outcome Er A) (k k' : A -> outcome Er B) : (forall a, k a = k' a) -> bind o k = bind o k'.
Proof. intros H. destruct o; cbn; [apply H|reflexivity..]. Qed.
Lemma map_err_omap {Er Er' A B} (h : Er -> Er') (g : A -> B) (o : outcome Er A) : map_err h (omap g o) = omap g (map_err h o).
Proof. destruct o; reflexivity. Qed.
Lemma ok_or_map {Er A B} (e : Er) (g : A -> B) (o : option A) : ok_or e (option_map g o) = omap g (ok_or e o).
Proof. destruct o; reflexivity. Qed.
Lemma or_panic_map {Er A B} (g : A -> B) (o : option A) : @or_panic Er _ (option_map g o) = omap g (or_panic o).
Proof. destruct o; reflexivity. Qed.
Lemma try_map_omap {Er A B C} (g : B -> C) (h : A -> outcome Er B) (h' : A -> outcome Er C) l :
  (forall x, h' x = omap g (h x)) -> try_map h' l = omap (map g) (try_map h l).
Proof.
  intros H. induction l as [|x l IH]; [reflexivity|]. cbn [try_map]. rewrite H, bind_omap, omap_bind. apply bind_ext. intros a.
  rewrite IH, bind_omap, omap_bind. apply bind_ext. reflexivity.
Qed.
Lemma nth_error_map {A B} (g : A -> B) l n : nth_error (map g l) n = option_map g (nth_error l n).
Proof. revert n. induction l as [|x l IH]; intros [|n]; cbn; auto. Qed.
Lemma omap_ok {Er A B} (g : A -> B) (o : outcome Er A) b : omap g o = Ok b <-> exists a, o = Ok a /\ b = g a.
Proof.
  destruct o; cbn; split; intros H; try discriminate; try (destruct H as (? & K & _); discriminate).
  - injection H as <-. eauto.
  - destruct H as (x & K & ->). injection K as ->. reflexivity.
Qed.

Section two.
  Context {E E' : Ext} (f : point E -> point E') (M : same_crates E E' f).

  Definition tag_on (t : Tag E) : Tag E' := {| tag_nonce := f (tag_nonce t); tag_mac := f (tag_mac t) |}.
  Definition public_on (k : PublicKey E) : PublicKey E' := {| pk_Xn := map f (pk_Xn k) |}.
  Definition keypair_on (k : Keypair E) : Keypair E' := {| kp_public := public_on (kp_public k); kp_secret := kp_secret k |}.
  Definition params_on (p : SystemParameters E) : SystemParameters E' := {| sp_g := f (sp_g p); sp_h := f (sp_h p) |}.
  Definition elgamal_on (k : ElgamalKeypair E) : ElgamalKeypair E' := {| eg_secret := eg_secret k; eg_public := f (eg_public k) |}.
  Definition irp_on (p : ir_Publics E) : ir_Publics E' :=
    {| irp_P := f (irp_P p); irp_Q := f (irp_Q p); irp_Cx0 := f (irp_Cx0 p);
       irp_B := f (irp_B p); irp_A := f (irp_A p); irp_X1 := f (irp_X1 p) |}.
  Definition vcp_on (p : vc_Publics E) : vc_Publics E' :=
    {| vcp_B := f (vcp_B p); vcp_A := f (vcp_A p); vcp_X0 := f (vcp_X0 p);
       vcp_P := f (vcp_P p); vcp_V := f (vcp_V p); vcp_Cm0 := f (vcp_Cm0 p) |}.
  Definition cep_on (p : ce_Publics E) : ce_Publics E' :=
    {| cep_B := f (cep_B p); cep_A := f (cep_A p); cep_P := f (cep_P p); cep_Cm0 := f (cep_Cm0 p); cep_Cm1 := f (cep_Cm1 p) |}.
  Definition credential_on (c : Credential E) : Credential E' :=
    {| cr_mac := tag_on (cr_mac c); cr_attributes := cr_attributes c |}.
  Definition issuance_on (i : CredentialIssuance E) : CredentialIssuance E' :=
    {| is_secret_key_commitment := f (is_secret_key_commitment i); is_credential := credential_on (is_credential i);
       is_proof := is_proof i |}.
  Definition presentation_on (p : CredentialPresentation E) : CredentialPresentation E' :=
    {| pr_rerandomized_mac_commitment := f (pr_rerandomized_mac_commitment p);
       pr_rerandomized_nonce := f (pr_rerandomized_nonce p); pr_attributes_revealed := pr_attributes_revealed p;
       pr_attributes_blinded := map f (pr_attributes_blinded p); pr_proof := pr_proof p |}.
  Definition verified_on (v : VerifiedCredential E) : VerifiedCredential E' :=
    {| vf_presentation := presentation_on (vf_presentation v) |}.
  Definition issuer_on (i : Issuer E) : Issuer E' :=
    {| iss_system_parameters := params_on (iss_system_parameters i); iss_keypair := keypair_on (iss_keypair i) |}.
  Definition user_on (u : User E) : User E' :=
    {| us_system_parameters := params_on (us_system_parameters u); us_issuer_parameters := public_on (us_issuer_parameters u);
       us_key := option_map elgamal_on (us_key u); us_credential := option_map credential_on (us_credential u) |}.
  Definition entry_on (e : RosterEntryCommitment E) : RosterEntryCommitment E' :=
    {| re_commitment := f (re_commitment e); re_opening := re_opening e |}.
  Definition signal_presentation_on (p : SignalCredentialPresentation E) : SignalCredentialPresentation E' :=
    {| sc_roster_entry_commitment := f (sc_roster_entry_commitment p); sc_presentation := presentation_on (sc_presentation p);
       sc_roster_membership_proof := sc_roster_membership_proof p |}.
  Definition verified_signal_on (v : VerifiedSignalCredential E) : VerifiedSignalCredential E' :=
    {| vs_presentation := signal_presentation_on (vs_presentation v) |}.
  Definition signal_user_on (u : SignalUser E) : SignalUser E' :=
    {| su_phone_number := su_phone_number u; su_user := user_on (su_user u) |}.

  (** *** Points *)
  Lemma psub_on P Q : psub (f P) (f Q) = f (psub P Q).
  Proof. unfold psub. rewrite (same_neg _ _ _ M), (same_add _ _ _ M). reflexivity. Qed.
  Lemma pmul_pos_on p : forall P, pmul_pos p (f P) = f (pmul_pos p P).
  Proof.
    induction p as [p IH|p IH|]; intros P; cbn [pmul_pos]; rewrite ?(same_add _ _ _ M), ?IH, ?(same_add _ _ _ M); reflexivity.
  Qed.
  Lemma smul_on k P : smul k (f P) = f (smul k P).
  Proof.
    destruct k; cbn [smul]; [apply (same_zero _ _ _ M)|apply pmul_pos_on|]. rewrite pmul_pos_on. apply (same_neg _ _ _ M).
  Qed.
  Lemma flat_compress_on l : flat_map compress (map f l) = flat_map compress l.
  Proof. induction l as [|P l IH]; [reflexivity|]. cbn. rewrite (same_compress _ _ _ M), IH. reflexivity. Qed.
  Lemma decompress_on {Er} (e : Er) b : ok_or e (@decompress E' b) = omap f (ok_or e (@decompress E b)).
  Proof. rewrite (same_decompress _ _ _ M). apply ok_or_map. Qed.
  Lemma index_on {Er} l n : @or_panic Er _ (index (map f l) n) = omap f (or_panic (index l n)).
  Proof. unfold index. rewrite nth_error_map. apply or_panic_map. Qed.
  Lemma get_challenge_on t : @get_challenge E' t = @get_challenge E t.
  Proof. unfold get_challenge. rewrite (same_challenge _ _ _ M). reflexivity. Qed.
  Lemma reseed_on t w r : @reseed E' t w r = @reseed E t w r.
  Proof. unfold reseed. destruct (fill_bytes 32 r). rewrite (same_rng _ _ _ M). reflexivity. Qed.

  Ltac points := rewrite ?smul_on, ?(same_zero _ _ _ M), ?(same_basepoint _ _ _ M), ?psub_on, ?(same_add _ _ _ M), ?(same_neg _ _ _ M),
    ?(same_eqb _ _ _ M), ?(same_compress _ _ _ M), ?flat_compress_on, ?get_challenge_on, ?reseed_on.
  Ltac step := first
    [ reflexivity
    | progress points
    | rewrite bind_omap
    | rewrite omap_bind
    | rewrite map_err_omap
    | rewrite decompress_on
    | rewrite index_on
    | match goal with
      | |- bind ?o _ = bind ?o _ => apply bind_ext; intros ?
      | |- (if ?b then _ else _) = omap _ (if ?b then _ else _) => destruct b
      | |- (if ?b then _ else _) = (if ?b then _ else _) => destruct b
      end ].
  Ltac go := cbv beta iota zeta; repeat (step; cbv beta iota zeta).

  (** *** amacs.rs *)
  Lemma tag_from_bytes_on b : @tag_from_bytes E' b = omap tag_on (@tag_from_bytes E b).
  Proof. unfold tag_from_bytes. go. Qed.
  Lemma tag_to_bytes_on t : tag_to_bytes (tag_on t) = tag_to_bytes t.
  Proof. unfold tag_to_bytes, tag_on. cbn. go. Qed.
  Lemma public_key_from_bytes_on b : @public_key_from_bytes E' b = omap public_on (@public_key_from_bytes E b).
  Proof.
    unfold public_key_from_bytes. cbv zeta. destruct (negb _); [reflexivity|].
    rewrite (try_map_omap f (fun chunk => ok_or MacPointDecompressionError (@decompress E chunk))); [go|].
    intros x. apply decompress_on.
  Qed.
  Lemma public_key_to_bytes_on k : public_key_to_bytes (public_on k) = public_key_to_bytes k.
  Proof. apply flat_compress_on. Qed.
  Lemma keypair_from_bytes_on b : (32 <= List.length b)%nat -> @keypair_from_bytes E' b = omap keypair_on (@keypair_from_bytes E b).
  Proof.
    intros Hb. unfold keypair_from_bytes. cbv zeta.
    assert (H : (Z.of_nat (List.length b) <? 32) = false) by (apply Z.ltb_ge; lia).
    rewrite H, !Bool.andb_false_r. set (n := (Z.of_nat (List.length b) - 32) / 2).
    assert (H' : (Z.of_nat (List.length b) <? n) = false).
    { apply Z.ltb_ge. unfold n. apply Z.div_le_upper_bound; lia. }
    rewrite H'. destruct (_ || _)%bool; [reflexivity|]. rewrite omap_bind. apply bind_ext. intros pb.
    rewrite public_key_from_bytes_on. go.
  Qed.
  Lemma keypair_to_bytes_on k : keypair_to_bytes (keypair_on k) = keypair_to_bytes k.
  Proof. unfold keypair_to_bytes. cbn [keypair_on kp_public kp_secret]. rewrite public_key_to_bytes_on. reflexivity. Qed.
  Lemma get_public_key_on k h : get_public_key k (f h) = public_on (get_public_key k h).
  Proof.
    unfold get_public_key, public_on. cbn. f_equal. rewrite map_map. apply map_ext. intros x. apply smul_on.
  Qed.
  Lemma mac_on k msg r : @mac E' k msg r = omap (pmap tag_on) (@mac E k msg r).
  Proof.
    unfold mac, mac_with. destruct (negb _); [reflexivity|]. destruct (scalar_random r). cbn. unfold pmap, tag_on. cbn. go.
  Qed.
  Lemma apply_to_tag_on s t : apply_to_tag s (tag_on t) = tag_on (apply_to_tag s t).
  Proof. unfold apply_to_tag, tag_on. cbn. go. Qed.

  (** *** parameters.rs, pedersen.rs, elgamal.rs *)
  Lemma params_from_bytes_on b : @system_parameters_from_bytes E' b = omap params_on (@system_parameters_from_bytes E b).
  Proof. unfold system_parameters_from_bytes. go. Qed.
  Lemma params_to_bytes_on p : system_parameters_to_bytes (params_on p) = system_parameters_to_bytes p.
  Proof. unfold system_parameters_to_bytes, params_on. cbn. go. Qed.
  Lemma hunt_and_peck_on fuel : forall r, @hunt_and_peck E' fuel r = option_map (pmap params_on) (@hunt_and_peck E fuel r).
  Proof.
    induction fuel as [|n IH]; intros r; [reflexivity|]. cbn [hunt_and_peck]. destruct (fill_bytes 32 r) as [tmp r'].
    unfold peck. points. destruct (bytes_eqb _ _); [apply IH|]. rewrite (same_decompress _ _ _ M).
    destruct (@decompress E tmp); [reflexivity|apply IH].
  Qed.
  Lemma commitment_from_bytes_on b : @commitment_from_bytes E' b = omap f (@commitment_from_bytes E b).
  Proof. unfold commitment_from_bytes. go. Qed.
  Lemma commitment_to_on v n base : commitment_to (f v) n (f base) = f (commitment_to v n base).
  Proof. unfold commitment_to. go. Qed.
  Lemma commitment_open_on c v n base : commitment_open (f c) (f v) n (f base) = commitment_open c v n base.
  Proof. unfold commitment_open. go. Qed.
  Lemma elgamal_keypair_from_bytes_on b : @elgamal_keypair_from_bytes E' b = omap elgamal_on (@elgamal_keypair_from_bytes E b).
  Proof.
    unfold elgamal_keypair_from_bytes. go. unfold elgamal_public_from_bytes. go.
    destruct (negb _); [reflexivity|]. go.
  Qed.
  Lemma elgamal_keypair_to_bytes_on k : elgamal_keypair_to_bytes (elgamal_on k) = elgamal_keypair_to_bytes k.
  Proof. unfold elgamal_keypair_to_bytes, elgamal_public_to_bytes. cbn. go. Qed.

  (** *** proofs.rs *)
  Lemma ir_create_on t p s os : ir_create t (irp_on p) s os = ir_create t p s os.
  Proof.
    unfold ir_create, ir_create_absorb, ir_randomness. cbv zeta. rewrite reseed_on. cbn [irp_on irp_P irp_Q irp_Cx0 irp_B irp_A irp_X1].
    points. destruct (reseed _ _ _) as [r os']. repeat (destruct (scalar_random _) as [? ?]). f_equal.
    unfold ir_create_with. cbv zeta. cbn [irp_on irp_P irp_Q irp_Cx0 irp_B irp_A irp_X1]. cbn [multiscalar_mul irc_Q irc_Cx0 irc_X1]. points. reflexivity.
  Qed.
  Lemma ir_verify_on pf t p : ir_verify pf t (irp_on p) = ir_verify pf t p.
  Proof.
    unfold ir_verify, ir_recompute. cbv zeta. cbn [irp_on irp_P irp_Q irp_Cx0 irp_B irp_A irp_X1].
    cbn [multiscalar_mul irc_Q irc_Cx0 irc_X1]. points. reflexivity.
  Qed.
  Lemma vc_create_on t p s os : vc_create t (vcp_on p) s os = vc_create t p s os.
  Proof.
    unfold vc_create, vc_create_absorb, vc_randomness. cbv zeta. rewrite reseed_on. cbn [vcp_on vcp_B vcp_A vcp_X0 vcp_P vcp_V vcp_Cm0].
    points. destruct (reseed _ _ _) as [r os']. repeat (destruct (scalar_random _) as [? ?]). f_equal.
    unfold vc_create_with. cbv zeta. cbn [vcp_on vcp_B vcp_A vcp_X0 vcp_P vcp_V vcp_Cm0]. cbn [multiscalar_mul vcc_Cm0 vcc_V]. points. reflexivity.
  Qed.
  Lemma vc_verify_on pf t p : vc_verify pf t (vcp_on p) = vc_verify pf t p.
  Proof.
    unfold vc_verify, vc_recompute. cbv zeta. cbn [vcp_on vcp_B vcp_A vcp_X0 vcp_P vcp_V vcp_Cm0].
    cbn [multiscalar_mul vcc_Cm0 vcc_V]. points. reflexivity.
  Qed.
  Lemma ce_create_on t p s os : ce_create t (cep_on p) s os = ce_create t p s os.
  Proof.
    unfold ce_create, ce_create_absorb, ce_randomness. cbv zeta. rewrite reseed_on. cbn [cep_on cep_B cep_A cep_P cep_Cm0 cep_Cm1].
    points. destruct (reseed _ _ _) as [r os']. repeat (destruct (scalar_random _) as [? ?]). f_equal.
    unfold ce_create_with. cbv zeta. cbn [cep_on cep_B cep_A cep_P cep_Cm0 cep_Cm1]. cbn [multiscalar_mul cec_Cm0 cec_Cm1]. points. reflexivity.
  Qed.
  Lemma ce_verify_on pf t p : ce_verify pf t (cep_on p) = ce_verify pf t p.
  Proof.
    unfold ce_verify, ce_recompute. cbv zeta. cbn [cep_on cep_B cep_A cep_P cep_Cm0 cep_Cm1].
    cbn [multiscalar_mul cec_Cm0 cec_Cm1]. points. reflexivity.
  Qed.

  (** *** credential.rs *)
  Lemma credential_from_bytes_on b : @credential_from_bytes E' b = omap credential_on (@credential_from_bytes E b).
  Proof. unfold credential_from_bytes. go. rewrite tag_from_bytes_on. go. Qed.
  Lemma credential_to_bytes_on c : credential_to_bytes (credential_on c) = credential_to_bytes c.
  Proof. unfold credential_to_bytes. cbn [credential_on cr_mac cr_attributes]. rewrite tag_to_bytes_on. reflexivity. Qed.
  Lemma issuance_from_bytes_on b : @issuance_from_bytes E' b = omap issuance_on (@issuance_from_bytes E b).
  Proof. unfold issuance_from_bytes. go. rewrite commitment_from_bytes_on. go. rewrite credential_from_bytes_on. go. Qed.
  Lemma issuance_to_bytes_on i : issuance_to_bytes (issuance_on i) = issuance_to_bytes i.
  Proof.
    unfold issuance_to_bytes, commitment_to_bytes. cbn [issuance_on is_secret_key_commitment is_credential is_proof].
    rewrite credential_to_bytes_on. points. reflexivity.
  Qed.
  Lemma presentation_attributes_on cs : forall n, @presentation_attributes E' n cs =
    omap (fun p => (fst p, map f (snd p))) (@presentation_attributes E n cs).
  Proof.
    induction cs as [|c cs IH]; intros n; [reflexivity|]. cbn [presentation_attributes].
    destruct (n <? _)%nat; [|rewrite commitment_from_bytes_on]; go; rewrite IH; go; destruct a0 as [x y]; reflexivity.
  Qed.
  Lemma presentation_from_bytes_on b : @presentation_from_bytes E' b = omap presentation_on (@presentation_from_bytes E b).
  Proof.
    unfold presentation_from_bytes. go. rewrite commitment_from_bytes_on. go. rewrite presentation_attributes_on. go.
    destruct a4 as [x y]. cbn [fst snd]. go.
  Qed.
  Lemma flat_commitment_on l : flat_map commitment_to_bytes (map f l) = flat_map commitment_to_bytes l.
  Proof. apply flat_compress_on. Qed.
  Lemma presentation_to_bytes_on p : presentation_to_bytes (presentation_on p) = presentation_to_bytes p.
  Proof.
    unfold presentation_to_bytes. cbn [presentation_on pr_rerandomized_mac_commitment pr_rerandomized_nonce pr_attributes_revealed pr_attributes_blinded pr_proof].
    rewrite flat_commitment_on. unfold commitment_to_bytes. points. reflexivity.
  Qed.

  (** *** issuer.rs *)
  Lemma issuer_from_bytes_on b : @issuer_from_bytes E' b = omap issuer_on (@issuer_from_bytes E b).
  Proof.
    unfold issuer_from_bytes. destruct (List.length b <? 64 + 96)%nat eqn:Hb; [reflexivity|]. apply Nat.ltb_ge in Hb.
    rewrite omap_bind. apply bind_ext. intros pb. rewrite params_from_bytes_on, bind_omap, omap_bind. apply bind_ext. intros p.
    rewrite slice_from_some by (unfold bytes in *; lia). cbn [or_panic bind].
    rewrite keypair_from_bytes_on by (rewrite skipn_length; unfold bytes in *; lia). go.
  Qed.
  Lemma issuer_to_bytes_on i : issuer_to_bytes (issuer_on i) = issuer_to_bytes i.
  Proof.
    unfold issuer_to_bytes. cbn [issuer_on iss_system_parameters iss_keypair]. rewrite params_to_bytes_on, keypair_to_bytes_on. reflexivity.
  Qed.
  Lemma issuer_create_on p r : issuer_create (params_on p) r = pmap issuer_on (issuer_create p r).
  Proof.
    unfold issuer_create, keypair_new. destruct (secret_key_new _ _) as [k r']. unfold pmap, issuer_on, keypair_on. cbn.
    rewrite get_public_key_on. reflexivity.
  Qed.
  Lemma issue_statement_on i X1 x1 m t z : issue_statement (issuer_on i) (f X1) x1 m (tag_on t) z =
    omap (pmap irp_on) (issue_statement i X1 x1 m t z).
  Proof.
    unfold issue_statement. cbv zeta. cbn [issuer_on iss_system_parameters iss_keypair params_on sp_g sp_h keypair_on kp_secret].
    rewrite smul_on, commitment_to_on. go.
  Qed.
  Lemma issue_on i rq r os : issue (issuer_on i) rq r os = omap (pmap (pmap issuance_on)) (issue i rq r os).
  Proof.
    unfold issue. cbn [issuer_on iss_keypair keypair_on kp_public kp_secret public_on pk_Xn].
    rewrite nth_error_map, ok_or_map. go. destruct (reseed _ _ _) as [cs r']. rewrite mac_on. go. destruct a1 as [tag cs']. unfold pmap at 1. cbn [fst snd].
    destruct (ephemeral_new cs') as [z cs'']. rewrite issue_statement_on. go. destruct a1 as [pub sec].
    unfold pmap at 1. cbn [fst snd]. rewrite ir_create_on. destruct (ir_create _ _ _ _) as [pf os']. reflexivity.
  Qed.
  Lemma verify_revealed_on xn P m : forall n V, verify_revealed xn (f P) n m (f V) = omap f (verify_revealed xn P n m V).
  Proof.
    induction m as [|x m IH]; intros n V; [reflexivity|]. cbn [verify_revealed]. rewrite omap_bind. apply bind_ext. intros a.
    points. apply IH.
  Qed.
  Lemma verify_blinded_on xn m : forall n V, verify_blinded xn n (map f m) (f V) = omap f (verify_blinded xn n m V).
  Proof.
    induction m as [|x m IH]; intros n V; [reflexivity|]. cbn [verify_blinded map]. rewrite omap_bind. apply bind_ext. intros a.
    points. apply IH.
  Qed.
  Lemma verify_statement_on i p : verify_statement (issuer_on i) (presentation_on p) = omap vcp_on (verify_statement i p).
  Proof.
    unfold verify_statement. cbv zeta.
    cbn [issuer_on iss_system_parameters iss_keypair params_on sp_g sp_h keypair_on kp_secret kp_public public_on pk_Xn
         presentation_on pr_rerandomized_mac_commitment pr_rerandomized_nonce pr_attributes_revealed pr_attributes_blinded].
    rewrite smul_on, verify_revealed_on. go. rewrite verify_blinded_on. go.
  Qed.
  Lemma issuer_verify_on i p : issuer_verify (issuer_on i) (presentation_on p) = omap verified_on (issuer_verify i p).
  Proof. unfold issuer_verify. rewrite verify_statement_on. go. rewrite vc_verify_on. go. Qed.

  (** *** user.rs *)
  Lemma user_from_bytes_on b : @user_from_bytes E' b = omap user_on (@user_from_bytes E b).
  Proof.
    unfold user_from_bytes. go. rewrite params_from_bytes_on. go. rewrite public_key_from_bytes_on. go.
    rewrite elgamal_keypair_from_bytes_on.
    transitivity (do key <- omap (option_map elgamal_on) (if bytes_eqb a3 (zeros 64) then Ok None else do k <- @elgamal_keypair_from_bytes E a3; Ok (Some k));
      do cb <- or_panic (slice 160 256 b);
      do credential <- omap (option_map credential_on) (if bytes_eqb cb (zeros 96) then Ok None
                      else do cb <- or_panic (slice_from 160 b); do c <- @credential_from_bytes E cb; Ok (Some c));
      Ok {| us_system_parameters := params_on a0; us_issuer_parameters := public_on a2; us_key := key; us_credential := credential |}).
    - destruct (bytes_eqb a3 (zeros 64)).
      + cbn [bind omap option_map]. apply bind_ext. intros cb. destruct (bytes_eqb cb (zeros 96)); [reflexivity|].
        destruct (slice_from 160 b) as [w|]; cbn [or_panic bind omap]; [|reflexivity]. rewrite credential_from_bytes_on.
        destruct (@credential_from_bytes E w); reflexivity.
      + destruct (@elgamal_keypair_from_bytes E a3); cbn [omap bind option_map]; [|reflexivity..].
        apply bind_ext. intros cb. destruct (bytes_eqb cb (zeros 96)); [reflexivity|].
        destruct (slice_from 160 b) as [w|]; cbn [or_panic bind omap]; [|reflexivity]. rewrite credential_from_bytes_on.
        destruct (@credential_from_bytes E w); reflexivity.
    - go.
  Qed.
  Lemma user_to_bytes_on u : user_to_bytes (user_on u) = user_to_bytes u.
  Proof.
    unfold user_to_bytes. cbn [user_on us_system_parameters us_issuer_parameters us_key us_credential].
    rewrite params_to_bytes_on, public_key_to_bytes_on. destruct (us_key u), (us_credential u); cbn [option_map];
      rewrite ?elgamal_keypair_to_bytes_on, ?credential_to_bytes_on; reflexivity.
  Qed.
  Lemma obtain_finish_on u i : obtain_finish (user_on u) (option_map issuance_on i) =
    (user_on (fst (obtain_finish u i)), snd (obtain_finish u i)).
  Proof.
    unfold obtain_finish. cbv zeta. destruct i as [i|]; [|reflexivity]. cbn [option_map user_on us_issuer_parameters public_on pk_Xn].
    rewrite nth_error_map. destruct (nth_error _ _) as [X1|]; [|reflexivity]. cbn [option_map].
    match goal with |- match ir_verify ?a ?b ?p' with _ => _ end = (user_on (fst (match ir_verify _ _ ?p with _ => _ end)), _) =>
      change p' with (irp_on p) end.
    rewrite ir_verify_on. cbn [issuance_on is_proof]. destruct (ir_verify _ _ _); reflexivity.
  Qed.
  Lemma show_commitments_on P A z m : show_commitments (f P) (f A) z m = map f (show_commitments P A z m).
  Proof. unfold show_commitments. rewrite map_map. apply map_ext. intros x. rewrite smul_on. apply commitment_to_on. Qed.
  Lemma show_error_factor_on Xn z : forall n V, show_error_factor (map f Xn) n z (f V) = omap f (show_error_factor Xn n z V).
  Proof.
    induction z as [|x z IH]; intros n V; [reflexivity|]. cbn [show_error_factor]. rewrite index_on, bind_omap, omap_bind. apply bind_ext.
    intros a. points. apply IH.
  Qed.
  Lemma show_statement_on u c z s q : show_statement (user_on u) (credential_on c) z s q =
    omap (pmap (fun x => (f (fst (fst x)), map f (snd (fst x)), vcp_on (snd x)))) (show_statement u c z s q).
  Proof.
    unfold show_statement. cbv zeta. cbn [user_on us_system_parameters us_issuer_parameters params_on sp_g sp_h credential_on cr_mac cr_attributes public_on pk_Xn].
    rewrite apply_to_tag_on. cbn [tag_on tag_nonce tag_mac]. rewrite show_commitments_on, (same_zero _ _ _ M), show_error_factor_on, commitment_to_on.
    go.
  Qed.
  Lemma show_on u z r os : show (user_on u) z r os = omap (pmap (pmap presentation_on)) (show u z r os).
  Proof.
    unfold show. cbn [user_on us_credential]. rewrite ok_or_map. go. destruct (reseed _ _ _) as [cs r'].
    destruct (scalar_random cs) as [s cs']. destruct (ephemeral_new cs') as [q cs''].
    rewrite show_statement_on. go. destruct a0 as [[[CQ cm] pub] sec]. unfold pmap at 1. cbn [fst snd].
    rewrite vc_create_on. destruct (vc_create _ _ _ _) as [pf os']. reflexivity.
  Qed.

  (** *** signal-credential *)
  Lemma committed_from_bytes_on b : @committed_from_bytes E' b = omap f (@committed_from_bytes E b).
  Proof. unfold committed_from_bytes. rewrite commitment_from_bytes_on. go. Qed.
  Lemma committed_to_bytes_on P : committed_to_bytes (f P) = committed_to_bytes P.
  Proof. apply (same_compress _ _ _ M). Qed.
  Lemma roster_from_bytes_on b : @roster_from_bytes E' b = omap entry_on (@roster_from_bytes E b).
  Proof. unfold roster_from_bytes. go. rewrite committed_from_bytes_on. go. Qed.
  Lemma roster_to_bytes_on e : roster_to_bytes (entry_on e) = roster_to_bytes e.
  Proof. unfold roster_to_bytes. cbn [entry_on re_commitment re_opening]. rewrite committed_to_bytes_on. reflexivity. Qed.
  Lemma roster_create_on n p r : roster_create n (params_on p) r = omap (pmap entry_on) (roster_create n p r).
  Proof.
    unfold roster_create. destruct (ephemeral_new r) as [z r']. go. unfold pmap, entry_on, committed_from_phone_number.
    cbn [params_on sp_g sp_h fst snd re_commitment re_opening]. rewrite smul_on, commitment_to_on. reflexivity.
  Qed.
  Lemma roster_open_on e n p : roster_open (entry_on e) n (params_on p) = roster_open e n p.
  Proof.
    unfold roster_open, committed_open. cbn [entry_on re_commitment re_opening params_on sp_g sp_h]. apply bind_ext. intros m.
    rewrite smul_on, commitment_open_on. reflexivity.
  Qed.
  Lemma signal_presentation_from_bytes_on b :
    @signal_presentation_from_bytes E' b = omap signal_presentation_on (@signal_presentation_from_bytes E b).
  Proof. unfold signal_presentation_from_bytes. go. rewrite committed_from_bytes_on. go. rewrite presentation_from_bytes_on. go. Qed.
  Lemma signal_presentation_to_bytes_on p : signal_presentation_to_bytes (signal_presentation_on p) = signal_presentation_to_bytes p.
  Proof.
    unfold signal_presentation_to_bytes. cbn [signal_presentation_on sc_roster_entry_commitment sc_presentation sc_roster_membership_proof].
    rewrite committed_to_bytes_on, presentation_to_bytes_on. reflexivity.
  Qed.
  Lemma verified_signal_from_bytes_on b : @verified_signal_from_bytes E' b = omap verified_signal_on (@verified_signal_from_bytes E b).
  Proof. unfold verified_signal_from_bytes. rewrite signal_presentation_from_bytes_on. go. Qed.
  Lemma signal_issue_on i n r os : signal_issue (issuer_on i) n r os = omap (pmap (pmap issuance_on)) (signal_issue i n r os).
  Proof. unfold signal_issue. rewrite omap_bind. apply bind_ext. intros m. apply issue_on. Qed.
  Lemma signal_verify_on i p : signal_verify (issuer_on i) (signal_presentation_on p) = omap verified_signal_on (signal_verify i p).
  Proof. unfold signal_verify. cbn [signal_presentation_on sc_presentation]. rewrite issuer_verify_on. go. Qed.
  Lemma verify_roster_membership_on i v : verify_roster_membership (issuer_on i) (verified_signal_on v) = omap f (verify_roster_membership i v).
  Proof.
    unfold verify_roster_membership. cbv zeta.
    cbn [verified_signal_on vs_presentation signal_presentation_on sc_presentation sc_roster_entry_commitment sc_roster_membership_proof
         presentation_on pr_attributes_blinded pr_rerandomized_nonce].
    rewrite index_on. rewrite bind_omap, omap_bind. apply bind_ext. intros C.
    match goal with |- bind (map_err _ (ce_verify _ _ ?p')) _ = omap _ (bind (map_err _ (ce_verify _ _ ?p)) _) => change p' with (cep_on p) end.
    rewrite ce_verify_on. go.
  Qed.
  Lemma signal_user_from_bytes_on b : @signal_user_from_bytes E' b = omap signal_user_on (@signal_user_from_bytes E b).
  Proof. unfold signal_user_from_bytes. go. rewrite user_from_bytes_on. go. Qed.
  Lemma signal_user_to_bytes_on u : signal_user_to_bytes (signal_user_on u) = signal_user_to_bytes u.
  Proof. unfold signal_user_to_bytes. cbn [signal_user_on su_phone_number su_user]. rewrite user_to_bytes_on. reflexivity. Qed.
  Lemma signal_user_new_on p k n : signal_user_new (params_on p) (public_on k) None n = omap signal_user_on (signal_user_new p k None n).
  Proof. unfold signal_user_new. go. Qed.
  Lemma signal_obtain_finish_on u i : signal_obtain_finish (signal_user_on u) (option_map issuance_on i) =
    pmap signal_user_on (signal_obtain_finish u i).
  Proof.
    unfold signal_obtain_finish. cbn [signal_user_on su_user su_phone_number]. rewrite obtain_finish_on.
    destruct (obtain_finish _ _) as [u' o]. reflexivity.
  Qed.
  Lemma roster_statement_on u c z p e : roster_statement (signal_user_on u) (credential_on c) z (presentation_on p) (entry_on e) =
    omap (pmap cep_on) (roster_statement u c z p e).
  Proof.
    unfold roster_statement. cbn [credential_on cr_attributes presentation_on pr_attributes_blinded]. go.
  Qed.
  Lemma signal_show_on u r os e : signal_show (signal_user_on u) r os (entry_on e) =
    omap (pmap (pmap signal_presentation_on)) (signal_show u r os e).
  Proof.
    unfold signal_show. cbn [signal_user_on su_user user_on us_credential]. rewrite ok_or_map, bind_omap, omap_bind. apply bind_ext. intros c.
    destruct (nonces_new r _) as [z r1]. change (show _ z r1 os) with (show (user_on (su_user u)) z r1 os) at 1.
    rewrite show_on, bind_omap, omap_bind. apply bind_ext. intros [[p r2] os2]. unfold pmap at 1 2. cbn [fst snd].
    rewrite roster_statement_on, bind_omap, omap_bind. apply bind_ext. intros [pub sec]. unfold pmap at 1. cbn [fst snd].
    rewrite ce_create_on. destruct (ce_create _ _ _ _) as [pf os3]. reflexivity.
  Qed.
End two.
