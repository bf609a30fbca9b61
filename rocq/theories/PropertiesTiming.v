(** C92: what running time shows of keys, phone numbers and randomness. *)
From Verif Require Import BaseFacts Algebra Toy PhoneFacts CodecFacts PropertiesPhone PropertiesCodec PropertiesIssue PropertiesShow.
From Verif Require Import SpecCodec SpecTiming TimingFacts.

(** ** The timed functions compute what the model computes. *)
Section computes.
  Context {E : Ext}.

  Lemma scalars_random_result n r : snd (t_scalars_random n r) = scalars_random n r.
  Proof.
    revert r. induction n as [|n IH]; intros r; [reflexivity|]. cbn [t_scalars_random scalars_random].
    rewrite snd_tbind. destruct (scalar_random r) as [x r']. rewrite snd_tbind, IH.
    destruct (scalars_random n r'). reflexivity.
  Qed.
  Lemma secret_key_new_result n r : snd (t_secret_key_new n r) = secret_key_new n r.
  Proof.
    unfold t_secret_key_new, secret_key_new. destruct (scalar_random r) as [x r'].
    rewrite snd_tbind, scalars_random_result. destruct (scalars_random n r'). reflexivity.
  Qed.
  Lemma read_secret_result c x xn : snd (t_read_secret c (Some x) xn) =
    bind (try_map (fun chunk => ok_or MacScalarFormatError (from_canonical_bytes chunk)) c)
      (fun xs => Ok (Some x, (xn ++ xs)%list)).
  Proof.
    revert xn. induction c as [|b c IH]; intros xn; [cbn; rewrite app_nil_r; reflexivity|].
    cbn [t_read_secret try_map]. autorewrite with timed. destruct (ok_or _ _) as [y| |]; try reflexivity.
    cbn [bind]. autorewrite with timed. rewrite IH. match goal with |- context [try_map ?f c] => destruct (try_map f c); cbn; try reflexivity end.
    rewrite <- app_assoc. reflexivity.
  Qed.
  Lemma secret_key_from_bytes_result b : snd (t_secret_key_from_bytes b) = secret_key_from_bytes b.
  Proof.
    unfold t_secret_key_from_bytes, secret_key_from_bytes. autorewrite with timed.
    destruct (negb _); [reflexivity|]. autorewrite with timed.
    destruct (List.length b =? 0)%nat; [reflexivity|]. autorewrite with timed.
    destruct (chunks 32 b) as [|c cs]; [reflexivity|]. cbn [t_read_secret try_map]. autorewrite with timed.
    destruct (ok_or _ (from_canonical_bytes c)) as [y| |]; try reflexivity.
    cbn [bind]. autorewrite with timed. rewrite read_secret_result.
    match goal with |- context [try_map ?f cs] => destruct (try_map f cs); reflexivity end.
  Qed.
  Lemma public_elements_result (h : point E) xn : snd (t_public_elements h xn) = map (fun xi => smul xi h) xn.
  Proof.
    induction xn as [|x xn IH]; [reflexivity|]. cbn [t_public_elements map].
    autorewrite with timed. rewrite IH. reflexivity.
  Qed.
  Lemma get_public_key_result k (h : point E) : snd (t_get_public_key k h) = get_public_key k h.
  Proof. unfold t_get_public_key, get_public_key. autorewrite with timed. rewrite public_elements_result. reflexivity. Qed.
  Lemma mac_exponent_result e xn m : snd (t_mac_exponent e xn m) = mac_exponent e xn m.
  Proof.
    revert e m. induction xn as [|x xn IH]; intros e [|y m]; try reflexivity.
    cbn [t_mac_exponent mac_exponent]. autorewrite with timed. apply IH.
  Qed.
  Lemma mac_result k m r : snd (@t_mac E k m r) = mac k m r.
  Proof.
    unfold t_mac, mac, mac_with. autorewrite with timed. destruct (negb _); [reflexivity|].
    destruct (scalar_random r). autorewrite with timed. rewrite mac_exponent_result. reflexivity.
  Qed.
  Lemma verify_exponent_result e xn m : snd (t_verify_exponent e xn m) = verify_exponent e xn m.
  Proof.
    revert e m. induction xn as [|x xn IH]; intros e [|y m]; try reflexivity.
    cbn [t_verify_exponent verify_exponent]. autorewrite with timed. apply IH.
  Qed.
  Lemma mac_verify_result k (t : Tag E) m : snd (t_mac_verify k t m) = mac_verify k t m.
  Proof.
    unfold t_mac_verify, mac_verify. autorewrite with timed. destruct (peqb _ basepoint); [reflexivity|].
    autorewrite with timed. rewrite verify_exponent_result. reflexivity.
  Qed.
  Lemma public_key_from_bytes_result b : snd (@t_public_key_from_bytes E b) = public_key_from_bytes b.
  Proof.
    unfold t_public_key_from_bytes, public_key_from_bytes. autorewrite with timed. destruct (negb _); [reflexivity|].
    autorewrite with timed.
    rewrite (snd_t_try_map _ (fun chunk => ok_or MacPointDecompressionError (decompress chunk)));
      [|intros; autorewrite with timed; reflexivity].
    apply bind_same. reflexivity.
  Qed.
  Lemma tag_from_bytes_result b : snd (@t_tag_from_bytes E b) = tag_from_bytes b.
  Proof. unfold t_tag_from_bytes, tag_from_bytes. same_result. Qed.
  Lemma keypair_from_bytes_result b : snd (@t_keypair_from_bytes E b) = keypair_from_bytes b.
  Proof.
    unfold t_keypair_from_bytes, keypair_from_bytes. autorewrite with timed.
    destruct (debug_build E && _); [reflexivity|]. autorewrite with timed.
    destruct (_ || _); [reflexivity|]. autorewrite with timed. apply bind_same. intros pb.
    autorewrite with timed. rewrite public_key_from_bytes_result. apply bind_same. intros pk.
    autorewrite with timed. apply bind_same. intros sb. autorewrite with timed.
    rewrite secret_key_from_bytes_result. apply bind_same. reflexivity.
  Qed.
  Lemma keypair_new_result (h : point E) r : snd (t_keypair_new h r) = keypair_new h r.
  Proof.
    unfold t_keypair_new, keypair_new. autorewrite with timed. rewrite secret_key_new_result.
    destruct (secret_key_new _ r) as [k r']. autorewrite with timed. rewrite get_public_key_result. reflexivity.
  Qed.
  Lemma system_parameters_from_bytes_result b :
    snd (@t_system_parameters_from_bytes E b) = system_parameters_from_bytes b.
  Proof. unfold t_system_parameters_from_bytes, system_parameters_from_bytes. same_result. Qed.
  Lemma commitment_open_result (c v : point E) n base : snd (t_commitment_open c v n base) = commitment_open c v n base.
  Proof. reflexivity. Qed.
  Lemma elgamal_keypair_from_bytes_result b :
    snd (@t_elgamal_keypair_from_bytes E b) = elgamal_keypair_from_bytes b.
  Proof.
    unfold t_elgamal_keypair_from_bytes, elgamal_keypair_from_bytes, t_elgamal_secret_from_bytes,
      elgamal_secret_from_bytes, t_elgamal_public_from_bytes, elgamal_public_from_bytes. same_result.
  Qed.

  (** The proofs. *)
  Lemma ir_create_result t (p : ir_Publics E) s os : snd (t_ir_create t p s os) = ir_create t p s os.
  Proof. unfold t_ir_create, ir_create. destruct (ir_randomness _ _ _). reflexivity. Qed.
  Lemma ab_create_result t (p : ab_Publics E) s os : snd (t_ab_create t p s os) = ab_create t p s os.
  Proof. unfold t_ab_create, ab_create. destruct (ab_randomness _ _ _). reflexivity. Qed.
  Lemma ib_create_result t (p : ib_Publics E) s os : snd (t_ib_create t p s os) = ib_create t p s os.
  Proof. unfold t_ib_create, ib_create. destruct (ib_randomness _ _ _). reflexivity. Qed.
  Lemma vc_create_result t (p : vc_Publics E) s os : snd (t_vc_create t p s os) = vc_create t p s os.
  Proof. unfold t_vc_create, vc_create. destruct (vc_randomness _ _ _). reflexivity. Qed.
  Lemma ce_create_result t (p : ce_Publics E) s os : snd (t_ce_create t p s os) = ce_create t p s os.
  Proof. unfold t_ce_create, ce_create. destruct (ce_randomness _ _ _). reflexivity. Qed.
  Lemma ir_verify_result p t (q : ir_Publics E) : snd (t_ir_verify p t q) = ir_verify p t q.
  Proof. reflexivity. Qed.
  Lemma ab_verify_result p t (q : ab_Publics E) : snd (t_ab_verify p t q) = ab_verify p t q.
  Proof. reflexivity. Qed.
  Lemma ib_verify_result p t (q : ib_Publics E) : snd (t_ib_verify p t q) = ib_verify p t q.
  Proof. reflexivity. Qed.
  Lemma vc_verify_result p t (q : vc_Publics E) : snd (t_vc_verify p t q) = vc_verify p t q.
  Proof. reflexivity. Qed.
  Lemma ce_verify_result p t (q : ce_Publics E) : snd (t_ce_verify p t q) = ce_verify p t q.
  Proof. reflexivity. Qed.

  (** The issuer. *)
  Lemma credential_from_bytes_result b : snd (@t_credential_from_bytes E b) = credential_from_bytes b.
  Proof.
    unfold t_credential_from_bytes, credential_from_bytes. autorewrite with timed.
    destruct (_ || (_ <? _)%nat); [reflexivity|]. autorewrite with timed. cbn [orb].
    destruct (negb _); [reflexivity|]. autorewrite with timed. apply bind_same. intros tb.
    autorewrite with timed. rewrite tag_from_bytes_result. apply bind_same. intros tag.
    autorewrite with timed. apply bind_same. intros ab. autorewrite with timed.
    rewrite (snd_t_try_map _ attribute_from_chunk); [apply bind_same; reflexivity|].
    intros x. unfold t_attribute_from_chunk, attribute_from_chunk. same_result.
  Qed.
  Lemma issuer_from_bytes_result b : snd (@t_issuer_from_bytes E b) = issuer_from_bytes b.
  Proof.
    unfold t_issuer_from_bytes, issuer_from_bytes. autorewrite with timed.
    destruct (_ <? _)%nat; [reflexivity|]. autorewrite with timed. apply bind_same. intros pb.
    autorewrite with timed. rewrite system_parameters_from_bytes_result. apply bind_same. intros params.
    autorewrite with timed. apply bind_same. intros kb. autorewrite with timed.
    rewrite keypair_from_bytes_result. apply bind_same. reflexivity.
  Qed.
  Lemma issuer_create_result (params : SystemParameters E) r : snd (t_issuer_create params r) = issuer_create params r.
  Proof.
    unfold t_issuer_create, issuer_create. autorewrite with timed. rewrite keypair_new_result.
    destruct (keypair_new _ r). reflexivity.
  Qed.
  Lemma issue_result (i : Issuer E) q r os : snd (t_issue i q r os) = issue i q r os.
  Proof.
    unfold t_issue, issue. autorewrite with timed. apply bind_same. intros X1.
    autorewrite with timed. apply bind_same. intros x1. destruct (reseed _ _ r) as [c r'].
    autorewrite with timed. rewrite mac_result. apply bind_same. intros [tag c'].
    destruct (ephemeral_new c') as [x0t c'']. autorewrite with timed.
    unfold t_issue_statement, issue_statement. autorewrite with timed.
    destruct (index (rq_attributes_revealed q) 0); [|reflexivity]. cbn [or_panic bind].
    autorewrite with timed. cbn [bind]. autorewrite with timed. rewrite ir_create_result.
    destruct (ir_create _ _ _ os). reflexivity.
  Qed.
  Lemma verify_revealed_result xn (P : point E) k attrs V :
    snd (t_verify_revealed xn P k attrs V) = verify_revealed xn P k attrs V.
  Proof.
    revert k V. induction attrs as [|m attrs IH]; intros k V; [reflexivity|].
    cbn [t_verify_revealed verify_revealed]. autorewrite with timed. apply bind_same. intros x. apply IH.
  Qed.
  Lemma verify_blinded_result xn k attrs (V : point E) :
    snd (t_verify_blinded xn k attrs V) = verify_blinded xn k attrs V.
  Proof.
    revert k V. induction attrs as [|m attrs IH]; intros k V; [reflexivity|].
    cbn [t_verify_blinded verify_blinded]. autorewrite with timed. apply bind_same. intros x. apply IH.
  Qed.
  Lemma verify_statement_result (i : Issuer E) p : snd (t_verify_statement i p) = verify_statement i p.
  Proof.
    unfold t_verify_statement, verify_statement. autorewrite with timed. rewrite verify_revealed_result.
    apply bind_same. intros V. autorewrite with timed. rewrite verify_blinded_result.
    apply bind_same. intros V'. same_result.
  Qed.
  Lemma issuer_verify_result (i : Issuer E) p : snd (t_issuer_verify i p) = issuer_verify i p.
  Proof.
    unfold t_issuer_verify, issuer_verify. autorewrite with timed. rewrite verify_statement_result.
    apply bind_same. intros q. autorewrite with timed. rewrite vc_verify_result. apply bind_same. reflexivity.
  Qed.

  (** The user. *)
  Lemma user_from_bytes_result b : snd (@t_user_from_bytes E b) = user_from_bytes b.
  Proof.
    unfold t_user_from_bytes, user_from_bytes. autorewrite with timed.
    destruct (negb _); [reflexivity|]. autorewrite with timed. apply bind_same. intros pb.
    autorewrite with timed. rewrite system_parameters_from_bytes_result. apply bind_same. intros params.
    autorewrite with timed. apply bind_same. intros ib. autorewrite with timed.
    rewrite public_key_from_bytes_result. apply bind_same. intros ip. autorewrite with timed.
    apply bind_same. intros kb. autorewrite with timed. apply bind_equal.
    - autorewrite with timed. destruct (bytes_eqb kb _); [reflexivity|]. autorewrite with timed.
      rewrite elgamal_keypair_from_bytes_result. apply bind_same. reflexivity.
    - intros k. autorewrite with timed. apply bind_same. intros cb. autorewrite with timed.
      apply bind_equal; [|reflexivity]. autorewrite with timed. destruct (bytes_eqb cb _); [reflexivity|]. autorewrite with timed. apply bind_same. intros cb'.
      autorewrite with timed. rewrite credential_from_bytes_result. apply bind_same. reflexivity.
  Qed.
  Lemma obtain_finish_result (u : User E) i : snd (t_obtain_finish u i) = obtain_finish u i.
  Proof.
    unfold t_obtain_finish, obtain_finish. destruct i as [i|]; [|reflexivity]. autorewrite with timed.
    destruct (nth_error _ 0) as [X1|]; [|reflexivity]. autorewrite with timed. rewrite ir_verify_result.
    destruct (ir_verify _ _ _); reflexivity.
  Qed.
  Lemma show_commitments_result (P A : point E) nonces attrs :
    snd (t_show_commitments P A nonces attrs) = show_commitments P A nonces attrs.
  Proof.
    revert attrs. induction nonces as [|z nonces IH]; intros [|m attrs]; try reflexivity.
    cbn [t_show_commitments]. autorewrite with timed. rewrite IH. reflexivity.
  Qed.
  Lemma show_error_factor_result Xn k nonces (V : point E) :
    snd (t_show_error_factor Xn k nonces V) = show_error_factor Xn k nonces V.
  Proof.
    revert k V. induction nonces as [|z nonces IH]; intros k V; [reflexivity|].
    cbn [t_show_error_factor show_error_factor]. autorewrite with timed. apply bind_same. intros X. apply IH.
  Qed.
  Lemma show_statement_result (u : User E) c nonces a z :
    snd (t_show_statement u c nonces a z) = show_statement u c nonces a z.
  Proof.
    unfold t_show_statement, show_statement. autorewrite with timed. rewrite show_commitments_result.
    rewrite show_error_factor_result. apply bind_same. intros V. same_result.
  Qed.
  Lemma show_result (u : User E) nonces r os : snd (t_show u nonces r os) = show u nonces r os.
  Proof.
    unfold t_show, show. autorewrite with timed. apply bind_same. intros c.
    destruct (reseed _ _ r) as [g r']. destruct (scalar_random g) as [a g'].
    destruct (ephemeral_new g') as [z g'']. autorewrite with timed. rewrite show_statement_result.
    apply bind_same. intros [[[CQ Cs] p] s]. autorewrite with timed. rewrite vc_create_result.
    destruct (vc_create _ _ _ os). reflexivity.
  Qed.

  (** Phone numbers. *)
  Lemma write_digits_result f g i d bits : (forall x, snd (f x) = g x) ->
    snd (t_write_digits f i d bits) = or_panic (write_digits g i d bits).
  Proof.
    intros H. revert i bits. induction d as [|x d IH]; intros i bits; [reflexivity|].
    cbn [t_write_digits write_digits]. autorewrite with timed. rewrite H.
    destruct (array_set i (g x) bits); [|reflexivity]. cbn [or_panic bind]. apply IH.
  Qed.
  Lemma phone_number_encode_result f g b : (forall x, snd (f x) = g x) ->
    snd (t_phone_number_encode f b) = phone_number_encode g b.
  Proof.
    intros H. unfold t_phone_number_encode, phone_number_encode. autorewrite with timed.
    destruct (32 <? _)%nat; [reflexivity|]. autorewrite with timed. apply bind_same. intros b0.
    autorewrite with timed. apply bind_same. intros b1. autorewrite with timed.
    rewrite (write_digits_result _ g) by exact H. apply bind_same. intros b2. same_result.
  Qed.
  Lemma try_from_string_result b : snd (t_try_from_string b) = try_from_string b.
  Proof. apply phone_number_encode_result. reflexivity. Qed.
  Lemma try_from_bytes_result b : snd (t_try_from_bytes b) = try_from_bytes b.
  Proof. apply phone_number_encode_result. reflexivity. Qed.
  Lemma last_nonzero_snoc l b : last_nonzero (l ++ [b]) = if bz b =? 0 then last_nonzero l else bz b.
  Proof.
    induction l as [|x l IH]; cbn [app last_nonzero].
    - destruct (bz b =? 0) eqn:Hb; [apply Z.eqb_eq in Hb|]; cbn; try rewrite Hb; reflexivity.
    - rewrite IH. destruct (bz b =? 0) eqn:Hb; [reflexivity|]. rewrite Hb. reflexivity.
  Qed.
  Lemma find_length_result i l : snd (t_find_length i l) = last_nonzero (rev l).
  Proof.
    revert i. induction l as [|b l IH]; intros i; [reflexivity|]. cbn [t_find_length rev].
    rewrite last_nonzero_snoc. autorewrite with timed. destruct (bz b =? 0); [apply IH|reflexivity].
  Qed.
  Lemma read_digits_result n i s : snd (t_read_digits n i s) = or_panic (read_digits n i s).
  Proof.
    revert i. induction n as [|n IH]; intros i; [reflexivity|]. cbn [t_read_digits read_digits].
    autorewrite with timed. destruct (index s i) as [d|]; [|reflexivity]. cbn [or_panic bind].
    autorewrite with timed. rewrite IH. destruct (read_digits n (S i) s); reflexivity.
  Qed.
  Lemma phone_number_to_string_result n : snd (t_phone_number_to_string n) = phone_number_to_string n.
  Proof.
    unfold t_phone_number_to_string, phone_number_to_string. autorewrite with timed.
    rewrite find_length_result, rev_involutive. apply read_digits_result.
  Qed.
  Lemma roster_create_result b (params : SystemParameters E) r : snd (t_roster_create b params r) = roster_create b params r.
  Proof.
    unfold t_roster_create, roster_create. destruct (ephemeral_new r). autorewrite with timed.
    rewrite try_from_bytes_result. apply bind_same. reflexivity.
  Qed.
  Lemma roster_open_result (e : RosterEntryCommitment E) b params : snd (t_roster_open e b params) = roster_open e b params.
  Proof.
    unfold t_roster_open, roster_open. autorewrite with timed. rewrite try_from_bytes_result.
    apply bind_same. reflexivity.
  Qed.

  (** signal-credential. *)
  Lemma signal_issue_result (i : Issuer E) b r os : snd (t_signal_issue i b r os) = signal_issue i b r os.
  Proof.
    unfold t_signal_issue, signal_issue. autorewrite with timed. rewrite try_from_bytes_result.
    apply bind_same. intros n. apply issue_result.
  Qed.
  Lemma signal_verify_result (i : Issuer E) p : snd (t_signal_verify i p) = signal_verify i p.
  Proof.
    unfold t_signal_verify, signal_verify. autorewrite with timed. rewrite issuer_verify_result.
    apply bind_same. reflexivity.
  Qed.
  Lemma verify_roster_membership_result (i : Issuer E) p :
    snd (t_verify_roster_membership i p) = verify_roster_membership i p.
  Proof.
    unfold t_verify_roster_membership, verify_roster_membership. autorewrite with timed.
    apply bind_same. intros C. autorewrite with timed. rewrite ce_verify_result. apply bind_same. reflexivity.
  Qed.
  Lemma signal_user_from_bytes_result b : snd (@t_signal_user_from_bytes E b) = signal_user_from_bytes b.
  Proof.
    unfold t_signal_user_from_bytes, signal_user_from_bytes. autorewrite with timed. apply bind_same. intros nb.
    autorewrite with timed. apply bind_equal.
    - f_equal. unfold t_phone_number_from_bytes, phone_number_from_bytes. same_result.
    - intros n. autorewrite with timed. apply bind_same. intros ub. autorewrite with timed.
      rewrite user_from_bytes_result. apply bind_same. reflexivity.
  Qed.
  Lemma signal_user_new_result (params : SystemParameters E) ip key b :
    snd (t_signal_user_new params ip key b) = signal_user_new params ip key b.
  Proof.
    unfold t_signal_user_new, signal_user_new. autorewrite with timed. rewrite try_from_bytes_result.
    apply bind_same. reflexivity.
  Qed.
  Lemma signal_obtain_finish_result (u : SignalUser E) i : snd (t_signal_obtain_finish u i) = signal_obtain_finish u i.
  Proof.
    unfold t_signal_obtain_finish, signal_obtain_finish. autorewrite with timed. rewrite obtain_finish_result.
    destruct (obtain_finish _ i). reflexivity.
  Qed.
  Lemma signal_show_result (u : SignalUser E) r os entry : snd (t_signal_show u r os entry) = signal_show u r os entry.
  Proof.
    unfold t_signal_show, signal_show. autorewrite with timed. apply bind_same. intros c.
    autorewrite with timed. unfold t_nonces_new, nonces_new. rewrite scalars_random_result.
    destruct (scalars_random _ r) as [nonces r']. autorewrite with timed. rewrite show_result.
    apply bind_same. intros [[p r''] os']. autorewrite with timed. unfold t_roster_statement, roster_statement.
    autorewrite with timed. destruct (index (cr_attributes c) 0); [|reflexivity]. cbn [or_panic bind].
    autorewrite with timed. destruct (index nonces 0); [|reflexivity]. cbn [or_panic bind].
    autorewrite with timed. destruct (index (pr_attributes_blinded p) 0); [|reflexivity]. cbn [or_panic bind].
    autorewrite with timed. cbn [bind]. autorewrite with timed. rewrite ce_create_result.
    destruct (ce_create _ _ _ os'). reflexivity.
  Qed.
End computes.

(** ** Two runs side by side. *)
Section traces.
  Context {E : Ext}.

  Lemma scalars_random_alike n r r' :
    alike (fun a b => List.length (fst a) = List.length (fst b)) (t_scalars_random n r) (t_scalars_random n r').
  Proof.
    revert r r'. induction n as [|n IH]; intros r r'; [apply alike_seen; reflexivity|].
    cbn [t_scalars_random]. apply (alike_bind eq); [apply alike_if|]. intros _ _ _.
    destruct (scalar_random r) as [x s], (scalar_random r') as [x' s'].
    eapply alike_bind; [apply IH|]. intros [xs t] [xs' t'] H. apply alike_now. cbn in *. now rewrite H.
  Qed.
  Lemma public_elements_alike (h h' : point E) xn xn' : List.length xn = List.length xn' ->
    alike any (t_public_elements h xn) (t_public_elements h' xn').
  Proof.
    revert xn'. induction xn as [|x xn IH]; intros [|x' xn'] H; try discriminate H; [apply alike_seen; exact I|].
    cbn [t_public_elements]. apply (alike_bind eq); [apply alike_if|]. intros _ _ _.
    apply (alike_bind any); [apply IH; now injection H|]. intros. apply alike_now. exact I.
  Qed.
  Lemma keypair_new_alike (h h' : point E) r r' : alike any (t_keypair_new h r) (t_keypair_new h' r').
  Proof.
    unfold t_keypair_new. apply (alike_bind (fun a b => List.length (sk_xn (fst a)) = List.length (sk_xn (fst b)))).
    - unfold t_secret_key_new. destruct (scalar_random r) as [x s], (scalar_random r') as [x' s'].
      eapply alike_bind; [apply scalars_random_alike|]. intros [xn t] [xn' t'] H. apply alike_now. exact H.
    - intros [k s] [k' s'] H. apply (alike_bind any).
      + unfold t_get_public_key. apply (alike_bind any); [apply public_elements_alike, H|]. intros. apply alike_now. exact I.
      + intros. apply alike_now. exact I.
  Qed.
  Lemma mac_exponent_alike e e' xn xn' m m' : List.length xn = List.length xn' -> List.length m = List.length m' ->
    alike any (t_mac_exponent e xn m) (t_mac_exponent e' xn' m').
  Proof.
    revert e e' xn' m m'. induction xn as [|x xn IH]; intros e e' [|x' xn'] [|y m] [|y' m'] H K; try discriminate;
      try (apply alike_seen; exact I).
    cbn [t_mac_exponent]. apply (alike_bind eq); [apply alike_if|]. intros _ _ _. apply IH; [now injection H|now injection K].
  Qed.
  Lemma verify_exponent_alike e e' xn xn' m m' : List.length xn = List.length xn' -> List.length m = List.length m' ->
    alike any (t_verify_exponent e xn m) (t_verify_exponent e' xn' m').
  Proof.
    revert e e' xn' m m'. induction xn as [|x xn IH]; intros e e' [|x' xn'] [|y m] [|y' m'] H K; try discriminate;
      try (apply alike_seen; exact I).
    cbn [t_verify_exponent]. apply (alike_bind eq); [apply alike_if|]. intros _ _ _. apply IH; [now injection H|now injection K].
  Qed.
  Lemma mac_alike k k' m m' r r' : List.length (sk_xn k) = List.length (sk_xn k') -> List.length m = List.length m' ->
    alike (both any) (@t_mac E k m r) (@t_mac E k' m' r').
  Proof.
    intros H K. unfold t_mac. rewrite H, K. apply (alike_bind eq); [apply alike_if|]. intros b _ <-.
    destruct b; [apply alike_now; exact I|]. destruct (scalar_random r) as [x s], (scalar_random r') as [x' s'].
    apply (alike_bind any); [apply mac_exponent_alike; auto|]. intros. apply alike_now. exact I.
  Qed.

  Lemma ir_create_alike t t' (p p' : ir_Publics E) s s' os os' : alike any (t_ir_create t p s os) (t_ir_create t' p' s' os').
  Proof. unfold t_ir_create. destruct (ir_randomness _ _ _), (ir_randomness _ _ _). split; [reflexivity|exact I]. Qed.
  Lemma ab_create_alike t t' (p p' : ab_Publics E) s s' os os' : alike any (t_ab_create t p s os) (t_ab_create t' p' s' os').
  Proof. unfold t_ab_create. destruct (ab_randomness _ _ _), (ab_randomness _ _ _). split; [reflexivity|exact I]. Qed.
  Lemma ib_create_alike t t' (p p' : ib_Publics E) s s' os os' : alike any (t_ib_create t p s os) (t_ib_create t' p' s' os').
  Proof. unfold t_ib_create. destruct (ib_randomness _ _ _), (ib_randomness _ _ _). split; [reflexivity|exact I]. Qed.
  Lemma vc_create_alike t t' (p p' : vc_Publics E) s s' os os' : alike any (t_vc_create t p s os) (t_vc_create t' p' s' os').
  Proof. unfold t_vc_create. destruct (vc_randomness _ _ _), (vc_randomness _ _ _). split; [reflexivity|exact I]. Qed.
  Lemma ce_create_alike t t' (p p' : ce_Publics E) s s' os os' : alike any (t_ce_create t p s os) (t_ce_create t' p' s' os').
  Proof. unfold t_ce_create. destruct (ce_randomness _ _ _), (ce_randomness _ _ _). split; [reflexivity|exact I]. Qed.

  (** [verify] shows the proof and the answer. *)
  Lemma ir_verify_trace p t t' (q q' : ir_Publics E) :
    fst (t_ir_verify p t q) = fst (t_ir_verify p t' q') <-> ir_verify p t q = ir_verify p t' q'.
  Proof.
    rewrite <- !ir_verify_result. unfold t_ir_verify. rewrite !fst_tbind, !snd_tbind. cbn [t_vartime_multiscalar_mul seen fst snd t_if now app].
    destruct (scalar_eqb _ _), (scalar_eqb _ _); split; intros H; try reflexivity; discriminate H.
  Qed.
  Lemma vc_verify_trace p t t' (q q' : vc_Publics E) :
    fst (t_vc_verify p t q) = fst (t_vc_verify p t' q') <-> vc_verify p t q = vc_verify p t' q'.
  Proof.
    rewrite <- !vc_verify_result. unfold t_vc_verify. rewrite !fst_tbind, !snd_tbind. cbn [t_vartime_multiscalar_mul seen fst snd t_if now app].
    destruct (scalar_eqb _ _), (scalar_eqb _ _); split; intros H; try reflexivity; discriminate H.
  Qed.
  Lemma ce_verify_trace p t t' (q q' : ce_Publics E) :
    fst (t_ce_verify p t q) = fst (t_ce_verify p t' q') <-> ce_verify p t q = ce_verify p t' q'.
  Proof.
    rewrite <- !ce_verify_result. unfold t_ce_verify. rewrite !fst_tbind, !snd_tbind. cbn [t_vartime_multiscalar_mul seen fst snd t_if now app].
    destruct (scalar_eqb _ _), (scalar_eqb _ _); split; intros H; try reflexivity; discriminate H.
  Qed.

  (** Issuance. *)
  Lemma issue_alike (i i' : Issuer E) q q' r r' os os' : same_counts i i' ->
    List.length (rq_attributes_revealed q) = List.length (rq_attributes_revealed q') ->
    alike (both any) (t_issue i q r os) (t_issue i' q' r' os').
  Proof.
    intros [H1 H2] H3. unfold t_issue.
    apply (alike_pass any); [apply alike_attempt, alike_now, nth_both, H1|]. intros X1 X1' _.
    apply (alike_pass any); [apply alike_attempt, alike_now, nth_both, H2|]. intros x1 x1' _.
    destruct (reseed _ _ r) as [c s], (reseed _ _ r') as [c' s'].
    rewrite H3. apply (alike_bind (fun a b => List.length a = List.length b)); [apply alike_seen, H3|].
    intros m m' Hm. apply (alike_pass any).
    - apply alike_attempt, alike_map_err, mac_alike; auto.
    - intros [tag d] [tag' d'] _. destruct (ephemeral_new d) as [z e], (ephemeral_new d') as [z' e'].
      apply (alike_pass any).
      + unfold t_issue_statement. apply (alike_pass any); [apply alike_index, H3|]. intros. apply alike_now. exact I.
      + intros [p w] [p' w'] _. apply (alike_bind any); [apply ir_create_alike|].
        intros [pf o] [pf' o'] _. apply (alike_bind any); [apply alike_seen; exact I|]. intros. apply alike_now. exact I.
  Qed.

  (** Showing. *)
  Lemma show_commitments_alike (P A P' A' : point E) n n' m m' :
    List.length n = List.length n' -> List.length m = List.length m' ->
    alike (fun a b => List.length a = List.length b) (t_show_commitments P A n m) (t_show_commitments P' A' n' m').
  Proof.
    revert n' m m'. induction n as [|z n IH]; intros [|z' n'] [|y m] [|y' m'] H K; try discriminate;
      try (apply alike_seen; reflexivity).
    cbn [t_show_commitments]. apply (alike_bind eq); [apply alike_if|]. intros _ _ _.
    eapply alike_bind; [apply IH; [now injection H|now injection K]|]. intros a b Hab. apply alike_now. cbn. now rewrite Hab.
  Qed.
  Lemma show_error_factor_alike Xn Xn' k n n' (V V' : point E) :
    List.length Xn = List.length Xn' -> List.length n = List.length n' ->
    alike (both any) (t_show_error_factor Xn k n V) (t_show_error_factor Xn' k n' V').
  Proof.
    intros HX. revert k n' V V'. induction n as [|z n IH]; intros k [|z' n'] V V' H; try discriminate;
      [apply alike_seen; exact I|].
    cbn [t_show_error_factor]. apply (alike_bind eq); [apply alike_if|]. intros _ _ _.
    apply (alike_pass any); [apply alike_index, HX|]. intros X X' _. apply IH. now injection H.
  Qed.
  Lemma show_alike (u u' : User E) n n' r r' os os' : same_holding u u' -> List.length n = List.length n' ->
    alike (both (fun a b => List.length (pr_attributes_blinded (fst (fst a))) = List.length (pr_attributes_blinded (fst (fst b)))))
      (t_show u n r os) (t_show u' n' r' os').
  Proof.
    intros [HX HC] Hn. unfold t_show.
    apply (alike_pass (fun c c' => List.length (cr_attributes c) = List.length (cr_attributes c'))).
    - apply alike_attempt, alike_now. destruct (us_credential u), (us_credential u'); cbn; tauto.
    - intros c c' Hc. destruct (reseed _ _ r) as [g s], (reseed _ _ r') as [g' s'].
      destruct (scalar_random g) as [a g1], (scalar_random g') as [a' g1'].
      destruct (ephemeral_new g1) as [z g2], (ephemeral_new g1') as [z' g2'].
      apply (alike_pass (fun x y => List.length (snd (fst (fst x))) = List.length (snd (fst (fst y))))).
      + unfold t_show_statement. eapply alike_bind; [apply show_commitments_alike; [exact Hn|exact Hc]|].
        intros Cs Cs' HCs. apply (alike_pass any); [apply show_error_factor_alike; assumption|]. intros V V' _.
        apply (alike_pass any); [apply alike_index, Hc|]. intros m0 m0' _.
        apply (alike_pass any); [apply alike_index, Hn|]. intros z0 z0' _.
        apply (alike_pass any); [apply alike_index, HX|]. intros X0 X0' _.
        apply (alike_pass any); [apply alike_index, HCs|]. intros C0 C0' _. apply alike_now. exact HCs.
      + intros [[[CQ Cs] p] w] [[[CQ' Cs'] p'] w'] HCs. cbn in HCs.
        apply (alike_bind any); [apply vc_create_alike|]. intros [pf o] [pf' o'] _. apply alike_now. exact HCs.
  Qed.
  Lemma signal_show_alike (u u' : SignalUser E) r r' os os' e e' : same_holding (su_user u) (su_user u') ->
    alike (both any) (t_signal_show u r os e) (t_signal_show u' r' os' e').
  Proof.
    intros H. pose proof H as [HX HC]. unfold t_signal_show.
    apply (alike_pass (fun c c' => List.length (cr_attributes c) = List.length (cr_attributes c'))).
    - apply alike_attempt, alike_now. destruct (us_credential (su_user u)), (us_credential (su_user u')); cbn; tauto.
    - intros c c' Hc. eapply alike_bind; [apply scalars_random_alike|]. intros [n s] [n' s'] Hn. cbn in Hn.
      eapply alike_pass; [apply alike_attempt, show_alike; assumption|].
      intros [[p s1] o] [[p' s1'] o'] Hp. cbn in Hp. apply (alike_pass any).
      + unfold t_roster_statement. apply (alike_pass any); [apply alike_index, Hc|]. intros m0 m0' _.
        apply (alike_pass any); [apply alike_index, Hn|]. intros z0 z0' _.
        apply (alike_pass any); [apply alike_index, Hp|]. intros C0 C0' _. apply alike_now. exact I.
      + intros [q w] [q' w'] _. apply (alike_bind any); [apply ce_create_alike|]. intros [pf o2] [pf' o2'] _.
        apply alike_now. exact I.
  Qed.

  (** Phone numbers. *)
  Lemma array_set_both {Er} i v v' l l' : List.length l = List.length l' ->
    @both Er _ _ (fun a b => List.length a = List.length b) (or_panic (array_set i v l)) (or_panic (array_set i v' l')).
  Proof.
    intros H. unfold array_set. rewrite <- H. destruct (i <? _)%nat; cbn [or_panic both]; [|exact I].
    rewrite !app_length, !firstn_length. cbn [List.length]. rewrite !skipn_length. unfold bytes in *. lia.
  Qed.
  Lemma array_set_alike {Er} i v v' l l' : List.length l = List.length l' ->
    alike (both (fun a b => List.length a = List.length b)) (@t_array_set Er i v l) (@t_array_set Er i v' l').
  Proof. intros H. apply alike_attempt, alike_seen, array_set_both, H. Qed.
  Lemma write_digits_alike i d d' l l' : List.length d = List.length d' -> List.length l = List.length l' ->
    alike (both (fun a b => List.length a = List.length b))
      (t_write_digits (fun x => now x) i d l) (t_write_digits (fun x => now x) i d' l').
  Proof.
    revert i d' l l'. induction d as [|x d IH]; intros i [|x' d'] l l' H K; try discriminate; [apply alike_seen; exact K|].
    cbn [t_write_digits]. apply (alike_bind eq); [apply alike_if|]. intros _ _ _.
    apply (alike_bind any); [apply alike_seen; exact I|]. intros y y' _.
    apply (alike_bind any); [apply alike_now; exact I|]. intros v v' _.
    eapply alike_pass; [apply array_set_alike, K|]. intros b b' Hb. apply IH; [now injection H|exact Hb].
  Qed.
  Lemma try_from_bytes_alike b b' : List.length b = List.length b' ->
    alike (both any) (t_try_from_bytes b) (t_try_from_bytes b').
  Proof.
    intros H. unfold t_try_from_bytes, t_phone_number_encode. rewrite <- H.
    apply (alike_bind eq); [apply alike_if|]. intros c _ <-. destruct c; [apply alike_now; exact I|].
    eapply alike_pass; [apply array_set_alike; reflexivity|]. intros b0 b0' H0.
    eapply alike_pass; [apply array_set_alike, H0|]. intros b1 b1' H1.
    eapply alike_pass; [apply write_digits_alike; [exact H|exact H1]|]. intros b2 b2' H2.
    eapply alike_pass; [apply array_set_alike, H2|]. intros b3 b3' H3.
    eapply alike_pass; [apply array_set_alike, H3|]. intros b4 b4' H4.
    eapply alike_pass; [apply array_set_alike, H4|]. intros b5 b5' H5. apply alike_now. exact I.
  Qed.

  (** Verification. *)
  Lemma verify_revealed_alike xn xn' (P P' : point E) k a a' V V' :
    List.length xn = List.length xn' -> List.length a = List.length a' ->
    alike (both any) (t_verify_revealed xn P k a V) (t_verify_revealed xn' P' k a' V').
  Proof.
    intros HX. revert k a' V V'. induction a as [|z a IH]; intros k [|z' a'] V V' H; try discriminate;
      [apply alike_seen; exact I|].
    cbn [t_verify_revealed]. apply (alike_bind eq); [apply alike_if|]. intros _ _ _.
    apply (alike_pass any); [apply alike_index, HX|]. intros X X' _. apply IH. now injection H.
  Qed.
  Lemma verify_blinded_alike xn xn' k a a' (V V' : point E) :
    List.length xn = List.length xn' -> List.length a = List.length a' ->
    alike (both any) (t_verify_blinded xn k a V) (t_verify_blinded xn' k a' V').
  Proof.
    intros HX. revert k a' V V'. induction a as [|z a IH]; intros k [|z' a'] V V' H; try discriminate;
      [apply alike_seen; exact I|].
    cbn [t_verify_blinded]. apply (alike_bind eq); [apply alike_if|]. intros _ _ _.
    apply (alike_pass any); [apply alike_index, HX|]. intros X X' _. apply IH. now injection H.
  Qed.
  Lemma verify_statement_alike (i i' : Issuer E) p : same_counts i i' ->
    alike (both any) (t_verify_statement i p) (t_verify_statement i' p).
  Proof.
    intros [H1 H2]. unfold t_verify_statement.
    apply (alike_pass any); [apply verify_revealed_alike; auto|]. intros V V' _.
    apply (alike_pass any); [apply verify_blinded_alike; auto|]. intros W W' _.
    apply (alike_pass any); [apply alike_index, H1|]. intros X X' _.
    apply (alike_pass any); [apply alike_index; reflexivity|]. intros. apply alike_now. exact I.
  Qed.

  (** What follows a check shows whether it passed, and nothing else. *)
  Lemma checked_trace {Er A B C D} (m : timed (outcome Er A)) (m' : timed (outcome Er B)) (c : C) (d : D) :
    (fst m = fst m' <-> is_ok (snd m) = is_ok (snd m')) ->
    (fst (pass (attempt m) (fun _ => now (Ok c))) = fst (pass (attempt m') (fun _ => now (Ok d))) <->
     is_ok (snd m) = is_ok (snd m')).
  Proof.
    intros H. rewrite !fst_pass, !fst_attempt, !snd_attempt.
    replace (match snd m with Ok _ => fst (now (Ok (E := Er) c)) | _ => [] end) with (@nil event) by (destruct (snd m); reflexivity).
    replace (match snd m' with Ok _ => fst (now (Ok (E := Er) d)) | _ => [] end) with (@nil event) by (destruct (snd m'); reflexivity).
    rewrite !app_nil_r. split.
    - intros K. apply app_inj_tail in K as [_ K]. now injection K.
    - intros K. rewrite K. f_equal. apply H. exact K.
  Qed.
  Lemma app_cancel (x y z : list event) : (x ++ y = x ++ z <-> y = z)%list.
  Proof. split; [apply app_inv_head|now intros ->]. Qed.
  Lemma is_ok_map_err {Er F A} (f : Er -> F) (o : outcome Er A) : is_ok (map_err f o) = is_ok o.
  Proof. destruct o; reflexivity. Qed.
  Lemma fst_map_err {Er F A} (f : Er -> F) (m : timed (outcome Er A)) : fst (t_map_err f m) = fst m.
  Proof. unfold t_map_err. rewrite fst_tbind. apply app_nil_r. Qed.
  Lemma mapped_trace {Er F A B} (f : Er -> F) (m : timed (outcome Er A)) (m' : timed (outcome Er B)) :
    (fst m = fst m' <-> is_ok (snd m) = is_ok (snd m')) ->
    (fst (t_map_err f m) = fst (t_map_err f m') <-> is_ok (snd (t_map_err f m)) = is_ok (snd (t_map_err f m'))).
  Proof. rewrite !fst_map_err, !snd_t_map_err, !is_ok_map_err. auto. Qed.
  Lemma is_ok_checked {Er A B} (o : outcome Er A) (c : B) : is_ok (bind o (fun _ => snd (now (Ok c)))) = is_ok o.
  Proof. destruct o; reflexivity. Qed.
  Lemma is_ok_accepts {Er A B} (o : outcome Er A) (o' : outcome Er B) : (accepts o <-> accepts o') <-> is_ok o = is_ok o'.
  Proof.
    unfold accepts. destruct o, o'; cbn; split; intros H; try reflexivity; try discriminate; try (split; intros [x K]; discriminate K).
    - split; intros _; eexists; reflexivity.
    - destruct (proj1 H (ex_intro _ _ eq_refl)) as [x K]. discriminate K.
    - destruct (proj1 H (ex_intro _ _ eq_refl)) as [x K]. discriminate K.
    - destruct (proj2 H (ex_intro _ _ eq_refl)) as [x K]. discriminate K.
    - destruct (proj2 H (ex_intro _ _ eq_refl)) as [x K]. discriminate K.
  Qed.
  Lemma vc_verify_trace_ok p t t' (q q' : vc_Publics E) :
    fst (t_vc_verify p t q) = fst (t_vc_verify p t' q') <-> is_ok (snd (t_vc_verify p t q)) = is_ok (snd (t_vc_verify p t' q')).
  Proof.
    rewrite vc_verify_trace, !vc_verify_result. unfold vc_verify. destruct (scalar_eqb _ _), (scalar_eqb _ _); cbn; split; congruence.
  Qed.
  Lemma ce_verify_trace_ok p t t' (q q' : ce_Publics E) :
    fst (t_ce_verify p t q) = fst (t_ce_verify p t' q') <-> is_ok (snd (t_ce_verify p t q)) = is_ok (snd (t_ce_verify p t' q')).
  Proof.
    rewrite ce_verify_trace, !ce_verify_result. unfold ce_verify. destruct (scalar_eqb _ _), (scalar_eqb _ _); cbn; split; congruence.
  Qed.
  Lemma issuer_verify_trace (i i' : Issuer E) p : same_counts i i' ->
    (fst (t_issuer_verify i p) = fst (t_issuer_verify i' p) <-> (accepts (issuer_verify i p) <-> accepts (issuer_verify i' p))).
  Proof.
    intros H. rewrite is_ok_accepts, <- !issuer_verify_result. unfold t_issuer_verify.
    destruct (verify_statement_alike i i' p H) as [T HB]. rewrite !(fst_pass (t_verify_statement _ _)), !(snd_pass (t_verify_statement _ _)), T.
    destruct (snd (t_verify_statement i p)) as [q| |], (snd (t_verify_statement i' p)) as [q'| |]; cbn [both] in HB; try contradiction; cbn [bind]; try tauto.
    rewrite !snd_pass, !snd_attempt, !is_ok_checked.
    rewrite app_cancel. apply checked_trace, mapped_trace, vc_verify_trace_ok.
  Qed.
  Lemma signal_verify_trace (i i' : Issuer E) p : same_counts i i' ->
    (fst (t_signal_verify i p) = fst (t_signal_verify i' p) <-> (accepts (signal_verify i p) <-> accepts (signal_verify i' p))).
  Proof.
    intros H. rewrite is_ok_accepts, <- !signal_verify_result. unfold t_signal_verify.
    pose proof (issuer_verify_trace i i' (sc_presentation p) H) as K. rewrite is_ok_accepts, <- !issuer_verify_result in K.
    rewrite !snd_pass, !snd_attempt, !is_ok_checked. apply checked_trace. exact K.
  Qed.
  Lemma roster_membership_trace (i i' : Issuer E) p :
    (fst (t_verify_roster_membership i p) = fst (t_verify_roster_membership i' p) <->
     (accepts (verify_roster_membership i p) <-> accepts (verify_roster_membership i' p))).
  Proof.
    rewrite is_ok_accepts, <- !verify_roster_membership_result. unfold t_verify_roster_membership. 
    rewrite !(fst_pass (t_index _ _)), !(snd_pass (t_index _ _)), snd_t_index.
    destruct (or_panic _) as [C| |]; cbn [bind]; try tauto.
    rewrite !snd_pass, !snd_attempt, !is_ok_checked.
    rewrite app_cancel. apply checked_trace, mapped_trace, ce_verify_trace_ok.
  Qed.
End traces.

Section more_traces.
  Context {E : Ext}.

  Lemma obtain_finish_trace (u u' : User E) i :
    List.length (pk_Xn (us_issuer_parameters u)) = List.length (pk_Xn (us_issuer_parameters u')) ->
    (fst (t_obtain_finish u i) = fst (t_obtain_finish u' i) <-> snd (obtain_finish u i) = snd (obtain_finish u' i)).
  Proof.
    intros H. rewrite <- !obtain_finish_result. unfold t_obtain_finish. destruct i as [i|]; [|cbn; tauto].
    rewrite !(fst_tbind (t_if true)), !(snd_tbind (t_if true)), app_cancel.
    pose proof (nth_both tt tt _ _ 0 H) as K. destruct (nth_error _ 0) as [X|], (nth_error _ 0) as [X'|]; cbn in K; try contradiction; [|cbn; tauto].
    rewrite !(fst_tbind (t_if true)), !(snd_tbind (t_if true)), app_cancel.
    match goal with |- fst (tbind (attempt (t_ir_verify ?p ?t ?q)) _) = fst (tbind (attempt (t_ir_verify _ _ ?q')) _) <-> _ =>
      pose proof (ir_verify_trace p t t q q') as T; set (m := t_ir_verify p t q) in *; set (m' := t_ir_verify p t q') in *;
      assert (R : snd m = ir_verify p t q) by reflexivity; assert (R' : snd m' = ir_verify p t q') by reflexivity;
      assert (Hm : is_ok (snd m) = is_ok (snd m') <-> snd m = snd m')
        by (rewrite R, R'; unfold ir_verify; destruct (scalar_eqb _ _), (scalar_eqb _ _); cbn; split; congruence);
      assert (N : snd m <> Panic) by (rewrite R; unfold ir_verify; destruct (scalar_eqb _ _); discriminate);
      assert (N' : snd m' <> Panic) by (rewrite R'; unfold ir_verify; destruct (scalar_eqb _ _); discriminate);
      rewrite <- R, <- R' in T; clearbody m m'; clear R R' end.
    rewrite !(fst_tbind (attempt _)), !(snd_tbind (attempt _)), !fst_attempt, !snd_attempt. split.
    - intros K1. destruct (snd m) as [[]|[]|] eqn:Hs, (snd m') as [[]|[]|] eqn:Hs'; try congruence; cbn in K1 |- *; try reflexivity; exfalso.
      + apply (f_equal (@rev event)) in K1. rewrite app_nil_r, !rev_app_distr in K1. cbn in K1. discriminate K1.
      + apply (f_equal (@rev event)) in K1. rewrite app_nil_r, !rev_app_distr in K1. cbn in K1. discriminate K1.
    - intros K1. assert (Q : snd m = snd m').
      { revert K1 N N'. destruct (snd m) as [[]|[]|], (snd m') as [[]|[]|]; cbn; congruence. }
      rewrite (proj2 T Q), Q. destruct (snd m'); reflexivity.
  Qed.
  Lemma signal_obtain_finish_trace (u u' : SignalUser E) i :
    List.length (pk_Xn (us_issuer_parameters (su_user u))) = List.length (pk_Xn (us_issuer_parameters (su_user u'))) ->
    (fst (t_signal_obtain_finish u i) = fst (t_signal_obtain_finish u' i) <->
     snd (signal_obtain_finish u i) = snd (signal_obtain_finish u' i)).
  Proof.
    intros H. unfold t_signal_obtain_finish, signal_obtain_finish.
    pose proof (obtain_finish_trace (su_user u) (su_user u') i H) as K.
    rewrite !fst_tbind, <- !obtain_finish_result in *.
    destruct (snd (t_obtain_finish (su_user u) i)), (snd (t_obtain_finish (su_user u') i)). cbn in *. rewrite !app_nil_r. exact K.
  Qed.

  Lemma mac_verify_trace k k' (t t' : Tag E) m m' :
    List.length (sk_xn k) = List.length (sk_xn k') -> List.length m = List.length m' ->
    peqb (tag_nonce t) basepoint = peqb (tag_nonce t') basepoint ->
    (fst (t_mac_verify k t m) = fst (t_mac_verify k' t' m') <-> mac_verify k t m = mac_verify k' t' m').
  Proof.
    intros H1 H2 H3. rewrite <- !mac_verify_result. unfold t_mac_verify.
    rewrite !(fst_tbind (t_if (peqb _ basepoint))), !(snd_tbind (t_if (peqb _ basepoint))), !snd_t_if. rewrite H3, app_cancel.
    destruct (peqb (tag_nonce t') basepoint); [cbn; tauto|].
    destruct (verify_exponent_alike (sk_x0 k) (sk_x0 k') (sk_xn k) (sk_xn k') m m' H1 H2) as [T _].
    rewrite !(fst_tbind (t_verify_exponent _ _ _)), !(snd_tbind (t_verify_exponent _ _ _)), T, app_cancel.
    rewrite !fst_tbind, !snd_tbind, !snd_t_if. destruct (peqb (tag_mac t) _), (peqb (tag_mac t') _); cbn; split; congruence.
  Qed.

  Lemma roster_open_trace (e e' : RosterEntryCommitment E) b b' params params' : List.length b = List.length b' ->
    (fst (t_roster_open e b params) = fst (t_roster_open e' b' params') <-> roster_open e b params = roster_open e' b' params').
  Proof.
    intros H. rewrite <- !roster_open_result. unfold t_roster_open.
    destruct (try_from_bytes_alike b b' H) as [T HB].
    assert (HE : forall x, try_from_bytes b = Err x -> try_from_bytes b' = Err x).
    { intros x Hx. destruct (C27_outcomes b) as (A1 & A2 & A3), (C27_outcomes b') as (B1 & B2 & B3).
      destruct (Nat.le_gt_cases (List.length b) 27) as [H27|H27]; [destruct (A1 H27) as [(n & Hn & _) _]; congruence|].
      destruct (Nat.le_gt_cases (List.length b) 32) as [H32|H32]; [destruct (A2 (conj H27 H32)); congruence|].
      destruct (A3 H32) as [A4 _], (B3 ltac:(lia)) as [B4 _]. congruence. }
    assert (HP : try_from_bytes b = Panic -> try_from_bytes b' = Panic).
    { intros Hx. destruct (C27_outcomes b) as (A1 & A2 & A3), (C27_outcomes b') as (B1 & B2 & B3).
      destruct (Nat.le_gt_cases (List.length b) 27) as [H27|H27]; [destruct (A1 H27) as [(n & Hn & _) _]; congruence|].
      destruct (Nat.le_gt_cases (List.length b) 32) as [H32|H32]; [exact (proj1 (B2 ltac:(lia)))|].
      destruct (A3 H32) as [A4 _]. congruence. }
    rewrite !(fst_pass (attempt _)), !(snd_pass (attempt _)), !fst_attempt, !snd_attempt, T.
    rewrite !try_from_bytes_result in *.
    destruct (try_from_bytes b) as [n|x|], (try_from_bytes b') as [n'|x'|]; cbn [both] in HB; try contradiction;
      try (specialize (HE _ eq_refl); injection HE as <-); try (discriminate (HE _ eq_refl)); try (discriminate (HP eq_refl)); try tauto.
    cbn [is_ok bind]. rewrite app_cancel, !fst_map_err, !snd_t_map_err. unfold t_commitment_open.
    rewrite !fst_tbind, !snd_tbind, !snd_t_if. destruct (peqb (smul n _) _), (peqb (smul n' _) _); cbn; split; congruence.
  Qed.

  (** Decoding. *)
  Lemma chunks_count {A} n (l l' : list A) : List.length l = List.length l' ->
    List.length (chunks n l) = List.length (chunks n l').
  Proof.
    unfold chunks. intros H. rewrite <- H. generalize (List.length l) as f. intros f. revert l l' H.
    induction f as [|f IH]; intros l l' H; [reflexivity|]. destruct l, l'; try discriminate H; [reflexivity|].
    cbn [chunks_aux List.length]. f_equal. apply IH. rewrite !skipn_length, H. reflexivity.
  Qed.
  Lemma slice_sure {Er} a b (l l' : bytes) : 
    sure (Er := Er) (fun x y => List.length x = (b - a)%nat /\ List.length y = (b - a)%nat)
      (attempt (now (or_panic (slice a b l)))) (attempt (now (or_panic (slice a b l')))).
  Proof.
    apply sure_attempt. eapply sure_weaken; [|apply sure_now]. intros x y [H1 H2].
    destruct (slice a b l) eqn:S1; [|discriminate H1]. destruct (slice a b l') eqn:S2; [|discriminate H2].
    injection H1 as ->. injection H2 as ->. apply slice_length in S1 as [S1 _]. apply slice_length in S2 as [S2 _]. auto.
  Qed.
  Lemma slice_from_sure {Er} a (l l' : bytes) : List.length l = List.length l' ->
    sure (Er := Er) (fun x y => List.length x = List.length y)
      (attempt (now (or_panic (slice_from a l)))) (attempt (now (or_panic (slice_from a l')))).
  Proof.
    intros H. unfold slice_from. rewrite <- H. eapply sure_weaken; [|apply slice_sure]. intros x y [-> ->]. reflexivity.
  Qed.
  Lemma now_sure {Er A B} (o1 : outcome Er A) (o2 : outcome Er B) : sure any (attempt (now o1)) (attempt (now o2)).
  Proof. apply sure_attempt. eapply sure_weaken; [|apply sure_now]. intros. exact I. Qed.
  Lemma ok_sure {Er A B} (a : A) (b : B) : sure (Er := Er) any (now (Ok a)) (now (Ok b)).
  Proof. apply sure_ok. exact I. Qed.
  Lemma err_sure {Er A B} (o : outcome Er A) (m : timed (outcome Er B)) (R : B -> A -> Prop) :
    (forall a, o <> Ok a) -> sure R m (now o).
  Proof. intros H x y _ K. elim (H y). exact K. Qed.

  Lemma system_parameters_sure b b' : List.length b = List.length b' ->
    sure any (@t_system_parameters_from_bytes E b) (@t_system_parameters_from_bytes E b').
  Proof.
    intros H. unfold t_system_parameters_from_bytes. rewrite H. apply (sure_bind eq); [apply alike_if|]. intros c _ <-.
    destruct c; [apply err_sure; discriminate|].
    eapply sure_pass; [apply slice_sure|]. intros x x' _. eapply sure_pass; [apply slice_sure|]. intros y y' _.
    eapply sure_pass; [apply now_sure|]. intros g g' _. eapply sure_pass; [apply now_sure|]. intros h h' _. apply ok_sure.
  Qed.
  Lemma public_key_sure b b' : List.length b = List.length b' ->
    sure any (@t_public_key_from_bytes E b) (@t_public_key_from_bytes E b').
  Proof.
    intros H. unfold t_public_key_from_bytes. rewrite H. apply (sure_bind eq); [apply alike_if|]. intros c _ <-.
    destruct c; [apply err_sure; discriminate|].
    eapply sure_pass; [apply sure_try_map; [apply chunks_count, H|intros; apply now_sure]|]. intros. apply ok_sure.
  Qed.
  Lemma read_secret_sure c c' x0 x0' xn xn' : List.length c = List.length c' -> (x0 = None <-> x0' = None) ->
    sure any (t_read_secret c x0 xn) (t_read_secret c' x0' xn').
  Proof.
    revert c' x0 x0' xn xn'. induction c as [|b c IH]; intros [|b' c'] x0 x0' xn xn' H Hx; try discriminate H.
    - intros a d _ _. split; [reflexivity|exact I].
    - cbn [t_read_secret]. apply (sure_bind eq); [apply alike_if|]. intros _ _ _.
      eapply sure_pass; [apply now_sure|]. intros x x' _.
      replace (match x0' with None => true | Some _ => false end) with (match x0 with None => true | Some _ => false end)
        by (destruct x0, x0'; try reflexivity; [discriminate (proj2 Hx eq_refl)|discriminate (proj1 Hx eq_refl)]).
      apply (sure_bind eq); [apply alike_if|]. intros f _ <-. injection H as H. destruct f; apply IH; try exact H; [split; discriminate|exact Hx].
  Qed.
  Lemma secret_key_sure b b' : List.length b = List.length b' ->
    sure any (t_secret_key_from_bytes b) (t_secret_key_from_bytes b').
  Proof.
    intros H. unfold t_secret_key_from_bytes. rewrite H. apply (sure_bind eq); [apply alike_if|]. intros c _ <-.
    destruct c; [apply err_sure; discriminate|]. apply (sure_bind eq); [apply alike_if|]. intros c _ <-.
    destruct c; [apply err_sure; discriminate|].
    eapply sure_pass; [apply read_secret_sure; [apply chunks_count, H|tauto]|]. intros [x xn] [x' xn'] _.
    eapply sure_pass; [apply now_sure|]. intros. apply ok_sure.
  Qed.
  Lemma keypair_sure b b' : List.length b = List.length b' ->
    sure any (@t_keypair_from_bytes E b) (@t_keypair_from_bytes E b').
  Proof.
    intros H. unfold t_keypair_from_bytes. rewrite H. apply (sure_bind eq); [apply alike_if|]. intros c _ <-.
    destruct c; [apply err_sure; discriminate|]. apply (sure_bind eq); [apply alike_or|]. intros c _ <-.
    destruct c; [apply err_sure; discriminate|].
    eapply (sure_pass (fun x y : bytes => List.length x = List.length y)).
    - match goal with |- context [if ?c then _ else _] => destruct c end.
      + eapply sure_weaken; [|apply slice_sure]. intros x y [-> ->]. reflexivity.
      + intros x y K. discriminate K.
    - intros x y Hxy. eapply sure_pass; [apply sure_attempt, public_key_sure, Hxy|]. intros pk pk' _.
      eapply sure_pass; [apply slice_from_sure, H|]. intros z z' Hz.
      eapply sure_pass; [apply sure_attempt, secret_key_sure, Hz|]. intros. apply ok_sure.
  Qed.
  Lemma issuer_sure b b' : List.length b = List.length b' ->
    sure any (@t_issuer_from_bytes E b) (@t_issuer_from_bytes E b').
  Proof.
    intros H. unfold t_issuer_from_bytes. rewrite H. apply (sure_bind eq); [apply alike_if|]. intros c _ <-.
    destruct c; [apply err_sure; discriminate|].
    eapply sure_pass; [apply slice_sure|]. intros x x' [Hx Hx'].
    eapply sure_pass; [apply sure_attempt, system_parameters_sure; congruence|]. intros p p' _.
    eapply sure_pass; [apply slice_from_sure, H|]. intros k k' Hk.
    eapply sure_pass; [apply sure_attempt, sure_map_err, keypair_sure, Hk|]. intros. apply ok_sure.
  Qed.
  Lemma elgamal_keypair_sure b b' : List.length b = List.length b' ->
    sure any (@t_elgamal_keypair_from_bytes E b) (@t_elgamal_keypair_from_bytes E b').
  Proof.
    intros H. unfold t_elgamal_keypair_from_bytes. rewrite H. apply (sure_bind eq); [apply alike_if|]. intros c _ <-.
    destruct c; [apply err_sure; discriminate|].
    eapply sure_pass; [apply slice_sure|]. intros x x' [Hx Hx']. eapply (sure_pass any).
    { apply sure_attempt. unfold t_elgamal_secret_from_bytes. rewrite Hx, Hx'. apply (sure_bind eq); [apply alike_if|]. intros c _ <-.
      destruct c; [apply err_sure; discriminate|apply now_sure]. }
    intros s s' _. eapply sure_pass; [apply slice_sure|]. intros y y' [Hy Hy']. eapply (sure_pass any).
    { apply sure_attempt. unfold t_elgamal_public_from_bytes. rewrite Hy, Hy'. apply (sure_bind eq); [apply alike_if|]. intros c _ <-.
      destruct c; [apply err_sure; discriminate|apply now_sure]. }
    intros. apply ok_sure.
  Qed.
  Lemma credential_sure b b' : List.length b = List.length b' ->
    sure any (@t_credential_from_bytes E b) (@t_credential_from_bytes E b').
  Proof.
    intros H. unfold t_credential_from_bytes. rewrite H. apply (sure_bind eq); [apply alike_or|]. intros c _ <-.
    apply (sure_bind eq); [destruct c; split; reflexivity|]. intros d _ <-. destruct d; [apply err_sure; discriminate|].
    eapply sure_pass; [apply slice_sure|]. intros x x' [Hx Hx']. eapply (sure_pass any).
    { apply sure_attempt, sure_map_err. unfold t_tag_from_bytes. rewrite Hx, Hx'. apply (sure_bind eq); [apply alike_if|]. intros e _ <-.
      destruct e; [apply err_sure; discriminate|].
      eapply sure_pass; [apply slice_sure|]. intros y y' _. eapply sure_pass; [apply slice_sure|]. intros z z' _.
      eapply sure_pass; [apply now_sure|]. intros P P' _. eapply sure_pass; [apply now_sure|]. intros. apply ok_sure. }
    intros t t' _. eapply sure_pass; [apply slice_from_sure, H|]. intros a a' Ha.
    eapply sure_pass; [apply sure_try_map; [apply chunks_count, Ha|]|].
    - intros y y'. unfold t_attribute_from_chunk. eapply sure_pass; [apply now_sure|]. intros. apply now_sure.
    - intros. apply ok_sure.
  Qed.
End more_traces.

Section decoding_users.
  Context {E : Ext}.

  (** Of two runs which both succeed, the traces are the same exactly if [P]. *)
  Definition exact {Er A B} (P : Prop) (m1 : timed (outcome Er A)) (m2 : timed (outcome Er B)) : Prop :=
    forall a b, snd m1 = Ok a -> snd m2 = Ok b -> (fst m1 = fst m2 <-> P).

  Lemma exact_pass {Er A B A' B'} (R : A -> B -> Prop) P (m1 : timed (outcome Er A)) (m2 : timed (outcome Er B))
      (k1 : A -> timed (outcome Er A')) (k2 : B -> timed (outcome Er B')) :
    sure R m1 m2 -> (forall a b, snd m1 = Ok a -> snd m2 = Ok b -> R a b -> exact P (k1 a) (k2 b)) ->
    exact P (pass m1 k1) (pass m2 k2).
  Proof.
    intros H Hk a b. rewrite !snd_pass, !fst_pass.
    destruct (snd m1) as [x| |] eqn:H1; cbn [bind]; try discriminate.
    destruct (snd m2) as [y| |] eqn:H2; cbn [bind]; try discriminate.
    intros K1 K2. destruct (H x y H1 H2) as [T HR]. rewrite T, app_cancel.
    exact (Hk x y eq_refl eq_refl HR a b K1 K2).
  Qed.
  Lemma exact_differ {Er A B A' B'} P n n' r r' (m1 : timed (outcome Er A)) (m2 : timed (outcome Er B))
      (k1 : A -> timed (outcome Er A')) (k2 : B -> timed (outcome Er B')) :
    fst m1 = Differ n :: r -> fst m2 = Differ n' :: r' -> (n = n' -> sure any m1 m2) ->
    (forall a b, exact P (k1 a) (k2 b)) -> exact (n = n' /\ P) (pass m1 k1) (pass m2 k2).
  Proof.
    intros F1 F2 HS Hk a b. rewrite !snd_pass, !fst_pass.
    destruct (snd m1) as [x| |] eqn:H1; cbn [bind]; try discriminate.
    destruct (snd m2) as [y| |] eqn:H2; cbn [bind]; try discriminate.
    intros K1 K2. destruct (Nat.eq_dec n n') as [e|e].
    - destruct (HS e x y H1 H2) as [T _]. rewrite T, app_cancel. rewrite (Hk x y a b K1 K2). tauto.
    - rewrite F1, F2. split; [intros K; exfalso; apply e; now injection K|tauto].
  Qed.
  Lemma common_zeros b n : List.length b = n -> common b (zeros n) = leading_zeros b.
  Proof.
    intros <-. induction b as [|x b IH]; [reflexivity|]. cbn [zeros repeat List.length common].
    change (repeat x00 (List.length b)) with (zeros (List.length b)). rewrite IH. destruct x; reflexivity.
  Qed.
  Lemma bytes_eqb_zeros b n : List.length b = n -> bytes_eqb b (zeros n) = (leading_zeros b =? n)%nat.
  Proof.
    intros <-. induction b as [|x b IH]; [reflexivity|]. cbn [zeros repeat List.length bytes_eqb].
    change (repeat x00 (List.length b)) with (zeros (List.length b)). rewrite IH. destruct x; reflexivity.
  Qed.

  Lemma user_exact b b' : List.length b = List.length b' ->
    exact (leading_zeros (firstn 64 (skipn 96 b)) = leading_zeros (firstn 64 (skipn 96 b')) /\
           leading_zeros (firstn 96 (skipn 160 b)) = leading_zeros (firstn 96 (skipn 160 b')))
      (@t_user_from_bytes E b) (@t_user_from_bytes E b').
  Proof.
    intros H. unfold t_user_from_bytes. rewrite H. intros u u'.
    rewrite !(snd_tbind (t_if _)), !(fst_tbind (t_if _)), snd_t_if, app_cancel.
    destruct (negb (List.length b' =? 256)%nat) eqn:Hl; [discriminate|].
    apply negb_false_iff, Nat.eqb_eq in Hl. revert u u'.
    match goal with |- forall u u', snd ?m1 = Ok u -> snd ?m2 = Ok u' -> (fst _ = fst _ <-> ?P) => change (exact P m1 m2) end.
    eapply exact_pass; [apply slice_sure|]. intros x x' _ _ [Hx Hx'].
    eapply exact_pass; [apply sure_attempt, system_parameters_sure; congruence|]. intros p p' _ _ _.
    eapply exact_pass; [apply slice_sure|]. intros y y' _ _ [Hy Hy'].
    eapply exact_pass; [apply sure_attempt, sure_map_err, public_key_sure; congruence|]. intros q q' _ _ _.
    eapply exact_pass; [apply slice_sure|]. intros kb kb' Hkb Hkb' [Lk Lk'].
    assert (Q : kb = firstn 64 (skipn 96 b) /\ kb' = firstn 64 (skipn 96 b')).
    { rewrite snd_attempt in Hkb. rewrite snd_attempt in Hkb'. cbn [snd now] in Hkb, Hkb'. rewrite slice_some in Hkb by lia.
      rewrite slice_some in Hkb' by lia. cbn [or_panic] in Hkb, Hkb'. injection Hkb as <-. injection Hkb' as <-. split; reflexivity. }
    destruct Q as [<- <-].
    rewrite <- (common_zeros kb 64) by exact Lk. rewrite <- (common_zeros kb' 64) by exact Lk'.
    apply exact_differ with (r := (fst (t_if (bytes_eqb kb (zeros 64))) ++
        fst (if bytes_eqb kb (zeros 64) then now (Ok None)
             else try! k <- t_elgamal_keypair_from_bytes (E := E) kb; now (Ok (Some k))))%list)
      (r' := (fst (t_if (bytes_eqb kb' (zeros 64))) ++
        fst (if bytes_eqb kb' (zeros 64) then now (Ok None)
             else try! k <- t_elgamal_keypair_from_bytes (E := E) kb'; now (Ok (Some k))))%list); [reflexivity|reflexivity| |].
    - intros Hc. apply (sure_bind (fun a a' : bool => a = a')).
      + unfold t_bytes_eqb. rewrite Hc. apply (alike_bind eq); [apply alike_seen|].
        * rewrite (common_zeros kb 64 Lk), (common_zeros kb' 64 Lk') in Hc. rewrite (bytes_eqb_zeros kb 64 Lk), (bytes_eqb_zeros kb' 64 Lk'), Hc. reflexivity.
        * intros a _ <-. apply alike_if.
      + intros a _ <-. destruct a; [apply ok_sure|].
        eapply sure_pass; [apply sure_attempt, elgamal_keypair_sure; congruence|]. intros. apply ok_sure.
    - intros key key'. eapply exact_pass; [apply slice_sure|]. intros cb cb' Hcb Hcb' [Lc Lc'].
      assert (Q : cb = firstn 96 (skipn 160 b) /\ cb' = firstn 96 (skipn 160 b')).
      { rewrite snd_attempt in Hcb. rewrite snd_attempt in Hcb'. cbn [snd now] in Hcb, Hcb'. rewrite slice_some in Hcb by lia.
        rewrite slice_some in Hcb' by lia. cbn [or_panic] in Hcb, Hcb'. injection Hcb as <-. injection Hcb' as <-. split; reflexivity. }
      destruct Q as [<- <-].
      rewrite <- (common_zeros cb 96) by exact Lc. rewrite <- (common_zeros cb' 96) by exact Lc'.
      match goal with |- exact ?P ?m ?m' => cut (exact (P /\ True) m m'); [intros X u u' K K'; rewrite (X u u' K K'); tauto|] end.
      eapply exact_differ; [reflexivity|reflexivity| |].
      + intros Hc. apply (sure_bind (fun a a' : bool => a = a')).
        * unfold t_bytes_eqb. rewrite Hc. apply (alike_bind eq); [apply alike_seen|].
          -- rewrite (common_zeros cb 96 Lc), (common_zeros cb' 96 Lc') in Hc. rewrite (bytes_eqb_zeros cb 96 Lc), (bytes_eqb_zeros cb' 96 Lc'), Hc. reflexivity.
          -- intros a _ <-. apply alike_if.
        * intros a _ <-. destruct a; [apply ok_sure|].
          eapply sure_pass; [apply slice_from_sure, H|]. intros d d' Hd.
          eapply sure_pass; [apply sure_attempt, credential_sure, Hd|]. intros. apply ok_sure.
      + intros c c' v v' _ _. cbn. tauto.
  Qed.

  Lemma skipn_twice {A} a b (l : list A) : skipn a (skipn b l) = skipn (b + a) l.
  Proof. revert l. induction b as [|b IH]; intros [|x l]; [reflexivity..|apply skipn_nil|apply IH]. Qed.
  Lemma signal_user_exact b b' : List.length b = List.length b' ->
    exact (leading_zeros (firstn 64 (skipn 128 b)) = leading_zeros (firstn 64 (skipn 128 b')) /\
           leading_zeros (firstn 96 (skipn 192 b)) = leading_zeros (firstn 96 (skipn 192 b')))
      (@t_signal_user_from_bytes E b) (@t_signal_user_from_bytes E b').
  Proof.
    intros H. unfold t_signal_user_from_bytes.
    eapply exact_pass; [apply slice_sure|]. intros x x' _ _ [Hx Hx'].
    eapply (exact_pass any).
    { apply sure_attempt, sure_map_err. unfold t_phone_number_from_bytes. rewrite Hx, Hx'. apply (sure_bind eq); [apply alike_if|].
      intros c _ <-. destruct c; [apply err_sure; discriminate|]. eapply sure_pass; [apply slice_sure|]. intros. apply ok_sure. }
    intros n n' _ _ _. eapply exact_pass; [apply slice_from_sure, H|]. intros ub ub' Hub Hub' Hl.
    assert (Q : ub = skipn 32 b /\ ub' = skipn 32 b').
    { rewrite snd_attempt in Hub. rewrite snd_attempt in Hub'. cbn [snd now] in Hub, Hub'.
      destruct (slice_from 32 b) eqn:S1; [|discriminate]. destruct (slice_from 32 b') eqn:S2; [|discriminate].
      destruct (Nat.lt_ge_cases (List.length b) 32) as [Hs|Hs]; [apply slice_from_none in Hs; congruence|].
      rewrite slice_from_some in S1 by exact Hs. rewrite slice_from_some in S2 by (rewrite <- H; exact Hs).
      cbn [or_panic] in Hub, Hub'. injection Hub as <-. injection Hub' as <-. injection S1 as <-. injection S2 as <-. split; reflexivity. }
    destruct Q as [-> ->].
    intros u u'.
    rewrite !snd_pass, !fst_pass, !snd_attempt, !fst_attempt.
    intros K K'.
    destruct (snd (t_user_from_bytes (skipn 32 b))) as [v| |] eqn:Hv; [|discriminate..].
    destruct (snd (t_user_from_bytes (skipn 32 b'))) as [v'| |] eqn:Hv'; [|discriminate..].
    cbn [is_ok now fst].
    rewrite !app_nil_r.
    pose proof (user_exact _ _ Hl v v' Hv Hv') as X.
    rewrite !skipn_twice in X.
    cbn [Nat.add] in X.
    rewrite <- X.
    split; [intros Y; apply app_inj_tail in Y as [Y _]; exact Y|intros Y; rewrite Y; reflexivity].
  Qed.
End decoding_users.

(** ** Text *)
Definition arms (t : list event) : bytes :=
  flat_map (fun e => match e with Arm v => [v] | _ => [] end) t.
Lemma arms_app a b : arms (a ++ b) = (arms a ++ arms b)%list.
Proof. apply flat_map_app. Qed.

Definition text_digit (d : byte) : timed byte := seen (Arm (ascii_digit d)) (ascii_digit d).
Lemma write_text_step i x d l : t_write_digits text_digit i (x :: d) l =
  match array_set i (ascii_digit x) l with
  | Some l' => (Branch true :: Index (i - 2) :: Arm (ascii_digit x) :: Index i :: Branch true ::
                fst (t_write_digits text_digit (S i) d l'), snd (t_write_digits text_digit (S i) d l'))
  | None => ([Branch true; Index (i - 2); Arm (ascii_digit x); Index i; Branch false], Panic)
  end.
Proof.
  cbn [t_write_digits]. unfold tbind at 1 2 3, pass, t_array_set, attempt, text_digit at 1 2. cbn.
  destruct (array_set i (ascii_digit x) l); reflexivity.
Qed.
Lemma write_text_arms i d l v : snd (t_write_digits text_digit i d l) = Ok v ->
  arms (fst (t_write_digits text_digit i d l)) = map ascii_digit d.
Proof.
  revert i l. induction d as [|x d IH]; intros i l; [reflexivity|]. rewrite write_text_step. cbn [map].
  destruct (array_set i (ascii_digit x) l); [|discriminate]. cbn [fst snd arms flat_map app]. intros H.
  f_equal. apply IH. exact H.
Qed.
Lemma write_text_same i d d' l : map ascii_digit d = map ascii_digit d' ->
  t_write_digits text_digit i d l = t_write_digits text_digit i d' l.
Proof.
  revert i d' l. induction d as [|x d IH]; intros i [|x' d'] l H; try discriminate H; [reflexivity|].
  injection H as H1 H2. rewrite !write_text_step, H1. destruct (array_set i (ascii_digit x') l); [|reflexivity].
  rewrite (IH (S i) d' b H2). reflexivity.
Qed.
Lemma array_set_arms {Er} i v l : arms (fst (@t_array_set Er i v l)) = [].
Proof. unfold t_array_set. rewrite fst_attempt. reflexivity. Qed.
Lemma text_arms s n : try_from_string s = Ok n -> arms (fst (t_try_from_string s)) = map ascii_digit s.
Proof.
  rewrite <- try_from_string_result. unfold t_try_from_string. change (fun d => seen (Arm (ascii_digit d)) (ascii_digit d)) with text_digit.
  unfold t_phone_number_encode. rewrite !(fst_tbind (t_if _)), !(snd_tbind (t_if _)), snd_t_if.
  destruct (32 <? _)%nat; [discriminate|].
  rewrite !(fst_pass (t_array_set 0 _ _)), !(snd_pass (t_array_set 0 _ _)), !arms_app, array_set_arms.
  destruct (snd (t_array_set 0 _ _)) as [b0| |]; cbn [bind]; [|discriminate..].
  rewrite !(fst_pass (t_array_set 1 _ _)), !(snd_pass (t_array_set 1 _ _)), !arms_app, array_set_arms.
  destruct (snd (t_array_set 1 _ _)) as [b1| |]; cbn [bind]; [|discriminate..].
  rewrite !(fst_pass (t_write_digits _ _ _ _)), !(snd_pass (t_write_digits _ _ _ _)), !arms_app.
  pose proof (write_text_arms 2 s b1) as W.
  destruct (snd (t_write_digits _ _ _ _)) as [b2| |]; cbn [bind]; [|discriminate..].
  rewrite (W b2 eq_refl), !fst_pass, !snd_pass, !arms_app, array_set_arms.
  destruct (snd (t_array_set _ _ b2)) as [b3| |]; cbn [bind]; [|discriminate..].
  rewrite !fst_pass, !snd_pass, !arms_app, array_set_arms.
  destruct (snd (t_array_set _ _ b3)) as [b4| |]; cbn [bind]; [|discriminate..].
  rewrite !fst_pass, !snd_pass, !arms_app, array_set_arms.
  destruct (snd (t_array_set _ _ b4)) as [b5| |]; cbn [bind]; [|discriminate..].
  intros _. cbn. now rewrite app_nil_r.
Qed.
Lemma pass_same {Er A B} (m m' : timed (outcome Er A)) (k k' : A -> timed (outcome Er B)) :
  m = m' -> (forall a, k a = k' a) -> pass m k = pass m' k'.
Proof. intros <- H. unfold pass, tbind. destruct (snd m); [rewrite H|..]; reflexivity. Qed.
Lemma text_same s s' : map ascii_digit s = map ascii_digit s' -> t_try_from_string s = t_try_from_string s'.
Proof.
  intros H. unfold t_try_from_string. change (fun d => seen (Arm (ascii_digit d)) (ascii_digit d)) with text_digit.
  assert (L : List.length s = List.length s') by (apply (f_equal (@List.length byte)) in H; now rewrite !map_length in H).
  unfold t_phone_number_encode. rewrite L. unfold tbind. rewrite snd_t_if. destruct (32 <? List.length s')%nat; [reflexivity|].
  match goal with |- ((_ ++ fst ?x)%list, snd ?x) = ((_ ++ fst ?y)%list, snd ?y) => assert (X : x = y); [|rewrite X; reflexivity] end.
  apply pass_same; [reflexivity|]. intros b0. apply pass_same; [reflexivity|]. intros b1.
  apply pass_same; [apply write_text_same, H|]. intros b2. reflexivity.
Qed.

Lemma string_digits s n : try_from_string s = Ok n -> try_from_bytes (map ascii_digit s) = Ok n.
Proof.
  intros Ht. unfold try_from_string in Ht. destruct (Nat.le_gt_cases (List.length s) 27) as [Hl|Hl].
  - rewrite phone_number_encode_ok in Ht by exact Hl. rewrite try_from_bytes_ok by (rewrite map_length; exact Hl). exact Ht.
  - destruct (Nat.le_gt_cases (List.length s) 32) as [Hl'|Hl'].
    + rewrite phone_number_encode_panic in Ht by lia. discriminate.
    + rewrite phone_number_encode_err in Ht by lia. discriminate.
Qed.

(** What the digits read show. *)
Definition lengths (t : list event) : list nat :=
  flat_map (fun e => match e with Length n => [n] | _ => [] end) t.
Lemma lengths_app a b : lengths (a ++ b) = (lengths a ++ lengths b)%list.
Proof. apply flat_map_app. Qed.
Definition printed (v : byte) : bytes := if bz v <=? 9 then [zb (bz v + 48)] else [].
Lemma read_digits_step n i s : t_read_digits (S n) i s =
  match index s i with
  | Some d => (Branch true :: Index i :: Branch true :: Arm (if bz d <=? 9 then d else zb 15) :: fst (t_read_digits n (S i) s),
               bind (snd (t_read_digits n (S i) s)) (fun t => Ok (if bz d <=? 9 then zb (bz d + 48) :: t else t)))
  | None => ([Branch true; Index i; Branch false], Panic)
  end.
Proof.
  cbn [t_read_digits]. unfold tbind at 1, pass at 1, t_index, attempt. cbn.
  destruct (index s i); [|reflexivity]. cbn. unfold pass, tbind. cbn.
  destruct (snd (t_read_digits n (S i) s)); cbn; rewrite ?app_nil_r; reflexivity.
Qed.
Lemma read_digits_shown n i s t : snd (t_read_digits n i s) = Ok t ->
  t = flat_map printed (arms (fst (t_read_digits n i s))).
Proof.
  revert i t. induction n as [|n IH]; intros i t; [intros [= <-]; reflexivity|]. rewrite read_digits_step.
  destruct (index s i) as [d|]; [|discriminate]. cbn [fst snd arms flat_map app].
  destruct (snd (t_read_digits n (S i) s)) as [t'| |] eqn:H; [|discriminate..]. cbn [bind]. intros [= <-].
  fold (arms (fst (t_read_digits n (S i) s))). rewrite (IH _ _ H). 
  destruct (bz d <=? 9) eqn:Hd; [unfold printed at 2; rewrite Hd; reflexivity|reflexivity].
Qed.
Lemma read_digits_lengths n i s : lengths (fst (t_read_digits n i s)) = [].
Proof.
  revert i. induction n as [|n IH]; intros i; [reflexivity|]. rewrite read_digits_step.
  destruct (index s i); [|reflexivity]. cbn. apply IH.
Qed.
Lemma find_length_shown i l : lengths (fst (t_find_length i l)) = [] /\ arms (fst (t_find_length i l)) = [].
Proof.
  revert i. induction l as [|b l IH]; intros i; [split; reflexivity|]. cbn [t_find_length].
  unfold tbind, t_if, seen. cbn. destruct (bz b =? 0); cbn; [apply IH|split; reflexivity].
Qed.
Lemma read_digits_panics n i s s' : List.length s = List.length s' ->
  (snd (t_read_digits n i s) = Panic <-> snd (t_read_digits n i s') = Panic) /\
  (forall e, snd (t_read_digits n i s) <> Err e).
Proof.
  intros H. revert i. induction n as [|n IH]; intros i; [cbn; split; [split|]; discriminate|]. rewrite !read_digits_step.
  pose proof (@index_both unit _ _ s s' i H) as K. destruct (index s i), (index s' i); cbn in K; try contradiction.
  - cbn [snd]. destruct (IH (S i)) as [I1 I2]. destruct (snd (t_read_digits n (S i) s)) eqn:A, (snd (t_read_digits n (S i) s')) eqn:B; cbn;
      try (elim (I2 _ eq_refl)); (split; [split; intros X; try discriminate X; try reflexivity|intros; discriminate]);
      try (discriminate (proj1 I1 eq_refl)); try (discriminate (proj2 I1 eq_refl)).
  - cbn. split; [tauto|discriminate].
Qed.
Lemma to_string_shown n n' : fst (t_phone_number_to_string n) = fst (t_phone_number_to_string n') ->
  phone_number_to_string n = phone_number_to_string n'.
Proof.
  rewrite <- !phone_number_to_string_result. unfold t_phone_number_to_string.
  rewrite !fst_tbind, !snd_tbind. cbn [seen fst snd].
  set (k := Z.to_nat (snd (t_find_length 32 (rev (scalar_to_bytes n))))).
  set (k' := Z.to_nat (snd (t_find_length 32 (rev (scalar_to_bytes n'))))).
  intros H. pose proof (f_equal lengths H) as HL. pose proof (f_equal arms H) as HA.
  rewrite !lengths_app, !(proj1 (find_length_shown _ _)), !read_digits_lengths in HL. cbn in HL. injection HL as HL.
  rewrite !arms_app, !(proj2 (find_length_shown _ _)) in HA. cbn in HA. rewrite <- HL in HA |- *.
  destruct (read_digits_panics k 2 (scalar_to_bytes n) (scalar_to_bytes n')) as [HP HE]; [unfold scalar_to_bytes; now rewrite !le_encode_length|].
  destruct (read_digits_panics k 2 (scalar_to_bytes n') (scalar_to_bytes n')) as [_ HE']; [reflexivity|].
  destruct (snd (t_read_digits k 2 (scalar_to_bytes n))) as [t| |] eqn:A; [|elim (HE _ eq_refl)|symmetry; apply HP; reflexivity].
  destruct (snd (t_read_digits k 2 (scalar_to_bytes n'))) as [t'| |] eqn:B; [|elim (HE' _ eq_refl)|discriminate (proj2 HP eq_refl)].
  apply read_digits_shown in A. apply read_digits_shown in B. fold (arms (fst (t_read_digits k 2 (scalar_to_bytes n)))) in HA. 
  rewrite A, B. f_equal. f_equal. exact HA.
Qed.

(** How long the trace of [try_from_bytes] is. *)
Lemma write_plain_step i x d l : t_write_digits (fun d => now d) i (x :: d) l =
  match array_set i x l with
  | Some l' => (Branch true :: Index (i - 2) :: Index i :: Branch true ::
                fst (t_write_digits (fun d => now d) (S i) d l'), snd (t_write_digits (fun d => now d) (S i) d l'))
  | None => ([Branch true; Index (i - 2); Index i; Branch false], Panic)
  end.
Proof.
  cbn [t_write_digits]. unfold tbind at 1 2 3, pass, t_array_set, attempt. cbn.
  destruct (array_set i x l); reflexivity.
Qed.
Lemma write_plain_length i d l v : snd (t_write_digits (fun d => now d) i d l) = Ok v ->
  List.length (fst (t_write_digits (fun d => now d) i d l)) = (4 * List.length d + 1)%nat.
Proof.
  revert i l. induction d as [|x d IH]; intros i l; [reflexivity|]. rewrite write_plain_step.
  destruct (array_set i x l); [|discriminate]. cbn [fst snd List.length]. intros H. rewrite (IH _ _ H). lia.
Qed.
Lemma array_set_length {Er} i v l : List.length (fst (@t_array_set Er i v l)) = 2%nat.
Proof. unfold t_array_set. rewrite fst_attempt. reflexivity. Qed.
Lemma number_trace_length b n : try_from_bytes b = Ok n ->
  List.length (fst (t_try_from_bytes b)) = (4 * List.length b + 12)%nat.
Proof.
  rewrite <- try_from_bytes_result. unfold t_try_from_bytes, t_phone_number_encode.
  rewrite !(fst_tbind (t_if _)), !(snd_tbind (t_if _)), snd_t_if.
  destruct (32 <? _)%nat; [discriminate|].
  rewrite !(fst_pass (t_array_set 0 _ _)), !(snd_pass (t_array_set 0 _ _)), !app_length, array_set_length.
  destruct (snd (t_array_set 0 _ _)) as [b0| |]; cbn [bind]; [|discriminate..].
  rewrite !(fst_pass (t_array_set 1 _ _)), !(snd_pass (t_array_set 1 _ _)), !app_length, array_set_length.
  destruct (snd (t_array_set 1 _ _)) as [b1| |]; cbn [bind]; [|discriminate..].
  rewrite !(fst_pass (t_write_digits _ _ _ _)), !(snd_pass (t_write_digits _ _ _ _)), !app_length.
  pose proof (write_plain_length 2 b b1) as W.
  destruct (snd (t_write_digits _ _ _ _)) as [b2| |]; cbn [bind]; [|discriminate..].
  rewrite (W b2 eq_refl), !fst_pass, !snd_pass, !app_length, array_set_length.
  destruct (snd (t_array_set _ _ b2)) as [b3| |]; cbn [bind]; [|discriminate..].
  rewrite !fst_pass, !snd_pass, !app_length, array_set_length.
  destruct (snd (t_array_set _ _ b3)) as [b4| |]; cbn [bind]; [|discriminate..].
  rewrite !fst_pass, !snd_pass, !app_length, array_set_length.
  destruct (snd (t_array_set _ _ b4)) as [b5| |]; cbn [bind]; [|discriminate..].
  intros _. cbn [fst seen t_if now List.length]. lia.
Qed.

(** How many zero bytes a number starts with. *)
Lemma leading_zeros_divides n z t k : 0 < z < 256 ^ Z.of_nat n ->
  ((256 ^ Z.of_nat k | z) <-> (k <= leading_zeros (le_encode n z ++ t))%nat).
Proof.
  revert z k. induction n as [|n IH]; intros z k H; [change (256 ^ Z.of_nat 0) with 1 in H; lia|].
  rewrite pow256_succ in H. cbn [le_encode app]. destruct (Z.eq_dec (z mod 256) 0) as [Hz|Hz].
  - assert (Hb : zb z = x00) by (rewrite <- zb_mod, Hz; reflexivity). rewrite Hb. cbn [leading_zeros].
    pose proof (Z.div_mod z 256 ltac:(lia)) as D. rewrite Hz in D.
    destruct k as [|k]; [split; [lia|intros _; exists z; cbn; lia]|]. rewrite pow256_succ, <- Nat.succ_le_mono, <- (IH (z / 256) k) by lia. split.
    + intros [q Hq]. exists q. nia.
    + intros [q Hq]. exists q. nia.
  - assert (Hb : zb z <> x00). { intros K. apply (f_equal bz) in K. rewrite bz_zb in K. cbn in K. contradiction. }
    assert (HL : leading_zeros (zb z :: le_encode n (z / 256) ++ t) = O) by (cbn [leading_zeros]; destruct (zb z); try reflexivity; contradiction).
    rewrite HL. destruct k as [|k]; [split; [lia|intros _; exists z; cbn; lia]|]. split; [|lia].
    rewrite pow256_succ. intros [q Hq]. elim Hz. rewrite Hq. replace (q * (256 * 256 ^ Z.of_nat k)) with (q * 256 ^ Z.of_nat k * 256) by ring.
    apply Z_mod_mult.
Qed.

Section final_traces.
  Context {E : Ext}.
  Lemma signal_issue_alike (i i' : Issuer E) b b' r r' os os' : same_counts i i' -> List.length b = List.length b' ->
    alike (both any) (t_signal_issue i b r os) (t_signal_issue i' b' r' os').
  Proof.
    intros Hi Hb. unfold t_signal_issue. apply (alike_pass any); [apply alike_attempt, alike_map_err, try_from_bytes_alike, Hb|].
    intros n n' _. apply issue_alike; [exact Hi|reflexivity].
  Qed.
  Lemma signal_user_new_alike (params params' : SystemParameters E) ip ip' key key' b b' : List.length b = List.length b' ->
    alike (both any) (t_signal_user_new params ip key b) (t_signal_user_new params' ip' key' b').
  Proof.
    intros Hb. unfold t_signal_user_new. apply (alike_pass any); [apply alike_attempt, alike_map_err, try_from_bytes_alike, Hb|].
    intros n n' _. apply alike_now. exact I.
  Qed.
  Lemma roster_create_alike (params params' : SystemParameters E) r r' b b' : List.length b = List.length b' ->
    alike (both any) (t_roster_create b params r) (t_roster_create b' params' r').
  Proof.
    intros Hb. unfold t_roster_create. destruct (ephemeral_new r), (ephemeral_new r').
    apply (alike_pass any); [apply alike_attempt, try_from_bytes_alike, Hb|]. intros n n' _. apply alike_now. exact I.
  Qed.
  Lemma issuer_create_alike (params params' : SystemParameters E) r r' :
    alike any (t_issuer_create params r) (t_issuer_create params' r').
  Proof.
    unfold t_issuer_create. eapply alike_bind; [apply keypair_new_alike|]. intros [k s] [k' s'] _. apply alike_now. exact I.
  Qed.

  Lemma user_layout (L : ExtLaws E) (u : SignalUser E) k X : us_key (su_user u) = Some k ->
    pk_Xn (us_issuer_parameters (su_user u)) = [X] ->
    exists front, List.length front = 128%nat /\
      signal_user_to_bytes u = (front ++ (scalar_to_bytes (eg_secret k) ++ compress (eg_public k)) ++
        match us_credential (su_user u) with None => zeros 96 | Some c => credential_to_bytes c end)%list.
  Proof.
    intros Hk HX. exists (phone_number_to_bytes (su_phone_number u) ++ system_parameters_to_bytes (us_system_parameters (su_user u)) ++
      public_key_to_bytes (us_issuer_parameters (su_user u)))%list. split.
    - rewrite !app_length, (system_parameters_length L), (public_key_length L), HX. unfold phone_number_to_bytes.
      rewrite scalar_to_bytes_length. reflexivity.
    - unfold signal_user_to_bytes, user_to_bytes. rewrite Hk. unfold elgamal_keypair_to_bytes. rewrite <- !app_assoc. reflexivity.
  Qed.
  Lemma credential_part (L : ExtLaws E) (u : User E) : wf_user u ->
    List.length (match us_credential u with None => zeros 96 | Some c => credential_to_bytes c end) = 96%nat.
  Proof.
    intros (_ & _ & H). destruct (us_credential u) as [c|]; [|apply repeat_length].
    destruct (H c eq_refl) as [(m & _ & Hm) _]. unfold credential_to_bytes. rewrite Hm, app_length, (tag_length L). cbn [flat_map].
    rewrite app_nil_r, scalar_to_bytes_length. reflexivity.
  Qed.
End final_traces.

(** ** C92: what running time shows *)
Theorem C92_computes : forall E,
  (forall h r, snd (@t_keypair_new E h r) = keypair_new h r) /\
  (forall k m r, snd (@t_mac E k m r) = mac k m r) /\
  (forall k t m, snd (@t_mac_verify E k t m) = mac_verify k t m) /\
  (forall b, snd (t_secret_key_from_bytes b) = secret_key_from_bytes b /\
             snd (@t_keypair_from_bytes E b) = keypair_from_bytes b /\
             snd (@t_elgamal_keypair_from_bytes E b) = elgamal_keypair_from_bytes b /\
             snd (@t_credential_from_bytes E b) = credential_from_bytes b /\
             snd (@t_issuer_from_bytes E b) = issuer_from_bytes b /\
             snd (@t_user_from_bytes E b) = user_from_bytes b /\
             snd (@t_signal_user_from_bytes E b) = signal_user_from_bytes b) /\
  (forall t p s os, snd (@t_ir_create E t p s os) = ir_create t p s os) /\
  (forall t p s os, snd (@t_ab_create E t p s os) = ab_create t p s os) /\
  (forall t p s os, snd (@t_ib_create E t p s os) = ib_create t p s os) /\
  (forall t p s os, snd (@t_vc_create E t p s os) = vc_create t p s os) /\
  (forall t p s os, snd (@t_ce_create E t p s os) = ce_create t p s os) /\
  (forall p t q, snd (@t_ir_verify E p t q) = ir_verify p t q) /\
  (forall p t q, snd (@t_ab_verify E p t q) = ab_verify p t q) /\
  (forall p t q, snd (@t_ib_verify E p t q) = ib_verify p t q) /\
  (forall p t q, snd (@t_vc_verify E p t q) = vc_verify p t q) /\
  (forall p t q, snd (@t_ce_verify E p t q) = ce_verify p t q) /\
  (forall params r, snd (@t_issuer_create E params r) = issuer_create params r) /\
  (forall i q r os, snd (@t_issue E i q r os) = issue i q r os) /\
  (forall i p, snd (@t_issuer_verify E i p) = issuer_verify i p) /\
  (forall u i, snd (@t_obtain_finish E u i) = obtain_finish u i) /\
  (forall u n r os, snd (@t_show E u n r os) = show u n r os) /\
  (forall b, snd (t_try_from_string b) = try_from_string b /\ snd (t_try_from_bytes b) = try_from_bytes b) /\
  (forall n, snd (t_phone_number_to_string n) = phone_number_to_string n) /\
  (forall b params r, snd (@t_roster_create E b params r) = roster_create b params r) /\
  (forall e b params, snd (@t_roster_open E e b params) = roster_open e b params) /\
  (forall i b r os, snd (@t_signal_issue E i b r os) = signal_issue i b r os) /\
  (forall i p, snd (@t_signal_verify E i p) = signal_verify i p) /\
  (forall i p, snd (@t_verify_roster_membership E i p) = verify_roster_membership i p) /\
  (forall params ip key b, snd (@t_signal_user_new E params ip key b) = signal_user_new params ip key b) /\
  (forall u i, snd (@t_signal_obtain_finish E u i) = signal_obtain_finish u i) /\
  (forall u r os e, snd (@t_signal_show E u r os e) = signal_show u r os e).
Proof.
  intros E. split; [apply keypair_new_result|]. split; [apply mac_result|]. split; [apply mac_verify_result|].
  split.
  { intros b. split; [apply secret_key_from_bytes_result|]. split; [apply keypair_from_bytes_result|].
    split; [apply elgamal_keypair_from_bytes_result|]. split; [apply credential_from_bytes_result|].
    split; [apply issuer_from_bytes_result|]. split; [apply user_from_bytes_result|apply signal_user_from_bytes_result]. }
  split; [apply ir_create_result|]. split; [apply ab_create_result|]. split; [apply ib_create_result|].
  split; [apply vc_create_result|]. split; [apply ce_create_result|].
  split; [apply ir_verify_result|]. split; [apply ab_verify_result|]. split; [apply ib_verify_result|].
  split; [apply vc_verify_result|]. split; [apply ce_verify_result|].
  split; [apply issuer_create_result|]. split; [apply issue_result|]. split; [apply issuer_verify_result|].
  split; [apply obtain_finish_result|]. split; [apply show_result|].
  split; [intros b; split; [apply try_from_string_result|apply try_from_bytes_result]|].
  split; [apply phone_number_to_string_result|]. split; [apply roster_create_result|]. split; [apply roster_open_result|].
  split; [apply signal_issue_result|]. split; [apply signal_verify_result|]. split; [apply verify_roster_membership_result|].
  split; [apply signal_user_new_result|]. split; [apply signal_obtain_finish_result|apply signal_show_result].
Qed.
Print Assumptions C92_computes.

(** Making keys and proofs shows nothing at all. *)
Theorem C92_key_generation : forall E r r',
  (forall h h' : point E, fst (t_keypair_new h r) = fst (t_keypair_new h' r')) /\
  (forall params params' : SystemParameters E, fst (t_issuer_create params r) = fst (t_issuer_create params' r')).
Proof. intros E r r'. split; intros x y; [apply keypair_new_alike|apply issuer_create_alike]. Qed.
Print Assumptions C92_key_generation.
Theorem C92_proof_creation : forall E t t' os os',
  (forall (p p' : ir_Publics E) s s', fst (t_ir_create t p s os) = fst (t_ir_create t' p' s' os')) /\
  (forall (p p' : ab_Publics E) s s', fst (t_ab_create t p s os) = fst (t_ab_create t' p' s' os')) /\
  (forall (p p' : ib_Publics E) s s', fst (t_ib_create t p s os) = fst (t_ib_create t' p' s' os')) /\
  (forall (p p' : vc_Publics E) s s', fst (t_vc_create t p s os) = fst (t_vc_create t' p' s' os')) /\
  (forall (p p' : ce_Publics E) s s', fst (t_ce_create t p s os) = fst (t_ce_create t' p' s' os')).
Proof.
  intros E t t' os os'. split; [intros; apply ir_create_alike|]. split; [intros; apply ab_create_alike|].
  split; [intros; apply ib_create_alike|]. split; [intros; apply vc_create_alike|intros; apply ce_create_alike].
Qed.
Print Assumptions C92_proof_creation.

(** Computing a MAC shows the numbers of key components and of attributes;
    checking one shows the answer besides. *)
Theorem C92_mac : forall E k k' m m' r r',
  List.length (sk_xn k) = List.length (sk_xn k') -> List.length m = List.length m' ->
  fst (@t_mac E k m r) = fst (@t_mac E k' m' r').
Proof. intros E k k' m m' r r' Hk Hm. apply mac_alike; assumption. Qed.
Print Assumptions C92_mac.
Theorem C92_mac_verify : forall E (t : Tag E) k k' m m',
  List.length (sk_xn k) = List.length (sk_xn k') -> List.length m = List.length m' ->
  (fst (t_mac_verify k t m) = fst (t_mac_verify k' t m') <-> mac_verify k t m = mac_verify k' t m').
Proof. intros E t k k' m m' Hk Hm. apply mac_verify_trace; [exact Hk|exact Hm|reflexivity]. Qed.
Print Assumptions C92_mac_verify.

(** Issuing shows how many components the key has and how many attributes or
    digits there are: not the key, the number or the randomness. *)
Theorem C92_issue : forall E (i i' : Issuer E) r r' os os', same_counts i i' ->
  (forall q q', List.length (rq_attributes_revealed q) = List.length (rq_attributes_revealed q') ->
     fst (t_issue i q r os) = fst (t_issue i' q' r' os')) /\
  (forall b b', List.length b = List.length b' -> fst (t_signal_issue i b r os) = fst (t_signal_issue i' b' r' os')).
Proof.
  intros E i i' r r' os os' H. split; intros x y Hl; [apply issue_alike|apply signal_issue_alike]; assumption.
Qed.
Print Assumptions C92_issue.

(** Showing a credential: not the credential, the number, the nonces, the
    roster entry with its opening, or the randomness. *)
Theorem C92_show : forall E r r' os os',
  (forall (u u' : User E) n n', same_holding u u' -> List.length n = List.length n' ->
     fst (t_show u n r os) = fst (t_show u' n' r' os')) /\
  (forall (u u' : SignalUser E) e e', same_holding (su_user u) (su_user u') ->
     fst (t_signal_show u r os e) = fst (t_signal_show u' r' os' e')).
Proof.
  intros E r r' os os'. split; [intros u u' n n' H Hn; apply show_alike; assumption|intros u u' e e' H; apply signal_show_alike, H].
Qed.
Print Assumptions C92_show.

(** Verifying: of the issuer's key only the answer. *)
Theorem C92_verify : forall E (i i' : Issuer E), same_counts i i' ->
  (forall p, fst (t_issuer_verify i p) = fst (t_issuer_verify i' p) <->
     (accepts (issuer_verify i p) <-> accepts (issuer_verify i' p))) /\
  (forall p, fst (t_signal_verify i p) = fst (t_signal_verify i' p) <->
     (accepts (signal_verify i p) <-> accepts (signal_verify i' p))) /\
  (forall p, fst (t_verify_roster_membership i p) = fst (t_verify_roster_membership i' p) <->
     (accepts (verify_roster_membership i p) <-> accepts (verify_roster_membership i' p))).
Proof.
  intros E i i' H. split; [intros p; apply issuer_verify_trace, H|].
  split; [intros p; apply signal_verify_trace, H|intros p; apply roster_membership_trace].
Qed.
Print Assumptions C92_verify.

(** Obtaining: of the user only the answer. *)
Theorem C92_obtain : forall E o,
  (forall u u' : User E,
     List.length (pk_Xn (us_issuer_parameters u)) = List.length (pk_Xn (us_issuer_parameters u')) ->
     (fst (t_obtain_finish u o) = fst (t_obtain_finish u' o) <-> snd (obtain_finish u o) = snd (obtain_finish u' o))) /\
  (forall u u' : SignalUser E,
     List.length (pk_Xn (us_issuer_parameters (su_user u))) = List.length (pk_Xn (us_issuer_parameters (su_user u'))) ->
     (fst (t_signal_obtain_finish u o) = fst (t_signal_obtain_finish u' o) <->
      snd (signal_obtain_finish u o) = snd (signal_obtain_finish u' o))).
Proof. intros E o. split; intros u u' H; [apply obtain_finish_trace|apply signal_obtain_finish_trace]; exact H. Qed.
Print Assumptions C92_obtain.

(** A number given as digits shows how many there are, and nothing else: when
    it is read, registered as a user's, put on the roster, or checked against
    an entry. *)
Theorem C92_number_bytes : forall E b b', List.length b = List.length b' ->
  fst (t_try_from_bytes b) = fst (t_try_from_bytes b') /\
  (forall (params params' : SystemParameters E) ip ip' key key',
     fst (t_signal_user_new params ip key b) = fst (t_signal_user_new params' ip' key' b')) /\
  (forall (params params' : SystemParameters E) r r',
     fst (t_roster_create b params r) = fst (t_roster_create b' params' r')) /\
  (forall (e e' : RosterEntryCommitment E) params params',
     fst (t_roster_open e b params) = fst (t_roster_open e' b' params') <->
     roster_open e b params = roster_open e' b' params').
Proof.
  intros E b b' H. split; [apply try_from_bytes_alike, H|]. split; [intros; apply signal_user_new_alike, H|].
  split; [intros; apply roster_create_alike, H|intros; apply roster_open_trace, H].
Qed.
Print Assumptions C92_number_bytes.
Theorem C92_number_length_refuted : forall b b' n n', try_from_bytes b = Ok n -> try_from_bytes b' = Ok n' ->
  (fst (t_try_from_bytes b) = fst (t_try_from_bytes b') <-> List.length b = List.length b').
Proof.
  intros b b' n n' H H'. split; [|apply try_from_bytes_alike]. intros K. apply (f_equal (@List.length event)) in K.
  rewrite (number_trace_length _ _ H), (number_trace_length _ _ H') in K. lia.
Qed.
Print Assumptions C92_number_length_refuted.

(** A number given as text is shown in full, and so is one turned into text. *)
Theorem C92_text_refuted : forall s s' n n', try_from_string s = Ok n -> try_from_string s' = Ok n' ->
  (fst (t_try_from_string s) = fst (t_try_from_string s') <-> n = n').
Proof.
  intros s s' n n' H H'. split.
  - intros K. apply (f_equal arms) in K. rewrite (text_arms _ _ H), (text_arms _ _ H') in K.
    apply string_digits in H. apply string_digits in H'. rewrite K, H' in H. now injection H.
  - intros <-. apply string_digits in H. apply string_digits in H'. rewrite (text_same s s'); [reflexivity|].
    exact (try_from_bytes_inj _ _ n H H').
Qed.
Print Assumptions C92_text_refuted.
Theorem C92_to_string_refuted : forall n n', phone_number_to_string n <> phone_number_to_string n' ->
  fst (t_phone_number_to_string n) <> fst (t_phone_number_to_string n').
Proof. intros n n' H K. exact (H (to_string_shown n n' K)). Qed.
Print Assumptions C92_to_string_refuted.

(** Reading the issuer's keys, or a key pair or credential, shows nothing when
    it succeeds. *)
Theorem C92_decode_keys : forall E b b', List.length b = List.length b' ->
  (forall k k', secret_key_from_bytes b = Ok k -> secret_key_from_bytes b' = Ok k' ->
     fst (t_secret_key_from_bytes b) = fst (t_secret_key_from_bytes b')) /\
  (forall k k' : Keypair E, keypair_from_bytes b = Ok k -> keypair_from_bytes b' = Ok k' ->
     fst (@t_keypair_from_bytes E b) = fst (@t_keypair_from_bytes E b')) /\
  (forall i i' : Issuer E, issuer_from_bytes b = Ok i -> issuer_from_bytes b' = Ok i' ->
     fst (@t_issuer_from_bytes E b) = fst (@t_issuer_from_bytes E b')) /\
  (forall k k' : ElgamalKeypair E, elgamal_keypair_from_bytes b = Ok k -> elgamal_keypair_from_bytes b' = Ok k' ->
     fst (@t_elgamal_keypair_from_bytes E b) = fst (@t_elgamal_keypair_from_bytes E b')) /\
  (forall c c' : Credential E, credential_from_bytes b = Ok c -> credential_from_bytes b' = Ok c' ->
     fst (@t_credential_from_bytes E b) = fst (@t_credential_from_bytes E b')).
Proof.
  intros E b b' H. split; [|split; [|split; [|split]]]; intros x y Hx Hy.
  - apply (secret_key_sure b b' H x y); rewrite secret_key_from_bytes_result; assumption.
  - apply (keypair_sure b b' H x y); rewrite keypair_from_bytes_result; assumption.
  - apply (issuer_sure b b' H x y); rewrite issuer_from_bytes_result; assumption.
  - apply (elgamal_keypair_sure b b' H x y); rewrite elgamal_keypair_from_bytes_result; assumption.
  - apply (credential_sure b b' H x y); rewrite credential_from_bytes_result; assumption.
Qed.
Print Assumptions C92_decode_keys.

(** Reading a user's state compares the bytes of the key and of the credential
    with zeros, and the comparison stops at the first byte which is not zero:
    this is all that is shown. *)
Theorem C92_decode_user : forall E b b', List.length b = List.length b' ->
  (forall u u' : User E, user_from_bytes b = Ok u -> user_from_bytes b' = Ok u' ->
     (fst (@t_user_from_bytes E b) = fst (@t_user_from_bytes E b') <->
      leading_zeros (firstn 64 (skipn 96 b)) = leading_zeros (firstn 64 (skipn 96 b')) /\
      leading_zeros (firstn 96 (skipn 160 b)) = leading_zeros (firstn 96 (skipn 160 b')))) /\
  (forall u u' : SignalUser E, signal_user_from_bytes b = Ok u -> signal_user_from_bytes b' = Ok u' ->
     (fst (@t_signal_user_from_bytes E b) = fst (@t_signal_user_from_bytes E b') <->
      leading_zeros (firstn 64 (skipn 128 b)) = leading_zeros (firstn 64 (skipn 128 b')) /\
      leading_zeros (firstn 96 (skipn 192 b)) = leading_zeros (firstn 96 (skipn 192 b')))).
Proof.
  intros E b b' H. split; intros u u' Hu Hu'.
  - apply (user_exact b b' H u u'); rewrite user_from_bytes_result; assumption.
  - apply (signal_user_exact b b' H u u'); rewrite signal_user_from_bytes_result; assumption.
Qed.
Print Assumptions C92_decode_user.
(** So it shows which powers of 256 divide the secret key. *)
Theorem C92_decode_user_refuted : forall E, ExtLaws E -> forall (u u' : SignalUser E) k k',
  wf_user (su_user u) -> bits255 (su_phone_number u) -> us_key (su_user u) = Some k -> eg_secret k <> 0 ->
  wf_user (su_user u') -> bits255 (su_phone_number u') -> us_key (su_user u') = Some k' -> eg_secret k' <> 0 ->
  us_credential (su_user u) = us_credential (su_user u') ->
  (fst (@t_signal_user_from_bytes E (signal_user_to_bytes u)) =
   fst (@t_signal_user_from_bytes E (signal_user_to_bytes u')) <->
   forall n, (256 ^ Z.of_nat n | eg_secret k) <-> (256 ^ Z.of_nat n | eg_secret k')).
Proof.
  intros E L u u' k k' Hw Hn Hk Hs Hw' Hn' Hk' Hs' Hc.
  pose proof (proj2 (C33_signal_user E L u) (conj Hw Hn)) as D.
  pose proof (proj2 (C33_signal_user E L u') (conj Hw' Hn')) as D'.
  pose proof (credential_part L _ Hw) as HC. pose proof (credential_part L _ Hw') as HC'.
  pose proof Hw as ((X & HX) & HK & _). pose proof Hw' as ((X' & HX') & HK' & _).
  destruct (HK k Hk) as [Hr _], (HK' k' Hk') as [Hr' _].
  destruct (user_layout L u k X Hk HX) as (f & Hf & Hb). destruct (user_layout L u' k' X' Hk' HX') as (f' & Hf' & Hb').
  rewrite Hb in D |- *. rewrite Hb' in D' |- *. clear Hb Hb'. rewrite <- Hc in *.
  set (c := match us_credential (su_user u) with Some _ => _ | None => _ end) in *.
  assert (P : forall (g : bytes) (q : ElgamalKeypair E), List.length g = 128%nat ->
    firstn 64 (skipn 128 (g ++ (scalar_to_bytes (eg_secret q) ++ compress (eg_public q)) ++ c)) = (scalar_to_bytes (eg_secret q) ++ compress (eg_public q))%list /\
    firstn 96 (skipn 192 (g ++ (scalar_to_bytes (eg_secret q) ++ compress (eg_public q)) ++ c)) = c /\
    List.length (g ++ (scalar_to_bytes (eg_secret q) ++ compress (eg_public q)) ++ c)%list = 288%nat).
  { intros g q Hg. set (y := (scalar_to_bytes (eg_secret q) ++ compress (eg_public q))%list).
    assert (Hy : List.length y = 64%nat) by apply (elgamal_keypair_length L q). split; [|split].
    - rewrite skipn_app, skipn_all2, Hg by lia. cbn [app Nat.sub]. rewrite skipn_O, <- Hy, firstn_app, firstn_all, Nat.sub_diag, firstn_O. apply app_nil_r.
    - rewrite app_assoc, skipn_app, skipn_all2 by (rewrite app_length; lia). rewrite app_length, Hg, Hy. cbn [app Nat.add Nat.sub]. rewrite skipn_O.
      rewrite <- HC. apply firstn_all.
    - rewrite !app_length. lia. }
  destruct (P f k Hf) as (P1 & P2 & P3), (P f' k' Hf') as (P1' & P2' & P3').
  rewrite (proj2 (C92_decode_user E _ _ (eq_trans P3 (eq_sym P3'))) u u' D D'), P1, P1', P2, P2'.
  assert (B : forall z, canonical z -> z <> 0 -> 0 < z < 256 ^ Z.of_nat 32).
  { intros z [H0 H1] H2. assert (ell < 256 ^ Z.of_nat 32) by (change (Z.of_nat 32) with 32; exact ell_lt_256). lia. }
  unfold scalar_to_bytes. split.
  - intros [HZ _] n. rewrite !(leading_zeros_divides 32), HZ by (apply B; assumption). reflexivity.
  - intros HZ. split; [|reflexivity]. apply Nat.le_antisymm.
    + rewrite <- (leading_zeros_divides 32) by (apply B; assumption). apply HZ. rewrite leading_zeros_divides by (apply B; assumption). reflexivity.
    + rewrite <- (leading_zeros_divides 32) by (apply B; assumption). apply HZ. rewrite leading_zeros_divides by (apply B; assumption). reflexivity.
Qed.
Print Assumptions C92_decode_user_refuted.

(** Two issuers with different keys, two users with different credentials, and
    what is seen when they are used. *)
Definition other_issuer : Issuer toy := issuer_with toy sample_params [pt 99] 8 [3].
Definition other_holder : User toy :=
  {| us_system_parameters := sample_params; us_issuer_parameters := {| pk_Xn := [pt 99] |}; us_key := None;
     us_credential := Some {| cr_mac := {| tag_nonce := pt 5; tag_mac := pt 6 |}; cr_attributes := [77] |} |}.
Example C92_met_counts :
  same_counts sample_issuer other_issuer /\ iss_keypair sample_issuer <> iss_keypair other_issuer /\
  same_holding sample_holder other_holder /\ us_credential sample_holder <> us_credential other_holder /\
  fst (t_issue sample_issuer (request [100]) (toy_stream 1) (toy_stream 2)) =
    [Branch true; Branch true; Length 1; Branch false; Branch true; Branch false; Branch true; Index 0;
     Branch true; Length 2; Length 2; Length 1; Length 1]%nat.
Proof.
  split; [split; reflexivity|]. split; [intros H; discriminate (f_equal (fun k => sk_x0 (kp_secret k)) H)|].
  split; [split; reflexivity|]. split; [intros H; injection H; discriminate|]. vm_compute. reflexivity.
Qed.
(** A MAC which one key accepts and another refuses. *)
Example C92_met_mac :
  List.length (sk_xn {| sk_x0 := 5; sk_xn := [7] |}) = List.length (sk_xn {| sk_x0 := 5; sk_xn := [8] |}) /\
  let t : Tag toy := {| tag_nonce := pt 3; tag_mac := pt ((5 + 7 * 100) * 3) |} in
  mac_verify {| sk_x0 := 5; sk_xn := [7] |} t [100] = Ok tt /\
  mac_verify {| sk_x0 := 5; sk_xn := [8] |} t [100] = Err AuthenticationError.
Proof. vm_compute. auto. Qed.
(** The same number as digits and as text: only the second shows the digits. *)
Example C92_met_text :
  fst (t_try_from_bytes [x04; x02]) = fst (t_try_from_bytes [x07; x09]) /\
  arms (fst (t_try_from_bytes [x04; x02])) = [] /\
  arms (fst (t_try_from_string (str "42"))) = [x04; x02] /\
  match try_from_string (str "42") with
  | Ok n => (lengths (fst (t_phone_number_to_string n)), arms (fst (t_phone_number_to_string n)))
  | _ => ([], [])
  end = ([2%nat], [x04; x02]).
Proof.
  split; [vm_compute; reflexivity|]. split; [vm_compute; reflexivity|]. split; vm_compute; reflexivity.
Qed.
(** Keys 4 and 512 have different numbers of zero bytes. *)
Definition keyed (s : Z) : SignalUser toy :=
  {| su_phone_number := 100;
     su_user := {| us_system_parameters := sample_params; us_issuer_parameters := {| pk_Xn := [pt 231] |};
                   us_key := Some {| eg_secret := s; eg_public := pt s |}; us_credential := None |} |}.
Example C92_met_user : (forall s, s = 4 \/ s = 512 -> wf_user (su_user (keyed s))) /\ bits255 100 /\
  ~ (fst (@t_signal_user_from_bytes toy (signal_user_to_bytes (keyed 4))) =
     fst (@t_signal_user_from_bytes toy (signal_user_to_bytes (keyed 512)))).
Proof.
  assert (W : forall s, s = 4 \/ s = 512 -> wf_user (su_user (keyed s))).
  { intros s H. split; [eexists; reflexivity|]. split; [|intros c; discriminate]. intros k [= <-]. cbn.
    split; [destruct H as [-> | ->]; (split; [discriminate|reflexivity])|]. intros [-> _]. destruct H; discriminate. }
  assert (B : bits255 100) by (split; [discriminate|reflexivity]).
  split; [exact W|]. split; [exact B|].
  rewrite (C92_decode_user_refuted toy toy_laws (keyed 4) (keyed 512) {| eg_secret := 4; eg_public := pt 4 |} {| eg_secret := 512; eg_public := pt 512 |});
    [|auto; try reflexivity; try discriminate..].
  cbn [eg_secret]. intros H. destruct (proj2 (H 1%nat)) as [q Hq]; [exists 2; reflexivity|]. change (256 ^ Z.of_nat 1) with 256 in Hq. lia.
Qed.
