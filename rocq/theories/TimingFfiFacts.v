(** Facts about timed calls through the C interface: their results, and relating
    two calls. *)
From Verif Require Export BaseFacts Algebra FfiFacts TimingFacts PropertiesTiming SpecTimingFfi ModelTimingFfi.

(** ** Results *)
Lemma snd_t_then {A B} (m : timed (step A)) (k : A -> timed (step B)) :
  snd (t_then m k) = then_ (snd m) (fun a => snd (k a)).
Proof. unfold t_then. rewrite snd_tbind. destruct (snd m); reflexivity. Qed.
Lemma snd_t_ok_or_return {Er A} (m : timed (outcome Er A)) : snd (t_ok_or_return m) = ok_or_return (snd m).
Proof. reflexivity. Qed.
Lemma snd_t_flat_map {A} (f : A -> bytes) l : snd (t_flat_map f l) = flat_map f l.
Proof. induction l as [|x l IH]; [reflexivity|]. cbn [t_flat_map flat_map]. rewrite !snd_tbind, IH. reflexivity. Qed.
Lemma snd_t_return_serialized m os s : snd (t_return_serialized m os s) = return_serialized m os (snd s).
Proof. reflexivity. Qed.
Lemma snd_t_call m os s : snd (t_call m os s) = call m os (snd s).
Proof. reflexivity. Qed.
Lemma fst_t_call m os s : fst (t_call m os s) = fst s.
Proof. unfold t_call. rewrite fst_tbind. cbn. apply app_nil_r. Qed.
Lemma then_same {A B} (s s' : step A) (k k' : A -> step B) :
  s = s' -> (forall a, k a = k' a) -> then_ s k = then_ s' k'.
Proof. intros -> H. destruct s'; cbn; auto. Qed.

Section results.
  Context {E : Ext}.
  Lemma public_key_to_bytes_result (k : PublicKey E) : snd (t_public_key_to_bytes k) = public_key_to_bytes k.
  Proof. apply snd_t_flat_map. Qed.
  Lemma keypair_to_bytes_result (k : Keypair E) : snd (t_keypair_to_bytes k) = keypair_to_bytes k.
  Proof.
    unfold t_keypair_to_bytes, t_secret_key_to_bytes. rewrite !snd_tbind, public_key_to_bytes_result, snd_t_flat_map. reflexivity.
  Qed.
  Lemma issuer_to_bytes_result (i : Issuer E) : snd (t_issuer_to_bytes i) = issuer_to_bytes i.
  Proof. unfold t_issuer_to_bytes. rewrite !snd_tbind, keypair_to_bytes_result. reflexivity. Qed.
  Lemma credential_to_bytes_result (c : Credential E) : snd (t_credential_to_bytes c) = credential_to_bytes c.
  Proof. unfold t_credential_to_bytes. rewrite !snd_tbind, snd_t_flat_map. reflexivity. Qed.
  Lemma issuance_to_bytes_result (i : CredentialIssuance E) : snd (t_issuance_to_bytes i) = issuance_to_bytes i.
  Proof. unfold t_issuance_to_bytes. rewrite !snd_tbind, credential_to_bytes_result. reflexivity. Qed.
  Lemma presentation_to_bytes_result (p : CredentialPresentation E) : snd (t_presentation_to_bytes p) = presentation_to_bytes p.
  Proof. unfold t_presentation_to_bytes. rewrite !snd_tbind, !snd_t_flat_map. reflexivity. Qed.
  Lemma signal_presentation_to_bytes_result (p : SignalCredentialPresentation E) :
    snd (t_signal_presentation_to_bytes p) = signal_presentation_to_bytes p.
  Proof. unfold t_signal_presentation_to_bytes. rewrite !snd_tbind, presentation_to_bytes_result. reflexivity. Qed.
  Lemma user_to_bytes_result (u : User E) : snd (t_user_to_bytes u) = user_to_bytes u.
  Proof.
    unfold t_user_to_bytes, user_to_bytes. rewrite !snd_tbind, public_key_to_bytes_result.
    destruct (us_key u), (us_credential u) as [c|]; try (rewrite (snd_tbind (t_if true)), credential_to_bytes_result); reflexivity.
  Qed.
  Lemma signal_user_to_bytes_result (u : SignalUser E) : snd (t_signal_user_to_bytes u) = signal_user_to_bytes u.
  Proof. unfold t_signal_user_to_bytes. rewrite !snd_tbind, user_to_bytes_result. reflexivity. Qed.

  Lemma commitment_from_bytes_result b : snd (@t_commitment_from_bytes E b) = commitment_from_bytes b.
  Proof. unfold t_commitment_from_bytes, commitment_from_bytes. same_result. Qed.
  Lemma committed_from_bytes_result b : snd (@t_committed_from_bytes E b) = committed_from_bytes b.
  Proof. unfold t_committed_from_bytes, committed_from_bytes. rewrite snd_attempt, snd_t_map_err, commitment_from_bytes_result. reflexivity. Qed.
  Lemma roster_from_bytes_result b : snd (@t_roster_from_bytes E b) = roster_from_bytes b.
  Proof.
    unfold t_roster_from_bytes, roster_from_bytes. rewrite snd_pass, snd_attempt. apply bind_same. intros x.
    rewrite snd_pass, snd_attempt, committed_from_bytes_result. apply bind_same. intros c. same_result.
  Qed.
  Lemma bincode_read_scalar_result b : snd (t_bincode_read_scalar b) = bincode_read_scalar b.
  Proof.
    unfold t_bincode_read_scalar, bincode_read_scalar. rewrite snd_tbind, snd_t_if. destruct (_ <? 8)%nat; [reflexivity|].
    rewrite snd_tbind, snd_t_if. destruct (negb _); [reflexivity|]. rewrite snd_tbind, snd_t_if. destruct (_ <? 32)%nat; [reflexivity|].
    destruct (from_canonical_bytes _); reflexivity.
  Qed.
  Lemma bincode_read_scalars_result n b : snd (t_bincode_read_scalars n b) = bincode_read_scalars n b.
  Proof.
    revert b. induction n as [|n IH]; intros b; [reflexivity|]. cbn [t_bincode_read_scalars bincode_read_scalars].
    rewrite snd_tbind, bincode_read_scalar_result. destruct (bincode_read_scalar b) as [[s b']|]; [|reflexivity].
    rewrite snd_tbind, IH. reflexivity.
  Qed.
  Lemma proof_result {P} n (f : list scalar -> option P) b :
    snd (t_proof n f b) = ok_or MissingData (match bincode_deserialize n b with Some l => f l | None => None end).
  Proof.
    unfold t_proof, t_bincode_deserialize, bincode_deserialize. rewrite !snd_tbind, bincode_read_scalars_result.
    destruct (bincode_read_scalars n b) as [[l r]|]; reflexivity.
  Qed.
  Lemma issuance_from_bytes_result b : snd (@t_issuance_from_bytes E b) = issuance_from_bytes b.
  Proof.
    unfold t_issuance_from_bytes, issuance_from_bytes. rewrite snd_pass, snd_attempt. apply bind_same. intros x.
    rewrite snd_pass, snd_attempt, commitment_from_bytes_result. apply bind_same. intros c.
    rewrite snd_pass, snd_attempt. apply bind_same. intros y.
    rewrite snd_pass, snd_attempt, credential_from_bytes_result. apply bind_same. intros d.
    rewrite snd_pass, snd_attempt. apply bind_same. intros z.
    rewrite snd_pass, snd_attempt, proof_result. apply bind_same. intros p. reflexivity.
  Qed.
  Lemma presentation_attributes_result n cs : snd (@t_presentation_attributes E n cs) = presentation_attributes n cs.
  Proof.
    revert n. induction cs as [|c cs IH]; intros n; [reflexivity|]. cbn [t_presentation_attributes presentation_attributes].
    rewrite !snd_tbind, snd_t_if. destruct (n <? _)%nat.
    - rewrite snd_pass. apply bind_equal; [unfold t_attribute_from_chunk, attribute_from_chunk; same_result|]. intros x. rewrite snd_pass, IH.
      apply bind_same. intros [r bl]. reflexivity.
    - rewrite snd_pass, snd_attempt, snd_t_map_err, commitment_from_bytes_result. apply bind_same. intros x. rewrite snd_pass, IH.
      apply bind_same. intros [r bl]. reflexivity.
  Qed.
  Lemma presentation_from_bytes_result b : snd (@t_presentation_from_bytes E b) = presentation_from_bytes b.
  Proof.
    unfold t_presentation_from_bytes, presentation_from_bytes. rewrite snd_tbind, snd_t_if. destruct (negb _); [reflexivity|].
    rewrite snd_pass, snd_attempt. apply bind_same. intros x.
    rewrite snd_pass, snd_attempt, commitment_from_bytes_result. apply bind_same. intros c.
    rewrite snd_pass, snd_attempt. apply bind_same. intros y. rewrite snd_pass, snd_attempt. apply bind_same. intros P.
    rewrite snd_pass, snd_attempt. apply bind_same. intros z. rewrite snd_pass, presentation_attributes_result. apply bind_same. intros [r bl].
    rewrite snd_pass, snd_attempt. apply bind_same. intros w. rewrite snd_pass, snd_attempt, proof_result. apply bind_same. intros p. reflexivity.
  Qed.
  Lemma signal_presentation_from_bytes_result b : snd (@t_signal_presentation_from_bytes E b) = signal_presentation_from_bytes b.
  Proof.
    unfold t_signal_presentation_from_bytes, signal_presentation_from_bytes. rewrite snd_tbind, snd_t_if. destruct (_ <? _)%nat; [reflexivity|].
    rewrite snd_pass, snd_attempt. apply bind_same. intros x.
    rewrite snd_pass, snd_attempt, snd_t_map_err, committed_from_bytes_result. apply bind_same. intros c.
    rewrite snd_pass, snd_attempt. apply bind_same. intros y.
    rewrite snd_pass, snd_attempt, presentation_from_bytes_result. apply bind_same. intros q.
    rewrite snd_pass, snd_attempt. apply bind_same. intros w. rewrite snd_pass, snd_attempt, proof_result. apply bind_same. intros p. reflexivity.
  Qed.
  Lemma verified_signal_from_bytes_result b : snd (@t_verified_signal_from_bytes E b) = verified_signal_from_bytes b.
  Proof.
    unfold t_verified_signal_from_bytes, verified_signal_from_bytes. rewrite snd_pass, snd_attempt, signal_presentation_from_bytes_result. reflexivity.
  Qed.
  Lemma system_parameters_from_bytes_result b : snd (@t_system_parameters_from_bytes E b) = system_parameters_from_bytes b.
  Proof. unfold t_system_parameters_from_bytes, system_parameters_from_bytes. same_result. Qed.
  Lemma public_key_from_bytes_result b : snd (@t_public_key_from_bytes E b) = public_key_from_bytes b.
  Proof.
    unfold t_public_key_from_bytes, public_key_from_bytes. rewrite snd_tbind, snd_t_if. destruct (negb _); [reflexivity|].
    rewrite snd_pass. apply bind_equal; [apply snd_t_try_map; reflexivity|reflexivity].
  Qed.
  Lemma hunt_and_peck_result fuel r : snd (@t_hunt_and_peck E fuel r) = hunt_and_peck fuel r.
  Proof.
    revert r. induction fuel as [|n IH]; intros r; [reflexivity|]. cbn [t_hunt_and_peck hunt_and_peck].
    rewrite snd_tbind. destruct (fill_bytes 32 r) as [tmp r']. rewrite snd_tbind, snd_t_bytes_eqb. unfold peck.
    destruct (bytes_eqb _ _); [apply IH|]. destruct (decompress tmp); [reflexivity|apply IH].
  Qed.

  Lemma slice_result m len p : snd (@t_len_and_ptr_to_slice E m len p) = @len_and_ptr_to_slice E m len p.
  Proof.
    unfold t_len_and_ptr_to_slice, len_and_ptr_to_slice. rewrite snd_tbind, snd_t_or. destruct (_ || _); reflexivity.
  Qed.
  Lemma array_result m p n : snd (@t_uint8_to_array E m p n) = @uint8_to_array E m p n.
  Proof.
    unfold t_uint8_to_array, uint8_to_array. rewrite snd_tbind, snd_t_or. destruct (_ || _); [reflexivity|].
    rewrite snd_t_then. apply then_same; [reflexivity|]. intros b. rewrite snd_tbind, snd_t_if. destruct (negb _); reflexivity.
  Qed.
  Lemma csprng_result m p : snd (@t_csprng_from_seed E m p) = @csprng_from_seed E m p.
  Proof.
    unfold t_csprng_from_seed, csprng_from_seed. rewrite snd_t_then. apply then_same; [apply array_result|]. intros o.
    rewrite snd_t_then. reflexivity.
  Qed.
  Lemma des_result {Er A} (tf : bytes -> timed (outcome Er A)) f m len p : (forall b, snd (tf b) = f b) ->
    snd (@t_deserialize_or_return E Er A tf m len p) = deserialize_or_return (E := E) f m len p.
  Proof.
    intros H. unfold t_deserialize_or_return, deserialize_or_return. rewrite snd_t_then. apply then_same; [apply slice_result|].
    intros b. rewrite snd_t_ok_or_return, H. reflexivity.
  Qed.
  Lemma c_run_result fuel m os f : snd (@t_c_run E fuel m os f) = @c_run E fuel m os f.
  Proof.
    destruct f; cbn [t_c_run c_run].
    - unfold t_c_system_parameters_create, c_system_parameters_create. rewrite snd_t_call. f_equal. rewrite snd_t_then.
      apply then_same; [apply csprng_result|]. intros r. rewrite snd_tbind, hunt_and_peck_result.
      destruct (hunt_and_peck fuel r) as [[p r']|]; reflexivity.
    - unfold t_c_issuer_create, c_issuer_create. rewrite snd_t_call. f_equal. rewrite snd_t_then.
      apply then_same; [apply csprng_result|]. intros r. rewrite snd_t_then.
      apply then_same; [apply des_result, system_parameters_from_bytes_result|]. intros p.
      rewrite snd_tbind, issuer_create_result. unfold signal_issuer_create. destruct (issuer_create p r) as [i r'].
      rewrite snd_t_return_serialized, keypair_to_bytes_result. reflexivity.
    - unfold t_c_issuer_new, c_issuer_new. rewrite snd_t_call. f_equal. rewrite snd_t_then.
      apply then_same; [apply des_result, system_parameters_from_bytes_result|]. intros p. rewrite snd_t_then.
      apply then_same; [apply des_result, keypair_from_bytes_result|]. intros k.
      rewrite snd_t_return_serialized, issuer_to_bytes_result. reflexivity.
    - unfold t_c_issuer_get_issuer_parameters, c_issuer_get_issuer_parameters. rewrite snd_t_call. f_equal. rewrite snd_t_then.
      apply then_same; [apply des_result, issuer_from_bytes_result|]. intros i.
      rewrite snd_t_return_serialized, public_key_to_bytes_result. reflexivity.
    - unfold t_c_issuer_issue, c_issuer_issue. rewrite snd_t_call. f_equal. rewrite snd_t_then.
      apply then_same; [apply des_result, issuer_from_bytes_result|]. intros i. rewrite snd_t_then.
      apply then_same; [apply csprng_result|]. intros r. rewrite snd_t_then.
      apply then_same; [apply slice_result|]. intros b. rewrite snd_t_then.
      apply then_same; [rewrite snd_t_ok_or_return, signal_issue_result; reflexivity|]. intros [[x r'] os'].
      rewrite snd_t_return_serialized, issuance_to_bytes_result. reflexivity.
    - unfold t_c_issuer_verify, c_issuer_verify. rewrite snd_t_call. f_equal. rewrite snd_t_then.
      apply then_same; [apply des_result, issuer_from_bytes_result|]. intros i. rewrite snd_t_then.
      apply then_same; [apply des_result, signal_presentation_from_bytes_result|]. intros p. rewrite snd_t_then.
      apply then_same; [rewrite snd_t_ok_or_return, signal_verify_result; reflexivity|]. intros v.
      rewrite snd_t_return_serialized, signal_presentation_to_bytes_result. reflexivity.
    - unfold t_c_issuer_verify_roster_membership, c_issuer_verify_roster_membership. rewrite snd_t_call. f_equal. rewrite snd_t_then.
      apply then_same; [apply des_result, issuer_from_bytes_result|]. intros i. rewrite snd_t_then.
      apply then_same; [apply des_result, verified_signal_from_bytes_result|]. intros p. rewrite snd_t_then.
      apply then_same; [rewrite snd_t_ok_or_return, verify_roster_membership_result; reflexivity|]. intros v. reflexivity.
    - unfold t_c_user_obtain_finish, c_user_obtain_finish. rewrite snd_t_call. f_equal. rewrite snd_t_then.
      apply then_same; [apply des_result, system_parameters_from_bytes_result|]. intros p. rewrite snd_t_then.
      apply then_same; [apply des_result, public_key_from_bytes_result|]. intros ip. rewrite snd_t_then.
      apply then_same; [apply des_result, issuance_from_bytes_result|]. intros i. rewrite snd_t_then.
      apply then_same; [apply slice_result|]. intros b. rewrite snd_t_then.
      apply then_same; [rewrite snd_t_ok_or_return, signal_user_new_result; reflexivity|]. intros u.
      rewrite snd_tbind, signal_obtain_finish_result. destruct (signal_obtain_finish u _) as [u' o]. rewrite snd_t_then.
      apply then_same; [reflexivity|]. intros _. rewrite snd_t_return_serialized, signal_user_to_bytes_result. reflexivity.
    - unfold t_c_user_show, c_user_show. rewrite snd_t_call. f_equal. rewrite snd_t_then.
      apply then_same; [apply csprng_result|]. intros r. rewrite snd_t_then.
      apply then_same; [apply des_result, signal_user_from_bytes_result|]. intros u. rewrite snd_t_then.
      apply then_same; [apply des_result, roster_from_bytes_result|]. intros e. rewrite snd_t_then.
      apply then_same; [rewrite snd_t_ok_or_return, signal_show_result; reflexivity|]. intros [[x r'] os'].
      rewrite snd_t_return_serialized, signal_presentation_to_bytes_result. reflexivity.
    - unfold t_c_roster_entry_commitment_create, c_roster_entry_commitment_create. rewrite snd_t_call. f_equal. rewrite snd_t_then.
      apply then_same; [apply csprng_result|]. intros r. rewrite snd_t_then.
      apply then_same; [apply slice_result|]. intros b. rewrite snd_t_then.
      apply then_same; [apply des_result, system_parameters_from_bytes_result|]. intros p. rewrite snd_t_then.
      apply then_same; [rewrite snd_t_ok_or_return, roster_create_result; reflexivity|]. intros [e r']. reflexivity.
    - unfold t_c_roster_entry_commitment_remove_opening, c_roster_entry_commitment_remove_opening. rewrite snd_t_call. f_equal. rewrite snd_t_then.
      apply then_same; [apply des_result, roster_from_bytes_result|]. intros e. reflexivity.
    - unfold t_c_roster_entry_commitment_open, c_roster_entry_commitment_open. rewrite snd_t_call. f_equal. rewrite snd_t_then.
      apply then_same; [apply slice_result|]. intros b. rewrite snd_t_then.
      apply then_same; [apply des_result, system_parameters_from_bytes_result|]. intros p. rewrite snd_t_then.
      apply then_same; [apply des_result, roster_from_bytes_result|]. intros e.
      rewrite snd_tbind, snd_attempt, roster_open_result. reflexivity.
  Qed.
End results.

(** ** Two calls which both go on. *)
Definition calm {A B} (R : A -> B -> Prop) (m1 : timed (step A)) (m2 : timed (step B)) : Prop :=
  forall a b, snd m1 = Next a -> snd m2 = Next b -> fst m1 = fst m2 /\ R a b.

Lemma fst_t_then {A B} (m : timed (step A)) (k : A -> timed (step B)) :
  fst (t_then m k) = (fst m ++ match snd m with Next a => fst (k a) | _ => [] end)%list.
Proof. unfold t_then. rewrite fst_tbind. destruct (snd m); reflexivity. Qed.
Lemma calm_then {A B A' B'} (R : A -> B -> Prop) (R' : A' -> B' -> Prop)
    (m1 : timed (step A)) (m2 : timed (step B)) k1 k2 :
  calm R m1 m2 -> (forall a b, snd m1 = Next a -> snd m2 = Next b -> R a b -> calm R' (k1 a) (k2 b)) ->
  calm R' (t_then m1 k1) (t_then m2 k2).
Proof.
  intros H Hk a b. rewrite !snd_t_then, !fst_t_then.
  destruct (snd m1) as [x| | | |] eqn:H1; cbn [then_]; try discriminate.
  destruct (snd m2) as [y| | | |] eqn:H2; cbn [then_]; try discriminate.
  intros K1 K2. destruct (H x y H1 H2) as [T HR]. destruct (Hk x y eq_refl eq_refl HR a b K1 K2) as [T' HR'].
  rewrite T, T'. auto.
Qed.
Lemma calm_bind {A B A' B'} (R : A -> B -> Prop) (R' : A' -> B' -> Prop) m1 m2
    (k1 : A -> timed (step A')) (k2 : B -> timed (step B')) :
  alike R m1 m2 -> (forall a b, a = snd m1 -> b = snd m2 -> R a b -> calm R' (k1 a) (k2 b)) -> calm R' (tbind m1 k1) (tbind m2 k2).
Proof.
  intros [H1 H2] Hk a b K1 K2. destruct (Hk _ _ eq_refl eq_refl H2 a b K1 K2) as [T HR]. split; [|exact HR].
  rewrite !fst_tbind, H1, T. reflexivity.
Qed.
Lemma calm_ok {Er A B} (R : A -> B -> Prop) (m1 : timed (outcome Er A)) (m2 : timed (outcome Er B)) :
  sure R m1 m2 -> calm R (t_ok_or_return m1) (t_ok_or_return m2).
Proof.
  intros H a b. rewrite !snd_t_ok_or_return, !ok_or_return_next. intros H1 H2.
  destruct (sure_attempt R m1 m2 H a b H1 H2) as [T HR]. split; [|exact HR].
  unfold t_ok_or_return. rewrite !fst_tbind, T. reflexivity.
Qed.
Lemma sure_alike {Er A B} (R : A -> B -> Prop) (m1 : timed (outcome Er A)) (m2 : timed (outcome Er B)) :
  alike (both R) m1 m2 -> sure R m1 m2.
Proof. intros [T H] a b H1 H2. rewrite H1, H2 in H. split; assumption. Qed.
Lemma calm_return m m' os os' (s s' : timed bytes) :
  alike (fun a b => List.length a = List.length b) s s' -> calm any (t_return_serialized m os s) (t_return_serialized m' os' s').
Proof.
  intros [T H] a b _ _. split; [|exact I]. unfold t_return_serialized.
  rewrite !(fst_tbind _ (fun b => seen _ _)). f_equal; [exact T|]. cbn [fst seen]. do 2 f_equal. exact H.
Qed.
Lemma alike_flat_map {A B} (f : A -> bytes) (g : B -> bytes) l l' :
  (forall x y, List.length (f x) = List.length (g y)) -> List.length l = List.length l' ->
  alike (fun a b => List.length a = List.length b) (t_flat_map f l) (t_flat_map g l').
Proof.
  intros Hf. revert l'. induction l as [|x l IH]; intros [|y l'] H; try discriminate H; [apply alike_seen; reflexivity|].
  cbn [t_flat_map]. apply (alike_bind eq); [apply alike_if|]. intros _ _ _.
  eapply alike_bind; [apply IH; now injection H|]. intros a b Hab. apply alike_now. rewrite !app_length, Hab, (Hf x y). reflexivity.
Qed.

(** Values decoded from as many bytes. *)
Definition decoded {Er A} (f : bytes -> outcome Er A) (a a' : A) : Prop :=
  exists b b', List.length b = List.length b' /\ f b = Ok a /\ f b' = Ok a'.

Section calm.
  Context {E : Ext} (L : ExtLaws E).
  Let same_length (a b : bytes) : Prop := List.length a = List.length b.

  Lemma calm_slice m m' len p :
    calm (fun a b => List.length a = List.length b) (@t_len_and_ptr_to_slice E m len p) (@t_len_and_ptr_to_slice E m' len p).
  Proof.
    intros a b. rewrite !slice_result, !slice_next. intros (_ & _ & H1) (_ & _ & H2).
    split; [|rewrite (read_length _ _ _ _ H1), (read_length _ _ _ _ H2); reflexivity].
    unfold t_len_and_ptr_to_slice. rewrite !fst_tbind, snd_t_or. destruct (_ || _); reflexivity.
  Qed.
  Lemma calm_seed m m' p : calm any (@t_csprng_from_seed E m p) (@t_csprng_from_seed E m' p).
  Proof.
    unfold t_csprng_from_seed. apply (calm_then any).
    - unfold t_uint8_to_array. apply (calm_bind eq); [apply alike_or|]. intros c _ _ _ <-.
      destruct c; [intros a b _ _; split; [reflexivity|exact I]|].
      apply (calm_then any); [intros a b _ _; split; [reflexivity|exact I]|]. intros a b Ha Hb _.
      assert (H : List.length a = List.length b).
      { cbn [snd now] in Ha, Hb. destruct (read m _ _) eqn:R1; [|discriminate]. destruct (read m' _ _) eqn:R2; [|discriminate].
        injection Ha as <-. injection Hb as <-. apply read_length in R1. apply read_length in R2. congruence. }
      rewrite H. apply (calm_bind eq); [apply alike_if|]. intros c _ _ _ <-.
      destruct c; [intros x y _ _; split; [reflexivity|exact I]|].
      intros x y Hx Hy. split; [|exact I]. rewrite !fst_tbind, !fst_attempt. cbn [fst now].
      unfold to_array. rewrite H. destruct (_ =? _)%nat; reflexivity.
    - intros o o' _ _ _. apply (calm_then any).
      + apply calm_ok. intros a b _ _. split; [reflexivity|exact I].
      + intros a b _ _ _ c d _ _. split; [reflexivity|exact I].
  Qed.
  Lemma calm_des {Er A} (tf : bytes -> timed (outcome Er A)) f m m' len p :
    (forall b, snd (tf b) = f b) -> (forall b b', List.length b = List.length b' -> sure any (tf b) (tf b')) ->
    calm (decoded f) (@t_deserialize_or_return E Er A tf m len p) (@t_deserialize_or_return E Er A tf m' len p).
  Proof.
    intros Hr Hs. unfold t_deserialize_or_return. eapply calm_then; [apply calm_slice|]. intros b b' _ _ H.
    apply calm_ok. intros a a' Ha Ha'. destruct (Hs b b' H a a' Ha Ha') as [T _]. split; [exact T|].
    exists b, b'. rewrite Hr in Ha. rewrite Hr in Ha'. auto.
  Qed.

  Lemma commitment_sure b b' : sure any (@t_commitment_from_bytes E b) (@t_commitment_from_bytes E b').
  Proof. unfold t_commitment_from_bytes. eapply sure_pass; [apply slice_sure|]. intros. apply now_sure. Qed.
  Lemma roster_sure b b' : sure any (@t_roster_from_bytes E b) (@t_roster_from_bytes E b').
  Proof.
    unfold t_roster_from_bytes. eapply sure_pass; [apply slice_sure|]. intros x x' _.
    eapply sure_pass; [apply sure_attempt; unfold t_committed_from_bytes; apply sure_attempt, sure_map_err, commitment_sure|]. intros c c' _.
    eapply sure_pass; [apply now_sure|]. intros y y' _. eapply sure_pass; [apply now_sure|]. intros. apply ok_sure.
  Qed.

  Lemma decoded_issuer (i i' : Issuer E) : decoded issuer_from_bytes i i' -> same_counts i i'.
  Proof.
    intros (b & b' & H & H1 & H2). apply (issuer_iff L) in H1 as [[[_ W] _] ->]. apply (issuer_iff L) in H2 as [[[_ W'] _] ->].
    rewrite !(issuer_length L) in H. split; lia.
  Qed.
  Lemma decoded_keypair (k k' : Keypair E) : decoded keypair_from_bytes k k' ->
    List.length (pk_Xn (kp_public k)) = List.length (pk_Xn (kp_public k')) /\
    List.length (sk_xn (kp_secret k)) = List.length (sk_xn (kp_secret k')).
  Proof.
    intros (b & b' & H & H1 & H2). apply (keypair_iff L) in H1 as [[_ W] ->]. apply (keypair_iff L) in H2 as [[_ W'] ->].
    rewrite !(keypair_length L) in H. lia.
  Qed.
  Lemma decoded_public (k k' : PublicKey E) : decoded public_key_from_bytes k k' -> List.length (pk_Xn k) = List.length (pk_Xn k').
  Proof.
    intros (b & b' & H & H1 & H2). apply (public_key_iff L) in H1 as ->. apply (public_key_iff L) in H2 as ->.
    rewrite !(public_key_length L) in H. lia.
  Qed.

  (** Encoding. *)
  Lemma public_key_alike (k k' : PublicKey E) : List.length (pk_Xn k) = List.length (pk_Xn k') ->
    alike same_length (t_public_key_to_bytes k) (t_public_key_to_bytes k').
  Proof. intros H. apply alike_flat_map; [|exact H]. intros P Q. rewrite !(compress_len L). reflexivity. Qed.
  Lemma keypair_alike (k k' : Keypair E) :
    List.length (pk_Xn (kp_public k)) = List.length (pk_Xn (kp_public k')) ->
    List.length (sk_xn (kp_secret k)) = List.length (sk_xn (kp_secret k')) ->
    alike same_length (t_keypair_to_bytes k) (t_keypair_to_bytes k').
  Proof.
    intros H1 H2. unfold t_keypair_to_bytes. eapply alike_bind; [apply public_key_alike, H1|]. intros a b Hab.
    eapply (alike_bind same_length).
    - unfold t_secret_key_to_bytes. eapply alike_bind; [apply alike_flat_map; [|exact H2]|].
      + intros. rewrite !scalar_to_bytes_length. reflexivity.
      + intros c d Hcd. apply alike_now. unfold same_length. rewrite !app_length, !scalar_to_bytes_length, Hcd. reflexivity.
    - intros c d Hcd. apply alike_now. unfold same_length in *. rewrite !app_length, Hab, Hcd. reflexivity.
  Qed.
  Lemma issuer_alike (i i' : Issuer E) : same_counts i i' -> alike same_length (t_issuer_to_bytes i) (t_issuer_to_bytes i').
  Proof.
    intros [H1 H2]. unfold t_issuer_to_bytes. eapply alike_bind; [apply keypair_alike; assumption|]. intros a b Hab.
    apply alike_now. unfold same_length in *. rewrite !app_length, !(system_parameters_length L), Hab. reflexivity.
  Qed.
  Lemma credential_alike (c c' : Credential E) : List.length (cr_attributes c) = List.length (cr_attributes c') ->
    alike same_length (t_credential_to_bytes c) (t_credential_to_bytes c').
  Proof.
    intros H. unfold t_credential_to_bytes. eapply alike_bind; [apply alike_flat_map; [|exact H]|].
    - intros. rewrite !scalar_to_bytes_length. reflexivity.
    - intros a b Hab. apply alike_now. unfold same_length. rewrite !app_length, !(tag_length L), Hab. reflexivity.
  Qed.
  Lemma bincode_serialize_length l : List.length (bincode_serialize l) = (40 * List.length l)%nat.
  Proof.
    unfold bincode_serialize. induction l as [|x l IH]; [reflexivity|]. cbn [flat_map List.length].
    rewrite app_length, bincode_scalar_length, IH. lia.
  Qed.
  Lemma alike_proof l l' : List.length l = List.length l' -> alike same_length (t_bincode_serialize l) (t_bincode_serialize l').
  Proof. intros H. unfold t_bincode_serialize. rewrite H. apply alike_seen. unfold same_length. rewrite !bincode_serialize_length, H. reflexivity. Qed.
  Lemma issuance_alike (i i' : CredentialIssuance E) :
    List.length (cr_attributes (is_credential i)) = List.length (cr_attributes (is_credential i')) ->
    alike same_length (t_issuance_to_bytes i) (t_issuance_to_bytes i').
  Proof.
    intros H. unfold t_issuance_to_bytes. eapply alike_bind; [apply credential_alike, H|]. intros a b Hab.
    eapply alike_bind; [apply alike_proof; reflexivity|]. intros c d Hcd. apply (alike_bind eq); [apply alike_if|]. intros _ _ _.
    apply alike_now. unfold same_length, commitment_to_bytes in *. rewrite !app_length, !(compress_len L), Hab, Hcd. reflexivity.
  Qed.
  Lemma signal_presentation_alike (p p' : SignalCredentialPresentation E) :
    List.length (pr_attributes_revealed (sc_presentation p)) = List.length (pr_attributes_revealed (sc_presentation p')) ->
    List.length (pr_attributes_blinded (sc_presentation p)) = List.length (pr_attributes_blinded (sc_presentation p')) ->
    alike same_length (t_signal_presentation_to_bytes p) (t_signal_presentation_to_bytes p').
  Proof.
    intros H1 H2. unfold t_signal_presentation_to_bytes. eapply (alike_bind same_length).
    - unfold t_presentation_to_bytes. eapply alike_bind; [apply alike_flat_map; [|exact H1]; intros; rewrite !scalar_to_bytes_length; reflexivity|].
      intros a b Hab. eapply alike_bind; [apply alike_flat_map; [|exact H2]; intros; unfold commitment_to_bytes; rewrite !(compress_len L); reflexivity|].
      intros c d Hcd. eapply alike_bind; [apply alike_proof; reflexivity|]. intros e f Hef. apply (alike_bind eq); [apply alike_if|]. intros _ _ _.
      apply alike_now. unfold same_length, commitment_to_bytes in *. rewrite !app_length, !(compress_len L), Hab, Hcd, Hef. reflexivity.
    - intros a b Hab. eapply alike_bind; [apply alike_proof; reflexivity|]. intros e f Hef. apply (alike_bind eq); [apply alike_if|]. intros _ _ _.
      apply alike_now. unfold same_length, committed_to_bytes, commitment_to_bytes in *. rewrite !app_length, !(compress_len L), Hab, Hef. reflexivity.
  Qed.
  Lemma signal_user_alike (u u' : SignalUser E) : same_holding (su_user u) (su_user u') ->
    us_key (su_user u) = None -> us_key (su_user u') = None ->
    alike same_length (t_signal_user_to_bytes u) (t_signal_user_to_bytes u').
  Proof.
    intros [H1 H2] K K'. unfold t_signal_user_to_bytes, t_user_to_bytes. rewrite K, K'. eapply (alike_bind same_length).
    - eapply alike_bind; [apply public_key_alike, H1|]. intros a b Hab. apply (alike_bind same_length); [apply alike_seen; reflexivity|].
      intros c d Hcd. eapply (alike_bind same_length).
      + destruct (us_credential (su_user u)), (us_credential (su_user u')); try contradiction; [|apply alike_seen; reflexivity].
        apply (alike_bind eq); [apply alike_if|]. intros _ _ _. apply credential_alike, H2.
      + intros e f Hef. apply alike_now. unfold same_length in *. rewrite !app_length, !(system_parameters_length L), Hab, Hcd, Hef. reflexivity.
    - intros a b Hab. apply alike_now. unfold same_length, phone_number_to_bytes in *. rewrite !app_length, !scalar_to_bytes_length, Hab. reflexivity.
  Qed.

  (** What is made has as many parts. *)
  Lemma issued_attributes (i : Issuer E) b r os x r' os' : signal_issue i b r os = Ok (x, r', os') ->
    List.length (cr_attributes (is_credential x)) = 1%nat.
  Proof.
    unfold signal_issue, issue. intros H. inv_ok. destruct (reseed _ _ r) as [c s]. inv_ok.
    match goal with H : (let '(_, _) := ?x in _) = Ok _ |- _ => destruct x as [tag d] end.
    destruct (ephemeral_new d) as [z e]. inv_ok.
    match goal with H : (let '(_, _) := ?x in _) = Ok _ |- _ => destruct x as [q w] end.
    match goal with H : (let (_, _) := ?x in _) = Ok _ |- _ => destruct x as [pf o] end. inv_ok. reflexivity.
  Qed.
End calm.

(** ** Calls which succeed reach their end. *)
Definition quiet {A} (s : step A) : Prop := forall b, s = Return b -> buf_len b = 0.
Lemma quiet_then {A B} (s : step A) (k : A -> step B) : quiet s -> (forall a, s = Next a -> quiet (k a)) -> quiet (then_ s k).
Proof. intros H Hk b K. apply then_return in K as [K|(a & K1 & K2)]; [exact (H b K)|exact (Hk a K1 b K2)]. Qed.
Lemma quiet_ok {Er A} (o : outcome Er A) : quiet (ok_or_return o).
Proof. intros b H. destruct o; cbn in H; try discriminate. injection H as <-. reflexivity. Qed.
Lemma quiet_serialized m os b : quiet (return_serialized m os b).
Proof. intros x H. destruct (return_serialized_next m os b) as [y K]. congruence. Qed.
Lemma succeeds_call m os s : quiet s -> succeeds (call m os s) -> exists x, s = Next x.
Proof.
  intros H (b & m1 & os1 & K & Hb). apply call_returns in K as [K|(K & _)]; [eauto|]. elim Hb. exact (H b K).
Qed.

Section quiet.
  Context {E : Ext} (L : ExtLaws E).
  Lemma quiet_slice m len p : quiet (@len_and_ptr_to_slice E m len p).
  Proof. intros b H. apply slice_return in H as [-> _]. reflexivity. Qed.
  Lemma quiet_seed m p : quiet (@csprng_from_seed E m p).
  Proof. intros b H. apply (csprng_return L) in H as [-> _]. reflexivity. Qed.
  Lemma quiet_des {Er A} (f : bytes -> timed (outcome Er A)) m len p : quiet (snd (t_deserialize_or_return (E := E) f m len p)).
  Proof.
    unfold t_deserialize_or_return. rewrite snd_t_then, slice_result. apply quiet_then; [apply quiet_slice|].
    intros. rewrite snd_t_ok_or_return. apply quiet_ok.
  Qed.
End quiet.
Ltac be_quiet L :=
  repeat first [ apply quiet_des | rewrite snd_t_ok_or_return; apply quiet_ok | rewrite slice_result; apply quiet_slice
               | rewrite csprng_result; apply (quiet_seed L) | rewrite snd_t_return_serialized; apply quiet_serialized
               | rewrite snd_t_then; apply quiet_then; [|intros ? _]
               | match goal with |- quiet (snd (tbind ?x _)) => rewrite (snd_tbind x) end
               | match goal with |- quiet (snd (match ?x with _ => _ end)) => destruct x end
               | match goal with |- quiet (snd (now (match ?x with _ => _ end))) => destruct x end
               | intros ? ?; discriminate ].

(** Two calls which succeed show the same if their bodies are calm. *)
Lemma calm_calls {E} fuel m m' os os' f (s s' : timed (step (buf_t * memory * rng))) :
  @t_c_run E fuel m os f = t_call m os s -> @t_c_run E fuel m' os' f = t_call m' os' s' ->
  quiet (snd s) -> quiet (snd s') -> calm any s s' ->
  succeeds (@c_run E fuel m os f) -> succeeds (@c_run E fuel m' os' f) ->
  fst (@t_c_run E fuel m os f) = fst (@t_c_run E fuel m' os' f).
Proof.
  intros H H' Q Q' C. rewrite <- !c_run_result, H, H', !snd_t_call, !fst_t_call. intros S S'.
  apply succeeds_call in S as [x Hx]; [|exact Q]. apply succeeds_call in S' as [x' Hx']; [|exact Q'].
  exact (proj1 (C x x' Hx Hx')).
Qed.
