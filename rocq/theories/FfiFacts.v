(** How the steps of the C functions end. *)
From Verif Require Export SpecFfi CompositeFacts ShowFacts PropertiesIssue PropertiesShow PropertiesPhone PropertiesCodec.

Lemma then_next {A B} (s : step A) (k : A -> step B) b :
  then_ s k = Next b <-> exists a, s = Next a /\ k a = Next b.
Proof. destruct s; cbn; split; try discriminate; try (intros (? & ? & ?); congruence); eauto. Qed.
Lemma then_unwinding {A B} (s : step A) (k : A -> step B) :
  then_ s k = Unwinding <-> s = Unwinding \/ exists a, s = Next a /\ k a = Unwinding.
Proof. destruct s; cbn; split; try discriminate; eauto; try (intros [?|(? & ? & ?)]; congruence). Qed.
Lemma then_return {A B} (s : step A) (k : A -> step B) b :
  then_ s k = Return b <-> s = Return b \/ exists a, s = Next a /\ k a = Return b.
Proof. destruct s; cbn; split; try discriminate; eauto; try (intros [?|(? & ? & ?)]; congruence). intros H; left; congruence. Qed.
Lemma then_undefined {A B} (s : step A) (k : A -> step B) :
  then_ s k = Undefined <-> s = Undefined \/ exists a, s = Next a /\ k a = Undefined.
Proof. destruct s; cbn; split; try discriminate; eauto; try (intros [?|(? & ? & ?)]; congruence). Qed.

Lemma call_unwinds m os s : call m os s = Unwinds <-> s = Unwinding.
Proof. destruct s as [[[? ?] ?]| | | |]; cbn; split; congruence. Qed.
Lemma call_undefined m os s : call m os s = UndefinedBehaviour <-> s = Undefined.
Proof. destruct s as [[[? ?] ?]| | | |]; cbn; split; congruence. Qed.
Lemma call_returns m os s b m' os' : call m os s = Returns b m' os' <->
  s = Next (b, m', os') \/ (s = Return b /\ m' = m /\ os' = os).
Proof.
  destruct s as [[[? ?] ?]| | | |]; cbn; split; try discriminate; try (intros [?|(? & ? & ?)]; congruence).
  - intros [= -> -> ->]; auto.
  - intros [= -> -> ->]; auto.
Qed.

Lemma read_length m p n b : read m p n = Some b -> List.length b = n.
Proof.
  destruct p as [| |id off]; cbn [read]; [discriminate| |].
  - destruct (Nat.eqb_spec n 0); [|discriminate]. intros [= <-]. subst; reflexivity.
  - destruct (Nat.eqb_spec n 0) as [->|]; [intros [= <-]; reflexivity|].
    destruct (mem_block m id); try discriminate. unfold slice.
    destruct (Nat.leb_spec off (off + n)); cbn [andb]; [|discriminate].
    destruct (Nat.leb_spec (off + n) (List.length contents)); [|discriminate].
    intros [= <-]. rewrite firstn_length, skipn_length. lia.
Qed.

Section steps.
  Context {E : Ext} (L : ExtLaws E).
  Lemma as_size_t_seed : @as_size_t E (Z.of_nat LENGTH_SEED) = 32%nat.
  Proof. unfold as_size_t. destruct (usize_bits_cases E L) as [-> | ->]; reflexivity. Qed.
  Lemma slice_next m len p b : @len_and_ptr_to_slice E m len p = Next b <-> @given E m p len b.
  Proof.
    unfold len_and_ptr_to_slice, given. destruct p; cbn [is_null orb]; try (split; [discriminate|tauto]);
      (destruct (Z.eqb_spec len 0); [split; [discriminate|tauto]|]);
      (destruct (read _ _ _); cbn; split; [intros [= <-]; repeat split; congruence|intros (_ & _ & H); congruence|
        discriminate|intros (_ & _ & H); discriminate]).
  Qed.
  Lemma slice_unwinding m len p : @len_and_ptr_to_slice E m len p <> Unwinding.
  Proof. unfold len_and_ptr_to_slice. destruct (_ || _); [discriminate|]. destruct (read _ _ _); discriminate. Qed.
  Lemma slice_return m len p b : @len_and_ptr_to_slice E m len p = Return b <->
    b = zero_len_and_ptr /\ missing (p, Some len).
  Proof.
    unfold len_and_ptr_to_slice, missing. cbn [fst snd]. destruct p; cbn [is_null orb].
    - split; [intros [= <-]; auto|intros [-> _]; reflexivity].
    - destruct (Z.eqb_spec len 0) as [->|]; [split; [intros [= <-]; auto|intros [-> _]; reflexivity]|].
      destruct (read _ _ _); cbn; split; try discriminate; intros [_ [H|H]]; congruence.
    - destruct (Z.eqb_spec len 0) as [->|]; [split; [intros [= <-]; auto|intros [-> _]; reflexivity]|].
      destruct (read _ _ _); cbn; split; try discriminate; intros [_ [H|H]]; congruence.
  Qed.
  Lemma slice_undefined m len p : @len_and_ptr_to_slice E m len p = Undefined <->
    ~ missing (p, Some len) /\ read m p (@as_size_t E len) = None.
  Proof.
    unfold len_and_ptr_to_slice, missing. cbn [fst snd]. destruct p; cbn [is_null orb].
    - split; [discriminate|]. intros [H _]; elim H; auto.
    - destruct (Z.eqb_spec len 0) as [->|]; [split; [discriminate|]; intros [H _]; elim H; auto|].
      destruct (read _ _ _); cbn; split; try discriminate; try (intros [_ H]; discriminate); intros _; split; auto;
        intros [H|H]; congruence.
    - destruct (Z.eqb_spec len 0) as [->|]; [split; [discriminate|]; intros [H _]; elim H; auto|].
      destruct (read _ _ _); cbn; split; try discriminate; try (intros [_ H]; discriminate); intros _; split; auto;
        intros [H|H]; congruence.
  Qed.

  Lemma ok_or_return_next {Er A} (o : outcome Er A) a : ok_or_return o = Next a <-> o = Ok a.
  Proof. destruct o; cbn; split; congruence. Qed.
  Lemma ok_or_return_unwinding {Er A} (o : outcome Er A) : ok_or_return o = Unwinding <-> o = Panic.
  Proof. destruct o; cbn; split; congruence. Qed.
  Lemma ok_or_return_return {Er A} (o : outcome Er A) b : ok_or_return o = Return b <->
    b = zero_len_and_ptr /\ exists e, o = Err e.
  Proof.
    destruct o; cbn; split; try congruence; try (intros (? & ? & ?); congruence).
    - intros [= <-]; eauto.
  Qed.
  Lemma ok_or_return_undefined {Er A} (o : outcome Er A) : ok_or_return o <> Undefined.
  Proof. destruct o; discriminate. Qed.

  Lemma des_next {Er A} (f : bytes -> outcome Er A) m len p a :
    @deserialize_or_return E Er A f m len p = Next a <-> exists b, @given E m p len b /\ f b = Ok a.
  Proof.
    unfold deserialize_or_return. rewrite then_next. split; intros (b & H1 & H2); exists b.
    - apply slice_next in H1. apply ok_or_return_next in H2. auto.
    - rewrite slice_next, ok_or_return_next. auto.
  Qed.
  Lemma des_unwinding {Er A} (f : bytes -> outcome Er A) m len p :
    @deserialize_or_return E Er A f m len p = Unwinding <-> exists b, @given E m p len b /\ f b = Panic.
  Proof.
    unfold deserialize_or_return. rewrite then_unwinding. split.
    - intros [H|(b & H1 & H2)]; [elim (slice_unwinding _ _ _ H)|]. exists b. rewrite <- slice_next, <- ok_or_return_unwinding. auto.
    - intros (b & H1 & H2). right. exists b. rewrite slice_next, ok_or_return_unwinding. auto.
  Qed.
  Lemma des_return {Er A} (f : bytes -> outcome Er A) m len p b :
    @deserialize_or_return E Er A f m len p = Return b -> b = zero_len_and_ptr.
  Proof.
    unfold deserialize_or_return. rewrite then_return. intros [H|(c & _ & H)].
    - apply slice_return in H; tauto.
    - apply ok_or_return_return in H; tauto.
  Qed.
  Lemma des_undefined {Er A} (f : bytes -> outcome Er A) m len p :
    @deserialize_or_return E Er A f m len p = Undefined <-> @len_and_ptr_to_slice E m len p = Undefined.
  Proof.
    unfold deserialize_or_return. rewrite then_undefined. split; [|auto].
    intros [H|(b & _ & H)]; [exact H|elim (ok_or_return_undefined _ H)].
  Qed.

  Lemma csprng_eq m p : @csprng_from_seed E m p =
    if is_null p then Return zero_len_and_ptr else
    match read m p 32 with Some b => Next (@chacha E b) | None => Undefined end.
  Proof.
    unfold csprng_from_seed, uint8_to_array. rewrite as_size_t_seed. destruct p; [reflexivity| |];
      cbn [is_null orb Nat.eqb LENGTH_SEED];
      (destruct (read _ _ _) as [b|] eqn:H; [|reflexivity]); cbn [or_undefined then_];
      apply read_length in H; rewrite H; change (negb (32 =? 32)%nat) with false; cbn iota;
      unfold to_array; rewrite H; reflexivity.
  Qed.
  Lemma csprng_next m p r : @csprng_from_seed E m p = Next r <-> exists b, given_seed m p b /\ r = @chacha E b.
  Proof.
    rewrite csprng_eq. unfold given_seed. destruct p; cbn [is_null].
    - split; [discriminate|]. intros (? & [H _] & _); congruence.
    - destruct (read _ _ _); split; try discriminate; [intros [= <-]; eexists; repeat split; discriminate|
        intros (? & [_ H] & ->); congruence|intros (? & [_ H] & _); discriminate].
    - destruct (read _ _ _); split; try discriminate; [intros [= <-]; eexists; repeat split; discriminate|
        intros (? & [_ H] & ->); congruence|intros (? & [_ H] & _); discriminate].
  Qed.
  Lemma csprng_unwinding m p : @csprng_from_seed E m p <> Unwinding.
  Proof. rewrite csprng_eq. destruct (is_null p); [discriminate|]. destruct (read _ _ _); discriminate. Qed.
  Lemma csprng_return m p b : @csprng_from_seed E m p = Return b <-> b = zero_len_and_ptr /\ p = Null.
  Proof.
    rewrite csprng_eq. destruct p; cbn [is_null]; [|destruct (read _ _ _)..]; split; try discriminate;
      try (intros [_ H]; discriminate).
    - intros [= <-]; auto.
    - intros [-> _]; reflexivity.
  Qed.
  Lemma csprng_undefined m p : @csprng_from_seed E m p = Undefined <-> p <> Null /\ read m p 32 = None.
  Proof.
    rewrite csprng_eq. destruct p; cbn [is_null]; [|destruct (read _ _ _)..]; split; try discriminate;
      try (intros [H _]; congruence); try (intros [_ H]; congruence); auto.
    all: intros _; split; [discriminate|reflexivity].
  Qed.
End steps.

(** ** How a call ends *)
Definition after_return (m : memory) (ser : bytes) (b : buf_t) (m' : memory) : Prop :=
  ser <> [] /\ b = {| buf_len := Z.of_nat (List.length ser); buf_ptr := Block (mem_next m) 0 |} /\
  (forall id, mem_block m' id = if (id =? mem_next m)%nat then Freed ser else mem_block m id) /\
  mem_next m' = S (mem_next m).
Lemma return_serialized_spec m os ser x : ser <> [] -> return_serialized m os ser = Next x ->
  exists b m', x = (b, m', os) /\ after_return m ser b m'.
Proof.
  intros Hne H. unfold return_serialized, vec_new in H. destruct ser as [|y ser]; [contradiction|]. cbn [vec_drop mem_block] in H.
  unfold mem_set at 1 in H. rewrite Nat.eqb_refl in H. injection H as <-. eexists _, _. split; [reflexivity|].
  split; [exact Hne|]. split; [reflexivity|]. split; [|reflexivity]. intros id. cbn [mem_block]. unfold mem_set. cbn [mem_block].
  destruct (id =? mem_next m)%nat; reflexivity.
Qed.
Lemma return_serialized_next m os ser : exists x, return_serialized m os ser = Next x.
Proof. unfold return_serialized. destruct (vec_new m ser). eauto. Qed.
Lemma nonempty_length {A} (l : list A) n : List.length l = n -> (0 < n)%nat -> l <> [].
Proof. intros <- H ->. cbn in H; lia. Qed.

(** A function body which can only return the empty buffer early, and
    otherwise returns a vector, or (in [roster_entry_commitment_open]) a null
    pointer. *)
Definition ends_well (m : memory) (open : Prop) (s : step (buf_t * memory * rng)) : Prop :=
  match s with
  | Next (b, m', os') => (exists ser, after_return m ser b m') \/
                         (open /\ m' = m /\ buf_ptr b = Null /\ (buf_len b = 0 \/ buf_len b = 1))
  | Return b => b = zero_len_and_ptr
  | _ => True
  end.
Lemma ends_then {A} m open (s : step A) k :
  (forall b, s = Return b -> b = zero_len_and_ptr) -> (forall a, s = Next a -> ends_well m open (k a)) ->
  ends_well m open (then_ s k).
Proof. destruct s; intros H1 H2; cbn; auto. Qed.
Lemma ends_return m open os ser : ser <> [] -> ends_well m open (return_serialized m os ser).
Proof.
  intros Hne. destruct (return_serialized_next m os ser) as [x Hx]. rewrite Hx.
  destruct (return_serialized_spec m os ser x Hne Hx) as (b & m' & -> & H). left; eauto.
Qed.

Section ends.
  Context {E : Ext} (L : ExtLaws E).
  Ltac early := let b := fresh in let K := fresh in intros b K;
    first [eapply des_return; eassumption | apply slice_return in K; tauto
          | apply (csprng_return L) in K; tauto | apply ok_or_return_return in K; tauto].
  Lemma issuer_keys_nonempty b (i : Issuer E) : issuer_from_bytes b = Ok i -> pk_Xn (kp_public (iss_keypair i)) <> [].
  Proof. intros H. apply (issuer_iff L) in H as [[_ H] _]. exact H. Qed.
  Lemma committed_nonempty (c : point E) : committed_to_bytes c <> [].
  Proof. eapply nonempty_length; [apply (compress_len L)|lia]. Qed.
  Lemma signal_presentation_nonempty (p : SignalCredentialPresentation E) : signal_presentation_to_bytes p <> [].
  Proof.
    unfold signal_presentation_to_bytes. intros H. apply (f_equal (@List.length byte)) in H.
    rewrite app_length in H. unfold committed_to_bytes, commitment_to_bytes in H. rewrite (compress_len L) in H. cbn in H. lia.
  Qed.
  Lemma keypair_nonempty (k : Keypair E) : keypair_to_bytes k <> [].
  Proof. eapply nonempty_length; [apply (keypair_length L)|lia]. Qed.
  Lemma c_run_body fuel m os f : exists s, @c_run E fuel m os f = call m os s /\ ends_well m (is_open f) s.
  Proof.
    destruct f; cbn [c_run]; unfold c_system_parameters_create, c_issuer_create, c_issuer_new,
      c_issuer_get_issuer_parameters, c_issuer_issue, c_issuer_verify, c_issuer_verify_roster_membership,
      c_user_obtain_finish, c_user_show, c_roster_entry_commitment_create, c_roster_entry_commitment_remove_opening,
      c_roster_entry_commitment_open; (eexists; split; [reflexivity|]);
      repeat (apply ends_then; [early|intros]).
    - destruct (hunt_and_peck _ _) as [[]|]; [|exact I]. apply ends_return.
      eapply nonempty_length; [apply (system_parameters_length L)|lia].
    - destruct (signal_issuer_create _ _). apply ends_return, keypair_nonempty.
    - apply ends_return. eapply nonempty_length; [apply (issuer_length L)|lia].
    - apply ends_return. apply des_next in H as (b & _ & H). apply issuer_keys_nonempty in H.
      eapply nonempty_length; [apply (public_key_length L)|]. unfold get_issuer_parameters.
      destruct (pk_Xn _); [contradiction|cbn; lia].
    - destruct a2 as [[iss ?] ?]. apply ends_return. eapply nonempty_length; [apply (issuance_length L)|lia].
    - apply ends_return. apply signal_presentation_nonempty.
    - apply ends_return, committed_nonempty.
    - destruct (signal_obtain_finish _ _) as [u res].
      repeat (apply ends_then; [early|intros]). apply ends_return.
      unfold signal_user_to_bytes, phone_number_to_bytes. intros K. apply (f_equal (@List.length byte)) in K.
      rewrite app_length, scalar_to_bytes_length in K. cbn in K. lia.
    - destruct a2 as [[p ?] ?]. apply ends_return, signal_presentation_nonempty.
    - destruct a2 as [e ?]. apply ends_return. eapply nonempty_length; [apply (roster_length L)|lia].
    - apply ends_return, committed_nonempty.
    - destruct (roster_open _ _ _); [| |exact I]; right; cbn; auto.
  Qed.
  Lemma c_run_returns fuel m os f b m' os' : @c_run E fuel m os f = Returns b m' os' ->
    (exists ser, after_return m ser b m') \/
    (m' = m /\ b = zero_len_and_ptr) \/
    (is_open f /\ m' = m /\ buf_ptr b = Null /\ (buf_len b = 0 \/ buf_len b = 1)).
  Proof.
    destruct (c_run_body fuel m os f) as (s & -> & Hs). intros H.
    apply call_returns in H as [->|(-> & -> & ->)]; cbn in Hs; tauto.
  Qed.
End ends.
