(** Properties of the serde implementations (C52) and of the WebAssembly API (C51). *)
From Verif Require Import SpecCodec SpecSerde CodecFacts CompositeFacts ShowFacts SignalFacts PhoneFacts
  PropertiesIssue PropertiesShow PropertiesPhone PropertiesCodec Toy ModelWasm.

(** ** C52: bincode *)
Lemma codec_round_trip E (L : ExtLaws E) t x :
  cd_from_bytes (codec_of E t) (cd_to_bytes (codec_of E t) x) = Ok x <-> storable E t x.
Proof.
  assert (M : forall Er A (o : outcome Er A) (a : A), map_err (fun _ => tt) o = Ok a <-> o = Ok a).
  { intros Er A o a. destruct o; cbn; split; congruence. }
  destruct t; cbn [codec_of make_codec cd_from_bytes cd_to_bytes cd_value storable] in *; rewrite M.
  - split; [auto|]. intros _. apply (C33_tag E L).
  - split; [auto|]. intros _. apply (C33_public_key E L).
  - apply C33_secret_key.
  - apply (C33_keypair E L).
  - apply (C33_credential E L).
  - apply C33_request.
  - apply (C33_issuance E L).
  - apply (C33_presentation E L).
  - apply (C33_verified E L x {| vs_presentation := {| sc_roster_entry_commitment := pzero; sc_presentation := vf_presentation x; sc_roster_membership_proof := {| ce_challenge := 0; ce_responses := {| ces_m0 := 0; ces_z0 := 0; ces_z1 := 0 |} |} |} |}).
  - apply (C33_user E L).
  - split; [auto|]. intros _. apply (C33_elgamal E L {| eg_secret := 0; eg_public := x |}).
  - apply (C33_elgamal E L {| eg_secret := x; eg_public := pzero |}).
  - apply (C33_elgamal E L).
  - apply (C33_issuer E L).
  - split; [auto|]. intros _. apply (C33_system_parameters E L).
  - split; [auto|]. intros _. apply (C33_commitment E L).
  - apply (C33_issuer E L).
  - apply (C33_signal_presentation E L).
  - apply (C33_verified E L {| vf_presentation := sc_presentation (vs_presentation x) |} x).
  - apply (C33_signal_user E L).
  - apply C33_phone_number.
  - split; [auto|]. intros _. unfold committed_from_bytes, committed_to_bytes. rewrite (C33_commitment E L). reflexivity.
  - apply (C33_roster E L).
Qed.

Lemma read_written c body rest : Z.of_nat (List.length body) < 2 ^ 64 ->
  bincode_read_value c (le_encode 8 (Z.of_nat (List.length body)) ++ body ++ rest)%list =
  do x <- cd_from_bytes c body; Ok (x, rest).
Proof.
  intros Hlt. unfold bincode_read_value. set (p := le_encode 8 _).
  assert (Hp : List.length p = 8%nat) by apply le_encode_length.
  assert (Hd : le_decode p = Z.of_nat (List.length body)).
  { apply le_decode_encode_small. change (256 ^ Z.of_nat 8) with (2 ^ 64). lia. }
  clearbody p. rewrite app_length, Hp. destruct (Nat.ltb_spec (8 + List.length (body ++ rest)) 8); [lia|]. cbv zeta.
  rewrite firstn_exact, skipn_exact by exact Hp. rewrite Hd, app_length.
  destruct (Z.ltb_spec (Z.of_nat (List.length body + List.length rest)) (Z.of_nat (List.length body))); [lia|].
  rewrite Nat2Z.id, firstn_exact, skipn_exact by reflexivity. reflexivity.
Qed.
Lemma read_inv c b x rest : bincode_read_value c b = Ok (x, rest) ->
  exists body, b = (le_encode 8 (Z.of_nat (List.length body)) ++ body ++ rest)%list /\
    Z.of_nat (List.length body) < 2 ^ 64 /\ cd_from_bytes c body = Ok x.
Proof.
  unfold bincode_read_value. destruct (Nat.ltb_spec (List.length b) 8) as [|H8]; [discriminate|].
  destruct (app_split b 8 H8) as (p & q & -> & Hp). cbv zeta. rewrite firstn_exact, skipn_exact by exact Hp.
  destruct (Z.ltb_spec (Z.of_nat (List.length q)) (le_decode p)) as [|Hq]; [discriminate|].
  pose proof (le_decode_range p) as Hr. rewrite Hp in Hr.
  rewrite bind_ok. intros (y & Hy & [= -> <-]). unfold visit_bytes in Hy.
  exists (firstn (Z.to_nat (le_decode p)) q).
  assert (Hl : Z.of_nat (List.length (firstn (Z.to_nat (le_decode p)) q)) = le_decode p) by (rewrite firstn_length; lia).
  rewrite Hl, firstn_skipn. split; [|split; [change (2 ^ 64) with (256 ^ Z.of_nat 8); lia|exact Hy]].
  f_equal. rewrite <- Hp. symmetry. apply le_encode_decode.
Qed.

(** Writing a value and reading it from a longer byte string gives the value
    and the rest, for exactly the storable values. *)
Theorem C52_round_trip : forall E, ExtLaws E -> forall t (x : cd_value (codec_of E t)) rest,
  let c := codec_of E t in
  Z.of_nat (List.length (cd_to_bytes c x)) < 2 ^ 64 ->
  (bincode_read_value c (bincode_serialize_value c x ++ rest)%list = Ok (x, rest) <-> storable E t x) /\
  (bincode_deserialize_value c (bincode_serialize_value c x ++ rest)%list = Ok x <-> storable E t x).
Proof.
  intros E L t x rest c Hlt. unfold bincode_deserialize_value, bincode_serialize_value, serialized_bytes. fold c.
  rewrite <- app_assoc, read_written by exact Hlt. rewrite <- (codec_round_trip E L). fold c.
  destruct (cd_from_bytes c (cd_to_bytes c x)) as [y|e|]; cbn [bind]; split; split; congruence.
Qed.
Print Assumptions C52_round_trip.

(** The serialised form: a length prefix and the [to_bytes] encoding, whatever the value. *)
Theorem C52_layout : forall E t (x : cd_value (codec_of E t)),
  let c := codec_of E t in let b := bincode_serialize_value c x in
  List.length b = (8 + List.length (cd_to_bytes c x))%nat /\
  field 8 (List.length (cd_to_bytes c x)) b = cd_to_bytes c x /\
  (Z.of_nat (List.length (cd_to_bytes c x)) < 2 ^ 64 ->
   le_decode (field 0 8 b) = Z.of_nat (List.length (cd_to_bytes c x))).
Proof.
  intros E t x c b. unfold b, bincode_serialize_value, serialized_bytes. fold c.
  split; [rewrite app_length, le_encode_length; reflexivity|]. split.
  - rewrite (field_skip 8) by (apply le_encode_length || lia). apply field_all. reflexivity.
  - intros H. rewrite field_here by apply le_encode_length. apply le_decode_encode_small.
    change (256 ^ Z.of_nat 8) with (2 ^ 64). lia.
Qed.
Print Assumptions C52_layout.

(** What is accepted: a length, that many bytes which [from_bytes] accepts, and
    anything after them. *)
Theorem C52_accepts : forall E t b (x : cd_value (codec_of E t)) rest,
  bincode_read_value (codec_of E t) b = Ok (x, rest) <->
  exists body, (b = le_encode 8 (Z.of_nat (List.length body)) ++ body ++ rest)%list /\
    Z.of_nat (List.length body) < 2 ^ 64 /\ cd_from_bytes (codec_of E t) body = Ok x.
Proof.
  intros E t b x rest. split; [apply read_inv|]. intros (body & -> & Hlt & Hx). rewrite read_written, Hx by exact Hlt. reflexivity.
Qed.
Print Assumptions C52_accepts.

(** A serialised value cut short is refused. *)
Theorem C52_truncated : forall E t (x : cd_value (codec_of E t)) k,
  let c := codec_of E t in
  Z.of_nat (List.length (cd_to_bytes c x)) < 2 ^ 64 -> (k < List.length (bincode_serialize_value c x))%nat ->
  bincode_deserialize_value c (firstn k (bincode_serialize_value c x)) = Err tt.
Proof.
  intros E t x k c Hlt Hk. unfold bincode_deserialize_value, bincode_read_value.
  assert (Hl : List.length (firstn k (bincode_serialize_value c x)) = k) by (rewrite firstn_length; lia). rewrite Hl.
  destruct (Nat.ltb_spec k 8) as [|H8]; [reflexivity|]. cbv zeta. rewrite firstn_firstn, Nat.min_l by exact H8.
  unfold bincode_serialize_value, serialized_bytes in *. fold c in Hk |- *. set (body := cd_to_bytes c x) in *.
  rewrite app_length, le_encode_length in Hk.
  rewrite (firstn_exact 8) by apply le_encode_length. rewrite le_decode_encode_small by (change (256 ^ Z.of_nat 8) with (2 ^ 64); lia).
  rewrite skipn_length. change (serialized_bytes c x) with body in *. rewrite Hl.
  destruct (Z.ltb_spec (Z.of_nat (k - 8)) (Z.of_nat (List.length body))); [reflexivity|lia].
Qed.
Print Assumptions C52_truncated.

(** Eight zero bytes, an empty byte string, make eleven of the types panic instead
    of failing. *)
Theorem C52_panics_refuted : forall E, ExtLaws E -> forall t,
  In t [TSecretKey; TCredentialIssuance; TCredentialPresentation; TVerifiedCredential; TElgamalPublicKey;
        TElgamalSecretKey; TElgamalKeypair; TCommitment; TSignalUser; TCommittedPhoneNumber; TRosterEntryCommitment] ->
  bincode_deserialize_value (codec_of E t) (zeros 8) = Panic.
Proof.
  intros E L t H. repeat destruct H as [<-|H]; try reflexivity. contradiction.
Qed.
Print Assumptions C52_panics_refuted.

(** The other types never panic, if the build has no overflow checks or the type
    is not a bare key pair. *)
Theorem C52_no_panic : forall E, ExtLaws E -> forall t b,
  In t [TTag; TPublicKey; TCredential; TCredentialRequest; TUser; TIssuer; TSystemParameters; TSignalIssuer;
        TSignalCredentialPresentation; TVerifiedSignalCredential; TPhoneNumber] \/ t = TKeypair /\ debug_build E = false ->
  bincode_deserialize_value (codec_of E t) b <> Panic.
Proof.
  intros E L t b Ht H. unfold bincode_deserialize_value in H.
  apply bind_panic in H as [H|([y r] & _ & H)]; [|discriminate]. unfold bincode_read_value in H.
  destruct (List.length b <? 8)%nat; [discriminate|]. cbv zeta in H.
  destruct (_ <? le_decode (firstn 8 b)); [discriminate|]. apply bind_panic in H as [H|(y & _ & H)]; [|discriminate].
  revert H. generalize (firstn (Z.to_nat (le_decode (firstn 8 b))) (skipn 8 b)). clear b. intros b H.
  assert (M : forall Er A (o : outcome Er A), map_err (fun _ => tt) o = Panic -> o = Panic) by (intros Er A o; destruct o; cbn; congruence).
  unfold visit_bytes in H. pose proof (C35_never_panic E L b) as (N1 & N2 & N3 & N4 & N5 & N6 & N7 & N8 & N9 & N10).
  destruct Ht as [Ht|[-> Hd]].
  - repeat destruct Ht as [<-|Ht]; try contradiction;
      cbn [codec_of make_codec cd_from_bytes cd_value] in H; apply M in H; contradiction.
  - cbn [codec_of make_codec cd_from_bytes cd_value] in H. apply M in H. apply (C35_panic_refuted E L b) in H as [H _]. congruence.
Qed.
Print Assumptions C52_no_panic.

(** The five proofs. *)
Lemma ab_of_scalars l p : ab_proof_of_scalars l = Some p <-> l = ab_proof_scalars p.
Proof.
  split.
  - destruct l as [|? [|? [|? [|? [|? [|]]]]]]; cbn; try discriminate. intros [= <-]. reflexivity.
  - intros ->. destruct p as [c [? ? ? ?]]; reflexivity.
Qed.
Lemma ib_of_scalars l p : ib_proof_of_scalars l = Some p <-> l = ib_proof_scalars p.
Proof.
  split.
  - destruct l as [|? [|? [|? [|? [|? [|? [|? [|]]]]]]]]; cbn; try discriminate. intros [= <-]. reflexivity.
  - intros ->. destruct p as [c [? ? ? ? ? ?]]; reflexivity.
Qed.
Ltac all_canonical :=
  split; [intros H; repeat match goal with K : Forall _ (_ :: _) |- _ => inversion_clear K end; auto 10
         |intros H; repeat match goal with K : _ /\ _ |- _ => destruct K end; repeat (constructor; try assumption)].
Theorem C52_proofs : forall rest,
  (forall p, ir_deserialize (ir_serialize p ++ rest)%list = Some p <-> ir_reduced p) /\
  (forall p, ab_deserialize (ab_serialize p ++ rest)%list = Some p <-> ab_reduced p) /\
  (forall p, ib_deserialize (ib_serialize p ++ rest)%list = Some p <-> ib_reduced p) /\
  (forall p, vc_deserialize (vc_serialize p ++ rest)%list = Some p <-> vc_reduced p) /\
  (forall p, ce_deserialize (ce_serialize p ++ rest)%list = Some p <-> ce_reduced p).
Proof.
  intros rest.
  assert (K : forall n l, List.length l = n -> (bincode_deserialize n (bincode_serialize l ++ rest)%list = Some l <-> Forall canonical l)).
  { intros n l Hl. rewrite bincode_deserialize_iff. split; [tauto|]. intros H. split; [exact Hl|]. split; [exact H|eauto]. }
  split; [|split; [|split; [|split]]]; intros p.
  - rewrite ir_deserialize_iff. transitivity (ir_wf p); [split; [tauto|intros H; split; [exact H|eauto]]|].
    unfold ir_wf, ir_reduced, ir_canonical, ir_proof_scalars. all_canonical.
  - transitivity (Forall canonical (ab_proof_scalars p)).
    + rewrite <- (K 5%nat) by reflexivity. unfold ab_deserialize, ab_serialize. destruct (bincode_deserialize 5 _) as [l|]; [|split; discriminate].
      rewrite ab_of_scalars. split; congruence.
    + unfold ab_reduced, ab_proof_scalars. all_canonical.
  - transitivity (Forall canonical (ib_proof_scalars p)).
    + rewrite <- (K 7%nat) by reflexivity. unfold ib_deserialize, ib_serialize. destruct (bincode_deserialize 7 _) as [l|]; [|split; discriminate].
      rewrite ib_of_scalars. split; congruence.
    + unfold ib_reduced, ib_proof_scalars. all_canonical.
  - rewrite vc_deserialize_iff. transitivity (vc_wf p); [split; [tauto|intros H; split; [exact H|eauto]]|].
    unfold vc_wf, vc_reduced, vc_canonical, vc_proof_scalars. all_canonical.
  - rewrite ce_deserialize_iff. transitivity (ce_wf p); [split; [tauto|intros H; split; [exact H|eauto]]|].
    unfold ce_wf, ce_reduced, ce_canonical, ce_proof_scalars. all_canonical.
Qed.
Print Assumptions C52_proofs.
(** A storable value, one that is not, and one proof of each kind of length. *)
Example C52_met :
  storable toy TSecretKey {| sk_x0 := 5; sk_xn := [7; 9] |} /\ ~ storable toy TSecretKey {| sk_x0 := ell; sk_xn := [] |} /\
  List.length (bincode_serialize_value (codec_of toy TSecretKey) {| sk_x0 := 5; sk_xn := [7; 9] |}) = 104%nat /\
  ab_reduced {| ab_challenge := 1; ab_responses := {| abs_d := 2; abs_e0 := 3; abs_m0 := 4; abs_nonce := 5 |} |}.
Proof.
  split; [|split; [|split; [reflexivity|]]].
  - split; [split; [discriminate|reflexivity]|]. repeat constructor; discriminate.
  - intros [[_ H] _]. cbn in H. revert H. apply Z.lt_irrefl.
  - repeat split; discriminate.
Qed.

(** ** C51: the WebAssembly API *)

(** What a call returns is the number 0 or an array. *)
Definition returns_zero {A} (s : js_step A) : Prop := match s with JsReturn w => w = js_zero | _ => True end.
Definition ends_well (s : js_step (json * rng)) : Prop :=
  match s with JsNext (w, _) => exists l, w = JArray l | JsReturn w => w = js_zero | _ => True end.
Lemma ok_or_return_zero {Er A} (o : outcome Er A) : returns_zero (js_ok_or_return o).
Proof. destruct o; cbn; auto. Qed.
Lemma csprng_zero E seed : returns_zero (@js_csprng_from_seed E seed).
Proof.
  unfold js_csprng_from_seed. pose proof (ok_or_return_zero (js_slice_to_array seed 32)) as H.
  destruct (js_ok_or_return _); cbn in *; auto.
Qed.
Lemma then_ends_well {A} (s : js_step A) k : returns_zero s -> (forall a, ends_well (k a)) -> ends_well (js_then s k).
Proof. destruct s; cbn; auto. Qed.
Lemma from_serde_ends_well E t os x : ends_well (@from_serde E t os x).
Proof. cbn. eexists; reflexivity. Qed.
Ltac ends_well :=
  repeat first
  [ apply from_serde_ends_well
  | apply then_ends_well; [first [apply ok_or_return_zero | apply csprng_zero]|intros ?]
  | match goal with |- ends_well (let (_, _) := ?e in _) => destruct e end
  | match goal with |- ends_well (let (_, _) := ?e in _) => destruct e end ].
Lemma js_returned E fuel os f v os' : @js_run E fuel os f = JsReturns v os' -> v = js_zero \/ exists l, v = JArray l.
Proof.
  assert (K : forall s, ends_well s -> js_call os s = JsReturns v os' -> v = js_zero \/ exists l, v = JArray l).
  { intros [[w o]|w| |]; cbn; try discriminate; intros Hw [= <- <-]; auto. }
  destruct f; cbn [js_run]; apply K; ends_well.
  destruct (negb _); [reflexivity|]. ends_well. destruct (hunt_and_peck _ _) as [[p r]|]; [|exact I]. ends_well.
Qed.
Lemma returned_rejected E t v : v = js_zero \/ (exists l, v = JArray l) -> @into_serde E t v = JsReturn js_zero.
Proof. intros [->|[l ->]]; reflexivity. Qed.

(** A value returned by the API is refused at every type. *)
Theorem C51_returned_value_refused_refuted : forall E fuel os f v os', @js_run E fuel os f = JsReturns v os' ->
  forall t, json_deserialize (codec_of E t) v = Err tt.
Proof. intros E fuel os f v os' H t. apply js_returned in H as [->|[l ->]]; reflexivity. Qed.
Print Assumptions C51_returned_value_refused_refuted.

(** So a call all of whose [JsValue]s come from the API returns 0: after creating
    the system parameters nothing can be done with them. *)
Theorem C51_calls_return_zero_refuted : forall E g fuel os,
  js_arguments g <> [] ->
  Forall (fun v => exists fuel' os1 f os2, @js_run E fuel' os1 f = JsReturns v os2) (js_arguments g) ->
  @js_run E fuel os g = JsReturns js_zero os.
Proof.
  intros E g fuel os Hne Hall.
  assert (S : forall t v, (exists fuel' os1 f os2, @js_run E fuel' os1 f = JsReturns v os2) -> @into_serde E t v = JsReturn js_zero).
  { intros t v (fl & os1 & f & os2 & H). apply returned_rejected. apply js_returned in H. exact H. }
  assert (C : forall seed (k : rng -> js_step (json * rng)), (forall r, js_call os (k r) = JsReturns js_zero os) ->
    js_call os (js_then (@js_csprng_from_seed E seed) k) = JsReturns js_zero os).
  { intros seed k H. unfold js_csprng_from_seed, js_slice_to_array, to_array.
    destruct (List.length seed =? 32)%nat; cbn; auto. }
  destruct g; cbn [js_arguments] in *; try (elim Hne; reflexivity);
    inversion_clear Hall as [|? ? H1 Hr]; cbn [js_run];
    unfold js_issuer_create, js_issuer_get_issuer_parameters, js_issuer_new, js_issuer_issue, js_issuer_verify,
      js_issuer_verify_roster_membership, js_user_obtain_finish, js_user_show;
    try (apply C; intros r0); rewrite (S _ _ H1); reflexivity.
Qed.
Print Assumptions C51_calls_return_zero_refuted.
(** One such argument is enough: no call given a value the API returned gives
    anything but 0. *)
Theorem C51_one_returned_argument_refuted : forall E (g : js_function) fuel os,
  Exists (fun v => exists fuel' os1 f os2, @js_run E fuel' os1 f = JsReturns v os2) (js_arguments g) ->
  @js_run E fuel os g = JsReturns js_zero os \/ @js_run E fuel os g = JsTraps.
Proof.
  intros E g fuel os Hex.
  assert (S : forall t v, (exists fuel' os1 f os2, @js_run E fuel' os1 f = JsReturns v os2) -> @into_serde E t v = JsReturn js_zero).
  { intros t v (fl & os1 & f & os2 & H). apply returned_rejected. apply js_returned in H. exact H. }
  assert (Z0 : forall s : js_step (json * rng), s = JsReturn js_zero \/ s = JsTrap -> js_call os s = JsReturns js_zero os \/ js_call os s = JsTraps).
  { intros s [-> | ->]; [left|right]; reflexivity. }
  assert (D : forall t v, (exists y, @into_serde E t v = JsNext y) \/ @into_serde E t v = JsReturn js_zero \/ @into_serde E t v = JsTrap).
  { intros t v. unfold into_serde. destruct (json_deserialize (codec_of E t) v); cbn; eauto. }
  assert (C : forall seed, (exists y, @js_csprng_from_seed E seed = JsNext y) \/ @js_csprng_from_seed E seed = JsReturn js_zero).
  { intros seed. unfold js_csprng_from_seed, js_slice_to_array, to_array.
    destruct (List.length seed =? 32)%nat; cbn; eauto. }
  destruct g; cbn [js_arguments] in *; cbn [js_run];
    unfold js_issuer_create, js_issuer_get_issuer_parameters, js_issuer_new, js_issuer_issue, js_issuer_verify,
      js_issuer_verify_roster_membership, js_user_obtain_finish, js_user_show; try apply Z0.
  - inversion Hex.
  - destruct (C seed) as [[r ->]| ->]; cbn [js_then]; [|auto].
    inversion_clear Hex as [? ? H|? ? H]; [rewrite (S _ _ H); auto|inversion H].
  - inversion_clear Hex as [? ? H|? ? H]; [rewrite (S _ _ H); auto|inversion H].
  - inversion_clear Hex as [? ? H|? ? H]; [rewrite (S _ _ H); auto|].
    destruct (D TSystemParameters params) as [[y ->]|[-> | ->]]; cbn [js_then]; auto.
    inversion_clear H as [? ? H'|? ? H']; [rewrite (S _ _ H'); auto|inversion H'].
  - destruct (C seed) as [[r ->]| ->]; cbn [js_then]; [|auto].
    inversion_clear Hex as [? ? H|? ? H]; [rewrite (S _ _ H); auto|inversion H].
  - inversion_clear Hex as [? ? H|? ? H]; [rewrite (S _ _ H); auto|].
    destruct (D TSignalIssuer issuer) as [[y ->]|[-> | ->]]; cbn [js_then]; auto.
    inversion_clear H as [? ? H'|? ? H']; [rewrite (S _ _ H'); auto|inversion H'].
  - inversion_clear Hex as [? ? H|? ? H]; [rewrite (S _ _ H); auto|].
    destruct (D TSignalIssuer issuer) as [[y ->]|[-> | ->]]; cbn [js_then]; auto.
    inversion_clear H as [? ? H'|? ? H']; [rewrite (S _ _ H'); auto|inversion H'].
  - inversion_clear Hex as [? ? H|? ? H]; [rewrite (S _ _ H); auto|].
    destruct (D TSystemParameters params) as [[y ->]|[-> | ->]]; cbn [js_then]; auto.
    inversion_clear H as [? ? H'|? ? H']; [rewrite (S _ _ H'); auto|].
    destruct (D TPublicKey issuer_params) as [[y' ->]|[-> | ->]]; cbn [js_then]; auto.
    destruct (signal_user_new _ _ _ _) as [u|e|]; cbn [js_ok_or_return js_then]; auto.
    inversion_clear H' as [? ? H|? ? H]; [rewrite (S _ _ H); auto|inversion H].
  - destruct (C seed) as [[r ->]| ->]; cbn [js_then]; [|auto].
    inversion_clear Hex as [? ? H|? ? H]; [rewrite (S _ _ H); auto|].
    destruct (D TSignalUser user) as [[y ->]|[-> | ->]]; cbn [js_then]; auto.
    inversion_clear H as [? ? H'|? ? H']; [rewrite (S _ _ H'); auto|inversion H'].
Qed.
Print Assumptions C51_one_returned_argument_refuted.
Definition array_length (r : js_result) : option nat := match r with JsReturns (JArray l) _ => Some (List.length l) | _ => None end.
Example C51_met :
  array_length (@js_run toy 5 (toy_stream 1) (JsSystemParametersCreate (zeros 32))) = Some 64%nat /\
  @js_run toy 5 (toy_stream 1) (JsIssuerCreate (JArray [JNumber 1]) (zeros 32)) = JsReturns js_zero (toy_stream 1).
Proof. split; [vm_compute; reflexivity|reflexivity]. Qed.

(** Only strings are read, as the UTF-8 bytes they consist of. *)
Theorem C51_reads_strings : forall E t v (x : cd_value (codec_of E t)),
  json_deserialize (codec_of E t) v = Ok x <->
  exists s, v = JString s /\ cd_from_bytes (codec_of E t) (utf8 s) = Ok x.
Proof.
  intros E t v x. split.
  - destruct v; try discriminate. intros H. exists s. split; [reflexivity|exact H].
  - intros (s & -> & H). exact H.
Qed.
Print Assumptions C51_reads_strings.

(** In UTF-8 a byte from 0xc0 on is followed by a byte from 0x80 to 0xbf. *)
Lemma tail_range a : 128 <= bz (zb (128 + a mod 64)) < 192.
Proof.
  rewrite bz_zb. pose proof (Z.mod_pos_bound a 64 eq_refl). rewrite (Z.mod_small (128 + a mod 64)) by lia. lia.
Qed.
Lemma utf8_lead s x y rest : utf8 s = x :: y :: rest -> 192 <= bz x -> 128 <= bz y < 192.
Proof.
  destruct s as [|c s]; [discriminate|]. unfold utf8. cbn [flat_map]. unfold utf8_char. cbv zeta. intros H Hx.
  destruct (c <? 128).
  - cbn [app] in H. injection H as Hc _. subst x. rewrite bz_zb in Hx.
    pose proof (Z.mod_pos_bound c 128 eq_refl). rewrite (Z.mod_small (c mod 128)) in Hx by lia. lia.
  - destruct (c <? 2048); [|destruct (c <? 65536)]; cbn [app] in H; injection H as _ Hy; subst y; apply tail_range.
Qed.
(** The encoding of the Ristretto basepoint begins with the bytes e2 f2, which
    no UTF-8 text contains in its first two places.  So no JavaScript value at
    all is read as the system parameters the API creates. *)
Theorem C51_system_parameters_unreadable_refuted : forall E, ExtLaws E ->
  firstn 2 (compress (@basepoint E)) = [xe2; xf2] ->
  (forall v p, json_deserialize (codec_of E TSystemParameters) v = Ok p -> sp_g (E := E) p <> basepoint) /\
  (forall fuel r p r' v, @hunt_and_peck E fuel r = Some (p, r') -> json_deserialize (codec_of E TSystemParameters) v <> Ok p).
Proof.
  intros E L Hb.
  assert (K : forall v p, json_deserialize (codec_of E TSystemParameters) v = Ok p -> sp_g (E := E) p <> basepoint).
  { intros v p H Hg. apply C51_reads_strings in H as (s & -> & H).
    cbn [codec_of make_codec cd_from_bytes cd_value] in H.
    assert (Hs : @system_parameters_from_bytes E (utf8 s) = Ok p) by (destruct (@system_parameters_from_bytes E (utf8 s)); cbn [map_err] in H; [injection H as ->; reflexivity|discriminate|discriminate]).
    apply (system_parameters_iff L) in Hs. unfold system_parameters_to_bytes in Hs. rewrite Hg in Hs.
    destruct (compress basepoint) as [|x [|y tl]] eqn:Hc; try discriminate. cbn [firstn] in Hb. injection Hb as -> ->.
    cbn [app] in Hs. apply utf8_lead in Hs; cbn in Hs |- *; lia. }
  split; [exact K|]. intros fuel r p r' v Hh Hv. apply (K v p Hv).
  clear -Hh. revert r Hh. induction fuel as [|f IH]; intros r; cbn [hunt_and_peck]; [discriminate|].
  destruct (fill_bytes 32 r) as [tmp r1]. destruct (peck tmp); [|apply IH]. intros [= <- _]. reflexivity.
Qed.
Print Assumptions C51_system_parameters_unreadable_refuted.

(** Such a group: the toy group with the encodings of two points exchanged. *)
Definition swap_points (a : point toy) : point toy :=
  if tv a =? 1 then pt 62178 else if tv a =? 62178 then pt 1 else a.
Definition toy_js : Ext := {|
  point := point toy; pzero := @pzero toy; padd := @padd toy; pneg := @pneg toy; peqb := @peqb toy;
  basepoint := @basepoint toy;
  compress a := @compress toy (swap_points a);
  decompress b := match @decompress toy b with Some a => Some (swap_points a) | None => None end;
  tr_challenge := @tr_challenge toy; tr_rng := @tr_rng toy; chacha := @chacha toy; sha512 := @sha512 toy;
  debug_build := debug_build toy; usize_bits := usize_bits toy |}.
Lemma swap_swap a : swap_points (swap_points a) = a.
Proof.
  unfold swap_points. destruct (Z.eqb_spec (tv a) 1) as [H|H].
  - change (tv (pt 62178)) with 62178. cbn [Z.eqb Pos.eqb]. apply toy_eq. symmetry. exact H.
  - destruct (Z.eqb_spec (tv a) 62178) as [H'|H'].
    + change (tv (pt 1)) with 1. cbn [Z.eqb Pos.eqb]. apply toy_eq. symmetry. exact H'.
    + destruct (Z.eqb_spec (tv a) 1), (Z.eqb_spec (tv a) 62178); try contradiction. reflexivity.
Qed.
Lemma smul_toy_js k a : @smul toy_js k a = @smul toy k a.
Proof.
  assert (H : forall p (a : point toy), @pmul_pos toy_js p a = @pmul_pos toy p a).
  { induction p as [p IH|p IH|]; intros b; cbn [pmul_pos];
      [exact (f_equal (@padd toy b) (IH (@padd toy b b)))|exact (IH (@padd toy b b))|reflexivity]. }
  destruct k as [|p|p]; cbn [smul]; [reflexivity|apply H|]. exact (f_equal (@pneg toy) (H p a)).
Qed.
Lemma toy_js_laws : ExtLaws toy_js.
Proof.
  pose proof toy_laws as T. constructor.
  - exact (padd_assoc toy T).
  - exact (padd_comm toy T).
  - exact (padd_zero toy T).
  - exact (padd_pneg toy T).
  - intros a. rewrite smul_toy_js. apply (smul_ell toy T).
  - exact (basepoint_nonzero toy T).
  - intros a. destruct (basepoint_generates toy T a) as [k H]. exists k. rewrite smul_toy_js. exact H.
  - exact (peqb_spec toy T).
  - intros a. apply (compress_length toy T).
  - intros a. cbn [decompress compress toy_js]. rewrite (decompress_compress toy T), swap_swap. reflexivity.
  - intros b a. cbn [decompress compress toy_js]. destruct (@decompress toy b) as [c|] eqn:H; [|discriminate].
    intros [= <-]. rewrite swap_swap. apply (compress_decompress toy T), H.
  - exact (compress_zero toy T).
  - right; reflexivity.
Qed.
Example C51_unreadable_met : ExtLaws toy_js /\ firstn 2 (compress (@basepoint toy_js)) = [xe2; xf2].
Proof. split; [apply toy_js_laws|reflexivity]. Qed.

(** A short string traps instead of returning 0. *)
Theorem C51_short_string_traps_refuted : forall E, ExtLaws E -> forall s os e seed,
  (List.length (utf8 s) < 32)%nat -> List.length seed = 32%nat ->
  @js_user_show E os (JString s) e seed = JsTraps.
Proof.
  intros E L s os e seed Hs Hseed. unfold js_user_show, js_csprng_from_seed, js_slice_to_array, to_array.
  rewrite Hseed. cbn [Nat.eqb negb js_ok_or_return or_panic js_then]. unfold into_serde.
  cbn [json_deserialize visit_bytes codec_of make_codec cd_from_bytes cd_value].
  rewrite (proj2 (signal_user_panic (E := E) (utf8 s)) Hs). reflexivity.
Qed.
Print Assumptions C51_short_string_traps_refuted.
Example C51_traps_met : (List.length (utf8 [104; 228; 8364]%Z) < 32)%nat /\ utf8 [104; 228; 8364; 128512]%Z =
  [x68; xc3; xa4; xe2; x82; xac; xf0; x9f; x98; x80].
Proof. split; [cbn; lia|reflexivity]. Qed.
