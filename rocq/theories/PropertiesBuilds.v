(** Every build computes the same (C115). *)
From Verif Require Import Algebra PropertiesIssue PropertiesProofs PropertiesSignal PropertiesCodec PropertiesFfi PropertiesCalls CodecFacts FfiFacts Toy SpecCalls SpecBuilds BuildFacts ModelWasm ModelFfi.

Section calls.
  Context {E E' : Ext} {f : point E -> point E'} (L : ExtLaws E) (L' : ExtLaws E') (M : same_crates E E' f).

  Lemma keypair_ok_on b k' : @keypair_from_bytes E' b = Ok k' <-> exists k, @keypair_from_bytes E b = Ok k /\ k' = keypair_on f k.
  Proof.
    destruct (Nat.le_gt_cases 32 (List.length b)) as [H|H].
    - rewrite (keypair_from_bytes_on f M b H). apply omap_ok.
    - rewrite (keypair_short L' b H), (keypair_short L b H). split; [destruct (debug_build E'); discriminate|].
      intros (k & K & _). destruct (debug_build E); discriminate.
  Qed.

  Lemma gives_on fuel os a ser os' : gives E' fuel os a ser os' <-> gives E fuel os a ser os'.
  Proof.
    destruct a as [s|p s|p k|i|i n s|i p|i v|n p ip s|u e s|n p s|e]; cbn [gives]; unfold signal_issuer_from_bytes, signal_issuer_create, signal_issuer_new, signal_issuer_to_bytes;
      rewrite ?(same_chacha _ _ _ M).
    - rewrite (hunt_and_peck_on f M). split.
      + intros (params & rest & H & -> & ->). destruct (@hunt_and_peck E fuel (@chacha E s)) as [[q r]|]; [|discriminate].
        injection H as <- <-. exists q, r. rewrite (params_to_bytes_on f M). auto.
      + intros (q & r & H & -> & ->). rewrite H. exists (params_on f q), r. rewrite (params_to_bytes_on f M). auto.
    - rewrite (params_from_bytes_on f M). split.
      + intros (params & H & -> & ->). apply omap_ok in H as (q & H & ->). exists q. split; [exact H|]. split; [|reflexivity].
        rewrite (issuer_create_on f M). apply (keypair_to_bytes_on f M).
      + intros (q & H & -> & ->). exists (params_on f q). rewrite H. split; [reflexivity|]. split; [|reflexivity].
        rewrite (issuer_create_on f M). symmetry. apply (keypair_to_bytes_on f M).
    - rewrite (params_from_bytes_on f M). split.
      + intros (params & keys & H & K & -> & ->). apply omap_ok in H as (q & H & ->). apply keypair_ok_on in K as (k0 & K & ->).
        exists q, k0. split; [exact H|]. split; [exact K|]. split; [|reflexivity]. apply (issuer_to_bytes_on f M (issuer_new q k0)).
      + intros (q & k0 & H & K & -> & ->). exists (params_on f q), (keypair_on f k0). rewrite H. split; [reflexivity|].
        split; [apply keypair_ok_on; eauto|]. split; [|reflexivity]. symmetry. apply (issuer_to_bytes_on f M (issuer_new q k0)).
    - rewrite (issuer_from_bytes_on f M). split.
      + intros (x & H & -> & ->). apply omap_ok in H as (x0 & H & ->). exists x0. split; [exact H|]. split; [|reflexivity].
        apply (public_key_to_bytes_on f M).
      + intros (x & H & -> & ->). exists (issuer_on f x). rewrite H. split; [reflexivity|]. split; [|reflexivity]. symmetry. apply (public_key_to_bytes_on f M).
    - rewrite (issuer_from_bytes_on f M). split.
      + intros (x & y & rest & H & K & ->). apply omap_ok in H as (x0 & H & ->). rewrite (signal_issue_on f M) in K.
        apply omap_ok in K as ([[y0 r0] o0] & K & Q). unfold pmap in Q. cbn [fst snd] in Q. injection Q as -> -> ->.
        exists x0, y0, r0. split; [exact H|]. split; [exact K|]. apply (issuance_to_bytes_on f M).
      + intros (x & y & rest & H & K & ->). exists (issuer_on f x), (issuance_on f y), rest. rewrite H. split; [reflexivity|].
        rewrite (signal_issue_on f M), K. split; [reflexivity|]. symmetry. apply (issuance_to_bytes_on f M).
    - rewrite (issuer_from_bytes_on f M), (signal_presentation_from_bytes_on f M). split.
      + intros (x & y & z & H & K & V & -> & ->). apply omap_ok in H as (x0 & H & ->). apply omap_ok in K as (y0 & K & ->).
        rewrite (signal_verify_on f M) in V. apply omap_ok in V as (z0 & V & ->). exists x0, y0, z0.
        split; [exact H|]. split; [exact K|]. split; [exact V|]. split; [|reflexivity]. apply (signal_presentation_to_bytes_on f M).
      + intros (x & y & z & H & K & V & -> & ->). exists (issuer_on f x), (signal_presentation_on f y), (verified_signal_on f z). rewrite H, K.
        split; [reflexivity|]. split; [reflexivity|]. rewrite (signal_verify_on f M), V. split; [reflexivity|]. split; [|reflexivity].
        symmetry. apply (signal_presentation_to_bytes_on f M).
    - rewrite (issuer_from_bytes_on f M), (verified_signal_from_bytes_on f M). split.
      + intros (x & y & z & H & K & V & -> & ->). apply omap_ok in H as (x0 & H & ->). apply omap_ok in K as (y0 & K & ->).
        rewrite (verify_roster_membership_on f M) in V. apply omap_ok in V as (z0 & V & ->). exists x0, y0, z0.
        split; [exact H|]. split; [exact K|]. split; [exact V|]. split; [|reflexivity]. apply (committed_to_bytes_on f M).
      + intros (x & y & z & H & K & V & -> & ->). exists (issuer_on f x), (verified_signal_on f y), (f z). rewrite H, K.
        split; [reflexivity|]. split; [reflexivity|]. rewrite (verify_roster_membership_on f M), V. split; [reflexivity|]. split; [|reflexivity].
        symmetry. apply (committed_to_bytes_on f M).
    - rewrite (params_from_bytes_on f M), (public_key_from_bytes_on f M), (issuance_from_bytes_on f M). split.
      + intros (q & k & x & u & u' & H & K & I & U & O & -> & ->). apply omap_ok in H as (q0 & H & ->). apply omap_ok in K as (k0 & K & ->).
        apply omap_ok in I as (x0 & I & ->). rewrite (signal_user_new_on f) in U. apply omap_ok in U as (u0 & U & ->).
        change (Some (issuance_on f x0)) with (option_map (issuance_on f) (Some x0)) in O. rewrite (signal_obtain_finish_on f M) in O.
        destruct (signal_obtain_finish u0 (Some x0)) as [u1 o] eqn:Hu. unfold pmap in O. cbn [fst snd] in O. injection O as <- ->.
        exists q0, k0, x0, u0, u1. split; [exact H|]. split; [exact K|]. split; [exact I|]. split; [exact U|]. split; [exact Hu|]. split; [|reflexivity].
        apply (signal_user_to_bytes_on f M).
      + intros (q & k & x & u & u' & H & K & I & U & O & -> & ->).
        exists (params_on f q), (public_on f k), (issuance_on f x), (signal_user_on f u), (signal_user_on f u'). rewrite H, K, I.
        split; [reflexivity|]. split; [reflexivity|]. split; [reflexivity|]. rewrite (signal_user_new_on f), U. split; [reflexivity|].
        change (Some (issuance_on f x)) with (option_map (issuance_on f) (Some x)). rewrite (signal_obtain_finish_on f M), O.
        split; [reflexivity|]. split; [|reflexivity]. symmetry. apply (signal_user_to_bytes_on f M).
    - rewrite (signal_user_from_bytes_on f M), (roster_from_bytes_on f M). split.
      + intros (x & y & z & rest & H & K & V & ->). apply omap_ok in H as (x0 & H & ->). apply omap_ok in K as (y0 & K & ->).
        rewrite (signal_show_on f M) in V. apply omap_ok in V as ([[z0 r0] o0] & V & Q). unfold pmap in Q. cbn [fst snd] in Q. injection Q as -> -> ->.
        exists x0, y0, z0, r0. split; [exact H|]. split; [exact K|]. split; [exact V|]. apply (signal_presentation_to_bytes_on f M).
      + intros (x & y & z & rest & H & K & V & ->). exists (signal_user_on f x), (entry_on f y), (signal_presentation_on f z), rest. rewrite H, K.
        split; [reflexivity|]. split; [reflexivity|]. rewrite (signal_show_on f M), V. split; [reflexivity|].
        symmetry. apply (signal_presentation_to_bytes_on f M).
    - rewrite (params_from_bytes_on f M). split.
      + intros (x & y & rest & H & K & -> & ->). apply omap_ok in H as (x0 & H & ->). rewrite (roster_create_on f M) in K.
        apply omap_ok in K as ([y0 r0] & K & Q). unfold pmap in Q. cbn [fst snd] in Q. injection Q as -> ->.
        exists x0, y0, r0. split; [exact H|]. split; [exact K|]. split; [|reflexivity]. apply (roster_to_bytes_on f M).
      + intros (x & y & rest & H & K & -> & ->). exists (params_on f x), (entry_on f y), rest. rewrite H. split; [reflexivity|].
        rewrite (roster_create_on f M), K. split; [reflexivity|]. split; [|reflexivity]. symmetry. apply (roster_to_bytes_on f M).
    - rewrite (roster_from_bytes_on f M). split.
      + intros (x & H & -> & ->). apply omap_ok in H as (x0 & H & ->). exists x0. split; [exact H|]. split; [|reflexivity]. apply (committed_to_bytes_on f M).
      + intros (x & H & -> & ->). exists (entry_on f x). rewrite H. split; [reflexivity|]. split; [|reflexivity]. symmetry. apply (committed_to_bytes_on f M).
  Qed.
End calls.

(** Whatever one build computes for a call of the API, another computes: the
    same bytes, with the same use of the operating system's randomness. *)
Theorem C115_calls : forall E E' f, ExtLaws E -> ExtLaws E' -> same_crates E E' f -> forall fuel os a ser os',
  gives E' fuel os a ser os' <-> gives E fuel os a ser os'.
Proof. intros E E' f L L' M. exact (gives_on L L' M). Qed.
Print Assumptions C115_calls.

(** And what it answers instead of bytes, error or panic, is the same: of each
    decoder, except [Keypair::from_bytes] with fewer than 32 bytes. *)
Theorem C115_decoders : forall E E' f, same_crates E E' f -> forall b,
  omap system_parameters_to_bytes (@system_parameters_from_bytes E' b) = omap system_parameters_to_bytes (@system_parameters_from_bytes E b) /\
  omap public_key_to_bytes (@public_key_from_bytes E' b) = omap public_key_to_bytes (@public_key_from_bytes E b) /\
  ((32 <= List.length b)%nat -> omap keypair_to_bytes (@keypair_from_bytes E' b) = omap keypair_to_bytes (@keypair_from_bytes E b)) /\
  omap signal_issuer_to_bytes (@signal_issuer_from_bytes E' b) = omap signal_issuer_to_bytes (@signal_issuer_from_bytes E b) /\
  omap issuance_to_bytes (@issuance_from_bytes E' b) = omap issuance_to_bytes (@issuance_from_bytes E b) /\
  omap signal_user_to_bytes (@signal_user_from_bytes E' b) = omap signal_user_to_bytes (@signal_user_from_bytes E b) /\
  omap roster_to_bytes (@roster_from_bytes E' b) = omap roster_to_bytes (@roster_from_bytes E b) /\
  omap signal_presentation_to_bytes (@signal_presentation_from_bytes E' b) =
    omap signal_presentation_to_bytes (@signal_presentation_from_bytes E b) /\
  omap verified_signal_to_bytes (@verified_signal_from_bytes E' b) = omap verified_signal_to_bytes (@verified_signal_from_bytes E b).
Proof.
  intros E E' f M b.
  assert (O : forall (Er A A' : Type) (g : A -> A') (h : A -> bytes) (h' : A' -> bytes) (o : outcome Er A),
            (forall a, h' (g a) = h a) -> omap h' (omap g o) = omap h o).
  { intros Er A A' g h h' o H. destruct o; cbn; [rewrite H; reflexivity|reflexivity..]. }
  split; [rewrite (params_from_bytes_on f M); apply O, (params_to_bytes_on f M)|].
  split; [rewrite (public_key_from_bytes_on f M); apply O, (public_key_to_bytes_on f M)|].
  split; [intros H; rewrite (keypair_from_bytes_on f M b H); apply O, (keypair_to_bytes_on f M)|].
  split; [unfold signal_issuer_from_bytes; rewrite (issuer_from_bytes_on f M); apply O, (issuer_to_bytes_on f M)|].
  split; [rewrite (issuance_from_bytes_on f M); apply O, (issuance_to_bytes_on f M)|].
  split; [rewrite (signal_user_from_bytes_on f M); apply O, (signal_user_to_bytes_on f M)|].
  split; [rewrite (roster_from_bytes_on f M); apply O, (roster_to_bytes_on f M)|].
  split; [rewrite (signal_presentation_from_bytes_on f M); apply O, (signal_presentation_to_bytes_on f M)|].
  rewrite (verified_signal_from_bytes_on f M); apply O. intros v. apply (signal_presentation_to_bytes_on f M).
Qed.
Print Assumptions C115_decoders.

(** Of each function on what the decoders return. *)
Theorem C115_outcomes : forall E E' f, same_crates E E' f -> forall (ib nb pb vb ub eb sb : bytes) (r os : rng),
  let same {X X' A A' Er : Type} (d : outcome CredentialError X) (d' : outcome CredentialError X')
           (g : X -> outcome Er A) (g' : X' -> outcome Er A') (h : A -> bytes) (h' : A' -> bytes) :=
    forall x x', d = Ok x -> d' = Ok x' -> omap h' (g' x') = omap h (g x) in
  let bytes_of {X} (h : X -> bytes) := fun y : X * rng * rng => h (fst (fst y)) in
  same (@signal_issuer_from_bytes E ib) (@signal_issuer_from_bytes E' ib)
    (fun i => signal_issue i nb r os) (fun i => signal_issue i nb r os) (bytes_of issuance_to_bytes) (bytes_of issuance_to_bytes) /\
  same (@signal_issuer_from_bytes E ib) (@signal_issuer_from_bytes E' ib)
    (fun i => do p <- signal_presentation_from_bytes pb; signal_verify i p)
    (fun i => do p <- signal_presentation_from_bytes pb; signal_verify i p) verified_signal_to_bytes verified_signal_to_bytes /\
  same (@signal_issuer_from_bytes E ib) (@signal_issuer_from_bytes E' ib)
    (fun i => do v <- verified_signal_from_bytes vb; verify_roster_membership i v)
    (fun i => do v <- verified_signal_from_bytes vb; verify_roster_membership i v) committed_to_bytes committed_to_bytes /\
  same (@signal_user_from_bytes E ub) (@signal_user_from_bytes E' ub)
    (fun u => do e <- map_err phone_to_credential_error (roster_from_bytes eb); signal_show u r os e)
    (fun u => do e <- map_err phone_to_credential_error (roster_from_bytes eb); signal_show u r os e)
    (bytes_of signal_presentation_to_bytes) (bytes_of signal_presentation_to_bytes) /\
  same (@system_parameters_from_bytes E sb) (@system_parameters_from_bytes E' sb)
    (fun p => roster_create nb p r) (fun p => roster_create nb p r)
    (fun y => roster_to_bytes (fst y)) (fun y => roster_to_bytes (fst y)) /\
  same (@system_parameters_from_bytes E sb) (@system_parameters_from_bytes E' sb)
    (fun p => do e <- roster_from_bytes eb; roster_open e nb p) (fun p => do e <- roster_from_bytes eb; roster_open e nb p)
    (fun _ => []) (fun _ => []).
Proof.
  intros E E' f M ib nb pb vb ub eb sb r os same bytes_of. subst same bytes_of. cbv beta.
  assert (O : forall (Er A A' : Type) (g : A -> A') (h : A -> bytes) (h' : A' -> bytes) (o : outcome Er A),
            (forall a, h' (g a) = h a) -> omap h' (omap g o) = omap h o).
  { intros Er A A' g h h' o H. destruct o; cbn; [rewrite H; reflexivity|reflexivity..]. }
  unfold signal_issuer_from_bytes.
  split; [|split; [|split; [|split; [|split]]]]; intros x x' H H';
    rewrite ?(issuer_from_bytes_on f M), ?(signal_user_from_bytes_on f M), ?(params_from_bytes_on f M) in H'; rewrite H in H';
    cbn [omap] in H'; injection H' as <-.
  - rewrite (signal_issue_on f M). apply O. intros [[y r'] o]. apply (issuance_to_bytes_on f M).
  - rewrite (signal_presentation_from_bytes_on f M), bind_omap, !omap_bind. apply bind_ext. intros p.
    rewrite (signal_verify_on f M). apply O. intros v. apply (signal_presentation_to_bytes_on f M).
  - rewrite (verified_signal_from_bytes_on f M), bind_omap, !omap_bind. apply bind_ext. intros p.
    rewrite (verify_roster_membership_on f M). apply O. intros v. apply (committed_to_bytes_on f M).
  - rewrite (roster_from_bytes_on f M), map_err_omap, bind_omap, !omap_bind. apply bind_ext. intros e.
    rewrite (signal_show_on f M). apply O. intros [[y r'] o]. apply (signal_presentation_to_bytes_on f M).
  - rewrite (roster_create_on f M). apply O. intros [y r']. apply (roster_to_bytes_on f M).
  - rewrite (roster_from_bytes_on f M), bind_omap, !omap_bind. apply bind_ext. intros e. rewrite (roster_open_on f M). reflexivity.
Qed.
Print Assumptions C115_outcomes.

(** So JavaScript is given the same array of numbers, *)
Theorem C115_js : forall E E' f, ExtLaws E -> ExtLaws E' -> same_crates E E' f -> forall fuel os g ser os',
  @js_run E' fuel os g = JsReturns (numbers ser) os' <-> @js_run E fuel os g = JsReturns (numbers ser) os'.
Proof.
  intros E E' f L L' M fuel os g ser os'. rewrite !C87_js_calls.
  split; intros (a & Ha & H); exists a; (split; [exact Ha|]); apply (C115_calls E E' f L L' M); exact H.
Qed.
Print Assumptions C115_js.

(** and C a buffer with the same bytes, if the lengths passed fit in 32 bits. *)
Theorem C115_c : forall E E' f, ExtLaws E -> ExtLaws E' -> same_crates E E' f -> forall fuel m os g ser os', ~ is_open g ->
  Forall (fun a => forall n, snd a = Some n -> 0 <= n < 2 ^ 32) (c_arguments g) ->
  (exists b m', @c_run E' fuel m os g = Returns b m' os' /\ last_contents m' (buf_ptr b) (buf_len b) = Some ser) <->
  (exists b m', @c_run E fuel m os g = Returns b m' os' /\ last_contents m' (buf_ptr b) (buf_len b) = Some ser).
Proof.
  intros E E' f L L' M fuel m os g ser os' Ho Hn. rewrite (C87_c_calls E' L' fuel m os g ser os' Ho), (C87_c_calls E L fuel m os g ser os' Ho).
  assert (S : forall F, ExtLaws F -> forall n, 0 <= n < 2 ^ 32 -> @as_size_t F n = Z.to_nat n).
  { intros F LF n Hr. unfold as_size_t. rewrite Z.mod_small; [reflexivity|]. split; [lia|].
    destruct (usize_bits_cases F LF) as [-> | ->]; [lia|]. assert (2 ^ 32 < 2 ^ 64) by reflexivity. lia. }
  assert (G : forall p n b, 0 <= n < 2 ^ 32 -> @given E' m p n b <-> @given E m p n b).
  { intros p n b Hr. unfold given. rewrite (S E L n Hr), (S E' L' n Hr). reflexivity. }
  assert (C : forall a, c_is E' m g a <-> c_is E m g a).
  { intros a. destruct g, a; cbn [c_is c_arguments] in *; try reflexivity;
      repeat match goal with H : Forall _ (_ :: _) |- _ => let X := fresh in inversion H as [|? ? X]; subst; clear H; specialize (X _ eq_refl) || clear X end;
      rewrite ?G by assumption; reflexivity. }
  split; intros (a & Ha & H); exists a; (split; [apply C; exact Ha|]); apply (C115_calls E E' f L L' M); exact H.
Qed.
Print Assumptions C115_c.

(** The whole result of a call is the same: what a failing call answers as well.
    The exception is a key pair of fewer than 32 bytes. *)
Definition smap {A B} (g : A -> B) (s : step A) : step B :=
  match s with Next a => Next (g a) | Return b => Return b | Unwinding => Unwinding | Undefined => Undefined | Looping => Looping end.
Lemma then_smap {A B C} (g : A -> B) (s : step A) (k : B -> step C) : then_ (smap g s) k = then_ s (fun a => k (g a)).
Proof. destruct s; reflexivity. Qed.
Lemma then_ext {A B} (s : step A) (k k' : A -> step B) : (forall a, k a = k' a) -> then_ s k = then_ s k'.
Proof. intros H. destruct s; cbn; [apply H|reflexivity..]. Qed.
Lemma ok_or_return_omap {Er A B} (g : A -> B) (o : outcome Er A) : ok_or_return (omap g o) = smap g (ok_or_return o).
Proof. destruct o; reflexivity. Qed.
Definition jmap {A B} (g : A -> B) (s : js_step A) : js_step B :=
  match s with JsNext a => JsNext (g a) | JsReturn v => JsReturn v | JsTrap => JsTrap | JsLooping => JsLooping end.
Lemma js_then_jmap {A B C} (g : A -> B) (s : js_step A) (k : B -> js_step C) : js_then (jmap g s) k = js_then s (fun a => k (g a)).
Proof. destruct s; reflexivity. Qed.
Lemma js_then_ext {A B} (s : js_step A) (k k' : A -> js_step B) : (forall a, k a = k' a) -> js_then s k = js_then s k'.
Proof. intros H. destruct s; cbn; [apply H|reflexivity..]. Qed.
Lemma js_ok_or_return_omap {Er A B} (g : A -> B) (o : outcome Er A) : js_ok_or_return (omap g o) = jmap g (js_ok_or_return o).
Proof. destruct o; reflexivity. Qed.

Section whole.
  Context {E E' : Ext} {f : point E -> point E'} (L : ExtLaws E) (L' : ExtLaws E') (M : same_crates E E' f).

  Lemma size_on n : 0 <= n < 2 ^ 32 -> @as_size_t E' n = @as_size_t E n.
  Proof.
    intros Hr. assert (S : forall F, ExtLaws F -> @as_size_t F n = Z.to_nat n).
    { intros F LF. unfold as_size_t. rewrite Z.mod_small; [reflexivity|]. split; [lia|].
      destruct (usize_bits_cases F LF) as [-> | ->]; [lia|]. assert (2 ^ 32 < 2 ^ 64) by reflexivity. lia. }
    rewrite (S E L), (S E' L'). reflexivity.
  Qed.
  Lemma slice_on m n p : 0 <= n < 2 ^ 32 -> @len_and_ptr_to_slice E' m n p = @len_and_ptr_to_slice E m n p.
  Proof. intros H. unfold len_and_ptr_to_slice. rewrite (size_on n H). reflexivity. Qed.
  Lemma seed_on m p : @csprng_from_seed E' m p = @csprng_from_seed E m p.
  Proof.
    unfold csprng_from_seed, uint8_to_array. rewrite size_on by (unfold LENGTH_SEED; lia). apply then_ext. intros o. apply then_ext. intros b.
    rewrite (same_chacha _ _ _ M). reflexivity.
  Qed.
  Lemma deserialize_on {Er A A'} (from : bytes -> outcome Er A) (from' : bytes -> outcome Er A') g m n p : 0 <= n < 2 ^ 32 ->
    (forall b, from' b = omap g (from b)) -> @deserialize_or_return E' Er A' from' m n p = smap g (@deserialize_or_return E Er A from m n p).
  Proof.
    intros Hn H. unfold deserialize_or_return. rewrite (slice_on m n p Hn). destruct (@len_and_ptr_to_slice E m n p); cbn [then_]; [|reflexivity..].
    rewrite H. apply ok_or_return_omap.
  Qed.
  Lemma deserialize_keypair_on m n p : 0 <= n < 2 ^ 32 -> 32 <= n ->
    @deserialize_or_return E' _ _ (@keypair_from_bytes E') m n p =
    smap (keypair_on f) (@deserialize_or_return E _ _ (@keypair_from_bytes E) m n p).
  Proof.
    intros Hn H. unfold deserialize_or_return. rewrite (slice_on m n p Hn). unfold len_and_ptr_to_slice.
    destruct (is_null p || (n =? 0))%bool; [reflexivity|]. destruct (read m p (@as_size_t E n)) as [b|] eqn:Hr; [|reflexivity]. cbn [or_undefined then_].
    rewrite (keypair_from_bytes_on f M); [apply ok_or_return_omap|]. apply read_length in Hr. rewrite Hr.
    unfold as_size_t. rewrite Z.mod_small; [lia|]. split; [lia|].
    destruct (usize_bits_cases E L) as [-> | ->]; [lia|]. assert (2 ^ 32 < 2 ^ 64) by reflexivity. lia.
  Qed.

  Ltac next := rewrite then_smap; apply then_ext; intros ?.

  Lemma c_run_on fuel m os g : Forall (fun a => forall n, snd a = Some n -> 0 <= n < 2 ^ 32) (c_arguments g) ->
    (match g with IssuerNew _ _ _ n => 32 <= n | _ => True end) -> @c_run E' fuel m os g = @c_run E fuel m os g.
  Proof.
    intros Hn Hk.
    assert (A : forall p n, In (p, Some n) (c_arguments g) -> 0 <= n < 2 ^ 32).
    { intros p n Hi. rewrite Forall_forall in Hn. exact (Hn _ Hi n eq_refl). } clear Hn.
    destruct g as [s|p pl s|p pl k kl|i il|i il n nl s|i il p pl|i il v vl|n nl p pl ip ipl s sl|u ul e el s|n nl p pl s|e el|e el n nl p pl];
      cbn [c_run c_arguments] in *.
    - unfold c_system_parameters_create. f_equal. rewrite seed_on. apply then_ext. intros r. rewrite (hunt_and_peck_on f M).
      destruct (@hunt_and_peck E fuel r) as [[q r']|]; [|reflexivity]. cbn [option_map pmap fst snd]. rewrite (params_to_bytes_on f M). reflexivity.
    - unfold c_issuer_create. f_equal. rewrite seed_on. apply then_ext. intros r.
      rewrite (deserialize_on (@system_parameters_from_bytes E) _ (params_on f)); [next|apply (A p); cbn; auto|apply (params_from_bytes_on f M)].
      unfold signal_issuer_create. rewrite (issuer_create_on f M). destruct (issuer_create a r) as [x r']. unfold pmap. cbn [fst snd].
      cbn [issuer_on iss_keypair]. rewrite (keypair_to_bytes_on f M). reflexivity.
    - unfold c_issuer_new. f_equal.
      rewrite (deserialize_on (@system_parameters_from_bytes E) _ (params_on f)); [next|apply (A p); cbn; auto|apply (params_from_bytes_on f M)].
      rewrite deserialize_keypair_on; [next|apply (A k); cbn; auto|exact Hk].
      f_equal. apply (issuer_to_bytes_on f M (issuer_new a a0)).
    - unfold c_issuer_get_issuer_parameters. f_equal.
      rewrite (deserialize_on (@signal_issuer_from_bytes E) _ (issuer_on f)); [next|apply (A i); cbn; auto|apply (issuer_from_bytes_on f M)].
      f_equal. apply (public_key_to_bytes_on f M).
    - unfold c_issuer_issue. f_equal.
      rewrite (deserialize_on (@signal_issuer_from_bytes E) _ (issuer_on f)); [next|apply (A i); cbn; auto|apply (issuer_from_bytes_on f M)].
      rewrite seed_on. apply then_ext. intros r. rewrite slice_on by (apply (A n); cbn; auto). apply then_ext. intros b.
      rewrite (signal_issue_on f M), ok_or_return_omap. next. destruct a0 as [[y r'] o]. unfold pmap. cbn [fst snd].
      rewrite (issuance_to_bytes_on f M). reflexivity.
    - unfold c_issuer_verify. f_equal.
      rewrite (deserialize_on (@signal_issuer_from_bytes E) _ (issuer_on f)); [next|apply (A i); cbn; auto|apply (issuer_from_bytes_on f M)].
      rewrite (deserialize_on (@signal_presentation_from_bytes E) _ (signal_presentation_on f)); [next|apply (A p); cbn; auto|apply (signal_presentation_from_bytes_on f M)].
      rewrite (signal_verify_on f M), ok_or_return_omap. next. f_equal. apply (signal_presentation_to_bytes_on f M).
    - unfold c_issuer_verify_roster_membership. f_equal.
      rewrite (deserialize_on (@signal_issuer_from_bytes E) _ (issuer_on f)); [next|apply (A i); cbn; auto|apply (issuer_from_bytes_on f M)].
      rewrite (deserialize_on (@verified_signal_from_bytes E) _ (verified_signal_on f)); [next|apply (A v); cbn; auto|apply (verified_signal_from_bytes_on f M)].
      rewrite (verify_roster_membership_on f M), ok_or_return_omap. next. f_equal. apply (committed_to_bytes_on f M).
    - unfold c_user_obtain_finish. f_equal.
      rewrite (deserialize_on (@system_parameters_from_bytes E) _ (params_on f)); [next|apply (A p); cbn; auto|apply (params_from_bytes_on f M)].
      rewrite (deserialize_on (@public_key_from_bytes E) _ (public_on f)); [next|apply (A ip); cbn; auto|apply (public_key_from_bytes_on f M)].
      rewrite (deserialize_on (@issuance_from_bytes E) _ (issuance_on f)); [next|apply (A s); cbn; auto|apply (issuance_from_bytes_on f M)].
      rewrite slice_on by (apply (A n); cbn; auto). apply then_ext. intros b.
      rewrite (signal_user_new_on f), ok_or_return_omap. next.
      change (Some (issuance_on f a1)) with (option_map (issuance_on f) (Some a1)). rewrite (signal_obtain_finish_on f M).
      destruct (signal_obtain_finish a2 (Some a1)) as [x o]. unfold pmap. cbn [fst snd]. rewrite (signal_user_to_bytes_on f M). reflexivity.
    - unfold c_user_show. f_equal. rewrite seed_on. apply then_ext. intros r.
      rewrite (deserialize_on (@signal_user_from_bytes E) _ (signal_user_on f)); [next|apply (A u); cbn; auto|apply (signal_user_from_bytes_on f M)].
      rewrite (deserialize_on (@roster_from_bytes E) _ (entry_on f)); [next|apply (A e); cbn; auto|apply (roster_from_bytes_on f M)].
      rewrite (signal_show_on f M), ok_or_return_omap. next. destruct a1 as [[y r'] o]. unfold pmap. cbn [fst snd].
      rewrite (signal_presentation_to_bytes_on f M). reflexivity.
    - unfold c_roster_entry_commitment_create. f_equal. rewrite seed_on. apply then_ext. intros r.
      rewrite slice_on by (apply (A n); cbn; auto). apply then_ext. intros b.
      rewrite (deserialize_on (@system_parameters_from_bytes E) _ (params_on f)); [next|apply (A p); cbn; auto|apply (params_from_bytes_on f M)].
      rewrite (roster_create_on f M), ok_or_return_omap. next. destruct a0 as [y r']. unfold pmap. cbn [fst snd].
      rewrite (roster_to_bytes_on f M). reflexivity.
    - unfold c_roster_entry_commitment_remove_opening. f_equal.
      rewrite (deserialize_on (@roster_from_bytes E) _ (entry_on f)); [next|apply (A e); cbn; auto|apply (roster_from_bytes_on f M)].
      f_equal. apply (committed_to_bytes_on f M).
    - unfold c_roster_entry_commitment_open. f_equal.
      rewrite slice_on by (apply (A n); cbn; auto). apply then_ext. intros b.
      rewrite (deserialize_on (@system_parameters_from_bytes E) _ (params_on f)); [next|apply (A p); cbn; auto|apply (params_from_bytes_on f M)].
      rewrite (deserialize_on (@roster_from_bytes E) _ (entry_on f)); [next|apply (A e); cbn; auto|apply (roster_from_bytes_on f M)].
      rewrite (roster_open_on f M). reflexivity.
  Qed.

  Lemma js_seed_on s : @js_csprng_from_seed E' s = @js_csprng_from_seed E s.
  Proof. unfold js_csprng_from_seed. apply js_then_ext. intros b. rewrite (same_chacha _ _ _ M). reflexivity. Qed.
  Lemma into_on t (g : cd_value (codec_of E t) -> cd_value (codec_of E' t)) v :
    (forall b, cd_from_bytes (codec_of E' t) b = omap g (cd_from_bytes (codec_of E t) b)) ->
    @into_serde E' t v = jmap g (@into_serde E t v).
  Proof.
    intros H. unfold into_serde. rewrite <- js_ok_or_return_omap. f_equal. destruct v; try reflexivity. cbn [json_deserialize].
    unfold visit_bytes. rewrite H. destruct (cd_from_bytes _ _); reflexivity.
  Qed.
  Lemma map_err_on {Er A A'} (g : A -> A') (o : outcome Er A) (o' : outcome Er A') : o' = omap g o ->
    map_err (fun _ => tt) o' = omap g (map_err (fun _ => tt) o).
  Proof. intros ->. apply map_err_omap. Qed.

  Lemma from_on t os (x : cd_value (codec_of E t)) (x' : cd_value (codec_of E' t)) :
    cd_to_bytes (codec_of E' t) x' = cd_to_bytes (codec_of E t) x -> @from_serde E' t os x' = @from_serde E t os x.
  Proof. intros H. unfold from_serde, json_serialize, serialized_bytes. rewrite H. reflexivity. Qed.

  Lemma js_run_on fuel os g :
    (match g with JsIssuerNew _ (JString s) => 32 <= len (utf8 s) | _ => True end) -> @js_run E' fuel os g = @js_run E fuel os g.
  Proof.
    intros Hk.
    destruct g as [s|p s|i|p k|i n s|i p|i v|n p ip s|u e s]; cbn [js_run].
    - unfold js_system_parameters_create. f_equal. destruct (negb _); [reflexivity|]. rewrite js_seed_on. apply js_then_ext. intros r.
      rewrite (hunt_and_peck_on f M). destruct (@hunt_and_peck E fuel r) as [[q r']|]; [|reflexivity]. cbn [option_map pmap fst snd].
      apply from_on, (params_to_bytes_on f M).
    - unfold js_issuer_create. f_equal. rewrite js_seed_on. apply js_then_ext. intros r.
      rewrite (into_on TSystemParameters (params_on f)) by (intros b; apply map_err_on, (params_from_bytes_on f M)).
      rewrite js_then_jmap. apply js_then_ext. intros a. cbn in a. unfold signal_issuer_create. rewrite (issuer_create_on f M).
      destruct (issuer_create a r) as [x r']. unfold pmap. cbn [fst snd].
      apply from_on, (keypair_to_bytes_on f M).
    - unfold js_issuer_get_issuer_parameters. f_equal.
      rewrite (into_on TSignalIssuer (issuer_on f)) by (intros b; apply map_err_on, (issuer_from_bytes_on f M)).
      rewrite js_then_jmap. apply js_then_ext. intros a. cbn in a.
      apply from_on, (public_key_to_bytes_on f M).
    - unfold js_issuer_new. f_equal.
      rewrite (into_on TSystemParameters (params_on f)) by (intros b; apply map_err_on, (params_from_bytes_on f M)).
      rewrite js_then_jmap. apply js_then_ext. intros a. cbn in a.
      assert (K : @into_serde E' TKeypair k = jmap (keypair_on f) (@into_serde E TKeypair k)).
      { unfold into_serde. rewrite <- js_ok_or_return_omap. f_equal. destruct k; try reflexivity. cbn [json_deserialize]. unfold visit_bytes. cbn.
        rewrite (keypair_from_bytes_on f M) by (unfold len in Hk; unfold bytes in *; lia). rewrite map_err_omap. destruct (map_err _ _); reflexivity. }
      rewrite K, js_then_jmap. apply js_then_ext. intros y. cbn in y. apply from_on, (issuer_to_bytes_on f M (issuer_new a y)).
    - unfold js_issuer_issue. f_equal. rewrite js_seed_on. apply js_then_ext. intros r.
      rewrite (into_on TSignalIssuer (issuer_on f)) by (intros b; apply map_err_on, (issuer_from_bytes_on f M)).
      rewrite js_then_jmap. apply js_then_ext. intros a. cbn in a. rewrite (signal_issue_on f M), js_ok_or_return_omap, js_then_jmap.
      apply js_then_ext. intros [[y r'] o]. unfold pmap. cbn [fst snd]. apply from_on, (issuance_to_bytes_on f M).
    - unfold js_issuer_verify. f_equal.
      rewrite (into_on TSignalIssuer (issuer_on f)) by (intros b; apply map_err_on, (issuer_from_bytes_on f M)).
      rewrite js_then_jmap. apply js_then_ext. intros a. cbn in a.
      rewrite (into_on TSignalCredentialPresentation (signal_presentation_on f)) by (intros b; apply map_err_on, (signal_presentation_from_bytes_on f M)).
      rewrite js_then_jmap. apply js_then_ext. intros y. cbn in y. rewrite (signal_verify_on f M), js_ok_or_return_omap, js_then_jmap.
      apply js_then_ext. intros z. apply from_on, (signal_presentation_to_bytes_on f M).
    - unfold js_issuer_verify_roster_membership. f_equal.
      rewrite (into_on TSignalIssuer (issuer_on f)) by (intros b; apply map_err_on, (issuer_from_bytes_on f M)).
      rewrite js_then_jmap. apply js_then_ext. intros a. cbn in a.
      rewrite (into_on TVerifiedSignalCredential (verified_signal_on f)) by (intros b; apply map_err_on, (verified_signal_from_bytes_on f M)).
      rewrite js_then_jmap. apply js_then_ext. intros y. cbn in y. rewrite (verify_roster_membership_on f M), js_ok_or_return_omap, js_then_jmap.
      apply js_then_ext. intros z. apply from_on, (committed_to_bytes_on f M).
    - unfold js_user_obtain_finish. f_equal.
      rewrite (into_on TSystemParameters (params_on f)) by (intros b; apply map_err_on, (params_from_bytes_on f M)).
      rewrite js_then_jmap. apply js_then_ext. intros a. cbn in a.
      rewrite (into_on TPublicKey (public_on f)) by (intros b; apply map_err_on, (public_key_from_bytes_on f M)).
      rewrite js_then_jmap. apply js_then_ext. intros a0. cbn in a0.
      rewrite (signal_user_new_on f), js_ok_or_return_omap, js_then_jmap. apply js_then_ext. intros a2.
      rewrite (into_on TCredentialIssuance (issuance_on f)) by (intros b; apply map_err_on, (issuance_from_bytes_on f M)).
      rewrite js_then_jmap. apply js_then_ext. intros a1. cbn in a1.
      change (Some (issuance_on f a1)) with (option_map (issuance_on f) (Some a1)). change (cd_value (codec_of E TCredentialIssuance)) with (CredentialIssuance E). rewrite (signal_obtain_finish_on f M).
      destruct (signal_obtain_finish a2 (Some a1)) as [x o]. unfold pmap. cbn [fst snd]. apply js_then_ext. intros _.
      apply from_on, (signal_user_to_bytes_on f M).
    - unfold js_user_show. f_equal. rewrite js_seed_on. apply js_then_ext. intros r.
      rewrite (into_on TSignalUser (signal_user_on f)) by (intros b; apply map_err_on, (signal_user_from_bytes_on f M)).
      rewrite js_then_jmap. apply js_then_ext. intros a. cbn in a.
      rewrite (into_on TRosterEntryCommitment (entry_on f)) by (intros b; apply map_err_on, (roster_from_bytes_on f M)).
      rewrite js_then_jmap. apply js_then_ext. intros y. cbn in y.
      rewrite (signal_show_on f M), js_ok_or_return_omap, js_then_jmap. apply js_then_ext. intros [[z r'] o]. unfold pmap. cbn [fst snd].
      apply from_on, (signal_presentation_to_bytes_on f M).
  Qed.
End whole.

Theorem C115_c_whole : forall E E' f, ExtLaws E -> ExtLaws E' -> same_crates E E' f -> forall fuel m os g,
  Forall (fun a => forall n, snd a = Some n -> 0 <= n < 2 ^ 32) (c_arguments g) ->
  (forall p pl k kl, g = IssuerNew p pl k kl -> 32 <= kl) ->
  @c_run E' fuel m os g = @c_run E fuel m os g.
Proof.
  intros E E' f L L' M fuel m os g Hn Hk. apply (c_run_on L L' M); [exact Hn|]. destruct g; try exact I. eapply Hk. reflexivity.
Qed.
Print Assumptions C115_c_whole.
Theorem C115_js_whole : forall E E' f, same_crates E E' f -> forall fuel os g,
  (forall p s, g = JsIssuerNew p (JString s) -> (32 <= List.length (utf8 s))%nat) ->
  @js_run E' fuel os g = @js_run E fuel os g.
Proof.
  intros E E' f M fuel os g Hk. apply (js_run_on M). destruct g; try exact I. destruct keypair; try exact I.
  unfold len. specialize (Hk _ _ eq_refl). lia.
Qed.
Print Assumptions C115_js_whole.

(** In particular a debug and a release build, on targets of 32 and of 64 bits. *)
Lemma rebuilt_same E d w : same_crates E (rebuilt E d w) (fun P => P).
Proof. constructor; try reflexivity. intros b. cbn. destruct (@decompress E b); reflexivity. Qed.
Lemma rebuilt_smul E d w k P : @smul (rebuilt E d w) k P = @smul E k P.
Proof. exact (smul_on _ (rebuilt_same E d w) k P). Qed.
Lemma rebuilt_laws E d w : ExtLaws E -> w = 32 \/ w = 64 -> ExtLaws (rebuilt E d w).
Proof.
  intros L Hw. constructor.
  - exact (padd_assoc E L).
  - exact (padd_comm E L).
  - exact (padd_zero E L).
  - exact (padd_pneg E L).
  - intros a. rewrite rebuilt_smul. exact (smul_ell E L a).
  - exact (basepoint_nonzero E L).
  - intros a. destruct (basepoint_generates E L a) as [k Hk]. exists k. rewrite rebuilt_smul. exact Hk.
  - exact (peqb_spec E L).
  - exact (compress_length E L).
  - exact (decompress_compress E L).
  - exact (compress_decompress E L).
  - exact (compress_zero E L).
  - exact Hw.
Qed.
Theorem C115_builds : forall E, ExtLaws E -> forall debug w, w = 32 \/ w = 64 -> forall fuel os a ser os',
  gives (rebuilt E debug w) fuel os a ser os' <-> gives E fuel os a ser os'.
Proof.
  intros E L d w Hw. apply (C115_calls E (rebuilt E d w) _ L (rebuilt_laws E d w L Hw) (rebuilt_same E d w)).
Qed.
Print Assumptions C115_builds.

(** Where they differ: a debug build panics where a release build returns an
    error ([Keypair::from_bytes]) or a result ([SystemParameters::from]). *)
Theorem C115_differ_refuted : forall E, ExtLaws E -> forall w, w = 32 \/ w = 64 ->
  (forall b, (List.length b < 32)%nat ->
     @keypair_from_bytes (rebuilt E true w) b = Panic /\
     @keypair_from_bytes (rebuilt E false w) b = Err KeypairDeserialisation) /\
  @system_parameters_from_point (rebuilt E true w) basepoint = Panic /\
  @system_parameters_from_point (rebuilt E false w) basepoint = Ok {| sp_g := basepoint; sp_h := basepoint |} /\
  @system_parameters_from_array (rebuilt E true w) (compress (@basepoint E)) = Panic /\
  @system_parameters_from_array (rebuilt E false w) (compress (@basepoint E)) = Ok {| sp_g := basepoint; sp_h := basepoint |}.
Proof.
  intros E L w Hw. split; [intros b Hb; split|split; [|split; [|split]]].
  - apply (keypair_short (rebuilt_laws E true w L Hw) b Hb).
  - apply (keypair_short (rebuilt_laws E false w L Hw) b Hb).
  - unfold system_parameters_from_point. cbn. rewrite (proj2 (peqb_spec E L _ _) eq_refl). reflexivity.
  - reflexivity.
  - unfold system_parameters_from_array. cbn. rewrite bytes_eqb_refl. reflexivity.
  - unfold system_parameters_from_array. cbn. rewrite (decompress_compress E L). reflexivity.
Qed.
Print Assumptions C115_differ_refuted.

(** ** Examples *)
Lemma pneg_pneg {E} (L : ExtLaws E) (P : point E) : pneg (pneg P) = P.
Proof. symmetry. apply (pneg_unique L). rewrite (padd_comm E L). apply (padd_pneg E L). Qed.
Lemma pneg_zero {E} (L : ExtLaws E) : pneg (@pzero E) = pzero.
Proof. symmetry. apply (pneg_unique L). apply (padd_zero E L). Qed.
Lemma pneg_smul {E} (L : ExtLaws E) k (P : point E) : pneg (smul k P) = smul k (pneg P).
Proof. pring L. Qed.
(** A backend which holds points otherwise: each by its negation. *)
Definition backend (E : Ext) : Ext := {|
  point := point E; pzero := pzero; padd := padd; pneg := pneg; peqb := peqb; basepoint := pneg basepoint;
  compress := fun P => compress (pneg P); decompress := fun b => option_map pneg (@decompress E b);
  tr_challenge := @tr_challenge E; tr_rng := @tr_rng E; chacha := @chacha E; sha512 := @sha512 E;
  debug_build := negb (debug_build E); usize_bits := 32 |}.
Lemma backend_same E : ExtLaws E -> same_crates E (backend E) (@pneg E).
Proof.
  intros L. constructor; try reflexivity; cbn.
  - symmetry. apply (pneg_zero L).
  - intros P Q. pring L.
  - intros P Q. destruct (peqb P Q) eqn:H.
    + apply (peqb_spec E L) in H. subst. apply (peqb_spec E L). reflexivity.
    + apply Bool.not_true_is_false. intros K. apply (peqb_spec E L) in K. apply (f_equal pneg) in K. rewrite !(pneg_pneg L) in K.
      apply (peqb_spec E L) in K. rewrite K in H. discriminate.
  - intros P. rewrite (pneg_pneg L). reflexivity.
Qed.
Lemma backend_laws E : ExtLaws E -> ExtLaws (backend E).
Proof.
  intros L. constructor.
  - exact (padd_assoc E L).
  - exact (padd_comm E L).
  - exact (padd_zero E L).
  - exact (padd_pneg E L).
  - exact (smul_ell E L).
  - cbn. intros H. apply (f_equal pneg) in H. rewrite (pneg_pneg L), (pneg_zero L) in H. exact (basepoint_nonzero E L H).
  - intros a. destruct (basepoint_generates E L (pneg a)) as [k Hk]. exists k.
    change (a = @smul E k (pneg basepoint)). rewrite <- (pneg_smul L), <- Hk. symmetry. exact (pneg_pneg L a).
  - exact (peqb_spec E L).
  - intros a. exact (compress_length E L (pneg a)).
  - intros a. cbn. rewrite (decompress_compress E L). cbn. rewrite (pneg_pneg L). reflexivity.
  - intros b a H. cbn in *. destruct (@decompress E b) as [P|] eqn:Hd; [|discriminate]. cbn in H. injection H as <-.
    rewrite (pneg_pneg L). exact (compress_decompress E L b P Hd).
  - cbn. rewrite (pneg_zero L). exact (compress_zero E L).
  - left. reflexivity.
Qed.
Example C115_met_backend : same_crates toy (backend toy) (@pneg toy) /\ ExtLaws (backend toy) /\
  holds_bytes (c_contents (@c_run (backend toy) 0 (blocks [roster_to_bytes (sample_entry 9)]) (toy_stream 1)
    (RosterEntryCommitmentRemoveOpening (Block 0 0) 64))) (committed_to_bytes (re_commitment (sample_entry 9))) = true.
Proof. split; [exact (backend_same toy toy_laws)|]. split; [exact (backend_laws toy toy_laws)|]. vm_compute. reflexivity. Qed.
Example C115_met_builds : ExtLaws (rebuilt toy true 32) /\ ExtLaws (rebuilt toy false 64) /\
  gives (rebuilt toy true 32) 0 (toy_stream 1) (RemoveOpening (roster_to_bytes (sample_entry 9)))
    (committed_to_bytes (re_commitment (sample_entry 9))) (toy_stream 1).
Proof.
  split; [apply rebuilt_laws; [exact toy_laws|auto]|]. split; [apply rebuilt_laws; [exact toy_laws|auto]|].
  apply (C115_builds toy toy_laws); [auto|]. exists (sample_entry 9). split; [|split; reflexivity].
  apply (C33_roster toy toy_laws). split; vm_compute; [discriminate|reflexivity].
Qed.
Example C115_met_differ : List.length (zeros 31) = 31%nat /\
  unwinds (@c_run (rebuilt toy true 64) 0 (blocks [system_parameters_to_bytes sample_params; zeros 31]) (toy_stream 1) (IssuerNew (Block 0 0) 64 (Block 1 0) 31)) = true /\
  unwinds (@c_run (rebuilt toy false 64) 0 (blocks [system_parameters_to_bytes sample_params; zeros 31]) (toy_stream 1) (IssuerNew (Block 0 0) 64 (Block 1 0) 31)) = false.
Proof. split; [|split]; vm_compute; reflexivity. Qed.
