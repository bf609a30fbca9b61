(** The C, JavaScript and Swift calls do what the Rust functions do (C87). *)
From Verif Require Import PropertiesProofs PropertiesSignal PropertiesFfi PropertiesSerde PropertiesSwift Toy CreatedFacts FfiFacts SpecCalls ModelWasm ModelFfi ModelSwift.

(** ** C *)
Definition yields (m : memory) (os : rng) (s : step (buf_t * memory * rng)) (ser : bytes) (os' : rng) : Prop :=
  exists b m', call m os s = Returns b m' os' /\ after_return m ser b m'.

Lemma yields_then {A} m os (s : step A) k ser os' : (forall b, s = Return b -> b = zero_len_and_ptr) ->
  yields m os (then_ s k) ser os' <-> exists a, s = Next a /\ yields m os (k a) ser os'.
Proof.
  intros Hs. unfold yields. destruct s; cbn [then_]; split; try (intros (a' & H & K); injection H as ->; exact K);
    try (intros (a' & H & _); discriminate); try (intros (? & ? & H & _); discriminate).
  - intros H. exists a. split; [reflexivity|exact H].
  - rewrite (Hs b eq_refl). intros (? & ? & H & (_ & Hb & _)). cbn [call] in H. subst. discriminate.
Qed.
Lemma yields_ret m os os1 ser1 ser os' : ser1 <> [] ->
  yields m os (return_serialized m os1 ser1) ser os' <-> ser = ser1 /\ os' = os1.
Proof.
  intros Hne. destruct (return_serialized_next m os1 ser1) as [x Hx]. unfold yields. rewrite Hx.
  destruct (return_serialized_spec m os1 ser1 x Hne Hx) as (b & m' & -> & Ha). cbn [call]. split.
  - intros (b' & m'' & H & Hb). injection H as <- <- <-. split; [|reflexivity].
    destruct Ha as (_ & _ & Ha & _), Hb as (_ & _ & Hb & _). specialize (Ha (mem_next m)). specialize (Hb (mem_next m)).
    rewrite Nat.eqb_refl in *. congruence.
  - intros [-> ->]. eauto.
Qed.

Section c.
  Context {E : Ext} (L : ExtLaws E).
  Lemma yields_des {Er A} (g : bytes -> outcome Er A) m os len p k ser os' :
    yields m os (then_ (@deserialize_or_return E Er A g m len p) k) ser os' <->
    exists b a, @given E m p len b /\ g b = Ok a /\ yields m os (k a) ser os'.
  Proof.
    rewrite yields_then by (intros; eapply des_return; eassumption). setoid_rewrite des_next. split.
    - intros (a & (b & H1 & H2) & K). eauto.
    - intros (b & a & H1 & H2 & K). eauto.
  Qed.
  Lemma yields_slice m os len p k ser os' :
    yields m os (then_ (@len_and_ptr_to_slice E m len p) k) ser os' <->
    exists b, @given E m p len b /\ yields m os (k b) ser os'.
  Proof.
    rewrite yields_then by (intros ? H; apply slice_return in H; tauto). setoid_rewrite slice_next. reflexivity.
  Qed.
  Lemma yields_seed m os p k ser os' :
    yields m os (then_ (@csprng_from_seed E m p) k) ser os' <->
    exists b, given_seed m p b /\ yields m os (k (@chacha E b)) ser os'.
  Proof.
    rewrite yields_then by (intros ? H; apply (csprng_return L) in H; tauto). setoid_rewrite (csprng_next L). split.
    - intros (r & (b & H & ->) & K). eauto.
    - intros (b & H & K). eauto.
  Qed.
  Lemma yields_ok {Er A} m os (o : outcome Er A) k ser os' :
    yields m os (then_ (ok_or_return o) k) ser os' <-> exists a, o = Ok a /\ yields m os (k a) ser os'.
  Proof.
    rewrite yields_then by (intros ? H; apply ok_or_return_return in H; tauto). setoid_rewrite ok_or_return_next. reflexivity.
  Qed.
  Lemma user_nonempty (u : SignalUser E) : signal_user_to_bytes u <> [].
  Proof.
    unfold signal_user_to_bytes, phone_number_to_bytes. intros K. apply (f_equal (@List.length byte)) in K.
    rewrite app_length, scalar_to_bytes_length in K. cbn in K. lia.
  Qed.

  Lemma c_yields fuel m os f ser os' : ~ is_open f ->
    (exists b m', @c_run E fuel m os f = Returns b m' os' /\ after_return m ser b m') <->
    exists a, c_is E m f a /\ gives E fuel os a ser os'.
  Proof.
    intros Ho.
    assert (Y : forall s (P : Prop), (yields m os s ser os' <-> P) ->
      ((exists b m', call m os s = Returns b m' os' /\ after_return m ser b m') <-> P)) by (intros s P H; exact H).
    destruct f; cbn [c_run]; unfold c_system_parameters_create, c_issuer_create, c_issuer_new,
      c_issuer_get_issuer_parameters, c_issuer_issue, c_issuer_verify, c_issuer_verify_roster_membership,
      c_user_obtain_finish, c_user_show, c_roster_entry_commitment_create, c_roster_entry_commitment_remove_opening;
      try (apply Y; clear Y); [..|elim Ho; exact I]; clear Ho.
    - rewrite yields_seed. split.
      + intros (sb & G & H). exists (MakeParameters sb). split; [exact G|]. cbn [gives].
        destruct (hunt_and_peck fuel (chacha sb)) as [[params rest]|] eqn:Hh; [|destruct H as (? & ? & H & _); discriminate].
        apply yields_ret in H as [-> ->]; [eauto 6|]. eapply nonempty_length; [apply (system_parameters_length L)|lia].
      + intros (a & G & H). destruct a; try contradiction G. cbn [c_is gives] in *. destruct H as (params & rest & Hh & -> & ->).
        exists seed0. split; [exact G|]. rewrite Hh. apply yields_ret; [|auto].
        eapply nonempty_length; [apply (system_parameters_length L)|lia].
    - rewrite yields_seed. setoid_rewrite yields_des. split.
      + intros (sb & G & pb & p & G' & D & H). exists (MakeKeypair pb sb). split; [split; assumption|]. cbn [gives]. exists p.
        destruct (signal_issuer_create p (chacha sb)) as [i r]. apply yields_ret in H as [-> ->]; [auto|apply (keypair_nonempty L)].
      + intros (a & G & H). destruct a; try contradiction G. destruct G as [G1 G2], H as (p & D & -> & ->).
        exists seed0. split; [exact G2|]. exists params0, p. split; [exact G1|]. split; [exact D|].
        destruct (signal_issuer_create p (chacha seed0)) as [i r]. apply yields_ret; [apply (keypair_nonempty L)|auto].
    - rewrite yields_des. setoid_rewrite yields_des. split.
      + intros (pb & p & G & D & kb & k & G' & D' & H). exists (MakeIssuer pb kb). split; [split; assumption|]. exists p, k.
        apply yields_ret in H as [-> ->]; [auto|]. eapply nonempty_length; [apply (issuer_length L)|lia].
      + intros (a & G & H). destruct a; try contradiction G. destruct G as [G1 G2], H as (p & k & D & D' & -> & ->).
        exists params0, p. split; [exact G1|]. split; [exact D|]. exists keypair0, k. split; [exact G2|]. split; [exact D'|].
        apply yields_ret; [|auto]. eapply nonempty_length; [apply (issuer_length L)|lia].
    - rewrite yields_des.
      assert (N : forall b i, @signal_issuer_from_bytes E b = Ok i -> public_key_to_bytes (get_issuer_parameters i) <> []).
      { intros b i H. apply (issuer_keys_nonempty L) in H. eapply nonempty_length; [apply (public_key_length L)|].
        unfold get_issuer_parameters. destruct (pk_Xn _); [contradiction|cbn; lia]. }
      split.
      + intros (ib & i & G & D & H). exists (GetParameters ib). split; [assumption|]. exists i.
        apply yields_ret in H as [-> ->]; [auto|eapply N, D].
      + intros (a & G & H). destruct a; try contradiction G. destruct H as (i & D & -> & ->).
        exists issuer0, i. split; [exact G|]. split; [exact D|]. apply yields_ret; [eapply N, D|auto].
    - rewrite yields_des. setoid_rewrite yields_seed. setoid_rewrite yields_slice. setoid_rewrite yields_ok. split.
      + intros (ib & i & G & D & sb & G' & nb & G'' & [[iss r] o] & Hi & H). exists (Issue ib nb sb). split; [repeat (split; [assumption|]); assumption|].
        exists i, iss, r. apply yields_ret in H as [-> ->]; [auto|]. eapply nonempty_length; [apply (issuance_length L)|lia].
      + intros (a & G & H). destruct a; try contradiction G. destruct G as (G1 & G2 & G3), H as (i & iss & r & D & Hi & ->).
        exists issuer0, i. split; [exact G1|]. split; [exact D|]. exists seed0. split; [exact G3|]. exists number0. split; [exact G2|].
        eexists. split; [exact Hi|]. apply yields_ret; [|auto]. eapply nonempty_length; [apply (issuance_length L)|lia].
    - rewrite yields_des. setoid_rewrite yields_des. setoid_rewrite yields_ok. split.
      + intros (ib & i & G & D & pb & p & G' & D' & v & Hv & H). exists (Verify ib pb). split; [split; assumption|].
        exists i, p, v. apply yields_ret in H as [-> ->]; [auto 6|]. apply (signal_presentation_nonempty L).
      + intros (a & G & H). destruct a; try contradiction G. destruct G as (G1 & G2), H as (i & p & v & D & D' & Hv & -> & ->).
        exists issuer0, i. split; [exact G1|]. split; [exact D|]. exists presentation0, p. split; [exact G2|]. split; [exact D'|].
        exists v. split; [exact Hv|]. apply yields_ret; [|auto]. apply (signal_presentation_nonempty L).
    - rewrite yields_des. setoid_rewrite yields_des. setoid_rewrite yields_ok. split.
      + intros (ib & i & G & D & pb & p & G' & D' & v & Hv & H). exists (VerifyRoster ib pb). split; [split; assumption|].
        exists i, p, v. apply yields_ret in H as [-> ->]; [auto 6|]. apply (committed_nonempty L).
      + intros (a & G & H). destruct a; try contradiction G. destruct G as (G1 & G2), H as (i & p & v & D & D' & Hv & -> & ->).
        exists issuer0, i. split; [exact G1|]. split; [exact D|]. exists verified0, p. split; [exact G2|]. split; [exact D'|].
        exists v. split; [exact Hv|]. apply yields_ret; [|auto]. apply (committed_nonempty L).
    - rewrite yields_des. setoid_rewrite yields_des. setoid_rewrite yields_des. setoid_rewrite yields_slice. setoid_rewrite yields_ok. split.
      + intros (pb & p & G & D & kb & k & G' & D' & sb & s & G'' & D'' & nb & G3 & u & Hu & H).
        destruct (signal_obtain_finish u (Some s)) as [u' res] eqn:Hf. apply yields_ok in H as ([] & -> & H).
        exists (Obtain nb pb kb sb). split; [repeat (split; [assumption|]); assumption|]. exists p, k, s, u, u'.
        apply yields_ret in H as [-> ->]; [auto 10|]. apply user_nonempty.
      + intros (a & G & H). destruct a; try contradiction G. destruct G as (G1 & G2 & G3 & G4), H as (p & k & s & u & u' & D & D' & D'' & Hu & Hf & -> & ->).
        exists params0, p. split; [exact G2|]. split; [exact D|]. exists issuer_params0, k. split; [exact G3|]. split; [exact D'|].
        exists issuance0, s. split; [exact G4|]. split; [exact D''|]. exists number0. split; [exact G1|]. exists u. split; [exact Hu|].
        rewrite Hf. apply yields_ok. exists tt. split; [reflexivity|]. apply yields_ret; [apply user_nonempty|auto].
    - rewrite yields_seed. setoid_rewrite yields_des. setoid_rewrite yields_des. setoid_rewrite yields_ok. split.
      + intros (sb & G & ub & u & G' & D & eb & e & G'' & D' & [[p r] o] & Hs & H). exists (Show ub eb sb). split; [repeat (split; [assumption|]); assumption|].
        exists u, e, p, r. apply yields_ret in H as [-> ->]; [auto|]. apply (signal_presentation_nonempty L).
      + intros (a & G & H). destruct a; try contradiction G. destruct G as (G1 & G2 & G3), H as (u & e & p & r & D & D' & Hs & ->).
        exists seed0. split; [exact G3|]. exists user0, u. split; [exact G1|]. split; [exact D|]. exists entry0, e. split; [exact G2|].
        split; [exact D'|]. eexists. split; [exact Hs|]. apply yields_ret; [|auto]. apply (signal_presentation_nonempty L).
    - rewrite yields_seed. setoid_rewrite yields_slice. setoid_rewrite yields_des. setoid_rewrite yields_ok. split.
      + intros (sb & G & nb & G' & pb & p & G'' & D & [e r] & He & H). exists (MakeEntry nb pb sb). split; [repeat (split; [assumption|]); assumption|].
        exists p, e, r. apply yields_ret in H as [-> ->]; [auto|]. eapply nonempty_length; [apply (roster_length L)|lia].
      + intros (a & G & H). destruct a; try contradiction G. destruct G as (G1 & G2 & G3), H as (p & e & r & D & He & -> & ->).
        exists seed0. split; [exact G3|]. exists number0. split; [exact G1|]. exists params0, p. split; [exact G2|]. split; [exact D|].
        eexists. split; [exact He|]. apply yields_ret; [|auto]. eapply nonempty_length; [apply (roster_length L)|lia].
    - rewrite yields_des. split.
      + intros (eb & e & G & D & H). exists (RemoveOpening eb). split; [exact G|]. exists e.
        apply yields_ret in H as [-> ->]; [auto|]. apply (committed_nonempty L).
      + intros (a & G & H). destruct a; try contradiction G. destruct H as (e & D & -> & ->). exists entry0, e. split; [exact G|].
        split; [exact D|]. apply yields_ret; [apply (committed_nonempty L)|auto].
  Qed.
End c.

(** A C call returns a buffer in which there were the bytes [ser], and leaves
    [os'], exactly when its arguments are given and the Rust functions compute
    [ser] of them and leave [os']. *)
Theorem C87_c_calls : forall E, ExtLaws E -> forall fuel m os f ser os', ~ is_open f ->
  (exists b m', @c_run E fuel m os f = Returns b m' os' /\ last_contents m' (buf_ptr b) (buf_len b) = Some ser) <->
  exists a, c_is E m f a /\ gives E fuel os a ser os'.
Proof.
  intros E L fuel m os f ser os' Ho. rewrite <- (c_yields L fuel m os f ser os' Ho). split; intros (b & m' & H & K); exists b, m'; (split; [exact H|]).
  - apply (c_run_returns L) in H as [(ser' & H)|[[-> ->]|(H & _)]]; [|discriminate|contradiction].
    replace ser with ser'; [exact H|]. destruct H as (_ & -> & Hm & _). cbn [last_contents buf_ptr buf_len] in K.
    rewrite Hm, Nat.eqb_refl, Z.eqb_refl in K. congruence.
  - destruct K as (_ & -> & Hm & _). cbn [last_contents buf_ptr buf_len]. rewrite Hm, Nat.eqb_refl, Z.eqb_refl. reflexivity.
Qed.
Print Assumptions C87_c_calls.

Lemma c_cases {E} (L : ExtLaws E) fuel m os f b m' os' : ~ is_open f -> @c_run E fuel m os f = Returns b m' os' ->
  (exists a ser, c_is E m f a /\ gives E fuel os a ser os' /\ after_return m ser b m') \/
  (b = zero_len_and_ptr /\ m' = m /\ os' = os /\ forall a, c_is E m f a -> gives_nothing E fuel os a).
Proof.
  intros Ho H. destruct (c_run_body L fuel m os f) as (s & Hs & He). pose proof H as Hr. rewrite Hs in H.
  apply call_returns in H as [->|(-> & -> & ->)]; cbn [ends_well] in He.
  - destruct He as [[ser Ha]|[K _]]; [|contradiction]. left.
    destruct (proj1 (c_yields L fuel m os f ser os' Ho) (ex_intro _ b (ex_intro _ m' (conj Hr Ha)))) as (a & H1 & H2). eauto.
  - right. split; [exact He|]. split; [reflexivity|]. split; [reflexivity|]. intros a Ha ser os1 Hg.
    destruct (proj2 (c_yields L fuel m os f ser os1 Ho) (ex_intro _ a (conj Ha Hg))) as (b1 & m1 & H1 & _ & -> & _). subst b. rewrite H1 in Hr. injection Hr as Hr. discriminate.
Qed.
(** Any other call which returns, returns the empty buffer and changes nothing:
    the Rust functions compute nothing of its arguments. *)
Theorem C87_c_otherwise : forall E, ExtLaws E -> forall fuel m os f b m' os', ~ is_open f ->
  @c_run E fuel m os f = Returns b m' os' ->
  (exists ser, last_contents m' (buf_ptr b) (buf_len b) = Some ser) \/
  (b = {| buf_len := 0; buf_ptr := Static |} /\ m' = m /\ os' = os /\ forall a, c_is E m f a -> gives_nothing E fuel os a).
Proof.
  intros E L fuel m os f b m' os' Ho H. destruct (c_cases L _ _ _ _ _ _ _ Ho H) as [(a & ser & _ & _ & _ & -> & Hm & _)|K]; [left|right; exact K].
  exists ser. cbn [last_contents buf_ptr buf_len]. rewrite Hm, Nat.eqb_refl, Z.eqb_refl. reflexivity.
Qed.
Print Assumptions C87_c_otherwise.

(** ** JavaScript *)
Lemma numbers_inj a b : numbers a = numbers b -> a = b.
Proof.
  unfold numbers. intros H. injection H as H. revert b H. induction a as [|x a IH]; intros [|y b] H; try discriminate; [reflexivity|].
  cbn [map] in H. injection H as Hx H. apply (f_equal zb) in Hx. rewrite !zb_bz in Hx. f_equal; [exact Hx|]. apply IH, H.
Qed.
Definition jyields (os : rng) (s : js_step (json * rng)) (ser : bytes) (os' : rng) : Prop :=
  js_call os s = JsReturns (numbers ser) os'.
Lemma jyields_then {A} os (s : js_step A) k ser os' : (forall v, s = JsReturn v -> v = js_zero) ->
  jyields os (js_then s k) ser os' <-> exists a, s = JsNext a /\ jyields os (k a) ser os'.
Proof.
  intros Hs. unfold jyields. destruct s; cbn [js_then js_call]; split; try (intros (? & H & _); discriminate); try discriminate.
  - intros H; eauto.
  - intros (? & [= <-] & H). exact H.
  - rewrite (Hs v eq_refl). discriminate.
Qed.
Lemma jyields_ok {Er A} os (o : outcome Er A) k ser os' :
  jyields os (js_then (js_ok_or_return o) k) ser os' <-> exists a, o = Ok a /\ jyields os (k a) ser os'.
Proof.
  rewrite jyields_then by (destruct o; cbn; intros ? [=]; auto).
  destruct o; cbn [js_ok_or_return]; split; intros (x & H & K); try discriminate; injection H as ->; eauto.
Qed.
Section js.
  Context {E : Ext}.
  Lemma jyields_seed os s k ser os' :
    jyields os (js_then (@js_csprng_from_seed E s) k) ser os' <-> (List.length s = 32%nat /\ jyields os (k (@chacha E s)) ser os').
  Proof.
    unfold js_csprng_from_seed, js_slice_to_array, to_array. destruct (Nat.eqb_spec (List.length s) 32) as [H|H]; cbn [negb or_panic js_ok_or_return js_then].
    - tauto.
    - split; [discriminate|]. intros [? _]; contradiction.
  Qed.
  Lemma jyields_into t os v k ser os' :
    jyields os (js_then (@into_serde E t v) k) ser os' <->
    exists b a, text v b /\ cd_from_bytes (codec_of E t) b = Ok a /\ jyields os (k a) ser os'.
  Proof.
    unfold into_serde. rewrite jyields_ok. split.
    - intros (a & H & K). apply C51_reads_strings in H as (s & -> & H). exists (utf8 s), a. split; [exists s; auto|auto].
    - intros (b & a & (s & -> & ->) & H & K). exists a. split; [exact H|exact K].
  Qed.
  Lemma jyields_ret t os os1 x ser os' :
    jyields os (@from_serde E t os1 x) ser os' <-> (ser = cd_to_bytes (codec_of E t) x /\ os' = os1).
  Proof.
    unfold jyields, from_serde. cbn [js_call]. split.
    - intros H. injection H as H <-. split; [|reflexivity]. symmetry. apply numbers_inj. exact (f_equal JArray H).
    - intros [-> ->]. reflexivity.
  Qed.
  Lemma mapped_ok {Er A} (o : outcome Er A) a : map_err (fun _ => tt) o = Ok a <-> o = Ok a.
  Proof. destruct o; cbn; split; congruence. Qed.

  Ltac fin := repeat first [assumption | reflexivity | split].
  Ltac unm D := cbn [cd_from_bytes codec_of make_codec cd_value] in D; apply (proj1 (mapped_ok _ _)) in D.
  Lemma js_yields fuel os f ser os' :
    @js_run E fuel os f = JsReturns (numbers ser) os' <-> exists a, js_is f a /\ gives E fuel os a ser os'.
  Proof.
    destruct f; cbn [js_run]; unfold js_system_parameters_create, js_issuer_create, js_issuer_get_issuer_parameters, js_issuer_new,
      js_issuer_issue, js_issuer_verify, js_issuer_verify_roster_membership, js_user_obtain_finish, js_user_show;
      match goal with |- js_call ?os ?s = _ <-> ?P => change (jyields os s ser os' <-> P) end.
    - split.
      + intros H. destruct (Nat.eqb_spec (List.length seed) 32) as [Hs|Hs]; cbn [negb] in H; [|discriminate].
        apply jyields_seed in H as [_ H]. exists (MakeParameters seed). split; [split; [intros s [= <-]; exact Hs|reflexivity]|].
        destruct (hunt_and_peck fuel (chacha seed)) as [[p r]|] eqn:Hh; [|discriminate]. apply jyields_ret in H as [-> ->].
        exists p, r. auto.
      + intros (a & [Hs G] & H). destruct a; try contradiction G. subst seed0. specialize (Hs _ eq_refl). rewrite Hs. cbn [Nat.eqb negb].
        apply jyields_seed. split; [exact Hs|]. destruct H as (p & r & Hh & -> & ->). rewrite Hh. apply jyields_ret. auto.
    - rewrite jyields_seed. setoid_rewrite (jyields_into TSystemParameters). split.
      + intros (Hs & pb & p & G & D & H). unm D. exists (MakeKeypair pb seed).
        split; [split; [intros s [= <-]; exact Hs|split; [exact G|reflexivity]]|]. exists p.
        destruct (signal_issuer_create p (chacha seed)) as [i r]. apply (jyields_ret TKeypair) in H as [-> ->]. fin.
      + intros (a & [Hs G] & H). destruct a; try contradiction G. destruct G as [G <-], H as (p & D & -> & ->).
        split; [apply (Hs _ eq_refl)|]. exists params0, p. split; [exact G|]. split; [apply mapped_ok, D|].
        destruct (signal_issuer_create p (chacha seed)) as [i r]. apply (jyields_ret TKeypair). fin.
    - rewrite (jyields_into TSignalIssuer). split.
      + intros (ib & i & G & D & H). unm D. exists (GetParameters ib). split; [split; [intros s [=]|exact G]|].
        exists i. apply (jyields_ret TPublicKey) in H as [-> ->]. fin.
      + intros (a & [_ G] & H). destruct a; try contradiction G. destruct H as (i & D & -> & ->).
        exists issuer0, i. split; [exact G|]. split; [apply mapped_ok, D|]. apply (jyields_ret TPublicKey). fin.
    - rewrite (jyields_into TSystemParameters). setoid_rewrite (jyields_into TKeypair). split.
      + intros (pb & p & G & D & kb & k & G' & D' & H). unm D. unm D'. exists (MakeIssuer pb kb).
        split; [split; [intros s [=]|split; [exact G|exact G']]|]. exists p, k. apply (jyields_ret TSignalIssuer) in H as [-> ->]. fin.
      + intros (a & [_ G] & H). destruct a; try contradiction G. destruct G as [G1 G2], H as (p & k & D & D' & -> & ->).
        exists params0, p. split; [exact G1|]. split; [apply mapped_ok, D|]. exists keypair0, k. split; [exact G2|]. split; [apply mapped_ok, D'|].
        apply (jyields_ret TSignalIssuer). fin.
    - rewrite jyields_seed. setoid_rewrite (jyields_into TSignalIssuer). setoid_rewrite jyields_ok. split.
      + intros (Hs & ib & i & G & D & [[iss r] o] & Hi & H). unm D. exists (Issue ib number seed).
        split; [split; [intros s [= <-]; exact Hs|split; [exact G|split; reflexivity]]|]. exists i, iss, r.
        apply (jyields_ret TCredentialIssuance) in H as [-> ->]. fin.
      + intros (a & [Hs G] & H). destruct a; try contradiction G. destruct G as (G & <- & <-), H as (i & iss & r & D & Hi & ->).
        split; [apply (Hs _ eq_refl)|]. exists issuer0, i. split; [exact G|]. split; [apply mapped_ok, D|].
        eexists. split; [exact Hi|]. apply (jyields_ret TCredentialIssuance). fin.
    - rewrite (jyields_into TSignalIssuer). setoid_rewrite (jyields_into TSignalCredentialPresentation).
      setoid_rewrite jyields_ok. split.
      + intros (ib & i & G & D & pb & p & G' & D' & v & Hv & H). unm D. unm D'. exists (Verify ib pb).
        split; [split; [intros s [=]|split; [exact G|exact G']]|]. exists i, p, v.
        apply (jyields_ret TVerifiedSignalCredential) in H as [-> ->]. fin.
      + intros (a & [_ G] & H). destruct a; try contradiction G. destruct G as [G1 G2], H as (i & p & v & D & D' & Hv & -> & ->).
        exists issuer0, i. split; [exact G1|]. split; [apply mapped_ok, D|]. exists presentation0, p. split; [exact G2|].
        split; [apply mapped_ok, D'|]. exists v. split; [exact Hv|]. apply (jyields_ret TVerifiedSignalCredential). fin.
    - rewrite (jyields_into TSignalIssuer). setoid_rewrite (jyields_into TVerifiedSignalCredential).
      setoid_rewrite jyields_ok. split.
      + intros (ib & i & G & D & pb & p & G' & D' & v & Hv & H). unm D. unm D'. exists (VerifyRoster ib pb).
        split; [split; [intros s [=]|split; [exact G|exact G']]|]. exists i, p, v.
        apply (jyields_ret TCommittedPhoneNumber) in H as [-> ->]. fin.
      + intros (a & [_ G] & H). destruct a; try contradiction G. destruct G as [G1 G2], H as (i & p & v & D & D' & Hv & -> & ->).
        exists issuer0, i. split; [exact G1|]. split; [apply mapped_ok, D|]. exists verified0, p. split; [exact G2|].
        split; [apply mapped_ok, D'|]. exists v. split; [exact Hv|]. apply (jyields_ret TCommittedPhoneNumber). fin.
    - rewrite (jyields_into TSystemParameters). setoid_rewrite (jyields_into TPublicKey).
      setoid_rewrite jyields_ok. setoid_rewrite (jyields_into TCredentialIssuance). split.
      + intros (pb & p & G & D & kb & k & G' & D' & u & Hu & sb & s & G'' & D'' & H). unm D. unm D'. unm D''.
        destruct (signal_obtain_finish u (Some s)) as [u' res] eqn:Hf. apply jyields_ok in H as ([] & -> & H).
        exists (Obtain number pb kb sb). split; [split; [intros ? [=]|split; [reflexivity|split; [exact G|split; [exact G'|exact G'']]]]|].
        exists p, k, s, u, u'. apply (jyields_ret TSignalUser) in H as [-> ->]. fin.
      + intros (a & [_ G] & H). destruct a; try contradiction G.
        destruct G as (<- & G2 & G3 & G4), H as (p & k & s & u & u' & D & D' & D'' & Hu & Hf & -> & ->).
        exists params0, p. split; [exact G2|]. split; [apply mapped_ok, D|]. exists issuer_params0, k. split; [exact G3|].
        split; [apply mapped_ok, D'|]. exists u. split; [exact Hu|]. exists issuance0, s. split; [exact G4|]. split; [apply mapped_ok, D''|].
        match goal with |- context [signal_obtain_finish ?a ?b] => replace (signal_obtain_finish a b) with (u', @Ok CredentialError unit tt) by (symmetry; exact Hf) end. apply jyields_ok. exists tt. split; [reflexivity|]. apply (jyields_ret TSignalUser). fin.
    - rewrite jyields_seed. setoid_rewrite (jyields_into TSignalUser).
      setoid_rewrite (jyields_into TRosterEntryCommitment). setoid_rewrite jyields_ok. split.
      + intros (Hs & ub & u & G & D & eb & e & G' & D' & [[p r] o] & Hi & H). unm D. unm D'. exists (Show ub eb seed).
        split; [split; [intros s [= <-]; exact Hs|split; [exact G|split; [exact G'|reflexivity]]]|]. exists u, e, p, r.
        apply (jyields_ret TSignalCredentialPresentation) in H as [-> ->]. fin.
      + intros (a & [Hs G] & H). destruct a; try contradiction G. destruct G as (G1 & G2 & <-), H as (u & e & p & r & D & D' & Hi & ->).
        split; [apply (Hs _ eq_refl)|]. exists user0, u. split; [exact G1|]. split; [apply mapped_ok, D|]. exists entry0, e.
        split; [exact G2|]. split; [apply mapped_ok, D'|]. eexists. split; [exact Hi|]. apply (jyields_ret TSignalCredentialPresentation). fin.
  Qed.
End js.

(** A JavaScript call returns the array of the bytes [ser], and leaves [os'],
    exactly when its arguments are strings, its seed has 32 bytes, and the Rust
    functions compute [ser] of the UTF-8 bytes of the strings and leave [os']. *)
Theorem C87_js_calls : forall E fuel os f ser os',
  @js_run E fuel os f = JsReturns (numbers ser) os' <-> exists a, js_is f a /\ gives E fuel os a ser os'.
Proof. intros E. exact js_yields. Qed.
Print Assumptions C87_js_calls.

Definition js_ends_well (s : js_step (json * rng)) : Prop :=
  match s with
  | JsNext (v, _) => exists ser, v = numbers ser
  | JsReturn v => v = js_zero
  | _ => True
  end.
Lemma js_ends_then {A} (s : js_step A) k : (forall v, s = JsReturn v -> v = js_zero) ->
  (forall a, js_ends_well (k a)) -> js_ends_well (js_then s k).
Proof. destruct s; cbn; auto. Qed.
Lemma js_ends_ret {E} t os (x : cd_value (codec_of E t)) : js_ends_well (from_serde t os x).
Proof. exists (cd_to_bytes (codec_of E t) x). reflexivity. Qed.
Lemma js_early_ok {Er A} (o : outcome Er A) v : js_ok_or_return o = JsReturn v -> v = js_zero.
Proof. destruct o; cbn; intros [=]; auto. Qed.
Lemma js_early_seed {E} s v : @js_csprng_from_seed E s = JsReturn v -> v = js_zero.
Proof.
  unfold js_csprng_from_seed, js_slice_to_array, to_array.
  destruct (List.length s =? 32)%nat; cbn; intros [=]; auto.
Qed.
(** Any other call which returns, returns 0 and draws nothing. *)
Theorem C87_js_otherwise : forall E fuel os f v os', @js_run E fuel os f = JsReturns v os' ->
  (exists ser, v = numbers ser) \/ (v = JNumber 0 /\ os' = os /\ forall a, js_is f a -> gives_nothing E fuel os a).
Proof.
  intros E fuel os f v os' H.
  assert (K : exists s, @js_run E fuel os f = js_call os s /\ js_ends_well s).
  { destruct f; cbn [js_run]; unfold js_system_parameters_create, js_issuer_create, js_issuer_get_issuer_parameters, js_issuer_new,
      js_issuer_issue, js_issuer_verify, js_issuer_verify_roster_membership, js_user_obtain_finish, js_user_show;
      (eexists; split; [reflexivity|]);
      repeat match goal with
      | |- js_ends_well (if negb ?x then _ else _) => destruct x; cbn [negb]; [|reflexivity]
      | |- js_ends_well (js_then _ _) => apply js_ends_then; [first [apply js_early_ok|apply js_early_seed]|intros]
      | |- js_ends_well (match ?x with _ => _ end) => destruct x
      | |- js_ends_well (from_serde _ _ _) => apply js_ends_ret
      | |- js_ends_well JsLooping => exact I
      end. }
  destruct K as (s & Hs & K). pose proof H as Hr. rewrite Hs in H. destruct s as [[v1 o]|v1| |]; cbn [js_call js_ends_well] in *; try discriminate.
  - left. injection H as <- _. exact K.
  - right. injection H as <- <-. split; [exact K|]. split; [reflexivity|]. intros a Ha ser os1 Hg.
    pose proof (proj2 (js_yields fuel os f ser os1) (ex_intro _ a (conj Ha Hg))) as H1. rewrite Hr, K in H1. discriminate.
Qed.
Print Assumptions C87_js_otherwise.

(** ** Swift *)
Section swift.
  Context {E : Ext} (L : ExtLaws E).

  Lemma given_passed m p b : passed m p b -> fits E b ->
    forall b', @given E m p (sw_count b) b' <-> (b <> [] /\ b' = b).
  Proof.
    intros Hq Hf b'. rewrite <- (slice_next (E := E)), (passed_slice L _ _ _ Hq Hf). destruct b; split; try discriminate.
    - intros [? _]; contradiction.
    - intros [= <-]. split; [discriminate|reflexivity].
    - intros [_ ->]. reflexivity.
  Qed.
  Lemma seed_passed m p b : passed m p b -> List.length b = 32%nat -> forall b', given_seed m p b' <-> b' = b.
  Proof.
    intros Hq Hl b'. pose proof (passed_read _ _ _ Hq) as Hr. rewrite Hl in Hr. unfold given_seed. rewrite Hr. split.
    - intros [_ [= ->]]. reflexivity.
    - intros ->. split; [eapply passed_not_null, Hq|reflexivity].
  Qed.
  Lemma passed_readable m p b : passed m p b -> fits E b -> missing (p, Some (sw_count b)) \/ readable E m (p, Some (sw_count b)).
  Proof.
    intros Hq Hf. right. exists b. cbn [fst snd]. unfold as_size_t, sw_count. rewrite Z.mod_small; [|split; [lia|exact Hf]].
    rewrite Nat2Z.id. apply passed_read, Hq.
  Qed.
  Lemma passed_seed_readable m p b : passed m p b -> List.length b = 32%nat -> missing (p, None) \/ readable E m (p, None).
  Proof. intros Hq Hl. right. exists b. cbn [fst snd]. rewrite <- Hl. apply passed_read, Hq. Qed.

  Lemma loops_then {A B} (s : step A) (k : A -> step B) : s <> Looping -> (forall a, k a <> Looping) -> then_ s k <> Looping.
  Proof. destruct s; cbn [then_]; auto; discriminate. Qed.
  Lemma loops_slice m len p : @len_and_ptr_to_slice E m len p <> Looping.
  Proof. unfold len_and_ptr_to_slice. destruct (_ || _); [discriminate|]. destruct (read _ _ _); discriminate. Qed.
  Lemma loops_ok {Er A} (o : outcome Er A) : ok_or_return o <> Looping.
  Proof. destruct o; discriminate. Qed.
  Lemma loops_seed m p : @csprng_from_seed E m p <> Looping.
  Proof. rewrite (csprng_eq L). destruct (is_null p); [discriminate|]. destruct (read _ _ _); discriminate. Qed.
  Lemma loops_ret m os ser : return_serialized m os ser <> Looping.
  Proof. destruct (return_serialized_next m os ser) as [x ->]. discriminate. Qed.
  Lemma c_running fuel m os f : @c_run E fuel m os f = Running -> exists s, f = SystemParametersCreate s.
  Proof.
    assert (C : forall s, call m os s = Running -> s = Looping) by (intros [[[? ?] ?]| | | |]; cbn [call]; congruence).
    destruct f; cbn [c_run]; intros H; [eauto|exfalso..]; revert H;
      unfold c_issuer_create, c_issuer_new,
      c_issuer_get_issuer_parameters, c_issuer_issue, c_issuer_verify, c_issuer_verify_roster_membership,
      c_user_obtain_finish, c_user_show, c_roster_entry_commitment_create, c_roster_entry_commitment_remove_opening,
      c_roster_entry_commitment_open, deserialize_or_return; intros H; apply C in H; revert H;
      repeat match goal with
      | |- then_ _ _ = Looping -> False => apply loops_then; [|intros]
      | |- then_ _ _ <> Looping => apply loops_then; [|intros]
      | |- len_and_ptr_to_slice _ _ _ <> Looping => apply loops_slice
      | |- ok_or_return _ <> Looping => apply loops_ok
      | |- csprng_from_seed _ _ <> Looping => apply loops_seed
      | |- return_serialized _ _ _ <> Looping => apply loops_ret
      | |- (match ?x with _ => _ end) <> Looping => destruct x
      | |- Next _ <> Looping => discriminate
      | |- Unwinding <> Looping => discriminate
      end.
  Qed.

  (** A Swift function does what its C call does. *)
  Lemma sw_call {A} reuse fuel m os f a (k : bytes -> A) : ~ is_open f ->
    (forall x, In x (c_arguments f) -> missing x \/ readable E m x) ->
    (forall a', c_is E m f a' <-> (a' = a /\ Forall (fun b => b <> []) (strings_of a))) ->
    sw_does E reuse fuel os a k
      (sw_after (@c_run E fuel m os f) (fun buffer m os => sw_read reuse m buffer (fun data => SwReturns (k data) os))).
  Proof.
    intros Ho Hread Hc.
    assert (D : Forall (fun b : bytes => b <> []) (strings_of a) \/ Exists (fun b => b = []) (strings_of a)).
    { generalize (strings_of a) as l. clear. intros l. induction l as [|b l IH]; [left; constructor|]. destruct b; [right; constructor; reflexivity|].
      destruct IH as [IH|IH]; [left; constructor; [discriminate|exact IH]|right; constructor 2; exact IH]. }
    destruct (@c_run E fuel m os f) as [b m' os'| | |] eqn:Hr; cbn [sw_after].
    - destruct (c_cases L _ _ _ _ _ _ _ Ho Hr) as [(a' & ser & H1 & H2 & Hne & -> & Hm & _)|(-> & -> & -> & Hn)].
      + apply Hc in H1 as [-> Hall]. left. exists (mem_next m), ser, os'. split; [exact Hall|]. split; [exact H2|].
        unfold sw_read, sw_array. cbn [buf_len buf_ptr]. rewrite Hm, Nat.eqb_refl, Nat2Z.id. reflexivity.
      + right; left. split; [left; reflexivity|]. destruct D as [D|D]; [right|left; exact D]. apply Hn, Hc. auto.
    - right; left. split; [right; reflexivity|]. destruct D as [D|D]; [right|left; exact D]. intros ser os1 Hg.
      destruct (proj2 (c_yields L fuel m os f ser os1 Ho)) as (b & m' & K & _); [exists a; split; [apply Hc; auto|exact Hg]|]. congruence.
    - elim (C50_defined E L fuel m os f Hread Hr).
    - right; right. split; [reflexivity|]. pose proof (c_running _ _ _ _ Hr) as [s ->].
      cbn [c_run] in Hr. unfold c_system_parameters_create in Hr.
      destruct (Hread _ (or_introl eq_refl)) as [[K|K]|[b K]]; cbn [fst snd] in K; [| discriminate |].
      { rewrite (csprng_eq L), K in Hr. discriminate. }
      destruct (is_null s) eqn:Hn; rewrite (csprng_eq L), Hn in Hr; [discriminate|]. rewrite K in Hr. cbn [then_] in Hr.
      assert (Ha : c_is E m (SystemParametersCreate s) (MakeParameters b)) by (split; [intros ->; discriminate|exact K]).
      apply Hc in Ha as [<- _]. exists b. split; [reflexivity|].
      destruct (hunt_and_peck fuel (chacha b)) as [[p r]|]; [|reflexivity].
      destruct (return_serialized_next m os (system_parameters_to_bytes p)) as [[[? ?] ?] Hx]. rewrite Hx in Hr. discriminate.
  Qed.
End swift.

Ltac args L := cbn [c_arguments In];
  let x := fresh in intros x;
  repeat (intros [<-|?]; [first [eapply passed_readable; eassumption | eapply passed_seed_readable; eassumption]|]; match goal with H : _ |- _ => revert H end);
  intros [].
Ltac calls L Hs :=
  let a' := fresh "a'" in intros a';
  destruct a'; cbn [c_is strings_of]; try (split; [contradiction|let H := fresh in intros [H _]; discriminate]);
  repeat match goal with
    | V : passed ?m ?p ?b |- context [@given _ ?m ?p (sw_count ?b) _] => setoid_rewrite (given_passed L _ _ _ V ltac:(assumption))
    | V : passed ?m ?p ?b |- context [given_seed ?m ?p _] => setoid_rewrite (seed_passed _ _ _ V Hs)
    end;
  let K := fresh in
  split; [intros K; repeat match goal with H : _ /\ _ |- _ => destruct H end; subst; split; [reflexivity|repeat (constructor; [assumption|]); constructor]
         |intros [K ?]; injection K; intros; subst;
          repeat match goal with H : Forall _ (_ :: _) |- _ => apply Forall_cons_iff in H as [? H] end;
          repeat split; assumption].
(** The Swift functions, given arrays which fit in memory and seeds of 32 bytes. *)
Theorem C87_swift_calls : forall E, ExtLaws E -> forall reuse fuel m os issuer seed number params issuer_params keypair issuance presentation user entry,
  List.length seed = 32%nat ->
  Forall (fits E) [sw_data issuer; number; params; issuer_params; keypair; issuance; presentation; user; entry] ->
  sw_does E reuse fuel os (MakeParameters seed) Some (@sw_system_parameters_create E reuse fuel m os seed) /\
  sw_does E reuse fuel os (MakeEntry number params seed) Some (@sw_roster_entry_with_seed E reuse m os seed number params) /\
  sw_does E reuse fuel os (MakeIssuer params keypair) (fun d => {| sw_keypair := keypair; sw_data := d |})
    (@sw_issuer_with_keypair E reuse m os keypair params) /\
  sw_does E reuse fuel os (GetParameters (sw_data issuer)) SwIssuerParameters_withBytes (@sw_get_parameters E reuse m os issuer) /\
  sw_does E reuse fuel os (Issue (sw_data issuer) number seed) SwIssuance_withBytes (@sw_issue E reuse m os issuer number seed) /\
  sw_does E reuse fuel os (Verify (sw_data issuer) presentation) SwVerified_withBytes (@sw_verify E reuse m os issuer presentation) /\
  sw_does E reuse fuel os (Obtain number params issuer_params issuance) Some
    (@sw_user_init E reuse m os number params issuer_params issuance) /\
  sw_does E reuse fuel os (Show user entry seed) SwPresentation_withBytes (@sw_show E reuse m os user entry seed).
Proof.
  intros E L reuse fuel m os issuer seed number params issuer_params keypair issuance presentation user entry Hs Hf.
  repeat match goal with H : Forall _ (_ :: _) |- _ => apply Forall_cons_iff in H as [? H] end. clear Hf.
  assert (S0 : negb (List.length seed =? 32)%nat = false) by (rewrite Hs; reflexivity).
  unfold sw_system_parameters_create, sw_roster_entry_with_seed, sw_issuer_with_keypair, sw_get_parameters, sw_issue, sw_verify,
    sw_user_init, sw_show. rewrite S0.
  split; [|split; [|split; [|split; [|split; [|split; [|split]]]]]]; pass.
  - apply (sw_call L reuse fuel m0 os (SystemParametersCreate p)); [intros []|args L|calls L Hs].
  - apply (sw_call L reuse fuel m2 os (RosterEntryCommitmentCreate p _ p0 _ p1)); [intros []|args L|calls L Hs].
  - apply (sw_call L reuse fuel m1 os (IssuerNew p _ p0 _)); [intros []|args L|calls L Hs].
  - apply (sw_call L reuse fuel m0 os (IssuerGetIssuerParameters p _)); [intros []|args L|calls L Hs].
  - apply (sw_call L reuse fuel m2 os (IssuerIssue p _ p0 _ p1)); [intros []|args L|calls L Hs].
  - apply (sw_call L reuse fuel m1 os (IssuerVerify p _ p0 _)); [intros []|args L|calls L Hs].
  - apply (sw_call L reuse fuel m3 os (UserObtainFinish p _ p0 _ p1 _ p2 _)); [intros []|args L|calls L Hs].
  - apply (sw_call L reuse fuel m2 os (UserShow p _ p0 _ p1)); [intros []|args L|calls L Hs].
Qed.
Print Assumptions C87_swift_calls.

(** [SignalIssuer.init?(withSeed:)] makes two calls: the keypair is made of what
    is found where the first put it, and the issuer is made from that. *)
Theorem C87_swift_issuer_with_seed : forall E, ExtLaws E -> forall reuse fuel m os seed params,
  List.length seed = 32%nat -> fits E params ->
  exists d keypair, sw_does E reuse fuel os (MakeKeypair params seed) (fun d => d) (SwReturns d os) /\
    SwKeypair_withBytes d = Some keypair /\
    sw_does E reuse fuel os (MakeIssuer params keypair) (fun d => Some {| sw_keypair := keypair; sw_data := d |})
      (@sw_issuer_with_seed E reuse m os seed params).
Proof.
  intros E L reuse fuel m os seed params Hs Hf.
  assert (S0 : negb (List.length seed =? 32)%nat = false) by (rewrite Hs; reflexivity).
  unfold sw_issuer_with_seed. rewrite S0. pass.
  set (f := IssuerCreate p (sw_count params) p0).
  assert (K : sw_does E reuse fuel os (MakeKeypair params seed) (fun d => d)
    (sw_after (@c_run E fuel m1 os f) (fun buffer m os => sw_read reuse m buffer (fun data => SwReturns data os)))).
  { unfold f. apply (sw_call L reuse fuel m1 os (IssuerCreate p (sw_count params) p0)); [intros []|args L|calls L Hs]. }
  assert (U : @c_run E fuel m1 os f <> Unwinds) by (intros U; apply (C49_unwinds_exactly E L) in U; exact U).
  assert (R : @c_run E fuel m1 os f <> Running) by (intros R0; apply (c_running L) in R0 as [? R0]; discriminate R0).
  assert (B : @c_run E fuel m1 os f <> UndefinedBehaviour) by (apply (C50_defined E L); unfold f; args L).
  change (@c_issuer_create E m1 os p (sw_count params) p0) with (@c_run E fuel m1 os f).
  destruct (@c_run E fuel m1 os f) as [b m' os'| | |] eqn:Hr; try contradiction. clear U R B.
  cbn [sw_after] in K |- *. unfold sw_read in K |- *.
  destruct (c_cases L fuel m1 os f b m' os' (fun x => x) Hr) as [(a' & ser & H1 & H2 & Hne & -> & Hm & _)|(-> & -> & -> & Hn)].
  - assert (Ho : os' = os) by (destruct a'; try contradiction H1; destruct H2 as (? & _ & _ & ->); reflexivity). subst os'.
    unfold sw_array in *. cbn [buf_len buf_ptr] in *. rewrite Hm, Nat.eqb_refl in *.
    match goal with |- context [SwKeypair_withBytes ?x] => set (d := x) in * end.
    assert (Hd : exists keypair, SwKeypair_withBytes d = Some keypair /\ fits E keypair).
    { unfold SwKeypair_withBytes, sw_init_with_bytes, SW_LENGTH_ISSUER_KEYPAIR.
      destruct (Nat.eqb_spec (List.length d) 96) as [He|He]; eexists; (split; [reflexivity|]); unfold fits;
        [rewrite He|rewrite zeros_length]; destruct (usize_bits_cases E L) as [-> | ->]; reflexivity. }
    destruct Hd as (keypair & Hk & Hfk). exists d, keypair. split; [exact K|]. split; [exact Hk|]. rewrite Hk. pass.
    apply (sw_call L reuse fuel m3 os (IssuerNew p1 _ p2 _)); [intros []|args L|calls L Hs].
  - unfold sw_array in *. cbn [buf_len buf_ptr zero_len_and_ptr slice_to_len_and_ptr Z.to_nat Nat.eqb Z.of_nat] in *.
    exists [], (zeros 96). split; [exact K|]. split; [reflexivity|]. change (SwKeypair_withBytes []) with (Some (zeros 96)). cbn iota. pass.
    assert (Hfk : fits E (zeros 96)) by (unfold fits; rewrite zeros_length; destruct (usize_bits_cases E L) as [-> | ->]; reflexivity).
    apply (sw_call L reuse fuel m3 os (IssuerNew p1 _ p2 _)); [intros []|args L|calls L Hs].
Qed.
Print Assumptions C87_swift_issuer_with_seed.

(** ** Lengths *)
Theorem C87_header_lengths : forall E, ExtLaws E -> forall fuel os a ser os', gives E fuel os a ser os' -> header_length a ser.
Proof.
  intros E L fuel os a ser os' H. destruct a; cbn [gives header_length] in *; unfold SW_LENGTH_SYSTEM_PARAMETERS, SW_LENGTH_ISSUER,
    SW_LENGTH_ISSUER_PARAMETERS, SW_LENGTH_ISSUER_KEYPAIR, SW_LENGTH_USER, SW_LENGTH_CREDENTIAL_ISSUANCE,
    SW_LENGTH_CREDENTIAL_PRESENTATION, SW_LENGTH_VERIFIED_CREDENTIAL, SW_LENGTH_ROSTER_ENTRY_COMMITMENT.
  - destruct H as (p & r & _ & -> & _). apply (system_parameters_length L).
  - destruct H as (p & _ & -> & _). pose proof (created_issuer p (@chacha E seed)) as [_ (X1 & x1 & HX & Hx)].
    unfold signal_issuer_create. rewrite (keypair_length L), HX, Hx. reflexivity.
  - destruct H as (p & k & _ & D & -> & _). apply (keypair_iff L) in D as [[_ Hl] ->].
    unfold signal_issuer_to_bytes. rewrite (issuer_length L), (keypair_length L). cbn [signal_issuer_new issuer_new iss_keypair]. lia.
  - destruct H as (i & D & -> & _). apply (issuer_iff L) in D as [[[_ Hl] _] ->].
    rewrite (public_key_length L), (issuer_length L). unfold get_issuer_parameters. lia.
  - destruct H as (i & iss & r & _ & Hi & ->). unfold signal_issue in Hi. apply bind_ok in Hi as (n & Hn & Hi).
    destruct (try_from_bytes number) as [n'| |] eqn:Hnum; cbn [map_err] in Hn; try discriminate. injection Hn as ->.
    apply (created_issuance L) in Hi as [_ Hi]; [|reflexivity|constructor; [eapply try_from_bytes_canonical, Hnum|constructor]].
    rewrite (issuance_length L), Hi. reflexivity.
  - destruct H as (i & p & v & _ & D & Hv & -> & _). unfold signal_verify in Hv. apply bind_ok in Hv as (_ & _ & Hv). injection Hv as <-.
    apply (signal_presentation_iff L) in D as [[D _] _]. apply (signal_presentation_length L). exact D.
  - destruct H as (i & v & c & _ & _ & _ & -> & _). apply (compress_len L).
  - destruct H as (p & ips & iss & u & u' & _ & D & D' & Hu & Hf & -> & _).
    unfold signal_user_new in Hu. apply bind_ok in Hu as (n & _ & Hu). injection Hu as <-. unfold signal_obtain_finish in Hf. cbn [su_user su_phone_number] in Hf.
    pose proof (obtain_finish_accept (user_new p ips None) iss) as Ha.
    destruct (obtain_finish (user_new p ips None) (Some iss)) as [w res]. cbn [snd] in Ha. injection Hf as <- ->.
    specialize (Ha eq_refl). injection Ha as ->. cbn [user_new us_system_parameters us_issuer_parameters us_key].
    apply (public_key_iff L) in D. subst. apply (issuance_iff L) in D' as [[Hwc _] _].
    unfold signal_user_to_bytes, phone_number_to_bytes. cbn [su_phone_number su_user].
    rewrite app_length, scalar_to_bytes_length, (public_key_length L), (user_bytes_length L);
      [cbn [us_issuer_parameters]; lia|reflexivity|]. intros c [= <-]. exact (proj1 Hwc).
  - destruct H as (u & e & p & r & D & _ & Hs & ->). apply (signal_user_iff L) in D as (_ & _ & _ & (Hone & _) & _).
    destruct (pk_Xn _) as [|X0 [|]] eqn:HX; try discriminate.
    apply (signal_presentation_length L). apply (created_presentation L _ _ _ _ _ _ _ _ Hs HX).
  - destruct H as (p & e & r & _ & _ & -> & _). apply (roster_length L).
  - destruct H as (e & _ & -> & _). apply (compress_len L).
Qed.
Print Assumptions C87_header_lengths.

(** If freed memory keeps what it held, [SignalIssuer.init?(withSeed:)] makes the
    issuer and its keypair. *)
Theorem C87_swift_made_issuer : forall E, ExtLaws E -> forall m os seed params p,
  List.length seed = 32%nat -> fits E params -> @system_parameters_from_bytes E params = Ok p ->
  let i := fst (signal_issuer_create p (@chacha E seed)) in
  @sw_issuer_with_seed E unchanged m os seed params =
    SwReturns (Some {| sw_keypair := keypair_to_bytes (iss_keypair i); sw_data := signal_issuer_to_bytes i |}) os.
Proof.
  intros E L m os seed params p Hs Hf D i.
  assert (Hne : params <> []) by (intros ->; vm_compute in D; discriminate).
  assert (G1 : gives E 0 os (MakeKeypair params seed) (keypair_to_bytes (iss_keypair i)) os) by (exists p; auto).
  destruct (created_issuer p (@chacha E seed)) as [Hwi (X1 & x1 & HX & Hx)].
  change (fst (issuer_create p (@chacha E seed))) with i in Hwi, HX, Hx.
  destruct (issuer_create_facts p (@chacha E seed)) as (Hp & _ & _). change (fst (issuer_create p (@chacha E seed))) with i in Hp.
  assert (D2 : keypair_from_bytes (keypair_to_bytes (iss_keypair i)) = Ok (iss_keypair i)) by (apply (keypair_iff L); split; [apply Hwi|reflexivity]).
  assert (Hi : signal_issuer_new p (iss_keypair i) = i) by (unfold signal_issuer_new, issuer_new; destruct i; cbn in *; congruence).
  assert (G2 : gives E 0 os (MakeIssuer params (keypair_to_bytes (iss_keypair i))) (signal_issuer_to_bytes i) os)
    by (exists p, (iss_keypair i); rewrite Hi; auto).
  assert (U1 : forall ser o, gives E 0 os (MakeKeypair params seed) ser o -> ser = keypair_to_bytes (iss_keypair i))
    by (intros ser o (p' & D' & -> & _); assert (p' = p) by congruence; subst p'; reflexivity).
  assert (U2 : forall ser o, gives E 0 os (MakeIssuer params (keypair_to_bytes (iss_keypair i))) ser o -> ser = signal_issuer_to_bytes i /\ o = os).
  { intros ser o (p' & k' & D' & D'' & -> & ->). assert (p' = p) by congruence. assert (k' = iss_keypair i) by congruence. subst p' k'.
    rewrite Hi. auto. }
  assert (Hl : List.length (keypair_to_bytes (iss_keypair i)) = 96%nat) by (rewrite (keypair_length L), HX, Hx; reflexivity).
  clearbody i. destruct (C87_swift_issuer_with_seed E L unchanged 0%nat m os seed params Hs Hf) as (d & kp & S1 & Hk & S2).
  destruct S1 as [(id & ser & o & _ & G & [= -> _])|[[_ [K|K]]|[K _]]]; [| | |discriminate].
  2: { inversion K as [? ? K1|? ? K1]; [contradiction|inversion K1]. }
  2: { elim (K _ _ G1). }
  apply U1 in G. subst ser. rewrite found_unchanged in Hk. unfold SwKeypair_withBytes, sw_init_with_bytes, SW_LENGTH_ISSUER_KEYPAIR in Hk.
  rewrite Hl in Hk. cbn [Nat.eqb] in Hk. injection Hk as <-.
  destruct S2 as [(id2 & ser & o2 & _ & G & ->)|[[_ [K|K]]|[_ (s & K & _)]]]; [| | |discriminate].
  - apply U2 in G as [-> ->]. rewrite found_unchanged. reflexivity.
  - cbn [strings_of] in K. apply Exists_cons in K as [K|K]; [contradiction|]. apply Exists_cons in K as [K|K].
    + rewrite K in Hl. discriminate.
    + apply Exists_nil in K. contradiction.
  - elim (K _ _ G2).
Qed.
Print Assumptions C87_swift_made_issuer.

(** ** Examples *)
Definition c_contents (r : call_result) : option bytes :=
  match r with Returns b m _ => last_contents m (buf_ptr b) (buf_len b) | _ => None end.
Definition holds_bytes (o : option bytes) (b : bytes) : bool := match o with Some x => bytes_eqb x b | None => false end.
(** A call with a result, and one without: the entry, with its opening taken
    away, is its commitment; 63 bytes of a presentation are none. *)
Example C87_c_met :
  let e := roster_to_bytes (sample_entry 9) in
  ~ is_open (RosterEntryCommitmentRemoveOpening (Block 0 0) 64) /\
  holds_bytes (c_contents (@c_run toy 0 (blocks [e]) (toy_stream 1) (RosterEntryCommitmentRemoveOpening (Block 0 0) 64)))
    (committed_to_bytes (re_commitment (sample_entry 9))) = true /\
  holds_bytes (read (blocks [e]) (Block 0 0) 64) e = true /\
  (match @c_run toy 0 (blocks [signal_issuer_to_bytes sample_issuer; zeros 63]) (toy_stream 1) (IssuerVerify (Block 0 0) 160 (Block 1 0) 63) with
   | Returns {| buf_len := 0; buf_ptr := Static |} _ _ => true | _ => false end) = true.
Proof. split; [intros []|]. split; [|split]; vm_compute; reflexivity. Qed.
(** Parameters given as a string (of the toy group). *)
Definition sample_text : json := JString (map bz (compress (pt 5) ++ compress (pt 7))%list).
Example C87_js_met :
  holds_bytes (Some (utf8 (map bz (compress (pt 5) ++ compress (pt 7))%list))) (compress (pt 5) ++ compress (pt 7))%list = true /\
  is_ok (@system_parameters_from_bytes toy (compress (pt 5) ++ compress (pt 7))%list) = true /\
  array_length (@js_run toy 0 (toy_stream 1) (JsIssuerCreate sample_text (zeros 32))) = Some 96%nat /\
  array_length (@js_run toy 0 (toy_stream 1) (JsIssuerCreate sample_text (zeros 31))) = None.
Proof. split; [|split; [|split]]; vm_compute; reflexivity. Qed.
Definition sw_issuer_lengths (r : sw_result (option SwIssuer)) : option (nat * nat) :=
  match r with SwReturns (Some i) _ => Some (List.length (sw_keypair i), List.length (sw_data i)) | _ => None end.
Example C87_swift_met : fits toy (system_parameters_to_bytes sample_params) /\
  is_ok (@system_parameters_from_bytes toy (system_parameters_to_bytes sample_params)) = true /\
  sw_issuer_lengths (@sw_issuer_with_seed toy unchanged (blocks []) (toy_stream 1) (zeros 32) (system_parameters_to_bytes sample_params)) =
    Some (96, 160)%nat /\
  sw_issuer_lengths (@sw_issuer_with_seed toy unchanged (blocks []) (toy_stream 1) (zeros 32) (zeros 3)) = Some (96, 0)%nat.
Proof. split; [apply fits_toy; apply Nat.ltb_lt; vm_compute; reflexivity|]. split; [|split]; vm_compute; reflexivity. Qed.
