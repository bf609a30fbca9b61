(** Properties of the C API: ffi/src/c.rs and ffi/src/macros.rs
    (C02, C47 - C50, C60, C61). *)
From Verif Require Import PropertiesSignal Toy CreatedFacts FfiFacts ModelFfi.

(** ** C47: the buffer returned *)
(** No byte of a non-empty buffer may be read when the call has returned. *)
Theorem C47_buffer_valid_refuted : forall E, ExtLaws E -> forall fuel m os f b m' os',
  @c_run E fuel m os f = Returns b m' os' -> buf_len b <> 0 ->
  forall n, (0 < n)%nat -> read m' (buf_ptr b) n = None.
Proof.
  intros E L fuel m os f b m' os' H Hl n Hn.
  apply (c_run_returns L) in H as [(ser & _ & -> & Hm & _)|[[_ ->]|(_ & _ & Hp & _)]].
  - cbn [buf_ptr read]. destruct (Nat.eqb_spec n 0); [lia|]. rewrite Hm, Nat.eqb_refl. reflexivity.
  - elim Hl; reflexivity.
  - rewrite Hp. reflexivity.
Qed.
Print Assumptions C47_buffer_valid_refuted.
(** The result was in that memory before it was freed. *)
Theorem C47_buffer_was_written : forall E, ExtLaws E -> forall fuel m os f b m' os',
  @c_run E fuel m os f = Returns b m' os' -> buf_len b <> 0 -> ~ is_open f ->
  exists id ser, buf_ptr b = Block id 0 /\ mem_block m' id = Freed ser /\ Z.of_nat (List.length ser) = buf_len b.
Proof.
  intros E L fuel m os f b m' os' H Hl Ho.
  apply (c_run_returns L) in H as [(ser & _ & -> & Hm & _)|[[_ ->]|(K & _)]].
  - exists (mem_next m), ser. rewrite Hm, Nat.eqb_refl. auto.
  - elim Hl; reflexivity.
  - contradiction.
Qed.
Print Assumptions C47_buffer_was_written.
(** A call does not write to or free the memory of its caller, and leaves no
    memory allocated. *)
Theorem C47_caller_memory_untouched : forall E, ExtLaws E -> forall fuel m os f b m' os',
  @c_run E fuel m os f = Returns b m' os' ->
  (forall id, (id < mem_next m)%nat -> mem_block m' id = mem_block m id) /\
  (forall id c, mem_block m' id = Live c -> mem_block m id = Live c).
Proof.
  intros E L fuel m os f b m' os' H.
  apply (c_run_returns L) in H as [(ser & _ & _ & Hm & _)|[[-> _]|(_ & -> & _)]]; [|auto..].
  split; intros id; rewrite Hm; destruct (Nat.eqb_spec id (mem_next m)); intros; try lia; congruence.
Qed.
Print Assumptions C47_caller_memory_untouched.

(** ** C48: what a failing call returns *)
Theorem C48_null_on_failure_refuted : forall E, ExtLaws E -> forall fuel m os f b m' os',
  @c_run E fuel m os f = Returns b m' os' -> ~ is_open f -> buf_len b = 0 ->
  buf_ptr b = Static /\ buf_ptr b <> Null /\ m' = m.
Proof.
  intros E L fuel m os f b m' os' H Ho Hl.
  apply (c_run_returns L) in H as [(ser & Hne & -> & _)|[[-> ->]|(K & _)]]; [| |contradiction].
  - exfalso. cbn [buf_len] in Hl. destruct ser; [contradiction|]. cbn in Hl. lia.
  - split; [reflexivity|]. split; [discriminate|reflexivity].
Qed.
Print Assumptions C48_null_on_failure_refuted.
(** Only a call which made a result returns a positive length. *)
Theorem C48_positive_length_is_success : forall E, ExtLaws E -> forall fuel m os f b m' os',
  @c_run E fuel m os f = Returns b m' os' -> ~ is_open f ->
  buf_len b = 0 \/ exists ser, ser <> [] /\ last_contents m' (buf_ptr b) (buf_len b) = Some ser /\
                               buf_len b = Z.of_nat (List.length ser).
Proof.
  intros E L fuel m os f b m' os' H Ho.
  apply (c_run_returns L) in H as [(ser & Hne & -> & Hm & _)|[[-> ->]|(K & _)]]; [|left; reflexivity|contradiction].
  right. exists ser. split; [exact Hne|]. cbn [last_contents buf_ptr buf_len]. rewrite Hm, Nat.eqb_refl, Z.eqb_refl. auto.
Qed.
Print Assumptions C48_positive_length_is_success.
(** [roster_entry_commitment_open] returns length 1 exactly when the entry
    opens to the number; its pointer is null when it could decode its
    arguments, and not null otherwise. *)
Theorem C48_open_result : forall E, ExtLaws E -> forall m os e el n nl p pl b m' os',
  @c_roster_entry_commitment_open E m os e el n nl p pl = Returns b m' os' ->
  m' = m /\ os' = os /\
  ((exists eb (entry : RosterEntryCommitment E) nb pb (params : SystemParameters E), @given E m e el eb /\ roster_from_bytes eb = Ok entry /\ @given E m n nl nb /\
     @given E m p pl pb /\ system_parameters_from_bytes pb = Ok params /\
     buf_ptr b = Null /\ ((buf_len b = 1 /\ roster_open entry nb params = Ok tt) \/
                          (buf_len b = 0 /\ exists x, roster_open entry nb params = Err x)))
   \/ (b = zero_len_and_ptr)).
Proof.
  intros E L m os e el n nl p pl b m' os' H. unfold c_roster_entry_commitment_open in H.
  apply call_returns in H as [H|(H & -> & ->)].
  - apply then_next in H as (nb & Hn & H). apply slice_next in Hn.
    apply then_next in H as (params & Hp & H). apply des_next in Hp as (pb & Hp & Hp').
    apply then_next in H as (entry & He & H). apply des_next in He as (eb & He & He').
    destruct (roster_open entry nb params) as [[]|x|] eqn:Ho; try discriminate; injection H as <- <- <-;
      (split; [reflexivity|]; split; [reflexivity|]; left; exists eb, entry, nb, pb, params; repeat (split; [assumption|]));
      (split; [reflexivity|]); [left|right]; (split; [reflexivity|]); eauto.
  - split; [reflexivity|]. split; [reflexivity|]. right.
    apply then_return in H as [H|(nb & _ & H)]; [apply slice_return in H; tauto|].
    apply then_return in H as [H|(params & _ & H)]; [eapply des_return, H|].
    apply then_return in H as [H|(entry & _ & H)]; [eapply des_return, H|].
    destruct (roster_open _ _ _); discriminate.
Qed.
Print Assumptions C48_open_result.

(** ** C49: when a call unwinds *)
Lemma roster_open_panic {E} (L : ExtLaws E) (e : RosterEntryCommitment E) b params :
  roster_open e b params = Panic <-> number_panics b.
Proof.
  unfold roster_open. destruct (C27_outcomes b) as (H1 & H2 & H3).
  destruct (Nat.le_gt_cases (List.length b) 27) as [Hb|Hb].
  - destruct (H1 Hb) as [(n & -> & _) _]. cbn [bind]. unfold number_panics. split; [|lia].
    unfold committed_open, commitment_open. destruct (peqb _ _); discriminate.
  - destruct (Nat.le_gt_cases (List.length b) 32) as [Hb'|Hb'].
    + destruct (H2 ltac:(lia)) as [-> _]. cbn. unfold number_panics. split; [lia|reflexivity].
    + destruct (H3 Hb') as [-> _]. cbn. unfold number_panics. split; [discriminate|lia].
Qed.
Lemma number_panics_iff b : try_from_bytes b = Panic <-> number_panics b.
Proof.
  destruct (C27_outcomes b) as (H1 & H2 & H3). unfold number_panics.
  destruct (Nat.le_gt_cases (List.length b) 27) as [Hb|Hb].
  - destruct (H1 Hb) as [(n & -> & _) _]. split; [discriminate|lia].
  - destruct (Nat.le_gt_cases (List.length b) 32) as [Hb'|Hb'].
    + destruct (H2 ltac:(lia)) as [-> _]. split; [lia|reflexivity].
    + destruct (H3 Hb') as [-> _]. split; [discriminate|lia].
Qed.
Lemma signal_issue_panic {E} (L : ExtLaws E) (i : Issuer E) b r os : signal_issue i b r os = Panic <-> number_panics b.
Proof.
  rewrite <- number_panics_iff. unfold signal_issue. destruct (try_from_bytes b); cbn [map_err bind]; [|split; discriminate|tauto].
  split; [|discriminate]. intros H. elim (C09_issue_never_panics E L _ _ _ _ H).
Qed.
Lemma signal_user_new_panic {E} (params : SystemParameters E) ip k b :
  signal_user_new params ip k b = Panic <-> number_panics b.
Proof.
  rewrite <- number_panics_iff. unfold signal_user_new. destruct (try_from_bytes b); cbn [map_err bind]; split; congruence.
Qed.
Lemma roster_create_panic {E} b (params : SystemParameters E) r : roster_create b params r = Panic <-> number_panics b.
Proof.
  rewrite <- number_panics_iff. unfold roster_create. destruct (ephemeral_new r).
  destruct (try_from_bytes b); cbn [bind]; split; congruence.
Qed.
Lemma obtain_finish_no_panic {E} (u : User E) x : snd (obtain_finish u x) <> Panic.
Proof.
  unfold obtain_finish. destruct x; [|discriminate]. destruct (nth_error _ 0); [|discriminate].
  match goal with |- context [ir_verify ?a ?b ?c] => pose proof (ir_verify_no_panic a b c); destruct (ir_verify a b c) end;
    cbn; congruence.
Qed.
Lemma ret_not_unwinding m os ser : return_serialized m os ser <> Unwinding.
Proof. destruct (return_serialized_next m os ser) as [x ->]. discriminate. Qed.

Ltac unw H :=
  repeat match type of H with
  | then_ _ _ = Unwinding =>
    let v := fresh "v" in let N := fresh "N" in apply then_unwinding in H as [H|(v & N & H)]
  | deserialize_or_return _ _ _ _ = Unwinding =>
    let b := fresh "b" in let G := fresh "G" in apply des_unwinding in H as (b & G & H)
  | len_and_ptr_to_slice _ _ _ = Unwinding => elim (slice_unwinding _ _ _ H)
  | ok_or_return _ = Unwinding => apply ok_or_return_unwinding in H
  | return_serialized _ _ _ = Unwinding => elim (ret_not_unwinding _ _ _ H)
  end.
Ltac nexts L :=
  repeat match goal with
  | N : deserialize_or_return _ _ _ _ = Next _ |- _ =>
    let b := fresh "b" in let G := fresh "G" in let D := fresh "D" in apply des_next in N as (b & G & D)
  | N : csprng_from_seed _ _ = Next _ |- _ =>
    let b := fresh "b" in let G := fresh "G" in apply (csprng_next L) in N as (b & G & ->)
  | N : len_and_ptr_to_slice _ _ _ = Next _ |- _ => apply slice_next in N
  end.
Theorem C49_unwinds_exactly : forall E, ExtLaws E -> forall fuel m os f,
  @c_run E fuel m os f = Unwinds <-> c_panics E m f.
Proof.
  intros E L fuel m os f.
  assert (Hseed : forall p b, given_seed m p b -> @csprng_from_seed E m p = Next (@chacha E b)).
  { intros p b H. apply (csprng_next L). eauto. }
  assert (Hdes : forall Er A (g : bytes -> outcome Er A) len p b a, @given E m p len b -> g b = Ok a ->
            @deserialize_or_return E Er A g m len p = Next a).
  { intros. apply des_next. eauto. }
  destruct f; cbn [c_run c_panics].
  - unfold c_system_parameters_create. rewrite call_unwinds. split; [|contradiction]. intros H.
    unw H; [elim (csprng_unwinding L _ _ H)|]. destruct (hunt_and_peck _ _) as [[]|]; [|discriminate]. unw H.
  - unfold c_issuer_create. rewrite call_unwinds. split; [|contradiction]. intros H.
    unw H; [elim (csprng_unwinding L _ _ H)|elim (system_parameters_no_panic _ H)|].
    destruct (signal_issuer_create _ _). unw H.
  - unfold c_issuer_new. rewrite call_unwinds. split.
    + intros H. unw H; [elim (system_parameters_no_panic _ H)|].
      apply (keypair_panic L) in H as [? ?]. nexts L. do 3 eexists. eauto.
    + intros (pb & prm & kb & H1 & H2 & H3 & H4 & H5). rewrite (Hdes _ _ _ _ _ _ _ H1 H2). cbn [then_].
      apply then_unwinding. left. apply des_unwinding. exists kb. split; [exact H3|]. apply (keypair_panic L). auto.
  - unfold c_issuer_get_issuer_parameters. rewrite call_unwinds. split; [|contradiction]. intros H.
    unw H. elim (issuer_no_panic L _ H).
  - unfold c_issuer_issue. rewrite call_unwinds. split.
    + intros H. unw H.
      * elim (issuer_no_panic L _ H).
      * elim (csprng_unwinding L _ _ H).
      * apply (signal_issue_panic L) in H. nexts L. do 4 eexists. eauto 10.
      * match type of H with (let '_ := ?v in _) = _ => destruct v as [[? ?] ?] end. unw H.
    + intros (ib & i' & sb & nb & H1 & H2 & H3 & H4 & H5).
      rewrite (Hdes _ _ (@signal_issuer_from_bytes E) _ _ _ _ H1 H2). cbn [then_]. rewrite (Hseed _ _ H3). cbn [then_].
      rewrite (proj2 (slice_next _ _ _ _) H4). cbn [then_]. rewrite (proj2 (signal_issue_panic L i' nb _ os) H5). reflexivity.
  - unfold c_issuer_verify. rewrite call_unwinds. split; [|contradiction]. intros H. unw H.
    + elim (issuer_no_panic L _ H).
    + elim (signal_presentation_no_panic L _ H).
    + nexts L. elim (proj1 (proj2 (C36_decoded_never_panics E L _ _ _ D0)) _ D H).
  - unfold c_issuer_verify_roster_membership. rewrite call_unwinds. split; [|contradiction]. intros H. unw H.
    + elim (issuer_no_panic L _ H).
    + unfold verified_signal_from_bytes in H. apply bind_panic in H as [H|(? & _ & H)]; [|discriminate].
      elim (signal_presentation_no_panic L _ H).
    + nexts L. elim (proj2 (proj2 (C36_decoded_never_panics E L _ _ _ D0)) _ D H).
  - unfold c_user_obtain_finish. rewrite call_unwinds. split.
    + intros H. unw H.
      * elim (system_parameters_no_panic _ H).
      * elim (public_key_no_panic _ H).
      * apply (issuance_panic L) in H. nexts L. do 5 eexists. do 5 (split; [eassumption|]). left. exact H.
      * apply signal_user_new_panic in H. nexts L. do 5 eexists. do 5 (split; [eassumption|]). right. eauto.
      * destruct (signal_obtain_finish _ _) as [u res] eqn:Hf. unw H. exfalso.
        unfold signal_obtain_finish in Hf. destruct (obtain_finish _ _) as [v' w] eqn:Hv. injection Hf as <- <-.
        match type of Hv with obtain_finish ?a ?b = _ => pose proof (obtain_finish_no_panic a b) as K end.
        rewrite Hv in K. contradiction.
    + intros (pb & prm & ipb & ips & sb & H1 & H2 & H3 & H4 & H5 & H6).
      rewrite (Hdes _ _ _ _ _ _ _ H1 H2). cbn [then_]. rewrite (Hdes _ _ _ _ _ _ _ H3 H4). cbn [then_].
      destruct H6 as [H6|(isu & nb & H6 & H7 & H8)].
      * apply then_unwinding. left. apply des_unwinding. exists sb. split; [exact H5|]. apply (issuance_panic L). exact H6.
      * rewrite (Hdes _ _ _ _ _ _ _ H5 H6). cbn [then_]. rewrite (proj2 (slice_next _ _ _ _) H7). cbn [then_].
        rewrite (proj2 (signal_user_new_panic prm ips None nb) H8). reflexivity.
  - unfold c_user_show. rewrite call_unwinds. split.
    + intros H. unw H.
      * elim (csprng_unwinding L _ _ H).
      * apply signal_user_panic in H. nexts L. do 2 eexists. eauto.
      * apply (roster_panic L) in H. nexts L. do 2 eexists. do 2 (split; [eassumption|]). right. eauto.
      * nexts L. elim (C37_decoded_never_panics E L _ _ _ _ _ D0 H).
      * match type of H with (let '_ := ?v in _) = _ => destruct v as [[? ?] ?] end. unw H.
    + intros (sb & ub & H1 & H2 & H3). rewrite (Hseed _ _ H1). cbn [then_].
      destruct H3 as [H3|(u' & eb & H3 & H4 & H5)].
      * apply then_unwinding. left. apply des_unwinding. exists ub. split; [exact H2|]. apply signal_user_panic; exact H3.
      * rewrite (Hdes _ _ _ _ _ _ _ H2 H3). cbn [then_]. apply then_unwinding. left. apply des_unwinding. exists eb.
        split; [exact H4|]. apply (roster_panic L). exact H5.
  - unfold c_roster_entry_commitment_create. rewrite call_unwinds. split.
    + intros H. unw H.
      * elim (csprng_unwinding L _ _ H).
      * elim (system_parameters_no_panic _ H).
      * apply roster_create_panic in H. nexts L. do 4 eexists. eauto.
      * match type of H with (let '_ := ?v in _) = _ => destruct v as [? ?] end. unw H.
    + intros (sb & nb & pb & prm & H1 & H2 & H3 & H4 & H5). rewrite (Hseed _ _ H1). cbn [then_].
      rewrite (proj2 (slice_next _ _ _ _) H2). cbn [then_]. rewrite (Hdes _ _ _ _ _ _ _ H3 H4). cbn [then_].
      match goal with |- context [roster_create nb prm ?r] => rewrite (proj2 (roster_create_panic nb prm r) H5) end. reflexivity.
  - unfold c_roster_entry_commitment_remove_opening. rewrite call_unwinds. split.
    + intros H. unw H. apply (roster_panic L) in H. eauto.
    + intros (eb & H1 & H2). apply then_unwinding. left. apply des_unwinding. exists eb. split; [exact H1|].
      apply (roster_panic L). exact H2.
  - unfold c_roster_entry_commitment_open. rewrite call_unwinds. split.
    + intros H. unw H.
      * elim (system_parameters_no_panic _ H).
      * apply (roster_panic L) in H. nexts L. do 4 eexists. eauto 10.
      * destruct (roster_open _ _ _) eqn:Ho; try discriminate. apply (roster_open_panic L) in Ho.
        nexts L. do 4 eexists. do 4 (split; [eassumption|]). right. eauto.
    + intros (nb & pb & prm & eb & H1 & H2 & H3 & H4 & H5). rewrite (proj2 (slice_next _ _ _ _) H1). cbn [then_].
      rewrite (Hdes _ _ _ _ _ _ _ H2 H3). cbn [then_]. destruct H5 as [H5|(e' & H5 & H6)].
      * apply then_unwinding. left. apply des_unwinding. exists eb. split; [exact H4|]. apply (roster_panic L). exact H5.
      * rewrite (Hdes _ _ _ _ _ _ _ H4 H5). cbn [then_]. rewrite (proj2 (roster_open_panic L e' nb prm) H6). reflexivity.
Qed.
Print Assumptions C49_unwinds_exactly.

(** ** C50: missing arguments *)
Lemma given_not_missing {E} m p len b : @given E m p len b -> ~ missing (p, Some len).
Proof. intros (H1 & H2 & _) [H|H]; cbn in H; [contradiction|congruence]. Qed.
Lemma given_seed_not_missing m p b : given_seed m p b -> ~ missing (p, None).
Proof. intros (H1 & _) [H|H]; cbn in H; [contradiction|discriminate]. Qed.
Definition only_empty {A} (s : step A) : Prop := forall b, s = Return b -> b = zero_len_and_ptr.
Lemma only_empty_then {A B} (s : step A) (k : A -> step B) :
  only_empty s -> (forall a, only_empty (k a)) -> only_empty (then_ s k).
Proof. intros H1 H2 b H. apply then_return in H as [H|(a & _ & H)]; [exact (H1 _ H)|exact (H2 a b H)]. Qed.
Lemma only_empty_ret m os ser : only_empty (return_serialized m os ser).
Proof. intros b H. destruct (return_serialized_next m os ser) as [x Hx]. congruence. Qed.
Lemma ret_not_undefined m os ser : return_serialized m os ser <> Undefined.
Proof. destruct (return_serialized_next m os ser) as [x ->]. discriminate. Qed.
(** The arguments a step may read. *)
Definition reads (E : Ext) m {A} (s : step A) (args : list (pointer * option Z)) : Prop :=
  s = Undefined -> exists a, In a args /\ ~ missing a /\ ~ readable E m a.
Lemma reads_then {A B} E m (s : step A) (k : A -> step B) args :
  reads E m s args -> (forall a, reads E m (k a) args) -> reads E m (then_ s k) args.
Proof. intros H1 H2 H. apply then_undefined in H as [H|(a & _ & H)]; [exact (H1 H)|exact (H2 a H)]. Qed.
Lemma reads_ret E m os ser args : reads E m (return_serialized m os ser) args.
Proof. intros H. elim (ret_not_undefined _ _ _ H). Qed.
Lemma reads_slice E m len p args : In (p, Some len) args -> reads E m (@len_and_ptr_to_slice E m len p) args.
Proof.
  intros Hin H. apply slice_undefined in H as [H1 H2]. exists (p, Some len). split; [exact Hin|]. split; [exact H1|].
  intros [b Hb]. cbn in Hb. congruence.
Qed.
Lemma reads_des E m {Er A} (g : bytes -> outcome Er A) len p args :
  In (p, Some len) args -> reads E m (@deserialize_or_return E Er A g m len p) args.
Proof. intros Hin H. apply des_undefined in H. exact (reads_slice E m len p args Hin H). Qed.
Lemma reads_ok E m {Er A} (o : outcome Er A) args : reads E m (ok_or_return o) args.
Proof. intros H. elim (ok_or_return_undefined _ H). Qed.
Lemma reads_seed E (L : ExtLaws E) m p args : In (p, None) args -> reads E m (@csprng_from_seed E m p) args.
Proof.
  intros Hin H. apply (csprng_undefined L) in H as [H1 H2]. exists (p, None). split; [exact Hin|]. split.
  - intros [K|K]; cbn in K; [contradiction|discriminate].
  - intros [b Hb]. cbn in Hb. congruence.
Qed.

(** A call which got past its arguments was given all of them, and a call
    reads nothing else. *)
Lemma c_run_arguments {E} (L : ExtLaws E) fuel m os f :
  exists s, @c_run E fuel m os f = call m os s /\
    (forall x, s = Next x -> Forall (fun a => ~ missing a) (c_arguments f)) /\
    only_empty s /\ reads E m s (c_arguments f).
Proof.
  destruct f; cbn [c_run c_arguments]; unfold c_system_parameters_create, c_issuer_create, c_issuer_new,
    c_issuer_get_issuer_parameters, c_issuer_issue, c_issuer_verify, c_issuer_verify_roster_membership,
    c_user_obtain_finish, c_user_show, c_roster_entry_commitment_create, c_roster_entry_commitment_remove_opening,
    c_roster_entry_commitment_open; (eexists; split; [reflexivity|]).
  all: split; [intros x H; repeat (apply then_next in H as (? & ? & H)); nexts L;
    repeat constructor; first [eapply given_not_missing; eassumption | eapply given_seed_not_missing; eassumption]|].
  all: split;
    repeat match goal with
    | |- only_empty (then_ _ _) => apply only_empty_then; [|intros]
    | |- only_empty (deserialize_or_return _ _ _ _) => intros b H; eapply des_return; exact H
    | |- only_empty (len_and_ptr_to_slice _ _ _) => intros b H; apply slice_return in H; tauto
    | |- only_empty (csprng_from_seed _ _) => intros b H; apply (csprng_return L) in H; tauto
    | |- only_empty (ok_or_return _) => intros b H; apply ok_or_return_return in H; tauto
    | |- only_empty (return_serialized _ _ _) => apply only_empty_ret
    | |- only_empty (Next _) => intros ? ?; discriminate
    | |- only_empty Unwinding => intros ? ?; discriminate
    | |- only_empty Looping => intros ? ?; discriminate
    | |- reads _ _ (then_ _ _) _ => apply reads_then; [|intros]
    | |- reads _ _ (deserialize_or_return _ _ _ _) _ => apply reads_des; cbn [In]; tauto
    | |- reads _ _ (len_and_ptr_to_slice _ _ _) _ => apply reads_slice; cbn [In]; tauto
    | |- reads _ _ (csprng_from_seed _ _) _ => apply (reads_seed _ L); cbn [In]; tauto
    | |- reads _ _ (ok_or_return _) _ => apply reads_ok
    | |- reads _ _ (return_serialized _ _ _) _ => apply reads_ret
    | |- reads _ _ (Next _) _ => intros ?; discriminate
    | |- reads _ _ Unwinding _ => intros ?; discriminate
    | |- reads _ _ Looping _ => intros ?; discriminate
    | |- _ (match ?x with _ => _ end) => destruct x
    | |- reads _ _ (match ?x with _ => _ end) _ => destruct x
    end.
Qed.
(** No call with a missing argument has a result. *)
Theorem C50_missing_argument_no_result : forall E, ExtLaws E -> forall fuel m os f a b m' os',
  In a (c_arguments f) -> missing a -> @c_run E fuel m os f = Returns b m' os' ->
  b = {| buf_len := 0; buf_ptr := Static |} /\ m' = m /\ os' = os.
Proof.
  intros E L fuel m os f a b m' os' Hin Hmiss H.
  destruct (c_run_arguments L fuel m os f) as (s & Hs & Hg & He & _).
  rewrite Hs in H. apply call_returns in H as [->|(-> & -> & ->)].
  - exfalso. specialize (Hg _ eq_refl). rewrite Forall_forall in Hg. exact (Hg a Hin Hmiss).
  - split; [exact (He _ eq_refl)|auto].
Qed.
Print Assumptions C50_missing_argument_no_result.
(** A call whose arguments are all missing returns, whatever the memory. *)
Theorem C50_all_missing_returns : forall E, ExtLaws E -> forall fuel m os f,
  (forall a, In a (c_arguments f) -> missing a) ->
  @c_run E fuel m os f = Returns {| buf_len := 0; buf_ptr := Static |} m os.
Proof.
  intros E L fuel m os f H.
  assert (D : forall Er A (g : bytes -> outcome Er A) p len, missing (p, Some len) ->
            @deserialize_or_return E Er A g m len p = Return zero_len_and_ptr).
  { intros Er A g p len Hm. apply then_return. left. apply slice_return. auto. }
  assert (C : forall p, missing (p, None) -> @csprng_from_seed E m p = Return zero_len_and_ptr).
  { intros p [Hm|Hm]; cbn in Hm; [|discriminate]. apply (csprng_return L). auto. }
  destruct f; cbn [c_run c_arguments In] in *; unfold c_system_parameters_create, c_issuer_create, c_issuer_new,
    c_issuer_get_issuer_parameters, c_issuer_issue, c_issuer_verify, c_issuer_verify_roster_membership,
    c_user_obtain_finish, c_user_show, c_roster_entry_commitment_create, c_roster_entry_commitment_remove_opening,
    c_roster_entry_commitment_open;
    first [solve [rewrite C by (apply H; tauto); reflexivity] | solve [rewrite D by (apply H; tauto); reflexivity]
          | rewrite (proj2 (slice_return _ _ _ _) (conj eq_refl (H _ (or_intror (or_introl eq_refl))))); reflexivity].
Qed.
Print Assumptions C50_all_missing_returns.
(** A call reads only its arguments: it is defined when each of them is missing
    or can be read. *)
Theorem C50_defined : forall E, ExtLaws E -> forall fuel m os f,
  (forall a, In a (c_arguments f) -> missing a \/ readable E m a) ->
  @c_run E fuel m os f <> UndefinedBehaviour.
Proof.
  intros E L fuel m os f H K. destruct (c_run_arguments L fuel m os f) as (s & Hs & _ & _ & Hr).
  rewrite Hs in K. apply call_undefined in K. destruct (Hr K) as (a & Hin & H1 & H2). destruct (H a Hin); contradiction.
Qed.
Print Assumptions C50_defined.
(** A missing argument does not keep a call from unwinding. *)
Definition blocks (l : list bytes) : memory :=
  {| mem_block := fun id => match nth_error l id with Some b => Live b | None => Absent end; mem_next := List.length l |}.
Theorem C50_missing_argument_returns_refuted : forall E, ExtLaws E -> exists fuel m os f a,
  In a (c_arguments f) /\ missing a /\ (forall a, In a (c_arguments f) -> missing a \/ readable E m a) /\
  @c_run E fuel m os f = Unwinds.
Proof.
  intros E L. exists 0%nat, (blocks [zeros 32; [x00]]), (fun _ => x00), (UserShow (Block 1 0) 1 Null 0 (Block 0 0)), (Null, Some 0).
  assert (H1 : @as_size_t E 1 = 1%nat).
  { unfold as_size_t. destruct (usize_bits_cases E L) as [-> | ->]; reflexivity. }
  split; [cbn; tauto|]. split; [left; reflexivity|]. split.
  - cbn [c_arguments In]. intros a [<-|[<-|[<-|[]]]]; [right|left; left; reflexivity|right]; unfold readable; cbn [fst snd].
    + rewrite H1. eexists; reflexivity.
    + eexists; reflexivity.
  - apply (C49_unwinds_exactly E L). cbn [c_panics]. exists (zeros 32), [x00].
    split; [split; [discriminate|reflexivity]|].
    split; [split; [discriminate|]; split; [discriminate|]; rewrite H1; reflexivity|]. left. cbn. lia.
Qed.
Print Assumptions C50_missing_argument_returns_refuted.

(** ** C02: the protocol through the C API *)
Lemma holds_given {E} (L : ExtLaws E) m p b : holds m p b -> (1 <= List.length b < 2 ^ 16)%nat -> @given E m p (len b) b.
Proof.
  intros [H1 H2] Hl. split; [exact H1|]. unfold len. split; [lia|]. replace (@as_size_t E (Z.of_nat (List.length b))) with (List.length b); [exact H2|].
  unfold as_size_t. assert (Hb : Z.of_nat (List.length b) < 2 ^ 16) by (change (2 ^ 16) with (Z.of_nat (2 ^ 16)); lia).
  rewrite Z.mod_small; [lia|]. destruct (usize_bits_cases E L) as [-> | ->]; split; try lia;
    (eapply Z.lt_trans; [exact Hb|reflexivity]).
Qed.
Lemma holds_seed m p b : holds m p b -> List.length b = 32%nat -> given_seed m p b.
Proof. intros [H1 H2] Hl. rewrite Hl in H2. split; assumption. Qed.
Lemma returned_ser m os os' ser : ser <> [] -> returned (call m os (return_serialized m os' ser)) ser.
Proof.
  intros Hne. destruct (return_serialized_next m os' ser) as [x Hx]. rewrite Hx.
  destruct (return_serialized_spec m os' ser x Hne Hx) as (b & m' & -> & _ & -> & Hm & _).
  exists {| buf_len := Z.of_nat (List.length ser); buf_ptr := Block (mem_next m) 0 |}, m', os'. split; [reflexivity|]. split; [reflexivity|].
  cbn [last_contents buf_ptr buf_len]. rewrite Hm, Nat.eqb_refl, Z.eqb_refl. reflexivity.
Qed.
Theorem C02_c_protocol : forall E, ExtLaws E ->
  forall fuel seed_params seed_issuer seed_issue seed_entry seed_show number os_issue os_show,
  Forall (fun s => List.length s = 32%nat) [seed_params; seed_issuer; seed_issue; seed_entry; seed_show] ->
  (1 <= List.length number <= 27)%nat ->
  @hunt_and_peck E fuel (@chacha E seed_params) <> None ->
  exists params keypair issuer issuer_params issuance entry user presentation commitment,
    (* the documented lengths *)
    List.length params = 64%nat /\ List.length keypair = 96%nat /\ List.length issuer = 160%nat /\
    List.length issuer_params = 32%nat /\ List.length issuance = 328%nat /\ List.length entry = 64%nat /\
    List.length user = 288%nat /\ List.length presentation = 448%nat /\ List.length commitment = 32%nat /\
    (* the calls *)
    (forall m os s, holds m s seed_params ->
       returned (@c_run E fuel m os (SystemParametersCreate s)) params) /\
    (forall m os p s, holds m p params -> holds m s seed_issuer ->
       returned (@c_run E fuel m os (IssuerCreate p (len params) s)) keypair) /\
    (forall m os p k, holds m p params -> holds m k keypair ->
       returned (@c_run E fuel m os (IssuerNew p (len params) k (len keypair))) issuer) /\
    (forall m os i, holds m i issuer ->
       returned (@c_run E fuel m os (IssuerGetIssuerParameters i (len issuer))) issuer_params) /\
    (forall m i n s, holds m i issuer -> holds m n number -> holds m s seed_issue ->
       returned (@c_run E fuel m os_issue (IssuerIssue i (len issuer) n (len number) s)) issuance) /\
    (forall m os n p ip iss, holds m n number -> holds m p params -> holds m ip issuer_params -> holds m iss issuance ->
       returned (@c_run E fuel m os (UserObtainFinish n (len number) p (len params) ip (len issuer_params) iss (len issuance))) user) /\
    (forall m os n p s, holds m n number -> holds m p params -> holds m s seed_entry ->
       returned (@c_run E fuel m os (RosterEntryCommitmentCreate n (len number) p (len params) s)) entry) /\
    (forall m os e, holds m e entry ->
       returned (@c_run E fuel m os (RosterEntryCommitmentRemoveOpening e (len entry))) commitment) /\
    (forall m os e n p, holds m e entry -> holds m n number -> holds m p params ->
       @c_run E fuel m os (RosterEntryCommitmentOpen e (len entry) n (len number) p (len params)) =
       Returns {| buf_len := 1; buf_ptr := Null |} m os) /\
    (forall m u e s, holds m u user -> holds m e entry -> holds m s seed_show ->
       returned (@c_run E fuel m os_show (UserShow u (len user) e (len entry) s)) presentation) /\
    (forall m os i p, holds m i issuer -> holds m p presentation ->
       returned (@c_run E fuel m os (IssuerVerify i (len issuer) p (len presentation))) presentation) /\
    (forall m os i v, holds m i issuer -> holds m v presentation ->
       returned (@c_run E fuel m os (IssuerVerifyRosterMembership i (len issuer) v (len presentation))) commitment).
Proof.
  intros E L fuel sp si ss se sh number oi osh Hseeds Hn Hhunt.
  inversion Hseeds as [|? ? H1 Hs1]; subst. inversion Hs1 as [|? ? H2 Hs2]; subst. inversion Hs2 as [|? ? H3 Hs3]; subst.
  inversion Hs3 as [|? ? H4 Hs4]; subst. inversion Hs4 as [|? ? H5 _]; subst. clear Hseeds Hs1 Hs2 Hs3 Hs4.
  destruct (@hunt_and_peck E fuel (@chacha E sp)) as [[params rp]|] eqn:Hh; [|contradiction]. clear Hhunt.
  destruct (C01_protocol_completes E L params None number (@chacha E si) (@chacha E ss) oi (@chacha E se) (@chacha E sh) osh ltac:(lia))
    as (iss & u & u' & entry & p & ri' & oi' & re & rs & os' & Hi & Hu & Hf & Hc & He & Hsh & Hv & Hr).
  set (i := fst (signal_issuer_create params (@chacha E si))) in *.
  destruct (created_issuer params (@chacha E si)) as [Hwi (X1 & x1 & HX & Hx)].
  change (fst (issuer_create params (@chacha E si))) with i in Hwi, HX, Hx.
  destruct (issuer_create_facts params (@chacha E si)) as (Hp & _ & _).
  change (fst (issuer_create params (@chacha E si))) with i in Hp.
  destruct (proj1 (C27_outcomes number) ltac:(lia)) as [(n & Hnum & Hncan) _].
  assert (Hcred : issuance_wf iss /\ cr_attributes (is_credential iss) = [n]).
  { unfold signal_issue in Hi. rewrite Hnum in Hi. cbn [map_err bind] in Hi. apply (created_issuance L) in Hi; [exact Hi|reflexivity|].
    constructor; [exact Hncan|constructor]. }
  destruct Hcred as [Hwiss Hattr].
  assert (Hu' : u' = {| su_phone_number := n; su_user := {| us_system_parameters := params; us_issuer_parameters := get_issuer_parameters i;
                 us_key := None; us_credential := Some (is_credential iss) |} |}).
  { unfold signal_user_new in Hu. rewrite Hnum in Hu. cbn [map_err bind] in Hu.
    assert (u = {| su_phone_number := n; su_user := user_new params (get_issuer_parameters i) None |}) by congruence. subst u.
    unfold signal_obtain_finish in Hf. pose proof (obtain_finish_accept (user_new params (get_issuer_parameters i) None) iss) as Ha.
    cbn [su_user] in Hf. destruct (obtain_finish _ _) as [v res]. cbn [snd] in Ha. injection Hf as <- ->.
    specialize (Ha eq_refl). injection Ha as ->. reflexivity. }
  assert (Hwu : user_wf (su_user u')).
  { rewrite Hu'. split; [cbn [su_user us_issuer_parameters get_issuer_parameters]; unfold get_issuer_parameters; rewrite HX; reflexivity|].
    split; [exact I|]. cbn [su_user us_credential]. split; [apply Hwiss|]. unfold credential_to_bytes. rewrite Hattr.
    cbn [flat_map]. rewrite app_nil_r. intros K. change (zeros 96) with (zeros (64 + 32)) in K. rewrite zeros_app in K.
    apply app_inj_l in K as [_ K]; [|rewrite (tag_length L); reflexivity].
    apply (scalar_zeros n Hncan) in K. exact (try_from_bytes_nonzero _ _ Hnum K). }
  pose proof (created_presentation L u' _ _ _ _ _ _ X1 Hsh ltac:(rewrite Hu'; exact HX)) as Hwp.
  pose proof (created_entry _ _ _ _ _ He) as Hopen.
  (* what decodes *)
  assert (D1 : system_parameters_from_bytes (system_parameters_to_bytes params) = Ok params) by (apply (C33_system_parameters E L)).
  assert (D2 : keypair_from_bytes (keypair_to_bytes (iss_keypair i)) = Ok (iss_keypair i)) by (apply (keypair_iff L); split; [apply Hwi|reflexivity]).
  assert (D3 : issuer_from_bytes (issuer_to_bytes i) = Ok i) by (apply (issuer_iff L); auto).
  assert (D4 : public_key_from_bytes (public_key_to_bytes (get_issuer_parameters i)) = Ok (get_issuer_parameters i)) by (apply (public_key_iff L); reflexivity).
  assert (D5 : issuance_from_bytes (issuance_to_bytes iss) = Ok iss).
  { apply (issuance_iff L). split; [exact Hwiss|]. exists []. rewrite app_nil_r. reflexivity. }
  assert (D6 : roster_from_bytes (roster_to_bytes entry) = Ok entry).
  { apply (C33_roster E L). apply canonical_bits, Hopen. }
  assert (D7 : signal_user_from_bytes (signal_user_to_bytes u') = Ok u').
  { apply (signal_user_iff L). exists (scalar_to_bytes (su_phone_number u')). split; [apply scalar_to_bytes_length|].
    split; [|split; [exact Hwu|reflexivity]]. rewrite Hu'. cbn [su_phone_number]. symmetry. apply from_bits_roundtrip, canonical_bits, Hncan. }
  assert (D8 : signal_presentation_from_bytes (signal_presentation_to_bytes p) = Ok p).
  { apply (signal_presentation_iff L). split; [exact Hwp|]. exists []. rewrite app_nil_r. reflexivity. }
  assert (L1 : List.length (system_parameters_to_bytes params) = 64%nat) by apply (system_parameters_length L).
  assert (L2 : List.length (keypair_to_bytes (iss_keypair i)) = 96%nat) by (rewrite (keypair_length L), HX, Hx; reflexivity).
  assert (L3 : List.length (issuer_to_bytes i) = 160%nat) by (rewrite (issuer_length L), HX, Hx; reflexivity).
  assert (L4 : List.length (public_key_to_bytes (get_issuer_parameters i)) = 32%nat)
    by (rewrite (public_key_length L); unfold get_issuer_parameters; rewrite HX; reflexivity).
  assert (L5 : List.length (issuance_to_bytes iss) = 328%nat) by (rewrite (issuance_length L), Hattr; reflexivity).
  assert (L6 : List.length (roster_to_bytes entry) = 64%nat) by apply (roster_length L).
  assert (L7 : List.length (signal_user_to_bytes u') = 288%nat).
  { unfold signal_user_to_bytes, phone_number_to_bytes. rewrite app_length, scalar_to_bytes_length, (user_length L _ Hwu). reflexivity. }
  assert (L8 : List.length (signal_presentation_to_bytes p) = 448%nat) by (apply (signal_presentation_length L), Hwp).
  assert (L9 : List.length (committed_to_bytes (re_commitment entry)) = 32%nat) by apply (compress_len L).
  assert (Hseed : forall m s b, holds m s b -> List.length b = 32%nat -> @csprng_from_seed E m s = Next (@chacha E b)).
  { intros m s b Hb Hl. apply (csprng_next L). exists b. split; [apply holds_seed; assumption|reflexivity]. }
  assert (Hdes : forall Er A (g : bytes -> outcome Er A) m q b a, holds m q b -> (1 <= List.length b < 1000)%nat -> g b = Ok a ->
            @deserialize_or_return E Er A g m (len b) q = Next a).
  { intros Er A g m q b a Hb Hl Hg. apply des_next. exists b. split; [apply (holds_given L); [exact Hb|]|exact Hg].
    split; [lia|]. eapply Nat.lt_trans; [apply Hl|]. apply Nat.ltb_lt. vm_compute. reflexivity. }
  assert (Hnumber : forall m q, holds m q number -> @len_and_ptr_to_slice E m (len number) q = Next number).
  { intros m q Hb. apply slice_next. apply (holds_given L); [exact Hb|].
    split; [lia|]. eapply Nat.le_lt_trans; [apply Hn|]. apply Nat.ltb_lt. vm_compute. reflexivity. }
  assert (Hne : forall (b : bytes) k, List.length b = S k -> b <> []) by (intros [|? ?] k K; [discriminate|discriminate]).
  exists (system_parameters_to_bytes params), (keypair_to_bytes (iss_keypair i)), (issuer_to_bytes i),
    (public_key_to_bytes (get_issuer_parameters i)), (issuance_to_bytes iss), (roster_to_bytes entry),
    (signal_user_to_bytes u'), (signal_presentation_to_bytes p), (committed_to_bytes (re_commitment entry)).
  do 9 (split; [assumption|]). cbn [c_run].
  split; [|split; [|split; [|split; [|split; [|split; [|split; [|split; [|split; [|split; [|split]]]]]]]]]].
  - intros m os s A1. unfold c_system_parameters_create. rewrite (Hseed _ _ _ A1 H1). cbn [then_]. rewrite Hh.
    apply returned_ser. eapply Hne, L1.
  - intros m os q s A1 A2. unfold c_issuer_create. rewrite (Hseed _ _ _ A2 H2). cbn [then_].
    rewrite (Hdes _ _ _ _ _ _ _ A1 ltac:(lia) D1). cbn [then_]. unfold i. destruct (signal_issuer_create params (@chacha E si)) as [i0 r0] eqn:Hi0.
    cbn [fst] in *. apply returned_ser. eapply Hne, L2.
  - intros m os q k A1 A2. unfold c_issuer_new. rewrite (Hdes _ _ _ _ _ _ _ A1 ltac:(lia) D1). cbn [then_].
    rewrite (Hdes _ _ _ _ _ _ _ A2 ltac:(lia) D2). cbn [then_]. unfold signal_issuer_to_bytes, signal_issuer_new, issuer_new.
    rewrite <- Hp. destruct i as [ip0 ik0]. cbn [iss_system_parameters iss_keypair] in *.
    apply returned_ser. eapply Hne, L3.
  - intros m os q A1. unfold c_issuer_get_issuer_parameters.
    rewrite (Hdes _ _ (@signal_issuer_from_bytes E) _ _ _ _ A1 ltac:(lia) D3). cbn [then_].
    apply returned_ser. eapply Hne, L4.
  - intros m q nn s A1 A2 A3. unfold c_issuer_issue.
    rewrite (Hdes _ _ (@signal_issuer_from_bytes E) _ _ _ _ A1 ltac:(lia) D3). cbn [then_]. rewrite (Hseed _ _ _ A3 H3). cbn [then_].
    rewrite (Hnumber _ _ A2). cbn [then_]. rewrite Hi. cbn [ok_or_return then_]. apply returned_ser. eapply Hne, L5.
  - intros m os nn q ip is A1 A2 A3 A4. unfold c_user_obtain_finish. rewrite (Hdes _ _ _ _ _ _ _ A2 ltac:(lia) D1). cbn [then_].
    rewrite (Hdes _ _ _ _ _ _ _ A3 ltac:(lia) D4). cbn [then_]. rewrite (Hdes _ _ _ _ _ _ _ A4 ltac:(lia) D5). cbn [then_].
    rewrite (Hnumber _ _ A1). cbn [then_]. rewrite Hu. cbn [ok_or_return then_]. rewrite Hf. cbn [ok_or_return then_].
    apply returned_ser. eapply Hne, L7.
  - intros m os nn q s A1 A2 A3. unfold c_roster_entry_commitment_create. rewrite (Hseed _ _ _ A3 H4). cbn [then_].
    rewrite (Hnumber _ _ A1). cbn [then_]. rewrite (Hdes _ _ _ _ _ _ _ A2 ltac:(lia) D1). cbn [then_]. rewrite He. cbn [ok_or_return then_].
    apply returned_ser. eapply Hne, L6.
  - intros m os e A1. unfold c_roster_entry_commitment_remove_opening. rewrite (Hdes _ _ _ _ _ _ _ A1 ltac:(lia) D6). cbn [then_].
    apply returned_ser. eapply Hne, L9.
  - intros m os e nn q A1 A2 A3. unfold c_roster_entry_commitment_open. rewrite (Hnumber _ _ A2). cbn [then_].
    rewrite (Hdes _ _ _ _ _ _ _ A3 ltac:(lia) D1). cbn [then_]. rewrite (Hdes _ _ _ _ _ _ _ A1 ltac:(lia) D6). cbn [then_].
    destruct (C29_create_opens E L number params (@chacha E se) ltac:(lia)) as (e' & re' & He' & Ho).
    rewrite He in He'. assert (entry = e') by congruence. subst e'. rewrite Ho. reflexivity.
  - intros m us e s A1 A2 A3. unfold c_user_show. rewrite (Hseed _ _ _ A3 H5). cbn [then_].
    rewrite (Hdes _ _ _ _ _ _ _ A1 ltac:(lia) D7). cbn [then_]. rewrite (Hdes _ _ _ _ _ _ _ A2 ltac:(lia) D6). cbn [then_].
    rewrite Hsh. cbn [ok_or_return then_]. apply returned_ser. eapply Hne, L8.
  - intros m os q pr A1 A2. unfold c_issuer_verify. rewrite (Hdes _ _ (@signal_issuer_from_bytes E) _ _ _ _ A1 ltac:(lia) D3). cbn [then_].
    rewrite (Hdes _ _ _ _ _ _ _ A2 ltac:(lia) D8). cbn [then_]. rewrite Hv. cbn [ok_or_return then_].
    change (verified_signal_to_bytes {| vs_presentation := p |}) with (signal_presentation_to_bytes p).
    apply returned_ser. eapply Hne, L8.
  - intros m os q v A1 A2. unfold c_issuer_verify_roster_membership.
    rewrite (Hdes _ _ (@signal_issuer_from_bytes E) _ _ _ _ A1 ltac:(lia) D3). cbn [then_].
    assert (D9 : verified_signal_from_bytes (signal_presentation_to_bytes p) = Ok {| vs_presentation := p |})
      by (unfold verified_signal_from_bytes; rewrite D8; reflexivity).
    rewrite (Hdes _ _ _ _ _ _ _ A2 ltac:(lia) D9). cbn [then_]. rewrite Hr. cbn [ok_or_return then_].
    apply returned_ser. eapply Hne, L9.
Qed.
Print Assumptions C02_c_protocol.

(** ** C60: the lengths of results *)
Ltac empties L := repeat match goal with
    | |- only_empty (then_ _ _) => apply only_empty_then; [|intros]
    | |- only_empty (deserialize_or_return _ _ _ _) => intros ? ?; eapply des_return; eassumption
    | |- only_empty (len_and_ptr_to_slice _ _ _) => let H := fresh in intros ? H; apply slice_return in H; tauto
    | |- only_empty (csprng_from_seed _ _) => let H := fresh in intros ? H; apply (csprng_return L) in H; tauto
    | |- only_empty (ok_or_return _) => let H := fresh in intros ? H; apply ok_or_return_return in H; tauto
    | |- only_empty (return_serialized _ _ _) => apply only_empty_ret
    | |- only_empty (Next _) => intros ? ?; discriminate
    | |- only_empty Unwinding => intros ? ?; discriminate
    | |- only_empty Looping => intros ? ?; discriminate
    | |- only_empty (match ?x with _ => _ end) => destruct x
    end.
Lemma ret_length m os ser b m' os' n : return_serialized m os ser = Next (b, m', os') -> List.length ser = S n ->
  buf_len b = Z.of_nat (S n).
Proof.
  intros Hr Hn. destruct (return_serialized_spec m os ser _ ltac:(intros ->; discriminate) Hr) as (b' & m2 & Hb & _ & -> & _).
  assert (b = {| buf_len := Z.of_nat (List.length ser); buf_ptr := Block (mem_next m) 0 |}) by congruence. subst b.
  cbn [buf_len]. congruence.
Qed.
Theorem C60_result_lengths : forall E, ExtLaws E -> forall fuel m os f b m' os' k,
  @c_run E fuel m os f = Returns b m' os' -> result_length f = Some k -> buf_len b = 0 \/ buf_len b = k.
Proof.
  intros E L fuel m os f b m' os' k H Hk.
  destruct f; cbn [result_length] in Hk; try discriminate; injection Hk as <-; cbn [c_run] in H;
    unfold c_system_parameters_create, c_issuer_create, c_issuer_verify, c_issuer_verify_roster_membership,
      c_user_show, c_roster_entry_commitment_create, c_roster_entry_commitment_remove_opening in H;
    (apply call_returns in H as [H|(H & _)];
      [right|left; match type of H with ?s = _ => assert (K : only_empty s) by empties L; rewrite (K _ H); reflexivity end]);
    repeat (apply then_next in H as (? & ? & H)); nexts L.
  - destruct (hunt_and_peck _ _) as [[]|]; [|discriminate]. apply (ret_length _ _ _ _ _ _ 63 H). apply (system_parameters_length L).
  - destruct (signal_issuer_create x0 _) as [i r] eqn:Hi. apply (ret_length _ _ _ _ _ _ 95 H).
    pose proof (created_issuer x0 (@chacha E b1)) as [_ (X1 & x1 & HX & Hx)]. unfold signal_issuer_create in Hi. rewrite Hi in HX, Hx.
    cbn [fst] in HX, Hx. rewrite (keypair_length L), HX, Hx. reflexivity.
  - apply (ret_length _ _ _ _ _ _ 447 H).
    match goal with K : ok_or_return (signal_verify _ _) = Next _ |- _ =>
      apply ok_or_return_next in K; unfold signal_verify in K; apply bind_ok in K as (? & _ & K) end.
    match goal with K : Ok _ = Ok ?v |- List.length (verified_signal_to_bytes ?v) = _ => injection K as <- end.
    match goal with K : signal_presentation_from_bytes _ = Ok _ |- _ => apply (signal_presentation_iff L) in K as [[K _] _] end.
    apply (signal_presentation_length L). assumption.
  - apply (ret_length _ _ _ _ _ _ 31 H). apply (compress_len L).
  - match type of H with (let '_ := ?v in _) = _ => destruct v as [[p r] o] end.
    apply (ret_length _ _ _ _ _ _ 447 H).
    match goal with K : ok_or_return _ = Next _ |- _ => apply ok_or_return_next in K; rename K into Hsh end.
    match goal with K : signal_user_from_bytes _ = Ok _ |- _ => apply (signal_user_iff L) in K as (_ & _ & _ & (Hone & _) & _) end.
    destruct (pk_Xn _) as [|X0 [|]] eqn:HX; try discriminate.
    apply (signal_presentation_length L). apply (created_presentation L _ _ _ _ _ _ _ _ Hsh HX).
  - match type of H with (let '_ := ?v in _) = _ => destruct v as [e r] end.
    apply (ret_length _ _ _ _ _ _ 63 H). apply (roster_length L).
  - apply (ret_length _ _ _ _ _ _ 31 H). apply (compress_len L).
Qed.
Print Assumptions C60_result_lengths.
(** The header says that a roster membership result should have the length of
    an entry with its opening, 64. *)
Theorem C60_documented_roster_length_refuted : forall E, ExtLaws E -> forall fuel m os i il v vl b m' os',
  @c_run E fuel m os (IssuerVerifyRosterMembership i il v vl) = Returns b m' os' -> buf_len b <> 64.
Proof.
  intros E L fuel m os i il v vl b m' os' H.
  destruct (C60_result_lengths E L fuel m os _ b m' os' 32 H eq_refl) as [-> | ->]; discriminate.
Qed.
Print Assumptions C60_documented_roster_length_refuted.

(** ** C61: lengths wider than the address space *)
Theorem C61_reads_exactly_len : forall E, usize_bits E = 64 -> forall m len p b, 0 <= len < 2 ^ 64 ->
  @len_and_ptr_to_slice E m len p = Next b -> Z.of_nat (List.length b) = len.
Proof.
  intros E Hw m len p b Hl H. apply slice_next in H as (_ & _ & H). apply read_length in H. rewrite H.
  unfold as_size_t. rewrite Hw, Z.mod_small by exact Hl. lia.
Qed.
Print Assumptions C61_reads_exactly_len.
(** Where addresses have 32 bits the upper half of a length is dropped: a call
    given a length of 4 GiB and some bytes does what it does with the bytes. *)
Theorem C61_reads_exactly_len_refuted : forall E, usize_bits E = 32 -> forall fuel m os e el k,
  0 < el < 2 ^ 32 -> 0 <= k < 2 ^ 32 ->
  @c_run E fuel m os (RosterEntryCommitmentRemoveOpening e (el + k * 2 ^ 32)) =
  @c_run E fuel m os (RosterEntryCommitmentRemoveOpening e el).
Proof.
  intros E Hw fuel m os e el k Hl Hk. cbn [c_run]. unfold c_roster_entry_commitment_remove_opening. f_equal. f_equal.
  unfold deserialize_or_return. f_equal. unfold len_and_ptr_to_slice.
  destruct (Z.eqb_spec (el + k * 2 ^ 32) 0) as [K|_]; [nia|]. destruct (Z.eqb_spec el 0) as [K|_]; [lia|].
  unfold as_size_t. rewrite Hw, Z.mod_add by discriminate. reflexivity.
Qed.
Print Assumptions C61_reads_exactly_len_refuted.

(** ** C62: users obtained with several issuer keys *)
(** A user made by [user_obtain_finish] can be decoded, as [user_show] does,
    only when the issuer parameters were one key. *)
Lemma user_bytes_length {E} (L : ExtLaws E) (u : User E) : us_key u = None ->
  (forall c, us_credential u = Some c -> List.length (cr_attributes c) = 1%nat) ->
  List.length (user_to_bytes u) = (224 + 32 * List.length (pk_Xn (us_issuer_parameters u)))%nat.
Proof.
  intros Hk Hc. unfold user_to_bytes. rewrite Hk, !app_length, (system_parameters_length L), (public_key_length L), zeros_length.
  destruct (us_credential u) as [c|]; [rewrite (credential_length L), (Hc c eq_refl)|rewrite zeros_length]; lia.
Qed.
Lemma c_obtain_inv {E} (L : ExtLaws E) fuel m os n nl p pl ip ipl s sl ub :
  returned (@c_run E fuel m os (UserObtainFinish n nl p pl ip ipl s sl)) ub ->
  exists pb (params : SystemParameters E) ipb (ips : PublicKey E) sb (iss : CredentialIssuance E) nb num X1 Xs,
    @given E m p pl pb /\ system_parameters_from_bytes pb = Ok params /\
    @given E m ip ipl ipb /\ public_key_from_bytes ipb = Ok ips /\
    @given E m s sl sb /\ issuance_from_bytes sb = Ok iss /\ @given E m n nl nb /\ try_from_bytes nb = Ok num /\
    pk_Xn ips = X1 :: Xs /\
    ir_verify (is_proof iss) issuance_transcript (issuance_publics params X1 iss) = Ok tt /\
    ub = signal_user_to_bytes {| su_phone_number := num; su_user := {| us_system_parameters := params;
           us_issuer_parameters := ips; us_key := None; us_credential := Some (is_credential iss) |} |}.
Proof.
  intros (b & m' & os' & H & Hl & Hlast). cbn [c_run] in H. unfold c_user_obtain_finish in H.
  apply call_returns in H as [H|(H & -> & ->)].
  2:{ match type of H with ?x = _ => assert (K : only_empty x) by empties L; rewrite (K _ H) in Hlast end. discriminate. }
  apply then_next in H as (params & H1 & H). apply des_next in H1 as (pb & G1 & D1).
  apply then_next in H as (ips & H1 & H). apply des_next in H1 as (ipb & G2 & D2).
  apply then_next in H as (iss & H1 & H). apply des_next in H1 as (sb & G3 & D3).
  apply then_next in H as (nb & H1 & H). apply slice_next in H1.
  apply then_next in H as (u & H2 & H). apply ok_or_return_next in H2.
  unfold signal_user_new in H2. destruct (try_from_bytes nb) as [num| |] eqn:Hnum; cbn [map_err bind] in H2; try discriminate.
  assert (u = {| su_phone_number := num; su_user := user_new params ips None |}) by congruence. subst u. clear H2.
  unfold signal_obtain_finish in H. cbn [su_user su_phone_number] in H.
  pose proof (obtain_finish_accept (user_new params ips None) iss) as Ha.
  pose proof (obtain_finish_ok (user_new params ips None) iss) as Hok.
  destruct (obtain_finish (user_new params ips None) (Some iss)) as [v res]. cbn [snd] in Ha, Hok.
  apply then_next in H as ([] & H2 & H). apply ok_or_return_next in H2. subst res.
  destruct (proj1 Hok eq_refl) as (X1 & Xs & HX & Hv). specialize (Ha eq_refl). injection Ha as ->.
  cbn [user_new us_issuer_parameters us_system_parameters us_key] in *.
  exists pb, params, ipb, ips, sb, iss, nb, num, X1, Xs. do 10 (split; [assumption|]).
  match type of H with return_serialized _ _ ?ser = _ =>
    assert (Hne : ser <> []) by (unfold signal_user_to_bytes, phone_number_to_bytes; intros K;
      apply (f_equal (@List.length byte)) in K; rewrite app_length, scalar_to_bytes_length in K; cbn in K; lia) end.
  destruct (return_serialized_spec _ _ _ _ Hne H) as (b0 & m0 & Hx & _ & -> & Hm & _).
  pose proof (f_equal (fun x => fst (fst x)) Hx) as Hb. pose proof (f_equal (fun x => snd (fst x)) Hx) as Hm'. cbn [fst snd] in Hb, Hm'.
  subst b m'. clear Hx. cbn [last_contents buf_ptr buf_len] in Hlast. rewrite Hm, Nat.eqb_refl, Z.eqb_refl in Hlast.
  injection Hlast as <-. reflexivity.
Qed.
Theorem C62_obtained_user_decodes_iff_one_key : forall E, ExtLaws E -> forall fuel m os n nl p pl ip ipl s sl ub,
  returned (@c_run E fuel m os (UserObtainFinish n nl p pl ip ipl s sl)) ub ->
  exists ipb, @given E m ip ipl ipb /\
    ((exists u, @signal_user_from_bytes E ub = Ok u) <-> List.length ipb = 32%nat).
Proof.
  intros E L fuel m os n nl p pl ip ipl s sl ub H.
  apply (c_obtain_inv L) in H as (pb & params & ipb & ips & sb & iss & nb & num & X1 & Xs & G1 & D1 & G2 & D2 & G3 & D3 & G4 & D4 & HX & Hv & ->).
  exists ipb. split; [exact G2|]. apply (public_key_iff L) in D2. subst ipb. rewrite (public_key_length L), HX.
  apply (issuance_iff L) in D3 as [[Hwc _] _]. pose proof (proj1 Hwc) as Hlen.
  match goal with |- (exists u, signal_user_from_bytes (signal_user_to_bytes {| su_phone_number := _; su_user := ?w |}) = _) <-> _ => set (us := w) end.
  assert (Hl : List.length (user_to_bytes us) = (224 + 32 * List.length (X1 :: Xs))%nat).
  { rewrite (user_bytes_length L us eq_refl); [cbn [us us_issuer_parameters]; rewrite HX; reflexivity|]. intros c [= <-]. exact Hlen. }
  split.
  - intros (u & Hu). apply (signal_user_iff L) in Hu as (nn & Hn & _ & Hw & Hb).
    apply (f_equal (@List.length byte)) in Hb. unfold signal_user_to_bytes, phone_number_to_bytes in Hb. cbn [su_user su_phone_number] in Hb.
    rewrite !app_length, scalar_to_bytes_length, Hn, Hl, (user_length L _ Hw) in Hb. lia.
  - intros H1. exists {| su_phone_number := num; su_user :=
      {| us_system_parameters := params; us_issuer_parameters := ips; us_key := None;
         us_credential := if bytes_eqb (credential_to_bytes (is_credential iss)) (zeros 96) then None else Some (is_credential iss) |} |}.
    apply (signal_user_iff L). exists (scalar_to_bytes num). split; [apply scalar_to_bytes_length|].
    split; [symmetry; apply from_bits_roundtrip, canonical_bits, (try_from_bytes_canonical _ _ D4)|].
    unfold user_wf, signal_user_to_bytes, phone_number_to_bytes, user_to_bytes, us.
    cbn [su_phone_number su_user us_system_parameters us_issuer_parameters us_key us_credential].
    destruct (bytes_eqb (credential_to_bytes (is_credential iss)) (zeros 96)) eqn:Hz.
    + apply bytes_eqb_true in Hz. rewrite Hz. split; [|reflexivity]. rewrite HX. split; [lia|]. auto.
    + split; [|reflexivity]. rewrite HX. split; [lia|]. split; [exact I|]. split; [exact Hwc|].
      intros K. apply bytes_eqb_true in K. congruence.
Qed.
Print Assumptions C62_obtained_user_decodes_iff_one_key.
(** Whatever key is put after the issuer's, [user_obtain_finish] succeeds, and
    its result cannot be used. *)
Theorem C62_obtained_user_decodes_refuted : forall E, ExtLaws E -> forall fuel m m' os n nl p pl ip ipl s sl ub ipb (X : point E) ip',
  returned (@c_run E fuel m os (UserObtainFinish n nl p pl ip ipl s sl)) ub ->
  @given E m ip ipl ipb -> (List.length ipb < 1000)%nat ->
  (forall q k b, @given E m q k b -> @given E m' q k b) -> holds m' ip' (ipb ++ compress X)%list ->
  exists ub', returned (@c_run E fuel m' os (UserObtainFinish n nl p pl ip' (len (ipb ++ compress X)) s sl)) ub' /\
    forall u, @signal_user_from_bytes E ub' <> Ok u.
Proof.
  intros E L fuel m m' os n nl p pl ip ipl s sl ub ipb X ip' H G Hbound Hmem Hh.
  apply (c_obtain_inv L) in H as (pb & params & ipb' & ips & sb & iss & nb & num & X1 & Xs & G1 & D1 & G2 & D2 & G3 & D3 & G4 & D4 & HX & Hv & _).
  assert (ipb' = ipb) by (destruct G as (_ & _ & G), G2 as (_ & _ & G2); congruence). subst ipb'. clear G2.
  apply (public_key_iff L) in D2.
  set (ips' := {| pk_Xn := (pk_Xn ips ++ [X])%list |}).
  assert (Hb : (ipb ++ compress X)%list = public_key_to_bytes ips').
  { subst ipb. unfold public_key_to_bytes, ips'. cbn [pk_Xn]. rewrite flat_map_app. cbn [flat_map]. rewrite app_nil_r. reflexivity. }
  assert (Hl' : List.length (ipb ++ compress X)%list = (List.length ipb + 32)%nat) by (rewrite app_length, (compress_len L); reflexivity).
  assert (G2 : @given E m' ip' (len (ipb ++ compress X)) (ipb ++ compress X)%list).
  { apply (holds_given L); [exact Hh|]. rewrite Hl'. split; [lia|]. eapply Nat.lt_trans with 2000%nat; [lia|].
    apply Nat.ltb_lt. vm_compute. reflexivity. }
  assert (D2' : public_key_from_bytes (ipb ++ compress X)%list = Ok ips') by (apply (public_key_iff L); exact Hb).
  pose (u := {| su_phone_number := num; su_user := {| us_system_parameters := params;
           us_issuer_parameters := ips'; us_key := None; us_credential := Some (is_credential iss) |} |}).
  assert (R : returned (@c_run E fuel m' os (UserObtainFinish n nl p pl ip' (len (ipb ++ compress X)) s sl)) (signal_user_to_bytes u)).
  { cbn [c_run]. unfold c_user_obtain_finish.
    rewrite (proj2 (des_next _ _ _ _ _) (ex_intro _ _ (conj (Hmem _ _ _ G1) D1))). cbn [then_].
    rewrite (proj2 (des_next _ _ _ _ _) (ex_intro _ _ (conj G2 D2'))). cbn [then_].
    rewrite (proj2 (des_next _ _ _ _ _) (ex_intro _ _ (conj (Hmem _ _ _ G3) D3))). cbn [then_].
    rewrite (proj2 (slice_next _ _ _ _) (Hmem _ _ _ G4)). cbn [then_].
    unfold signal_user_new. rewrite D4. cbn [map_err bind ok_or_return then_].
    unfold signal_obtain_finish. cbn [su_user su_phone_number].
    assert (Hok : snd (obtain_finish (user_new params ips' None) (Some iss)) = Ok tt).
    { apply obtain_finish_ok. exists X1, (Xs ++ [X])%list. cbn [user_new us_issuer_parameters us_system_parameters ips' pk_Xn].
      rewrite HX. split; [reflexivity|exact Hv]. }
    rewrite (obtain_finish_accept _ _ Hok). cbn [ok_or_return then_ user_new us_issuer_parameters us_system_parameters us_key].
    apply returned_ser. unfold signal_user_to_bytes, phone_number_to_bytes. intros K.
    apply (f_equal (@List.length byte)) in K. rewrite app_length, scalar_to_bytes_length in K. cbn in K. lia. }
  exists (signal_user_to_bytes u). split; [exact R|]. intros v Hu'.
  destruct (C62_obtained_user_decodes_iff_one_key E L _ _ _ _ _ _ _ _ _ _ _ _ R) as (b & Gb & Hiff).
  assert (b = (ipb ++ compress X)%list) by (destruct Gb as (_ & _ & Gb), G2 as (_ & _ & G2); congruence). subst b.
  pose proof (proj1 Hiff (ex_intro _ v Hu')) as K. rewrite Hl' in K.
  rewrite D2, (public_key_length L), HX in K. cbn [List.length] in K. lia.
Qed.
Print Assumptions C62_obtained_user_decodes_refuted.

(** ** Examples *)
Definition result_len (r : call_result) : Z := match r with Returns b _ _ => buf_len b | _ => -1 end.
Definition unwinds (r : call_result) : bool := match r with Unwinds => true | _ => false end.

(** The parameter search ends at once for this seed. *)
Example C02_met : match @hunt_and_peck toy 1 (@chacha toy (zeros 32)) with Some _ => true | None => false end = true.
Proof. vm_compute. reflexivity. Qed.
(** A call which succeeds, one which fails, and one which unwinds. *)
Example C47_met :
  result_len (@c_run toy 0 (blocks [le_encode 64 5]) (toy_stream 1) (RosterEntryCommitmentRemoveOpening (Block 0 0) 64)) = 32.
Proof. vm_compute. reflexivity. Qed.
Example C48_met :
  result_len (@c_run toy 0 (blocks [le_encode 64 (2 ^ 255)]) (toy_stream 1) (RosterEntryCommitmentRemoveOpening (Block 0 0) 64)) = 0.
Proof. vm_compute. reflexivity. Qed.
Example C49_met :
  unwinds (@c_run toy 0 (blocks [le_encode 63 5]) (toy_stream 1) (RosterEntryCommitmentRemoveOpening (Block 0 0) 63)) = true.
Proof. vm_compute. reflexivity. Qed.
Example C48_open_met : exists n, try_from_bytes (str "123") = Ok n /\
  (result_len (@c_run toy 0 (blocks [roster_to_bytes (sample_entry n); str "123"; system_parameters_to_bytes sample_params])
     (toy_stream 1) (RosterEntryCommitmentOpen (Block 0 0) 64 (Block 1 0) 3 (Block 2 0) 64)) =? 1) = true.
Proof. apply run1. vm_compute. reflexivity. Qed.
(** A 32-bit build, and a length of 4 GiB + 64. *)
Definition toy32 : Ext := {|
  point := point toy; pzero := @pzero toy; padd := @padd toy; pneg := @pneg toy; peqb := @peqb toy;
  basepoint := @basepoint toy; compress := @compress toy; decompress := @decompress toy;
  tr_challenge := @tr_challenge toy; tr_rng := @tr_rng toy; chacha := @chacha toy; sha512 := @sha512 toy;
  debug_build := false; usize_bits := 32 |}.
Example C61_met :
  result_len (@c_run toy32 0 (blocks [le_encode 64 5]) (toy_stream 1)
    (RosterEntryCommitmentRemoveOpening (Block 0 0) (64 + 2 ^ 32))) = 32.
Proof. vm_compute. reflexivity. Qed.
(** An issuance accepted with the issuer's key, and with a second key after it. *)
Definition obtained_length (keys : list (point toy)) (iss : CredentialIssuance toy) : Z :=
  result_len (@c_run toy 0 (blocks [str "123"; system_parameters_to_bytes sample_params;
                                   public_key_to_bytes {| pk_Xn := keys |}; issuance_to_bytes iss]) (toy_stream 1)
    (UserObtainFinish (Block 0 0) 3 (Block 1 0) 64 (Block 2 0) (32 * Z.of_nat (List.length keys)) (Block 3 0) 328)).
Example C62_met : exists iss r os, signal_issue sample_issuer (str "123") (toy_stream 7) (toy_stream 8) = Ok (iss, r, os) /\
  ((obtained_length (pk_Xn (kp_public (iss_keypair sample_issuer))) iss =? 288) &&
   (obtained_length (pk_Xn (kp_public (iss_keypair sample_issuer)) ++ [pt 9])%list iss =? 320)) = true.
Proof. apply run3. vm_compute. reflexivity. Qed.
(** One argument missing and the other readable; and both missing. *)
Example C50_met :
  let m := blocks [le_encode 64 5; str "123"] in
  let f := RosterEntryCommitmentOpen (Block 0 0) 64 (Block 1 0) 3 Null 64 in
  In (Null, Some 64) (c_arguments f) /\ missing (Null, Some 64) /\ readable toy m (Block 0 0, Some 64) /\ readable toy m (Block 1 0, Some 3) /\
  unwinds (@c_run toy 0 m (toy_stream 1) f) = false /\
  (forall a, In a (c_arguments (RosterEntryCommitmentRemoveOpening Null 64)) -> missing a).
Proof.
  cbv zeta. split; [cbn; tauto|]. split; [left; reflexivity|]. split; [eexists; reflexivity|]. split; [eexists; reflexivity|].
  split; [vm_compute; reflexivity|]. intros a [<-|[]]. left. reflexivity.
Qed.
(** A membership check which succeeds returns 32 bytes. *)
Example C60_met : exists n, try_from_bytes (str "123") = Ok n /\
  (let p := forge_signal_presentation sample_params (pt 231) n 2 3 (sample_entry n) (toy_stream 1) (toy_stream 2) in
   let b := signal_presentation_to_bytes p in
   result_len (@c_run toy 0 (blocks [issuer_to_bytes sample_issuer; b]) (toy_stream 1)
     (IssuerVerifyRosterMembership (Block 0 0) 160 (Block 1 0) (Z.of_nat (List.length b)))) =? 32) = true.
Proof. apply run1. vm_compute. reflexivity. Qed.
