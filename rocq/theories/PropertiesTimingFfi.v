(** C106: what running time shows of secrets through the C interface, and of
    values on their way to JavaScript. *)
From Verif Require Import BaseFacts Algebra Toy CodecFacts CompositeFacts SignalFacts ShowFacts PropertiesCodec PropertiesIssue PropertiesShow PropertiesSignal PropertiesTiming PropertiesFfi.
From Verif Require Import SpecCodec SpecTiming TimingFacts TimingFfiFacts SpecTimingFfi ModelTimingFfi.

Theorem C106_computes : forall E fuel m os f, snd (@t_c_run E fuel m os f) = @c_run E fuel m os f.
Proof. intros. apply c_run_result. Qed.
Print Assumptions C106_computes.

(** The functions which make or keep secrets: two calls with the same pointers
    and lengths which both succeed show the same, whatever the bytes at the
    pointers and the randomness are. *)
Theorem C106_makers : forall E, ExtLaws E -> forall fuel m m' os os' f, maker f ->
  succeeds (@c_run E fuel m os f) -> succeeds (@c_run E fuel m' os' f) ->
  fst (@t_c_run E fuel m os f) = fst (@t_c_run E fuel m' os' f).
Proof.
  intros E L fuel m m' os os' f Hf.
  destruct f as [s|p pl s|p pl k kl|i il|i il n nl s|i il p pl|i il v vl|n nl p pl ip ipl x xl|u ul e el s|n nl p pl s|e el|e el n nl p pl];
    try contradiction Hf; clear Hf.
  - eapply calm_calls; [reflexivity|reflexivity| | |]; [be_quiet L..|].
    eapply calm_then; [apply calm_seed|]. intros r r' _ _ _.
    eapply calm_then; [apply (calm_des _ (@system_parameters_from_bytes E) _ _ _ _ system_parameters_from_bytes_result system_parameters_sure)|].
    intros q q' _ _ _. eapply calm_bind; [apply issuer_create_alike|].
    intros [i r1] [i' r1'] Hi Hi' _. rewrite issuer_create_result in Hi, Hi'. apply calm_return.
    unfold issuer_create, keypair_new, secret_key_new in Hi, Hi'. cbn [scalars_random NUMBER_OF_ATTRIBUTES] in Hi, Hi'.
    destruct (scalar_random r) as [x0 r2], (scalar_random r') as [x0' r2']. destruct (scalar_random r2) as [x1 r3], (scalar_random r2') as [x1' r3'].
    injection Hi as -> ->. injection Hi' as -> ->. apply (keypair_alike L); reflexivity.
  - eapply calm_calls; [reflexivity|reflexivity| | |]; [be_quiet L..|].
    eapply calm_then; [apply (calm_des _ (@system_parameters_from_bytes E) _ _ _ _ system_parameters_from_bytes_result system_parameters_sure)|].
    intros q q' _ _ _.
    eapply calm_then; [apply (calm_des _ (@keypair_from_bytes E) _ _ _ _ keypair_from_bytes_result keypair_sure)|].
    intros c c' _ _ Hc. apply calm_return, (issuer_alike L). exact (decoded_keypair L _ _ Hc).
  - eapply calm_calls; [reflexivity|reflexivity| | |]; [be_quiet L..|].
    eapply calm_then; [apply (calm_des _ (@issuer_from_bytes E) _ _ _ _ issuer_from_bytes_result issuer_sure)|].
    intros c c' _ _ Hc. apply calm_return, (public_key_alike L). exact (proj1 (decoded_issuer L _ _ Hc)).
  - eapply calm_calls; [reflexivity|reflexivity| | |]; [be_quiet L..|].
    eapply calm_then; [apply (calm_des _ (@issuer_from_bytes E) _ _ _ _ issuer_from_bytes_result issuer_sure)|].
    intros c c' _ _ Hc. apply (decoded_issuer L) in Hc. eapply calm_then; [apply calm_seed|]. intros r r' _ _ _.
    eapply calm_then; [apply calm_slice|]. intros b b' _ _ Hb.
    eapply calm_then; [apply calm_ok, sure_alike, signal_issue_alike; assumption|].
    intros [[x r1] o] [[x' r1'] o'] Hx Hx' _. rewrite snd_t_ok_or_return, ok_or_return_next, signal_issue_result in Hx, Hx'.
    apply calm_return, (issuance_alike L). rewrite (issued_attributes _ _ _ _ _ _ _ Hx), (issued_attributes _ _ _ _ _ _ _ Hx'). reflexivity.
  - eapply calm_calls; [reflexivity|reflexivity| | |]; [be_quiet L..|].
    eapply calm_then; [apply calm_seed|]. intros r r' _ _ _.
    eapply calm_then; [apply calm_slice|]. intros b b' _ _ Hb.
    eapply calm_then; [apply (calm_des _ (@system_parameters_from_bytes E) _ _ _ _ system_parameters_from_bytes_result system_parameters_sure)|].
    intros q q' _ _ _.
    eapply calm_then; [apply calm_ok, sure_alike, roster_create_alike, Hb|].
    intros [x r1] [x' r1'] _ _ _. apply calm_return, alike_now.
    unfold roster_to_bytes, committed_to_bytes, commitment_to_bytes. rewrite !app_length, !(compress_len L), !scalar_to_bytes_length. reflexivity.
  - eapply calm_calls; [reflexivity|reflexivity| | |]; [be_quiet L..|].
    eapply calm_then; [apply (calm_des _ (@roster_from_bytes E) _ _ _ _ roster_from_bytes_result); intros; apply roster_sure|].
    intros x x' _ _ _. apply calm_return, alike_now. unfold committed_to_bytes, commitment_to_bytes. rewrite !(compress_len L). reflexivity.
Qed.
Print Assumptions C106_makers.


Section checks.
  Context {E : Ext} (L : ExtLaws E).

  (** Past an argument both calls can read. *)
  Lemma des_given {Er A} (tf : bytes -> timed (outcome Er A)) f m m' len p b b' a a' :
    (forall x, snd (tf x) = f x) -> (forall x x', List.length x = List.length x' -> sure any (tf x) (tf x')) ->
    @given E m p len b -> f b = Ok a -> @given E m' p len b' -> f b' = Ok a' ->
    fst (@t_deserialize_or_return E Er A tf m len p) = fst (@t_deserialize_or_return E Er A tf m' len p) /\
    snd (@t_deserialize_or_return E Er A tf m len p) = Next a /\ snd (@t_deserialize_or_return E Er A tf m' len p) = Next a'.
  Proof.
    intros Hr Hs G D G' D'.
    assert (N : snd (@t_deserialize_or_return E Er A tf m len p) = Next a) by (rewrite (des_result tf f) by exact Hr; apply des_next; eauto).
    assert (N' : snd (@t_deserialize_or_return E Er A tf m' len p) = Next a') by (rewrite (des_result tf f) by exact Hr; apply des_next; eauto).
    split; [|auto]. exact (proj1 (calm_des tf f m m' len p Hr Hs a a' N N')).
  Qed.
  (** Past an argument which is the same in both calls. *)
  Lemma des_same {Er A} (tf : bytes -> timed (outcome Er A)) m m' len p b : @given E m p len b -> @given E m' p len b ->
    @t_deserialize_or_return E Er A tf m len p = @t_deserialize_or_return E Er A tf m' len p.
  Proof.
    intros G G'. unfold t_deserialize_or_return.
    replace (@t_len_and_ptr_to_slice E m' len p) with (@t_len_and_ptr_to_slice E m len p); [reflexivity|].
    destruct G as (_ & _ & G), G' as (_ & _ & G'). unfold t_len_and_ptr_to_slice. rewrite G, G'. reflexivity.
  Qed.
  Lemma slice_given m m' len p b b' : @given E m p len b -> @given E m' p len b' ->
    fst (@t_len_and_ptr_to_slice E m len p) = fst (@t_len_and_ptr_to_slice E m' len p) /\
    snd (@t_len_and_ptr_to_slice E m len p) = Next b /\ snd (@t_len_and_ptr_to_slice E m' len p) = Next b' /\
    List.length b = List.length b'.
  Proof.
    intros G G'.
    assert (N : snd (@t_len_and_ptr_to_slice E m len p) = Next b) by (rewrite slice_result; apply slice_next, G).
    assert (N' : snd (@t_len_and_ptr_to_slice E m' len p) = Next b') by (rewrite slice_result; apply slice_next, G').
    destruct (calm_slice m m' len p b b' N N') as [T H]. auto.
  Qed.

  Lemma ok_trace {Er A B C} (m : timed (outcome Er A)) (m' : timed (outcome Er B)) (k : A -> timed (step C)) (k' : B -> timed (step C)) :
    fst m = fst m' -> both any (snd m) (snd m') ->
    (forall a b, snd m = Ok a -> snd m' = Ok b -> fst (k a) = fst (k' b)) ->
    fst (t_then (t_ok_or_return m) k) = fst (t_then (t_ok_or_return m') k').
  Proof.
    intros T B0 H. rewrite !fst_t_then, !snd_t_ok_or_return. unfold t_ok_or_return. rewrite !fst_tbind, !fst_attempt, T.
    destruct (snd m) as [a|e|], (snd m') as [a'|e'|]; cbn in *; try contradiction; try reflexivity.
    rewrite (H a a' eq_refl eq_refl). reflexivity.
  Qed.
  Lemma succeeds_serialized m os b : b <> [] -> succeeds (call m os (return_serialized m os b)).
  Proof.
    intros H. destruct (return_serialized_next m os b) as [[[x m1] os1] K]. rewrite K. cbn. do 3 eexists. split; [reflexivity|].
    unfold return_serialized in K. destruct (vec_new m b) as [p m2]. injection K as <- _ _. cbn. destruct b; [congruence|]. cbn. lia.
  Qed.
End checks.

Lemma succeeds_checked {Er A} m os (o : outcome Er A) (f : A -> bytes) : (forall a, f a <> []) ->
  (succeeds (call m os (then_ (ok_or_return o) (fun a => return_serialized m os (f a)))) <-> accepts o).
Proof.
  intros Hf. destruct o as [a|e|]; cbn [ok_or_return then_ call].
  - split; [intros _; exists a; reflexivity|intros _; apply succeeds_serialized, Hf].
  - split; [intros (b & m1 & o1 & [= <- _ _] & H); elim H; reflexivity|intros [a [=]]].
  - split; [intros (b & m1 & o1 & [=] & _)|intros [a [=]]].
Qed.
Lemma accepts_both {Er A B} (o : outcome Er A) (o' : outcome Er B) : (accepts o <-> accepts o') -> both any o o'.
Proof.
  intros H. destruct o as [a|e|], o' as [a'|e'|]; cbn; try exact I.
  - destruct (proj1 H) as [x [=]]. exists a. reflexivity.
  - destruct (proj1 H) as [x [=]]. exists a. reflexivity.
  - destruct (proj2 H) as [x [=]]. exists a'. reflexivity.
  - destruct (proj2 H) as [x [=]]. exists a'. reflexivity.
Qed.

(** The functions which check a presentation: of the issuer's key only the
    answer. *)
Theorem C106_verify : forall E, ExtLaws E -> forall fuel m m' os os' i il ib ib' (x x' : Issuer E) p pl b,
  @given E m i il ib -> issuer_from_bytes ib = Ok x -> @given E m' i il ib' -> issuer_from_bytes ib' = Ok x' ->
  @given E m p pl b -> @given E m' p pl b ->
  forall f, f = IssuerVerify i il p pl \/ f = IssuerVerifyRosterMembership i il p pl ->
  (succeeds (@c_run E fuel m os f) <-> succeeds (@c_run E fuel m' os' f)) ->
  fst (@t_c_run E fuel m os f) = fst (@t_c_run E fuel m' os' f).
Proof.
  intros E L fuel m m' os os' i il ib ib' x x' p pl b G D G' D' GP GP' f Hf.
  destruct (des_given (@t_issuer_from_bytes E) issuer_from_bytes m m' il i ib ib' x x' issuer_from_bytes_result issuer_sure G D G' D') as (T & N & N').
  assert (C : same_counts x x').
  { apply (decoded_issuer L). exists ib, ib'. split; [|auto]. destruct G as (_ & _ & G), G' as (_ & _ & G').
    rewrite (read_length _ _ _ _ G), (read_length _ _ _ _ G'). reflexivity. }
  rewrite <- !c_run_result. destruct Hf as [-> | ->]; cbn [t_c_run].
  - unfold t_c_issuer_verify. rewrite !snd_t_call, !fst_t_call, !(snd_t_then (t_deserialize_or_return t_issuer_from_bytes _ _ _)),
      !(fst_t_then (t_deserialize_or_return t_issuer_from_bytes _ _ _)), N, N', T. cbn [then_].
    rewrite <- (des_same (@t_signal_presentation_from_bytes E) m m' pl p b GP GP').
    set (d := t_deserialize_or_return t_signal_presentation_from_bytes m pl p). rewrite !(snd_t_then d), !(fst_t_then d).
    destruct (snd d) as [q|y| | |]; try reflexivity. cbn [then_]. intros H. f_equal. f_equal.
    rewrite !snd_t_then, !snd_t_ok_or_return, !signal_verify_result in H.
    assert (A : accepts (signal_verify x q) <-> accepts (signal_verify x' q)).
    { rewrite <- (succeeds_checked m os _ (fun v : VerifiedSignalCredential E => signal_presentation_to_bytes (vs_presentation v))) by (intros; apply (signal_presentation_nonempty L)).
      rewrite <- (succeeds_checked m' os' (signal_verify x' q) (fun v : VerifiedSignalCredential E => signal_presentation_to_bytes (vs_presentation v))) by (intros; apply (signal_presentation_nonempty L)).
      rewrite <- (then_same _ _ _ _ eq_refl (fun v => f_equal (return_serialized m os) (signal_presentation_to_bytes_result (vs_presentation v)))).
      rewrite <- (then_same _ _ _ _ eq_refl (fun v => f_equal (return_serialized m' os') (signal_presentation_to_bytes_result (vs_presentation v)))).
      exact H. }
    apply ok_trace.
    + apply (signal_verify_trace x x' q C), A.
    + rewrite !signal_verify_result. apply accepts_both, A.
    + intros v v' Hv Hv'. rewrite signal_verify_result in Hv, Hv'. unfold signal_verify in Hv, Hv'. inv_ok. reflexivity.
  - unfold t_c_issuer_verify_roster_membership. rewrite !snd_t_call, !fst_t_call, !(snd_t_then (t_deserialize_or_return t_issuer_from_bytes _ _ _)),
      !(fst_t_then (t_deserialize_or_return t_issuer_from_bytes _ _ _)), N, N', T. cbn [then_].
    rewrite <- (des_same (@t_verified_signal_from_bytes E) m m' pl p b GP GP').
    set (d := t_deserialize_or_return t_verified_signal_from_bytes m pl p). rewrite !(snd_t_then d), !(fst_t_then d).
    destruct (snd d) as [q|y| | |]; try reflexivity. cbn [then_]. intros H. f_equal. f_equal.
    rewrite !snd_t_then, !snd_t_ok_or_return, !verify_roster_membership_result in H.
    assert (A : accepts (verify_roster_membership x q) <-> accepts (verify_roster_membership x' q)).
    { rewrite <- (succeeds_checked m os _ (@committed_to_bytes E)) by (intros; apply (committed_nonempty L)).
      rewrite <- (succeeds_checked m' os' (verify_roster_membership x' q) (@committed_to_bytes E)) by (intros; apply (committed_nonempty L)).
      exact H. }
    apply ok_trace.
    + apply (roster_membership_trace x x' q), A.
    + rewrite !verify_roster_membership_result. apply accepts_both, A.
    + intros v v' Hv Hv'. rewrite verify_roster_membership_result in Hv, Hv'. unfold verify_roster_membership in Hv, Hv'. inv_ok. reflexivity.
Qed.
Print Assumptions C106_verify.

(** Checking a number against a roster entry: of the entry, its opening, the
    number and the parameters only the answer and the number of digits. *)
Theorem C106_open : forall E, ExtLaws E -> forall fuel m m' os os' e el eb eb' (x x' : RosterEntryCommitment E) n nl nb nb' p pl pb pb' (q q' : SystemParameters E),
  @given E m e el eb -> roster_from_bytes eb = Ok x -> @given E m' e el eb' -> roster_from_bytes eb' = Ok x' ->
  @given E m n nl nb -> @given E m' n nl nb' ->
  @given E m p pl pb -> system_parameters_from_bytes pb = Ok q -> @given E m' p pl pb' -> system_parameters_from_bytes pb' = Ok q' ->
  let f := RosterEntryCommitmentOpen e el n nl p pl in
  (succeeds (@c_run E fuel m os f) <-> succeeds (@c_run E fuel m' os' f)) ->
  fst (@t_c_run E fuel m os f) = fst (@t_c_run E fuel m' os' f).
Proof.
  intros E L fuel m m' os os' e el eb eb' x x' n nl nb nb' p pl pb pb' q q' GE DE GE' DE' GN GN' GP DP GP' DP' f. subst f.
  destruct (slice_given m m' nl n nb nb' GN GN') as (T1 & N1 & N1' & HL).
  destruct (des_given (@t_system_parameters_from_bytes E) system_parameters_from_bytes m m' pl p pb pb' q q'
    system_parameters_from_bytes_result system_parameters_sure GP DP GP' DP') as (T2 & N2 & N2').
  destruct (des_given (@t_roster_from_bytes E) roster_from_bytes m m' el e eb eb' x x'
    roster_from_bytes_result (fun b b' _ => roster_sure b b') GE DE GE' DE') as (T3 & N3 & N3').
  rewrite <- !c_run_result. cbn [t_c_run]. unfold t_c_roster_entry_commitment_open. rewrite !snd_t_call, !fst_t_call.
  rewrite !(snd_t_then (t_len_and_ptr_to_slice _ _ _)), !(fst_t_then (t_len_and_ptr_to_slice _ _ _)), N1, N1', T1. cbn [then_].
  rewrite !(snd_t_then (t_deserialize_or_return t_system_parameters_from_bytes _ _ _)),
    !(fst_t_then (t_deserialize_or_return t_system_parameters_from_bytes _ _ _)), N2, N2', T2. cbn [then_].
  rewrite !(snd_t_then (t_deserialize_or_return t_roster_from_bytes _ _ _)),
    !(fst_t_then (t_deserialize_or_return t_roster_from_bytes _ _ _)), N3, N3', T3. cbn [then_].
  intros H. f_equal. f_equal. f_equal. rewrite !snd_tbind, !snd_attempt, !roster_open_result in H.
  rewrite !fst_tbind, !fst_attempt.
  assert (R : roster_open x nb q = roster_open x' nb' q').
  { destruct (C27_outcomes nb) as (A1 & A2 & A3), (C27_outcomes nb') as (B1 & B2 & B3). unfold roster_open in *.
    destruct (Nat.le_gt_cases (List.length nb) 27) as [H27|H27].
    - destruct (A1 H27) as [(z & Hz & _) _], (B1 ltac:(lia)) as [(z' & Hz' & _) _]. rewrite Hz, Hz' in *. cbn [bind map_err] in *.
      unfold committed_open, commitment_open in *. destruct (peqb _ _), (peqb _ _); cbn [map_err] in *; try reflexivity; exfalso.
      + destruct (proj1 H) as (b & m1 & o1 & [= <- _ _] & Hb); [do 3 eexists; split; [reflexivity|discriminate]|elim Hb; reflexivity].
      + destruct (proj2 H) as (b & m1 & o1 & [= <- _ _] & Hb); [do 3 eexists; split; [reflexivity|discriminate]|elim Hb; reflexivity].
    - destruct (Nat.le_gt_cases (List.length nb) 32) as [H32|H32].
      + destruct (A2 (conj H27 H32)) as [-> _], (B2 ltac:(lia)) as [-> _]. reflexivity.
      + destruct (A3 H32) as [-> _], (B3 ltac:(lia)) as [-> _]. reflexivity. }
  rewrite (proj2 (roster_open_trace x x' nb nb' q q' HL) R), !roster_open_result, R. reflexivity.
Qed.
Print Assumptions C106_open.

Lemma obtain_answers {E} (u u' : SignalUser E) i :
  List.length (pk_Xn (us_issuer_parameters (su_user u))) = List.length (pk_Xn (us_issuer_parameters (su_user u'))) ->
  (accepts (snd (signal_obtain_finish u (Some i))) <-> accepts (snd (signal_obtain_finish u' (Some i)))) ->
  snd (signal_obtain_finish u (Some i)) = snd (signal_obtain_finish u' (Some i)).
Proof.
  intros H K. unfold signal_obtain_finish, obtain_finish in *.
  destruct (pk_Xn (us_issuer_parameters (su_user u))) as [|X Xs], (pk_Xn (us_issuer_parameters (su_user u'))) as [|X' Xs']; try discriminate H; [reflexivity|].
  cbn [nth_error] in *. unfold ir_verify in *. destruct (scalar_eqb _ _), (scalar_eqb _ _); cbn [snd] in *; try reflexivity; exfalso.
  - destruct (proj1 K) as [a [=]]. exists tt. reflexivity.
  - destruct (proj2 K) as [a [=]]. exists tt. reflexivity.
Qed.

(** Finishing with an issuance: of the number only its length, and of the
    parameters the answer. *)
Theorem C106_obtain : forall E, ExtLaws E -> forall fuel m m' os os' n nl nb nb' p pl pb pb' (q q' : SystemParameters E)
    ip ipl ib ib' (k k' : PublicKey E) s sl b,
  @given E m n nl nb -> @given E m' n nl nb' ->
  @given E m p pl pb -> system_parameters_from_bytes pb = Ok q -> @given E m' p pl pb' -> system_parameters_from_bytes pb' = Ok q' ->
  @given E m ip ipl ib -> public_key_from_bytes ib = Ok k -> @given E m' ip ipl ib' -> public_key_from_bytes ib' = Ok k' ->
  @given E m s sl b -> @given E m' s sl b ->
  let f := UserObtainFinish n nl p pl ip ipl s sl in
  (succeeds (@c_run E fuel m os f) <-> succeeds (@c_run E fuel m' os' f)) ->
  fst (@t_c_run E fuel m os f) = fst (@t_c_run E fuel m' os' f).
Proof.
  intros E L fuel m m' os os' n nl nb nb' p pl pb pb' q q' ip ipl ib ib' k k' s sl b GN GN' GP DP GP' DP' GI DI GI' DI' GS GS' f. subst f.
  destruct (slice_given m m' nl n nb nb' GN GN') as (T1 & N1 & N1' & HL).
  destruct (des_given (@t_system_parameters_from_bytes E) system_parameters_from_bytes m m' pl p pb pb' q q'
    system_parameters_from_bytes_result system_parameters_sure GP DP GP' DP') as (T2 & N2 & N2').
  destruct (des_given (@t_public_key_from_bytes E) public_key_from_bytes m m' ipl ip ib ib' k k'
    public_key_from_bytes_result public_key_sure GI DI GI' DI') as (T3 & N3 & N3').
  assert (HX : List.length (pk_Xn k) = List.length (pk_Xn k')).
  { apply (decoded_public L). exists ib, ib'. split; [|auto]. destruct GI as (_ & _ & GI), GI' as (_ & _ & GI').
    rewrite (read_length _ _ _ _ GI), (read_length _ _ _ _ GI'). reflexivity. }
  rewrite <- !c_run_result. cbn [t_c_run]. unfold t_c_user_obtain_finish. rewrite !snd_t_call, !fst_t_call.
  rewrite !(snd_t_then (t_deserialize_or_return t_system_parameters_from_bytes _ _ _)),
    !(fst_t_then (t_deserialize_or_return t_system_parameters_from_bytes _ _ _)), N2, N2', T2. cbn [then_].
  rewrite !(snd_t_then (t_deserialize_or_return t_public_key_from_bytes _ _ _)),
    !(fst_t_then (t_deserialize_or_return t_public_key_from_bytes _ _ _)), N3, N3', T3. cbn [then_].
  rewrite <- (des_same (@t_issuance_from_bytes E) m m' sl s b GS GS').
  set (d := t_deserialize_or_return t_issuance_from_bytes m sl s). rewrite !(snd_t_then d), !(fst_t_then d).
  destruct (snd d) as [i|y| | |]; try reflexivity. cbn [then_].
  rewrite !(snd_t_then (t_len_and_ptr_to_slice _ _ _)), !(fst_t_then (t_len_and_ptr_to_slice _ _ _)), N1, N1', T1. cbn [then_].
  intros H. f_equal. f_equal. f_equal. f_equal.
  destruct (signal_user_new_alike q q' k k' None None nb nb' HL) as [TU RU].
  apply ok_trace; [exact TU|destruct (snd (t_signal_user_new q _ _ _)), (snd (t_signal_user_new q' _ _ _)); cbn in *; tauto|].
  intros u u' Hu Hu'. rewrite !snd_t_then, !snd_t_ok_or_return, Hu, Hu' in H. cbn [ok_or_return then_] in H.
  rewrite signal_user_new_result in Hu, Hu'.
  assert (U : su_user u = user_new q k None) by (unfold signal_user_new in Hu; inv_ok; reflexivity).
  assert (U' : su_user u' = user_new q' k' None) by (unfold signal_user_new in Hu'; inv_ok; reflexivity).
  assert (HX' : List.length (pk_Xn (us_issuer_parameters (su_user u))) = List.length (pk_Xn (us_issuer_parameters (su_user u')))) by (rewrite U, U'; exact HX).
  rewrite !snd_tbind, !signal_obtain_finish_result in H. rewrite !fst_tbind, !signal_obtain_finish_result.
  assert (R : snd (signal_obtain_finish u (Some i)) = snd (signal_obtain_finish u' (Some i))).
  { apply obtain_answers; [exact HX'|].
    assert (W : forall v : SignalUser E, snd (t_signal_user_to_bytes v) <> []).
    { intros v. rewrite signal_user_to_bytes_result. unfold signal_user_to_bytes, phone_number_to_bytes. intros K. apply (f_equal (@List.length byte)) in K.
      rewrite app_length, scalar_to_bytes_length in K. discriminate K. }
    destruct (signal_obtain_finish u (Some i)) as [v o], (signal_obtain_finish u' (Some i)) as [v' o']. cbn [snd].
    rewrite <- (succeeds_checked m os o (fun _ => snd (t_signal_user_to_bytes v))) by (intros _; apply W).
    rewrite <- (succeeds_checked m' os' o' (fun _ => snd (t_signal_user_to_bytes v'))) by (intros _; apply W).
    rewrite !snd_t_then, !snd_t_ok_or_return in H. exact H. }
  rewrite (proj2 (signal_obtain_finish_trace u u' (Some i) HX') R). f_equal.
  assert (S : accepts (snd (signal_obtain_finish u (Some i))) ->
     same_holding (su_user (fst (signal_obtain_finish u (Some i)))) (su_user (fst (signal_obtain_finish u' (Some i)))) /\
     us_key (su_user (fst (signal_obtain_finish u (Some i)))) = None /\ us_key (su_user (fst (signal_obtain_finish u' (Some i)))) = None).
  { intros A. pose proof A as A'. rewrite R in A'. revert A A'. unfold signal_obtain_finish, obtain_finish. rewrite U, U'. cbn [user_new us_issuer_parameters].
    destruct (pk_Xn k) eqn:X1, (pk_Xn k') eqn:X2; try discriminate HX; cbn [nth_error]; [intros [? [=]]|].
    destruct (ir_verify _ _ _) as [[]| |]; [|intros [? [=]]..]. destruct (ir_verify _ _ _) as [[]| |]; [|intros _ [? [=]]..]. intros _ _.
    split; [split; [cbn [fst su_user set_credential user_new us_issuer_parameters]; rewrite X1, X2; exact HX|reflexivity]|split; reflexivity]. }
  destruct (signal_obtain_finish u (Some i)) as [v o], (signal_obtain_finish u' (Some i)) as [v' o']. cbn [fst snd] in R, S |- *. subst o'.
  apply ok_trace; [reflexivity|destruct (snd (now o)); exact I|]. intros [] [] Ho _.
  destruct (S (ex_intro _ tt Ho)) as (S1 & S2 & S3). destruct (signal_user_alike L v v' S1 S2 S3) as [TV RV].
  unfold t_return_serialized. rewrite !fst_tbind. f_equal; [exact TV|]. rewrite RV. reflexivity.
Qed.
Print Assumptions C106_obtain.

(** What a user which was read and whose showing succeeds looks like. *)
Lemma shown_shape {E} (L : ExtLaws E) b (u : SignalUser E) r os e x : signal_user_from_bytes b = Ok u -> signal_show u r os e = Ok x ->
  exists c, us_credential (su_user u) = Some c /\ List.length (cr_attributes c) = 1%nat /\
    List.length (pk_Xn (us_issuer_parameters (su_user u))) = 1%nat /\
    pr_attributes_revealed (sc_presentation (fst (fst x))) = [] /\
    List.length (pr_attributes_blinded (sc_presentation (fst (fst x)))) = 1%nat.
Proof.
  intros D S. apply (signal_user_iff L) in D as (n & _ & _ & (HX & _ & HC) & _).
  destruct (us_credential (su_user u)) as [c|] eqn:Hc; [|unfold signal_show in S; rewrite Hc in S; discriminate S].
  destruct HC as [[HC _] _]. exists c. split; [reflexivity|]. split; [exact HC|]. split; [exact HX|].
  destruct (cr_attributes c) as [|m0 ms] eqn:Ha; [discriminate HC|].
  destruct (pk_Xn (us_issuer_parameters (su_user u))) as [|X0 Xs] eqn:Hp; [discriminate HX|].
  destruct (signal_show_ok u c m0 ms X0 Xs e r os Hc Ha Hp) as (rand & rand' & Hs). cbv zeta in Hs. destruct Hs as (r' & os' & Hs).
  rewrite Hs in S. injection S as <-. split; reflexivity.
Qed.

(** Presenting: everything but reading the user shows the same. *)
Theorem C106_show : forall E, ExtLaws E -> forall fuel m m' os os' u ul e el s b b',
  let f := UserShow u ul e el s in
  @given E m u ul b -> @given E m' u ul b' ->
  succeeds (@c_run E fuel m os f) -> succeeds (@c_run E fuel m' os' f) ->
  (fst (@t_c_run E fuel m os f) = fst (@t_c_run E fuel m' os' f) <->
   leading_zeros (firstn 64 (skipn 128 b)) = leading_zeros (firstn 64 (skipn 128 b')) /\
   leading_zeros (firstn 96 (skipn 192 b)) = leading_zeros (firstn 96 (skipn 192 b'))).
Proof.
  intros E L fuel m m' os os' u ul e el s b b' f G G'. subst f. rewrite <- !c_run_result. cbn [t_c_run]. unfold t_c_user_show.
  rewrite !snd_t_call, !fst_t_call. intros S S'.
  apply succeeds_call in S as [z S]; [|be_quiet L]. apply succeeds_call in S' as [z' S']; [|be_quiet L].
  rewrite snd_t_then, then_next in S. destruct S as (r & H1 & S). rewrite snd_t_then, then_next in S'. destruct S' as (r' & H1' & S').
  rewrite snd_t_then, then_next in S. destruct S as (x & H2 & S). rewrite snd_t_then, then_next in S'. destruct S' as (x' & H2' & S').
  rewrite snd_t_then, then_next in S. destruct S as (y & H3 & S). rewrite snd_t_then, then_next in S'. destruct S' as (y' & H3' & S').
  rewrite snd_t_then, then_next in S. destruct S as (p & H4 & S). rewrite snd_t_then, then_next in S'. destruct S' as (p' & H4' & S').
  rewrite !(fst_t_then (t_csprng_from_seed _ _)), H1, H1'. rewrite (proj1 (calm_seed m m' s r r' H1 H1')), app_cancel.
  rewrite !(fst_t_then (t_deserialize_or_return t_signal_user_from_bytes _ _ _)), H2, H2'.
  rewrite (des_result _ _ _ _ _ signal_user_from_bytes_result) in H2. rewrite (des_result _ _ _ _ _ signal_user_from_bytes_result) in H2'.
  apply des_next in H2 as (b0 & G0 & D), H2' as (b0' & G0' & D').
  assert (b0 = b) as -> by (destruct G as (_ & _ & G), G0 as (_ & _ & G0); congruence).
  assert (b0' = b') as -> by (destruct G' as (_ & _ & G'), G0' as (_ & _ & G0'); congruence). clear G0 G0'.
  rewrite snd_t_ok_or_return, ok_or_return_next, signal_show_result in H4. rewrite snd_t_ok_or_return, ok_or_return_next, signal_show_result in H4'.
  destruct (shown_shape L _ _ _ _ _ _ D H4) as (c & Hc & Ha & HX & Hr & Hb), (shown_shape L _ _ _ _ _ _ D' H4') as (c' & Hc' & Ha' & HX' & Hr' & Hb').
  assert (HH : same_holding (su_user x) (su_user x')) by (split; [congruence|rewrite Hc, Hc'; congruence]).
  match goal with |- (?a ++ ?t = ?a' ++ ?t')%list <-> _ => assert (T : t = t') end.
  { rewrite !(fst_t_then (t_deserialize_or_return t_roster_from_bytes _ _ _)), H3, H3'. f_equal.
    - exact (proj1 (calm_des _ (@roster_from_bytes E) m m' el e roster_from_bytes_result (fun _ _ _ => roster_sure _ _) y y' H3 H3')).
    - destruct (signal_show_alike x x' r r' os os' y y' HH) as [TS RS]. apply ok_trace; [exact TS| |].
      + rewrite !signal_show_result, H4, H4'. exact I.
      + intros q q' Hq Hq'. rewrite signal_show_result in Hq. rewrite signal_show_result in Hq'. assert (q = p) as -> by congruence. assert (q' = p') as -> by congruence.
        destruct p as [[p r1] o1], p' as [[p' r1'] o1']. cbn [fst] in *. cbn beta iota.
        assert (A : alike (fun a b : bytes => List.length a = List.length b) (t_signal_presentation_to_bytes p) (t_signal_presentation_to_bytes p'))
          by (apply (signal_presentation_alike L); [rewrite Hr, Hr'; reflexivity|congruence]).
        unfold t_return_serialized. rewrite !fst_tbind. f_equal; [exact (proj1 A)|]. cbn [fst seen]. do 2 f_equal. exact (proj2 A). }
  rewrite T. clear T.
  assert (Q : forall l1 l2 t : list event, (l1 ++ t = l2 ++ t <-> l1 = l2)%list) by (intros; split; [apply app_inv_tail|intros ->; reflexivity]).
  rewrite Q. clear Q. destruct (slice_given m m' ul u b b' G G') as (T1 & N1 & N1' & HL).
  unfold t_deserialize_or_return. rewrite !(fst_t_then (t_len_and_ptr_to_slice _ _ _)), N1, N1', T1, app_cancel.
  unfold t_ok_or_return. rewrite !fst_tbind, !fst_attempt, !snd_attempt, !signal_user_from_bytes_result, D, D'.
  rewrite <- (signal_user_exact b b' HL x x') by (rewrite signal_user_from_bytes_result; assumption).
  cbn [fst now]. rewrite !app_nil_r. 
  split; [|intros ->; reflexivity]. apply app_inv_tail.
Qed.
Print Assumptions C106_show.

(** So presenting shows, of a user with an ElGamal key, which powers of 256
    divide the secret key, *)
Theorem C106_show_refuted : forall E, ExtLaws E -> forall fuel m m' os os' u ul e el s (x x' : SignalUser E) k k',
  wf_user (su_user x) -> bits255 (su_phone_number x) -> us_key (su_user x) = Some k -> eg_secret k <> 0 ->
  wf_user (su_user x') -> bits255 (su_phone_number x') -> us_key (su_user x') = Some k' -> eg_secret k' <> 0 ->
  us_credential (su_user x) = us_credential (su_user x') ->
  let f := UserShow u ul e el s in
  @given E m u ul (signal_user_to_bytes x) -> @given E m' u ul (signal_user_to_bytes x') ->
  succeeds (@c_run E fuel m os f) -> succeeds (@c_run E fuel m' os' f) ->
  (fst (@t_c_run E fuel m os f) = fst (@t_c_run E fuel m' os' f) <->
   forall n, (256 ^ Z.of_nat n | eg_secret k) <-> (256 ^ Z.of_nat n | eg_secret k')).
Proof.
  intros E L fuel m m' os os' u ul e el s x x' k k' W B K Z W' B' K' Z' C f G G' S S'.
  subst f. rewrite (C106_show E L fuel m m' os os' u ul e el s _ _ G G' S S').
  rewrite <- (C92_decode_user_refuted E L x x' k k' W B K Z W' B' K' Z' C).
  destruct (slice_given m m' ul u _ _ G G') as (_ & _ & _ & HL).
  rewrite (proj2 (C92_decode_user E _ _ HL) x x' (proj2 (C33_signal_user E L x) (conj W B)) (proj2 (C33_signal_user E L x') (conj W' B'))).
  reflexivity.
Qed.
Print Assumptions C106_show_refuted.

Lemma keyless_layout {E} (L : ExtLaws E) (u : SignalUser E) c : wf_user (su_user u) -> us_key (su_user u) = None ->
  us_credential (su_user u) = Some c ->
  exists front, List.length front = 128%nat /\ signal_user_to_bytes u = (front ++ zeros 64 ++ credential_to_bytes c)%list /\
    List.length (credential_to_bytes c) = 96%nat.
Proof.
  intros W K C. pose proof (credential_part L _ W) as HC. rewrite C in HC. destruct W as ((X & HX) & _).
  exists (phone_number_to_bytes (su_phone_number u) ++ system_parameters_to_bytes (us_system_parameters (su_user u)) ++
      public_key_to_bytes (us_issuer_parameters (su_user u)))%list. split; [|split; [|exact HC]].
  - rewrite !app_length, (system_parameters_length L), (public_key_length L), HX. unfold phone_number_to_bytes.
    rewrite scalar_to_bytes_length. reflexivity.
  - unfold signal_user_to_bytes, user_to_bytes. rewrite K, C. rewrite <- !app_assoc. reflexivity.
Qed.
(** and of one without, as this interface makes them, only how many zeros the
    credential begins with. *)
Theorem C106_show_keyless : forall E, ExtLaws E -> forall fuel m m' os os' u ul e el s (x x' : SignalUser E) c c',
  wf_user (su_user x) -> us_key (su_user x) = None -> us_credential (su_user x) = Some c ->
  wf_user (su_user x') -> us_key (su_user x') = None -> us_credential (su_user x') = Some c' ->
  let f := UserShow u ul e el s in
  @given E m u ul (signal_user_to_bytes x) -> @given E m' u ul (signal_user_to_bytes x') ->
  succeeds (@c_run E fuel m os f) -> succeeds (@c_run E fuel m' os' f) ->
  (fst (@t_c_run E fuel m os f) = fst (@t_c_run E fuel m' os' f) <->
   leading_zeros (credential_to_bytes c) = leading_zeros (credential_to_bytes c')).
Proof.
  intros E L fuel m m' os os' u ul e el s x x' c c' W K C W' K' C' f G G' S S'.
  subst f. rewrite (C106_show E L fuel m m' os os' u ul e el s _ _ G G' S S').
  destruct (keyless_layout L x c W K C) as (h & Hh & -> & HC), (keyless_layout L x' c' W' K' C') as (h' & Hh' & -> & HC').
  assert (Q : forall h t : bytes, List.length h = 128%nat -> List.length t = 96%nat ->
    firstn 64 (skipn 128 (h ++ zeros 64 ++ t)) = zeros 64 /\ firstn 96 (skipn 192 (h ++ zeros 64 ++ t)) = t).
  { clear. intros h t H1 H2. split.
    - rewrite skipn_app, skipn_all2, H1 by lia. reflexivity.
    - rewrite app_assoc, skipn_app, skipn_all2, app_length, H1 by (rewrite app_length, H1; reflexivity).
      cbn [List.length zeros app Nat.add Nat.sub]. change (skipn _ t) with t. apply firstn_all2. rewrite H2. constructor. }
  destruct (Q h _ Hh HC) as [-> ->], (Q h' _ Hh' HC') as [-> ->]. tauto.
Qed.
Print Assumptions C106_show_keyless.

(** ** JSON *)
Lemma decimal_cases b :
  (fst (t_decimal b) = match width b with 3%nat => [Branch true] | 2%nat => [Branch false; Branch true] | _ => [Branch false; Branch false] end) /\
  List.length (snd (t_decimal b)) = width b.
Proof.
  unfold t_decimal, width. destruct (Z.leb_spec 100 (bz b)), (Z.leb_spec 10 (bz b)), (Z.ltb_spec (bz b) 10), (Z.ltb_spec (bz b) 100); try lia; split; reflexivity.
Qed.
Lemma decimal_prefix b b' t t' : (fst (t_decimal b) ++ t = fst (t_decimal b') ++ t')%list <-> width b = width b' /\ t = t'.
Proof.
  rewrite (proj1 (decimal_cases b)), (proj1 (decimal_cases b')).
  assert (W : forall b, width b = 1%nat \/ width b = 2%nat \/ width b = 3%nat) by (intros x; unfold width; destruct (_ <? _); [auto|destruct (_ <? _); auto]).
  destruct (W b) as [H|[H|H]], (W b') as [H'|[H'|H']]; rewrite H, H'; cbn [app]; (split; [intros K|intros [K1 K2]]);
    try discriminate; try (injection K as <-; auto); subst; reflexivity.
Qed.
Lemma rest_trace b b' : fst (t_json_rest b) = fst (t_json_rest b') <-> map width b = map width b'.
Proof.
  revert b'. induction b as [|x b IH]; intros [|x' b']; cbn [t_json_rest map]; rewrite ?fst_tbind; try (split; discriminate); [tauto|].
  cbn [fst t_if seen now]. rewrite !app_nil_r, app_cancel, decimal_prefix, IH. split.
  - intros [-> ->]. reflexivity.
  - intros [= K1 K2]. auto.
Qed.
Lemma decimal_denotes b : decimal_value (snd (t_decimal b)) = bz b.
Proof. destruct b; reflexivity. Qed.
Lemma rest_text b : snd (t_json_rest b) = (flat_map (fun y => x2c :: y) (map (fun x => snd (t_decimal x)) b) ++ [x5d])%list.
Proof.
  induction b as [|x b IH]; [reflexivity|]. cbn [t_json_rest map flat_map]. rewrite !snd_tbind, IH. cbn [snd now t_if seen].
  change (str ",") with [x2c]. rewrite <- app_assoc. reflexivity.
Qed.

(** A value on its way to JavaScript is a text of its bytes in decimal, *)
Theorem C106_text : forall E t (x : cd_value (codec_of E t)), exists ds,
  Forall2 (fun d b => decimal_value d = bz b /\ List.length d = width b) ds (serialized_bytes (codec_of E t) x) /\
  snd (t_from_serde E t x) = (str "[" ++ joined ds ++ str "]")%list.
Proof.
  intros E t x. exists (map (fun b => snd (t_decimal b)) (serialized_bytes (codec_of E t) x)). split.
  - induction (serialized_bytes (codec_of E t) x) as [|b l IH]; constructor; [|exact IH]. split; [apply decimal_denotes|apply decimal_cases].
  - unfold t_from_serde. rewrite snd_tbind. cbn [snd seen]. destruct (serialized_bytes (codec_of E t) x) as [|b l]; [reflexivity|].
    cbn [t_json_array map joined]. rewrite !snd_tbind, rest_text. cbn [snd now t_if seen]. rewrite <- !app_assoc. reflexivity.
Qed.
Print Assumptions C106_text.
(** and writing it shows how many digits each byte has, also of a secret key. *)
Theorem C106_text_refuted : forall E t (x x' : cd_value (codec_of E t)),
  fst (t_from_serde E t x) = fst (t_from_serde E t x') <->
  map width (serialized_bytes (codec_of E t) x) = map width (serialized_bytes (codec_of E t) x').
Proof.
  intros E t x x'. unfold t_from_serde. rewrite !fst_tbind. cbn [fst seen].
  set (b := serialized_bytes _ x). set (b' := serialized_bytes _ x'). clearbody b b'.
  assert (K : fst (t_json_array b) = fst (t_json_array b') <-> map width b = map width b').
  { destruct b as [|y b], b' as [|y' b']; cbn [t_json_array map]; rewrite ?fst_tbind; try (split; discriminate); [tauto|].
    cbn [fst t_if seen now]. rewrite !app_nil_r, app_cancel, decimal_prefix, rest_trace. split; [intros [-> ->]; reflexivity|intros [= K1 K2]; auto]. }
  rewrite <- K. split; [intros H; apply app_inj_tail in H as [H _]; exact H|]. intros H. rewrite H. do 3 f_equal.
  apply K in H. clear K.
  assert (R : forall a a' : bytes, map width a = map width a' ->
    List.length (flat_map (fun y => x2c :: y) (map (fun x => snd (t_decimal x)) a)) = List.length (flat_map (fun y => x2c :: y) (map (fun x => snd (t_decimal x)) a'))).
  { induction a as [|z a IH]; intros [|z' a'] Q; try discriminate Q; [reflexivity|]. injection Q as Q1 Q2. cbn [map flat_map List.length app].
    rewrite !app_length, (IH a' Q2), !(proj2 (decimal_cases _)), Q1. reflexivity. }
  destruct b as [|y b], b' as [|y' b']; try discriminate H; [reflexivity|]. injection H as H1 H2. cbn [t_json_array]. rewrite !snd_tbind, !rest_text. cbn [snd now t_if seen].
  rewrite !app_length, (R b b' H2), !(proj2 (decimal_cases _)), H1. reflexivity.
Qed.
Print Assumptions C106_text_refuted.

(** ** Examples *)
Lemma succeeds_len r : 0 < result_len r -> succeeds r.
Proof. destruct r as [b m os| | |]; cbn; try lia. intros H. do 3 eexists. split; [reflexivity|lia]. Qed.
(** Two issuers with different keys, of which the parameters are asked for. *)
Example C106_met_makers : let f := IssuerGetIssuerParameters (Block 0 0) 160 in
  issuer_to_bytes sample_issuer <> issuer_to_bytes other_issuer /\ maker f /\
  succeeds (@c_run toy 0 (blocks [issuer_to_bytes sample_issuer]) (toy_stream 1) f) /\
  succeeds (@c_run toy 0 (blocks [issuer_to_bytes other_issuer]) (toy_stream 2) f).
Proof.
  cbv zeta. split; [vm_compute; discriminate|]. split; [exact I|]. split; apply succeeds_len; vm_compute; reflexivity.
Qed.
(** A presentation which both accept as showing membership. *)
Example C106_met_verify : exists n, try_from_bytes (str "123") = Ok n /\
  (let p := forge_signal_presentation sample_params (pt 231) n 2 3 (sample_entry n) (toy_stream 1) (toy_stream 2) in
   let b := signal_presentation_to_bytes p in
   let length i := result_len (@c_run toy 0 (blocks [issuer_to_bytes i; b]) (toy_stream 1)
     (IssuerVerifyRosterMembership (Block 0 0) 160 (Block 1 0) 448)) in
   (length sample_issuer =? 32) && (length other_issuer =? 32)) = true.
Proof. apply run1. vm_compute. reflexivity. Qed.
(** Entries for two numbers, each opened with its own. *)
Example C106_met_open :
  let length entry digits := result_len (@c_run toy 0 (blocks [roster_to_bytes entry; digits; system_parameters_to_bytes sample_params])
     (toy_stream 1) (RosterEntryCommitmentOpen (Block 0 0) 64 (Block 1 0) 3 (Block 2 0) 64)) in
  (exists n, try_from_bytes (str "123") = Ok n /\ (length (sample_entry n) (str "123") =? 1) = true) /\
  (exists n, try_from_bytes (str "321") = Ok n /\ (length (sample_entry n) (str "321") =? 1) = true).
Proof. split; apply run1; vm_compute; reflexivity. Qed.
(** One issuance taken with two numbers. *)
Example C106_met_obtain : exists iss r os, signal_issue sample_issuer (str "123") (toy_stream 7) (toy_stream 8) = Ok (iss, r, os) /\
  (let length digits := result_len (@c_run toy 0 (blocks [digits; system_parameters_to_bytes sample_params;
       public_key_to_bytes {| pk_Xn := [pt 231] |}; issuance_to_bytes iss]) (toy_stream 1)
     (UserObtainFinish (Block 0 0) 3 (Block 1 0) 64 (Block 2 0) 32 (Block 3 0) 328)) in
   (length (str "123") =? 288) && (length (str "321") =? 288)) = true.
Proof. apply run3. vm_compute. reflexivity. Qed.
(** Users with the ElGamal keys 4 and 512, and one without, who all present. *)
Definition presenter (key : option (ElgamalKeypair toy)) : SignalUser toy :=
  {| su_phone_number := 100;
     su_user := {| us_system_parameters := sample_params; us_issuer_parameters := {| pk_Xn := [pt 231] |};
                   us_key := key; us_credential := Some sample_credential |} |}.
Definition presenter_key (s : Z) : ElgamalKeypair toy := {| eg_secret := s; eg_public := pt s |}.
Definition presenting (key : option (ElgamalKeypair toy)) : memory :=
  blocks [signal_user_to_bytes (presenter key); roster_to_bytes (sample_entry 100); zeros 32].
Definition present : c_function := UserShow (Block 0 0) 288 (Block 1 0) 64 (Block 2 0).
Lemma presenter_wf s : s = 4 \/ s = 512 -> wf_user (su_user (presenter (Some (presenter_key s)))).
Proof.
  intros H. split; [eexists; reflexivity|]. split.
  - intros k [= <-]. cbn. split; [destruct H as [-> | ->]; (split; [discriminate|reflexivity])|]. intros [-> _]. destruct H; discriminate.
  - intros c [= <-]. split; [exists 100; split; [split; [discriminate|reflexivity]|reflexivity]|]. cbn. intros (_ & _ & [=]).
Qed.
Example C106_met_show :
  succeeds (@c_run toy 0 (presenting (Some (presenter_key 4))) (toy_stream 1) present) /\
  succeeds (@c_run toy 0 (presenting (Some (presenter_key 512))) (toy_stream 1) present) /\
  fst (@t_c_run toy 0 (presenting (Some (presenter_key 4))) (toy_stream 1) present) <>
    fst (@t_c_run toy 0 (presenting (Some (presenter_key 512))) (toy_stream 1) present).
Proof.
  assert (S4 : succeeds (@c_run toy 0 (presenting (Some (presenter_key 4))) (toy_stream 1) present)) by (apply succeeds_len; vm_compute; reflexivity).
  assert (S512 : succeeds (@c_run toy 0 (presenting (Some (presenter_key 512))) (toy_stream 1) present)) by (apply succeeds_len; vm_compute; reflexivity).
  split; [exact S4|]. split; [exact S512|].
  unfold present. rewrite (C106_show_refuted toy toy_laws 0 _ _ _ _ (Block 0 0) 288 (Block 1 0) 64 (Block 2 0) (presenter (Some (presenter_key 4))) (presenter (Some (presenter_key 512)))
    (presenter_key 4) (presenter_key 512)); [|first [apply presenter_wf; auto|reflexivity|discriminate|split; [discriminate|reflexivity]|idtac]..].
  - cbn [presenter_key eg_secret]. intros H. destruct (proj2 (H 1%nat)) as [q Hq]; [exists 2; reflexivity|]. change (256 ^ Z.of_nat 1) with 256 in Hq. lia.
  - split; [discriminate|]. split; [discriminate|reflexivity].
  - split; [discriminate|]. split; [discriminate|reflexivity].
  - exact S4.
  - exact S512.
Qed.
Example C106_met_keyless : wf_user (su_user (presenter None)) /\ us_key (su_user (presenter None)) = None /\
  succeeds (@c_run toy 0 (presenting None) (toy_stream 1) present).
Proof.
  split; [|split; [reflexivity|apply succeeds_len; vm_compute; reflexivity]].
  split; [eexists; reflexivity|]. split; [intros k; discriminate|].
  intros c [= <-]. split; [exists 100; split; [split; [discriminate|reflexivity]|reflexivity]|]. cbn. intros (_ & _ & [=]).
Qed.
(** Secret keys 1 and 10, whose texts do not even have the same length. *)
Example C106_met_text : let k x := {| sk_x0 := x; sk_xn := [7] |} in
  List.length (snd (t_from_serde toy TSecretKey (k 1))) = 129%nat /\
  List.length (snd (t_from_serde toy TSecretKey (k 10))) = 130%nat /\
  fst (t_from_serde toy TSecretKey (k 1)) <> fst (t_from_serde toy TSecretKey (k 10)).
Proof.
  cbv zeta. split; [vm_compute; reflexivity|]. split; [vm_compute; reflexivity|]. rewrite C106_text_refuted. vm_compute. discriminate.
Qed.
