(** Properties of the Swift wrapper: swift/Credential/Credential.swift (C53). *)
From Verif Require Import PropertiesProofs PropertiesSignal PropertiesFfi Toy CreatedFacts FfiFacts SpecSwift ModelSwift.

(** ** Arrays passed to C *)
Definition passed (m : memory) (p : pointer) (b : bytes) : Prop :=
  match b with
  | [] => p = Static
  | _ => exists id, p = Block id 0 /\ (id < mem_next m)%nat /\ mem_block m id = Live b
  end.
Lemma vec_new_passed m b p m' : vec_new m b = (p, m') -> passed m' p b.
Proof.
  destruct b as [|x b]; cbn [vec_new passed]; intros [= <- <-]; [reflexivity|].
  exists (mem_next m). cbn [mem_next mem_block]. unfold mem_set. rewrite Nat.eqb_refl. repeat split; lia.
Qed.
Lemma vec_new_keeps m b p m' q c : vec_new m b = (p, m') -> passed m q c -> passed m' q c.
Proof.
  destruct b as [|x b]; cbn [vec_new]; intros [= <- <-]; [auto|]. destruct c as [|y c]; cbn [passed]; [auto|].
  intros (id & -> & Hid & Hm). exists id. cbn [mem_next mem_block]. unfold mem_set.
  destruct (Nat.eqb_spec id (mem_next m)); [lia|]. repeat split; [lia|exact Hm].
Qed.
Lemma passed_read m p b : passed m p b -> read m p (List.length b) = Some b.
Proof.
  destruct b as [|x b]; cbn [passed]; [intros ->; reflexivity|]. intros (id & -> & _ & Hm). cbn [read List.length Nat.eqb].
  rewrite Hm. unfold slice. cbn [Nat.add]. rewrite Nat.leb_refl. cbn [Nat.leb andb].
  f_equal. cbn [skipn]. rewrite Nat.sub_0_r. exact (firstn_all (x :: b)).
Qed.
Lemma passed_not_null m p b : passed m p b -> p <> Null.
Proof. destruct b; cbn [passed]; [intros ->; discriminate|]. intros (id & -> & _). discriminate. Qed.
Lemma passed_slice {E} (L : ExtLaws E) m p b : passed m p b -> fits E b ->
  @len_and_ptr_to_slice E m (sw_count b) p = match b with [] => Return zero_len_and_ptr | _ => Next b end.
Proof.
  intros H Hf. destruct b as [|x b].
  - apply slice_return. split; [reflexivity|]. right. reflexivity.
  - apply slice_next. split; [eapply passed_not_null, H|]. split; [discriminate|].
    unfold as_size_t, sw_count. rewrite Z.mod_small; [|split; [lia|exact Hf]]. rewrite Nat2Z.id. apply passed_read, H.
Qed.
Lemma passed_des {E} (L : ExtLaws E) {Er A} (g : bytes -> outcome Er A) m p b : passed m p b -> fits E b ->
  @deserialize_or_return E Er A g m (sw_count b) p = match b with [] => Return zero_len_and_ptr | _ => ok_or_return (g b) end.
Proof. intros H Hf. unfold deserialize_or_return. rewrite (passed_slice L) by assumption. destruct b; reflexivity. Qed.
Lemma passed_seed {E} (L : ExtLaws E) m p b : passed m p b -> List.length b = 32%nat ->
  @csprng_from_seed E m p = Next (@chacha E b).
Proof.
  intros H Hl. apply (csprng_next L). exists b. split; [|reflexivity]. split; [eapply passed_not_null, H|].
  rewrite <- Hl. apply passed_read, H.
Qed.

(** ** Reading results *)
Definition sw_finish {A} (reuse : reuse_of_freed) (m : memory) (os : rng) (k : bytes -> A)
    (s : step (buf_t * memory * rng)) : sw_result A :=
  sw_after (call m os s) (fun buffer m os => sw_read reuse m buffer (fun data => SwReturns (k data) os)).
Lemma finish_empty {A} reuse m os (k : bytes -> A) : sw_finish reuse m os k (Return zero_len_and_ptr) = SwReturns (k []) os.
Proof. reflexivity. Qed.
Lemma finish_serialized {A} reuse m os os' (k : bytes -> A) ser : ser <> [] ->
  sw_finish reuse m os k (return_serialized m os' ser) = SwReturns (k (found reuse (mem_next m) ser)) os'.
Proof.
  intros Hne. destruct (return_serialized_next m os' ser) as [x Hx]. rewrite Hx.
  destruct (return_serialized_spec m os' ser x Hne Hx) as (b & m' & -> & _ & -> & Hm & _).
  unfold sw_finish. cbn [call sw_after]. unfold sw_read, sw_array. cbn [buf_len buf_ptr]. rewrite Hm, Nat.eqb_refl, Nat2Z.id.
  reflexivity.
Qed.
Lemma found_length reuse id c : List.length (found reuse id c) = List.length c.
Proof. unfold found. rewrite map_length, seq_length. reflexivity. Qed.
Lemma found_unchanged id c : found unchanged id c = c.
Proof.
  unfold found, unchanged. induction c as [|x c IH]; [reflexivity|]. cbn [List.length seq map nth]. f_equal.
  rewrite <- seq_shift, map_map. exact IH.
Qed.

Ltac pass := repeat match goal with
  | |- context [let (p, m') := vec_new ?m ?b in _] =>
    let Hv := fresh "V" in destruct (vec_new m b) as [? ?] eqn:Hv;
    repeat match goal with P : passed m _ _ |- _ => apply (vec_new_keeps _ _ _ _ _ _ Hv) in P end;
    apply vec_new_passed in Hv
  end.

(** ** C53: failable initialisers never fail *)
Theorem C53_with_bytes_never_nil_refuted : forall b,
  Forall (fun init_length =>
      exists d, fst init_length b = Some d /\ (List.length b <> snd init_length -> Forall (eq x00) d))
    [(SwSystemParameters_withBytes, 64); (SwKeypair_withBytes, 96); (SwRosterEntry_withBytes, 64);
     (SwIssuerParameters_withBytes, 96); (SwIssuance_withBytes, 328); (SwPresentation_withBytes, 448);
     (SwVerified_withBytes, 448)]%nat.
Proof.
  intros b.
  assert (H : forall i n, exists d, sw_init_with_bytes i n b = Some d /\ (List.length b <> n -> Forall (eq x00) d)).
  { intros i n. unfold sw_init_with_bytes. destruct (Nat.eqb_spec (List.length b) n) as [Hn|Hn].
    - exists b. split; [reflexivity|contradiction].
    - exists (zeros i). split; [reflexivity|]. intros _. unfold zeros. apply Forall_forall. intros x Hx.
      apply repeat_spec in Hx. auto. }
  repeat constructor; apply H.
Qed.
Print Assumptions C53_with_bytes_never_nil_refuted.

(** ** C53: verification *)
Section verify.
  Context {E : Ext} (L : ExtLaws E).
  Lemma sw_verify_cases reuse m os issuer presentation :
    fits E (sw_data issuer) -> fits E presentation ->
    (exists i p v id, signal_issuer_from_bytes (sw_data issuer) = Ok i /\
       signal_presentation_from_bytes presentation = Ok p /\ @signal_verify E i p = Ok v /\
       List.length (verified_signal_to_bytes v) = 448%nat /\
       @sw_verify E reuse m os issuer presentation = SwReturns (Some (found reuse id (verified_signal_to_bytes v))) os) \/
    (~ accepts E (sw_data issuer) presentation /\
     @sw_verify E reuse m os issuer presentation = SwReturns (Some (zeros 448)) os).
  Proof.
    intros F1 F2. unfold sw_verify. pass. rename V into V1, V0 into V2.
    set (mm := m1) in *. set (k := SwVerified_withBytes).
    assert (Hf : forall s, @c_issuer_verify E mm os p (sw_count (sw_data issuer)) p0 (sw_count presentation) = call mm os s ->
      sw_after (@c_issuer_verify E mm os p (sw_count (sw_data issuer)) p0 (sw_count presentation))
        (fun buffer m os => sw_read reuse m buffer (fun data => SwReturns (k data) os)) = sw_finish reuse mm os k s)
      by (intros s ->; reflexivity).
    assert (Hne : SwVerified_withBytes [] = Some (zeros 448)) by reflexivity.
    erewrite Hf by reflexivity.
    rewrite (passed_des L (@signal_issuer_from_bytes E) _ _ _ V1 F1), (passed_des L (@signal_presentation_from_bytes E) _ _ _ V2 F2).
    destruct (sw_data issuer) as [|x1 ib] eqn:Hib.
    { right. split; [|cbn [then_]; rewrite finish_empty; unfold k; rewrite Hne; reflexivity].
      intros (i & q & v & H & _). apply (issuer_iff L) in H as [_ H]. apply (f_equal (@List.length byte)) in H.
      rewrite issuer_length in H by exact L. cbn in H. lia. }
    destruct (signal_issuer_from_bytes (x1 :: ib)) as [i|e|] eqn:Hi; cbn [ok_or_return then_].
    2: { right. split; [intros (i' & q & v & H & _); congruence|]. rewrite finish_empty. unfold k; rewrite Hne. reflexivity. }
    2: { elim (issuer_no_panic L _ Hi). }
    destruct presentation as [|x2 pb] eqn:Hpb.
    { right. cbn [then_]. rewrite finish_empty. unfold k; rewrite Hne. split; [|reflexivity].
      intros (i' & q & v & _ & H & _). vm_compute in H. discriminate. }
    destruct (signal_presentation_from_bytes (x2 :: pb)) as [q|e|] eqn:Hq; cbn [ok_or_return then_].
    2: { right. split; [intros (i' & q & v & _ & H & _); congruence|]. rewrite finish_empty. unfold k; rewrite Hne. reflexivity. }
    2: { elim (signal_presentation_no_panic L _ Hq). }
    destruct (signal_verify i q) as [v|e|] eqn:Hv; cbn [ok_or_return then_].
    2: { right. split; [intros (i' & q' & v & H1 & H2 & H3); congruence|]. rewrite finish_empty. unfold k; rewrite Hne. reflexivity. }
    2: { elim (proj1 (proj2 (C36_decoded_never_panics E L _ _ _ Hi)) _ Hq Hv). }
    left. exists i, q, v, (mem_next mm). split; [reflexivity|]. split; [reflexivity|]. split; [exact Hv|].
    assert (Hl : List.length (verified_signal_to_bytes v) = 448%nat).
    { assert (Hvq : v = {| vs_presentation := q |}).
      { clear -Hv. unfold signal_verify in Hv. inv_ok. reflexivity. }
      subst v. unfold verified_signal_to_bytes. cbn [vs_presentation].
      apply (signal_presentation_length L). apply (signal_presentation_iff L) in Hq as [[Hq _] _]. exact Hq. }
    split; [exact Hl|]. rewrite finish_serialized by (eapply nonempty_length; [exact Hl|lia]).
    unfold k, SwVerified_withBytes, sw_init_with_bytes. rewrite found_length, Hl. reflexivity.
  Qed.
End verify.

(** Verification returns an object, whatever it is given. *)
Theorem C53_verify_never_nil_refuted : forall E, ExtLaws E -> forall reuse m os issuer presentation,
  fits E (sw_data issuer) -> fits E presentation ->
  exists d, @sw_verify E reuse m os issuer presentation = SwReturns (Some d) os /\ List.length d = 448%nat.
Proof.
  intros E L reuse m os issuer presentation F1 F2.
  destruct (sw_verify_cases L reuse m os issuer presentation F1 F2) as [(i & p & v & id & _ & _ & _ & Hl & H)|[_ H]]; rewrite H.
  - exists (found reuse id (verified_signal_to_bytes v)). split; [reflexivity|]. rewrite found_length. exact Hl.
  - exists (zeros 448). split; reflexivity.
Qed.
Print Assumptions C53_verify_never_nil_refuted.
(** Its data is zero when the presentation was rejected. *)
Theorem C53_verify_rejected_refuted : forall E, ExtLaws E -> forall reuse m os issuer presentation,
  fits E (sw_data issuer) -> fits E presentation -> ~ accepts E (sw_data issuer) presentation ->
  @sw_verify E reuse m os issuer presentation = SwReturns (Some (zeros 448)) os.
Proof.
  intros E L reuse m os issuer presentation F1 F2 Hno.
  destruct (sw_verify_cases L reuse m os issuer presentation F1 F2) as [(i & p & v & id & H1 & H2 & H3 & _)|[_ H]]; [|exact H].
  elim Hno. exists i, p, v. auto.
Qed.
Print Assumptions C53_verify_rejected_refuted.
(** When it was accepted, the data is what is found where the verified
    credential was before it was freed: the verified credential, if nothing
    has been put there. *)
Theorem C53_verify_accepted : forall E, ExtLaws E -> forall m os issuer presentation i p v,
  fits E (sw_data issuer) -> fits E presentation ->
  signal_issuer_from_bytes (sw_data issuer) = Ok i -> signal_presentation_from_bytes presentation = Ok p ->
  @signal_verify E i p = Ok v ->
  (forall reuse, exists id,
     @sw_verify E reuse m os issuer presentation = SwReturns (Some (found reuse id (verified_signal_to_bytes v))) os) /\
  @sw_verify E unchanged m os issuer presentation = SwReturns (Some (verified_signal_to_bytes v)) os.
Proof.
  intros E L m os issuer presentation i p v F1 F2 Hi Hp Hv.
  assert (K : forall reuse, exists id,
     @sw_verify E reuse m os issuer presentation = SwReturns (Some (found reuse id (verified_signal_to_bytes v))) os).
  { intros reuse. destruct (sw_verify_cases L reuse m os issuer presentation F1 F2)
      as [(i' & p' & v' & id & H1 & H2 & H3 & _ & H)|[H _]].
    - exists id. rewrite H. assert (i' = i) by congruence. assert (p' = p) by congruence. subst. assert (v' = v) by congruence.
      subst. reflexivity.
    - elim H. exists i, p, v. auto. }
  split; [exact K|]. destruct (K unchanged) as [id H]. rewrite found_unchanged in H. exact H.
Qed.
Print Assumptions C53_verify_accepted.
(** If freed memory is cleared, the result says nothing about the presentation. *)
Theorem C53_verify_uninformative_refuted : exists reuse, forall E, ExtLaws E -> forall m os issuer presentation,
  fits E (sw_data issuer) -> fits E presentation ->
  @sw_verify E reuse m os issuer presentation = SwReturns (Some (zeros 448)) os.
Proof.
  exists (fun _ _ _ => x00). intros E L m os issuer presentation F1 F2.
  destruct (sw_verify_cases L (fun _ _ _ => x00) m os issuer presentation F1 F2)
    as [(i & p & v & id & _ & _ & _ & Hl & H)|[_ H]]; rewrite H; [|reflexivity].
  unfold found. rewrite Hl. reflexivity.
Qed.
Print Assumptions C53_verify_uninformative_refuted.

(** ** C53: the issuer parameters *)
Section get_parameters.
  Context {E : Ext} (L : ExtLaws E).
  Lemma sw_get_parameters_cases reuse m os issuer : fits E (sw_data issuer) ->
    (exists (i : Issuer E) id, signal_issuer_from_bytes (sw_data issuer) = Ok i /\
       @sw_get_parameters E reuse m os issuer =
         SwReturns (SwIssuerParameters_withBytes (found reuse id (public_key_to_bytes (get_issuer_parameters i)))) os) \/
    ((forall i : Issuer E, signal_issuer_from_bytes (sw_data issuer) <> Ok i) /\
     @sw_get_parameters E reuse m os issuer = SwReturns (Some (zeros 32)) os).
  Proof.
    intros F. unfold sw_get_parameters. pass. set (k := SwIssuerParameters_withBytes).
    assert (H : sw_after (@c_issuer_get_issuer_parameters E m0 os p (sw_count (sw_data issuer)))
        (fun buffer m os => sw_read reuse m buffer (fun data => SwReturns (k data) os)) =
      sw_finish reuse m0 os k
      (let! d := deserialize_or_return (@signal_issuer_from_bytes E) m0 (sw_count (sw_data issuer)) p in
       return_serialized m0 os (public_key_to_bytes (get_issuer_parameters d)))) by reflexivity.
    rewrite H. clear H. rewrite (passed_des L _ _ _ _ V F).
    destruct (sw_data issuer) as [|x ib] eqn:Hib.
    { right. split; [|reflexivity]. intros i H. apply (issuer_iff L) in H as [_ H]. apply (f_equal (@List.length byte)) in H.
      rewrite issuer_length in H by exact L. cbn in H. lia. }
    destruct (signal_issuer_from_bytes (x :: ib)) as [i|e|] eqn:Hi; cbn [ok_or_return then_].
    2: { right. split; [discriminate|reflexivity]. }
    2: { elim (issuer_no_panic L _ Hi). }
    left. exists i, (mem_next m0). split; [reflexivity|]. rewrite finish_serialized; [reflexivity|].
    apply (issuer_iff L) in Hi as [[_ Hn] _]. unfold get_issuer_parameters. intros K.
    apply (f_equal (@List.length byte)) in K. rewrite (public_key_length L) in K.
    destruct (pk_Xn _); [congruence|]. discriminate.
  Qed.
End get_parameters.
(** The parameters of every issuer are 32 zero bytes, unless the issuer's data
    has the length of an issuer for three attributes. *)
Theorem C53_get_parameters_refuted : forall E, ExtLaws E -> forall reuse m os issuer,
  fits E (sw_data issuer) -> List.length (sw_data issuer) <> 288%nat ->
  @sw_get_parameters E reuse m os issuer = SwReturns (Some (zeros 32)) os.
Proof.
  intros E L reuse m os issuer F Hl.
  destruct (sw_get_parameters_cases L reuse m os issuer F) as [(i & id & Hi & ->)|[_ H]]; [|exact H].
  unfold SwIssuerParameters_withBytes, sw_init_with_bytes. rewrite found_length, (public_key_length L).
  destruct (Nat.eqb_spec (32 * List.length (pk_Xn (get_issuer_parameters i))) SW_LENGTH_ISSUER_KEYPAIR) as [Hk|]; [|reflexivity].
  exfalso. apply (issuer_iff L) in Hi as [[[_ Hw] _] Hi]. rewrite Hi, (issuer_length L) in Hl.
  unfold get_issuer_parameters, SW_LENGTH_ISSUER_KEYPAIR in Hk. lia.
Qed.
Print Assumptions C53_get_parameters_refuted.
(** They are the issuer's parameters for no issuer whose key is not the
    identity. *)
Theorem C53_get_parameters_wrong_refuted : forall E, ExtLaws E -> forall reuse m os issuer i X,
  fits E (sw_data issuer) -> signal_issuer_from_bytes (sw_data issuer) = Ok i ->
  pk_Xn (@get_issuer_parameters E i) = [X] -> X <> pzero ->
  exists d k, @sw_get_parameters E reuse m os issuer = SwReturns (Some d) os /\
    public_key_from_bytes d = Ok k /\ k <> get_issuer_parameters i.
Proof.
  intros E L reuse m os issuer i X F Hi HX Hne. exists (zeros 32), {| pk_Xn := [pzero] |}. split.
  - apply (C53_get_parameters_refuted E L); [exact F|]. apply (issuer_iff L) in Hi as [[[_ Hw] _] Hi].
    unfold get_issuer_parameters in HX. rewrite Hi, (issuer_length L), <- Hw, HX. discriminate.
  - split; [|intros K; rewrite <- K in HX; cbn [pk_Xn] in HX; congruence]. apply (public_key_iff L). unfold public_key_to_bytes. cbn [pk_Xn flat_map].
    rewrite (compress_zero E L). reflexivity.
Qed.
Print Assumptions C53_get_parameters_wrong_refuted.

(** An issuance which a user accepts with the issuer's key is rejected with the
    key of 32 zero bytes, unless two given transcripts have one challenge. *)
Theorem C53_issuance_unusable_refuted : forall E, ExtLaws E -> forall number params issuance (X : point E),
  X <> pzero -> obtains E number params (compress X) issuance -> obtains E number params (zeros 32) issuance ->
  exists (sp : SystemParameters E) (iss : CredentialIssuance E), system_parameters_from_bytes params = Ok sp /\ issuance_from_bytes issuance = Ok iss /\
    @challenge_collision E
      (extend issuance_transcript (ir_messages (issuance_publics sp X iss) (ir_recompute (is_proof iss) (issuance_publics sp X iss))))
      (extend issuance_transcript (ir_messages (issuance_publics sp pzero iss) (ir_recompute (is_proof iss) (issuance_publics sp pzero iss)))).
Proof.
  intros E L number params issuance X Hne (sp & ip & iss & u & u1 & D1 & D2 & D3 & _ & Hu & Hf)
    (sp' & ip' & iss' & w & w1 & D1' & D2' & D3' & _ & Hw & Hg).
  assert (sp' = sp) by congruence. assert (iss' = iss) by congruence. subst sp' iss'.
  assert (Hip : pk_Xn ip = [X]).
  { assert (K : public_key_from_bytes (compress X) = Ok {| pk_Xn := [X] |}).
    { apply (public_key_iff L). unfold public_key_to_bytes. cbn [pk_Xn flat_map]. rewrite app_nil_r. reflexivity. }
    rewrite K in D2. injection D2 as <-. reflexivity. }
  assert (Hip' : pk_Xn ip' = [pzero]).
  { assert (K : public_key_from_bytes (zeros 32) = Ok {| pk_Xn := [@pzero E] |}).
    { apply (public_key_iff L). unfold public_key_to_bytes. cbn [pk_Xn flat_map]. rewrite app_nil_r, (compress_zero E L). reflexivity. }
    rewrite K in D2'. injection D2' as <-. reflexivity. }
  assert (Acc : forall ip u u1 X, signal_user_new sp ip None number = Ok u -> signal_obtain_finish u (Some iss) = (u1, Ok tt) ->
    pk_Xn ip = [X] -> ir_verify (is_proof iss) issuance_transcript (issuance_publics sp X iss) = Ok tt).
  { clear. intros ip u u1 X Hu Hf Hip. unfold signal_user_new in Hu. inv_ok. unfold signal_obtain_finish in Hf.
    cbn [su_user su_phone_number] in Hf. destruct (obtain_finish _ _) as [v res] eqn:Ho. injection Hf as _ ->.
    assert (Hs : snd (obtain_finish (user_new sp ip None) (Some iss)) = Ok tt) by (rewrite Ho; reflexivity).
    apply obtain_finish_ok in Hs as (X1 & Xs & HX & Hv). cbn [user_new us_issuer_parameters us_system_parameters] in HX, Hv.
    rewrite Hip in HX. injection HX as <- <-. exact Hv. }
  exists sp, iss. split; [exact D1|]. split; [exact D3|].
  pose proof (Acc _ _ _ _ Hu Hf Hip) as A1. pose proof (Acc _ _ _ _ Hw Hg Hip') as A2.
  apply (C38_issuance_revealed_hash E L) in A1, A2. rewrite A1 in A2.
  apply (C38_one_challenge_one_statement E L) in A2 as [[_ K]|K]; [|exact K].
  exfalso. apply Hne. injection K as K _. exact K.
Qed.
Print Assumptions C53_issuance_unusable_refuted.

(** ** C53: users *)
Section user.
  Context {E : Ext} (L : ExtLaws E).
  Lemma sw_user_cases reuse m os number params issuer_params issuance :
    fits E number -> fits E params -> fits E issuer_params -> fits E issuance ->
    @sw_user_init E reuse m os number params issuer_params issuance = SwUnwinds \/
    (obtains E number params issuer_params issuance /\
     exists id u, @sw_user_init E reuse m os number params issuer_params issuance =
       SwReturns (Some (found reuse id (@signal_user_to_bytes E u))) os) \/
    (~ obtains E number params issuer_params issuance /\
     @sw_user_init E reuse m os number params issuer_params issuance = SwReturns (Some []) os).
  Proof.
    intros F1 F2 F3 F4. unfold sw_user_init. pass. rename m3 into mm.
    assert (H : forall n nl p pl ip ipl is isl, sw_after (@c_user_obtain_finish E mm os n nl p pl ip ipl is isl)
        (fun buffer m os => sw_read reuse m buffer (fun data => SwReturns (Some data) os)) =
      sw_finish reuse mm os Some (
      let! system_params := deserialize_or_return (@system_parameters_from_bytes E) mm pl p in
      let! issuer_params := deserialize_or_return (@public_key_from_bytes E) mm ipl ip in
      let! issuance_deserialized := deserialize_or_return (@issuance_from_bytes E) mm isl is in
      let! phone_number_bytes := len_and_ptr_to_slice (E := E) mm nl n in
      let! user := ok_or_return (signal_user_new system_params issuer_params None phone_number_bytes) in
      let (user, result) := signal_obtain_finish user (Some issuance_deserialized) in
      let! _ := ok_or_return result in
      return_serialized mm os (signal_user_to_bytes user))) by reflexivity.
    rewrite H. clear H.
    rewrite (passed_des L (@system_parameters_from_bytes E) _ _ _ V0 F2), (passed_des L (@public_key_from_bytes E) _ _ _ V1 F3),
      (passed_des L (@issuance_from_bytes E) _ _ _ V2 F4), (passed_slice L _ _ _ V F1).
    assert (Hmatch : forall A (b : bytes) (x : step A), (b = [] /\ match b with [] => Return zero_len_and_ptr | _ => x end = Return zero_len_and_ptr) \/
      (b <> [] /\ match b with [] => Return zero_len_and_ptr | _ => x end = x)).
    { intros A [|y b] x; [left|right]; split; congruence. }
    assert (Z1 : sw_finish reuse mm os Some (Return zero_len_and_ptr) = SwReturns (Some []) os) by reflexivity.
    destruct (Hmatch _ params (ok_or_return (@system_parameters_from_bytes E params))) as [[Hn ->]|[_ ->]].
    { right; right. split; [|exact Z1]. subst. intros (sp & _ & _ & _ & _ & K & _). vm_compute in K. discriminate. }
    destruct (@system_parameters_from_bytes E params) as [sp|e|] eqn:Hsp; cbn [ok_or_return then_].
    2: { right; right. split; [|exact Z1]. intros (? & ? & ? & ? & ? & K & _); congruence. }
    2: { left; reflexivity. }
    destruct (Hmatch _ issuer_params (ok_or_return (@public_key_from_bytes E issuer_params))) as [[Hn ->]|[_ ->]]; cbn [then_].
    { right; right. split; [|exact Z1]. subst. intros (sp' & ip & iss & u & u' & _ & K & _ & _ & Ku & Kf).
      assert (Hip : pk_Xn ip = []) by (vm_compute in K; injection K as <-; reflexivity).
      assert (Hup : us_issuer_parameters (su_user u) = ip).
      { unfold signal_user_new in Ku. inv_ok. reflexivity. }
      unfold signal_obtain_finish, obtain_finish in Kf. rewrite Hup, Hip in Kf. cbn [nth_error] in Kf. discriminate. }
    destruct (@public_key_from_bytes E issuer_params) as [ip|e|] eqn:Hip; cbn [ok_or_return then_].
    2: { right; right. split; [|exact Z1]. intros (? & ? & ? & ? & ? & ? & K & _); congruence. }
    2: { left; reflexivity. }
    destruct (Hmatch _ issuance (ok_or_return (@issuance_from_bytes E issuance))) as [[Hn ->]|[_ ->]]; cbn [then_].
    { right; right. split; [|exact Z1]. subst. intros (sp' & ip' & iss & u & u' & _ & _ & K & _). vm_compute in K. discriminate. }
    destruct (@issuance_from_bytes E issuance) as [iss|e|] eqn:His; cbn [ok_or_return then_].
    2: { right; right. split; [|exact Z1]. intros (? & ? & ? & ? & ? & ? & ? & K & _); congruence. }
    2: { left; reflexivity. }
    destruct (Hmatch _ number (Next number)) as [[Hn ->]|[Hn ->]]; cbn [then_].
    { right; right. split; [|exact Z1]. intros (? & ? & ? & ? & ? & ? & ? & ? & K & _). contradiction. }
    destruct (signal_user_new sp ip None number) as [u|e|] eqn:Hu; cbn [ok_or_return then_].
    2: { right; right. split; [|exact Z1]. intros (? & ? & ? & ? & ? & ? & ? & ? & ? & K & _); congruence. }
    2: { left; reflexivity. }
    destruct (signal_obtain_finish u (Some iss)) as [u' res] eqn:Hf.
    destruct res as [[]|e|] eqn:Hr; cbn [ok_or_return then_].
    - right; left. split; [exists sp, ip, iss, u, u'; auto 10|]. exists (mem_next mm), u'. apply finish_serialized.
      unfold signal_user_to_bytes, user_to_bytes.
      intros K. apply (f_equal (@List.length byte)) in K. rewrite !app_length, (system_parameters_length L) in K. discriminate.
    - right; right. split; [|exact Z1]. intros (? & ? & ? & ? & ? & ? & ? & ? & _ & K & K'). congruence.
    - left; reflexivity.
  Qed.
End user.
(** A user is made whether or not it obtained a credential (unless the call
    unwinds); one which did not is empty, and its presentations are zero. *)
Theorem C53_user_never_nil_refuted : forall E, ExtLaws E -> forall reuse m os number params issuer_params issuance,
  fits E number -> fits E params -> fits E issuer_params -> fits E issuance ->
  @sw_user_init E reuse m os number params issuer_params issuance = SwUnwinds \/
  exists d, @sw_user_init E reuse m os number params issuer_params issuance = SwReturns (Some d) os /\
    (~ obtains E number params issuer_params issuance -> d = []).
Proof.
  intros E L reuse m os number params issuer_params issuance F1 F2 F3 F4.
  destruct (sw_user_cases L reuse m os number params issuer_params issuance F1 F2 F3 F4) as [H|[(Ho & id & u & H)|[_ H]]].
  - left; exact H.
  - right. eexists. split; [exact H|]. contradiction.
  - right. exists []. auto.
Qed.
Print Assumptions C53_user_never_nil_refuted.
Theorem C53_empty_user_shows_refuted : forall E, ExtLaws E -> forall reuse m os entry seed,
  List.length seed = 32%nat ->
  @sw_show E reuse m os [] entry seed = SwReturns (Some (zeros 448)) os.
Proof.
  intros E L reuse m os entry seed Hs. unfold sw_show. rewrite Hs. cbn [Nat.eqb negb]. pass.
  unfold c_user_show. rewrite (passed_seed L _ _ _ V1 Hs). cbn [then_ sw_count List.length Z.of_nat].
  assert (Hm : @deserialize_or_return E _ _ (@signal_user_from_bytes E) m2 0 p = Return zero_len_and_ptr).
  { apply then_return. left. apply slice_return. split; [reflexivity|]. right; reflexivity. }
  rewrite Hm. reflexivity.
Qed.
Print Assumptions C53_empty_user_shows_refuted.

(** ** C53: what does return nil *)
Lemma with_bytes_some i n b : sw_init_with_bytes i n b <> None.
Proof. unfold sw_init_with_bytes. destruct (_ =? _)%nat; discriminate. Qed.
Lemma read_not {A} reuse m b (k : bytes -> A) os x : (forall d, k d <> x) ->
  forall os', sw_read reuse m b (fun data => SwReturns (k data) os) <> SwReturns x os'.
Proof. intros H os' K. unfold sw_read in K. destruct (sw_array reuse m b); [|discriminate]. injection K as K _. exact (H _ K). Qed.
Lemma after_not {A} (r : call_result) k (x : A) os' : (forall b m os, k b m os <> SwReturns x os') ->
  sw_after r k <> SwReturns x os'.
Proof. intros H. destruct r; cbn [sw_after]; [apply H|discriminate..]. Qed.
(** A function returns nil exactly when it has a seed argument whose length is
    not 32; those without a seed never do. *)
Theorem C53_nil_iff_bad_seed : forall E reuse fuel m os os' issuer b1 b2 b3 b4 seed,
  (@sw_system_parameters_create E reuse fuel m os seed = SwReturns None os' <-> (List.length seed <> 32%nat /\ os' = os)) /\
  (@sw_roster_entry_with_seed E reuse m os seed b1 b2 = SwReturns None os' <-> (List.length seed <> 32%nat /\ os' = os)) /\
  (@sw_issuer_with_seed E reuse m os seed b1 = SwReturns None os' <-> (List.length seed <> 32%nat /\ os' = os)) /\
  (@sw_issue E reuse m os issuer b1 seed = SwReturns None os' <-> (List.length seed <> 32%nat /\ os' = os)) /\
  (@sw_show E reuse m os b1 b2 seed = SwReturns None os' <-> (List.length seed <> 32%nat /\ os' = os)) /\
  @sw_get_parameters E reuse m os issuer <> SwReturns None os' /\
  @sw_verify E reuse m os issuer b1 <> SwReturns None os' /\
  @sw_user_init E reuse m os b1 b2 b3 b4 <> SwReturns None os'.
Proof.
  intros E reuse fuel m os os' issuer b1 b2 b3 b4 seed.
  assert (G : forall A (rest : sw_result (option A)), rest <> SwReturns None os' ->
    (if negb (List.length seed =? 32)%nat then SwReturns None os else rest) = SwReturns None os' <->
    (List.length seed <> 32%nat /\ os' = os)).
  { intros A rest H. destruct (Nat.eqb_spec (List.length seed) 32); cbn [negb].
    - split; [contradiction|intros [? _]; contradiction].
    - split; [intros [= <-]; auto|intros [_ ->]; reflexivity]. }
  unfold sw_system_parameters_create, sw_roster_entry_with_seed, sw_issuer_with_seed, sw_issue, sw_show, sw_get_parameters,
    sw_verify, sw_user_init.
  split; [apply G|split; [apply G|split; [apply G|split; [apply G|split; [apply G|split; [|split]]]]]]; pass;
    apply after_not; intros b m' os1.
  3: { unfold sw_read. destruct (sw_array reuse m' b) as [d|]; [|discriminate].
       destruct (SwKeypair_withBytes d); [|discriminate]. pass. apply after_not. intros b' m'' os2.
       apply (read_not reuse m'' b' (fun data => Some {| sw_keypair := _; sw_data := data |})). discriminate. }
  all: first [apply (read_not reuse m' b Some); discriminate
             |apply (read_not reuse m' b SwIssuance_withBytes), with_bytes_some
             |apply (read_not reuse m' b SwPresentation_withBytes), with_bytes_some
             |apply (read_not reuse m' b SwIssuerParameters_withBytes), with_bytes_some
             |apply (read_not reuse m' b SwVerified_withBytes), with_bytes_some].
Qed.
Print Assumptions C53_nil_iff_bad_seed.

(** ** C53: an issuer is made from parameters which are none *)
Theorem C53_issuer_bad_parameters_refuted : forall E, ExtLaws E -> forall reuse m os seed params issuer presentation m' os',
  List.length seed = 32%nat -> fits E params -> fits E presentation ->
  (forall p, @system_parameters_from_bytes E params <> Ok p) ->
  @sw_issuer_with_seed E reuse m os seed params = SwReturns (Some {| sw_keypair := zeros 96; sw_data := [] |}) os /\
  (sw_data issuer = [] ->
   @sw_get_parameters E reuse m' os' issuer = SwReturns (Some (zeros 32)) os' /\
   @sw_verify E reuse m' os' issuer presentation = SwReturns (Some (zeros 448)) os').
Proof.
  intros E L reuse m os seed params issuer presentation m' os' Hs F1 F2 Hno. split.
  - unfold sw_issuer_with_seed. rewrite Hs. cbn [Nat.eqb negb]. pass.
    assert (Hd : forall mm q, passed mm q params ->
      @deserialize_or_return E _ _ (@system_parameters_from_bytes E) mm (sw_count params) q = Return zero_len_and_ptr).
    { intros mm q Hq. rewrite (passed_des L _ _ _ _ Hq F1). destruct params as [|x params]; [reflexivity|].
      destruct (system_parameters_from_bytes (x :: params)) as [y|e|] eqn:Hy; [elim (Hno y eq_refl)|reflexivity|
        elim (system_parameters_no_panic _ Hy)]. }
    unfold c_issuer_create. rewrite (passed_seed L _ _ _ V0 Hs). cbn [then_]. rewrite (Hd _ _ V). cbn [then_ call sw_after].
    change (sw_read reuse m1 zero_len_and_ptr ?k) with (k []). cbn beta.
    change (SwKeypair_withBytes []) with (Some (zeros 96)). cbn iota. pass.
    unfold c_issuer_new. rewrite (Hd _ _ V1). reflexivity.
  - intros Hi. assert (F0 : fits E (sw_data issuer)).
    { rewrite Hi. unfold fits. destruct (usize_bits_cases E L) as [-> | ->]; reflexivity. }
    split; [apply (C53_get_parameters_refuted E L); [exact F0|rewrite Hi; discriminate]|].
    apply (C53_verify_rejected_refuted E L); [exact F0|exact F2|]. rewrite Hi. intros (i & q & v & H & _).
    vm_compute in H. discriminate.
Qed.
Print Assumptions C53_issuer_bad_parameters_refuted.

(** ** C53: opening a roster entry does report failure *)
Theorem C53_open_correct : forall E, ExtLaws E -> forall m os entry number params b os',
  fits E entry -> fits E number -> fits E params ->
  @sw_roster_entry_open E m os entry number params = SwReturns b os' ->
  os' = os /\
  (b = true <-> exists (e : RosterEntryCommitment E) p, roster_from_bytes entry = Ok e /\ number <> [] /\
     system_parameters_from_bytes params = Ok p /\ roster_open e number p = Ok tt).
Proof.
  intros E L m os entry number params b os' F1 F2 F3 H. unfold sw_roster_entry_open in H.
  revert H. pass. intros H. rename m2 into mm.
  assert (G : forall q d, passed mm q d -> fits E d -> forall d', @given E mm q (sw_count d) d' <-> (d <> [] /\ d' = d)).
  { intros q d Hq Hf d'. rewrite <- (slice_next (E := E)), (passed_slice L _ _ _ Hq Hf). destruct d; split; try discriminate.
    - intros [? _]; contradiction.
    - intros [= <-]. split; [discriminate|reflexivity].
    - intros [_ ->]. reflexivity. }
  destruct (c_roster_entry_commitment_open _ _ _ _ _ _ _ _) as [buf m' o| | |] eqn:Hc; try discriminate.
  cbn [sw_after] in H. injection H as <- <-.
  pose proof (C48_open_result E L _ _ _ _ _ _ _ _ _ _ _ Hc) as (-> & -> & Hr). split; [reflexivity|].
  rewrite Z.eqb_eq. split.
  - intros Hb. destruct Hr as [(eb & e & nb & pb & prm & G1 & D1 & G2 & G3 & D3 & _ & [[_ Ho]|[K _]])| ->]; [|congruence|discriminate].
    apply (G _ _ V F1) in G1 as [_ ->]. apply (G _ _ V0 F2) in G2 as [Hn ->]. apply (G _ _ V1 F3) in G3 as [_ ->].
    exists e, prm. auto.
  - intros (e & prm & D1 & Hn & D3 & Ho). unfold c_roster_entry_commitment_open in Hc.
    assert (Hne1 : entry <> []) by (intros ->; vm_compute in D1; discriminate).
    assert (Hne3 : params <> []) by (intros ->; vm_compute in D3; discriminate).
    rewrite (proj2 (slice_next _ _ _ _) (proj2 (G _ _ V0 F2 number) (conj Hn eq_refl))) in Hc. cbn [then_] in Hc.
    rewrite (proj2 (des_next (E := E) (@system_parameters_from_bytes E) _ _ _ prm)
       (ex_intro _ params (conj (proj2 (G _ _ V1 F3 params) (conj Hne3 eq_refl)) D3))) in Hc. cbn [then_] in Hc.
    rewrite (proj2 (des_next (E := E) (@roster_from_bytes E) _ _ _ e)
       (ex_intro _ entry (conj (proj2 (G _ _ V F1 entry) (conj Hne1 eq_refl)) D1))) in Hc. cbn [then_] in Hc.
    rewrite Ho in Hc. cbn [call] in Hc. injection Hc as <-. reflexivity.
Qed.
Print Assumptions C53_open_correct.

(** ** Examples *)
(** What a call returned: whether it is nil, its length, and whether it is all
    zeros. *)
Definition sw_summary (r : sw_result (option bytes)) : option (option (nat * bool)) :=
  match r with
  | SwReturns None _ => Some None
  | SwReturns (Some d) _ => Some (Some (List.length d, forallb (Byte.eqb x00) d))
  | _ => None
  end.
Definition sample_sw_issuer : SwIssuer :=
  {| sw_keypair := keypair_to_bytes (iss_keypair sample_issuer); sw_data := signal_issuer_to_bytes sample_issuer |}.
Lemma fits_toy b : (List.length b < 2 ^ 16)%nat -> fits toy b.
Proof.
  intros H. unfold fits. eapply Z.lt_trans with (2 ^ 16); [|reflexivity]. change (2 ^ 16) with (Z.of_nat (2 ^ 16)). lia.
Qed.
Example C53_verify_met : fits toy (sw_data sample_sw_issuer) /\
  sw_summary (@sw_verify toy unchanged (blocks []) (toy_stream 1) sample_sw_issuer (zeros 448)) = Some (Some (448, true))%nat /\
  sw_summary (@sw_verify toy unchanged (blocks []) (toy_stream 1) sample_sw_issuer []) = Some (Some (448, true))%nat.
Proof. split; [apply fits_toy; apply Nat.ltb_lt; vm_compute; reflexivity|]. split; vm_compute; reflexivity. Qed.
Example C53_accepted_met :
  let p := forge_signal_presentation sample_params (pt 231) 9 2 3 (sample_entry 9) (toy_stream 1) (toy_stream 2) in
  is_ok (signal_verify sample_issuer p) = true /\
  sw_summary (@sw_verify toy unchanged (blocks []) (toy_stream 1) sample_sw_issuer (signal_presentation_to_bytes p)) =
    Some (Some (448, false))%nat.
Proof. split; vm_compute; reflexivity. Qed.
Example C53_get_parameters_met : List.length (sw_data sample_sw_issuer) = 160%nat /\
  is_ok (@signal_issuer_from_bytes toy (sw_data sample_sw_issuer)) = true /\
  sw_summary (@sw_get_parameters toy unchanged (blocks []) (toy_stream 1) sample_sw_issuer) = Some (Some (32, true))%nat.
Proof. split; [|split]; vm_compute; reflexivity. Qed.
(** With the issuer's key the user is made and has a credential; with the
    parameters the wrapper returns it is empty. *)
Example C53_user_met : exists iss r os, signal_issue sample_issuer (str "123") (toy_stream 7) (toy_stream 8) = Ok (iss, r, os) /\
  (match sw_summary (@sw_user_init toy unchanged (blocks []) (toy_stream 1) (str "123") (system_parameters_to_bytes sample_params)
                      (public_key_to_bytes (kp_public (iss_keypair sample_issuer))) (issuance_to_bytes iss)),
        sw_summary (@sw_user_init toy unchanged (blocks []) (toy_stream 1) (str "123") (system_parameters_to_bytes sample_params)
                      (zeros 32) (issuance_to_bytes iss)) with
  | Some (Some (288%nat, false)), Some (Some (0%nat, true)) => true
  | _, _ => false
  end) = true.
Proof. apply run3. vm_compute. reflexivity. Qed.
Example C53_bad_parameters_met : is_ok (@system_parameters_from_bytes toy (le_encode 64 (2 ^ 255))) = false.
Proof. vm_compute. reflexivity. Qed.
Definition sw_bool (r : sw_result bool) : option bool := match r with SwReturns b _ => Some b | _ => None end.
Example C53_open_met : exists n, try_from_bytes (str "123") = Ok n /\
  (match sw_bool (@sw_roster_entry_open toy (blocks []) (toy_stream 1) (roster_to_bytes (sample_entry n)) (str "123") (system_parameters_to_bytes sample_params)),
        sw_bool (@sw_roster_entry_open toy (blocks []) (toy_stream 1) (roster_to_bytes (sample_entry n)) (str "124") (system_parameters_to_bytes sample_params)) with
  | Some true, Some false => true
  | _, _ => false
  end) = true.
Proof. apply run1. vm_compute. reflexivity. Qed.
