(** C79: what the texts of the errors say. *)
From Verif Require Import CompositeFacts PropertiesCodec SpecErrors PropertiesErrors PropertiesPhone ProofFacts PropertiesIssue PropertiesShow Toy ModelDisplay.
From Coq Require Import ZifyNat String DecimalString DecimalNat.
Local Open Scope string_scope.

(** ** Texts determine the errors *)
Lemma usize_text_inj n m : usize_text n = usize_text m -> n = m.
Proof.
  unfold usize_text. intros H. apply (f_equal NilZero.uint_of_string) in H.
  assert (N : forall k, Nat.to_uint k <> Decimal.Nil).
  { intros k Hk. pose proof (Unsigned.of_to k) as K. destruct k as [|k]; [discriminate Hk|].
    pose proof (Unsigned.of_to (S k)) as K'. rewrite Hk in K'. discriminate K'. }
  rewrite !NilZero.usu in H by apply N. injection H as H.
  rewrite <- (Unsigned.of_to n), <- (Unsigned.of_to m), H. reflexivity.
Qed.
Lemma append_cancel_l a b c : a ++ b = a ++ c -> b = c.
Proof. induction a as [|x a IH]; cbn; [auto|]. intros H. injection H as H. auto. Qed.
Lemma append_length a b : String.length (a ++ b) = (String.length a + String.length b)%nat.
Proof. induction a; cbn; auto. Qed.
Lemma append_cancel_r a b c : a ++ c = b ++ c -> a = b.
Proof.
  revert b. induction a as [|x a IH]; intros b H.
  - destruct b as [|y b]; [reflexivity|]. apply (f_equal String.length) in H. cbn in H. rewrite append_length in H. lia.
  - destruct b as [|y b].
    + apply (f_equal String.length) in H. cbn in H. rewrite append_length in H. lia.
    + cbn in H. injection H as -> H. f_equal. apply IH, H.
Qed.

Theorem C79_texts_differ :
  (forall e e', mac_error_text e = mac_error_text e' -> e = e') /\
  (forall e e', credential_error_text e = credential_error_text e' -> e = e') /\
  (forall e e', phone_error_text e = phone_error_text e' -> e = e').
Proof.
  split; [|split].
  - intros e e' H. destruct e, e'; try reflexivity; try discriminate H.
    cbn [mac_error_text] in H. apply append_cancel_l, append_cancel_r, usize_text_inj in H. congruence.
  - intros e e' H. destruct e, e'; try reflexivity; discriminate H.
  - intros e e' H. destruct e, e'; try reflexivity; discriminate H.
Qed.
Print Assumptions C79_texts_differ.
Example C79_met : mac_error_text (MessageLengthError 33) = "Message must be 33 bytes in length" /\
  mac_error_text (MessageLengthError 33) <> mac_error_text (MessageLengthError 3).
Proof. split; [reflexivity|discriminate]. Qed.

(** ** Lengths *)

(** "Message must be n bytes in length", where n is the length "which its
    constructor expects": but n is never a length that is accepted. *)
Theorem C79_expected_length_refuted : forall E, ExtLaws E -> forall b n,
  (@public_key_from_bytes E b = Err (MessageLengthError n) ->
   n = List.length b /\ forall b' k, @public_key_from_bytes E b' = Ok k -> List.length b' <> n) /\
  (secret_key_from_bytes b = Err (MessageLengthError n) ->
   n = List.length b /\ forall b' k, secret_key_from_bytes b' = Ok k -> List.length b' <> n).
Proof.
  intros E L b n. destruct (C78_keys E L b) as (_ & _ & (_ & Hp & _) & (_ & Hs & _) & _). split; intros H.
  - apply Hp in H. cbn in H. destruct H as [[H1 [= ->]]|[_ [[_ [=]]|[_ []]]]]. split; [reflexivity|].
    intros b' k Hk Hl. apply (public_key_iff L) in Hk. subst b'. apply H1. rewrite <- Hl, public_key_length by exact L. apply mod32.
  - apply Hs in H. cbn in H. destruct H as [[H1 [= ->]]|[_ [[_ [=]]|[_ [[_ [=]]|[_ []]]]]]]. split; [reflexivity|].
    intros b' k Hk Hl. apply secret_key_iff in Hk as [_ ->]. apply H1. rewrite <- Hl, secret_key_length. apply mod32.
Qed.
Print Assumptions C79_expected_length_refuted.
Example C79_met_expected_length : @public_key_from_bytes toy (zeros 33) = Err (MessageLengthError 33) /\
  secret_key_from_bytes (zeros 33) = Err (MessageLengthError 33).
Proof. split; reflexivity. Qed.

(** [mac] reports a number of attributes as a number of bytes: 1 for the keys of
    the code, whose attributes take 32 bytes. *)
Theorem C79_message_bytes_refuted : forall E (k : SecretKey) (m : Message) (r : rng) e,
  @mac E k m r = Err e ->
  mac_error_text e = "Message must be " ++ usize_text (List.length (sk_xn k)) ++ " bytes in length" /\
  forall m' t r', @mac E k m' r = Ok (t, r') ->
    List.length (flat_map scalar_to_bytes m') = (32 * List.length (sk_xn k))%nat.
Proof.
  intros E k m r e H. split.
  - unfold mac in H. destruct (negb _) eqn:Hl.
    + injection H as <-. reflexivity.
    + destruct (scalar_random r) as [x r']. unfold mac_with in H. rewrite Hl in H. discriminate H.
  - intros m' t r' H'. unfold mac in H'. destruct (negb _) eqn:Hl; [discriminate H'|].
    apply Bool.negb_false_iff, Nat.eqb_eq in Hl. rewrite Hl.
    rewrite (flat_map_length32 scalar_to_bytes) by apply scalar_to_bytes_length. reflexivity.
Qed.
Print Assumptions C79_message_bytes_refuted.
Example C79_met_message_bytes : exists e, @mac toy {| sk_x0 := 1; sk_xn := [2]%Z |} [] (toy_stream 1) = Err e /\
  mac_error_text e = "Message must be 1 bytes in length".
Proof. eexists. split; reflexivity. Qed.

(** "not a multiple of 32 bytes": true of requests and presentations, and a
    credential may be refused so though it is. *)
Theorem C79_multiple_of_32 : forall E, ExtLaws E -> forall b,
  (request_from_bytes b = Err WrongNumberOfBytes <-> Nat.modulo (List.length b) 32 <> 0%nat) /\
  (@presentation_from_bytes E b = Err WrongNumberOfBytes <-> Nat.modulo (List.length b) 32 <> 0%nat) /\
  (@credential_from_bytes E b = Err WrongNumberOfBytes <-> List.length b <> 96%nat).
Proof.
  intros E L b. destruct (C78_messages E L b) as ((_ & Hc & _) & (_ & Hr & _) & _ & (_ & Hp & _) & _).
  split; [|split].
  - rewrite Hr. cbn. split; [intros [[H _]|[_ [[_ [=]]|[_ []]]]]; exact H|auto].
  - rewrite Hp. cbn [presentation_faults first_fault]. split; [|auto].
    intros [[H _]|[_ H]]; [exact H|exfalso]. repeat destruct H as [[_ [=]]|[_ H]]. exact H.
  - rewrite Hc. cbn [credential_faults first_fault]. split; [|auto].
    intros [[H _]|[_ H]]; [exact H|exfalso]. repeat destruct H as [[_ [=]]|[_ H]]. exact H.
Qed.
Print Assumptions C79_multiple_of_32.
Theorem C79_multiple_of_32_refuted : exists b, Nat.modulo (List.length b) 32 = 0%nat /\
  forall E, ExtLaws E -> @credential_from_bytes E b = Err WrongNumberOfBytes.
Proof.
  exists (zeros 128). split; [reflexivity|]. intros E L. apply (C79_multiple_of_32 E L). discriminate.
Qed.
Print Assumptions C79_multiple_of_32_refuted.

(** "more than 32 bytes": true of the conversions of numbers; [from_bytes] says so
    of shorter strings too. *)
Theorem C79_phone_length : forall b,
  (try_from_string b = Err LengthExceeded <-> (32 < List.length b)%nat) /\
  (try_from_bytes b = Err LengthExceeded <-> (32 < List.length b)%nat) /\
  (phone_number_from_bytes b = Err LengthExceeded <-> List.length b <> 32%nat).
Proof.
  intros b. destruct (C27_outcomes b) as (H1 & H2 & H3).
  assert (C : (List.length b <= 27 \/ 28 <= List.length b <= 32 \/ 32 < List.length b)%nat) by lia.
  split; [|split].
  - destruct C as [C|[C|C]].
    + destruct (H1 C) as [_ (n & -> & _)]. split; [discriminate|lia].
    + destruct (H2 C) as [_ ->]. split; [discriminate|lia].
    + destruct (H3 C) as [_ ->]. tauto.
  - destruct C as [C|[C|C]].
    + destruct (H1 C) as [(n & -> & _) _]. split; [discriminate|lia].
    + destruct (H2 C) as [-> _]. split; [discriminate|lia].
    + destruct (H3 C) as [-> _]. tauto.
  - split.
    + unfold phone_number_from_bytes. destruct (Nat.eqb_spec (List.length b) 32) as [K|K]; cbn [negb]; [|auto].
      rewrite slice_some by lia. discriminate.
    + intros H. unfold phone_number_from_bytes. apply Nat.eqb_neq in H. rewrite H. reflexivity.
Qed.
Print Assumptions C79_phone_length.
Theorem C79_phone_length_refuted : exists b, (List.length b <= 32)%nat /\ phone_number_from_bytes b = Err LengthExceeded.
Proof. exists (str "14155551234"). split; [cbn; lia|reflexivity]. Qed.
Print Assumptions C79_phone_length_refuted.

(** ** Contents *)

(** "scalar with high-bit set": all those are refused, and many more. *)
Theorem C79_high_bit : forall E, ExtLaws E -> forall (P Q : point E) v, (0 <= v < 2 ^ 256)%Z ->
  (2 ^ 255 <= v -> @credential_from_bytes E (compress P ++ compress Q ++ le32 v)%list = Err ScalarFormatError)%Z /\
  (@credential_from_bytes E (compress P ++ compress Q ++ le32 v)%list = Err ScalarFormatError <-> ell <= v)%Z.
Proof.
  intros E L P Q v Hv.
  set (b := (compress P ++ compress Q ++ le32 v)%list).
  assert (K : @credential_from_bytes E b = Err ScalarFormatError <-> (ell <= v)%Z).
  { assert (Hl : List.length b = 96%nat).
    { unfold b. rewrite !app_length, !(compress_len L). unfold le32. rewrite le_encode_length. reflexivity. }
    destruct (C78_messages E L b) as ((_ & Hc & _) & _). rewrite Hc. cbn [credential_faults first_fault].
    assert (N1 : ~ bad_point E 0 b) by (intros H; apply H; exists P; apply field_here, (compress_len L)).
    assert (N2 : ~ bad_point E 32 b).
    { intros H; apply H. exists Q. unfold b. rewrite (field_skip 32) by (try apply (compress_len L); lia). cbn [Nat.sub].
      apply field_here, (compress_len L). }
    assert (N3 : bad_scalar 64 b <-> (ell <= v)%Z).
    { assert (F : field 64 32 b = le32 v).
      { unfold b. rewrite (field_skip 32) by (try apply (compress_len L); lia). rewrite (field_skip 32) by (try apply (compress_len L); lia).
        cbn [Nat.sub]. apply field_all. unfold le32. apply le_encode_length. }
      unfold bad_scalar. rewrite F. split.
      - intros H. destruct (Z.lt_ge_cases v ell) as [C|C]; [|exact C]. destruct H. exists v. split; [unfold canonical; lia|reflexivity].
      - intros H (s & Hs & Hq). apply (f_equal le_decode) in Hq. unfold le32 in Hq.
        rewrite !le_decode_encode_small in Hq; [unfold canonical in Hs; lia| |]; change (Z.of_nat 32) with 32%Z.
        + pose proof ell_lt_256. unfold canonical in Hs. lia.
        + change (256 ^ 32)%Z with (2 ^ 256)%Z. exact Hv. }
    split.
    - intros [[H _]|[_ [[_ [=]]|[_ [[_ [=]]|[_ [[H _]|[_ []]]]]]]]]; [congruence|apply N3, H].
    - intros H. right. split; [congruence|]. right. split; [exact N1|]. right. split; [exact N2|]. left. split; [apply N3, H|reflexivity]. }
  split; [|exact K]. intros H. apply K. pose proof ell_lt_255. lia.
Qed.
Print Assumptions C79_high_bit.
(** [ell] itself, for one. *)
Theorem C79_high_bit_refuted : forall E, ExtLaws E -> forall P Q : point E,
  (ell < 2 ^ 255)%Z /\ @credential_from_bytes E (compress P ++ compress Q ++ le32 ell)%list = Err ScalarFormatError.
Proof.
  intros E L P Q. split; [apply ell_lt_255|]. apply (C79_high_bit E L); [|lia].
  pose proof ell_lt_255. pose proof ell_pos. split; [lia|]. apply (Z.lt_trans _ (2 ^ 255)); [assumption|reflexivity].
Qed.
Print Assumptions C79_high_bit_refuted.

(** "proof of roster membership could not be verified": reported when no proof is
    involved, for an entry whose first half is no point. *)
Theorem C79_roster_text_refuted : forall E, ExtLaws E -> forall b,
  (exists e, @roster_from_bytes E b = Err e /\
     phone_error_text e = "The user's proof of roster membership could not be verified") <->
  (32 <= List.length b)%nat /\ bad_point E 0 b.
Proof.
  intros E L b. transitivity (@roster_from_bytes E b = Err InvalidPhoneNumber).
  - split; [|intros H; eexists; split; [exact H|reflexivity]]. intros ([] & H & T); [discriminate T|exact H].
  - destruct (C78_records E L b) as (_ & _ & _ & _ & _ & _ & (_ & Hr & _)). rewrite Hr.
    cbn [roster_faults first_fault]. split.
    + intros [[_ [=]]|[H1 [[H2 _]|[_ [[_ [=]]|[_ []]]]]]]. split; [lia|exact H2].
    + intros [H1 H2]. right. split; [lia|]. left. auto.
Qed.
Print Assumptions C79_roster_text_refuted.
Example C79_met_roster : bad_point toy 0 bad_item /\ (32 <= List.length bad_item)%nat.
Proof. split; [apply C78_met_faults|vm_compute; lia]. Qed.

(** ** Conversions *)

(** Errors of the MAC keep apart when they become errors of the credential, but a
    point that cannot be decompressed is then a missing parameter. *)
Theorem C79_conversion : forall e e', mac_to_credential_error e = mac_to_credential_error e' ->
  e = e' \/ exists n n', e = MessageLengthError n /\ e' = MessageLengthError n'.
Proof. intros e e' H. destruct e, e'; try discriminate H; eauto. Qed.
Print Assumptions C79_conversion.
Theorem C79_conversion_refuted :
  mac_error_text MacPointDecompressionError = credential_error_text PointDecompressionError /\
  credential_error_text (mac_to_credential_error MacPointDecompressionError) =
    "The issuer was not initialised properly and has no parameters".
Proof. split; reflexivity. Qed.
Print Assumptions C79_conversion_refuted.

(** ** The protocol *)

(** What is said when the steps of the protocol fail, and when.  Both texts that
    name a MAC are about something else: a request with another number of
    attributes, and a proof that does not verify. *)
Theorem C79_protocol_texts : forall E, ExtLaws E -> forall (i : Issuer E) (u : User E) e,
  let Xn := pk_Xn (kp_public (iss_keypair i)) in
  let xn := sk_xn (kp_secret (iss_keypair i)) in
  (forall rq r os, issue i rq r os = Err e ->
     (credential_error_text e = "The issuer was not initialised properly and has no parameters" /\ Xn = []) \/
     (credential_error_text e = "The issuer was not initialised properly and has no secret key" /\ Xn <> [] /\ xn = []) \/
     (credential_error_text e = "Could not create a MAC" /\ List.length (rq_attributes_revealed rq) <> List.length xn)) /\
  (forall p, issuer_verify i p = Err e -> credential_error_text e = "Could not verify a MAC") /\
  (forall nonces r os, show u nonces r os = Err e ->
     credential_error_text e = "Some data, such as a key or zkproof, was missing" /\ us_credential u = None) /\
  (forall o, snd (obtain_finish u o) = Err e ->
     (credential_error_text e = "The issuer was not initialised properly and has no parameters" /\
      pk_Xn (us_issuer_parameters u) = [] /\ o <> None) \/
     credential_error_text e = "Failed to get a credential issued").
Proof.
  intros E L i u e Xn xn. split; [|split; [|split]].
  - intros rq r os H. destruct (C09_issue_outcomes E L i rq r os) as [[H1 K]|[(H1 & H2 & K)|[(H1 & H2 & H3 & K)|(_ & _ & _ & x & r' & os' & K & _)]]];
      rewrite K in H; [injection H as <-..|discriminate H]; auto.
  - intros p. unfold issuer_verify. destruct (verify_statement i p) as [q|e'|] eqn:Hq; cbn [bind]; [| |discriminate].
    + pose proof (vc_verify_no_panic (pr_proof p) (transcript_new "AEONFLUX SHOW") q) as N.
      destruct (vc_verify _ _ _); cbn; [discriminate| |contradiction]. intros [= <-]. reflexivity.
    + exfalso. unfold verify_statement in Hq.
      assert (R : forall xs P k a V x, @verify_revealed E xs P k a V <> Err x).
      { intros xs P k a. revert k. induction a as [|m a IH]; intros k V x; [discriminate|].
        cbn. destruct (Base.index xs k); [apply IH|discriminate]. }
      assert (B : forall xs k a V x, @verify_blinded E xs k a V <> Err x).
      { intros xs k a. revert k. induction a as [|m a IH]; intros k V x; [discriminate|].
        cbn. destruct (Base.index xs k); [apply IH|discriminate]. }
      destruct (verify_revealed _ _ _ _ _) eqn:H1; cbn [bind] in Hq; [|exact (R _ _ _ _ _ _ H1)|discriminate].
      destruct (verify_blinded _ _ _ _) eqn:H2; cbn [bind] in Hq; [|exact (B _ _ _ _ _ H2)|discriminate].
      destruct (Base.index _ 0); cbn [or_panic bind] in Hq; [|discriminate]. destruct (Base.index _ 0); discriminate.
  - intros nonces r os H. pose proof (C37_show_outcomes E L u nonces r os) as K. destruct (us_credential u) as [c|].
    + destruct K as [[_ K]|(_ & _ & _ & x & K)]; congruence.
    + rewrite K in H. injection H as <-. auto.
  - intros [iss|] H; [|cbn in H; injection H as <-; auto]. cbn in H.
    destruct (pk_Xn (us_issuer_parameters u)) as [|X Xs]; cbn in H.
    + injection H as <-. left. split; [reflexivity|]. split; [reflexivity|discriminate].
    + match type of H with context [ir_verify ?a ?b ?c] => destruct (ir_verify a b c) end; cbn in H; [discriminate| |discriminate].
      injection H as <-. auto.
Qed.
Print Assumptions C79_protocol_texts.
(** A user whose request has two attributes, and a presentation that is refused. *)
Example C79_met_protocol :
  issue sample_issuer (request [1; 2]%Z) (toy_stream 1) (toy_stream 2) = Err MacCreation /\
  is_err (issuer_verify sample_issuer (sample_shown 7)) = true /\
  show sample_user [3%Z] (toy_stream 1) (toy_stream 2) = Err MissingData /\
  snd (obtain_finish sample_user None) = Err CredentialIssuanceError.
Proof. split; [reflexivity|]. split; [vm_compute; reflexivity|]. split; reflexivity. Qed.
