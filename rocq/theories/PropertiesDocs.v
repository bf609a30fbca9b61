(** C93: what the comments on the functions say. *)
From Verif Require Import IssueFacts SignalFacts PhoneFacts PropertiesIssue PropertiesPhone PropertiesShow PropertiesSignal PropertiesCalls PropertiesOps PropertiesTests FfiFacts CompositeFacts PropertiesFfi Toy SpecCalls ModelWasm ModelFfi.
From Coq Require Import ZifyNat.

(** ** The errors of [issue] (signal-credential/src/issuer.rs:113-125) *)

(** An issuer with a key for one attribute returns one error, [MissingData], and
    exactly for a number of more than 32 bytes. *)
Theorem C93_issue_errors : forall E, ExtLaws E -> forall (i : Issuer E) number r os,
  consistent i -> single_attribute i -> forall e,
  signal_issue i number r os = Err e <-> e = MissingData /\ (32 < List.length number)%nat.
Proof.
  intros E L i number r os Hc Hs e. destruct (C27_outcomes number) as (H1 & H2 & H3). unfold signal_issue.
  destruct (Nat.le_gt_cases (List.length number) 27) as [Hl|Hl].
  { destruct (H1 Hl) as [(n & -> & _) _]. cbn [map_err bind]. split; [|lia].
    destruct (single_cons i Hs) as [x1 Hx]. pose proof (consistent_single i x1 Hc Hx) as HX.
    destruct (C09_issue_outcomes E L i {| rq_attributes_revealed := [n] |} r os) as [[K _]|[(_ & K & _)|[(_ & _ & K & _)|(_ & _ & _ & x & r' & os' & -> & _)]]];
      [rewrite HX in K; discriminate K|rewrite Hx in K; discriminate K|rewrite Hx in K; elim K; reflexivity|discriminate]. }
  destruct (Nat.le_gt_cases (List.length number) 32) as [Hl'|Hl'].
  { destruct (H2 ltac:(lia)) as [-> _]. cbn. split; [discriminate|lia]. }
  destruct (H3 Hl') as [-> _]. cbn. split; [intros [= <-]; auto|intros [-> _]; reflexivity].
Qed.
Print Assumptions C93_issue_errors.

(** "[NoIssuerParameters] if the [issuer_parameters] didn't contain the correct
    length of public key", "[NoIssuerKey] if the secret [key] was not the correct
    length": returned for empty keys only.  A secret key of any other length gets
    an error which is not among those documented, and a public key of any other
    length is used. *)
Theorem C93_key_lengths_refuted : forall E, ExtLaws E -> forall (i : Issuer E) number n r os,
  let Xn := pk_Xn (kp_public (iss_keypair i)) in
  let xn := sk_xn (kp_secret (iss_keypair i)) in
  try_from_bytes number = Ok n ->
  (signal_issue i number r os = Err NoIssuerParameters <-> Xn = []) /\
  (signal_issue i number r os = Err NoIssuerKey <-> Xn <> [] /\ xn = []) /\
  (Xn <> [] -> (2 <= List.length xn)%nat -> signal_issue i number r os = Err MacCreation) /\
  (Xn <> [] -> List.length xn = 1%nat -> exists iss r' os', signal_issue i number r os = Ok (iss, r', os')).
Proof.
  intros E L i number n r os Xn xn Hn. unfold signal_issue. rewrite Hn. cbn [map_err bind].
  destruct (C09_issue_outcomes E L i {| rq_attributes_revealed := [n] |} r os) as [[K ->]|[(K & K' & ->)|[(K & K' & K'' & ->)|(K & K' & K'' & x & r' & os' & -> & _)]]];
    fold Xn in K; try fold xn in K'; cbn [rq_attributes_revealed List.length] in *; try fold xn in K''.
  - repeat split; try congruence; intros; contradiction || (destruct H; contradiction).
  - rewrite K'. repeat split; try congruence; cbn; intros; try lia; contradiction.
  - repeat split; try congruence; intros; try contradiction; try lia; destruct H; contradiction.
  - repeat split; try congruence; intros; try contradiction; try lia; [destruct H; contradiction|eauto].
Qed.
Print Assumptions C93_key_lengths_refuted.
(** An issuer with a key for two attributes, and one with a public key too long. *)
Example C93_met_keys :
  match signal_issue (issuer_with toy sample_params [pt 231; pt 33] 5 [7; 1]) (str "14155551234") (toy_stream 1) (toy_stream 2) with
  | Err MacCreation => true | _ => false end = true /\
  is_ok (signal_issue (issuer_with toy sample_params [pt 231; pt 33] 5 [7]) (str "14155551234") (toy_stream 1) (toy_stream 2)) = true.
Proof. split; vm_compute; reflexivity. Qed.

(** "[MissingData] if the user's supplied phone number could not be successfully
    converted": from 28 to 32 bytes it panics instead.  "[VerificationFailure] if
    the [request]'s [proof] couldn't be verified": no issuer returns it. *)
Theorem C93_number_error_refuted : forall E, ExtLaws E -> forall (i : Issuer E) number r os,
  (signal_issue i number r os = Panic <-> (28 <= List.length number <= 32)%nat) /\
  signal_issue i number r os <> Err VerificationFailure.
Proof.
  intros E L i number r os. destruct (C27_outcomes number) as (H1 & H2 & H3). unfold signal_issue.
  destruct (Nat.le_gt_cases (List.length number) 27) as [Hl|Hl].
  { destruct (H1 Hl) as [(n & -> & _) _]. cbn [map_err bind].
    destruct (C09_issue_outcomes E L i {| rq_attributes_revealed := [n] |} r os) as [[_ ->]|[(_ & _ & ->)|[(_ & _ & _ & ->)|(_ & _ & _ & x & r' & os' & -> & _)]]];
      (split; [split; [discriminate|lia]|discriminate]). }
  destruct (Nat.le_gt_cases (List.length number) 32) as [Hl'|Hl'].
  { destruct (H2 ltac:(lia)) as [-> _]. cbn. split; [split; [lia|reflexivity]|discriminate]. }
  destruct (H3 Hl') as [-> _]. cbn. split; [split; [discriminate|lia]|discriminate].
Qed.
Print Assumptions C93_number_error_refuted.
Example C93_met_number : is_panic (signal_issue sample_issuer (str "1234567890123456789012345678") (toy_stream 1) (toy_stream 2)) = true.
Proof. vm_compute. reflexivity. Qed.

(** ** How a number is to be written *)

(** The comment on [SignalIssuer::issue] has +14155551234 given as
    [[0, 0, 1, 4, 1, 5, 5, 5, 5, 1, 2, 3, 4]] (signal-credential/src/issuer.rs:108-110),
    the comments on the functions for JavaScript as
    [[1, 4, 1, 5, 5, 5, 5, 1, 2, 3, 4]] (wasm/src/js.rs:206-207, 286-287). *)
Definition server_form : bytes := map zb [0; 0; 1; 4; 1; 5; 5; 5; 5; 1; 2; 3; 4].
Definition client_form : bytes := map zb [1; 4; 1; 5; 5; 5; 5; 1; 2; 3; 4].

(** If the server issues for one form and the user uses another for itself and
    for its roster entry, everything succeeds but the last step, where the user is
    found not to be the member. *)
Theorem C93_two_forms_refuted : forall E, ExtLaws E ->
  forall (params : SystemParameters E) key issued used r_create r_issue os_issue r_entry r_show os_show,
  sp_h params <> pzero ->
  (List.length issued <= 27)%nat -> (List.length used <= 27)%nat -> used <> issued ->
  let i := fst (signal_issuer_create params r_create) in
  exists iss u u' entry p n ri oi re rs os,
    signal_issue i issued r_issue os_issue = Ok (iss, ri, oi) /\
    signal_user_new params (get_issuer_parameters i) key used = Ok u /\
    signal_obtain_finish u (Some iss) = (u', Ok tt) /\
    roster_create used params r_entry = Ok (entry, re) /\
    signal_show u' r_show os_show entry = Ok (p, rs, os) /\
    signal_verify i p = Ok {| vs_presentation := p |} /\
    try_from_bytes issued = Ok n /\
    (verify_roster_membership i {| vs_presentation := p |} = Err VerificationFailure \/
     ce_challenge (sc_roster_membership_proof p) = 0 \/
     membership_collision params p n (fst (scalar_random r_show)) (re_opening entry)).
Proof.
  intros E L params key issued used rc ri oi re rs os Hh Hl Hl' Hne i.
  destruct (issuer_create_facts params rc) as (Hp & Hc & Hs).
  change (fst (issuer_create params rc)) with i in Hp, Hc, Hs.
  destruct (proj1 (C27_outcomes issued) Hl) as [(n & Hn & _) _].
  destruct (proj1 (C27_outcomes used) Hl') as [(n' & Hn' & _) _].
  pose (u := {| su_phone_number := n'; su_user := user_new params (get_issuer_parameters i) key |}).
  assert (Hu : user_of i (su_user u)) by (split; [symmetry; exact Hp|reflexivity]).
  destruct (C10_honest_issuance_accepted E L i (su_user u) n ri oi Hc Hs Hu) as (iss & ri' & oi' & Hi & Hv & Ho).
  destruct (C29_create_opens E L used params re Hl') as (entry & re' & He & Hop).
  set (usr := {| us_system_parameters := us_system_parameters (su_user u);
                 us_issuer_parameters := us_issuer_parameters (su_user u);
                 us_key := us_key (su_user u); us_credential := Some (is_credential iss) |}) in Ho.
  pose (u' := {| su_phone_number := n'; su_user := usr |}).
  destruct (single_cons i Hs) as [x1 Hx]. pose proof (consistent_single i x1 Hc Hx) as HX.
  destruct Hv as [Ha Hm].
  destruct (signal_show_ok u' (is_credential iss) n [] _ [] entry rs os eq_refl Ha HX) as (rand & rand' & rs' & os' & Hsh).
  cbv zeta in Hsh.
  match type of Hsh with _ = Ok (?q, _, _) => pose (p := q) end. fold p in Hsh.
  exists iss, u, u', entry, p, n, ri', oi', re', rs', os'.
  split; [unfold signal_issue; rewrite Hn; exact Hi|].
  split; [unfold signal_user_new; rewrite Hn'; reflexivity|].
  split; [unfold signal_obtain_finish; rewrite Ho; reflexivity|].
  split; [exact He|]. split; [exact Hsh|]. split.
  { apply signal_verify_ok. unfold p. cbn [sc_presentation u' usr u su_user us_system_parameters user_new].
    rewrite <- Hp. apply (shown_verify L); assumption. }
  split; [exact Hn|]. rewrite <- Hp.
  refine (C22_other_number_rejected E L i u' (is_credential iss) n [] _ [] entry issued used rs os p rs' os' _ _ eq_refl Ha HX Hn _ Hne Hsh).
  - rewrite Hp. exact Hh.
  - rewrite Hp. reflexivity.
  - rewrite Hp. exact Hop.
Qed.
Print Assumptions C93_two_forms_refuted.
(** The two forms are different numbers, and so is the number as text; either
    goes well with itself. *)
Example C93_met_forms : sp_h sample_params <> pzero /\ client_form <> server_form /\
  sample_run server_form server_form = true /\ sample_run client_form client_form = true /\
  sample_run server_form client_form = false /\ sample_run client_form server_form = false.
Proof.
  split; [|split; [discriminate|repeat split; vm_compute; reflexivity]].
  intros H. apply (f_equal tv) in H. vm_compute in H. discriminate H.
Qed.

(** ** The bytes of a number *)

(** "we prefix the bytes of the scalar with [0x15]s"
    (signal-credential/src/phone_number.rs:51-53): the bytes are [0x0f], two in
    front and two behind the number, and none of the others is [0x15] unless it is
    in the number or says that there are 21 digits. *)
Theorem C93_padding_refuted : forall number n, (List.length number <= 26)%nat -> try_from_bytes number = Ok n ->
  firstn 2 (phone_number_to_bytes n) = [x0f; x0f] /\
  firstn (List.length number) (skipn 2 (phone_number_to_bytes n)) = number /\
  firstn 2 (skipn (2 + List.length number) (phone_number_to_bytes n)) = [x0f; x0f] /\
  (~ In x15 number -> List.length number <> 21%nat -> ~ In x15 (phone_number_to_bytes n)).
Proof.
  intros number n Hl Hn. unfold try_from_bytes in Hn. rewrite phone_number_encode_ok in Hn by lia. rewrite map_id in Hn.
  assert (He : n = le_decode (number_layout number) mod ell) by congruence. rewrite He. unfold phone_number_to_bytes.
  rewrite scalar_to_bytes_short by exact Hl. unfold number_layout.
  set (rest := zeros (27 - List.length number)). change (zb 15) with x0f.
  split; [reflexivity|]. cbn [app skipn Nat.add].
  rewrite firstn_app, Nat.sub_diag, firstn_all, skipn_app, Nat.sub_diag, skipn_all. cbn [firstn skipn app].
  split; [apply app_nil_r|]. split; [reflexivity|].
  intros H1 H2 [H|[H|H]]; [discriminate H..|]. apply in_app_or in H as [H|[H|[H|[H|H]]]].
  - contradiction.
  - discriminate H.
  - discriminate H.
  - apply (f_equal bz) in H. rewrite bz_zb in H by lia. change (bz x15) with 21 in H. lia.
  - unfold rest, zeros in H. apply repeat_spec in H. discriminate H.
Qed.
Print Assumptions C93_padding_refuted.
(** The documented number; and one of 27 digits, whose bytes do not begin so. *)
Example C93_met_padding :
  (exists n, try_from_bytes server_form = Ok n /\ phone_number_to_bytes n =
     map zb [15; 15; 0; 0; 1; 4; 1; 5; 5; 5; 5; 1; 2; 3; 4; 15; 15; 13; 0; 0; 0; 0; 0; 0; 0; 0; 0; 0; 0; 0; 0; 0]) /\
  exists n, try_from_bytes (repeat x01 27) = Ok n /\ firstn 2 (phone_number_to_bytes n) <> [x0f; x0f].
Proof. split; eexists; (split; [vm_compute; reflexivity|]); vm_compute; [reflexivity|discriminate]. Qed.

(** ** Parameters *)

(** "[p] is a [k]-bit prime ([k = 255] in the case of using the Ristretto255 group)"
    (aeonflux/src/parameters.rs:36-38): it has 253 bits. *)
Theorem C93_order_bits_refuted : Z.log2 ell + 1 = 253.
Proof. vm_compute. reflexivity. Qed.
Print Assumptions C93_order_bits_refuted.

(** "# Panics.  If [h] cannot be decompressed" (aeonflux/src/parameters.rs:158-160):
    and, with debug assertions, if it is the basepoint. *)
Theorem C93_from_array_panics : forall E, ExtLaws E -> forall h,
  (@system_parameters_from_array E h = Panic <->
   @decompress E h = None \/ (debug_build E = true /\ h = compress (@basepoint E))) /\
  (forall params, @system_parameters_from_array E h = Ok params ->
   sp_g params = basepoint /\ compress (sp_h params) = h).
Proof.
  intros E L h. destruct (@from_array_cases E h) as [(P & Hd & Hn & ->)|[-> Hn]].
  - split.
    + split; [discriminate|]. intros [H|H]; [congruence|contradiction].
    + intros params [= <-]. split; [reflexivity|]. exact (compress_decompress E L _ _ Hd).
  - split; [|discriminate]. split; [intros _|reflexivity].
    destruct (decompress h) as [P|] eqn:Hd; [right|left; reflexivity].
    destruct (debug_build E) eqn:Hb.
    + split; [reflexivity|]. destruct (bytes_eqb h (compress (@basepoint E))) eqn:Hq; [apply bytes_eqb_true in Hq; exact Hq|].
      apply bytes_eqb_false in Hq. elim Hn. split; [eauto|]. intros [_ H]. contradiction.
    + elim Hn. split; [eauto|]. intros [H _]. discriminate H.
Qed.
Print Assumptions C93_from_array_panics.
Example C93_met_array : is_ok (@system_parameters_from_array toy (compress (pt 33))) = true /\
  is_panic (@system_parameters_from_array toy (repeat xff 32)) = true.
Proof. split; vm_compute; reflexivity. Qed.

(** ** JavaScript *)

(** "The roster entry commitment, if the user's credential has a committed value
    which matches, [false] otherwise" (wasm/src/js.rs:263-266): it is the number 0. *)
Theorem C93_js_false_refuted : forall E, ExtLaws E -> forall os issuer verified v os',
  @js_issuer_verify_roster_membership E os issuer verified = JsReturns v os' ->
  (exists ser, v = numbers ser) \/ v = JNumber 0.
Proof.
  intros E L os i vc v os' H. destruct (C87_js_otherwise E 0 os (JsIssuerVerifyRosterMembership i vc) v os' H) as [K|[K _]]; auto.
Qed.
Print Assumptions C93_js_false_refuted.
Example C93_met_js : @js_issuer_verify_roster_membership toy (toy_stream 1) JNull JNull = JsReturns (JNumber 0) (toy_stream 1).
Proof. reflexivity. Qed.

(** ** The header *)

(** "[issuer_length] ... the [buf_t.len] value returned from [issuer_create()] is what
    must be used" (ffi/src/include/credential.h:111-113 and thrice more):
    [issuer_create] returns a key pair, which is shorter than the issuer made of it,
    and with its length every function of the issuer returns the empty buffer. *)
Theorem C93_issuer_length_refuted : forall E, ExtLaws E -> forall m os q ql s b m1 os1,
  @c_issuer_create E m os q ql s = Returns b m1 os1 ->
  forall fuel m2 os2 issuer number number_len seed presentation presentation_len f,
  (exists bs, ModelFfi.read m2 issuer (@as_size_t E (buf_len b)) = Some bs) ->
  In f [IssuerGetIssuerParameters issuer (buf_len b); IssuerIssue issuer (buf_len b) number number_len seed;
        IssuerVerify issuer (buf_len b) presentation presentation_len;
        IssuerVerifyRosterMembership issuer (buf_len b) presentation presentation_len] ->
  @c_run E fuel m2 os2 f = Returns zero_len_and_ptr m2 os2.
Proof.
  intros E L m os q ql s b m1 os1 H fuel m2 os2 p n nl sd pr prl f [bs Hr] Hf.
  assert (Hb : 0 <= buf_len b <= 96).
  { unfold c_issuer_create, call in H.
    destruct (csprng_from_seed m s) as [cs|b'| | |] eqn:H1; cbn [then_] in H; try discriminate.
    2: { injection H as <- _ _. apply (csprng_return L) in H1 as [-> _]. cbn. lia. }
    destruct (deserialize_or_return _ m ql q) as [sp|b'| | |] eqn:H2; cbn [then_] in H; try discriminate.
    2: { injection H as <- _ _. apply des_return in H2. subst b'. cbn. lia. }
    pose proof (issuer_create_facts sp cs) as (Hp & Hc & Hs). change (issuer_create sp cs) with (signal_issuer_create sp cs) in *.
    destruct (signal_issuer_create sp cs) as [i r'] eqn:Hi. cbn [fst] in *.
    destruct (single_cons i Hs) as [x1 Hx]. pose proof (consistent_single i x1 Hc Hx) as HX.
    unfold return_serialized in H. destruct (vec_new m _) as [v mv]. injection H as <- _ _. cbn [slice_to_len_and_ptr buf_len].
    rewrite (keypair_length L), HX, Hx. cbn. lia. }
  assert (K : deserialize_or_return (E := E) (@signal_issuer_from_bytes E) m2 (buf_len b) p = Return zero_len_and_ptr).
  { unfold deserialize_or_return, len_and_ptr_to_slice. destruct (is_null p || (buf_len b =? 0))%bool; [reflexivity|].
    rewrite Hr. cbn [or_undefined then_]. apply read_length in Hr.
    assert (Hs : (as_size_t (E := E) (buf_len b) <= 96)%nat).
    { unfold as_size_t. apply Nat2Z.inj_le. destruct (Z_le_gt_dec (2 ^ usize_bits E) 0) as [N|N].
      - assert (2 ^ usize_bits E = 0) as -> by (pose proof (Z.pow_nonneg 2 (usize_bits E)); lia). rewrite Zmod_0_r, Z2Nat.id; lia.
      - pose proof (Z.mod_le (buf_len b) (2 ^ usize_bits E) ltac:(lia) ltac:(lia)).
        pose proof (Z.mod_pos_bound (buf_len b) (2 ^ usize_bits E) ltac:(lia)). rewrite Z2Nat.id; lia. }
    unfold signal_issuer_from_bytes, issuer_from_bytes.
    destruct (Nat.ltb_spec (List.length bs) (64 + 96)); [reflexivity|lia]. }
  cbn [In] in Hf. destruct Hf as [<-|[<-|[<-|[<-|[]]]]]; cbn [c_run];
    unfold c_issuer_get_issuer_parameters, c_issuer_issue, c_issuer_verify, c_issuer_verify_roster_membership; rewrite K; reflexivity.
Qed.
Print Assumptions C93_issuer_length_refuted.
(** The key pair made by [issuer_create], and an issuer asked for its parameters
    with the length of the one and with its own. *)
Definition header_memory : memory :=
  blocks [system_parameters_to_bytes sample_params; zeros 32; issuer_to_bytes sample_issuer].
Example C93_met_length :
  (result_len (@c_run toy 0 header_memory (toy_stream 1) (IssuerCreate (Block 0 0) 64 (Block 1 0))) = 96) /\
  (result_len (@c_run toy 0 header_memory (toy_stream 1) (IssuerGetIssuerParameters (Block 2 0) 96)) = 0) /\
  (result_len (@c_run toy 0 header_memory (toy_stream 1) (IssuerGetIssuerParameters (Block 2 0) 160)) = 32).
Proof. repeat split; vm_compute; reflexivity. Qed.
