(** One seed for two calls (C98): ffi/src/c.rs and wasm/src/js.rs pass the seed to
    [SignalIssuer::create], [RosterEntryCommitment::create] and [SignalUser::show],
    signal-credential/src/issuer.rs, phone_number.rs and user.rs. *)
From Verif Require Import Toy Algebra IssueFacts ShowFacts SignalFacts SpecSeeds PropertiesIssue PropertiesShow PropertiesPhone PropertiesSignal
  PropertiesAnonymity PropertiesHistory CodecFacts CompositeFacts CreatedFacts.
From Verif Require SpecCalls.
From Coq Require Import Lia Bool.

Section seeds.
  Context {E : Ext} (L : ExtLaws E).

  Lemma created_x0 params r : sk_x0 (kp_secret (iss_keypair (fst (@signal_issuer_create E params r)))) = fst (scalar_random r).
  Proof.
    unfold signal_issuer_create, issuer_create, keypair_new, secret_key_new.
    destruct (scalar_random r) as [x0 r1]. destruct (scalars_random NUMBER_OF_ATTRIBUTES r1) as [xn r2]. reflexivity.
  Qed.
  Lemma entry_made number params r entry r' : roster_create number params r = Ok (entry, r') ->
    exists n, try_from_bytes number = Ok n /\ re_opening entry = fst (scalar_random r) /\
      re_commitment entry = padd (smul n (sp_h params)) (smul (fst (scalar_random r)) (@sp_g E params)).
  Proof.
    unfold roster_create, ephemeral_new. destruct (scalar_random r) as [o r1]. intros H.
    apply bind_ok in H as (n & Hn & H). exists n. split; [exact Hn|].
    assert (K : forall a b : RosterEntryCommitment E, @Ok PhoneNumberError _ (a, r1) = Ok (b, r') -> a = b) by congruence.
    apply K in H as <-. cbn [re_opening re_commitment fst]. split; reflexivity.
  Qed.
  Lemma shown_as (u : SignalUser E) c m X1 entry r os p r' os' :
    us_credential (su_user u) = Some c -> cr_attributes c = [m] -> pk_Xn (us_issuer_parameters (su_user u)) = [X1] ->
    signal_show u r os entry = Ok (p, r', os') ->
    let rr := fst (scalar_random (@show_csprng E (snd (scalar_random r)))) in
    let P := smul rr (tag_nonce (cr_mac c)) in
    shows p P (padd (smul m P) (smul (fst (scalar_random r)) (sp_h (us_system_parameters (su_user u))))).
  Proof.
    intros Hc Ha HX H. destruct (signal_show_ok u c m [] X1 [] entry r os Hc Ha HX) as (rand & rand' & Hs). cbv zeta in Hs.
    destruct Hs as (r1 & os1 & Hs). rewrite Hs in H. apply ok3 in H as [<- _]. split; reflexivity.
  Qed.
  (** The equation [C = m P + z h] for a known [z] tells the number. *)
  Lemma tells (P H : point E) m z : P <> pzero ->
    forall m', padd (smul m P) (smul z H) = padd (smul m' P) (smul z H) <-> m' mod ell = m mod ell.
  Proof.
    intros HP m'. split.
    - intros K. assert (K' : smul m P = smul m' P).
      { assert (Hc : forall a b d : point E, padd a d = padd b d -> a = b).
        { clear - L. intros a b d H. rewrite <- (padd_zero_r L a), <- (padd_zero_r L b), <- (padd_pneg E L d), !(padd_assoc E L), H. reflexivity. }
        exact (Hc _ _ _ K). }
      symmetry. exact (proj1 (smul_inj L _ _ _ HP) K').
    - intros K. f_equal. symmetry. exact (smul_eqm L _ _ _ K).
  Qed.
End seeds.

(** The scalar [x0] alone, with what is public, is enough to make a credential for
    every number.  The opening of a roster entry made from the issuer's seed is
    this scalar. *)
Theorem C98_create_commit_refuted : forall E, ExtLaws E ->
  forall (params : SystemParameters E) r number entry r' X1,
  let i := fst (signal_issuer_create params r) in
  get_issuer_parameters i = {| pk_Xn := [X1] |} ->
  roster_create number params r = Ok (entry, r') ->
  sp_h params <> pzero ->
  forall m, let c := from_scalar params X1 (re_opening entry) m in
  valid_credential i c m /\ tag_nonce (cr_mac c) <> pzero /\
  forall (u : SignalUser E) entry' r1 os1,
    user_of i (su_user u) -> us_credential (su_user u) = Some c ->
    re_commitment entry' = padd (smul m (sp_h params)) (smul (re_opening entry') (sp_g params)) ->
    exists p r1' os1', signal_show u r1 os1 entry' = Ok (p, r1', os1') /\
      signal_verify i p = Ok {| vs_presentation := p |} /\
      verify_roster_membership i {| vs_presentation := p |} = Ok (re_commitment entry').
Proof.
  intros E L params r number entry r' X1 i HX He Hh m c.
  apply entry_made in He as (n & _ & Ho & _).
  pose proof (created_x0 params r) as Hx0. fold i in Hx0. rewrite <- Ho in Hx0.
  destruct (new_issuer L params r) as (Hp & Hcon & Hs & _). fold i in Hp, Hcon, Hs.
  destruct (single_cons i Hs) as [x1 Hx]. pose proof (consistent_single i x1 Hcon Hx) as HX'.
  unfold get_issuer_parameters in HX. rewrite HX, Hp in HX'. cbn in HX'. assert (E1 : X1 = smul x1 (sp_h params)) by congruence.
  assert (Hv : valid_credential i c m).
  { split; [reflexivity|]. split; [rewrite Hx; reflexivity|]. rewrite Hx, Hx0. cbn [c from_scalar cr_mac tag_mac tag_nonce dot].
    rewrite E1. generalize (sp_h params) (re_opening entry). clear - L. intros h o. pring L. }
  split; [exact Hv|]. split; [exact Hh|].
  intros u entry' r1 os1 Hu Hc He'.
  apply (signal_presentation_accepted L i u c m r1 os1 entry' Hcon Hs Hu Hc Hv). rewrite Hp. exact He'.
Qed.
Print Assumptions C98_create_commit_refuted.

(** A user who presents with the seed of the issuer's key shows the number to the
    issuer: with [x0] it can be tried. *)
Theorem C98_create_show_refuted : forall E, ExtLaws E ->
  forall (params params' : SystemParameters E) r (u : SignalUser E) c m X1 entry os p r' os',
  us_credential (su_user u) = Some c -> cr_attributes c = [m] -> pk_Xn (us_issuer_parameters (su_user u)) = [X1] ->
  us_system_parameters (su_user u) = params' ->
  signal_show u r os entry = Ok (p, r', os') ->
  let x0 := sk_x0 (kp_secret (iss_keypair (fst (signal_issuer_create params r)))) in
  exists P C, shows p P C /\ C = padd (smul m P) (smul x0 (sp_h params')) /\
    (P <> pzero -> forall m', C = padd (smul m' P) (smul x0 (sp_h params')) <-> m' mod ell = m mod ell).
Proof.
  intros E L params params' r u c m X1 entry os p r' os' Hc Ha HX Hp Hs x0. unfold x0. rewrite created_x0.
  pose proof (shown_as u c m X1 entry r os p r' os' Hc Ha HX Hs) as H. cbv zeta in H. rewrite Hp in H.
  eexists _, _. split; [exact H|]. split; [reflexivity|]. intros HP m'. apply (tells L). exact HP.
Qed.
Print Assumptions C98_create_show_refuted.

(** Two roster entries made from one seed: their difference is that of the
    numbers, and whoever has the opening of one can try the number of the other. *)
Theorem C98_commit_commit_refuted : forall E, ExtLaws E ->
  forall (params : SystemParameters E) r number number' entry entry' r1 r1' n n',
  roster_create number params r = Ok (entry, r1) -> roster_create number' params r = Ok (entry', r1') ->
  try_from_bytes number = Ok n -> try_from_bytes number' = Ok n' ->
  psub (re_commitment entry) (re_commitment entry') = smul (n - n') (sp_h params) /\
  (sp_h params <> pzero -> forall guess,
     roster_open (opened_with entry' entry) guess params = Ok tt <-> try_from_bytes guess = Ok n').
Proof.
  intros E L params r number number' entry entry' r1 r1' n n' He He' Hn Hn'.
  apply entry_made in He as (k & Hk & Ho & HR). apply entry_made in He' as (k' & Hk' & Ho' & HR').
  assert (k = n) by congruence. assert (k' = n') by congruence. subst k k'. split.
  - rewrite HR, HR'. generalize (sp_h params) (sp_g params) (fst (scalar_random r)). clear - L. intros h g o. pring L.
  - intros Hh guess. split.
    + intros H. destruct (try_from_bytes guess) as [q| |] eqn:Hq.
      2,3: unfold roster_open in H; rewrite Hq in H; discriminate.
      apply (C29_open_exactly E L _ guess q params Hq) in H. cbn [opened_with re_commitment re_opening] in H.
      rewrite HR', Ho in H. f_equal.
      assert (Hqm : smul n' (sp_h params) = smul q (sp_h params)).
      { revert H. generalize (smul n' (sp_h params)) (smul q (sp_h params)) (smul (fst (scalar_random r)) (sp_g params)).
        clear - L. intros a b d H. rewrite <- (padd_zero_r L a), <- (padd_zero_r L b), <- (padd_pneg E L d), !(padd_assoc E L), H. reflexivity. }
      apply (smul_inj L) in Hqm; [|exact Hh].
      assert (C1 : canonical q) by (pose proof (number_cases guess) as K; rewrite Hq in K; apply K).
      assert (C2 : canonical n') by (pose proof (number_cases number') as K; rewrite Hn' in K; apply K).
      unfold canonical in *; unfold Algebra.eqm in Hqm. rewrite !Z.mod_small in Hqm by assumption. congruence.
    + intros Hq. apply (C29_open_exactly E L _ guess n' params Hq). cbn [opened_with re_commitment re_opening]. rewrite HR', Ho. reflexivity.
Qed.
Print Assumptions C98_commit_commit_refuted.

(** A user who presents two credentials for one number with one seed: the number
    can be tried by anybody. *)
Theorem C98_show_show_refuted : forall E, ExtLaws E ->
  forall (u u' : SignalUser E) c c' m X1 X1' entry entry' r os os' p p' r1 os1 r1' os1',
  us_credential (su_user u) = Some c -> cr_attributes c = [m] -> pk_Xn (us_issuer_parameters (su_user u)) = [X1] ->
  us_credential (su_user u') = Some c' -> cr_attributes c' = [m] -> pk_Xn (us_issuer_parameters (su_user u')) = [X1'] ->
  us_system_parameters (su_user u) = us_system_parameters (su_user u') ->
  signal_show u r os entry = Ok (p, r1, os1) -> signal_show u' r os' entry' = Ok (p', r1', os1') ->
  exists P C P' C', shows p P C /\ shows p' P' C' /\
    psub C C' = smul m (psub P P') /\
    (P <> P' -> forall m', psub C C' = smul m' (psub P P') <-> m' mod ell = m mod ell).
Proof.
  intros E L u u' c c' m X1 X1' entry entry' r os os' p p' r1 os1 r1' os1' Hc Ha HX Hc' Ha' HX' Hp Hs Hs'.
  pose proof (shown_as u c m X1 entry r os p _ _ Hc Ha HX Hs) as H.
  pose proof (shown_as u' c' m X1' entry' r os' p' _ _ Hc' Ha' HX' Hs') as H'. cbv zeta in H, H'. rewrite Hp in H.
  revert H H'. generalize (fst (scalar_random r)) (sp_h (us_system_parameters (su_user u'))).
  generalize (fst (scalar_random (@show_csprng E (snd (scalar_random r))))). intros rr z h H H'.
  set (P := smul rr (tag_nonce (cr_mac c))) in *. set (P' := smul rr (tag_nonce (cr_mac c'))) in *. clearbody P P'.
  eexists _, _, _, _. split; [exact H|]. split; [exact H'|].
  assert (Heq : psub (padd (smul m P) (smul z h)) (padd (smul m P') (smul z h)) = smul m (psub P P')) by (clear - L; pring L).
  split; [exact Heq|]. intros Hne m'. rewrite Heq.
  assert (Hd : psub P P' <> pzero).
  { intros K. apply Hne. rewrite <- (padd_zero E L P'), <- K. clear - L. pring L. }
  split.
  - intros K. symmetry. exact (proj1 (smul_inj L _ _ _ Hd) K).
  - intros K. symmetry. exact (smul_eqm L _ _ _ K).
Qed.
Print Assumptions C98_show_show_refuted.

(** A user who makes the entry and presents with one seed: the presentation fits
    no other number, except under one relation between the bases. *)
Theorem C98_commit_show_refuted : forall E, ExtLaws E ->
  forall (u : SignalUser E) c m X1 entry number r os p r1 r1' os1,
  let params := us_system_parameters (su_user u) in
  us_credential (su_user u) = Some c -> cr_attributes c = [m] -> pk_Xn (us_issuer_parameters (su_user u)) = [X1] ->
  try_from_bytes number = Ok m ->
  roster_create number params r = Ok (entry, r1) ->
  signal_show u r os entry = Ok (p, r1', os1) ->
  exists P C, shows p P C /\
    C = padd (smul m P) (smul (re_opening entry) (sp_h params)) /\
    re_commitment entry = padd (smul m (sp_h params)) (smul (re_opening entry) (sp_g params)) /\
    (sp_g params <> pzero -> ~ (exists k, sp_h params = smul k (sp_g params) /\ P = smul k (sp_h params)) ->
     forall m' o', C = padd (smul m' P) (smul o' (sp_h params)) ->
       re_commitment entry = padd (smul m' (sp_h params)) (smul o' (sp_g params)) ->
       m' mod ell = m mod ell /\ o' mod ell = re_opening entry mod ell).
Proof.
  intros E L u c m X1 entry number r os p r1 r1' os1 params Hc Ha HX Hm He Hs.
  pose proof (shown_as u c m X1 entry r os p _ _ Hc Ha HX Hs) as H. cbv zeta in H. fold params in H.
  apply entry_made in He as (k & Hk & Ho & HR). assert (k = m) by congruence. subst k. rewrite <- Ho in H, HR.
  revert H. generalize (smul (fst (scalar_random (@show_csprng E (snd (scalar_random r))))) (tag_nonce (cr_mac c))). intros P H.
  eexists _, _. split; [exact H|]. split; [reflexivity|]. split; [exact HR|].
  intros Hg Hno m' o' H1 H2. rewrite HR in H2. clear H HR Ho Hs Hk Hm HX Ha Hc.
  revert Hg Hno H1 H2. generalize (sp_h params) (sp_g params) (re_opening entry). intros h g o Hg Hno H1 H2.
  destruct (unique_log L g h Hg) as (k & [_ Hk] & _). subst h.
  (* the differences of the two witnesses *)
  assert (D2 : smul (o' - o) g = smul (- (m' - m) * k) g).
  { revert H2. clear - L. intros H2.
    assert (K : padd (psub (padd (smul m (smul k g)) (smul o g)) (padd (smul m' (smul k g)) (smul o' g))) (smul (o' - o) g) = smul (o' - o) g).
    { rewrite H2. generalize (padd (smul m' (smul k g)) (smul o' g)) (smul (o' - o) g). intros; pring L. }
    rewrite <- K. pring L. }
  apply (smul_inj L) in D2; [|exact Hg].
  assert (D1 : smul (m' - m) (psub P (smul k (smul k g))) = pzero).
  { assert (K : smul (o' - o) (smul k g) = smul (- (m' - m) * k) (smul k g)) by (apply (smul_eqm L); exact D2).
    revert H1 K. clear - L. intros H1 K.
    assert (K2 : psub (padd (smul m' P) (smul o' (smul k g))) (padd (smul m P) (smul o (smul k g))) = pzero).
    { rewrite H1. generalize (padd (smul m' P) (smul o' (smul k g))). intros; pring L. }
    rewrite <- K2.
    assert (K3 : psub (padd (smul m' P) (smul o' (smul k g))) (padd (smul m P) (smul o (smul k g))) =
                 padd (smul (m' - m) P) (smul (o' - o) (smul k g))) by pring L.
    rewrite K3, K. pring L. }
  assert (Hd : psub P (smul k (smul k g)) <> pzero).
  { intros K. apply Hno. exists k. split; [reflexivity|]. revert K. generalize (smul k (smul k g)). clear - L. intros Q K.
    rewrite <- (padd_zero E L Q), <- K. pring L. }
  apply (smul_zero_iff L) in D1; [|exact Hd]. split; [apply eqm_sub_0; exact D1|].
  apply eqm_sub_0. rewrite D2.
  transitivity ((m' - m) * - k); [apply eqm_of_eq; ring|]. rewrite D1. apply eqm_of_eq; ring.
Qed.
Print Assumptions C98_commit_show_refuted.

(** Two issuers made from one seed, with whatever parameters, take each other's
    credentials for their own. *)
Theorem C98_create_create_refuted : forall E, ExtLaws E -> forall (params params' : SystemParameters E) r,
  let i := fst (signal_issuer_create params r) in
  let i' := fst (signal_issuer_create params' r) in
  kp_secret (iss_keypair i) = kp_secret (iss_keypair i') /\
  (forall c m, valid_credential i c m <-> valid_credential i' c m) /\
  (sp_h params = sp_h params' -> get_issuer_parameters i = get_issuer_parameters i').
Proof.
  intros E L params params' r i i'.
  assert (H : kp_secret (iss_keypair i) = kp_secret (iss_keypair i')).
  { unfold i, i', signal_issuer_create, issuer_create, keypair_new. destruct (secret_key_new NUMBER_OF_ATTRIBUTES r). reflexivity. }
  split; [exact H|]. split; [intros c m; unfold valid_credential; rewrite H; tauto|].
  intros Hh. unfold i, i', signal_issuer_create, issuer_create, keypair_new, get_issuer_parameters.
  destruct (secret_key_new NUMBER_OF_ATTRIBUTES r) as [k r']. cbn. rewrite Hh. reflexivity.
Qed.
Print Assumptions C98_create_create_refuted.

(** In bytes: what C, JavaScript and Swift get (C87) when they make a key pair and a
    roster entry with one seed agrees in the bytes 32 to 63, which are the first
    half of the secret key, and the opening. *)
Theorem C98_bytes_refuted : forall E, ExtLaws E -> forall fuel os os' params params' number seed keypair entry os1 os2,
  SpecCalls.gives E fuel os (SpecCalls.MakeKeypair params seed) keypair os1 ->
  SpecCalls.gives E fuel os' (SpecCalls.MakeEntry number params' seed) entry os2 ->
  List.length keypair = 96%nat /\ List.length entry = 64%nat /\
  firstn 32 (skipn 32 keypair) = skipn 32 entry.
Proof.
  intros E L fuel os os' params params' number seed keypair entry os1 os2 H H'. cbn [SpecCalls.gives] in H, H'.
  destruct H as (P & HP & -> & _). destruct H' as (P' & e & rest & HP' & He & -> & _).
  apply entry_made in He as (n & _ & Ho & _).
  pose proof (created_x0 P (@chacha E seed)) as Hx0. rewrite <- Ho in Hx0.
  destruct (new_issuer L P (@chacha E seed)) as (_ & Hcon & Hs & _).
  set (i := fst (signal_issuer_create P (@chacha E seed))) in *. clearbody i.
  destruct (single_cons i Hs) as [x1 Hx]. pose proof (consistent_single i x1 Hcon Hx) as HX.
  assert (Hl : List.length (public_key_to_bytes (kp_public (iss_keypair i))) = 32%nat) by (rewrite (public_key_length L), HX; reflexivity).
  split; [rewrite (keypair_length L), HX, Hx; reflexivity|]. split; [apply (roster_length L)|].
  unfold keypair_to_bytes, roster_to_bytes, secret_key_to_bytes, committed_to_bytes.
  rewrite !skipn_app, Hl, (compress_len L), Nat.sub_diag, !skipn_O.
  rewrite (skipn_all2 (public_key_to_bytes _)) by (rewrite Hl; lia).
  rewrite (skipn_all2 (compress _)) by (rewrite (compress_len L); lia). cbn [app].
  rewrite firstn_app, scalar_to_bytes_length, Nat.sub_diag, firstn_O, app_nil_r, firstn_all2 by (rewrite scalar_to_bytes_length; lia).
  rewrite Hx0. reflexivity.
Qed.
Print Assumptions C98_bytes_refuted.

(** One stream for everything.  The issuer's key and an entry for one number give a
    credential for another, which is taken. *)
Definition sample_one_seed (number : bytes) (m : Z) : bool :=
  let i := fst (signal_issuer_create sample_params (toy_stream 1)) in
  match roster_create number sample_params (toy_stream 1), pk_Xn (get_issuer_parameters i) with
  | Ok (entry, _), [X1] =>
    let u := {| su_phone_number := m;
                su_user := {| us_system_parameters := sample_params; us_issuer_parameters := {| pk_Xn := [X1] |};
                              us_key := None; us_credential := Some (from_scalar sample_params X1 (re_opening entry) m) |} |} in
    match signal_show u (toy_stream 2) (toy_stream 3) (sample_entry m) with
    | Ok (p, _, _) => is_ok (signal_verify i p) && is_ok (verify_roster_membership i {| vs_presentation := p |})
    | _ => false
    end
  | _, _ => false
  end.
Example C98_met_create : sp_h sample_params <> pzero /\ sample_one_seed (str "14155551234") 100 = true.
Proof. split; [intros H; apply (f_equal tv) in H; vm_compute in H; discriminate|]. vm_compute. reflexivity. Qed.
(** Two entries. *)
Definition sample_two_entries (number number' : bytes) : bool :=
  match roster_create number sample_params (toy_stream 1), roster_create number' sample_params (toy_stream 1) with
  | Ok (entry, _), Ok (entry', _) =>
    is_ok (roster_open (opened_with entry' entry) number' sample_params) &&
    is_err (roster_open (opened_with entry' entry) number sample_params)
  | _, _ => false
  end.
Example C98_met_commit : sample_two_entries (str "14155551234") (str "33612345678") = true.
Proof. vm_compute. reflexivity. Qed.
(** Two credentials for 100 with the nonces 3 and 4, and one stream. *)
Definition sample_renewed : SignalUser toy :=
  {| su_phone_number := 100;
     su_user := {| us_system_parameters := sample_params; us_issuer_parameters := {| pk_Xn := [pt 231] |}; us_key := None;
                   us_credential := Some {| cr_mac := {| tag_nonce := pt 4; tag_mac := pt ((5 + 7 * 100) * 4) |}; cr_attributes := [100] |} |} |}.
Definition sample_two_shown : bool :=
  match signal_show sample_signal_holder (toy_stream 8) (toy_stream 9) (sample_entry 100),
        signal_show sample_renewed (toy_stream 8) (toy_stream 9) (sample_entry 100) with
  | Ok (p, _, _), Ok (p', _, _) =>
    let P := pr_rerandomized_nonce (sc_presentation p) in
    let P' := pr_rerandomized_nonce (sc_presentation p') in
    match pr_attributes_blinded (sc_presentation p), pr_attributes_blinded (sc_presentation p') with
    | [C], [C'] =>
      negb (peqb P P') && peqb (psub C C') (smul 100 (psub P P')) && negb (peqb (psub C C') (smul 101 (psub P P')))
    | _, _ => false
    end
  | _, _ => false
  end.
Example C98_met_show : sample_two_shown = true.
Proof. vm_compute. reflexivity. Qed.
(** The issuer's stream, and the entry's, for a presentation of the number in the entry. *)
Definition sample_seen (number : bytes) : bool :=
  let x0 := sk_x0 (kp_secret (iss_keypair (fst (signal_issuer_create sample_params (toy_stream 8))))) in
  match try_from_bytes number, roster_create number sample_params (toy_stream 8) with
  | Ok m, Ok (entry, _) =>
    let u := {| su_phone_number := m;
                su_user := {| us_system_parameters := sample_params; us_issuer_parameters := {| pk_Xn := [pt 231] |}; us_key := None;
                              us_credential := Some {| cr_mac := {| tag_nonce := pt 3; tag_mac := pt ((5 + 7 * m) * 3) |}; cr_attributes := [m] |} |} |} in
    match signal_show u (toy_stream 8) (toy_stream 9) entry with
    | Ok (p, _, _) =>
      let P := pr_rerandomized_nonce (sc_presentation p) in
      match pr_attributes_blinded (sc_presentation p) with
      | [C] =>
        negb (peqb P pzero) && negb (peqb P (smul 33 (pt 33))) && (x0 =? re_opening entry)%Z &&
        peqb C (padd (smul m P) (smul x0 (pt 33))) && negb (peqb C (padd (smul (m + 1) P) (smul x0 (pt 33))))
      | _ => false
      end
    | _ => false
    end
  | _, _ => false
  end.
Example C98_met_seen : sample_seen (str "14155551234") = true.
Proof. vm_compute. reflexivity. Qed.
Example C98_met_bytes : exists keypair entry,
  SpecCalls.gives toy 0 (toy_stream 1) (SpecCalls.MakeKeypair (system_parameters_to_bytes sample_params) (zeros 32)) keypair (toy_stream 1) /\
  SpecCalls.gives toy 0 (toy_stream 2) (SpecCalls.MakeEntry (str "14155551234") (system_parameters_to_bytes sample_params) (zeros 32)) entry (toy_stream 2).
Proof.
  assert (H : system_parameters_from_bytes (system_parameters_to_bytes sample_params) = Ok sample_params) by (apply (system_parameters_iff toy_laws); reflexivity).
  destruct (roster_create (str "14155551234") sample_params (@chacha toy (zeros 32))) as [[entry rest]| |] eqn:He.
  2,3: exfalso; assert (K : is_ok (roster_create (str "14155551234") sample_params (@chacha toy (zeros 32))) = true) by (vm_compute; reflexivity);
    rewrite He in K; discriminate.
  eexists _, _. split.
  - exists sample_params. split; [exact H|]. split; reflexivity.
  - exists sample_params, entry, rest. split; [exact H|]. split; [exact He|]. split; reflexivity.
Qed.
