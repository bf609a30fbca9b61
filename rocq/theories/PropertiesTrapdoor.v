(** What the maker of the system parameters can do (C114).  The parameters are made
    by [SystemParameters::hunt_and_peck], aeonflux/src/parameters.rs:102-124, from
    the random numbers given to it, or taken as bytes or as a point,
    aeonflux/src/parameters.rs:52-81 and 139-172, and nothing shows where they are
    from.  The entries are those of signal-credential/src/phone_number.rs:319-383. *)
From Verif Require Import Toy Algebra IssueFacts ShowFacts SignalFacts SpecTrapdoor SpecLeak SpecSeeds PropertiesIssue PropertiesShow PropertiesPhone PropertiesSignal
  PropertiesAnonymity PropertiesHistory CodecFacts CompositeFacts CreatedFacts PropertiesSeeds PropertiesCodec.
From Verif Require SpecCalls.
From Coq Require Import Lia Bool.

(** ** Such parameters are made and accepted *)
Lemma read_back {A : Type} (l : list A) d : map (fun i => nth i l d) (seq 0 (List.length l)) = l.
Proof.
  induction l as [|x l IH]; [reflexivity|]. cbn [List.length seq map nth]. f_equal.
  rewrite <- seq_shift, map_map. exact IH.
Qed.
Theorem C114_chosen_refuted : forall E, ExtLaws E -> forall t, t mod ell <> 1 ->
  let params := {| sp_g := @basepoint E; sp_h := smul t basepoint |} in
  trapdoor params t /\
  (exists r r', hunt_and_peck 1 r = Some (params, r')) /\
  system_parameters_from_bytes (compress (@basepoint E) ++ compress (@smul E t basepoint)) = Ok params /\
  system_parameters_from_array (compress (@smul E t basepoint)) = Ok params /\
  system_parameters_from_point (@smul E t basepoint) = Ok params.
Proof.
  intros E L t Ht params.
  assert (Hn : smul t (@basepoint E) <> basepoint).
  { intros H. apply Ht. rewrite <- (smul_1 (@basepoint E)) in H at 2. apply (smul_base_iff L) in H.
    unfold eqm in H. rewrite H. apply Z.mod_small. pose proof ell_gt_252. lia. }
  assert (Hc : compress (smul t (@basepoint E)) <> compress (@basepoint E)) by (intros H; apply Hn, (compress_inj L), H).
  split; [reflexivity|]. split; [|split; [|split]].
  - exists (fun i => nth i (compress (smul t (@basepoint E))) x00). cbn [hunt_and_peck fill_bytes].
    assert (Hf : map (fun i => nth i (compress (smul t (@basepoint E))) x00) (seq 0 32) = compress (smul t (@basepoint E))).
    { pose proof (read_back (compress (smul t (@basepoint E))) x00) as K. rewrite (compress_length E L) in K. exact K. }
    rewrite Hf. assert (Hp : peck (compress (smul t (@basepoint E))) = Some (smul t (@basepoint E))).
    { apply peck_spec. split; [apply (decompress_compress E L)|exact Hc]. }
    rewrite Hp. eexists. reflexivity.
  - exact (C33_system_parameters E L params).
  - unfold system_parameters_from_array. destruct (bytes_eqb _ _) eqn:Hb.
    + apply bytes_eqb_true in Hb. contradiction.
    + rewrite andb_false_r, (decompress_compress E L). reflexivity.
  - unfold system_parameters_from_point. rewrite (proj2 (peqb_false L _ _) Hn), andb_false_r. reflexivity.
Qed.
Print Assumptions C114_chosen_refuted.

(** ** An entry opens to whatever number is wanted *)
Lemma reopened_equation {E : Ext} (L : ExtLaws E) (C g h : point E) t n o n' : h = smul t g ->
  C = padd (smul n h) (smul o g) -> C = padd (smul n' h) (smul (reopened t n o n') g).
Proof.
  intros Hh HC. rewrite HC, Hh. unfold reopened.
  assert (Hm : smul ((o + (n - n') * t) mod ell) g = smul (o + (n - n') * t) g) by (apply (smul_eqm L), Z.mod_mod; pose proof ell_gt_252; lia).
  rewrite Hm. clear - L. pring L.
Qed.
Theorem C114_opens_refuted : forall E, ExtLaws E ->
  forall (params : SystemParameters E) t (entry : RosterEntryCommitment E) number number' n n',
  trapdoor params t -> try_from_bytes number = Ok n -> try_from_bytes number' = Ok n' ->
  roster_open entry number params = Ok tt ->
  roster_open (reopen t entry n n') number' params = Ok tt /\
  re_commitment (reopen t entry n n') = re_commitment entry /\
  roster_from_bytes (roster_to_bytes (reopen t entry n n')) = Ok (reopen t entry n n').
Proof.
  intros E L params t e b b' n n' Ht Hn Hn' Ho.
  apply (C29_open_exactly E L e b n params Hn) in Ho. split; [|split; [reflexivity|]].
  - apply (C29_open_exactly E L _ b' n' params Hn'). exact (reopened_equation L _ _ _ t n _ n' Ht Ho).
  - apply (C33_roster E L), canonical_bits. apply Z.mod_pos_bound. pose proof ell_gt_252. lia.
Qed.
Print Assumptions C114_opens_refuted.

(** That is the only way, up to the representative: with [h] not the identity, who
    opens one commitment to two numbers has the trapdoor, and the opening is the
    one above. *)
Theorem C114_opens_only : forall E, ExtLaws E ->
  forall (params : SystemParameters E) (entry entry' : RosterEntryCommitment E) number number' n n',
  try_from_bytes number = Ok n -> try_from_bytes number' = Ok n' -> number <> number' ->
  roster_open entry number params = Ok tt -> roster_open entry' number' params = Ok tt ->
  re_commitment entry' = re_commitment entry ->
  trapdoor params (trapdoor_of n (re_opening entry) n' (re_opening entry')) /\
  (sp_g params <> pzero -> canonical (re_opening entry') ->
   forall t, trapdoor params t -> entry' = reopen t entry n n').
Proof.
  intros E L params e e' b b' n n' Hn Hn' Hb Ho Ho' HC.
  apply (C29_open_exactly E L e b n params Hn) in Ho. apply (C29_open_exactly E L e' b' n' params Hn') in Ho'.
  pose proof (number_cases b) as K. rewrite Hn in K. destruct K as [_ K].
  pose proof (number_cases b') as K'. rewrite Hn' in K'. destruct K' as [_ K'].
  split.
  - unfold trapdoor, trapdoor_of. apply (C30_binding E L (re_commitment e)).
    + apply (C30_opens_exactly E L). exact Ho.
    + apply (C30_opens_exactly E L). rewrite <- HC. exact Ho'.
    + intros H. apply Hb. apply eqm_canonical in H; [|exact K|exact K']. subst n'.
      exact (C26_bytes_injective _ _ _ Hn Hn').
  - intros Hg Hc t Ht. destruct e as [C o], e' as [C' o']. unfold reopen. cbn [re_commitment re_opening] in *.
    f_equal; [exact HC|]. pose proof (reopened_equation L _ _ _ t n o n' Ht Ho) as H. rewrite <- HC, Ho' in H.
    apply (padd_cancel_l L) in H. apply (smul_inj L) in H; [|exact Hg].
    apply eqm_canonical in H; [exact H|exact Hc|]. apply Z.mod_pos_bound. pose proof ell_gt_252. lia.
Qed.
Print Assumptions C114_opens_only.

(** ** A holder passes for the member of another's entry *)
(** The holder's credential is for [m]; the entry was made for [n], and its opening
    is known, as it is to whoever keeps the roster or made the entry. *)
Theorem C114_presents_refuted : forall E, ExtLaws E ->
  forall (i : Issuer E) (u : SignalUser E) c t (entry : RosterEntryCommitment E) number n m,
  consistent i -> single_attribute i -> user_of i (su_user u) -> us_credential (su_user u) = Some c ->
  valid_credential i c m -> trapdoor (iss_system_parameters i) t ->
  try_from_bytes number = Ok n -> roster_open entry number (iss_system_parameters i) = Ok tt ->
  forall r os, exists p r' os',
    signal_show u r os (reopen t entry n m) = Ok (p, r', os') /\
    signal_verify i p = Ok {| vs_presentation := p |} /\
    verify_roster_membership i {| vs_presentation := p |} = Ok (re_commitment entry).
Proof.
  intros E L i u c t e b n m Hcon Hs Hu Hc Hv Ht Hn Ho r os.
  apply (C29_open_exactly E L e b n _ Hn) in Ho.
  exact (signal_presentation_accepted L i u c m r os (reopen t e n m) Hcon Hs Hu Hc Hv (reopened_equation L _ _ _ t n _ m Ht Ho)).
Qed.
Print Assumptions C114_presents_refuted.

(** The same on bytes ([gives] of C87): an issuer is made from parameters with the
    trapdoor, a credential is issued for [number'] and obtained, and an entry is made
    for [number].  From the bytes of the entry and of the two numbers the maker of the
    parameters computes an entry with which the holder of [number'] is shown to be
    the member of the entry for [number]. *)
Theorem C114_bytes_refuted : forall E, ExtLaws E ->
  forall fuel os2 os3 os4 os5 os6 os7 t params keypair issuer keys issuance user entry seed2 seed3 seed4 number number'
    os2' os3' os4' os5' os6' os7',
  (exists p, @system_parameters_from_bytes E params = Ok p /\ trapdoor p t) ->
  SpecCalls.gives E fuel os2 (SpecCalls.MakeKeypair params seed2) keypair os2' ->
  SpecCalls.gives E fuel os3 (SpecCalls.MakeIssuer params keypair) issuer os3' ->
  SpecCalls.gives E fuel os4 (SpecCalls.GetParameters issuer) keys os4' ->
  SpecCalls.gives E fuel os5 (SpecCalls.Issue issuer number' seed3) issuance os5' ->
  SpecCalls.gives E fuel os6 (SpecCalls.Obtain number' params keys issuance) user os6' ->
  SpecCalls.gives E fuel os7 (SpecCalls.MakeEntry number params seed4) entry os7' ->
  fst (@drawn E "AEONFLUX ISSUANCE" (@chacha E seed3)) mod ell <> 0 ->
  exists entry', @reopen_bytes E t entry number number' = Some entry' /\
  forall os seed, exists presentation os' commitment,
    SpecCalls.gives E fuel os (SpecCalls.Show user entry' seed) presentation os' /\
    (forall os, SpecCalls.gives E fuel os (SpecCalls.Verify issuer presentation) presentation os) /\
    (forall os, SpecCalls.gives E fuel os (SpecCalls.VerifyRoster issuer presentation) commitment os) /\
    (forall os, SpecCalls.gives E fuel os (SpecCalls.RemoveOpening entry) commitment os).
Proof.
  intros E L fuel os2 os3 os4 os5 os6 os7 t pb kb ib ipb ser ub eb seed2 seed3 seed4 number number' os2' os3' os4' os5' os6' os7'
    (params & Hp & Ht) (params2 & Hp2 & -> & _) (params3 & keys3 & Hp3 & Hk3 & -> & _) (i4 & Hi4 & -> & _)
    (i5 & iss & rest5 & Hi5 & Hiss & ->) (params6 & keys6 & iss6 & u0 & u & Hp6 & Hk6 & Hs6 & Hu0 & Hfin & -> & _)
    (params7 & en & rest7 & Hp7 & Hen & -> & _) Hb.
  assert (params2 = params) by congruence. assert (params3 = params) by congruence. assert (params6 = params) by congruence.
  assert (params7 = params) by congruence. subst params2 params3 params6 params7.
  clear Hp2 Hp3 Hp6 Hp7. pose proof (new_issuer L params (@chacha E seed2)) as Hok.
  set (i := fst (signal_issuer_create params (@chacha E seed2))) in *. pose proof Hok as (Hpar & Hcon & Hs & Hw).
  rewrite (proj2 (C33_keypair E L _) (proj1 Hw)) in Hk3. assert (keys3 = iss_keypair i) by congruence. subst keys3. clear Hk3.
  assert (Hi : signal_issuer_new params (iss_keypair i) = i) by (rewrite <- Hpar; destruct i; reflexivity).
  rewrite Hi in *. assert (Hdec : @signal_issuer_from_bytes E (signal_issuer_to_bytes i) = Ok i) by (apply (C33_issuer E L); exact Hw).
  assert (i4 = i) by congruence. assert (i5 = i) by congruence. subst i4 i5. clear Hi4 Hi5.
  rewrite (C33_public_key E L) in Hk6. assert (keys6 = get_issuer_parameters i) by congruence. subst keys6. clear Hk6.
  pose proof (entry_made _ _ _ _ _ Hen) as (n & Hn & Ho & HC). rewrite <- Ho in HC.
  pose proof (created_entry _ _ _ _ _ Hen) as Hoc.
  unfold signal_issue in Hiss. apply bind_ok in Hiss as (m & Hm & Hiss).
  assert (Hm' : try_from_bytes number' = Ok m) by (destruct (try_from_bytes number'); cbn in Hm; congruence). clear Hm. rename Hm' into Hm.
  assert (Hcm : canonical m) by (pose proof (number_cases number') as K; rewrite Hm in K; apply K).
  assert (Hwi : wf_issuance iss).
  { destruct (created_issuance L i _ _ _ _ _ _ Hiss) as [K _]; [reflexivity|constructor; [exact Hcm|constructor]|]. apply wf_issuance_iff. exact K. }
  rewrite (proj2 (C33_issuance E L iss) Hwi) in Hs6. assert (iss6 = iss) by congruence. subst iss6. clear Hs6.
  destruct (single_cons i Hs) as [x1 Hx]. pose proof (consistent_single i x1 Hcon Hx) as HX.
  unfold signal_user_new in Hu0. rewrite Hm in Hu0. cbn [map_err bind] in Hu0. injection Hu0 as <-.
  (* the credential *)
  apply (issue_inv L) in Hiss as (X1 & Xs & y1 & ys & m1 & ms & tag & x0t & rand & Hiss). cbv zeta in Hiss.
  destruct Hiss as (_ & _ & Hms & _ & Hmac & Hnonce & _ & Hcred & _). cbn [rq_attributes_revealed] in Hms. injection Hms as <- <-.
  assert (Hv : valid_credential i (is_credential iss) m) by (rewrite Hcred; split; [reflexivity|exact Hmac]).
  assert (Hnz : tag_nonce (cr_mac (is_credential iss)) <> pzero).
  { rewrite Hcred. cbn [cr_mac]. rewrite Hnonce. intros K. apply (smul_zero_iff L) in K; [|apply (basepoint_nonzero E L)].
    apply Hb. exact K. }
  (* the user *)
  assert (Hu : su_phone_number u = m /\ us_system_parameters (su_user u) = params /\
               us_issuer_parameters (su_user u) = get_issuer_parameters i /\ us_key (su_user u) = None /\
               us_credential (su_user u) = Some (is_credential iss)).
  { unfold signal_obtain_finish, obtain_finish, user_new in Hfin. cbn [su_user su_phone_number us_issuer_parameters us_system_parameters] in Hfin.
    destruct (nth_error _ 0) as [Z1|]; [|discriminate]. destruct (ir_verify _ _ _) as [[]| |]; try discriminate.
    apply (f_equal fst) in Hfin. cbn [fst] in Hfin. rewrite <- Hfin. repeat split. }
  destruct Hu as (Hu1 & Hu2 & Hu3 & Hu4 & Hu5).
  assert (HX' : exists X, pk_Xn (us_issuer_parameters (su_user u)) = [X]) by (rewrite Hu3; eexists; exact HX).
  assert (Hud : @signal_user_from_bytes E (signal_user_to_bytes u) = Ok u).
  { apply (C33_signal_user E L). split; [|rewrite Hu1; apply canonical_bits; exact Hcm]. split; [exact HX'|].
    split; [rewrite Hu4; discriminate|]. intros c Hc. rewrite Hu5 in Hc. injection Hc as <-.
    split; [exists m; split; [exact Hcm|apply Hv]|]. intros (K & _ & _). exact (Hnz K). }
  assert (Hof : user_of i (su_user u)) by (split; [rewrite Hu2; symmetry; exact Hpar|exact Hu3]).
  assert (Hopen : roster_open en number params = Ok tt) by (apply (C29_open_exactly E L en number n params Hn); exact HC).
  destruct (C114_opens_refuted E L params t en number number' n m Ht Hn Hm Hopen) as (_ & _ & Hrd).
  exists (roster_to_bytes (reopen t en n m)). split.
  { unfold reopen_bytes. rewrite (proj2 (C33_roster E L en) (canonical_bits _ Hoc)), Hn, Hm. reflexivity. }
  intros os seed. pose proof Ht as Ht'. rewrite <- Hpar in Ht'. pose proof Hopen as Hopen'. rewrite <- Hpar in Hopen'.
  destruct (C114_presents_refuted E L i u _ t en number n m Hcon Hs Hof Hu5 Hv Ht' Hn Hopen' (@chacha E seed) os)
    as (p & r1 & os1'' & Hsh & Hve & Hme).
  destruct HX' as [X HX'].
  pose proof (created_presentation L u _ _ _ _ _ _ _ Hsh HX') as Hpw. apply wf_signal_presentation_iff in Hpw.
  exists (signal_presentation_to_bytes p), os1'', (committed_to_bytes (re_commitment en)). split; [|split; [|split]].
  - exists u, (reopen t en n m), p, r1. split; [exact Hud|]. split; [exact Hrd|]. split; [exact Hsh|reflexivity].
  - intros os'. exists i, p, {| vs_presentation := p |}. split; [exact Hdec|]. split; [apply (C33_signal_presentation E L), Hpw|].
    split; [exact Hve|]. split; reflexivity.
  - intros os'. exists i, {| vs_presentation := p |}, (re_commitment en). split; [exact Hdec|].
    split; [apply (proj2 (C33_verified E L {| vf_presentation := sc_presentation p |} {| vs_presentation := p |})); exact Hpw|].
    split; [exact Hme|]. split; reflexivity.
  - intros os'. exists en. split; [apply (C33_roster E L), canonical_bits, Hoc|]. split; reflexivity.
Qed.
Print Assumptions C114_bytes_refuted.

(** ** The hypotheses are met *)
Example C114_met_chosen : 33 mod ell <> 1 /\ @trapdoor toy sample_params 33.
Proof. split; [intros H; vm_compute in H; discriminate|apply toy_eq; vm_compute; reflexivity]. Qed.
(** The entry [33 n + 17] made for one number, opened to another. *)
Definition sample_reopened (number number' : bytes) : bool :=
  match try_from_bytes number, try_from_bytes number' with
  | Ok n, Ok n' => is_ok (roster_open (sample_entry n) number sample_params) &&
                   negb (is_ok (roster_open (sample_entry n) number' sample_params)) &&
                   is_ok (roster_open (reopen 33 (sample_entry n) n n') number' sample_params)
  | _, _ => false
  end.
Example C114_met_opens : sample_reopened (str "14155551234") (str "33612345678") = true /\ @sp_g toy sample_params <> pzero.
Proof. split; [vm_compute; reflexivity|]. intros H. apply (f_equal tv) in H. vm_compute in H. discriminate. Qed.
(** The holder of a credential for 100, and the entry made for another number. *)
Example C114_met_presents :
  consistent sample_issuer /\ single_attribute sample_issuer /\ user_of sample_issuer (su_user sample_signal_holder) /\
  us_credential (su_user sample_signal_holder) = Some sample_credential /\ valid_credential sample_issuer sample_credential 100 /\
  trapdoor (iss_system_parameters sample_issuer) 33 /\
  exists n, try_from_bytes (str "14155551234") = Ok n /\ n <> 100 /\
    is_ok (roster_open (sample_entry n) (str "14155551234") (iss_system_parameters sample_issuer)) = true.
Proof.
  split; [exact (proj1 sample_consistent)|]. split; [reflexivity|]. split; [split; reflexivity|]. split; [reflexivity|].
  split; [split; [reflexivity|split; [reflexivity|apply toy_eq; vm_compute; reflexivity]]|].
  split; [apply toy_eq; vm_compute; reflexivity|].
  eexists. split; [vm_compute; reflexivity|]. split; [discriminate|vm_compute; reflexivity].
Qed.
(** The calls of C114_bytes_refuted, in the order in which they are made. *)
Example C114_met_bytes : exists params keypair issuer keys issuance user entry os',
  (exists p, @system_parameters_from_bytes toy params = Ok p /\ trapdoor p 33) /\
  SpecCalls.gives toy 4 (toy_stream 1) (SpecCalls.MakeKeypair params (zeros 32)) keypair (toy_stream 1) /\
  SpecCalls.gives toy 4 (toy_stream 1) (SpecCalls.MakeIssuer params keypair) issuer (toy_stream 1) /\
  SpecCalls.gives toy 4 (toy_stream 1) (SpecCalls.GetParameters issuer) keys (toy_stream 1) /\
  SpecCalls.gives toy 4 (toy_stream 1) (SpecCalls.Issue issuer (str "14155551234") (repeat x01 32)) issuance os' /\
  SpecCalls.gives toy 4 (toy_stream 1) (SpecCalls.Obtain (str "14155551234") params keys issuance) user (toy_stream 1) /\
  SpecCalls.gives toy 4 (toy_stream 1) (SpecCalls.MakeEntry (str "33612345678") params (repeat x02 32)) entry (toy_stream 1) /\
  fst (@drawn toy "AEONFLUX ISSUANCE" (@chacha toy (repeat x01 32))) mod ell <> 0.
Proof.
  pose proof (new_issuer toy_laws sample_params (@chacha toy (zeros 32))) as Hok.
  set (i := fst (signal_issuer_create sample_params (@chacha toy (zeros 32)))) in *. pose proof Hok as (Hpar & Hcon & Hs & Hw).
  assert (Hi : signal_issuer_new sample_params (iss_keypair i) = i) by (rewrite <- Hpar; destruct i; reflexivity).
  assert (Hdec : @signal_issuer_from_bytes toy (signal_issuer_to_bytes i) = Ok i) by (apply (C33_issuer toy toy_laws); exact Hw).
  assert (Hpd : system_parameters_from_bytes (system_parameters_to_bytes sample_params) = Ok sample_params) by apply (C33_system_parameters toy toy_laws).
  destruct (try_from_bytes (str "14155551234")) as [n| |] eqn:Hn; [|exfalso..].
  2,3: assert (K : is_ok (try_from_bytes (str "14155551234")) = true) by (vm_compute; reflexivity); rewrite Hn in K; discriminate.
  destruct (issue_result toy_laws sample_params i n (@chacha toy (repeat x01 32)) (toy_stream 1) Hok) as (iss & r' & os' & Hq & _ & Hwi & Hf).
  { pose proof (number_cases (str "14155551234")) as K; rewrite Hn in K; apply K. }
  destruct (C29_create_opens toy toy_laws (str "33612345678") sample_params (@chacha toy (repeat x02 32))) as (en & r2 & Hen & _); [cbn; lia|].
  pose (u0 := {| su_phone_number := n; su_user := user_new sample_params (get_issuer_parameters i) None |}).
  specialize (Hf (su_user u0) (conj (eq_sym Hpar) eq_refl)).
  destruct (obtain_finish (su_user u0) (Some iss)) as [u1 res] eqn:Hfin. cbn [snd] in Hf. subst res.
  pose (u := {| su_phone_number := n; su_user := u1 |}).
  exists (system_parameters_to_bytes sample_params), (keypair_to_bytes (iss_keypair i)), (signal_issuer_to_bytes i),
    (public_key_to_bytes (get_issuer_parameters i)), (issuance_to_bytes iss), (signal_user_to_bytes u), (roster_to_bytes en), os'.
  split; [exists sample_params; split; [exact Hpd|exact (proj2 C114_met_chosen)]|]. split; [exists sample_params; auto|].
  split; [exists sample_params, (iss_keypair i); rewrite Hi; split; [exact Hpd|]; split; [apply (C33_keypair toy toy_laws), Hw|]; split; reflexivity|].
  split; [exists i; auto|]. split; [exists i, iss, r'; split; [exact Hdec|]; split; [|reflexivity]; unfold signal_issue; rewrite Hn; exact Hq|].
  split. { exists sample_params, (get_issuer_parameters i), iss, u0, u. split; [exact Hpd|]. split; [apply (C33_public_key toy toy_laws)|].
           split; [apply (C33_issuance toy toy_laws), Hwi|]. split; [unfold signal_user_new; rewrite Hn; reflexivity|].
           split; [unfold signal_obtain_finish; rewrite Hfin; reflexivity|]. split; reflexivity. }
  split; [exists sample_params, en, r2; auto|]. intros H. vm_compute in H. discriminate.
Qed.
