(** Properties of the whole protocol and of roster membership:
    signal-credential/src/issuer.rs and user.rs (C01, C20 - C22, C55). *)
From Verif Require Import PhoneFacts SignalFacts PropertiesIssue PropertiesShow PropertiesPhone Toy.
Local Open Scope string_scope.

(** ** C01: the whole protocol completes *)
Theorem C01_protocol_completes : forall E, ExtLaws E ->
  forall (params : SystemParameters E) key number r_create r_issue os_issue r_entry r_show os_show,
  (List.length number <= 27)%nat ->
  let i := fst (signal_issuer_create params r_create) in
  exists iss u u' entry p ri oi re rs os,
    signal_issue i number r_issue os_issue = Ok (iss, ri, oi) /\
    signal_user_new params (get_issuer_parameters i) key number = Ok u /\
    signal_obtain_finish u (Some iss) = (u', Ok tt) /\
    us_credential (su_user u') = Some (is_credential iss) /\
    roster_create number params r_entry = Ok (entry, re) /\
    signal_show u' r_show os_show entry = Ok (p, rs, os) /\
    signal_verify i p = Ok {| vs_presentation := p |} /\
    verify_roster_membership i {| vs_presentation := p |} = Ok (re_commitment entry).
Proof.
  intros E L params key number rc ri oi re rs os Hl i.
  destruct (issuer_create_facts params rc) as (Hp & Hc & Hs). fold i in Hp, Hc, Hs.
  change (fst (issuer_create params rc)) with i in Hp, Hc, Hs.
  destruct (proj1 (C27_outcomes number) Hl) as [(n & Hn & _) _].
  pose (u := {| su_phone_number := n; su_user := user_new params (get_issuer_parameters i) key |}).
  assert (Hu : user_of i (su_user u)) by (split; [symmetry; exact Hp|reflexivity]).
  destruct (C10_honest_issuance_accepted E L i (su_user u) n ri oi Hc Hs Hu) as (iss & ri' & oi' & Hi & Hv & Ho).
  destruct (C29_create_opens E L number params re Hl) as (entry & re' & He & Hop).
  apply (C29_open_exactly E L entry number n params Hn) in Hop.
  set (usr := {| us_system_parameters := us_system_parameters (su_user u);
                 us_issuer_parameters := us_issuer_parameters (su_user u);
                 us_key := us_key (su_user u); us_credential := Some (is_credential iss) |}) in Ho.
  pose (u' := {| su_phone_number := n; su_user := usr |}).
  destruct (signal_presentation_accepted L i u' (is_credential iss) n rs os entry Hc Hs) as (p & rs' & os' & Hsh & Hv1 & Hv2).
  - split; [symmetry; exact Hp|reflexivity].
  - reflexivity.
  - exact Hv.
  - rewrite Hp. exact Hop.
  - exists iss, u, u', entry, p, ri', oi', re', rs', os'.
    split; [unfold signal_issue; rewrite Hn; exact Hi|].
    split; [unfold signal_user_new; rewrite Hn; reflexivity|].
    split; [unfold signal_obtain_finish; rewrite Ho; reflexivity|].
    split; [reflexivity|]. split; [exact He|]. split; [exact Hsh|]. split; [exact Hv1|exact Hv2].
Qed.
Print Assumptions C01_protocol_completes.
(** One run, and the same run with a roster entry for another number. *)
Definition sample_run (number entry_number : bytes) : bool :=
  let i := fst (signal_issuer_create sample_params (toy_stream 1)) in
  match signal_issue i number (toy_stream 2) (toy_stream 3) with
  | Ok (iss, _, _) =>
    match signal_user_new sample_params (get_issuer_parameters i) None number with
    | Ok u =>
      let (u', _) := signal_obtain_finish u (Some iss) in
      match roster_create entry_number sample_params (toy_stream 4) with
      | Ok (entry, _) =>
        match signal_show u' (toy_stream 5) (toy_stream 6) entry with
        | Ok (p, _, _) => is_ok (signal_verify i p) && is_ok (verify_roster_membership i {| vs_presentation := p |})
        | _ => false
        end
      | _ => false
      end
    | _ => false
    end
  | _ => false
  end.
Example C01_met : sample_run (str "14155551234") (str "14155551234") = true /\
                  sample_run (str "14155551234") (str "14155551235") = false.
Proof. split; vm_compute; reflexivity. Qed.

(** ** C20: membership without a credential *)
Theorem C20_membership_without_credential_refuted : forall E, ExtLaws E ->
  forall (i : Issuer E) x1 number n entry z0 zQ os os',
  consistent i -> sk_xn (kp_secret (iss_keypair i)) = [x1] ->
  try_from_bytes number = Ok n ->
  roster_open entry number (iss_system_parameters i) = Ok tt ->
  forall X1, pk_Xn (kp_public (iss_keypair i)) = [X1] ->
  let p := forge_signal_presentation (iss_system_parameters i) X1 n z0 zQ entry os os' in
  signal_verify i p = Ok {| vs_presentation := p |} /\
  verify_roster_membership i {| vs_presentation := p |} = Ok (re_commitment entry).
Proof.
  intros E L i x1 number n entry z0 zQ os os' Hc Hx Hn Ho X1 HX.
  pose proof (consistent_single i x1 Hc Hx) as HX'. rewrite HX in HX'. injection HX' as ->.
  apply (C29_open_exactly E L entry number n _ Hn) in Ho.
  exact (signal_forgery L i x1 n z0 zQ entry os os' Hc Hx Ho).
Qed.
Print Assumptions C20_membership_without_credential_refuted.
Definition sample_entry (n : Z) : RosterEntryCommitment toy := {| re_commitment := pt (33 * n + 17); re_opening := 17 |}.
Example C20_met : consistent sample_issuer /\
  (exists n, try_from_bytes (str "14155551234") = Ok n /\
     (let e := sample_entry n in
      let p := forge_signal_presentation sample_params (pt 231) n 2 3 e (toy_stream 1) (toy_stream 2) in
      is_ok (roster_open e (str "14155551234") sample_params) &&
      is_ok (signal_verify sample_issuer p) &&
      is_ok (verify_roster_membership sample_issuer {| vs_presentation := p |})) = true).
Proof. split; [apply sample_consistent|]. apply run1. vm_compute. reflexivity. Qed.

(** ** C21: roster membership proofs are sound *)
Theorem C21_membership_sound : forall E, ExtLaws E ->
  forall (params : SystemParameters E) P C R pf1 pf2,
  let q := roster_publics params P C R in
  ce_challenge pf1 mod ell <> ce_challenge pf2 mod ell -> ce_recompute pf1 q = ce_recompute pf2 q ->
  let w := ce_extract pf1 pf2 in
  C = padd (smul (ces_m0 w) P) (smul (ces_z0 w) (sp_h params)) /\
  R = padd (smul (ces_m0 w) (sp_h params)) (smul (ces_z1 w) (sp_g params)).
Proof. intros E L. exact (roster_sound L). Qed.
Print Assumptions C21_membership_sound.
(** What [verify_roster_membership] hashes. *)
Definition membership_hashed {E : Ext} (params : SystemParameters E) (p : SignalCredentialPresentation E) C : transcript :=
  let q := roster_publics params (pr_rerandomized_nonce (sc_presentation p)) C (sc_roster_entry_commitment p) in
  extend roster_transcript (ce_messages q (ce_recompute (sc_roster_membership_proof p) q)).
Theorem C21_acceptance : forall E, ExtLaws E -> forall (i : Issuer E) p C Cs R,
  pr_attributes_blinded (sc_presentation p) = C :: Cs ->
  (verify_roster_membership i {| vs_presentation := p |} = Ok R <->
   R = sc_roster_entry_commitment p /\
   ce_challenge (sc_roster_membership_proof p) = @challenge_of E (membership_hashed (iss_system_parameters i) p C)).
Proof.
  intros E L i p C Cs R Hb. rewrite (verify_roster_ok i p C Cs Hb).
  unfold membership_hashed. cbv zeta. rewrite <- ce_verify_iff.
  destruct (ce_verify _ _ _) as [[]|e|]; split.
  - intros H. injection H as <-. auto.
  - intros [-> _]. reflexivity.
  - discriminate.
  - intros [_ H]; discriminate.
  - discriminate.
  - intros [_ H]; discriminate.
Qed.
Print Assumptions C21_acceptance.
(** Two presentations that hash one transcript each for presentation and
    membership, answered by two challenge functions: they carry the same values,
    the tag in them authenticates the extracted number, and the roster
    commitment is to the same number - or a relation between the nonce and [h]
    is computed. *)
Theorem C21_rewinding : forall E, ExtLaws E ->
  forall (i : Issuer E) x1 p1 p2 C1 C2 (f1 f2 f1' f2' : transcript -> scalar),
  consistent i -> sk_xn (kp_secret (iss_keypair i)) = [x1] ->
  let params := iss_system_parameters i in
  let h := sp_h params in
  let S1 := presentation_hashed i (smul x1 h) x1 (sc_presentation p1) C1 in
  let S2 := presentation_hashed i (smul x1 h) x1 (sc_presentation p2) C2 in
  let T1 := membership_hashed params p1 C1 in
  let T2 := membership_hashed params p2 C2 in
  vc_challenge (pr_proof (sc_presentation p1)) = f1 S1 -> vc_challenge (pr_proof (sc_presentation p2)) = f2 S2 ->
  ce_challenge (sc_roster_membership_proof p1) = f1' T1 -> ce_challenge (sc_roster_membership_proof p2) = f2' T2 ->
  S1 = S2 -> T1 = T2 -> f1 S1 mod ell <> f2 S1 mod ell -> f1' T1 mod ell <> f2' T1 mod ell ->
  let w := vc_extract (pr_proof (sc_presentation p1)) (pr_proof (sc_presentation p2)) in
  let w' := ce_extract (sc_roster_membership_proof p1) (sc_roster_membership_proof p2) in
  let P := pr_rerandomized_nonce (sc_presentation p1) in
  let CQ := pr_rerandomized_mac_commitment (sc_presentation p1) in
  let R := sc_roster_entry_commitment p1 in
  sc_roster_entry_commitment p2 = R /\ pr_rerandomized_nonce (sc_presentation p2) = P /\ C2 = C1 /\
  mac_equation (kp_secret (iss_keypair i)) [vcs_m0 w]
    {| tag_nonce := P; tag_mac := padd CQ (smul (vcs_minus_zQ w) h) |} /\
  R = padd (smul (ces_m0 w') h) (smul (ces_z1 w') (sp_g params)) /\
  (vcs_m0 w mod ell = ces_m0 w' mod ell \/
   (vcs_m0 w - ces_m0 w') mod ell <> 0 /\
   smul (vcs_m0 w - ces_m0 w') P = smul (ces_z0 w' - vcs_z0 w) h).
Proof.
  intros E L i x1 p1 p2 C1 C2 f1 f2 f1' f2' Hc Hx params h S1 S2 T1 T2 H1 H2 H1' H2' HS HT Hf Hf' w w' P CQ R.
  destruct (C18_rewinding E L i x1 (sc_presentation p1) (sc_presentation p2) C1 C2 f1 f2 Hc Hx H1 H2 HS Hf)
    as (HP & HC & _ & HC1 & HM). fold w in HC1, HM. fold P CQ in HC1, HM. fold h in HC1, HM.
  pose proof HT as HT'. unfold T1, T2, membership_hashed in HT'. cbv zeta in HT'.
  apply (ce_transcript_inj L) in HT' as (_ & Hq & Hcom). rewrite <- Hq in Hcom.
  pose proof (f_equal cep_Cm1 Hq) as HR. cbn in HR.
  split; [symmetry; exact HR|]. split; [exact HP|]. split; [exact HC|]. split; [exact HM|].
  assert (Hch : ce_challenge (sc_roster_membership_proof p1) mod ell <> ce_challenge (sc_roster_membership_proof p2) mod ell).
  { rewrite H1', H2', <- HT. exact Hf'. }
  destruct (C21_membership_sound E L params P C1 R _ _ Hch Hcom) as [HC1' HR']. fold w' in HC1', HR'.
  split; [exact HR'|].
  destruct (same_number L P h (vcs_m0 w) (vcs_z0 w) (ces_m0 w') (ces_z0 w')) as [H|[Hn H]].
  - etransitivity; [symmetry; exact HC1|exact HC1'].
  - left. exact H.
  - right. split; [exact Hn|exact H].
Qed.
Print Assumptions C21_rewinding.
(** Two presentations that differ only in their proofs, made with the same
    randomness and answering the challenges 5 and 8. *)
Definition sample_member (c : Z) : SignalCredentialPresentation toy :=
  {| sc_roster_entry_commitment := pt (33 * 100 + 17);
     sc_presentation := sample_shown c;
     sc_roster_membership_proof :=
       {| ce_challenge := c;
          ce_responses := {| ces_m0 := c * 100 + 11; ces_z0 := c * 2 + 12; ces_z1 := c * 17 + 13 |} |} |}.
Example C21_met : consistent sample_issuer /\ 7 mod ell <> 11 mod ell /\
  let C := pt (300 + 2 * 33) in
  presentation_hashed sample_issuer (pt 231) 7 (sc_presentation (sample_member 7)) C =
  presentation_hashed sample_issuer (pt 231) 7 (sc_presentation (sample_member 11)) C /\
  membership_hashed sample_params (sample_member 7) C = membership_hashed sample_params (sample_member 11) C.
Proof.
  split; [apply sample_consistent|]. split; [vm_compute; discriminate|]. cbv zeta.
  split; [exact (proj2 (proj2 C18_met))|].
  assert (H : forall q, q = roster_publics sample_params (pt 3) (pt (300 + 2 * 33)) (pt (33 * 100 + 17)) ->
    ce_recompute (sc_roster_membership_proof (sample_member 7)) q =
    ce_recompute (sc_roster_membership_proof (sample_member 11)) q).
  { intros q ->. unfold ce_recompute; f_equal; apply toy_eq; vm_compute; reflexivity. }
  exact (f_equal (fun c => extend roster_transcript (ce_messages _ c)) (H _ eq_refl)).
Qed.

(** ** C22: a roster entry for another number *)
(** The challenge function collides on the transcript the prover hashed and the
    one the verifier hashes; [m], [z0] and [opening] are what [show] used. *)
Definition membership_collision {E : Ext} (params : SystemParameters E) (p : SignalCredentialPresentation E)
    (m z0 opening : scalar) : Prop :=
  exists C rand,
    let q := roster_publics params (pr_rerandomized_nonce (sc_presentation p)) C (sc_roster_entry_commitment p) in
    pr_attributes_blinded (sc_presentation p) = [C] /\
    sc_roster_membership_proof p =
      ce_create_with (ce_create_absorb roster_transcript q) q
        {| ces_m0 := m; ces_z0 := z0; ces_z1 := opening |} rand /\
    @challenge_collision E (extend roster_transcript (ce_messages q (ce_image q rand)))
      (extend roster_transcript (ce_messages q (ce_recompute (sc_roster_membership_proof p) q))).
Theorem C22_wrong_entry_rejected : forall E, ExtLaws E ->
  forall (i : Issuer E) u c m ms X0 Xs entry r os p r' os',
  us_system_parameters (su_user u) = iss_system_parameters i ->
  us_credential (su_user u) = Some c -> cr_attributes c = m :: ms ->
  pk_Xn (us_issuer_parameters (su_user u)) = X0 :: Xs ->
  re_commitment entry <> padd (smul m (sp_h (iss_system_parameters i)))
                              (smul (re_opening entry) (sp_g (iss_system_parameters i))) ->
  signal_show u r os entry = Ok (p, r', os') ->
  verify_roster_membership i {| vs_presentation := p |} = Err VerificationFailure \/
  ce_challenge (sc_roster_membership_proof p) = 0 \/
  membership_collision (iss_system_parameters i) p m (fst (scalar_random r)) (re_opening entry).
Proof.
  intros E L i u c m ms X0 Xs entry r os p r' os' Hp Hc Ha HX He Hs.
  assert (Hd : verify_roster_membership i {| vs_presentation := p |} = Err VerificationFailure \/
               verify_roster_membership i {| vs_presentation := p |} <> Err VerificationFailure).
  { destruct (verify_roster_membership i _) as [|[]|]; auto; right; discriminate. }
  destruct Hd as [Hd|Hd]; [left; exact Hd|right].
  destruct (signal_wrong_entry L i u c m ms X0 Xs entry r os p r' os' Hp Hc Ha HX Hs Hd) as [H|[H|H]].
  - contradiction.
  - left; exact H.
  - right. destruct H as (C & rand & H1 & H2 & H3). cbv zeta in H2, H3.
    assert (Hr : sc_roster_entry_commitment p = re_commitment entry).
    { destruct (signal_show_ok u c m ms X0 Xs entry r os Hc Ha HX) as (? & ? & Hs'). cbv zeta in Hs'.
      destruct Hs' as (? & ? & Hs'). rewrite Hs' in Hs. apply ok3 in Hs as [<- _]. reflexivity. }
    exists C, rand. cbv zeta. rewrite Hr. split; [exact H1|]. split; [exact H2|exact H3].
Qed.
Print Assumptions C22_wrong_entry_rejected.
(** In particular for an entry that opens to another number than the
    credential's. *)
Theorem C22_other_number_rejected : forall E, ExtLaws E ->
  forall (i : Issuer E) u c n ms X0 Xs entry number number' r os p r' os',
  sp_h (iss_system_parameters i) <> pzero ->
  us_system_parameters (su_user u) = iss_system_parameters i ->
  us_credential (su_user u) = Some c -> cr_attributes c = n :: ms ->
  pk_Xn (us_issuer_parameters (su_user u)) = X0 :: Xs ->
  try_from_bytes number = Ok n ->
  roster_open entry number' (iss_system_parameters i) = Ok tt -> number' <> number ->
  signal_show u r os entry = Ok (p, r', os') ->
  verify_roster_membership i {| vs_presentation := p |} = Err VerificationFailure \/
  ce_challenge (sc_roster_membership_proof p) = 0 \/
  membership_collision (iss_system_parameters i) p n (fst (scalar_random r)) (re_opening entry).
Proof.
  intros E L i u c n ms X0 Xs entry b b' r os p r' os' Hh Hp Hc Ha HX Hn Ho Hne Hs.
  apply (C22_wrong_entry_rejected E L i u c n ms X0 Xs entry r os p r' os' Hp Hc Ha HX); [|exact Hs].
  intros He. apply Hne. apply (C29_one_number E L entry b' b (iss_system_parameters i) Hh Ho).
  apply (C29_open_exactly E L entry b n _ Hn). exact He.
Qed.
Print Assumptions C22_other_number_rejected.
Definition sample_signal_holder : SignalUser toy := {| su_phone_number := 100; su_user := sample_holder |}.
Example C22_met : exists p r' os',
  signal_show sample_signal_holder (toy_stream 8) (toy_stream 9) (sample_entry 101) = Ok (p, r', os') /\
  is_ok (signal_verify sample_issuer p) &&
  is_err (verify_roster_membership sample_issuer {| vs_presentation := p |}) = true.
Proof. apply run3. vm_compute. reflexivity. Qed.

(** ** C55: histories of calls to one issuer *)
Section histories.
  Context {E : Ext}.
  (** A call, with what the random sources produce during it. *)
  Inductive call : Type :=
  | Issue (number : bytes) (r os : rng)
  | Verify (p : SignalCredentialPresentation E)
  | Membership (v : VerifiedSignalCredential E).
  Inductive answer : Type :=
  | Issued (o : outcome CredentialError (CredentialIssuance E))
  | Verified (o : outcome CredentialError (VerifiedSignalCredential E))
  | Member (o : outcome CredentialError (point E)).
  Definition answer_to (i : Issuer E) (c : call) : answer :=
    match c with
    | Issue number r os =>
      Issued (match signal_issue i number r os with Ok (iss, _, _) => Ok iss | Err e => Err e | Panic => Panic end)
    | Verify p => Verified (signal_verify i p)
    | Membership v => Member (verify_roster_membership i v)
    end.
  (** All three methods take [&self] (signal-credential/src/issuer.rs:130, 149, 162): the issuer left
      behind by a call is the one it was called on.  A history ends with the
      first call that panics. *)
  Fixpoint serve (i : Issuer E) (calls : list call) : Issuer E * list answer :=
    match calls with
    | [] => (i, [])
    | c :: cs =>
      match answer_to i c with
      | Issued Panic | Verified Panic | Member Panic => (i, [answer_to i c])
      | a => let (i', l) := serve i cs in (i', a :: l)
      end
    end.
  Definition panics (a : answer) : Prop :=
    match a with Issued Panic | Verified Panic | Member Panic => True | _ => False end.
End histories.
Arguments call : clear implicits.
Arguments answer : clear implicits.
(** If no call before it panics, a call is answered as if it were the first. *)
Theorem C55_history_independent : forall E, ExtLaws E ->
  forall (i : Issuer E) before c after,
  (forall c', In c' before -> ~ panics (answer_to i c')) ->
  nth_error (snd (serve i (before ++ c :: after)%list)) (List.length before) = Some (answer_to i c) /\
  fst (serve i (before ++ c :: after)%list) = i.
Proof.
  intros E L i before c after.
  assert (Hi : forall cs, fst (serve i cs) = i).
  { induction cs as [|c0 cs IH]; [reflexivity|]. cbn [serve].
    destruct (answer_to i c0) as [[]|[]|[]]; try reflexivity; destruct (serve i cs); exact IH. }
  intros H. split; [|apply Hi]. induction before as [|c0 before IH].
  - cbn [app serve List.length]. destruct (answer_to i c) as [[]|[]|[]]; try reflexivity;
      destruct (serve i after); reflexivity.
  - cbn [app serve List.length]. specialize (IH (fun c' Hc => H c' (or_intror Hc))).
    pose proof (H c0 (or_introl eq_refl)) as H0.
    destruct (answer_to i c0) as [[]|[]|[]]; try (elim H0; exact I);
      destruct (serve i (before ++ c :: after)%list); exact IH.
Qed.
Print Assumptions C55_history_independent.
(** A presentation accepted once is accepted whenever it is replayed. *)
Theorem C55_replay_accepted : forall E, ExtLaws E ->
  forall (i : Issuer E) before between after p,
  signal_verify i p = Ok {| vs_presentation := p |} ->
  (forall c, In c (before ++ between) -> ~ panics (answer_to i c)) ->
  let l := snd (serve i (before ++ Verify p :: between ++ Verify p :: after)%list) in
  nth_error l (List.length before) = Some (Verified (Ok {| vs_presentation := p |})) /\
  nth_error l (List.length before + 1 + List.length between) = Some (Verified (Ok {| vs_presentation := p |})).
Proof.
  intros E L i before between after p Hv H l.
  assert (Ha : answer_to i (Verify p) = Verified (Ok {| vs_presentation := p |})) by (cbn; rewrite Hv; reflexivity).
  split.
  - unfold l. rewrite <- Ha. apply C55_history_independent; [exact L|].
    intros c Hc. apply H, in_or_app. left; exact Hc.
  - unfold l. rewrite <- Ha.
    replace (before ++ Verify p :: between ++ Verify p :: after)%list
      with ((before ++ Verify p :: between) ++ Verify p :: after)%list
      by (rewrite <- app_assoc; reflexivity).
    replace (List.length before + 1 + List.length between)%nat
      with (List.length (before ++ Verify p :: between)%list)
      by (rewrite app_length; cbn [List.length]; lia).
    apply C55_history_independent; [exact L|].
    intros c Hc. apply in_app_or in Hc as [Hc|[Hc|Hc]].
    + apply H, in_or_app. left; exact Hc.
    + subst c. rewrite Ha. cbn. exact (fun x => x).
    + apply H, in_or_app. right; exact Hc.
Qed.
Print Assumptions C55_replay_accepted.
Example C55_met : exists p r' os',
  signal_show sample_signal_holder (toy_stream 8) (toy_stream 9) (sample_entry 100) = Ok (p, r', os') /\
  match snd (serve sample_issuer [Issue (str "1") (toy_stream 1) (toy_stream 2); Verify p;
                                  Issue (repeat x00 40) (toy_stream 1) (toy_stream 2); Verify p]) with
  | [Issued (Ok _); Verified (Ok _); Issued (Err _); Verified (Ok _)] => true
  | _ => false
  end = true.
Proof. apply run3. vm_compute. reflexivity. Qed.
