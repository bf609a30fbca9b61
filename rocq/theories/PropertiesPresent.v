(** That presentations cannot be made without the credential they are for, the
    hash being a random function (C77): aeonflux/src/issuer.rs, amacs.rs, proofs.rs
    and signal-credential/src/issuer.rs. *)
From Verif Require Import SpecPresent PresentFacts ShowFacts SignalFacts PropertiesIssue PropertiesShow PropertiesSignal PropertiesOracle Toy.
From Coq Require Import Setoid.
Local Open Scope Z_scope.

(** ** C77: no presentation without a credential for the number *)

(** The parameters, the key and the coins as one list. *)
Definition flatten3 (t x0 x1 : scalar) (coins : list (scalar * scalar)) : list Z :=
  t :: x0 :: x1 :: flat_map (fun '(b, y) => [b; y]) coins.
Lemma presenting_at {E : Ext} (L : ExtLaws E) o t x0 x1 coins values : ~ t == 0 ->
  @game_presenting E o t x0 x1 coins values = passes_at (E := E) o [] [] values (flatten3 t x0 x1 coins).
Proof.
  intros Ht. unfold game_presenting, passes_at, flatten3. cbn [List.length Nat.mul Nat.add skipn nth].
  rewrite flat_pairs.
  match goal with |- context [zero_at (PV 0) ?v] => assert (H0 : zero_at (PV 0) v = false) end.
  { apply Bool.not_true_iff_false. intros H. apply zero_at_iff in H. exact (Ht H). }
  rewrite H0.
  cbn [negb andb as_messages map]. f_equal.
  unfold p_held, p_public, public_points, get_public_key, params_at. cbn [p_issued app map sp_g sp_h pk_Xn sk_xn].
  unfold pt_at. cbn [ev p_h p_X1 nth]. rewrite !smul_1. repeat (apply (f_equal2 cons); [try reflexivity|]); try reflexivity.
  symmetry. apply (smul_mul L).
Qed.

(** Of all logarithms [t] of [h], all keys, all coins for [N] credentials and all
    values of the hash at [M] places, at most a fraction [(2 * q + 3 * h^2) / ell]
    lets an adversary have a presentation accepted without a credential, or with
    credentials for other numbers only, which makes at most [q] tests and hashes
    at most [h] times, two for each presentation that is checked. *)
Theorem C77_sound : forall E, ExtLaws E -> forall (o : presenter) (q h N M : nat)
    (wins : list (scalar * scalar * scalar * list (scalar * scalar) * list scalar)),
  presents_within q h o ->
  NoDup wins ->
  (forall t x0 x1 coins values, In (t, x0, x1, coins, values) wins ->
     canonical t /\ t <> 0 /\ canonical x0 /\ canonical x1 /\
     List.length coins = N /\ Forall (fun c => canonical (fst c) /\ canonical (snd c)) coins /\
     List.length values = M /\ Forall canonical values /\
     @game_presenting E o t x0 x1 coins values = true) ->
  Z.of_nat (List.length wins) * ell <=
    (2 * Z.of_nat q + 3 * Z.of_nat h ^ 2) * ell ^ (3 + 2 * Z.of_nat N + Z.of_nat M).
Proof.
  intros E L o q h N M wins Hq Hnd Hw. pose proof ell_pos as Hell.
  destruct (range_exists ell ltac:(lia)) as (R & R1 & R2 & R3).
  pose proof (few_passes L R R1 R2 R3 N q h o Hq [] [] M ltac:(cbn; lia) ltac:(constructor)) as Hb.
  set (n := (3 + 2 * N)%nat) in *.
  assert (HB : bound q h (List.length (@nil (list pexp * Z))) * full n M =
    (2 * Z.of_nat q + 3 * Z.of_nat h ^ 2) * ell ^ (3 + 2 * Z.of_nat N + Z.of_nat M)).
  { unfold bound, full, n. cbn [List.length]. rewrite Z.pow_2_r. replace (3 + 2 * Z.of_nat N + Z.of_nat M) with (Z.of_nat M + Z.of_nat (3 + 2 * N)) by lia.
    rewrite Z.pow_add_r by lia. ring. }
  rewrite HB in Hb. etransitivity; [|exact Hb]. apply Z.mul_le_mono_nonneg_r; [lia|]. unfold count. apply inj_le.
  set (f := fun w : scalar * scalar * scalar * list (scalar * scalar) * list scalar =>
    let '(t, x0, x1, coins, values) := w in (values, flatten3 t x0 x1 coins)).
  rewrite <- (map_length f). apply NoDup_incl_length.
  - apply nodup_map; [exact Hnd|]. intros [[[[t x0] x1] coins] values] [[[[t' x0'] x1'] coins'] values'] _ _ He.
    unfold f, flatten3 in He. injection He as -> -> -> -> He. apply (f_equal pairs) in He. rewrite !flat_pairs in He. congruence.
  - intros p Hp. apply in_map_iff in Hp as ([[[[t x0] x1] coins] values] & <- & Hin).
    apply Hw in Hin as (Ct & Ht & C0 & C1 & Hn & Hc & Hm & Hv & Hg). unfold f. apply filter_In. split.
    + unfold space. apply in_prod.
      * apply in_lists. split; [exact Hm|]. eapply Forall_impl; [|exact Hv]. intros x Hx. apply R2. exact Hx.
      * apply (in_tuples R R2). unfold flatten3, n. split.
        -- cbn [List.length]. rewrite flat_length. unfold scalar in *. lia.
        -- repeat (constructor; [assumption|]). clear - Hc. induction Hc as [|[b y] coins [Cb Cy] _ IH]; [constructor|].
           cbn [flat_map app]. constructor; [exact Cb|]. constructor; [exact Cy|exact IH].
    + cbn [fst snd table_at map]. rewrite <- (presenting_at L); [exact Hg|]. intros H. apply Ht. apply eqm_canonical; [exact Ct|lia|exact H].
Qed.
Print Assumptions C77_sound.

(** What the game checks is what the code checks: [verify] and
    [verify_roster_membership] accept exactly if the challenge in the proof is the
    hash of the transcript of these points. *)
Theorem C77_checks : forall E, ExtLaws E -> forall (i : Issuer E) (p : SignalCredentialPresentation E) x0 x1 t C,
  kp_secret (iss_keypair i) = {| sk_x0 := x0; sk_xn := [x1] |} -> consistent i ->
  iss_system_parameters i = params_at t ->
  pr_attributes_revealed (sc_presentation p) = [] -> pr_attributes_blinded (sc_presentation p) = [C] ->
  let P := pr_rerandomized_nonce (sc_presentation p) in
  let pf := pr_proof (sc_presentation p) in
  let pf' := sc_roster_membership_proof p in
  let s := presentation_publics (params_at t) (smul x1 (sp_h (params_at t))) x0 x1 P (pr_rerandomized_mac_commitment (sc_presentation p)) C in
  let s' := roster_publics (params_at t) P C (sc_roster_entry_commitment p) in
  (signal_verify i p = Ok {| vs_presentation := p |} <->
   scalar_eqb (@challenge_of E (extend show_transcript (vc_messages s (vc_recompute pf s)))) (vc_challenge pf) = true) /\
  (verify_roster_membership i {| vs_presentation := p |} = Ok (sc_roster_entry_commitment p) <->
   scalar_eqb (@challenge_of E (extend roster_transcript (ce_messages s' (ce_recompute pf' s')))) (ce_challenge pf') = true).
Proof.
  intros E L i p x0 x1 t C Hk Hc Hp Hr Hb P pf pf' s s'.
  assert (Hx : sk_xn (kp_secret (iss_keypair i)) = [x1]) by (rewrite Hk; reflexivity).
  pose proof (consistent_single i x1 Hc Hx) as HX. split.
  - rewrite signal_verify_ok. rewrite (C18_acceptance E L i _ [] x1 _ C HX Hx Hr Hb). unfold presentation_hashed, scalar_eqb.
    rewrite Hk, Hp. cbn [sk_x0]. fold P pf s. rewrite Z.eqb_eq. split; intros H; symmetry; exact H.
  - rewrite (C21_acceptance E L i p C [] _ Hb). unfold membership_hashed, scalar_eqb. rewrite Hp. fold P pf' s'.
    rewrite Z.eqb_eq. split; [intros [_ H]; symmetry; exact H|intros H; split; [reflexivity|symmetry; exact H]].
Qed.
Print Assumptions C77_checks.

(** The hash is of the points: two transcripts are the same exactly if the points
    are, and those of the two proofs are never the same. *)
Theorem C77_hash_of_points : forall E, ExtLaws E ->
  (forall t (p p' : vc_Publics E) c c',
     extend t (vc_messages p c) = extend t (vc_messages p' c') <-> show_points p c = show_points p' c') /\
  (forall t (p p' : ce_Publics E) c c',
     extend t (ce_messages p c) = extend t (ce_messages p' c') <-> member_points p c = member_points p' c') /\
  (forall (p : vc_Publics E) c (p' : ce_Publics E) c',
     extend show_transcript (vc_messages p c) <> extend roster_transcript (ce_messages p' c')).
Proof.
  intros E L. split; [|split].
  - intros t p p' c c'. split.
    + intros H. apply (vc_transcript_inj L) in H as (_ & -> & ->). reflexivity.
    + intros H. destruct p, p', c, c'. unfold show_points in H. cbn in H. injection H. intros. subst. reflexivity.
  - intros t p p' c c'. split.
    + intros H. apply (ce_transcript_inj L) in H as (_ & -> & ->). reflexivity.
    + intros H. destruct p, p', c, c'. unfold member_points in H. cbn in H. injection H. intros. subst. reflexivity.
  - intros p c p' c' H. destruct (vc_messages_last p c) as (l & b & Hl), (ce_messages_last p' c') as (l' & b' & Hl').
    rewrite Hl, Hl' in H. revert H. apply extend_last_neq. discriminate.
Qed.
Print Assumptions C77_hash_of_points.

(** The parameters the code makes are those of the game, for some [t]; only
    [from_bytes] allows another first generator. *)
Theorem C77_parameters : forall E, ExtLaws E -> forall params : SystemParameters E,
  ((exists fuel (r r' : rng), hunt_and_peck fuel r = Some (params, r')) \/
   (exists P, system_parameters_from_point P = Ok params) \/ (exists b, system_parameters_from_array b = Ok params)) ->
  exists t, canonical t /\ params = params_at t /\ (t = 0 <-> sp_h params = pzero).
Proof.
  intros E L params H.
  assert (G : exists P, params = {| sp_g := basepoint; sp_h := P |}).
  { destruct H as [(fuel & r & r' & H)|[[P H]|[b H]]].
    - revert r H. induction fuel as [|fuel IH]; intros r H; [discriminate|]. cbn [hunt_and_peck] in H.
      destruct (fill_bytes 32 r) as [tmp r1]. destruct (peck tmp) as [P|]; [|apply (IH r1 H)]. injection H as <- _. eauto.
    - unfold system_parameters_from_point in H. destruct (debug_build E && peqb P basepoint); [discriminate|]. injection H as <-. eauto.
    - unfold system_parameters_from_array in H. destruct (debug_build E && bytes_eqb b (compress basepoint)); [discriminate|].
      apply bind_ok in H as (P & _ & H). injection H as <-. eauto. }
  destruct G as [P ->]. destruct (basepoint_generates E L P) as [t ->]. exists (t mod ell).
  assert (Hs : smul (t mod ell) (@basepoint E) = smul t basepoint) by (apply (smul_base_iff L); apply eqm_mod).
  split; [apply mod_range|]. unfold params_at. rewrite Hs. split; [reflexivity|]. cbn [sp_h].
  rewrite (smul_zero_iff L) by apply (basepoint_nonzero E L). unfold Algebra.eqm. split; intros He.
  - rewrite He. symmetry. apply Z.mod_0_l. pose proof ell_pos; lia.
  - rewrite He. apply Z.mod_0_l. pose proof ell_pos; lia.
Qed.
Print Assumptions C77_parameters.
(** That nobody knows [t] is needed: with a credential for any number and [t] one
    passes for every other number. *)
Definition trapdoor (t m n : scalar) : presenter :=
  PAsk m (PHash [[1]; at_place 2 1; at_place 3 1; at_place 4 1; []; at_place 4 m; []; []] (fun c =>
    PHash [[1]; at_place 2 1; at_place 4 1; at_place 4 m; at_place 2 n; []; []] (fun c' =>
      PShow (at_place 4 1) (at_place 5 1) (at_place 4 m)
        {| vc_challenge := c; vc_responses := {| vcs_m0 := c * m; vcs_z0 := 0; vcs_minus_zQ := 0 |} |} n 0
        {| ce_challenge := c'; ce_responses := {| ces_m0 := c' * m; ces_z0 := 0; ces_z1 := c' * ((n - m) * t) |} |}
        (fun _ _ => PStop)))).

Theorem C77_known_h_refuted : forall E, ExtLaws E -> forall t x0 x1 m n b y c c' values,
  ~ m == n -> ~ b == 0 ->
  presents_within 0 4 (trapdoor t m n) /\
  @game_presenting E (trapdoor t m n) t x0 x1 [(b, y)] (c :: c' :: values) = true.
Proof.
  intros E L t x0 x1 m n b y c c' values Hm Hb. split; [repeat constructor|].
  unfold game_presenting, trapdoor. cbn [passes].
  destruct (mac_one (E := E) x0 x1 m b) as [tag Ht]. rewrite Ht.
  pose proof (mac_with_spec L _ _ _ _ Ht) as (HP & _ & HQ). cbn [sk_x0 sk_xn dot] in HQ. rewrite HP in HQ.
  set (held := (public_points _ _ ++ _)%list).
  assert (Hheld : held = [basepoint; basepoint; smul t basepoint; smul x1 (smul t basepoint); tag_nonce tag; tag_mac tag;
                          commitment_to (smul x0 basepoint) y (smul t basepoint)]) by reflexivity.
  assert (Hat : forall j z P, nth_error held j = Some P -> combination (at_place j z) held = smul z P).
  { intros j z P Hj. apply (combination_at L). exact Hj. }
  assert (H1 : combination [1] held = basepoint) by (rewrite <- (smul_1 basepoint); exact (Hat 0%nat 1 _ eq_refl)).
  assert (Hnil : combination [] held = pzero) by apply (combination_nil L).
  cbn [map]. rewrite H1, Hnil, !(Hat 2%nat _ _ eq_refl), !(Hat 3%nat _ _ eq_refl), !(Hat 4%nat _ _ eq_refl), !(Hat 5%nat _ _ eq_refl).
  set (U := [basepoint; smul 1 (smul t basepoint); smul 1 (smul x1 (smul t basepoint)); smul 1 (tag_nonce tag); pzero; smul m (tag_nonce tag); pzero; pzero]).
  set (U' := [basepoint; smul 1 (smul t basepoint); smul 1 (tag_nonce tag); smul m (tag_nonce tag); smul n (smul t basepoint); pzero; pzero]).
  assert (Hne : points_eqb U U' = false /\ points_eqb U' U = false).
  { split; apply Bool.not_true_iff_false; intros H; apply (points_eqb_iff L) in H; discriminate (f_equal (@List.length _) H). }
  assert (Heq : points_eqb U U = true /\ points_eqb U' U' = true) by (split; apply (points_eqb_iff L); reflexivity).
  destruct Hne as [N1 N2], Heq as [E1 E2].
  match goal with |- context [hash [] (c :: c' :: values) ?u] => change (hash [] (c :: c' :: values) u) with (Some (c, [(U, c)], c' :: values)) end.
  cbv iota beta.
  assert (Hh : hash [(U, c)] (c' :: values) U' = Some (c', [(U', c'); (U, c)], values)).
  { unfold hash. cbn [find fst]. rewrite N1. reflexivity. }
  match goal with |- context [hash [(U, c)] (c' :: values) ?u] => change u with U' end.
  rewrite Hh. cbv iota beta.
  set (p := presentation_publics _ _ _ _ _ _ _). set (p' := roster_publics _ _ _ _).
  match goal with |- context [show_points p (vc_recompute ?a p)] => set (pf := a) end.
  match goal with |- context [member_points p' (ce_recompute ?a p')] => set (pf' := a) end.
  assert (HU : show_points p (vc_recompute pf p) = U).
  { unfold show_points, vc_recompute, p, pf, presentation_publics, params_at, U.
    cbn [vcp_B vcp_A vcp_X0 vcp_P vcp_V vcp_Cm0 vcc_Cm0 vcc_V sp_g sp_h multiscalar_mul vc_responses vc_challenge vcs_m0 vcs_z0 vcs_minus_zQ].
    rewrite HP, HQ, !(padd_zero_r L), !smul_1. unfold s_neg. to_base L.
    repeat (apply (f_equal2 cons); [first [reflexivity|apply (smul_base_iff L); eqm_push; apply eqm_of_eq; zring|
      apply (smul_zero_iff L); [apply (basepoint_nonzero E L)|eqm_push; apply eqm_of_eq; zring]]|]). reflexivity. }
  assert (HU' : member_points p' (ce_recompute pf' p') = U').
  { unfold member_points, ce_recompute, p', pf', roster_publics, params_at, U'.
    cbn [cep_B cep_A cep_P cep_Cm0 cep_Cm1 cec_Cm0 cec_Cm1 sp_g sp_h multiscalar_mul ce_responses ce_challenge ces_m0 ces_z0 ces_z1].
    rewrite HP, !(padd_zero_r L), !smul_1. unfold s_neg. to_base L.
    repeat (apply (f_equal2 cons); [first [reflexivity|apply (smul_base_iff L); eqm_push; apply eqm_of_eq; zring|
      apply (smul_zero_iff L); [apply (basepoint_nonzero E L)|eqm_push; apply eqm_of_eq; zring]]|]). reflexivity. }
  rewrite HU, HU'. unfold hash. cbn [find fst snd]. rewrite N2, E1. cbn [snd]. cbv iota beta. cbn [find fst snd]. rewrite E2. cbn [snd]. cbv iota beta.
  unfold pf, pf'. cbn [vc_challenge ce_challenge]. unfold scalar_eqb. rewrite !Z.eqb_refl.
  rewrite (proj2 (peqb_false L (smul 1 (tag_nonce tag)) pzero)).
  - cbn [andb negb app fresh forallb same_message orb]. 
    assert (Hmm : n mod ell =? m mod ell = false).
    { apply Z.eqb_neq. intros H. apply Hm. symmetry. exact H. }
    rewrite Hmm. reflexivity.
  - rewrite HP. intros H. rewrite smul_1 in H. apply (smul_zero_iff L) in H; [|apply (basepoint_nonzero E L)]. exact (Hb H).
Qed.
Print Assumptions C77_known_h_refuted.

(** A presentation for the attribute [m] of the tag ([cP], [cQ]), and for the entry
    [m] with the given opening, made as the code makes it but with fixed scalars. *)
Definition attempt (cP cQ : list scalar) (m opening : scalar) (next : bool -> bool -> presenter) : presenter :=
  let cC := add_comb (scale_comb m cP) (at_place 2 3) in
  PHash [[1]; at_place 2 1; at_place 3 1; cP; add_comb (at_place 2 4) (at_place 3 3); cC;
         add_comb (scale_comb 5 cP) (at_place 2 6); add_comb (at_place 3 6) (at_place 2 7)] (fun c =>
  PHash [[1]; at_place 2 1; cP; cC; add_comb (at_place 2 m) [opening];
         add_comb (scale_comb 8 cP) (at_place 2 9); add_comb (at_place 2 8) [10]] (fun c' =>
  PShow cP (add_comb cQ (at_place 2 (-4))) cC
    {| vc_challenge := c; vc_responses := {| vcs_m0 := c * m + 5; vcs_z0 := c * 3 + 6; vcs_minus_zQ := c * 4 + 7 |} |} m opening
    {| ce_challenge := c'; ce_responses := {| ces_m0 := c' * m + 8; ces_z0 := c' * 3 + 9; ces_z1 := c' * opening + 10 |} |} next)).
(** An adversary which asks for the number 3 and guesses the key to show 9. *)
Definition guesser : presenter :=
  PAsk 3 (PTest [0; 0; 8; -1] PStop (attempt [2] [2 * (5 + 7 * 9)] 9 2 (fun _ _ => PStop))).
Example C77_met :
  presents_within 1 4 guesser /\
  let wins := [(33, 5, 7, [(11, 3)], [40; 41]); (34, 5, 7, [(11, 3)], [40; 41])] in
  NoDup wins /\
  forall t x0 x1 coins values, In (t, x0, x1, coins, values) wins ->
    canonical t /\ t <> 0 /\ canonical x0 /\ canonical x1 /\
    List.length coins = 1%nat /\ Forall (fun c => canonical (fst c) /\ canonical (snd c)) coins /\
    List.length values = 2%nat /\ Forall canonical values /\
    @game_presenting toy guesser t x0 x1 coins values = true.
Proof.
  split; [repeat constructor|]. cbv zeta. split.
  - repeat constructor; cbn; intuition congruence.
  - pose proof ell_gt_252. intros t x0 x1 coins values [[= <- <- <- <- <-]|[[= <- <- <- <- <-]|[]]]; unfold canonical;
      (do 4 (split; [lia|]); split; [reflexivity|]; split; [apply Forall_cons; [cbn [fst snd]; lia|apply Forall_nil]|];
       split; [reflexivity|]; split; [apply Forall_cons; [lia|apply Forall_cons; [lia|apply Forall_nil]]|]; vm_compute; reflexivity).
Qed.
(** The credential asked for is accepted, but that is no win; one for another
    number would be. *)
Example C77_met_honest :
  let own next := PAsk 9 (attempt (at_place 4 1) (at_place 5 1) 9 2 next) in
  let other := attempt [2] [2 * (5 + 7 * 10)] 10 2 (fun _ _ => PStop) in
  @game_presenting toy (own (fun ok member => if ok && member then other else PStop)) 33 5 7 [(11, 3)] [40; 41; 42; 43] = true /\
  @game_presenting toy (own (fun _ _ => PStop)) 33 5 7 [(11, 3)] [40; 41; 42; 43] = false /\
  @game_presenting toy (own (fun _ _ => other)) 33 5 8 [(11, 3)] [40; 41; 42; 43] = false /\
  @game_presenting toy (PAsk 9 (attempt (at_place 4 1) (at_place 5 1) 10 2 (fun _ _ => PStop))) 33 5 7 [(11, 3)] [40; 41; 42; 43] = false.
Proof. vm_compute. auto. Qed.
Example C77_met_known_h : @game_presenting toy (trapdoor 33 9 10) 33 5 7 [(11, 3)] [40; 41] = true.
Proof. vm_compute. reflexivity. Qed.
Definition presenting_issuer : Issuer toy := issuer_with toy (params_at 33) [smul 7 (smul 33 basepoint)] 5 [7].
Example C77_met_checks :
  kp_secret (iss_keypair presenting_issuer) = {| sk_x0 := 5; sk_xn := [7] |} /\ consistent presenting_issuer /\
  iss_system_parameters presenting_issuer = params_at 33 /\
  (let p := forge_presentation (params_at 33) (smul 7 (smul 33 (@basepoint toy))) 3 4 5 (toy_stream 1) in
   pr_attributes_revealed p = [] /\ (exists C, pr_attributes_blinded p = [C]) /\ is_ok (issuer_verify presenting_issuer p) = true).
Proof.
  split; [reflexivity|]. split; [repeat constructor|]. split; [reflexivity|]. split; [reflexivity|]. split; [eexists; reflexivity|].
  vm_compute. reflexivity.
Qed.
Example C77_met_parameters : exists params : SystemParameters toy, system_parameters_from_point (pt 33) = Ok params.
Proof. eexists. reflexivity. Qed.
