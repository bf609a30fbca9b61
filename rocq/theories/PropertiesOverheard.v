(** That no presentation can be made by somebody who sees everything (C81):
    aeonflux/src/issuer.rs, user.rs, amacs.rs, proofs.rs and
    signal-credential/src/issuer.rs, user.rs. *)
From Verif Require Import SpecOverheard OverheardTrace ShowFacts SignalFacts PropertiesIssue PropertiesShow PropertiesSignal PropertiesGame PropertiesOracle PropertiesPresent CreatedFacts Toy.
From Coq Require Import Setoid.
Local Open Scope Z_scope.

(** ** C81: overheard presentations and proofs of issuance are of no use *)

(** The parameters, the key, and the coins but for those of the proofs. *)
Definition flatten4 (t x0 x1 : scalar) (coins : list (scalar * scalar * ir_Scalars)) (shows : list show_coins) : list Z :=
  t :: x0 :: x1 :: flat_map (fun '(b, y) => [b; y]) (map fst coins) ++ flat_map (fun '(b, z, zQ) => [b; z; zQ]) (map fst shows).
Lemma flat_triples (l : list (Z * Z * Z)) : triples (flat_map (fun '(b, z, zQ) => [b; z; zQ]) l) = l.
Proof. induction l as [|[[b z] zQ] l IH]; [reflexivity|]. cbn [flat_map app triples]. rewrite IH. reflexivity. Qed.
Lemma flat_triples_length (l : list (Z * Z * Z)) : List.length (flat_map (fun '(b, z, zQ) => [b; z; zQ]) l) = (3 * List.length l)%nat.
Proof. induction l as [|[[b z] zQ] l IH]; [reflexivity|]. cbn [flat_map app List.length]. rewrite IH. lia. Qed.

Lemma sim_at_flat {E : Ext} (L : ExtLaws E) o t x0 x1 coins shows table stream : ~ t == 0 ->
  sim_at (E := E) (List.length coins) o [] table stream (flatten4 t x0 x1 coins shows) =
  sim t x0 x1 (map fst coins) (map fst shows) table stream o (public_points {| sk_x0 := x0; sk_xn := [x1] |} (params_at t)) [] [].
Proof.
  intros Ht. unfold sim_at, flatten4. cbn [asked_of seen_of seen_at List.length nth as_messages map].
  rewrite Nat.sub_0_r. change (3 + 2 * 0)%nat with 3%nat. change (3 * 0)%nat with 0%nat. rewrite Nat.add_0_r.
  change (3 + 2 * List.length coins)%nat with (S (S (S (2 * List.length coins)))). cbn [skipn].
  assert (Hl : List.length (flat_map (fun '(b, y) => [b; y]) (map fst coins)) = (2 * List.length coins)%nat).
  { rewrite flat_length, map_length. reflexivity. }
  set (a := flat_map (fun '(b, y) => [b; y]) (map fst coins)) in *. set (d := flat_map _ (map fst shows)).
  assert (Ha : firstn (2 * List.length coins) (a ++ d) = a).
  { rewrite <- Hl. rewrite firstn_app, Nat.sub_diag, firstn_O, app_nil_r. apply firstn_all. }
  assert (Hd : skipn (2 * List.length coins) (a ++ d) = d).
  { rewrite <- Hl. rewrite skipn_app, Nat.sub_diag, skipn_all. reflexivity. }
  unfold scalar in *. rewrite Ha, Hd.
  unfold a, d. rewrite flat_pairs, flat_triples.
  match goal with |- context [zero_at (PV 0) ?v] => assert (H0 : zero_at (PV 0) v = false) end.
  { apply Bool.not_true_iff_false. intros H. apply zero_at_iff in H. exact (Ht H). }
  rewrite H0. cbn [negb andb]. f_equal.
  unfold p_all, p_public, public_points, get_public_key, params_at. cbn [p_events app map sp_g sp_h pk_Xn sk_xn].
  unfold pt_at. cbn [ev p_h p_X1 nth]. rewrite !smul_1. repeat (apply (f_equal2 cons); [try reflexivity|]); try reflexivity.
  apply (smul_mul L).
Qed.

Lemma coins_canonical_ok coins : coins_canonical coins -> coins_ok coins.
Proof. apply Forall_impl. intros [[b y] r] (_ & _ & H). exact H. Qed.
Lemma shows_canonical_ok shows : shows_canonical shows -> shows_ok shows.
Proof. apply Forall_impl. intros [[[b z] zQ] [v w]] (_ & _ & _ & H). exact H. Qed.
Lemma flatten4_canonical t x0 x1 coins shows : canonical t -> canonical x0 -> canonical x1 -> coins_canonical coins -> shows_canonical shows ->
  Forall canonical (flatten4 t x0 x1 coins shows).
Proof.
  intros Ct C0 C1 Hc Hs. repeat (constructor; [assumption|]). apply Forall_app. split.
  - induction Hc as [|[[b y] r] coins (Cb & Cy & _) _ IH]; [constructor|]. cbn [map fst flat_map app]. constructor; [exact Cb|]. constructor; [exact Cy|exact IH].
  - induction Hs as [|[[[b z] zQ] [v w]] shows (Cb & Cz & CQ & _) _ IH]; [constructor|]. cbn [map fst flat_map app].
    constructor; [exact Cb|]. constructor; [exact Cz|]. constructor; [exact CQ|exact IH].
Qed.

Lemma nodup_app {A} (l m : list A) : NoDup l -> NoDup m -> (forall x, In x l -> ~ In x m) -> NoDup (l ++ m).
Proof.
  induction 1 as [|x l Hx Hl IH]; intros Hm Hd; [exact Hm|]. cbn [app]. constructor.
  - intros H. apply in_app_iff in H as [H|H]; [exact (Hx H)|]. exact (Hd x (or_introl eq_refl) H).
  - apply IH; [exact Hm|]. intros y Hy. apply Hd. right. exact Hy.
Qed.
Lemma nodup_prod {A B} (l : list A) (m : list B) : NoDup l -> NoDup m -> NoDup (list_prod l m).
Proof.
  intros Hl Hm. induction Hl as [|x l Hx Hl IH]; [constructor|]. cbn [list_prod]. apply nodup_app; [|exact IH|].
  - apply nodup_map; [exact Hm|]. intros a b _ _ [= H]. exact H.
  - intros p Hp Hp'. apply in_map_iff in Hp as (b & <- & _). apply in_prod_iff in Hp' as [Hp' _]. exact (Hx Hp').
Qed.
Lemma lists_nodup {A} (U : list A) D : NoDup U -> NoDup (lists U D).
Proof.
  intros HU. induction D as [|D IH]; [constructor; [intros []|constructor]|]. cbn [lists].
  revert IH. generalize (lists U D). intros l Hl. induction HU as [|x U Hx HU IHU]; [constructor|]. cbn [flat_map]. apply nodup_app; [|exact IHU|].
  - apply nodup_map; [exact Hl|]. intros a b _ _ [= H]. exact H.
  - intros p Hp Hp'. apply in_map_iff in Hp as (b & <- & _). apply in_flat_map in Hp' as (y & Hy & Hp').
    apply in_map_iff in Hp' as (b' & [= -> _] & _). exact (Hx Hy).
Qed.

(** With enough values of the hash. *)
Lemma overheard_enough {E : Ext} (L : ExtLaws E) (o : impostor) (q h N K M : nat)
    (wins : list (scalar * scalar * scalar * list (scalar * scalar * ir_Scalars) * list show_coins * list scalar)) :
  (h + N + 2 * K <= M)%nat ->
  impostor_within q h o ->
  NoDup wins ->
  (forall t x0 x1 coins shows values, In (t, x0, x1, coins, shows, values) wins ->
     canonical t /\ t <> 0 /\ canonical x0 /\ canonical x1 /\
     List.length coins = N /\ coins_canonical coins /\ List.length shows = K /\ shows_canonical shows /\
     List.length values = M /\ Forall canonical values /\
     @game_overhearing E o t x0 x1 coins shows values = true) ->
  Z.of_nat (List.length wins) * ell <=
    (2 * Z.of_nat q + 3 * Z.of_nat (h + N + 2 * K) ^ 2) * ell ^ (3 + 6 * Z.of_nat N + 9 * Z.of_nat K + Z.of_nat M).
Proof.
  intros HM Hq Hnd Hw. pose proof ell_pos as Hell.
  destruct (range_exists ell ltac:(lia)) as (R & R1 & R2 & R3).
  set (n := (3 + 2 * N + 3 * K)%nat). set (M' := (M + 4 * N + 6 * K)%nat).
  pose proof (few_sim L R R1 R2 R3 N K q h o Hq [] [] M' ltac:(split; cbn; lia) ltac:(constructor)) as Hb. fold n in Hb.
  assert (HB : bound q (left N K [] h) (List.length (@nil (list pexp * Z))) * full n M' =
    (2 * Z.of_nat q + 3 * Z.of_nat (h + N + 2 * K) ^ 2) * ell ^ (3 + 6 * Z.of_nat N + 9 * Z.of_nat K + Z.of_nat M)).
  { unfold bound, full, left. cbn [asked_of seen_of List.length]. rewrite !Nat.sub_0_r, Z.pow_2_r.
    replace (3 + 6 * Z.of_nat N + 9 * Z.of_nat K + Z.of_nat M) with (Z.of_nat M' + Z.of_nat n) by (unfold M', n; lia).
    rewrite Z.pow_add_r by lia. ring. }
  rewrite HB in Hb. etransitivity; [|exact Hb]. apply Z.mul_le_mono_nonneg_r; [lia|]. unfold count. apply inj_le.
  set (f := fun w : scalar * scalar * scalar * list (scalar * scalar * ir_Scalars) * list show_coins * list scalar =>
    let '(t, x0, x1, coins, shows, values) := w in
    (trace (E := E) t x0 x1 coins shows [] values o (public_points {| sk_x0 := x0; sk_xn := [x1] |} (params_at t)), flatten4 t x0 x1 coins shows)).
  rewrite <- (map_length f). apply NoDup_incl_length.
  - apply nodup_map; [exact Hnd|]. intros [[[[[t x0] x1] coins] shows] values] [[[[[t' x0'] x1'] coins'] shows'] values'] Hi Hi' He.
    apply Hw in Hi as (_ & _ & _ & _ & Hn & Hc & Hk & Hs & Hm & _). apply Hw in Hi' as (_ & _ & _ & _ & Hn' & Hc' & Hk' & Hs' & Hm' & _).
    unfold f, flatten4 in He. apply pair_equal_spec in He as [Htr He]. injection He as -> -> -> He.
    apply app_inj in He as [He1 He2]; [|rewrite !flat_length, !map_length; congruence].
    apply (f_equal pairs) in He1. rewrite !flat_pairs in He1. apply (f_equal triples) in He2. rewrite !flat_triples in He2.
    destruct (trace_inj t' x0' x1' o coins coins' shows shows' [] values values' _ He1 He2 ltac:(congruence)
      (coins_canonical_ok _ Hc) (coins_canonical_ok _ Hc') (shows_canonical_ok _ Hs) (shows_canonical_ok _ Hs') Htr) as (-> & -> & ->). reflexivity.
  - intros p Hp. apply in_map_iff in Hp as ([[[[[t x0] x1] coins] shows] values] & <- & Hin).
    apply Hw in Hin as (Ct & Ht & C0 & C1 & Hn & Hc & Hk & Hs & Hm & Hv & Hg). unfold f. apply filter_In. split.
    + unfold space. apply in_prod.
      * apply in_lists. split; [rewrite trace_length; unfold M'; unfold scalar in *; lia|].
        eapply Forall_impl; [|apply trace_canonical; [apply coins_canonical_ok; exact Hc|apply shows_canonical_ok; exact Hs|exact Hv]].
        intros x Hx. apply R2. exact Hx.
      * apply (in_tuples R R2). split; [|apply flatten4_canonical; assumption].
        unfold flatten4, n. cbn [List.length]. rewrite app_length, flat_length, flat_triples_length, !map_length. unfold show_coins, scalar in *. lia.
    + cbn [fst snd table_at map]. rewrite <- Hn, (sim_at_flat L); [|intros H; apply Ht; apply eqm_canonical; [exact Ct|lia|exact H]].
      apply (trace_wins L t x0 x1 q h o Hq); [unfold show_coins, scalar in *; lia|exact Hg].
Qed.

(** Of all logarithms [t] of [h], all keys, all coins for [N] credentials and [K]
    presentations, and all values of the hash at [M] places, at most a fraction
    [(2 * q + 3 * (h + N + 2 * K)^2) / ell] lets an adversary which makes at most
    [q] tests and hashes at most [h] times have a presentation accepted that it
    should not be able to make. *)
Theorem C81_sound : forall E, ExtLaws E -> forall (o : impostor) (q h N K M : nat)
    (wins : list (scalar * scalar * scalar * list (scalar * scalar * ir_Scalars) * list show_coins * list scalar)),
  impostor_within q h o ->
  NoDup wins ->
  (forall t x0 x1 coins shows values, In (t, x0, x1, coins, shows, values) wins ->
     canonical t /\ t <> 0 /\ canonical x0 /\ canonical x1 /\
     List.length coins = N /\ coins_canonical coins /\ List.length shows = K /\ shows_canonical shows /\
     List.length values = M /\ Forall canonical values /\
     @game_overhearing E o t x0 x1 coins shows values = true) ->
  Z.of_nat (List.length wins) * ell <=
    (2 * Z.of_nat q + 3 * Z.of_nat (h + N + 2 * K) ^ 2) * ell ^ (3 + 6 * Z.of_nat N + 9 * Z.of_nat K + Z.of_nat M).
Proof.
  intros E L o q h N K M wins Hq Hnd Hw. pose proof ell_pos as Hell.
  destruct (range_exists ell ltac:(lia)) as (R & R1 & R2 & R3).
  set (D := (h + N + 2 * K)%nat).
  (* as many further values as can be needed *)
  set (f := fun w : scalar * scalar * scalar * list (scalar * scalar * ir_Scalars) * list show_coins * list scalar * list scalar =>
    let '(t, x0, x1, coins, shows, values, more) := w in (t, x0, x1, coins, shows, (values ++ more)%list)).
  assert (Hnl : NoDup (lists R D)) by (apply lists_nodup; exact R1).
  pose proof (overheard_enough L o q h N K (M + D) (map f (list_prod wins (lists R D))) ltac:(lia) Hq) as H.
  rewrite map_length, prod_length, Nat2Z.inj_mul, lists_length, R3 in H.
  assert (Hpow : 0 < ell ^ Z.of_nat D) by (apply Z.pow_pos_nonneg; lia).
  apply (Zmult_le_reg_r _ _ (ell ^ Z.of_nat D)); [lia|]. 
  replace (3 + 6 * Z.of_nat N + 9 * Z.of_nat K + Z.of_nat (M + D)) with (3 + 6 * Z.of_nat N + 9 * Z.of_nat K + Z.of_nat M + Z.of_nat D) in H by lia.
  rewrite Z.pow_add_r, Z.mul_assoc in H by lia.
  replace (Z.of_nat (List.length wins) * ell * ell ^ Z.of_nat D) with (Z.of_nat (List.length wins) * ell ^ Z.of_nat D * ell) by ring.
  apply H; clear H.
  - apply nodup_map; [apply nodup_prod; assumption|].
    intros [[[[[[t x0] x1] coins] shows] values] more] [[[[[[t' x0'] x1'] coins'] shows'] values'] more'] Hi Hi' He.
    apply in_prod_iff in Hi as [Hi Hm], Hi' as [Hi' Hm']. apply Hw in Hi, Hi'. unfold f in He. injection He as -> -> -> -> -> He.
    apply app_inj in He as [-> ->]; [reflexivity|]. destruct Hi as (_ & _ & _ & _ & _ & _ & _ & _ & Hl & _), Hi' as (_ & _ & _ & _ & _ & _ & _ & _ & Hl' & _). congruence.
  - intros t x0 x1 coins shows all Hin. apply in_map_iff in Hin as ([[[[[[t' x0'] x1'] coins'] shows'] values] more] & He & Hin).
    unfold f in He. injection He as -> -> -> -> -> <-. apply in_prod_iff in Hin as [Hin Hm]. apply in_lists in Hm as [Hml Hmc].
    apply Hw in Hin as (Ct & Ht & C0 & C1 & Hn & Hc & Hk & Hs & Hm & Hv & Hg).
    repeat (split; [assumption|]). split; [rewrite app_length; unfold scalar in *; lia|]. split.
    + apply Forall_app. split; [exact Hv|]. eapply Forall_impl; [|exact Hmc]. intros x Hx. apply R2. exact Hx.
    + apply wins_more. exact Hg.
Qed.
Print Assumptions C81_sound.

(** [signal_show], with the scalars of its proofs. *)
Lemma signal_show_drawn {E : Ext} (u : SignalUser E) c m0 ms X0 Xs entry (r os : rng) :
  us_credential (su_user u) = Some c -> cr_attributes c = m0 :: ms ->
  pk_Xn (us_issuer_parameters (su_user u)) = X0 :: Xs ->
  let params := us_system_parameters (su_user u) in
  let z0 := fst (scalar_random r) in
  let cs := @show_csprng E (snd (scalar_random r)) in
  let rr := fst (scalar_random cs) in
  let zQ := fst (scalar_random (snd (scalar_random cs))) in
  let p := shown_publics params X0 c m0 z0 rr zQ in
  let q := roster_publics params (smul rr (tag_nonce (cr_mac c)))
             (padd (smul m0 (smul rr (tag_nonce (cr_mac c)))) (smul z0 (sp_h params))) (re_commitment entry) in
  let s := {| ces_m0 := m0; ces_z0 := z0; ces_z1 := re_opening entry |} in
  let rand := fst (@vc_randomness E (vc_create_absorb show_transcript p) (shown_secrets m0 z0 zQ) os) in
  let rand' := fst (@ce_randomness E (ce_create_absorb roster_transcript q) s (snd (vc_create show_transcript p (shown_secrets m0 z0 zQ) os))) in
  exists r' os', signal_show u r os entry =
    Ok ({| sc_roster_entry_commitment := re_commitment entry;
           sc_presentation := shown params X0 c m0 z0 rr zQ rand;
           sc_roster_membership_proof := ce_create_with (ce_create_absorb roster_transcript q) q s rand' |}, r', os').
Proof.
  intros Hc Ha HX. cbv zeta. unfold signal_show. rewrite Hc. cbn [ok_or bind].
  unfold nonces_new, NUMBER_OF_ATTRIBUTES. cbn [scalars_random].
  destruct (scalar_random r) as [z0 r1]. cbn [fst snd].
  pose proof (show_ok (su_user u) c m0 ms X0 Xs z0 r1 os Hc Ha HX) as Hs. cbv zeta in Hs.
  rewrite Hs. cbn [bind].
  unfold roster_statement. rewrite Ha. unfold index. cbn [nth_error or_panic bind shown pr_attributes_blinded pr_rerandomized_nonce].
  change (transcript_new "SIGNAL GROUP MEMBERSHIP") with roster_transcript.
  match goal with |- context [ce_create ?a ?b ?d ?e] => pose proof (ce_create_some_rand a b d e) as Hr;
    destruct (ce_create a b d e) as [pf os2]; cbn [fst] in Hr end.
  rewrite Hr. eexists _, _. reflexivity.
Qed.
Lemma vc_randomness_canonical {E : Ext} t s os : vc_canonical (fst (@vc_randomness E t s os)).
Proof.
  unfold vc_randomness. destruct (reseed _ _ os) as [r0 os0].
  pose proof (scalar_random_canonical r0) as C1. destruct (scalar_random r0) as [a1 r1].
  pose proof (scalar_random_canonical r1) as C2. destruct (scalar_random r1) as [a2 r2].
  pose proof (scalar_random_canonical r2) as C3. destruct (scalar_random r2) as [a3 r3].
  cbn [fst] in *. repeat split; first [apply C1|apply C2|apply C3].
Qed.
Lemma ce_randomness_canonical {E : Ext} t s os : ce_canonical (fst (@ce_randomness E t s os)).
Proof.
  unfold ce_randomness. destruct (reseed _ _ os) as [r0 os0].
  pose proof (scalar_random_canonical r0) as C1. destruct (scalar_random r0) as [a1 r1].
  pose proof (scalar_random_canonical r1) as C2. destruct (scalar_random r1) as [a2 r2].
  pose proof (scalar_random_canonical r2) as C3. destruct (scalar_random r2) as [a3 r3].
  cbn [fst] in *. repeat split; first [apply C1|apply C2|apply C3].
Qed.

(** What is overheard is what [SignalUser::show] sends (signal-credential/src/
    signal-credential/src/user.rs:99-140), for a valid credential and an entry for its number.  The
    logarithm of the nonce is that of the credential's times the scalar [rr]; the
    scalars of the proofs are those drawn from the transcripts. *)
Theorem C81_overheard_is_show : forall E, ExtLaws E -> forall (i : Issuer E) (u : SignalUser E) c n entry (r os : rng) p r' os' x0 x1 t,
  kp_secret (iss_keypair i) = {| sk_x0 := x0; sk_xn := [x1] |} -> consistent i -> iss_system_parameters i = params_at t ->
  user_of i (su_user u) -> us_credential (su_user u) = Some c -> valid_credential i c n ->
  re_commitment entry = padd (smul n (sp_h (params_at t))) (smul (re_opening entry) (sp_g (params_at t))) ->
  signal_show u r os entry = Ok (p, r', os') ->
  exists b tag,
    let z := fst (scalar_random r) in
    let rr := fst (scalar_random (@show_csprng E (snd (scalar_random r)))) in
    let zQ := fst (scalar_random (snd (scalar_random (@show_csprng E (snd (scalar_random r)))))) in
    let P := tag_nonce tag in
    let Q := commitment_to (tag_mac tag) zQ (sp_h (params_at t)) in
    let C := commitment_to (smul n P) z (sp_h (params_at t)) in
    let s := sighting_publics t x0 x1 P Q C in
    let s' := sighting_entry t P C n (re_opening entry) in
    let a := {| vcs_m0 := n; vcs_z0 := z; vcs_minus_zQ := s_neg zQ |} in
    let a' := {| ces_m0 := n; ces_z0 := z; ces_z1 := re_opening entry |} in
    let v := fst (@vc_randomness E (vc_create_absorb show_transcript s) a os) in
    let w := fst (@ce_randomness E (ce_create_absorb roster_transcript s') a' (snd (vc_create show_transcript s a os))) in
    let h := @challenge_of E (extend show_transcript (vc_messages s (vc_image s v))) in
    let h' := @challenge_of E (extend roster_transcript (ce_messages s' (ce_image s' w))) in
    tag_nonce (cr_mac c) = smul b basepoint /\
    mac_with {| sk_x0 := x0; sk_xn := [x1] |} [n] ((rr * b) mod ell) = Ok tag /\
    shows_canonical [(((rr * b) mod ell, z, zQ), (v, w))] /\
    p = {| sc_roster_entry_commitment := cep_Cm1 s';
           sc_presentation := {|
             pr_rerandomized_mac_commitment := Q; pr_rerandomized_nonce := P; pr_attributes_revealed := []; pr_attributes_blinded := [C];
             pr_proof := {| vc_challenge := h; vc_responses := vc_respond h a v |} |};
           sc_roster_membership_proof := {| ce_challenge := h'; ce_responses := ce_respond h' a' w |} |}.
Proof.
  intros E L i u c n entry r os p r' os' x0 x1 t Hk Hcons Hp [Hup Huk] Hc [Ha He] Hent H.
  assert (Hx : sk_xn (kp_secret (iss_keypair i)) = [x1]) by (rewrite Hk; reflexivity).
  pose proof (consistent_single i x1 Hcons Hx) as HX. rewrite Hp in HX.
  assert (HX' : pk_Xn (us_issuer_parameters (su_user u)) = [smul x1 (sp_h (params_at t))]) by (rewrite Huk; exact HX).
  destruct (signal_show_drawn u c n [] _ [] entry r os Hc Ha HX') as (r1 & os1 & Hsh).
  rewrite H in Hsh. apply ok3 in Hsh as [Hpp _]. rewrite Hup, Hp in Hpp. clear H.
  pose proof (scalar_random_canonical r) as Cz. pose proof (scalar_random_canonical (snd (scalar_random (@show_csprng E (snd (scalar_random r)))))) as CQ.
  set (z := fst (scalar_random r)) in *. set (rr := fst (scalar_random (show_csprng (snd (scalar_random r))))) in *.
  set (zQ := fst (scalar_random (snd (scalar_random (show_csprng (snd (scalar_random r))))))) in *.
  destruct (basepoint_generates E L (tag_nonce (cr_mac c))) as [b Hb].
  destruct (mac_one (E := E) x0 x1 n ((rr * b) mod ell)) as [tag Ht].
  pose proof (mac_with_spec L _ _ _ _ Ht) as (HtP & _ & HtQ). cbn [sk_x0 sk_xn dot] in HtQ.
  assert (HP : smul rr (tag_nonce (cr_mac c)) = tag_nonce tag).
  { rewrite HtP, Hb, <- (smul_mul L). apply (smul_base_iff L). symmetry. apply eqm_mod. }
  assert (HQ : smul rr (tag_mac (cr_mac c)) = tag_mac tag).
  { rewrite HtQ. rewrite <- HP. destruct He as [_ He]. rewrite Hk in He. cbn [sk_x0 sk_xn dot] in He. rewrite He.
    generalize (tag_nonce (cr_mac c)). intros P. clear - L. dlogs L. to_base L. apply (smul_base_iff L). apply eqm_of_eq. zring. }
  exists b, tag. cbv zeta.
  set (P := tag_nonce tag) in *. set (Q := commitment_to (tag_mac tag) zQ (sp_h (params_at t))).
  set (C := commitment_to (smul n P) z (sp_h (params_at t))).
  set (s := sighting_publics t x0 x1 P Q C). set (s' := sighting_entry t P C n (re_opening entry)).
  assert (Hs : shown_publics (params_at t) (smul x1 (sp_h (params_at t))) c n z rr zQ = s).
  { unfold shown_publics, s, sighting_publics, presentation_publics. rewrite HP. fold P. change (padd (smul n P) (smul z (sp_h (params_at t)))) with C.
    f_equal. unfold Q, C, commitment_to. rewrite HtQ. fold P. cbn [params_at sp_h]. clear - L. generalize P. intros P0. dlogs L. to_base L.
    rewrite (padd_zero E L) || idtac. to_base L. apply (smul_base_iff L). apply eqm_of_eq. zring. }
  assert (Hs' : roster_publics (params_at t) (smul rr (tag_nonce (cr_mac c)))
    (padd (smul n (smul rr (tag_nonce (cr_mac c)))) (smul z (sp_h (params_at t)))) (re_commitment entry) = s').
  { rewrite HP, Hent. reflexivity. }
  unfold shown in Hpp. rewrite Hs, Hs', HP, HQ in Hpp. unfold shown_secrets in Hpp.
  rewrite (vc_create_with_eq L), (ce_create_with_eq L) in Hpp. cbv zeta in Hpp.
  split; [exact Hb|]. split; [exact Ht|]. split.
  - constructor; [|constructor]. split; [apply mod_range|]. split; [exact Cz|]. split; [exact CQ|].
    split; [apply vc_randomness_canonical|apply ce_randomness_canonical].
  - rewrite Hpp. rewrite Hent. reflexivity.
Qed.
Print Assumptions C81_overheard_is_show.
(** All nonces are equally likely: for a credential whose nonce is not the
    identity there is one [rr] for each. *)
Theorem C81_nonce_uniform : forall E, ExtLaws E -> forall (P : point E) b' , P <> pzero -> canonical b' ->
  exists! rr, canonical rr /\ smul rr P = smul b' basepoint.
Proof.
  intros E L P b' HP Hb'. destruct (basepoint_generates E L P) as [b ->].
  assert (Hb : ~ b == 0). { intros H. apply HP. apply (smul_zero_iff L); [apply (basepoint_nonzero E L)|exact H]. }
  exists ((b' * s_inv b) mod ell). split.
  - split; [apply mod_range|]. rewrite <- (smul_mul L). apply (smul_base_iff L). rewrite eqm_mod.
    transitivity (b' * (s_inv b * b)); [apply eqm_of_eq; ring|]. rewrite (s_inv_spec b Hb). apply eqm_of_eq; ring.
  - intros rr [Hr He]. rewrite <- (smul_mul L) in He. apply (smul_base_iff L) in He. apply eqm_canonical; [apply mod_range|exact Hr|].
    rewrite eqm_mod, <- He. transitivity (rr * (s_inv b * b)); [apply eqm_of_eq; ring|]. rewrite (s_inv_spec b Hb). apply eqm_of_eq; ring.
Qed.
Print Assumptions C81_nonce_uniform.

(** The three transcripts that are hashed are never the same. *)
Theorem C81_transcripts_apart : forall E, ExtLaws E -> forall (p : ir_Publics E) c,
  (forall (p' : vc_Publics E) c', extend issuance_transcript (ir_messages p c) <> extend show_transcript (vc_messages p' c')) /\
  (forall (p' : ce_Publics E) c', extend issuance_transcript (ir_messages p c) <> extend roster_transcript (ce_messages p' c')).
Proof.
  intros E L p c. destruct (ir_messages_last p c) as (l & b & Hl). split; intros p' c' H.
  - destruct (vc_messages_last p' c') as (l' & b' & Hl'). rewrite Hl, Hl' in H. revert H. apply extend_last_neq. discriminate.
  - destruct (ce_messages_last p' c') as (l' & b' & Hl'). rewrite Hl, Hl' in H. revert H. apply extend_last_neq. discriminate.
Qed.
Print Assumptions C81_transcripts_apart.

(** What the adversary holds after the first presentation. *)
Lemma held_first {E : Ext} (k : SecretKey) (params : SystemParameters E) x1 P Q C : sk_xn k = [x1] ->
  (public_points k params ++ [P; Q; C] = [basepoint; sp_g params; sp_h params; smul x1 (sp_h params); P; Q; C])%list.
Proof. intros H. unfold public_points, get_public_key. rewrite H. reflexivity. Qed.

(** Copies are accepted: nothing in a presentation is new to whoever gets it. *)
Definition replay (n r : scalar) (next : bool -> bool -> impostor) : impostor :=
  IOverhear n r (fun pf pf' => IShow (at_place 4 1) (at_place 5 1) (at_place 6 1) pf n r pf' next).
Theorem C81_replay_refuted : forall E, ExtLaws E -> forall t x0 x1 n r b z zQ v w c c' values,
  exists table held seen, forall next,
    @game_overhearing E (replay n r next) t x0 x1 [] [((b, z, zQ), (v, w))] (c :: c' :: values) =
    impersonates (E := E) t x0 x1 [] [] table values (next true true) held [] seen.
Proof.
  intros E L t x0 x1 n r b z zQ v w c c' values.
  destruct (mac_one (E := E) x0 x1 n b) as [tag Ht].
  destruct (overheard_relation L t x0 x1 n r b z zQ tag Ht) as [Hvc Hce]. cbv zeta in Hvc, Hce.
  set (P := tag_nonce tag) in *. set (Q := commitment_to (tag_mac tag) zQ (sp_h (params_at t))) in *.
  set (C := commitment_to (smul n P) z (sp_h (params_at t))) in *.
  set (p := sighting_publics t x0 x1 P Q C) in *. set (p' := sighting_entry t P C n r) in *.
  set (u := show_points p (vc_image p v)). set (u' := member_points p' (ce_image p' w)).
  pose (pf := {| vc_challenge := c; vc_responses := vc_respond c {| vcs_m0 := n; vcs_z0 := z; vcs_minus_zQ := s_neg zQ |} v |}).
  pose (pf' := {| ce_challenge := c'; ce_responses := ce_respond c' {| ces_m0 := n; ces_z0 := z; ces_z1 := r |} w |}).
  exists [(u', c'); (u, c)], (public_points {| sk_x0 := x0; sk_xn := [x1] |} (params_at t) ++ [P; Q; C])%list,
    [{| sg_nonce := P; sg_mac := Q; sg_blinded := C; sg_proof := pf; sg_number := n; sg_opening := r; sg_membership := pf' |}].
  intros next. unfold game_overhearing, replay. cbn [impersonates]. rewrite Ht. cbv zeta. fold P Q C. fold p p'. fold u u'.
  assert (N1 : points_eqb u u' = false /\ points_eqb u' u = false).
  { split; apply Bool.not_true_iff_false; intros H; apply (points_eqb_iff L) in H; discriminate (f_equal (@List.length _) H). }
  assert (N2 : points_eqb u u = true /\ points_eqb u' u' = true) by (split; apply (points_eqb_iff L); reflexivity).
  destruct N1 as [N1 N1'], N2 as [N2 N2'].
  change (hash [] (c :: c' :: values) u) with (Some (c, [(u, c)], c' :: values)). cbv iota beta.
  assert (Hh : hash [(u, c)] (c' :: values) u' = Some (c', [(u', c'); (u, c)], values)).
  { unfold hash. cbn [find fst]. rewrite N1. reflexivity. }
  rewrite Hh. cbv iota beta. fold pf pf'.
  set (held := (_ ++ [P; Q; C])%list).
  assert (Hheld : held = [basepoint; basepoint; smul t basepoint; smul x1 (smul t basepoint); P; Q; C]) by (apply held_first; reflexivity).
  assert (HcP : combination (at_place 4 1) held = P).
  { rewrite <- (smul_1 P). apply (combination_at L). rewrite Hheld. reflexivity. }
  assert (HcQ : combination (at_place 5 1) held = Q).
  { rewrite <- (smul_1 Q). apply (combination_at L). rewrite Hheld. reflexivity. }
  assert (HcC : combination (at_place 6 1) held = C).
  { rewrite <- (smul_1 C). apply (combination_at L). rewrite Hheld. reflexivity. }
  cbn [sg_nonce sg_mac sg_blinded]. rewrite HcP, HcQ, HcC. fold p p'.
  assert (Hu : show_points p (vc_recompute pf p) = u) by (unfold u; rewrite <- (vc_recompute_spec L p _ v c Hvc); reflexivity).
  assert (Hu' : member_points p' (ce_recompute pf' p') = u') by (unfold u'; rewrite <- (ce_recompute_spec L p' _ w c' Hce); reflexivity).
  rewrite Hu, Hu'. unfold hash. cbn [find fst snd]. rewrite N1', N2. cbn [snd]. cbv iota beta. cbn [find fst snd]. rewrite N2'. cbn [snd]. cbv iota beta.
  assert (HPP : forall X : point E, peqb X X = true) by (intros X; apply (peqb_true L); reflexivity).
  assert (Hs : forall s : sighting E, same_sighting s s = true /\ same_shown s s = true).
  { intros s. unfold same_sighting, same_shown, same_scalar. rewrite !HPP, !Z.eqb_refl. auto. }
  cbn [app existsb]. rewrite (proj1 (Hs _)), (proj2 (Hs _)). unfold scalar_eqb, pf, pf'. cbn [vc_challenge ce_challenge]. rewrite !Z.eqb_refl.
  cbn [orb negb]. rewrite !Bool.andb_false_r. cbn [orb]. rewrite ?Bool.andb_false_r. reflexivity.
Qed.
Print Assumptions C81_replay_refuted.

(** Whoever learns the scalar that hides the tag has the credential. *)
Definition thief (zQ n r : scalar) : impostor :=
  IOverhear n r (fun _ _ =>
    IHash [[1]; at_place 2 1; at_place 3 1; at_place 4 2; []; at_place 4 (n * 2); []; []] (fun c =>
    IHash [[1]; at_place 2 1; at_place 4 2; at_place 4 (n * 2); add_comb (at_place 2 n) [r]; []; []] (fun c' =>
      IShow (at_place 4 2) (add_comb (at_place 5 2) (at_place 2 (-2 * zQ))) (at_place 4 (n * 2))
        {| vc_challenge := c; vc_responses := {| vcs_m0 := c * n; vcs_z0 := 0; vcs_minus_zQ := 0 |} |} n r
        {| ce_challenge := c'; ce_responses := {| ces_m0 := c' * n; ces_z0 := 0; ces_z1 := c' * r |} |}
        (fun _ _ => IStop)))).
Theorem C81_known_scalar_refuted : forall E, ExtLaws E -> forall t x0 x1 n r b z zQ v w c c' d d' values,
  ~ b == 0 ->
  impostor_within 0 4 (thief zQ n r) /\
  @game_overhearing E (thief zQ n r) t x0 x1 [] [((b, z, zQ), (v, w))] (c :: c' :: d :: d' :: values) = true.
Proof.
  intros E L t x0 x1 n r b z zQ v w c c' d d' values Hb. split; [repeat constructor|].
  destruct (mac_one (E := E) x0 x1 n b) as [tag Ht].
  pose proof (mac_with_spec L _ _ _ _ Ht) as (HP & _ & HQ). cbn [sk_x0 sk_xn dot] in HQ. rewrite HP in HQ.
  set (P := tag_nonce tag) in *. set (Q := commitment_to (tag_mac tag) zQ (sp_h (params_at t))) in *.
  set (C := commitment_to (smul n P) z (sp_h (params_at t))) in *.
  set (p := sighting_publics t x0 x1 P Q C) in *. set (p' := sighting_entry t P C n r) in *.
  set (u := show_points p (vc_image p v)). set (u' := member_points p' (ce_image p' w)).
  unfold game_overhearing, thief. cbn [impersonates]. rewrite Ht. cbv zeta. fold P Q C. fold p p'. fold u u'.
  assert (Hlen : forall a a' : list (point E), List.length a <> List.length a' -> points_eqb a a' = false).
  { intros a a' H. apply Bool.not_true_iff_false. intros H'. apply (points_eqb_iff L) in H'. apply H. congruence. }
  change (hash [] (c :: c' :: d :: d' :: values) u) with (Some (c, [(u, c)], c' :: d :: d' :: values)). cbv iota beta.
  assert (Hh : hash [(u, c)] (c' :: d :: d' :: values) u' = Some (c', [(u', c'); (u, c)], d :: d' :: values)).
  { unfold hash. cbn [find fst]. rewrite Hlen by discriminate. reflexivity. }
  rewrite Hh. cbv iota beta.
  set (held := (_ ++ [P; Q; C])%list).
  assert (Hheld : held = [basepoint; basepoint; smul t basepoint; smul x1 (smul t basepoint); P; Q; C]) by (apply held_first; reflexivity).
  assert (Hat : forall j a X, nth_error held j = Some X -> combination (at_place j a) held = smul a X).
  { intros j a X Hj. apply (combination_at L). exact Hj. }
  rewrite Hheld in Hat.
  assert (H1 : combination [1] held = basepoint) by (rewrite <- (smul_1 basepoint), Hheld; exact (Hat 0%nat 1 _ eq_refl)).
  assert (Hr : combination [r] held = smul r basepoint) by (rewrite Hheld; exact (Hat 0%nat r _ eq_refl)).
  assert (Hnil : combination [] held = pzero) by apply (combination_nil L).
  rewrite <- Hheld in Hat.
  assert (H2 : forall a, combination (at_place 2 a) held = smul a (smul t basepoint)) by (intros a; apply Hat; rewrite Hheld; reflexivity).
  assert (H3 : forall a, combination (at_place 3 a) held = smul a (smul x1 (smul t basepoint))) by (intros a; apply Hat; rewrite Hheld; reflexivity).
  assert (H4 : forall a, combination (at_place 4 a) held = smul a P) by (intros a; apply Hat; rewrite Hheld; reflexivity).
  assert (H5 : forall a, combination (at_place 5 a) held = smul a Q) by (intros a; apply Hat; rewrite Hheld; reflexivity).
  cbn [map]. rewrite !(combination_add L), H1, Hr, Hnil, !H2, !H3, !H4, !H5.
  set (U := [basepoint; smul 1 (smul t basepoint); smul 1 (smul x1 (smul t basepoint)); smul 2 P; pzero; smul (n * 2) P; pzero; pzero]).
  set (U' := [basepoint; smul 1 (smul t basepoint); smul 2 P; smul (n * 2) P; padd (smul n (smul t basepoint)) (smul r basepoint); pzero; pzero]).
  assert (HPne : smul 2 P <> P).
  { rewrite HP. intros H. rewrite <- (smul_mul L) in H. apply (smul_base_iff L) in H. apply Hb. apply eqm_sub_0 in H.
    etransitivity; [|exact H]. apply eqm_of_eq; ring. }
  assert (HP0 : smul 2 P <> pzero).
  { rewrite HP, <- (smul_mul L). intros H. apply (smul_zero_iff L) in H; [|apply (basepoint_nonzero E L)].
    apply eqm_mul_0 in H as [H|H]; [|exact (Hb H)]. pose proof two_lt_ell. apply eqm_canonical in H; lia. }
  assert (NU : points_eqb u U = false).
  { apply Bool.not_true_iff_false. intros H. apply (points_eqb_iff L) in H. apply HPne. symmetry. exact (f_equal (fun l => nth 3 l pzero) H). }
  assert (NU' : points_eqb u' U' = false).
  { apply Bool.not_true_iff_false. intros H. apply (points_eqb_iff L) in H. apply HPne. symmetry. exact (f_equal (fun l => nth 2 l pzero) H). }
  assert (Hh1 : hash [(u', c'); (u, c)] (d :: d' :: values) U = Some (d, [(U, d); (u', c'); (u, c)], d' :: values)).
  { unfold hash. cbn [find fst]. rewrite (Hlen u' U) by discriminate. rewrite NU. reflexivity. }
  rewrite Hh1. cbv iota beta.
  assert (Hh2 : hash [(U, d); (u', c'); (u, c)] (d' :: values) U' = Some (d', [(U', d'); (U, d); (u', c'); (u, c)], values)).
  { unfold hash. cbn [find fst]. rewrite (Hlen U U') by discriminate. rewrite NU', (Hlen u U') by discriminate. reflexivity. }
  rewrite Hh2. cbv iota beta. cbn [sg_nonce sg_mac sg_blinded].
  set (q := sighting_publics t x0 x1 _ _ _). set (q' := sighting_entry t _ _ _ _).
  match goal with |- context [show_points q (vc_recompute ?a q)] => set (pf := a) end.
  match goal with |- context [member_points q' (ce_recompute ?a q')] => set (pf' := a) end.
  assert (HU : show_points q (vc_recompute pf q) = U).
  { unfold show_points, vc_recompute, q, pf, sighting_publics, presentation_publics, params_at, U, Q, commitment_to.
    cbn [vcp_B vcp_A vcp_X0 vcp_P vcp_V vcp_Cm0 vcc_Cm0 vcc_V sp_g sp_h multiscalar_mul vc_responses vc_challenge vcs_m0 vcs_z0 vcs_minus_zQ].
    rewrite HQ, HP, !(padd_zero_r L), !smul_1. unfold s_neg. cbn [params_at sp_h]. to_base L.
    repeat (apply (f_equal2 cons); [first [reflexivity|apply (smul_base_iff L); eqm_push; apply eqm_of_eq; zring|
      apply (smul_zero_iff L); [apply (basepoint_nonzero E L)|eqm_push; apply eqm_of_eq; zring]]|]). reflexivity. }
  assert (HU' : member_points q' (ce_recompute pf' q') = U').
  { unfold member_points, ce_recompute, q', pf', sighting_entry, roster_publics, params_at, U'.
    cbn [cep_B cep_A cep_P cep_Cm0 cep_Cm1 cec_Cm0 cec_Cm1 sp_g sp_h multiscalar_mul ce_responses ce_challenge ces_m0 ces_z0 ces_z1].
    rewrite HP, !(padd_zero_r L), !smul_1. unfold s_neg. to_base L.
    repeat (apply (f_equal2 cons); [first [reflexivity|apply (smul_base_iff L); eqm_push; apply eqm_of_eq; zring|
      apply (smul_zero_iff L); [apply (basepoint_nonzero E L)|eqm_push; apply eqm_of_eq; zring]]|]). reflexivity. }
  assert (E1 : points_eqb U U = true) by (apply (points_eqb_iff L); reflexivity).
  assert (E2 : points_eqb U' U' = true) by (apply (points_eqb_iff L); reflexivity).
  rewrite HU, HU'. unfold hash. cbn [find fst snd]. rewrite (Hlen U' U), E1 by discriminate. cbn [snd]. cbv iota beta.
  cbn [find fst snd]. rewrite E2. cbn [snd]. cbv iota beta.
  assert (Hnot : forall s, sg_nonce s = P -> same_shown {| sg_nonce := smul 2 P; sg_mac := padd (smul 2 Q) (smul (-2 * zQ) (smul t basepoint));
      sg_blinded := smul (n * 2) P; sg_proof := pf; sg_number := n; sg_opening := r; sg_membership := pf' |} s = false).
  { intros s Hs. unfold same_shown. cbn [sg_nonce]. rewrite Hs, (proj2 (peqb_false L _ _) HPne). reflexivity. }
  cbn [app existsb]. unfold same_sighting. rewrite !Hnot by reflexivity. cbn [andb orb negb].
  unfold scalar_eqb, pf, pf'. cbn [vc_challenge ce_challenge]. rewrite !Z.eqb_refl, (proj2 (peqb_false L _ _) HP0). reflexivity.
Qed.
Print Assumptions C81_known_scalar_refuted.

(** A presentation made as the code makes it, with fixed scalars. *)
Definition attempt_of (cP cQ : list scalar) (m opening : scalar) (next : bool -> bool -> impostor) : impostor :=
  let cC := add_comb (scale_comb m cP) (at_place 2 3) in
  IHash [[1]; at_place 2 1; at_place 3 1; cP; add_comb (at_place 2 4) (at_place 3 3); cC;
         add_comb (scale_comb 5 cP) (at_place 2 6); add_comb (at_place 3 6) (at_place 2 7)] (fun c =>
  IHash [[1]; at_place 2 1; cP; cC; add_comb (at_place 2 m) [opening];
         add_comb (scale_comb 8 cP) (at_place 2 9); add_comb (at_place 2 8) [10]] (fun c' =>
  IShow cP (add_comb cQ (at_place 2 (-4))) cC
    {| vc_challenge := c; vc_responses := {| vcs_m0 := c * m + 5; vcs_z0 := c * 3 + 6; vcs_minus_zQ := c * 4 + 7 |} |} m opening
    {| ce_challenge := c'; ce_responses := {| ces_m0 := c' * m + 8; ces_z0 := c' * 3 + 9; ces_z1 := c' * opening + 10 |} |} next)).
(** An adversary which asks for the number 3, overhears one for the number 4, and
    guesses the key to show 9. *)
Definition eavesdropper : impostor :=
  IAsk 3 (fun _ _ => IOverhear 4 2 (fun _ _ => ITest [0; 0; 8; -1] IStop (attempt_of [2] [2 * (5 + 7 * 9)] 9 2 (fun _ _ => IStop)))).
Definition sample_coins : list (scalar * scalar * ir_Scalars) := [(11, 3, {| irs_x0 := 1; irs_x1 := 2; irs_x0_tilde := 3; irs_m1x1 := 4 |})].
Definition sample_show : show_coins :=
  ((12, 13, 14), ({| vcs_m0 := 5; vcs_z0 := 6; vcs_minus_zQ := 7 |}, {| ces_m0 := 8; ces_z0 := 9; ces_z1 := 10 |})).
Example C81_met :
  impostor_within 1 4 eavesdropper /\
  let wins := [(33, 5, 7, sample_coins, [sample_show], [40; 41; 42; 43; 44]); (34, 5, 7, sample_coins, [sample_show], [40; 41; 42; 43; 44])] in
  NoDup wins /\
  forall t x0 x1 coins shows values, In (t, x0, x1, coins, shows, values) wins ->
    canonical t /\ t <> 0 /\ canonical x0 /\ canonical x1 /\
    List.length coins = 1%nat /\ coins_canonical coins /\ List.length shows = 1%nat /\ shows_canonical shows /\
    List.length values = 5%nat /\ Forall canonical values /\
    @game_overhearing toy eavesdropper t x0 x1 coins shows values = true.
Proof.
  split; [repeat constructor|]. cbv zeta. split.
  - repeat constructor; cbn; intuition congruence.
  - pose proof ell_gt_252. intros t x0 x1 coins shows values [[= <- <- <- <- <- <-]|[[= <- <- <- <- <- <-]|[]]]; unfold canonical;
      (do 4 (split; [lia|]); split; [reflexivity|]; split; [repeat constructor; cbn; lia|]; split; [reflexivity|]; split; [repeat constructor; cbn; lia|];
       split; [reflexivity|]; split; [repeat constructor; lia|]; vm_compute; reflexivity).
Qed.
(** The same presentation is no win if the number was asked for, or if it is not
    accepted; one made from the credential that was asked for is accepted. *)
Example C81_met_honest :
  let own m next := IAsk m (fun _ _ => IOverhear 4 2 (fun _ _ => attempt_of (at_place 4 1) (at_place 5 1) m 2 next)) in
  let guess m := attempt_of [2] [2 * (5 + 7 * m)] m 2 (fun _ _ => IStop) in
  let run o := @game_overhearing toy o 33 5 7 sample_coins [sample_show] [40; 41; 42; 43; 44; 45; 46] in
  run (own 9 (fun ok member => if ok && member then guess 10 else IStop)) = true /\
  run (own 9 (fun ok member => if ok && member then guess 9 else IStop)) = false /\
  run (own 9 (fun ok member => if ok && member then guess 4 else IStop)) = true /\
  @game_overhearing toy (own 9 (fun ok member => if ok && member then guess 10 else IStop)) 33 5 8 sample_coins [sample_show] [40; 41; 42; 43; 44; 45; 46] = false /\
  (* what is overheard is of use to whoever can find its hiding scalar only *)
  @game_overhearing toy (thief 14 4 2) 33 5 7 [] [sample_show] [40; 41; 42; 43] = true /\
  @game_overhearing toy (thief 15 4 2) 33 5 7 [] [sample_show] [40; 41; 42; 43] = false.
Proof. vm_compute. auto 8. Qed.
(** A copy is accepted, but that is no win. *)
Example C81_met_replay :
  let run o := @game_overhearing toy o 33 5 7 [] [sample_show] [40; 41; 42; 43; 44; 45; 46] in
  run (replay 4 2 (fun ok member => if ok && member then attempt_of [2] [2 * (5 + 7 * 4)] 4 2 (fun _ _ => IStop) else IStop)) = true /\
  run (replay 4 2 (fun _ _ => IStop)) = false.
Proof. vm_compute. auto. Qed.
Definition overheard_user : SignalUser toy := {|
  su_phone_number := 9;
  su_user := {| us_system_parameters := params_at 33; us_issuer_parameters := kp_public (iss_keypair presenting_issuer); us_key := None;
                us_credential := Some {| cr_mac := {| tag_nonce := smul 11 basepoint; tag_mac := smul (5 + dot [7] [9]) (smul 11 basepoint) |};
                                         cr_attributes := [9] |} |} |}.
Example C81_met_show :
  let entry := {| re_commitment := padd (smul 9 (sp_h (params_at 33))) (smul 2 (sp_g (params_at 33))); re_opening := 2 |} in
  kp_secret (iss_keypair presenting_issuer) = {| sk_x0 := 5; sk_xn := [7] |} /\ consistent presenting_issuer /\
  iss_system_parameters presenting_issuer = params_at 33 /\ user_of presenting_issuer (su_user overheard_user) /\
  (exists c, us_credential (su_user overheard_user) = Some c /\ valid_credential presenting_issuer c 9 /\ tag_nonce (cr_mac c) <> pzero) /\
  is_ok (signal_show overheard_user (toy_stream 1) (toy_stream 2) entry) = true.
Proof.
  split; [reflexivity|]. split; [repeat constructor|]. split; [reflexivity|]. split; [split; reflexivity|]. split.
  - eexists. split; [reflexivity|]. split; [split; [reflexivity|split; reflexivity]|]. cbn [cr_mac tag_nonce].
    intros H. apply (smul_zero_iff toy_laws) in H; [|apply (basepoint_nonzero toy toy_laws)]. pose proof ell_gt_252. apply eqm_canonical in H; lia.
  - vm_compute. reflexivity.
Qed.
