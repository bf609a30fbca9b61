(** That tags cannot be forged by an adversary which sees the proofs of issuance,
    the hash being a random function (C74): aeonflux/src/amacs.rs, issuer.rs and
    proofs.rs. *)
From Verif Require Import SpecOracle OracleFacts IssueFacts CreatedFacts Toy.
From Coq Require Import Setoid.
Local Open Scope Z_scope.

(** ** C74: the proofs of issuance do not help to forge tags *)

Lemma ir_Scalars_dec (a b : ir_Scalars) : {a = b} + {a <> b}.
Proof. decide equality; apply Z.eq_dec. Defined.
Lemma two_dec (a b : scalar * scalar) : {a = b} + {a <> b}.
Proof. decide equality; apply Z.eq_dec. Defined.
Lemma seen_dec (a b : list ir_Scalars * list scalar) : {a = b} + {a <> b}.
Proof. decide equality; apply list_eq_dec; [exact Z.eq_dec|exact ir_Scalars_dec]. Defined.

Lemma split_by {A} (f : A -> bool) (l : list A) :
  List.length l = (List.length (filter f l) + List.length (filter (fun a => negb (f a)) l))%nat.
Proof. induction l as [|a l IH]; [reflexivity|]. cbn [filter]. destruct (f a); cbn [negb List.length]; lia. Qed.
Lemma nodup_map {A B} (f : A -> B) l : NoDup l -> (forall a b, In a l -> In b l -> f a = f b -> a = b) -> NoDup (map f l).
Proof.
  intros H. induction H as [|a l Hn Hnd IH]; intros Hf; [constructor|]. cbn [map]. constructor.
  - intros Hin. apply in_map_iff in Hin as (b & He & Hb). apply Hn. rewrite <- (Hf b a (or_intror Hb) (or_introl eq_refl) He). exact Hb.
  - apply IH. intros b c Hb Hc. apply Hf; right; assumption.
Qed.

(** Of all keys, all coins for [N] credentials and all values of the hash at [M]
    places, at most a fraction [(3 * (q + 9 * M * h) + N * M) / ell] lets an
    adversary forge a tag which makes at most [q] tests and verifications and
    hashes at most [h] times. *)
Theorem C74_unforgeable : forall E, ExtLaws E -> forall (params : SystemParameters E) (o : observer) (q h N M : nat)
    (wins : list (scalar * scalar * list (scalar * scalar * ir_Scalars) * list scalar)),
  sp_h params <> pzero ->
  within q h o ->
  NoDup wins ->
  (forall x0 x1 coins values, In (x0, x1, coins, values) wins ->
     canonical x0 /\ canonical x1 /\
     List.length coins = N /\ Forall (fun '(b, y, r) => canonical b /\ canonical y /\ ir_canonical r) coins /\
     List.length values = M /\ Forall canonical values /\
     game_seeing params o x0 x1 coins values = true) ->
  Z.of_nat (List.length wins) * ell <=
    (3 * (Z.of_nat q + 9 * Z.of_nat M * Z.of_nat h) + Z.of_nat N * Z.of_nat M) * ell ^ (2 + 6 * Z.of_nat N + Z.of_nat M).
Proof.
  intros E L params o q h N M wins Hh Hq Hnd Hw. pose proof ell_pos as Hell.
  destruct (range_exists ell ltac:(lia)) as (R & R1 & R2 & R3).
  set (pub := fun x0 x1 => public_points {| sk_x0 := x0; sk_xn := [x1] |} params).
  set (seen := fun w : scalar * scalar * list (scalar * scalar * ir_Scalars) * list scalar => let '(x0, x1, coins, values) := w in
    watch params x0 x1 coins [] values o (pub x0 x1) []).
  set (is_hit := fun w => match seen w with None => true | Some _ => false end).
  rewrite (split_by is_hit wins), Nat2Z.inj_add, Z.mul_add_distr_r.
  assert (Hcoins : forall coins, Forall (fun '(b, y, r) => canonical b /\ canonical y /\ ir_canonical r) coins ->
    Forall (fun u => In u (all_coins R)) coins /\ Forall (fun u => ir_canonical (snd u)) coins /\
    Forall (fun c => canonical (fst c) /\ canonical (snd c)) (map fst coins)).
  { intros coins Hc. rewrite Forall_map. repeat split; eapply Forall_impl; try exact Hc; intros [[b y] r] (C1 & C2 & C3); cbn [fst snd]; auto.
    apply in_all_coins; assumption. }
  (* a proof whose points had been hashed before *)
  assert (H1 : Z.of_nat (List.length (filter is_hit wins)) * ell <=
    Z.of_nat (List.length (list_prod R R)) * (Z.of_nat N * (0 + Z.of_nat M) * (ell ^ (6 * Z.of_nat N) * ell ^ Z.of_nat M))).
  { apply (fibre_bound two_dec (fun w => fst (fst w))).
    - apply Z.mul_nonneg_nonneg; [lia|]. apply Z.mul_nonneg_nonneg; apply Z.pow_nonneg; lia.
    - intros [[[x0 x1] coins] values] Hin. apply filter_In in Hin as [Hin _]. apply Hw in Hin as (C0 & C1 & _). cbn [fst].
      apply in_prod; apply R2; assumption.
    - intros [x0 x1] _. etransitivity; [|apply (few_hits L params R R1 R2 R3 Hh x0 x1 o N M [] (pub x0 x1) [])].
      apply Z.mul_le_mono_nonneg_r; [lia|]. unfold count. apply inj_le.
      rewrite <- (map_length (fun w => (snd (fst w), snd w))). apply NoDup_incl_length.
      + apply nodup_map; [apply NoDup_filter, NoDup_filter, Hnd|].
        intros [[[a0 a1] coins] values] [[[b0 b1] coins'] values'] Ha Hb. apply in_fibre in Ha as [_ Ha], Hb as [_ Hb].
        cbn [fst snd] in *. congruence.
      + intros v Hv. apply in_map_iff in Hv as ([[[a0 a1] coins] values] & <- & Hin). apply in_fibre in Hin as [Hin He].
        cbn [fst snd] in *. injection He as -> ->. apply filter_In in Hin as [Hin Hhit]. apply Hw in Hin as (_ & _ & Hn & Hc & Hm & Hv & _).
        apply Hcoins in Hc as [Hc _]. apply filter_In. split.
        * apply in_all_pairs. split; [auto|]. split; [exact Hm|]. eapply Forall_impl; [|exact Hv]. intros x Hx. apply R2. exact Hx.
        * exact Hhit. }
  rewrite prod_length, Nat2Z.inj_mul, R3 in H1.
  (* otherwise *)
  set (responses_of := fun w => match seen w with None => [] | Some ss => ss end).
  set (S4 := map (fun v => {| irs_x0 := nth 0 v 0; irs_x1 := nth 1 v 0; irs_x0_tilde := nth 2 v 0; irs_m1x1 := nth 3 v 0 |}) (tuples R 4)).
  assert (S4_all : forall s, ir_canonical s -> In s S4).
  { intros [a b c d] (C1 & C2 & C3 & C4). apply in_map_iff. exists [a; b; c; d]. split; [reflexivity|]. apply (in_tuples R R2).
    split; [reflexivity|]. repeat (constructor; [assumption|]). constructor. }
  assert (H2 : Z.of_nat (List.length (filter (fun w => negb (is_hit w)) wins)) * ell <=
    Z.of_nat (List.length (all_pairs S4 R N M)) * (3 * (Z.of_nat q + 9 * Z.of_nat M * Z.of_nat h) * ell ^ (2 + 2 * Z.of_nat N))).
  { apply (fibre_bound seen_dec (fun w => (responses_of w, snd w))).
    - apply Z.mul_nonneg_nonneg; [lia|]. apply Z.pow_nonneg; lia.
    - intros [[[x0 x1] coins] values] Hin. apply filter_In in Hin as [Hin Hn]. cbn [snd]. unfold responses_of, is_hit in *.
      apply Hw in Hin as (_ & _ & HN & Hc & HM & Hv & _). apply Hcoins in Hc as (_ & Hc & _).
      destruct (seen (x0, x1, coins, values)) as [ss|] eqn:Hs; [|discriminate]. unfold seen in Hs.
      pose proof (watch_length params x0 x1 o _ _ _ _ _ _ Hs) as Hl. pose proof (watch_canonical params x0 x1 o _ _ _ _ _ _ Hc Hs) as Hcan.
      apply in_all_pairs. split; [split; [congruence|]|split; [exact HM|]].
      + eapply Forall_impl; [|exact Hcan]. exact S4_all.
      + eapply Forall_impl; [|exact Hv]. intros x Hx. apply R2. exact Hx.
    - intros [ss values] Hss. apply in_all_pairs in Hss as [_ [HMv _]].
      set (a := strip 4 ss values [] o).
      assert (Ha : (checks a <= q + 9 * M * h)%nat) by (apply (strip_checks q h o M Hq); cbn [List.length]; unfold scalar in *; lia).
      set (F := fibre seen_dec (fun w => (responses_of w, snd w)) (ss, values) (filter (fun w => negb (is_hit w)) wins)).
      assert (HF : forall x0 x1 coins values', In (x0, x1, coins, values') F ->
        In (x0, x1, coins, values') wins /\ values' = values /\ watch params x0 x1 coins [] values o (pub x0 x1) [] = Some ss).
      { intros x0 x1 coins values' Hin. apply in_fibre in Hin as [Hin He]. cbn [snd] in He. apply filter_In in Hin as [Hin Hn].
        assert (Hv : values' = values) by congruence. subst values'. split; [exact Hin|]. split; [reflexivity|].
        assert (Hr : responses_of (x0, x1, coins, values) = ss) by congruence. unfold responses_of, is_hit in *.
        destruct (seen (x0, x1, coins, values)) as [ss'|] eqn:Hs; [|discriminate]. unfold seen in Hs. rewrite Hs. congruence. }
      pose proof (C69_unforgeable E L params a 1 N (map (fun w => (fst (fst (fst w)), [snd (fst (fst w))], map fst (snd (fst w)))) F) Hh) as Hb.
      rewrite map_length in Hb. etransitivity; [apply Hb|].
      + apply nodup_map; [apply NoDup_filter, NoDup_filter, Hnd|].
        intros [[[a0 a1] coins] v1] [[[b0 b1] coins'] v2] H1' H2' He. apply HF in H1' as (I1 & -> & W1), H2' as (I2 & -> & W2).
        cbn [fst snd] in He. assert (a0 = b0 /\ a1 = b1 /\ map fst coins = map fst coins') as (-> & -> & Hf).
        { repeat split; congruence. }
        apply Hw in I1 as (_ & _ & _ & C1 & _), I2 as (_ & _ & _ & C2 & _).
        apply Hcoins in C1 as (_ & C1 & _), C2 as (_ & C2 & _).
        rewrite (watch_inj params b0 b1 o _ _ _ _ _ _ _ Hf C1 C2 W1 W2). reflexivity.
      + intros x0 xs cs Hin. apply in_map_iff in Hin as ([[[y0 y1] coins] v1] & He & Hin). cbn [fst snd] in He. injection He as <- <- <-.
        apply HF in Hin as (Hin & -> & Hwatch). apply Hw in Hin as (C0 & C1 & Hn & Hc & _ & _ & Hgame).
        apply Hcoins in Hc as (_ & _ & Hc). rewrite map_length.
        split; [exact C0|]. split; [reflexivity|]. split; [repeat constructor; apply C1|]. split; [exact Hn|]. split; [exact Hc|].
        unfold game_seeing in Hgame. unfold game.
        rewrite <- Hgame. symmetry.
        apply (seeing_is_nothing L params y0 y1 o coins values [] (pub y0 y1) [] ss); [|constructor|exact Hwatch].
        repeat split.
      + replace (1 + Z.of_nat 1 + 2 * Z.of_nat N) with (2 + 2 * Z.of_nat N) by lia.
        apply Z.mul_le_mono_nonneg_r; [apply Z.pow_nonneg; lia|lia]. }
  rewrite all_pairs_length in H2. unfold S4 in H2. rewrite map_length, (tuples_length R R3), R3 in H2.
  rewrite <- Z.pow_mul_r in H2 by lia.
  assert (P1 : ell ^ (2 + 6 * Z.of_nat N + Z.of_nat M) = ell * ell * (ell ^ (6 * Z.of_nat N) * ell ^ Z.of_nat M)).
  { rewrite !Z.pow_add_r by lia. ring. }
  assert (P2 : ell ^ (2 + 6 * Z.of_nat N + Z.of_nat M) = ell ^ (Z.of_nat 4 * Z.of_nat N) * ell ^ Z.of_nat M * ell ^ (2 + 2 * Z.of_nat N)).
  { rewrite <- !Z.pow_add_r by lia. f_equal. lia. }
  rewrite Z.mul_add_distr_r. rewrite Z.add_comm. apply Z.add_le_mono.
  - rewrite P2. etransitivity; [exact H2|]. apply Z.eq_le_incl. ring.
  - rewrite P1. etransitivity; [exact H1|]. apply Z.eq_le_incl. ring.
Qed.
Print Assumptions C74_unforgeable.

(** The adversary's oracle is what the issuer does: the proof in an issuance is
    the response to the hash of the nine points, the scalars being canonical. *)
Theorem C74_oracle_is_issue : forall E, ExtLaws E -> forall (i : Issuer E) rq r (os : rng) iss r' os' x0 x1,
  kp_secret (iss_keypair i) = {| sk_x0 := x0; sk_xn := [x1] |} ->
  consistent i ->
  issue i rq r os = Ok (iss, r', os') ->
  exists m rand,
    let y := fst (scalar_random (snd (scalar_random (@issue_csprng E r)))) in
    let p := issued_statement x0 x1 (iss_system_parameters i) (cr_mac (is_credential iss)) y in
    let s := issued_secrets x0 x1 m y in
    let c := @challenge_of E (extend issuance_transcript (ir_messages p (ir_image p rand))) in
    rq_attributes_revealed rq = [m] /\
    ir_canonical rand /\ rand = fst (@ir_randomness E (ir_create_absorb issuance_transcript p) s os) /\
    is_proof iss = {| ir_challenge := c; ir_responses := respond c s rand |}.
Proof.
  intros E L i rq r os iss r' os' x0 x1 Hk Hp H.
  pose proof (issue_inv L _ _ _ _ _ _ _ H) as (X1 & Xs & x1' & xs & m1 & ms & _ & _ & _ & HX & Hx & Hm & Hl & _).
  rewrite Hk in Hx. cbn [sk_xn] in Hx. injection Hx as <- <-. destruct ms as [|? ?]; [|discriminate].
  assert (HX1 : X1 = smul x1 (sp_h (iss_system_parameters i)) /\ Xs = []).
  { unfold consistent, key_matches in Hp. rewrite Hk, HX in Hp. cbn [sk_xn] in Hp.
    inversion Hp as [|? ? ? ? H1 H2]; subst. inversion H2; subst. auto. }
  destruct HX1 as [-> ->].
  destruct (issue_ok L i rq r os _ [] x1 [] m1 [] HX ltac:(rewrite Hk; reflexivity) Hm eq_refl) as (tag & x0t & He & Hn & Hy & Hi).
  cbv zeta in Hi. rewrite H in Hi. apply ok3 in Hi as (-> & _ & _). cbn [is_credential cr_mac is_proof]. rewrite Hk in *. cbn [sk_x0] in *.
  set (y := fst (scalar_random (snd (scalar_random (issue_csprng r))))) in *. subst x0t.
  set (p := issued_statement x0 x1 (iss_system_parameters i) tag y).
  match goal with |- context [ir_create issuance_transcript ?q ?s os] => change q with p; set (s' := s) end.
  exists m1, (fst (@ir_randomness E (ir_create_absorb issuance_transcript p) s' os)). cbv zeta. fold p.
  split; [exact Hm|]. split; [|split; [reflexivity|]].
  - unfold ir_randomness. destruct (reseed _ _ os) as [r0 os0].
    pose proof (scalar_random_canonical r0) as C1. destruct (scalar_random r0) as [a1 r1].
    pose proof (scalar_random_canonical r1) as C2. destruct (scalar_random r1) as [a2 r2].
    pose proof (scalar_random_canonical r2) as C3. destruct (scalar_random r2) as [a3 r3].
    pose proof (scalar_random_canonical r3) as C4. destruct (scalar_random r3) as [a4 r4].
    cbn [fst] in *. repeat split; first [apply C1|apply C2|apply C3|apply C4].
  - unfold ir_create. destruct (ir_randomness (ir_create_absorb issuance_transcript p) s' os) as [rand os1]. cbn [fst].
    rewrite (ir_create_with_eq L). reflexivity.
Qed.
Print Assumptions C74_oracle_is_issue.

(** The hash is of the points: two transcripts are the same exactly if the nine
    points are. *)
Theorem C74_hash_of_points : forall E, ExtLaws E -> forall t (p p' : ir_Publics E) c c',
  extend t (ir_messages p c) = extend t (ir_messages p' c') <-> hashed_points p c = hashed_points p' c'.
Proof.
  intros E L t p p' c c'. split.
  - intros H. apply (ir_transcript_inj L) in H as (_ & -> & ->). reflexivity.
  - intros H. destruct p, p', c, c'. unfold hashed_points in H. cbn in H. injection H. intros. subst. reflexivity.
Qed.
Print Assumptions C74_hash_of_points.

(** The proofs are harmless because their scalars are drawn afresh.  From two
    proofs made with the same scalars the key can be computed. *)
Definition exploit (m m' : scalar) : observer :=
  OAsk m (fun c s => OAsk m (fun c' s' =>
    let x0 := extract c c' (irs_x0 s) (irs_x0 s') in
    let x1 := extract c c' (irs_x1 s) (irs_x1 s') in
    OTry [2] [2 * (x0 + x1 * m')] [m'] OStop OStop)).
Theorem C74_same_scalars_refuted : forall E, ExtLaws E -> forall (params : SystemParameters E) x0 x1 m m' b b' y y' r c c' values,
  ~ m == m' -> ~ b == b' -> ~ c == c' ->
  within 1 0 (exploit m m') /\
  game_seeing params (exploit m m') x0 x1 [(b, y, r); (b', y', r)] (c :: c' :: values) = true.
Proof.
  intros E L params x0 x1 m m' b b' y y' r c c' values Hm Hb Hc. split; [repeat constructor|].
  unfold game_seeing, exploit. cbn [forges_seeing].
  set (k := {| sk_x0 := x0; sk_xn := [x1] |}).
  destruct (mac_one (E := E) x0 x1 m b) as [t Ht]. destruct (mac_one (E := E) x0 x1 m b') as [t' Ht'].
  unfold k. rewrite Ht, Ht'. cbv zeta. cbn [hash find].
  assert (Hne : forall p p' (e e' : ir_Commitments E), irp_P p = tag_nonce t -> irp_P p' = tag_nonce t' -> points_eqb (hashed_points p e) (hashed_points p' e') = false).
  { intros p p' e e' Hp Hp'. apply Bool.not_true_iff_false. intros H. apply (points_eqb_iff L) in H. unfold hashed_points in H.
    injection H. intros _ _ _ _ _ _ _ _ He. rewrite Hp, Hp' in He.
    apply (mac_with_spec L) in Ht as [Ht _], Ht' as [Ht' _]. rewrite Ht, Ht' in He. apply (smul_base_iff L) in He. contradiction. }
  unfold hash. cbn [find fst]. rewrite Hne by reflexivity.
  set (s := respond c _ r). set (s' := respond c' _ r).
  set (e0 := extract c c' (irs_x0 s) (irs_x0 s')). set (e1 := extract c c' (irs_x1 s) (irs_x1 s')).
  assert (G : forall x z, ~ c == c' -> extract c c' (s_add (s_mul c x) z) (s_add (s_mul c' x) z) == x).
  { intros x z Hcc. pose proof (extract_eqm c c' (s_add (s_mul c x) z) (s_add (s_mul c' x) z) Hcc) as Hx.
    assert (Hd : (extract c c' (s_add (s_mul c x) z) (s_add (s_mul c' x) z) - x) * (c - c') == 0).
    { transitivity (extract c c' (s_add (s_mul c x) z) (s_add (s_mul c' x) z) * (c - c') - x * (c - c')); [apply eqm_of_eq; zring|].
      rewrite Hx. unfold s_add, s_mul. eqm_push. apply eqm_of_eq; zring. }
    apply eqm_mul_0 in Hd as [Hd|Hd]; [apply eqm_sub_0; exact Hd|]. exfalso. apply Hcc, eqm_sub_0. exact Hd. }
  assert (He0 : e0 == x0) by (apply G; exact Hc). assert (He1 : e1 == x1) by (apply G; exact Hc).
  set (held := ((public_points _ params ++ _) ++ _)%list).
  assert (Hcomb : forall z, combination [z] held = smul z (@basepoint E)).
  { intros z. unfold held, public_points. cbn [app combination hd tl]. rewrite (combination_nil L), !smul_0, !(padd_zero_r L). reflexivity. }
  rewrite !Hcomb. pose proof two_lt_ell as Hell.
  rewrite (proj2 (mac_verify_iff L {| sk_x0 := x0; sk_xn := [x1] |} _ [m'])).
  - cbn [tag_nonce List.length Nat.eqb app fresh forallb same_message andb].
    assert (Hmm : m' mod ell =? m mod ell = false).
    { apply Z.eqb_neq. intros H. apply Hm. symmetry. exact H. }
    rewrite Hmm. cbn [negb andb].
    rewrite (proj2 (peqb_false L (smul 2 basepoint) pzero)); [reflexivity|].
    intros H. apply (smul_zero_iff L) in H; [|apply (basepoint_nonzero E L)]. apply eqm_canonical in H; lia.
  - cbn [tag_nonce tag_mac sk_x0 sk_xn dot]. split.
    + intros H. rewrite <- (smul_1 basepoint) in H at 2. apply (smul_base_iff L) in H. apply eqm_canonical in H; lia.
    + to_base L. apply (smul_base_iff L). rewrite He0, He1. apply eqm_of_eq; zring.
Qed.
Print Assumptions C74_same_scalars_refuted.

(** The hypotheses of [C74_unforgeable] are met by an adversary which hashes,
    looks at a proof and guesses the key. *)
Definition curious (x0 : scalar) : observer :=
  OHash (repeat [1] 9) (fun _ => OAsk 9 (fun c s =>
    if irs_x0 s =? c then OStop else OTest [0; 0; 0; 0; 1; -1] OStop (OTry [2] [2 * x0] [0] OStop OStop))).
Example C74_met :
  sp_h sample_params <> pzero /\ within 2 1 (curious 5) /\
  let r := {| irs_x0 := 1; irs_x1 := 2; irs_x0_tilde := 3; irs_m1x1 := 4 |} in
  let wins := [(5, 7, [(11, 3, r)], [40; 41]); (5, 8, [(11, 3, r)], [40; 41])] in
  NoDup wins /\
  forall x0 x1 coins values, In (x0, x1, coins, values) wins ->
    canonical x0 /\ canonical x1 /\
    List.length coins = 1%nat /\ Forall (fun '(b, y, r) => canonical b /\ canonical y /\ ir_canonical r) coins /\
    List.length values = 2%nat /\ Forall canonical values /\
    game_seeing sample_params (curious 5) x0 x1 coins values = true.
Proof.
  split; [intros H; apply (f_equal tv) in H; vm_compute in H; discriminate|]. split; [|cbv zeta; split].
  - constructor. intros _. constructor. intros c s. destruct (irs_x0 s =? c); repeat constructor.
  - repeat constructor; cbn; intuition congruence.
  - pose proof ell_gt_252. intros x0 x1 coins values [[= <- <- <- <-]|[[= <- <- <- <-]|[]]];
      (repeat split; repeat constructor; unfold canonical; cbn [irs_x0 irs_x1 irs_x0_tilde irs_m1x1]; try lia; vm_compute; reflexivity).
Qed.
(** What an adversary can see: hashing the points of a proof gives its challenge,
    a point hashed twice gives the same value, and with no values left the game is
    over. *)
Definition checks_proof (m : scalar) (next : observer) : observer :=
  OAsk m (fun c s => OHash (made_up 4 c s) (fun c' => if c =? c' then next else OStop)).
Example C74_met_hash :
  let r := {| irs_x0 := 1; irs_x1 := 2; irs_x0_tilde := 3; irs_m1x1 := 4 |} in
  let win := OTry [2] [2 * 5] [0] OStop OStop in
  game_seeing sample_params (checks_proof 9 win) 5 7 [(11, 3, r)] [40; 41] = true /\
  game_seeing sample_params (OHash (repeat [1] 9) (fun c => OHash (repeat [1] 9) (fun c' => if c =? c' then win else OStop))) 5 7 [] [40; 41] = true /\
  game_seeing sample_params (OHash (repeat [1] 9) (fun c => OHash (repeat [2] 9) (fun c' => if c =? c' then OStop else win))) 5 7 [] [40; 41] = true /\
  game_seeing sample_params (checks_proof 9 win) 5 7 [(11, 3, r)] [] = false.
Proof. vm_compute. auto. Qed.
Example C74_met_same_scalars :
  let r := {| irs_x0 := 1; irs_x1 := 2; irs_x0_tilde := 3; irs_m1x1 := 4 |} in
  game_seeing sample_params (OAsk 9 (fun c s => OAsk 9 (fun c' s' =>
    (* challenges that differ by one: no division *)
    let x0 := irs_x0 s' - irs_x0 s in let x1 := irs_x1 s' - irs_x1 s in
    OTry [2] [2 * (x0 + x1 * 8)] [8] OStop OStop))) 5 7 [(11, 3, r); (12, 3, r)] [40; 41] = true.
Proof. vm_compute. reflexivity. Qed.
Example C74_met_issuer : exists x0 x1, kp_secret (iss_keypair sample_issuer) = {| sk_x0 := x0; sk_xn := [x1] |} /\
  consistent sample_issuer.
Proof. do 2 eexists. split; [reflexivity|]. exact (proj1 sample_consistent). Qed.
Example C74_met_issue : exists iss r' os',
  issue sample_issuer (request [9]) (toy_stream 1) (toy_stream 2) = Ok (iss, r', os') /\
  negb (irs_x0 (ir_responses (is_proof iss)) =? 0) = true.
Proof. apply (run3 _ (fun iss => negb (irs_x0 (ir_responses (is_proof iss)) =? 0))). vm_compute. reflexivity. Qed.
