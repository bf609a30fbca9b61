(** That tags cannot be forged by an adversary which treats the group as a black
    box (C69): aeonflux/src/amacs.rs and issuer.rs. *)
From Verif Require Import SpecGame GameFacts IssueFacts PropertiesIssue Toy.
From Coq Require Import Setoid.
Local Open Scope Z_scope.

(** ** C69: tags cannot be forged *)

Lemma range_exists q : 0 <= q ->
  exists R, NoDup R /\ (forall x, In x R <-> 0 <= x < q) /\ Z.of_nat (List.length R) = q.
Proof.
  intros Hq. exists (map Z.of_nat (seq 0 (Z.to_nat q))). split; [|split].
  - apply FinFun.Injective_map_NoDup; [intros a b; lia|apply seq_NoDup].
  - intros x. rewrite in_map_iff. split.
    + intros (i & <- & Hi). apply in_seq in Hi. lia.
    + intros Hx. exists (Z.to_nat x). split; [lia|]. apply in_seq. lia.
  - rewrite map_length, seq_length. lia.
Qed.

(** A key and the coins as one list. *)
Definition flatten (w : scalar * list scalar * list (scalar * scalar)) : list Z :=
  let '(x0, xs, coins) := w in x0 :: xs ++ flat_map (fun '(b, y) => [b; y]) coins.
Lemma flat_pairs coins : pairs (flat_map (fun '(b, y) => [b; y]) coins) = coins.
Proof. induction coins as [|[b y] coins IH]; [reflexivity|]. cbn [flat_map app pairs]. rewrite IH. reflexivity. Qed.
Lemma flat_length coins : List.length (flat_map (fun '(b, y) => [b; y] : list Z) coins) = (2 * List.length coins)%nat.
Proof. induction coins as [|[b y] coins IH]; [reflexivity|]. cbn [flat_map app List.length]. rewrite IH. lia. Qed.
Lemma firstn_exact (xs w : list Z) : firstn (List.length xs) (xs ++ w) = xs.
Proof. rewrite firstn_app, Nat.sub_diag, firstn_O, app_nil_r. apply firstn_all. Qed.
Lemma skipn_exact (xs w : list Z) : skipn (List.length xs) (xs ++ w) = w.
Proof. rewrite skipn_app, Nat.sub_diag, skipn_all. reflexivity. Qed.
Lemma app_parts (xs xs' w w' : list Z) : List.length xs = List.length xs' -> xs ++ w = xs' ++ w' -> xs = xs' /\ w = w'.
Proof.
  revert xs'; induction xs as [|x xs IH]; intros [|x' xs'] Hl H; try discriminate; [auto|].
  injection H as -> H. destruct (IH xs' ltac:(cbn in Hl; lia) H) as [-> ->]. auto.
Qed.

Lemma game_at {E : Ext} (L : ExtLaws E) (params : SystemParameters E) s t a x0 xs coins :
  sp_g params = smul s basepoint -> sp_h params = smul t basepoint ->
  game params a x0 xs coins = forges_at params s t (List.length xs) a [] (flatten (x0, xs, coins)).
Proof.
  intros Hg Hh. unfold game, forges_at, flatten, key_at. cbn [List.length skipn nth Nat.add].
  rewrite firstn_exact, skipn_exact, flat_pairs. f_equal.
  unfold sym_held, sym_public, public_points. cbn [sym_issued app map]. rewrite app_nil_r.
  unfold get_public_key. cbn [pk_Xn sk_xn]. rewrite Hg, Hh. unfold pt_at. cbn [ev]. rewrite smul_1.
  do 3 f_equal. rewrite map_map. cbn [ev].
  assert (G : forall (ys pre : list Z), map (fun xi : scalar => smul xi (smul t (@basepoint E))) ys =
    map (fun i => smul (nth i (pre ++ ys ++ flat_map (fun '(b, y) => [b; y]) coins) 0 * t) basepoint)
        (seq (List.length pre) (List.length ys))).
  { induction ys as [|y ys IH]; intros pre; [reflexivity|]. cbn [map List.length seq]. f_equal.
    - rewrite (smul_base L), app_nth2, Nat.sub_diag by lia. reflexivity.
    - rewrite (IH (pre ++ [y])). rewrite app_length. cbn [List.length]. rewrite Nat.add_1_r, <- app_assoc. reflexivity. }
  apply (G xs [x0]).
Qed.

(** Of all keys for [k] attributes and all coins for [N] credentials, at most a
    fraction [3 * checks a / ell] lets the adversary [a] forge a tag. *)
Theorem C69_unforgeable : forall E, ExtLaws E -> forall (params : SystemParameters E) (a : adversary) (k N : nat)
    (wins : list (scalar * list scalar * list (scalar * scalar))),
  sp_h params <> pzero ->
  NoDup wins ->
  (forall x0 xs coins, In (x0, xs, coins) wins ->
     canonical x0 /\ List.length xs = k /\ Forall canonical xs /\
     List.length coins = N /\ Forall (fun c => canonical (fst c) /\ canonical (snd c)) coins /\
     game params a x0 xs coins = true) ->
  Z.of_nat (List.length wins) * ell <= 3 * Z.of_nat (checks a) * ell ^ (1 + Z.of_nat k + 2 * Z.of_nat N).
Proof.
  intros E L params a k N wins Hh Hnd Hw.
  destruct (basepoint_generates E L (sp_g params)) as [s Hs].
  destruct (basepoint_generates E L (sp_h params)) as [t Ht].
  assert (Ht0 : ~ t == 0).
  { intros H. apply Hh. rewrite Ht. apply (smul_zero_iff L); [apply (basepoint_nonzero E L)|exact H]. }
  destruct (range_exists ell ltac:(pose proof ell_pos; lia)) as (R & R1 & R2 & R3).
  pose proof (few_forgeries L params s t k Hs Ht Ht0 R R1 R2 R3 N a [] ltac:(cbn; lia) (Forall_nil _)) as Hb.
  replace (1 + Z.of_nat k + 2 * Z.of_nat N) with (Z.of_nat (1 + k + 2 * N)) by lia.
  etransitivity; [|exact Hb].
  apply Z.mul_le_mono_nonneg_r; [pose proof ell_pos; lia|].
  assert (Hwf : forall w, In w wins -> List.length (snd (fst w)) = k /\ scalars (1 + k + 2 * N) (flatten w) /\
    forges_at params s t k a [] (flatten w) = true).
  { intros [[x0 xs] coins] Hin. destruct (Hw x0 xs coins Hin) as (C0 & Hl & Cx & Hn & Cc & Hgame).
    split; [exact Hl|]. split; [split|].
    - unfold flatten. cbn [List.length]. rewrite app_length, flat_length. unfold scalar in *. lia.
    - unfold flatten. constructor; [exact C0|]. apply Forall_app. split; [exact Cx|]. clear - Cc.
      induction Cc as [|[b y] coins [Cb Cy] _ IH]; [constructor|]. cbn [flat_map app]. constructor; [exact Cb|].
      constructor; [exact Cy|exact IH].
    - rewrite <- Hl, <- (game_at L) by assumption. exact Hgame. }
  unfold count. apply inj_le. rewrite <- (map_length flatten wins). apply NoDup_incl_length.
  - assert (Hinj : forall w w', In w wins -> In w' wins -> flatten w = flatten w' -> w = w').
    { intros [[x0 xs] coins] [[x0' xs'] coins'] H1 H2 He. apply Hwf in H1 as [L1 _]. apply Hwf in H2 as [L2 _].
      cbn [fst snd] in L1, L2. unfold flatten in He. injection He as -> He.
      apply app_parts in He as [-> He]; [|unfold scalar in *; congruence].
      apply (f_equal pairs) in He. rewrite !flat_pairs in He. congruence. }
    clear - Hnd Hinj. induction Hnd as [|w wins Hnin Hnd IH]; [constructor|]. cbn [map]. constructor.
    + intros Hin. apply in_map_iff in Hin as (w' & He & Hin'). apply Hnin.
      rewrite <- (Hinj w' w (or_intror Hin') (or_introl eq_refl) He). exact Hin'.
    + apply IH. intros u u' Hu Hu'. apply Hinj; right; assumption.
  - intros v Hv. apply in_map_iff in Hv as (w & <- & Hin). apply Hwf in Hin as (_ & Hsc & Hf).
    apply filter_In. split; [|exact Hf]. apply (in_tuples R R2). exact Hsc.
Qed.

(** What the issuer sends for a request is what the adversary gets for asking,
    with the scalars drawn. *)
Theorem C69_oracle_is_issue : forall E, ExtLaws E -> forall (i : Issuer E) rq r (os : rng) iss r' os',
  issue i rq r os = Ok (iss, r', os') ->
  let b := fst (scalar_random (@issue_csprng E r)) in
  let y := fst (scalar_random (snd (scalar_random (@issue_csprng E r)))) in
  let k := kp_secret (iss_keypair i) in
  mac_with k (rq_attributes_revealed rq) b = Ok (cr_mac (is_credential iss)) /\
  [tag_nonce (cr_mac (is_credential iss)); tag_mac (cr_mac (is_credential iss)); is_secret_key_commitment iss] =
    issued_points k (iss_system_parameters i) (cr_mac (is_credential iss)) y.
Proof.
  intros E L i rq r os iss r' os' H b y k.
  pose proof (issue_inv L _ _ _ _ _ _ _ H) as (X1 & Xs & x1 & xs & m1 & ms & _ & _ & _ & HX & Hx & Hm & Hl & _).
  destruct (issue_ok L i rq r os X1 Xs x1 xs m1 ms HX Hx Hm Hl) as (tag & x0t & He & Hn & Hy & Hi).
  cbv zeta in Hi. rewrite H in Hi. apply ok3 in Hi as (-> & _ & _). cbn [is_credential cr_mac is_secret_key_commitment].
  destruct He as [He1 He2]. split.
  - unfold mac_with. fold k. rewrite Hm. unfold k. rewrite Hx. cbn [List.length]. rewrite Hl, Nat.eqb_refl. cbn [negb].
    f_equal. destruct tag as [P Q]. cbn [tag_nonce tag_mac] in *. subst P. fold b. f_equal.
    rewrite He2, Hx. apply (smul_eqm L), mac_exponent_eqm.
  - unfold issued_points, commitment_to. rewrite Hy. reflexivity.
Qed.

(** With the identity for [h] (nothing rejects it, C68) anything can be forged
    after one credential: the commitment to [x0] hides nothing. *)
Fixpoint at_place (j : nat) (c : scalar) : list scalar :=
  match j with
  | O => [c]
  | S j' => 0 :: at_place j' c
  end.
Definition identity_h_adversary (k : nat) (c : scalar) : adversary :=
  Ask (repeat 1 k) (Try (at_place 1 c) (at_place (5 + k) c) (repeat 0 k) Stop Stop).
Lemma combination_nil {E : Ext} (L : ExtLaws E) (held : list (point E)) : combination [] held = pzero.
Proof.
  induction held as [|P held IH]; [reflexivity|]. cbn [combination hd tl]. rewrite IH, smul_0.
  apply (padd_zero_r L).
Qed.
Lemma combination_at {E : Ext} (L : ExtLaws E) j c (held : list (point E)) P :
  nth_error held j = Some P -> combination (at_place j c) held = smul c P.
Proof.
  revert held; induction j as [|j IH]; intros [|Q held] H; try discriminate; cbn [at_place combination hd tl].
  - injection H as ->. rewrite (combination_nil L). apply (padd_zero_r L).
  - rewrite (IH held H), smul_0. apply (padd_zero E L).
Qed.

Theorem C69_identity_h_refuted : forall E, ExtLaws E -> forall (params : SystemParameters E) (k : nat),
  sp_h params = pzero -> sp_g params <> pzero -> (0 < k)%nat ->
  exists a, checks a = 1%nat /\
    forall x0 xs coins, List.length xs = k -> coins <> [] -> game params a x0 xs coins = true.
Proof.
  intros E L params k Hh Hg Hk.
  assert (Hc : exists c, smul c (sp_g params) <> basepoint /\ smul c (sp_g params) <> pzero).
  { pose proof two_lt_ell as Hell. destruct (basepoint_generates E L (sp_g params)) as [s Hs].
    destruct (peqb (sp_g params) basepoint) eqn:Hb.
    - apply (peqb_true L) in Hb. exists 2. rewrite Hb. split.
      + intros H. rewrite <- (smul_1 basepoint) in H at 2. apply (smul_base_iff L) in H. apply eqm_canonical in H; lia.
      + intros H. apply (smul_zero_iff L) in H; [|apply (basepoint_nonzero E L)]. apply eqm_canonical in H; lia.
    - apply (peqb_false L) in Hb. exists 1. rewrite smul_1. auto. }
  destruct Hc as (c & Hc1 & Hc2). exists (identity_h_adversary k c). split; [reflexivity|].
  intros x0 xs [|[b y] coins] Hl Hcoins; [contradiction|].
  unfold game, identity_h_adversary. cbn [forges]. set (key := {| sk_x0 := x0; sk_xn := xs |}).
  destruct (mac_with (E := E) key (repeat 1 k) b) as [tag|e|] eqn:Ht.
  2,3: unfold mac_with, key in Ht; cbn [sk_xn] in Ht; rewrite Hl, repeat_length, Nat.eqb_refl in Ht; discriminate.
  set (held := (public_points key params ++ issued_points key params tag y)%list).
  assert (HP : combination (at_place 1 c) held = smul c (sp_g params)).
  { apply (combination_at L). reflexivity. }
  assert (HQ : combination (at_place (5 + k) c) held = smul c (smul x0 (sp_g params))).
  { apply (combination_at L). unfold held. rewrite nth_error_app2; unfold public_points, get_public_key; cbn [pk_Xn sk_xn key List.length];
      rewrite map_length, Hl; [|lia].
    replace (5 + k - S (S (S k)))%nat with 2%nat by lia. unfold issued_points, commitment_to. cbn [nth_error sk_x0 key].
    rewrite Hh, (smul_pzero L), (padd_zero_r L). reflexivity. }
  rewrite HP, HQ.
  set (T := {| tag_nonce := smul c (sp_g params); tag_mac := smul c (smul x0 (sp_g params)) |}).
  rewrite (proj2 (mac_verify_iff L key T (repeat 0 k))).
  - cbn [sk_xn key]. rewrite repeat_length, Hl, Nat.eqb_refl. cbn [tag_nonce T].
    assert (Hf : fresh (repeat 0 k) [repeat 1 k] = true).
    { unfold fresh. cbn [forallb]. destruct k as [|k]; [lia|]. cbn [repeat same_message].
      pose proof two_lt_ell. rewrite Z.mod_0_l, Z.mod_1_l by lia. reflexivity. }
    cbn [app]. unfold T. cbn [tag_nonce]. rewrite (proj2 (peqb_false L _ _) Hc2). unfold scalar in *. rewrite Hf. reflexivity.
  - unfold T. cbn [tag_nonce tag_mac sk_x0 sk_xn key]. split; [exact Hc1|].
    assert (Hd : dot xs (repeat 0 k) = 0).
    { clear. revert xs; induction k as [|k IH]; intros [|x xs]; try reflexivity. cbn [repeat dot]. rewrite IH. ring. }
    rewrite Hd. clear - L. generalize (sp_g params). intros P. dlogs L. to_base L. apply (smul_base_iff L).
    apply eqm_of_eq; zring.
Qed.

(** The bound cannot be much smaller: guessing [x0] needs one verification and
    works for one key in [ell], whatever the rest of the key and the coins. *)
Definition guess (k : nat) (x0 : scalar) : adversary := Try [2] [2 * x0] (repeat 0 k) Stop Stop.
Theorem C69_guess_wins : forall E, ExtLaws E -> forall (params : SystemParameters E) x0 xs coins,
  game params (guess (List.length xs) x0) x0 xs coins = true.
Proof.
  intros E L params x0 xs coins. unfold game, guess. cbn [forges]. set (key := {| sk_x0 := x0; sk_xn := xs |}).
  pose proof two_lt_ell as Hell.
  assert (Hc : forall c, combination [c] (public_points key params) = smul c (@basepoint E)).
  { intros c. unfold public_points. cbn [combination hd tl]. rewrite (combination_nil L), !smul_0, !(padd_zero_r L). reflexivity. }
  rewrite !Hc.
  rewrite (proj2 (mac_verify_iff L key _ (repeat 0 (List.length xs)))).
  - cbn [sk_xn key tag_nonce]. rewrite repeat_length, Nat.eqb_refl. cbn [fresh forallb andb].
    rewrite (proj2 (peqb_false L (smul 2 basepoint) pzero)); [reflexivity|].
    intros H. apply (smul_zero_iff L) in H; [|apply (basepoint_nonzero E L)]. apply eqm_canonical in H; lia.
  - cbn [tag_nonce tag_mac sk_x0 sk_xn key]. split.
    + intros H. rewrite <- (smul_1 basepoint) in H at 2. apply (smul_base_iff L) in H. apply eqm_canonical in H; lia.
    + assert (Hd : forall xs, dot xs (repeat 0 (List.length xs)) = 0).
      { clear. induction xs as [|x xs IH]; [reflexivity|]. cbn [List.length repeat dot]. rewrite IH. ring. }
      rewrite Hd. to_base L. apply (smul_base_iff L). apply eqm_of_eq; zring.
Qed.

(** The hypotheses of [C69_unforgeable] are met by a list of wins. *)
Example C69_met :
  sp_h sample_params <> pzero /\
  let wins := [(5, [7], [(2, 3)]); (5, [8], [(2, 3)])] in
  NoDup wins /\
  forall x0 xs coins, In (x0, xs, coins) wins ->
    canonical x0 /\ List.length xs = 1%nat /\ Forall canonical xs /\
    List.length coins = 1%nat /\ Forall (fun c => canonical (fst c) /\ canonical (snd c)) coins /\
    game sample_params (guess 1 5) x0 xs coins = true.
Proof.
  split; [intros H; apply (f_equal tv) in H; vm_compute in H; discriminate|]. cbv zeta. split.
  - repeat constructor; cbn; intuition congruence.
  - pose proof ell_gt_252. intros x0 xs coins [[= <- <- <-]|[[= <- <- <-]|[]]];
      (repeat split; repeat constructor; unfold canonical; cbn [fst snd]; try lia; vm_compute; reflexivity).
Qed.

(** Adversaries which use the answers.  A credential that was asked for can be
    re-randomised: this is not a forgery, but the answer is yes. *)
Definition replay (next : adversary) : adversary :=
  Ask [9] (Try [0; 0; 0; 0; 2] [0; 0; 0; 0; 0; 2] [9] next Stop).
Example C69_met_replay :
  game sample_params (replay Stop) 5 [7] [(11, 3)] = false /\
  game sample_params (replay (guess 1 5)) 5 [7] [(11, 3)] = true /\
  game sample_params (replay (guess 1 6)) 5 [7] [(11, 3)] = false /\
  (* refused: two attributes for a key with one *)
  game sample_params (Ask [9; 9] (replay (guess 1 5))) 5 [7] [(11, 3)] = true /\
  (* a test: is X1 = 7 h? *)
  game sample_params (Test [0; 0; 7; -1] (guess 1 5) Stop) 5 [7] [] = true /\
  (* attributes not asked for, with the nonce at infinity *)
  game sample_params (Try [] [] [9] Stop Stop) 5 [7] [] = false /\
  (* more attributes than the key has: verified, but not counted *)
  game sample_params (Try [2] [2 * (5 + 7 * 9)] [9; 4] (guess 1 5) Stop) 5 [7] [] = true.
Proof. vm_compute. repeat split. Qed.

Example C69_met_identity : 
  game {| sp_g := pt 1; sp_h := @pzero toy |} (identity_h_adversary 1 2) 5 [7] [(11, 3)] = true /\
  game sample_params (identity_h_adversary 1 2) 5 [7] [(11, 3)] = false.
Proof. vm_compute. auto. Qed.

Example C69_met_issue : exists iss r' os',
  issue sample_issuer (request [9]) (toy_stream 1) (toy_stream 2) = Ok (iss, r', os') /\
  negb (peqb (tag_mac (cr_mac (is_credential iss))) pzero) = true.
Proof. apply (run3 _ (fun iss => negb (peqb (tag_mac (cr_mac (is_credential iss))) pzero))). vm_compute. reflexivity. Qed.


Print Assumptions C69_unforgeable.
Print Assumptions C69_oracle_is_issue.
Print Assumptions C69_identity_h_refuted.
Print Assumptions C69_guess_wins.
