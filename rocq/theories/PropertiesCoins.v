(** Nobody presents as the owner of somebody else's roster entry (C86): running a prover
    again, counted over its own random choices and the issuer's too.
    aeonflux/src/issuer.rs, signal-credential/src/issuer.rs, signal-credential/src/phone_number.rs. *)
From Verif Require Import SpecCoins ForkFacts PropertiesIssue PropertiesShow PropertiesSignal PropertiesPhone SignalFacts PropertiesOracle PropertiesFork PropertiesJoint Toy.
From Coq Require Import Setoid.

(** ** Sums over a list *)
Section totals.
  Context {C : Type}.

  Definition total (f : C -> Z) (R : list C) : Z := fold_right (fun r s => f r + s) 0 R.

  Lemma total_le f g R : (forall r, In r R -> f r <= g r) -> total f R <= total g R.
  Proof.
    induction R as [|r R IH]; intros H; [cbn; lia|]. cbn [total fold_right] in *.
    specialize (H r (or_introl eq_refl)) as H1. specialize (IH (fun s Hs => H s (or_intror Hs))). unfold total in IH. lia.
  Qed.
  Lemma total_ext f g R : (forall r, In r R -> f r = g r) -> total f R = total g R.
  Proof. intros H. apply Z.le_antisymm; apply total_le; intros r Hr; rewrite (H r Hr); lia. Qed.
  (** Cauchy and Schwarz. *)
  Lemma total_square f R : (forall r, 0 <= f r) -> total f R ^ 2 <= Z.of_nat (List.length R) * total (fun r => f r ^ 2) R.
  Proof.
    intros Hf. assert (Hp : forall g R, (forall r, 0 <= g r) -> 0 <= total g R).
    { clear. intros g R Hg. induction R as [|r R IH]; [cbn; lia|]. cbn [total fold_right]. fold (total g R). specialize (Hg r). lia. }
    induction R as [|r R IH]; [cbn; lia|].
    cbn [total fold_right List.length]. fold (total f R). fold (total (fun r => f r ^ 2) R). rewrite Nat2Z.inj_succ.
    pose proof (Hf r) as Ha. pose proof (Hp f R Hf) as Hs.
    assert (HS : 0 <= total (fun r => f r ^ 2) R) by (apply Hp; intros; apply Z.pow_nonneg; auto).
    set (a := f r) in *. set (s := total f R) in *. set (S := total (fun r => f r ^ 2) R) in *. set (n := Z.of_nat (List.length R)) in *.
    assert (Hn : 0 <= n) by (unfold n; lia). clearbody a s S n. rewrite !Z.pow_2_r in *.
    destruct (Z.eq_dec n 0) as [->|Hn'].
    - assert (s = 0) by nia. subst s. nia.
    - assert (H : 2 * a * s <= n * (a * a) + S).
      { apply (Zmult_le_reg_r _ _ n); [lia|]. pose proof (Z.square_nonneg (n * a - s)). nia. }
      nia.
  Qed.
  Lemma total_bound f R b : (forall r, In r R -> f r <= b) -> total f R <= Z.of_nat (List.length R) * b.
  Proof.
    induction R as [|r R IH]; intros H; [cbn; lia|]. cbn [total fold_right List.length]. fold (total f R).
    specialize (IH (fun s Hs => H s (or_intror Hs))). specialize (H r (or_introl eq_refl)). rewrite Nat2Z.inj_succ. lia.
  Qed.
  Lemma total_split f (g : C -> bool) R : total f R = total f (filter g R) + total f (filter (fun r => negb (g r)) R).
  Proof.
    induction R as [|r R IH]; [reflexivity|]. cbn [filter]. destruct (g r); cbn [negb total fold_right];
      fold (total f R); fold (total f (filter g R)); fold (total f (filter (fun r => negb (g r)) R)); lia.
  Qed.
End totals.

(** ** Rows *)
Section rows.
  Context {C V : Type} (C_eq : forall x y : C, {x = y} + {x <> y}).

  Definition in_row (r : C) (w : C * V) : bool := if C_eq (fst w) r then true else false.
  Definition row (r : C) (W : list (C * V)) : list V := map snd (filter (in_row r) W).

  Lemma row_in r W v : In v (row r W) <-> In (r, v) W.
  Proof.
    unfold row. rewrite in_map_iff. split.
    - intros ([r' v'] & <- & H). apply filter_In in H as [H Hr]. unfold in_row in Hr. cbn [fst snd] in *.
      destruct (C_eq r' r) as [->|]; [exact H|discriminate].
    - intros H. exists (r, v). split; [reflexivity|]. apply filter_In. split; [exact H|].
      unfold in_row. cbn [fst]. destruct (C_eq r r); [reflexivity|contradiction].
  Qed.
  Lemma row_nodup r W : NoDup W -> NoDup (row r W).
  Proof.
    intros H. apply nodup_map; [apply NoDup_filter; exact H|].
    intros [r1 v1] [r2 v2] H1 H2 He. apply filter_In in H1 as [_ H1]. apply filter_In in H2 as [_ H2].
    unfold in_row in *. cbn [fst snd] in *. destruct (C_eq r1 r) as [->|]; [|discriminate].
    destruct (C_eq r2 r) as [->|]; [|discriminate]. rewrite He. reflexivity.
  Qed.

  Definition size (r : C) (W : list (C * V)) : Z := Z.of_nat (List.length (row r W)).
  Lemma other_rows r s W : s <> r -> row s (filter (fun w => negb (in_row r w)) W) = row s W.
  Proof.
    intros Hne. unfold row. f_equal. induction W as [|w W IH]; [reflexivity|]. cbn [filter].
    destruct (in_row r w) eqn:Er; cbn [negb].
    - replace (in_row s w) with false; [exact IH|]. unfold in_row in *.
      destruct (C_eq (fst w) r); [|discriminate]. destruct (C_eq (fst w) s); [congruence|reflexivity].
    - cbn [filter]. destruct (in_row s w); [f_equal|]; exact IH.
  Qed.
  Lemma total_size R : NoDup R -> forall W, (forall w, In w W -> In (fst w) R) -> total (fun r => size r W) R = Z.of_nat (List.length W).
  Proof.
    intros Hnd. induction Hnd as [|r R Hn Hnd IH]; intros W H.
    - destruct W as [|w W]; [reflexivity|destruct (H w (or_introl eq_refl))].
    - cbn [total fold_right]. rewrite (split_by (in_row r) W), Nat2Z.inj_add.
      unfold size at 1, row. rewrite map_length. f_equal. fold (total (fun r => size r W) R).
      rewrite <- (IH (filter (fun w => negb (in_row r w)) W)).
      + apply total_ext. intros s Hs. unfold size. rewrite other_rows; [reflexivity|]. intros ->. contradiction.
      + intros w Hw. apply filter_In in Hw as [Hw Hne]. destruct (H w Hw) as [He|Hi]; [|exact Hi].
        unfold in_row in Hne. destruct (C_eq (fst w) r); [discriminate|congruence].
  Qed.

  (** One list for each row, put together. *)
  Lemma gather {B} (P : C -> B -> Prop) (few : C -> Z -> Prop) R : NoDup R ->
    (forall r, In r R -> exists F : list B, NoDup F /\ few r (Z.of_nat (List.length F)) /\ forall b, In b F -> P r b) ->
    exists (F : list (C * B)) (g : C -> Z), NoDup F /\ Z.of_nat (List.length F) = total g R /\ (forall r, In r R -> few r (g r)) /\
      forall r b, In (r, b) F -> In r R /\ P r b.
  Proof.
    intros Hnd. induction Hnd as [|r R Hn Hnd IH]; intros H.
    - exists [], (fun _ => 0). repeat split; [constructor|intros r []|destruct H0|destruct H0].
    - destruct (H r (or_introl eq_refl)) as (F & F1 & F2 & F3).
      destruct (IH (fun s Hs => H s (or_intror Hs))) as (F' & g & G1 & G2 & G3 & G4).
      exists (map (pair r) F ++ F')%list, (fun s => if C_eq s r then Z.of_nat (List.length F) else g s).
      split; [|split; [|split]].
      + apply nodup_app; [apply FinFun.Injective_map_NoDup; [intros a b; congruence|exact F1]|exact G1|].
        intros [s b] Hs Hs'. apply in_map_iff in Hs as (b' & He & _). apply G4 in Hs' as [Hs' _]. congruence.
      + rewrite app_length, map_length, Nat2Z.inj_add, G2. cbn [total fold_right].
        destruct (C_eq r r); [|contradiction]. f_equal. apply total_ext. intros s Hs. destruct (C_eq s r) as [->|]; [contradiction|reflexivity].
      + intros s Hs. destruct (C_eq s r) as [->|Hne]; [exact F2|]. destruct Hs as [->|Hs]; [contradiction|]. apply G3. exact Hs.
      + intros s b Hin. apply in_app_or in Hin as [Hin|Hin].
        * apply in_map_iff in Hin as (b' & He & Hb). injection He as <- <-. split; [left; reflexivity|apply F3; exact Hb].
        * apply G4 in Hin as [G Hb]. split; [right; exact G|exact Hb].
  Qed.
End rows.

(** ** C86 *)

(** C83 with everything that is random: the prover, its questions and what is taken depend on
    coins, and there are as many coins as [R] has.  With [a] the fraction of all coins and values for which the
    prover succeeds and [f] that of the triples in [F], again f >= a^2 / q - a / l. *)
Theorem C86_forking : forall Q A C (Q_eq : forall x y : Q, {x = y} + {x <> y}) (C_eq : forall x y : C, {x = y} + {x <> y})
    (question : C -> A -> Q) (taken : C -> A -> scalar -> Prop) (p : C -> prover Q A) (R : list C) q (W : list (C * list scalar)),
  NoDup R -> NoDup W ->
  (forall r v, In (r, v) W -> In r R /\ List.length v = q /\ Forall canonical v /\
     exists a c, proved Q_eq (question r) (p r) v = Some (a, c) /\ taken r a c) ->
  exists F : list (C * (list scalar * list scalar)),
    NoDup F /\
    Z.of_nat (List.length W) ^ 2 <=
      Z.of_nat q * (Z.of_nat (List.length R) * Z.of_nat (List.length F) + Z.of_nat (List.length W) * (Z.of_nat (List.length R) * ell ^ (Z.of_nat q - 1))) /\
    forall r v v', In (r, (v, v')) F -> In (r, v) W /\ List.length v' = q /\ Forall canonical v' /\
      exists a c a' c',
        proved Q_eq (question r) (p r) v = Some (a, c) /\ taken r a c /\
        proved Q_eq (question r) (p r) (forked (asked_at Q_eq (question r) (p r) v) v v') = Some (a', c') /\ taken r a' c' /\
        question r a' = question r a /\ c mod ell <> c' mod ell.
Proof.
  intros Q A C Q_eq C_eq question taken p R q W HR HW H.
  set (L := ell ^ (Z.of_nat q - 1)).
  destruct (gather C_eq (fun r (vv : list scalar * list scalar) => let (v, v') := vv in
      In (r, v) W /\ List.length v' = q /\ Forall canonical v' /\
      exists a c a' c',
        proved Q_eq (question r) (p r) v = Some (a, c) /\ taken r a c /\
        proved Q_eq (question r) (p r) (forked (asked_at Q_eq (question r) (p r) v) v v') = Some (a', c') /\ taken r a' c' /\
        question r a' = question r a /\ c mod ell <> c' mod ell)
    (fun r n => size C_eq r W ^ 2 <= Z.of_nat q * (n + size C_eq r W * L)) R HR) as (F & g & F1 & F2 & F3 & F4).
  - intros r Hr.
    destruct (C83_forking Q A Q_eq (question r) (taken r) (p r) q (row C_eq r W) (row_nodup C_eq r W HW)) as (F & F1 & F2 & F3).
    + intros v Hv. apply row_in in Hv. apply (H r v Hv).
    + exists F. split; [exact F1|]. split; [exact F2|]. intros [v v'] Hin. destruct (F3 v v' Hin) as (K1 & K2). split; [|exact K2].
      apply row_in in K1. exact K1.
  - exists F. split; [exact F1|]. split; [|intros r v v' Hin; exact (proj2 (F4 r (v, v') Hin))].
    assert (HT : total (fun r => size C_eq r W) R = Z.of_nat (List.length W)).
    { apply total_size; [exact HR|]. intros [r v] Hin. apply (H r v Hin). }
    rewrite <- HT at 1. refine (Z.le_trans _ _ _ (total_square _ _ _) _); [intros r; unfold size; lia|].
    replace (Z.of_nat q * _) with (Z.of_nat (List.length R) * (Z.of_nat q * (Z.of_nat (List.length F) + Z.of_nat (List.length W) * L))) by ring.
    apply Z.mul_le_mono_nonneg_l; [lia|]. rewrite F2, <- HT. clear - F3. induction R as [|r R IH]; [cbn; lia|].
    specialize (IH (fun s Hs => F3 s (or_intror Hs))). specialize (F3 r (or_introl eq_refl)).
    cbn [total fold_right] in *. unfold total in IH. lia.
Qed.
Print Assumptions C86_forking.

(** C84 with everything that is random. *)
Theorem C86_two_forks : forall Q A C (Q_eq : forall x y : Q, {x = y} + {x <> y}) (C_eq : forall x y : C, {x = y} + {x <> y})
    (one other : C -> A -> Q) (taken_one taken_other : C -> A -> scalar -> Prop) (p : C -> prover Q A) (R : list C) q (W : list (C * list scalar)),
  NoDup R -> NoDup W ->
  (forall r v, In (r, v) W -> In r R /\ List.length v = q /\ Forall canonical v /\
     exists a c d, proved Q_eq (one r) (p r) v = Some (a, c) /\ taken_one r a c /\
       proved Q_eq (other r) (p r) v = Some (a, d) /\ taken_other r a d) ->
  exists H : list (C * list scalar),
    NoDup H /\ incl H W /\ Z.of_nat (List.length W) <= 4 * Z.of_nat (List.length H) /\
    forall r v, In (r, v) H -> exists F G : list (list scalar),
      let many l := Z.of_nat (List.length W) <= Z.of_nat (List.length R) * (8 * Z.of_nat q * (Z.of_nat (List.length l) + ell ^ (Z.of_nat q - 1))) in
      NoDup F /\ many F /\ NoDup G /\ many G /\
      forall v' v'', In v' F -> In v'' G ->
        (List.length v' = q /\ Forall canonical v') /\ (List.length v'' = q /\ Forall canonical v'') /\
        exists a c d a' c' a'' d'',
          (proved Q_eq (one r) (p r) v = Some (a, c) /\ taken_one r a c) /\ (proved Q_eq (other r) (p r) v = Some (a, d) /\ taken_other r a d) /\
          (proved Q_eq (one r) (p r) (forked (asked_at Q_eq (one r) (p r) v) v v') = Some (a', c') /\ taken_one r a' c' /\
           one r a' = one r a /\ c mod ell <> c' mod ell) /\
          (proved Q_eq (other r) (p r) (forked (asked_at Q_eq (other r) (p r) v) v v'') = Some (a'', d'') /\ taken_other r a'' d'' /\
           other r a'' = other r a /\ d mod ell <> d'' mod ell).
Proof.
  intros Q A C Q_eq C_eq one other taken_one taken_other p R q W HR HW H.
  set (heavy := fun r => Z.of_nat (List.length W) <=? 2 * Z.of_nat (List.length R) * size C_eq r W).
  match goal with |- exists H, _ /\ _ /\ _ /\ forall r v, In (r, v) H -> @?P r v => set (good := P) end.
  destruct (gather C_eq (fun r v => In (r, v) W /\ good r v) (fun r n => size C_eq r W <= 2 * n) (filter heavy R)) as (F & g & F1 & F2 & F3 & F4).
  - apply NoDup_filter. exact HR.
  - intros r Hr. apply filter_In in Hr as [Hr Hh]. unfold heavy in Hh. apply Z.leb_le in Hh.
    destruct (C84_two_forks Q A Q_eq (one r) (other r) (taken_one r) (taken_other r) (p r) q (row C_eq r W) (row_nodup C_eq r W HW))
      as (K & K1 & K2 & K3 & K4).
    + intros v Hv. apply row_in in Hv. apply (H r v Hv).
    + exists K. split; [exact K1|]. split; [exact K3|]. intros v Hv. split; [apply row_in with (C_eq := C_eq); apply K2; exact Hv|].
      destruct (K4 v Hv) as (F & G & G1 & G2 & G3 & G4 & G5). exists F, G. cbv zeta.
      fold (size C_eq r W) in G2, G4.
      split; [exact G1|]. split; [nia|]. split; [exact G3|]. split; [nia|exact G5].
  - exists F. split; [exact F1|]. split; [intros [r v] Hin; apply (proj2 (F4 r v Hin))|].
    split; [|intros r v Hin; apply (proj2 (F4 r v Hin))].
    assert (HT : total (fun r => size C_eq r W) R = Z.of_nat (List.length W)).
    { apply total_size; [exact HR|]. intros [r v] Hin. apply (H r v Hin). }
    rewrite (total_split _ heavy R) in HT.
    assert (H1 : total (fun r => size C_eq r W) (filter heavy R) <= 2 * Z.of_nat (List.length F)).
    { rewrite F2. clear - F3. induction (filter heavy R) as [|r l IH]; [cbn; lia|].
      specialize (IH (fun s Hs => F3 s (or_intror Hs))). specialize (F3 r (or_introl eq_refl)).
      cbn [total fold_right] in *. unfold total in IH. lia. }
    assert (H2 : total (fun r => 2 * Z.of_nat (List.length R) * size C_eq r W) (filter (fun r => negb (heavy r)) R) <=
                 Z.of_nat (List.length (filter (fun r => negb (heavy r)) R)) * Z.of_nat (List.length W)).
    { apply total_bound. intros r Hr. apply filter_In in Hr as [_ Hr]. unfold heavy in Hr. apply negb_true_iff, Z.leb_gt in Hr. lia. }
    assert (H3 : Z.of_nat (List.length (filter (fun r => negb (heavy r)) R)) <= Z.of_nat (List.length R)).
    { rewrite (split_by heavy R). lia. }
    assert (H4 : forall l, total (fun r => 2 * Z.of_nat (List.length R) * size C_eq r W) l = 2 * Z.of_nat (List.length R) * total (fun r => size C_eq r W) l).
    { induction l as [|r l IH]; [cbn; lia|]. cbn [total fold_right] in *. unfold total in IH. rewrite IH. ring. }
    rewrite H4 in H2.
    destruct (Z.eq_dec (Z.of_nat (List.length R)) 0) as [H0|H0].
    + assert (R = []) as -> by (destruct R; [reflexivity|cbn in H0; lia]). cbn in HT. lia.
    + assert (H5 : 2 * total (fun r => size C_eq r W) (filter (fun r => negb (heavy r)) R) <= Z.of_nat (List.length W)) by nia. lia.
Qed.
Print Assumptions C86_two_forks.

(** Coins for a run in which somebody passes for the owner of an entry that was made for the
    number [n] with the opening [opening]. *)
Definition passes_for {E : Ext} (i : Issuer E) x1 (n opening : scalar) (p : prover transcript (SignalCredentialPresentation E))
    (v : list scalar) : Prop :=
  let params := iss_system_parameters i in
  exists pr c d,
    proved transcript_eq_dec (owner_question i x1) (owner_verified i x1 p) v = Some (pr, c) /\
    taken_presentation (sc_presentation pr) c /\
    proved transcript_eq_dec (membership_question params) (owner_verified i x1 p) v = Some (pr, d) /\
    taken_membership pr d /\
    pr_rerandomized_nonce (sc_presentation pr) <> pzero /\
    sc_roster_entry_commitment pr = padd (smul n (sp_h params)) (smul opening (sp_g params)).

(** Coins for a run in which somebody is taken for the owner of an entry of a roster.  The entries
    were made for the numbers and with the openings of a list. *)
Definition passes_for_one_of {E : Ext} (i : Issuer E) x1 (roster : list (scalar * scalar)) (p : prover transcript (SignalCredentialPresentation E))
    (v : list scalar) : Prop :=
  let params := iss_system_parameters i in
  exists pr c d,
    proved transcript_eq_dec (owner_question i x1) (owner_verified i x1 p) v = Some (pr, c) /\
    taken_presentation (sc_presentation pr) c /\
    proved transcript_eq_dec (membership_question params) (owner_verified i x1 p) v = Some (pr, d) /\
    taken_membership pr d /\
    pr_rerandomized_nonce (sc_presentation pr) <> pzero /\
    exists n opening, In (n, opening) roster /\ sc_roster_entry_commitment pr = padd (smul n (sp_h params)) (smul opening (sp_g params)).

(** Whoever is taken for the owner of an entry of a roster has a credential for the number which that entry
    was made for, or the logarithm of h.  The issuer, its parameters, the roster, which may be of any length, and the
    prover, which chooses the entry, depend on coins in any way. *)
Theorem C86_roster : forall E, ExtLaws E -> forall C (C_eq : forall x y : C, {x = y} + {x <> y})
    (i : C -> Issuer E) (x1 : C -> scalar) (roster : C -> list (scalar * scalar)) (p : C -> prover transcript (SignalCredentialPresentation E)) (R : list C) q W,
  (forall r, In r R -> consistent (i r) /\ sk_xn (kp_secret (iss_keypair (i r))) = [x1 r]) ->
  NoDup R -> NoDup W ->
  (forall r v, In (r, v) W -> In r R /\ List.length v = q /\ Forall canonical v /\
     passes_for_one_of (i r) (x1 r) (roster r) (p r) v) ->
  exists H : list (C * list scalar),
    NoDup H /\ incl H W /\ Z.of_nat (List.length W) <= 4 * Z.of_nat (List.length H) /\
    forall r v, In (r, v) H -> exists F G : list (list scalar),
      let many l := Z.of_nat (List.length W) <= Z.of_nat (List.length R) * (8 * Z.of_nat q * (Z.of_nat (List.length l) + ell ^ (Z.of_nat q - 1))) in
      NoDup F /\ many F /\ NoDup G /\ many G /\
      forall v' v'', In v' F -> In v'' G ->
        (List.length v' = q /\ Forall canonical v') /\ (List.length v'' = q /\ Forall canonical v'') /\
        let params := iss_system_parameters (i r) in
        let shown := proved transcript_eq_dec (owner_question (i r) (x1 r)) (owner_verified (i r) (x1 r) (p r)) in
        let owned := proved transcript_eq_dec (membership_question params) (owner_verified (i r) (x1 r) (p r)) in
        let shown_at := asked_at transcript_eq_dec (owner_question (i r) (x1 r)) (owner_verified (i r) (x1 r) (p r)) v in
        let owned_at := asked_at transcript_eq_dec (membership_question params) (owner_verified (i r) (x1 r) (p r)) v in
        exists pr c pr' c' pr'' c'',
          shown v = Some (pr, c) /\ shown (forked shown_at v v') = Some (pr', c') /\ owned (forked owned_at v v'') = Some (pr'', c'') /\
          exists n opening, In (n, opening) (roster r) /\
            sc_roster_entry_commitment pr = padd (smul n (sp_h params)) (smul opening (sp_g params)) /\
            let t := owner_tag params (smul (x1 r) (sp_h params)) n pr pr' pr'' in
            (tag_nonce t <> pzero /\ mac_equation (kp_secret (iss_keypair (i r))) [n] t \/
             sp_h params = smul (owner_log n opening pr pr'') (sp_g params)).
Proof.
  intros E L C C_eq i x1 roster p R q W Hi HR HW H.
  destruct (C86_two_forks transcript (SignalCredentialPresentation E) C transcript_eq_dec C_eq
    (fun r => owner_question (i r) (x1 r)) (fun r => membership_question (iss_system_parameters (i r)))
    (fun r pr c => taken_presentation (sc_presentation pr) c /\ pr_rerandomized_nonce (sc_presentation pr) <> pzero /\
      exists n opening, In (n, opening) (roster r) /\
        sc_roster_entry_commitment pr = padd (smul n (sp_h (iss_system_parameters (i r)))) (smul opening (sp_g (iss_system_parameters (i r)))))
    (fun _ => taken_membership) (fun r => owner_verified (i r) (x1 r) (p r)) R q W HR HW) as (K & K1 & K2 & K3 & K4).
  { intros r v Hin. destruct (H r v Hin) as (A1 & A2 & A3 & pr & c & d & B1 & B2 & B3 & B4 & B5 & B6).
    split; [exact A1|]. split; [exact A2|]. split; [exact A3|]. exists pr, c, d. auto 10. }
  exists K. split; [exact K1|]. split; [exact K2|]. split; [exact K3|]. intros r v Hrv.
  destruct (K4 r v Hrv) as (F & G & F1 & F2 & G1 & G2 & K5). exists F, G. intros many.
  split; [exact F1|]. split; [exact F2|]. split; [exact G1|]. split; [exact G2|]. intros v' v'' I1 I2.
  destruct (K5 v' v'' I1 I2) as (L1 & L2 & pr & c & d & pr' & c' & pr'' & d'' &
    (P1 & (_ & T1 & T1') & TN & n & opening & TI & TR) & (P2 & T2 & T2') & (P3 & ((_ & T3 & T3') & _) & Q3 & N3) & (P4 & (T4 & T4') & Q4 & N4)).
  split; [exact L1|]. split; [exact L2|]. intros params shown owned shown_at owned_at.
  exists pr, c, pr', c', pr'', d''. split; [exact P1|]. split; [exact P3|]. split; [exact P4|].
  exists n, opening. split; [exact TI|]. split; [exact TR|]. intros tag.
  destruct (H r v (K2 _ Hrv)) as (Hr & _). destruct (Hi r Hr) as [Hc Hx].
  destruct (C18_rewinding E L (i r) (x1 r) (sc_presentation pr) (sc_presentation pr')
    (hd pzero (pr_attributes_blinded (sc_presentation pr))) (hd pzero (pr_attributes_blinded (sc_presentation pr')))
    (fun _ => c) (fun _ => c') Hc Hx T1' T3' (eq_sym Q3) N3) as (_ & _ & _ & M1 & M2).
  fold params in TR, M1, M2.
  change (membership_question params pr'' = membership_question params pr) in Q4.
  unfold membership_question, membership_hashed in Q4.
  apply (ce_transcript_inj L) in Q4 as (_ & Hq & Hcom). rewrite Hq in Hcom.
  assert (Hne : ce_challenge (sc_roster_membership_proof pr) mod ell <> ce_challenge (sc_roster_membership_proof pr'') mod ell)
    by (rewrite T2', T4'; exact N4).
  destruct (C21_membership_sound E L params _ _ _ _ _ Hne (eq_sym Hcom)) as [S1 S2].
  fold (entry_witness pr pr'') in S1, S2. fold (owner_witness pr pr') in M1, M2.
  set (w := owner_witness pr pr') in *. set (o := entry_witness pr pr'') in *. set (P := pr_rerandomized_nonce (sc_presentation pr)) in *.
  destruct (Z.eq_dec (n mod ell) (ces_m0 o mod ell)) as [Hno|Hno].
  - left. split; [exact TN|]. rewrite M1 in S1.
    assert (HP : n == vcs_m0 w \/ P = smul ((ces_z0 o - vcs_z0 w) * s_inv (vcs_m0 w - ces_m0 o)) (sp_h params)).
    { destruct (same_number L P (sp_h params) _ _ _ _ S1) as [Heq|[Hz HS]].
      - left. unfold Algebra.eqm. rewrite Hno. symmetry. exact Heq.
      - right. pose proof (s_inv_spec _ Hz) as Hinv.
        rewrite Z.mul_comm, (smul_mul L), <- HS, <- (smul_mul L). rewrite (smul_eqm L _ 1 P Hinv). symmetry. apply smul_1. }
    destruct M2 as [_ M2]. split; [rewrite Hx; reflexivity|].
    unfold tag, owner_tag. fold w o P. cbn [tag_mac tag_nonce] in *. rewrite M2, Hx. cbn [dot].
    set (t := (ces_z0 o - vcs_z0 w) * s_inv (vcs_m0 w - ces_m0 o)) in *.
    destruct HP as [He|HP].
    + assert (Hz : (n - vcs_m0 w) * t == 0) by (rewrite He; apply eqm_of_eq; zring).
      rewrite (smul_eqm L _ 0 _ Hz), smul_0.
      rewrite (smul_eqm L _ (sk_x0 (kp_secret (iss_keypair (i r))) + (x1 r * n + 0)) P); [apply (padd_zero_r L)|].
      rewrite He. reflexivity.
    + rewrite HP. generalize (vcs_m0 w), t, (sp_h params), (sk_x0 (kp_secret (iss_keypair (i r)))), n, (x1 r). clear - L. intros. pring L.
  - right. unfold owner_log. fold o.
    apply (C30_binding E L (sc_roster_entry_commitment pr) n (ces_m0 o) opening (ces_z1 o) (sp_g params) (sp_h params)).
    + unfold committed_open. apply (C30_opens_exactly E L). exact TR.
    + unfold committed_open. apply (C30_opens_exactly E L). exact S2.
    + exact Hno.
Qed.
Print Assumptions C86_roster.

(** The same for one entry. *)
Theorem C86_owner : forall E, ExtLaws E -> forall C (C_eq : forall x y : C, {x = y} + {x <> y})
    (i : C -> Issuer E) (x1 n opening : C -> scalar) (p : C -> prover transcript (SignalCredentialPresentation E)) (R : list C) q W,
  (forall r, In r R -> consistent (i r) /\ sk_xn (kp_secret (iss_keypair (i r))) = [x1 r]) ->
  NoDup R -> NoDup W ->
  (forall r v, In (r, v) W -> In r R /\ List.length v = q /\ Forall canonical v /\
     passes_for (i r) (x1 r) (n r) (opening r) (p r) v) ->
  exists H : list (C * list scalar),
    NoDup H /\ incl H W /\ Z.of_nat (List.length W) <= 4 * Z.of_nat (List.length H) /\
    forall r v, In (r, v) H -> exists F G : list (list scalar),
      let many l := Z.of_nat (List.length W) <= Z.of_nat (List.length R) * (8 * Z.of_nat q * (Z.of_nat (List.length l) + ell ^ (Z.of_nat q - 1))) in
      NoDup F /\ many F /\ NoDup G /\ many G /\
      forall v' v'', In v' F -> In v'' G ->
        (List.length v' = q /\ Forall canonical v') /\ (List.length v'' = q /\ Forall canonical v'') /\
        let params := iss_system_parameters (i r) in
        let shown := proved transcript_eq_dec (owner_question (i r) (x1 r)) (owner_verified (i r) (x1 r) (p r)) in
        let owned := proved transcript_eq_dec (membership_question params) (owner_verified (i r) (x1 r) (p r)) in
        let shown_at := asked_at transcript_eq_dec (owner_question (i r) (x1 r)) (owner_verified (i r) (x1 r) (p r)) v in
        let owned_at := asked_at transcript_eq_dec (membership_question params) (owner_verified (i r) (x1 r) (p r)) v in
        exists pr c pr' c' pr'' c'',
          shown v = Some (pr, c) /\ shown (forked shown_at v v') = Some (pr', c') /\ owned (forked owned_at v v'') = Some (pr'', c'') /\
          let t := owner_tag params (smul (x1 r) (sp_h params)) (n r) pr pr' pr'' in
          (tag_nonce t <> pzero /\ mac_equation (kp_secret (iss_keypair (i r))) [n r] t \/
           sp_h params = smul (owner_log (n r) (opening r) pr pr'') (sp_g params)).
Proof.
  intros E L C C_eq i x1 n opening p R q W Hi HR HW H.
  destruct (C86_roster E L C C_eq i x1 (fun r => [(n r, opening r)]) p R q W Hi HR HW) as (K & K1 & K2 & K3 & K4).
  { intros r v Hin. destruct (H r v Hin) as (A1 & A2 & A3 & pr & c & d & B1 & B2 & B3 & B4 & B5 & B6).
    split; [exact A1|]. split; [exact A2|]. split; [exact A3|]. exists pr, c, d.
    split; [exact B1|]. split; [exact B2|]. split; [exact B3|]. split; [exact B4|]. split; [exact B5|].
    exists (n r), (opening r). split; [left; reflexivity|exact B6]. }
  exists K. split; [exact K1|]. split; [exact K2|]. split; [exact K3|]. intros r v Hrv.
  destruct (K4 r v Hrv) as (F & G & F1 & F2 & G1 & G2 & K5). exists F, G. intros many.
  split; [exact F1|]. split; [exact F2|]. split; [exact G1|]. split; [exact G2|]. intros v' v'' I1 I2.
  destruct (K5 v' v'' I1 I2) as (L1 & L2 & pr & c & pr' & c' & pr'' & c'' & P1 & P2 & P3 & n' & o' & Hin & _ & Ht).
  split; [exact L1|]. split; [exact L2|]. intros params shown owned shown_at owned_at.
  exists pr, c, pr', c', pr'', c''. split; [exact P1|]. split; [exact P2|]. split; [exact P3|].
  destruct Hin as [He|[]]. injection He as <- <-. exact Ht.
Qed.
Print Assumptions C86_owner.

(** One of two provers holds a credential for the number in the entry and the opening; the other
    asks and gives up. *)
Definition sample_provers (b : bool) : prover transcript (SignalCredentialPresentation toy) :=
  if b then sample_owner_prover else PAsk (membership_question sample_params (sample_owner 7 7)) (fun _ => PDone (sample_owner 0 0)).
Example C86_met :
  (forall r : bool, consistent sample_issuer /\ sk_xn (kp_secret (iss_keypair sample_issuer)) = [7]) /\
  NoDup [true; false] /\ NoDup (map (pair true) sample_values) /\
  forall r v, In (r, v) (map (pair true) sample_values) ->
    In r [true; false] /\ List.length v = 2%nat /\ Forall canonical v /\ passes_for sample_issuer 7 100 17 (sample_provers r) v.
Proof.
  split; [intros _; split; [apply sample_consistent|reflexivity]|].
  split; [repeat constructor; cbn; intuition discriminate|].
  split; [repeat constructor; cbn; intuition discriminate|].
  intros r v Hin. apply in_map_iff in Hin as (u & He & Hv). injection He as <- <-.
  destruct (sample_values_in u Hv) as (c & d & -> & Hc & Hd & H1 & H2).
  split; [left; reflexivity|]. split; [exact H1|]. split; [exact H2|].
  destruct (sample_owner_proved c d Hc Hd) as [K1 K2]. exists (sample_owner c d), c, d. unfold sample_provers.
  split; [exact K1|]. split; [split; [reflexivity|split; reflexivity]|]. split; [exact K2|]. split; [split; [discriminate|reflexivity]|].
  split.
  - intros Hz. apply (f_equal (peqb pzero)) in Hz. revert Hz. vm_compute. discriminate.
  - apply toy_eq. vm_compute. reflexivity.
Qed.
(** The same prover, and a roster with two more entries. *)
Example C86_roster_met : forall v, In v sample_values ->
  passes_for_one_of sample_issuer 7 [(5, 6); (100, 17); (100, 18)] (sample_provers true) v.
Proof.
  intros v Hv. destruct C86_met as (_ & _ & _ & H).
  destruct (H true v (in_map (pair true) _ _ Hv)) as (_ & _ & _ & pr & c & d & B1 & B2 & B3 & B4 & B5 & B6).
  exists pr, c, d. split; [exact B1|]. split; [exact B2|]. split; [exact B3|]. split; [exact B4|]. split; [exact B5|].
  exists 100, 17. split; [right; left; reflexivity|exact B6].
Qed.
