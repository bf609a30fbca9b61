(** Privacy of users against somebody who watches (C82): signal-credential/src/user.rs
    and phone_number.rs, aeonflux/src/user.rs. *)
From Verif Require Import SpecObserve SignalFacts PropertiesIssue PropertiesShow PropertiesPhone PropertiesSignal CodecFacts CreatedFacts Toy.
Local Open Scope string_scope.

Section observing.
  Context {E : Ext} (L : ExtLaws E).
  Variables (i : Issuer E) (members : nat -> member E).
  Hypotheses (Hc : consistent i) (Hs : single_attribute i)
    (Hh : sp_h (iss_system_parameters i) <> pzero) (Hg : sp_g (iss_system_parameters i) <> pzero)
    (Hm : forall k, member_of i (members k)).
  Notation params := (iss_system_parameters i).

  (** An entry of a user. *)
  Definition entered (x : member E * RosterEntryCommitment E) : Prop :=
    member_of i (fst x) /\ canonical (re_opening (snd x)) /\
    re_commitment (snd x) = padd (smul (mb_number (fst x)) (sp_h params)) (smul (re_opening (snd x)) (sp_g params)).
  (** The rosters of the two worlds. *)
  Definition alike (x y : member E * RosterEntryCommitment E) : Prop :=
    entered x /\ entered y /\ re_commitment (snd x) = re_commitment (snd y).

  Definition shows_as (x : member E * RosterEntryCommitment E) (w : show_coins) : outcome CredentialError (SignalCredentialPresentation E) :=
    let '((rr, z0, zQ), (v, v')) := w in signal_show_with (mb_user (fst x)) (mb_credential (fst x)) (snd x) z0 rr zQ v v'.
  Definition show_canonical (w : show_coins) : Prop :=
    let '((b, z, zQ), (v, w)) := w in canonical b /\ canonical z /\ canonical zQ /\ vc_canonical v /\ ce_canonical w.

  Lemma shows_ok x w : entered x -> exists p, shows_as x w = Ok p.
  Proof.
    intros ((Hu & _ & [Ha _] & _) & _). destruct w as [[[rr z0] zQ] [v v']]. unfold shows_as.
    destruct (single_cons i Hs) as [x1 Hx]. pose proof (consistent_single i x1 Hc Hx) as HX.
    destruct Hu as [_ Hk]. rewrite <- Hk in HX.
    rewrite (signal_show_with_ok _ _ _ _ [] _ [] z0 rr zQ v v' Ha HX). eexists. reflexivity.
  Qed.
  Lemma shows_alike x y w p : alike x y -> shows_as x w = Ok p ->
    exists! w', show_canonical w' /\ shows_as y w' = Ok p.
  Proof.
    intros ((Hx & _ & Hxe) & (Hy & Hyo & Hye) & He) Hp.
    destruct w as [[[rr z0] zQ] [v v']]. unfold shows_as in Hp.
    destruct Hx as (Hxu & _ & Hxv & Hxn), Hy as (Hyu & _ & Hyv & Hyn).
    destruct (C66_two_members E L i _ (mb_user (fst y)) _ (mb_credential (fst y)) _ (mb_number (fst y)) (snd x) z0 rr zQ v v' p
      Hc Hs Hxu Hyu Hh Hg Hxv Hyv Hyn Hxe Hp) as ([[[[[o z0'] rr'] zQ'] u] u'] & (H1 & H2 & H3 & H4 & H5 & H6 & H7 & H8) & Huniq).
    assert (Ho : forall o', canonical o' -> re_commitment (snd x) = padd (smul (mb_number (fst y)) (sp_h params)) (smul o' (sp_g params)) ->
      o' = re_opening (snd y)).
    { intros o' Hc' H'. rewrite He in H'.
      destruct (unique_opening L (sp_g params) (smul (mb_number (fst y)) (sp_h params)) (re_commitment (snd y)) Hg) as (k & _ & Hk).
      rewrite <- (Hk o'), <- (Hk (re_opening (snd y))); auto. }
    pose proof (Ho _ H2 H1) as ->.
    assert (Hsy : {| re_commitment := re_commitment (snd x); re_opening := re_opening (snd y) |} = snd y)
      by (rewrite He; destruct (snd y); reflexivity).
    rewrite Hsy in H8.
    exists ((rr', z0', zQ'), (u, u')). split; [split; [cbn; auto|exact H8]|].
    intros [[[rr2 z2] zQ2] [u2 u2']] [(K1 & K2 & K3 & K4 & K5) K6]. unfold shows_as in K6.
    assert (Hq : (re_opening (snd y), z0', rr', zQ', u, u') = (re_opening (snd y), z2, rr2, zQ2, u2, u2')).
    { apply Huniq. rewrite Hsy. auto 10. }
    congruence.
  Qed.

  Lemma observe_alike second : forall o w roster roster',
    observed_canonical w -> Forall2 alike roster roster' ->
    exists! w', (observed_canonical w' /\ List.length (fst w') = List.length (fst w) /\ List.length (snd w') = List.length (snd w)) /\
      observe params members (negb second) o w' roster' = observe params members second o w roster.
  Proof.
    induction o as [|a b next IH|k next IH]; intros [rs shows] roster roster' [Hcr Hcs] Hr; cbn [fst snd] in Hcr, Hcs.
    - exists (rs, shows). split; [split; [split; [split; auto|auto]|reflexivity]|].
      intros w' [_ H]. cbn in H. congruence.
    - destruct rs as [|r rs].
      { exists ([], shows). split; [split; [split; [split; auto|auto]|reflexivity]|].
        intros [[|r' rs'] shows'] [([_ _] & H1 & _) H]; cbn in H1, H; [congruence|discriminate]. }
      inversion Hcr as [|? ? Hcr1 Hcr2]; subst.
      set (m := members (if second then b else a)). set (m' := members (if negb second then b else a)).
      set (C := re_commitment (entry_with params m r)).
      destruct (unique_opening L (sp_g params) (smul (mb_number m') (sp_h params)) C Hg) as (r' & [Hr1 Hr2] & Hru).
      assert (Hal : Forall2 alike (roster ++ [(m, entry_with params m r)]) (roster' ++ [(m', entry_with params m' r')])).
      { apply Forall2_app; [exact Hr|]. constructor; [|constructor]. unfold alike, entered. cbn [fst snd entry_with re_opening re_commitment].
        split; [|split]; [split; [apply Hm|auto]|split; [apply Hm|auto]|symmetry; exact Hr2]. }
      destruct (IH C (rs, shows) _ _ (conj Hcr2 Hcs) Hal) as ([rs' shows'] & (([Hk1 Hk2] & Hk3 & Hk4) & Hk5) & Hku).
      exists (r' :: rs', shows'). split.
      + split; [split; [split; [constructor; assumption|assumption]|cbn in *; lia]|].
        cbn [observe fst snd]. fold m m' C.
        replace (re_commitment (entry_with params m' r')) with C by (cbn; symmetry; exact Hr2).
        cbn [fst snd] in Hk5. rewrite Hk5. reflexivity.
      + intros [[|r2 rs2] shows2] [([J1 J2] & J3 & J4) J5]; [discriminate J3|].
        cbn [fst snd] in J1, J2, J3, J4. inversion J1 as [|? ? J6 J7]; subst.
        cbn [observe fst snd] in J5. fold m m' C in J5.
        destruct (observe params members (negb second) _ _ _) as [seen2 rest2] eqn:E2 in J5.
        destruct (observe params members second _ _ _) as [seen rest] eqn:E1 in J5.
        injection J5 as J8 J9 J10.
        assert (r' = r2) as -> by (apply Hru; auto).
        replace (re_commitment (entry_with params m' r2)) with C in E2 by (cbn; symmetry; exact Hr2).
        assert (Hq : (rs', shows') = (rs2, shows2)).
        { apply Hku. split; [split; [split; assumption|cbn in *; lia]|]. cbn [fst snd] in *. rewrite E2, E1. congruence. }
        congruence.
    - cbn [observe fst snd].
      destruct (nth_error roster k) as [[m e]|] eqn:Ek.
      2:{ assert (Ek' : nth_error roster' k = None).
          { apply nth_error_None in Ek. apply nth_error_None. assert (Hlen : List.length roster = List.length roster') by (clear - Hr; induction Hr; cbn; congruence).
            rewrite <- Hlen. exact Ek. }
          exists (rs, shows). split; [split; [split; [split; auto|auto]|rewrite Ek'; reflexivity]|].
          intros w' [_ H]. rewrite Ek' in H. congruence. }
      assert (Ek' : exists m' e', nth_error roster' k = Some (m', e') /\ alike (m, e) (m', e')).
      { clear - Hr Ek. revert k Ek. induction Hr as [|x y l l' Hxy Hr IH]; intros [|k] Ek; try discriminate.
        - injection Ek as ->. destruct y as [m' e']. exists m', e'. auto.
        - exact (IH k Ek). }
      destruct Ek' as (m' & e' & Ek' & Hal).
      destruct shows as [|w0 shows].
      { exists (rs, []). split; [split; [split; [split; auto|auto]|rewrite Ek'; reflexivity]|].
        intros [rs2 [|? ?]] [(_ & _ & H1) H]; [|discriminate H1]. rewrite Ek' in H. cbn in H. congruence. }
      inversion Hcs as [|? ? Hc1 Hc2]; subst.
      destruct (shows_ok (m, e) w0 (proj1 Hal)) as [p Hp].
      destruct (shows_alike _ _ _ _ Hal Hp) as (w1 & [Hw1 Hw2] & Hwu).
      destruct (IH p (rs, shows) _ _ (conj Hcr Hc2) Hr) as ([rs' shows'] & (([Hk1 Hk2] & Hk3 & Hk4) & Hk5) & Hku).
      exists (rs', w1 :: shows'). split.
      + split; [split; [split; [assumption|constructor; assumption]|cbn in *; lia]|].
        cbn [fst snd]. rewrite Ek'.
        destruct w0 as [[[rr z0] zQ] [v v']], w1 as [[[rr1 z1] zQ1] [v1 v1']]. unfold shows_as in Hp, Hw2. cbn [fst snd] in Hp, Hw2.
        rewrite Hp, Hw2. cbn [fst snd] in Hk5. rewrite Hk5. reflexivity.
      + intros [rs2 [|w2 shows2]] [([J1 J2] & J3 & J4) J5]; [discriminate J4|].
        cbn [fst snd] in J1, J2, J3, J4, J5. inversion J2 as [|? ? J6 J7]; subst. rewrite Ek' in J5.
        destruct (shows_ok (m', e') w2 (proj1 (proj2 Hal))) as [p2 Hp2].
        destruct w0 as [[[rr z0] zQ] [v v']], w1 as [[[rr1 z1] zQ1] [v1 v1']], w2 as [[[rr2 z2] zQ2] [v2 v2']].
        pose proof Hp as Hp'. pose proof Hp2 as Hp2'. unfold shows_as in Hp', Hp2'. cbn [fst snd] in Hp', Hp2'.
        rewrite Hp', Hp2' in J5.
        destruct (observe params members (negb second) _ _ _) as [seen2 rest2] eqn:E2 in J5.
        destruct (observe params members second _ _ _) as [seen rest] eqn:E1 in J5.
        injection J5 as J8 J9 J10. subst p2.
        assert (Hq1 : ((rr1, z1, zQ1), (v1, v1')) = ((rr2, z2, zQ2), (v2, v2'))) by (apply Hwu; split; [exact J6|exact Hp2]).
        assert (Hq : (rs', shows') = (rs2, shows2)).
        { apply Hku. split; [split; [split; assumption|cbn in *; lia]|]. cbn [fst snd] in *. rewrite E2, E1. congruence. }
        congruence.
  Qed.
End observing.

(** ** C82: who watches a group sees nothing of who is in it *)

(** Whatever is seen in one world is seen in the other with exactly one choice of the
    random scalars, and the same scalars are left then.  So all that can be seen is
    equally likely in both worlds. *)
Theorem C82_same_view : forall E, ExtLaws E -> forall (i : Issuer E) (members : nat -> member E) second o w,
  consistent i -> single_attribute i ->
  sp_h (iss_system_parameters i) <> pzero -> sp_g (iss_system_parameters i) <> pzero ->
  (forall k, member_of i (members k)) -> observed_canonical w ->
  exists! w', (observed_canonical w' /\ List.length (fst w') = List.length (fst w) /\ List.length (snd w') = List.length (snd w)) /\
    observe (iss_system_parameters i) members (negb second) o w' [] = observe (iss_system_parameters i) members second o w [].
Proof.
  intros E L i members second o w Hc Hs Hh Hg Hm Hw. apply (observe_alike L i members Hc Hs Hh Hg Hm); [exact Hw|constructor].
Qed.
Print Assumptions C82_same_view.

(** In numbers: whatever is concluded from what is seen, it is concluded for as many
    choices of [N] openings and the scalars of [K] presentations in either world. *)
Theorem C82_same_chance : forall E, ExtLaws E -> forall (i : Issuer E) (members : nat -> member E) o (conclude : list (sight E) -> bool) N K,
  consistent i -> single_attribute i ->
  sp_h (iss_system_parameters i) <> pzero -> sp_g (iss_system_parameters i) <> pzero ->
  (forall k, member_of i (members k)) ->
  let concludes second (w : observed_coins) :=
    (observed_canonical w /\ List.length (fst w) = N /\ List.length (snd w) = K) /\
    conclude (fst (observe (iss_system_parameters i) members second o w [])) = true in
  forall second l, NoDup l -> Forall (concludes second) l ->
  exists l', NoDup l' /\ Forall (concludes (negb second)) l' /\ List.length l' = List.length l.
Proof.
  intros E L i members o conclude N K Hc Hs Hh Hg Hm concludes second.
  assert (Hstep : forall b w, concludes b w -> exists w', concludes (negb b) w' /\
    observe (iss_system_parameters i) members (negb b) o w' [] = observe (iss_system_parameters i) members b o w []).
  { intros b w [(Hw & H1 & H2) H3].
    destruct (C82_same_view E L i members b o w Hc Hs Hh Hg Hm Hw) as (w' & ((K1 & K2 & K3) & K4) & _).
    exists w'. split; [|exact K4]. split; [split; [exact K1|lia]|]. rewrite K4. exact H3. }
  assert (Hgo : forall l, NoDup l -> Forall (concludes second) l -> exists l', NoDup l' /\ Forall (concludes (negb second)) l' /\
      List.length l' = List.length l /\ Forall2 (fun w w' => observe (iss_system_parameters i) members (negb second) o w' [] =
        observe (iss_system_parameters i) members second o w []) l l').
    { induction l as [|w l IH]; intros Hn Hl; [exists []; repeat constructor|].
      inversion Hn as [|? ? Hn1 Hn2]; inversion Hl as [|? ? Hl1 Hl2]; subst.
      destruct (IH Hn2 Hl2) as (l' & H1 & H2 & H3 & H4). destruct (Hstep _ _ Hl1) as (w' & K1 & K2).
      exists (w' :: l'). split; [|split; [constructor; assumption|split; [cbn; lia|constructor; assumption]]].
      constructor; [|exact H1]. intros Hin.
      assert (Hex : exists w2, In w2 l /\ observe (iss_system_parameters i) members (negb second) o w' [] =
        observe (iss_system_parameters i) members second o w2 []).
      { clear - H4 Hin. induction H4 as [|x y l l' Hxy H4 IH]; [destruct Hin|].
        destruct Hin as [<-|Hin]; [exists x; split; [left; reflexivity|exact Hxy]|].
        destruct (IH Hin) as (w2 & J1 & J2). exists w2. split; [right; exact J1|exact J2]. }
      destruct Hex as (w2 & J1 & J2).
      destruct K1 as [(K5 & K6 & K7) _]. destruct Hl1 as [(L1 & L2 & L3) _].
      rewrite Forall_forall in Hl2. destruct (Hl2 w2 J1) as [(M1 & M2 & M3) _].
      destruct (C82_same_view E L i members (negb second) o w' Hc Hs Hh Hg Hm K5) as (v & _ & Hu).
      rewrite Bool.negb_involutive in Hu.
      assert (w = w2); [|congruence].
      rewrite <- (Hu w), <- (Hu w2); [reflexivity| |]; (split; [split; [assumption|lia]|congruence]). }
  intros l Hn Hl. destruct (Hgo l Hn Hl) as (l' & H1 & H2 & H3 & _). exists l'. auto.
Qed.
Print Assumptions C82_same_chance.

(** An entry made by [RosterEntryCommitment::create] for the user's number is the
    entry of the game.  That [show] is [signal_show_with] is C66_show_is_show_with. *)
Theorem C82_join_is_create : forall E, ExtLaws E -> forall (params : SystemParameters E) (m : member E) b r entry r',
  try_from_bytes b = Ok (mb_number m) -> roster_create b params r = Ok (entry, r') ->
  entry = entry_with params m (fst (scalar_random r)) /\ canonical (fst (scalar_random r)).
Proof.
  intros E L params m b r entry r' Hb H. unfold roster_create, ephemeral_new in H.
  destruct (scalar_random r) as [k r1] eqn:Hk. rewrite Hb in H. cbn [bind] in H. injection H as <- _.
  split; [reflexivity|]. cbn [fst]. pose proof (scalar_random_canonical r) as Hcan. rewrite Hk in Hcan. exact Hcan.
Qed.
Print Assumptions C82_join_is_create.

(** The condition on the nonces is needed, and no user checks it: an issuer may mark
    a user with a credential whose nonce is the identity.  [obtain_finish] takes it, all
    presentations of that user are accepted, and all have the identity as nonce.  Those of others have
    it only if the scalar that re-randomises the tag is zero. *)
Definition marked_issuance {E : Ext} (params : SystemParameters E) (X1 : point E) (x0 x1 y m : scalar) (rand : ir_Scalars)
  : CredentialIssuance E :=
  let q := {| irp_P := pzero; irp_Q := pzero; irp_Cx0 := padd (smul x0 (sp_g params)) (smul y (sp_h params));
              irp_B := sp_g params; irp_A := sp_h params; irp_X1 := X1 |} in
  {| is_secret_key_commitment := irp_Cx0 q;
     is_credential := {| cr_mac := {| tag_nonce := pzero; tag_mac := pzero |}; cr_attributes := [m] |};
     is_proof := ir_create_with (ir_create_absorb issuance_transcript q) q
       {| irs_x0 := x0; irs_x1 := x1; irs_x0_tilde := y; irs_m1x1 := s_mul m x1 |} rand |}.
Theorem C82_marked_refuted : forall E, ExtLaws E -> forall (i : Issuer E) x1 (u : SignalUser E) m y rand,
  consistent i -> sk_xn (kp_secret (iss_keypair i)) = [x1] -> user_of i (su_user u) ->
  let params := iss_system_parameters i in
  let iss := marked_issuance params (smul x1 (sp_h params)) (sk_x0 (kp_secret (iss_keypair i))) x1 y m rand in
  snd (signal_obtain_finish u (Some iss)) = Ok tt /\
  (forall r os entry p r' os', signal_show (fst (signal_obtain_finish u (Some iss))) r os entry = Ok (p, r', os') ->
     pr_rerandomized_nonce (sc_presentation p) = pzero /\ signal_verify i p = Ok {| vs_presentation := p |}) /\
  (forall mb r os entry p r' os', member_of i mb -> signal_show (mb_user mb) r os entry = Ok (p, r', os') ->
     let rr := fst (scalar_random (@show_csprng E (snd (scalar_random r)))) in
     (pr_rerandomized_nonce (sc_presentation p) = pzero <-> rr = 0)).
Proof.
  intros E L i x1 u m y rand Hc Hx [Hp Hk] params iss.
  pose proof (consistent_single i x1 Hc Hx) as HX. fold params in HX.
  assert (HXu : pk_Xn (us_issuer_parameters (su_user u)) = [smul x1 (sp_h params)]) by (rewrite Hk; exact HX).
  assert (Hok : snd (obtain_finish (su_user u) (Some iss)) = Ok tt).
  { apply obtain_finish_ok. eexists _, _. split; [exact HXu|]. rewrite Hp. fold params.
    unfold issuance_publics, iss, marked_issuance. cbn [is_proof is_credential cr_mac tag_nonce tag_mac is_secret_key_commitment irp_Cx0].
    apply (ir_complete L). unfold ir_relation. cbn.
    rewrite !(smul_pzero L). split; [symmetry; apply (padd_zero_r L)|auto]. }
  assert (Hu' : fst (signal_obtain_finish u (Some iss)) =
    {| su_phone_number := su_phone_number u;
       su_user := {| us_system_parameters := us_system_parameters (su_user u); us_issuer_parameters := us_issuer_parameters (su_user u);
                     us_key := us_key (su_user u); us_credential := Some (is_credential iss) |} |}).
  { unfold signal_obtain_finish. rewrite (obtain_finish_accept _ _ Hok). reflexivity. }
  split; [unfold signal_obtain_finish; destruct (obtain_finish _ _) as [? ?]; exact Hok|]. split.
  - intros r os entry p r' os' Hsh. rewrite Hu' in Hsh.
    match type of Hsh with signal_show ?v _ _ _ = _ => set (u' := v) in * end.
    destruct (signal_show_ok u' (is_credential iss) m [] _ [] entry r os eq_refl eq_refl HXu) as (v & v' & r1 & os1 & Hs1).
    rewrite Hsh in Hs1. cbv zeta in Hs1.
    apply ok3 in Hs1 as [-> _]. cbn [sc_presentation].
    change (us_system_parameters (su_user u')) with (us_system_parameters (su_user u)). rewrite Hp. fold params.
    split; [cbn; apply (smul_pzero L)|].
    apply signal_verify_ok. cbn [sc_presentation]. apply (shown_verify L i _ x1 m); [exact Hc|exact Hx|].
    unfold mac_equation. rewrite Hx. cbn. rewrite ?(smul_pzero L). auto.
  - intros mb r os entry p r' os' ([Hp2 Hk2] & Hcr & [Ha _] & Hn) Hsh rr.
    assert (HX2 : pk_Xn (us_issuer_parameters (su_user (mb_user mb))) = [smul x1 (sp_h params)]) by (rewrite Hk2; exact HX).
    destruct (signal_show_ok (mb_user mb) (mb_credential mb) (mb_number mb) [] _ [] entry r os Hcr Ha HX2) as (v & v' & r1 & os1 & Hs1).
    rewrite Hsh in Hs1. cbv zeta in Hs1. apply ok3 in Hs1 as [-> _]. cbn [sc_presentation shown pr_rerandomized_nonce].
    fold rr. split.
    + intros H. apply (smul_zero_iff L) in H; [|exact Hn].
      apply eqm_canonical in H; [exact H|apply scalar_random_canonical|]. unfold canonical. pose proof ell_pos. lia.
    + intros ->. apply smul_0.
Qed.
Print Assumptions C82_marked_refuted.

(** Two users, and an adversary who lets one of them join and present twice, and then the
    other one or again the same. *)
Definition sample_members (k : nat) : member toy :=
  match k with
  | O => {| mb_user := sample_signal_holder; mb_credential := sample_credential; mb_number := 100 |}
  | _ => {| mb_user := sample_signal_holder2; mb_credential := sample_credential2; mb_number := 200 |}
  end.
Definition sample_observer : observer toy :=
  OJoin 0 1 (fun _ => OShow 0 (fun p => OShow 0 (fun p' =>
    if peqb (pr_rerandomized_nonce (sc_presentation p)) (pr_rerandomized_nonce (sc_presentation p')) then OStop
    else OJoin 1 1 (fun _ => OShow 1 (fun _ => OStop))))).
Definition sample_observed : observed_coins :=
  ([17; 18], map (fun k => ((k, 2, 3), ({| vcs_m0 := 4; vcs_z0 := 5; vcs_minus_zQ := 6 |}, {| ces_m0 := 7; ces_z0 := 8; ces_z1 := 9 |})))
    [1; 2; 3; 4]).
Example C82_met : consistent sample_issuer /\ single_attribute sample_issuer /\
  sp_h (iss_system_parameters sample_issuer) <> pzero /\ sp_g (iss_system_parameters sample_issuer) <> pzero /\
  (forall k, member_of sample_issuer (sample_members k)) /\ observed_canonical sample_observed /\
  (let '(seen, rest) := observe sample_params sample_members false sample_observer sample_observed [] in
   List.length seen = 5%nat /\ List.length (snd rest) = 1%nat) /\
  (* different scalars, the other user: the same entry *)
  (match observe sample_params sample_members false sample_observer ([17], []) [],
         observe sample_params sample_members true sample_observer ([(17 - 3300) mod ell], []) [] with
   | ([SEntry C], _), ([SEntry C'], _) => C = C'
   | _, _ => False
   end).
Proof.
  destruct C66_met as (H1 & H2 & H3 & H4 & H5 & H6 & H7 & H8 & H9 & _).
  split; [exact H1|]. split; [exact H2|]. split; [exact H5|]. split; [exact H6|].
  split; [intros [|k]; (split; [assumption|split; [reflexivity|split; [assumption|]]])|].
  - intros H; apply (f_equal tv) in H; vm_compute in H; discriminate.
  - exact H9.
  - split.
    + pose proof ell_gt_252. unfold observed_canonical, shows_canonical, canonical, vc_canonical, ce_canonical, sample_observed.
      cbn [fst snd map vcs_m0 vcs_z0 vcs_minus_zQ ces_m0 ces_z0 ces_z1]. split;
        repeat match goal with |- Forall _ [] => constructor | |- Forall _ (_ :: _) => constructor | |- _ /\ _ => split | |- canonical _ => unfold canonical; cbn | |- ?x < _ => exact (Z.lt_trans x (2 ^ 252) ell eq_refl H) | |- _ => discriminate end.
    + split; [vm_compute; auto|]. cbn [observe sample_observer fst snd sample_members mb_number re_commitment entry_with].
      apply toy_eq; vm_compute; reflexivity.
Qed.
