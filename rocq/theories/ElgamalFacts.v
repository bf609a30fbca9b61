(** Counting for C88. *)
From Verif Require Export SpecElgamal GameFacts ForkFacts PropertiesGame.
From Coq Require Import Setoid.
Local Open Scope Z_scope.

(** ** [exactly] *)
Lemma exactly_le {A B} (P : A -> Prop) (Q : B -> Prop) (R : A -> B -> Prop) p q :
  exactly p P -> exactly q Q ->
  (forall x, P x -> exists y, Q y /\ R x y) ->
  (forall x x' y, P x -> P x' -> R x y -> R x' y -> x = x') ->
  p <= q.
Proof.
  intros (l & Hl & HP & <-) (l' & Hl' & HQ & <-) Ht Hi.
  assert (H : exists k, List.length k = List.length l /\ NoDup k /\ (forall y, In y k -> Q y /\ exists x, In x l /\ R x y)).
  { assert (HP' : forall x, In x l -> P x) by (intros x; apply HP). clear HP.
    induction l as [|x l IH]; [exists []; repeat split; try constructor; destruct H|].
    inversion Hl as [|? ? Hn Hl0]; subst. destruct IH as (k & K1 & K2 & K3); [exact Hl0|intros y Hy; apply HP'; right; exact Hy|].
    destruct (Ht x (HP' x (or_introl eq_refl))) as (y & Hy & Hr). exists (y :: k).
    split; [cbn; rewrite K1; reflexivity|]. split.
    - constructor; [|exact K2]. intros Hin. destruct (K3 y Hin) as (_ & x' & Hx' & Hr').
      rewrite (Hi x x' y (HP' x (or_introl eq_refl)) (HP' x' (or_intror Hx')) Hr Hr') in Hn. contradiction.
    - intros z [<-|Hz]; [split; [exact Hy|exists x; split; [left; reflexivity|exact Hr]]|].
      destruct (K3 z Hz) as (Hq & x' & Hx' & Hr'). split; [exact Hq|]. exists x'. split; [right; exact Hx'|exact Hr']. }
  destruct H as (k & K1 & K2 & K3). apply inj_le. rewrite <- K1. apply NoDup_incl_length; [exact K2|].
  intros y Hy. apply HQ, K3, Hy.
Qed.
Lemma exactly_same {A} (P Q : A -> Prop) p q : exactly p P -> exactly q Q -> (forall x, P x <-> Q x) -> p = q.
Proof.
  intros H1 H2 H. apply Z.le_antisymm.
  - apply (exactly_le P Q eq p q H1 H2); [intros x Hx; exists x; split; [apply H; exact Hx|reflexivity]|congruence].
  - apply (exactly_le Q P eq q p H2 H1); [intros x Hx; exists x; split; [apply H; exact Hx|reflexivity]|congruence].
Qed.
Lemma exactly_prod {A B} (P : A -> Prop) (Q : B -> Prop) p q :
  exactly p P -> exactly q Q -> exactly (p * q) (fun xy => P (fst xy) /\ Q (snd xy)).
Proof.
  intros (l & Hl & HP & <-) (l' & Hl' & HQ & <-). exists (list_prod l l'). split; [|split].
  - clear HP HQ. induction Hl as [|x l Hn Hl IH]; [constructor|]. cbn [list_prod].
    apply nodup_app; [apply FinFun.Injective_map_NoDup; [intros a b; congruence|exact Hl']|exact IH|].
    intros [a b] H1 H2. apply in_map_iff in H1 as (c & Hc & _). apply in_prod_iff in H2 as [H2 _]. congruence.
  - intros [x y]. rewrite in_prod_iff, HP, HQ. reflexivity.
  - rewrite prod_length, Nat2Z.inj_mul. reflexivity.
Qed.
Lemma exactly_split {A} (P : A -> Prop) (b : A -> bool) p : exactly p P ->
  exists p1 p2, exactly p1 (fun x => P x /\ b x = true) /\ exactly p2 (fun x => P x /\ b x = false) /\ p = p1 + p2.
Proof.
  intros (l & Hl & HP & <-). exists (Z.of_nat (List.length (filter b l))), (Z.of_nat (List.length (filter (fun x => negb (b x)) l))).
  split; [|split].
  - exists (filter b l). split; [apply NoDup_filter; exact Hl|]. split; [|reflexivity].
    intros x. rewrite filter_In, HP. reflexivity.
  - exists (filter (fun x => negb (b x)) l). split; [apply NoDup_filter; exact Hl|]. split; [|reflexivity].
    intros x. rewrite filter_In, HP, Bool.negb_true_iff. reflexivity.
  - clear. induction l as [|x l IH]; [reflexivity|]. cbn [filter]. destruct (b x); cbn [negb List.length]; lia.
Qed.
Lemma exactly_scalars n : exactly (ell ^ Z.of_nat n) (given_scalars n).
Proof.
  destruct (range_exists ell ltac:(pose proof ell_pos; lia)) as (R & R1 & R2 & R3).
  exists (tuples R n). split; [apply (tuples_nodup R R1)|]. split; [|apply (tuples_length R R3)].
  intros v. apply (in_tuples R R2).
Qed.
Lemma exactly_canonical : exactly ell canonical.
Proof.
  destruct (range_exists ell ltac:(pose proof ell_pos; lia)) as (R & R1 & R2 & R3). exists R. auto.
Qed.

(** ** The reduction *)
Section reduction.
  Context {E : Ext} (L : ExtLaws E).

  Lemma says_map {X Y} (enc : point E -> X -> Encryption E) (enc' : point E -> Y -> Encryption E) (f : X -> Y) second :
    (forall m x, enc m x = enc' m (f x)) ->
    forall coins c, says enc second c coins = says enc' second c (map f coins).
  Proof.
    intros H. induction coins as [|x coins IH]; intros [b|m m' next]; try reflexivity.
    cbn [says map]. rewrite H. apply IH.
  Qed.

  (** On a Diffie-Hellman secret the encryptions are encryptions. *)
  Definition nonce_of (b : scalar) (uv : scalar * scalar) : scalar := (b * fst uv + snd uv) mod ell.
  Lemma pretended_secret a b m uv :
    pretended (smul a basepoint) (smul b basepoint) (smul (a * b) basepoint) m uv =
    elgamal_encrypt (E := E) (smul a basepoint) m (nonce_of b uv).
  Proof.
    destruct uv as [u v]. unfold pretended, elgamal_encrypt, nonce_of. cbn [fst snd]. dlogs L. f_equal.
    - to_base L. apply (smul_base_iff L). rewrite eqm_mod. apply eqm_of_eq; ring.
    - to_base L. apply (smul_base_iff L). rewrite eqm_mod. apply eqm_of_eq; ring.
  Qed.
  Definition coins_of (b : scalar) (rs us : list scalar) : list (scalar * scalar) :=
    map (fun ru => (snd ru, (fst ru - b * snd ru) mod ell)) (combine rs us).
  Lemma nonces_coins b rs us : List.length rs = List.length us -> Forall canonical rs ->
    map (nonce_of b) (coins_of b rs us) = rs.
  Proof.
    unfold coins_of. revert us; induction rs as [|r rs IH]; intros [|u us] Hl Hc; try discriminate; [reflexivity|].
    inversion Hc as [|? ? H1 H2]; subst. cbn [combine map]. f_equal; [|apply IH; [cbn in Hl; congruence|exact H2]].
    unfold nonce_of. cbn [fst snd]. apply eqm_canonical; [apply Z.mod_pos_bound, ell_pos|exact H1|].
    rewrite !eqm_mod. apply eqm_of_eq; ring.
  Qed.
  Lemma coins_nonces b coins : Forall (fun uv => canonical (fst uv) /\ canonical (snd uv)) coins ->
    coins_of b (map (nonce_of b) coins) (map fst coins) = coins.
  Proof.
    unfold coins_of. induction 1 as [|[u v] coins [H1 H2] Hc IH]; [reflexivity|]. cbn [map combine fst snd]. rewrite IH.
    f_equal. f_equal. unfold nonce_of. cbn [fst snd] in *. apply eqm_canonical; [apply Z.mod_pos_bound, ell_pos|exact H2|].
    rewrite !eqm_mod. apply eqm_of_eq; ring.
  Qed.
  Lemma fst_coins b rs us : List.length rs = List.length us -> map fst (coins_of b rs us) = us.
  Proof.
    unfold coins_of. revert us; induction rs as [|r rs IH]; intros [|u us] Hl; try discriminate; [reflexivity|].
    cbn [combine map fst snd]. rewrite IH; [reflexivity|cbn in Hl; congruence].
  Qed.
  Lemma coins_length b rs us : List.length rs = List.length us -> List.length (coins_of b rs us) = List.length us.
  Proof. intros H. unfold coins_of. rewrite map_length, combine_length, H. apply Nat.min_id. Qed.
  Lemma coins_canonical b rs us : Forall canonical us ->
    Forall (fun uv => canonical (fst uv) /\ canonical (snd uv)) (coins_of b rs us).
  Proof.
    intros H. unfold coins_of. revert rs; induction H as [|u us H1 H IH]; intros [|r rs]; cbn [combine map]; try constructor.
    - cbn [fst snd]. split; [exact H1|apply Z.mod_pos_bound, ell_pos].
    - apply IH.
  Qed.

  Lemma overhears_secret second e a b coins :
    tells_apart second e (smul a basepoint) (smul b basepoint) (smul (a * b) basepoint) coins =
    overhears (E := E) second e a (map (nonce_of b) coins).
  Proof.
    unfold tells_apart, overhears, elgamal_public_of_secret. apply says_map. intros m x. apply pretended_secret.
  Qed.

  Lemma on_secrets second e n w t :
    exactly w (hears (E := E) second e n) -> exactly t (says_on_secret second e n) -> t = ell ^ Z.of_nat (S n) * w.
  Proof.
    intros Hw Ht. rewrite Nat2Z.inj_succ, Z.pow_succ_r by lia.
    pose proof (exactly_prod _ _ _ _ Hw (exactly_prod _ _ _ _ exactly_canonical (exactly_scalars n))) as Hp.
    transitivity (w * (ell * ell ^ Z.of_nat n)); [|ring].
    apply Z.le_antisymm.
    - apply (exactly_le _ _ (fun x y => y = ((fst (fst x), map (nonce_of (snd (fst x))) (snd x)), (snd (fst x), map fst (snd x)))) _ _ Ht Hp).
      + intros [[a b] coins] (Ha & Hb & [Hl Hc] & H). eexists. split; [|reflexivity]. cbn [fst snd].
        unfold hears. cbn [fst snd]. rewrite <- overhears_secret.
        split; [split; [exact Ha|]; split; [|exact H]|]; [|split; [exact Hb|]].
        * split; [rewrite map_length; exact Hl|]. apply Forall_forall. intros r Hr. apply in_map_iff in Hr as (uv & <- & _).
          apply Z.mod_pos_bound, ell_pos.
        * split; [rewrite map_length; exact Hl|]. rewrite Forall_forall in *. intros u Hu. apply in_map_iff in Hu as (uv & <- & Huv).
          apply (Hc uv Huv).
      + intros [[a b] coins] [[a' b'] coins'] y (_ & _ & [_ Hc] & _) (_ & _ & [_ Hc'] & _) -> Heq. cbn [fst snd] in Heq.
        injection Heq as H1 H2 H3 H4. subst a' b'. f_equal.
        rewrite <- (coins_nonces b coins Hc), <- (coins_nonces b coins' Hc'), H2, H4. reflexivity.
    - apply (exactly_le _ _ (fun y x => x = (fst (fst y), fst (snd y), coins_of (fst (snd y)) (snd (fst y)) (snd (snd y)))) _ _ Hp Ht).
      + intros [[a rs] [b us]] [(Ha & [Hrl Hr] & H) [Hb [Hul Hu]]]. cbn [fst snd] in *. eexists. split; [|reflexivity].
        unfold says_on_secret. split; [exact Ha|]. split; [exact Hb|]. split.
        * split; [rewrite coins_length by congruence; exact Hul|apply coins_canonical; exact Hu].
        * rewrite overhears_secret, nonces_coins by (try congruence; exact Hr). exact H.
      + intros [[a rs] [b us]] [[a' rs'] [b' us']] x [(_ & [Hrl Hr] & _) [_ [Hul _]]] [(_ & [Hrl' Hr'] & _) [_ [Hul' _]]] -> Heq.
        cbn [fst snd] in *. injection Heq as H1 H2 H3. subst a' b'.
        assert (K1 : us = us') by (rewrite <- (fst_coins b rs us), <- (fst_coins b rs' us'), H3 by congruence; reflexivity).
        assert (K2 : rs = rs') by (rewrite <- (nonces_coins b rs us), <- (nonces_coins b rs' us'), H3 by (try congruence; assumption); reflexivity).
        congruence.
  Qed.

  (** On anything else they are the same whichever message they are for. *)
  Fixpoint view {X} (enc : point E -> X -> Encryption E) (second : bool) (c : chooser E) (coins : list X) : list (Encryption E) * list X :=
    match c, coins with
    | Chooses m m' next, r :: coins' =>
      let x := enc (if second then m' else m) r in
      let (seen, left) := view enc second (next x) coins' in (x :: seen, left)
    | _, _ => ([], coins)
    end.
  Section other.
    Context (a b c : scalar) (Hc : ~ c == a * b).
    Let enc := pretended (E := E) (smul a basepoint) (smul b basepoint) (smul c basepoint).
    Let good := Forall (fun uv : scalar * scalar => canonical (fst uv) /\ canonical (snd uv)).

    Lemma pretended_injective m uv uv' :
      canonical (fst uv) /\ canonical (snd uv) -> canonical (fst uv') /\ canonical (snd uv') -> enc m uv = enc m uv' -> uv = uv'.
    Proof.
      destruct uv as [u v], uv' as [u' v']. cbn [fst snd]. intros [H1 H2] [H3 H4] H. unfold enc, pretended in H. cbn [fst snd] in H.
      dlogs L. injection H as Ha Hb. to_base_in L Ha. to_base_in L Hb.
      apply (smul_base_iff L) in Ha. apply (smul_base_iff L) in Hb.
      assert (K : (u - u') * (c - a * b) == 0).
      { apply eqm_sub_0 in Ha. apply eqm_sub_0 in Hb.
        match type of Ha with ?x == _ => match type of Hb with ?y == _ =>
          transitivity (y - a * x); [apply eqm_of_eq; ring|rewrite Ha, Hb; apply eqm_of_eq; ring] end end. }
      apply eqm_mul_0 in K as [K|K]; [|exfalso; apply Hc; apply eqm_sub_0; exact K].
      apply eqm_sub_0 in K. apply eqm_canonical in K; [|assumption..]. subst u'.
      assert (K : v == v').
      { apply eqm_sub_0. apply eqm_sub_0 in Ha. etransitivity; [|exact Ha]. apply eqm_of_eq; ring. }
      apply eqm_canonical in K; [|assumption..]. congruence.
    Qed.
    Lemma pretended_other m m' uv : exists uv', canonical (fst uv') /\ canonical (snd uv') /\ enc m uv = enc m' uv'.
    Proof.
      destruct uv as [u v]. destruct (basepoint_generates E L m) as [x Hx]. destruct (basepoint_generates E L m') as [y Hy]. subst m m'.
      assert (Hd : ~ c - a * b == 0) by (intros K; apply Hc, eqm_sub_0; exact K).
      set (d := s_inv (c - a * b)). assert (Hi : d * (c - a * b) == 1) by (apply s_inv_spec; exact Hd).
      exists ((u + (x - y) * d) mod ell, (v - b * ((x - y) * d)) mod ell). cbn [fst snd].
      split; [apply Z.mod_pos_bound, ell_pos|]. split; [apply Z.mod_pos_bound, ell_pos|].
      unfold enc, pretended. cbn [fst snd]. f_equal.
      - to_base L. apply (smul_base_iff L). rewrite !eqm_mod. apply eqm_of_eq; ring.
      - to_base L. apply (smul_base_iff L). rewrite !eqm_mod.
        transitivity (y + (u * c + v * a) + (x - y) * (d * (c - a * b))); [rewrite Hi; apply eqm_of_eq; ring|apply eqm_of_eq; ring].
    Qed.
    Lemma view_injective second : forall coins coins' ch, good coins -> good coins' ->
      view enc second ch coins = view enc second ch coins' -> coins = coins'.
    Proof.
      induction coins as [|uv coins IH]; intros coins' [g|m m' next] H1 H2 H; cbn [view] in H.
      - congruence.
      - destruct coins' as [|uv' coins']; [reflexivity|]. destruct (view enc second (next _) coins'); discriminate.
      - congruence.
      - destruct coins' as [|uv' coins']; [destruct (view enc second (next _) coins); discriminate|].
        inversion H1 as [|? ? A1 A2]; subst. inversion H2 as [|? ? B1 B2]; subst.
        destruct (view enc second (next (enc (if second then m' else m) uv)) coins) as [s l] eqn:Hv.
        destruct (view enc second (next (enc (if second then m' else m) uv')) coins') as [s' l'] eqn:Hv'.
        assert (K0 : enc (if second then m' else m) uv = enc (if second then m' else m) uv') by congruence.
        assert (K : uv = uv') by (apply (pretended_injective (if second then m' else m)); assumption).
        subst uv'. f_equal. apply (IH coins' (next (enc (if second then m' else m) uv)) A2 B2). congruence.
    Qed.
    Lemma view_other second : forall coins ch, good coins -> exists coins', good coins' /\ List.length coins' = List.length coins /\
      view enc second ch coins = view enc (negb second) ch coins' /\ says enc second ch coins = says enc (negb second) ch coins'.
    Proof.
      induction coins as [|uv coins IH]; intros [g|m m' next] H.
      - exists []. auto.
      - exists []. auto.
      - exists (uv :: coins). auto.
      - inversion H as [|? ? A1 A2]; subst.
        destruct (pretended_other (if second then m' else m) (if negb second then m' else m) uv) as (uv' & U1 & U2 & U3).
        destruct (IH (next (enc (if second then m' else m) uv)) A2) as (coins' & C1 & C2 & C3 & C4).
        exists (uv' :: coins'). split; [constructor; [split; assumption|exact C1]|]. split; [cbn; rewrite C2; reflexivity|].
        cbn [view says]. rewrite <- U3, <- C3. split; [reflexivity|exact C4].
    Qed.
  End other.

  Definition is_secret (x : scalar * scalar * scalar * list (scalar * scalar)) : bool :=
    let '(a, b, c, _) := x in c =? (a * b) mod ell.
  Lemma on_others second e n p q :
    exactly p (fun x => says_on_random (E := E) second e n x /\ is_secret x = false) ->
    exactly q (fun x => says_on_random (E := E) (negb second) e n x /\ is_secret x = false) -> p <= q.
  Proof.
    intros Hp Hq.
    apply (exactly_le _ _ (fun x y => fst x = fst y /\
      let '(a, b, c, _) := x in
      view (pretended (smul a basepoint) (smul b basepoint) (smul c basepoint)) second (e (smul a basepoint)) (snd x) =
      view (pretended (smul a basepoint) (smul b basepoint) (smul c basepoint)) (negb second) (e (smul a basepoint)) (snd y)) _ _ Hp Hq).
    - intros [[[a b] c] coins] [(Ha & Hb & Hc & [Hl Hg] & H) Hs]. cbn [is_secret] in Hs. apply Z.eqb_neq in Hs.
      assert (Hn : ~ c == a * b).
      { intros K. apply Hs. apply eqm_canonical; [exact Hc|apply Z.mod_pos_bound, ell_pos|]. rewrite eqm_mod. exact K. }
      destruct (view_other a b c Hn second coins (e (smul a basepoint)) Hg) as (coins' & C1 & C2 & C3 & C4).
      exists (a, b, c, coins'). cbn [fst snd is_secret]. split; [|split; [reflexivity|exact C3]].
      split; [|apply Z.eqb_neq; exact Hs]. unfold says_on_random.
      split; [exact Ha|]. split; [exact Hb|]. split; [exact Hc|]. split; [split; [congruence|exact C1]|].
      unfold tells_apart in *. rewrite <- C4. exact H.
    - intros [[[a b] c] coins] [[[a' b'] c'] coins'] [[[a2 b2] c2] coins2].
      intros [(Ha & Hb & Hc & [Hl Hg] & H) Hs] [(_ & _ & _ & [_ Hg'] & _) _] [E1 V1] [E2 V2]. cbn [fst snd] in *.
      assert (K : (a, b, c) = (a', b', c')) by congruence. injection K as -> -> ->.
      cbn [is_secret] in Hs. apply Z.eqb_neq in Hs.
      assert (Hn : ~ c' == a' * b').
      { intros K. apply Hs. apply eqm_canonical; [exact Hc|apply Z.mod_pos_bound, ell_pos|]. rewrite eqm_mod. exact K. }
      f_equal. apply (view_injective a' b' c' Hn second _ _ (e (smul a' basepoint)) Hg Hg'). congruence.
  Qed.
  Lemma on_random second e n t f : exactly t (says_on_secret (E := E) second e n) -> exactly f (says_on_random second e n) ->
    exactly (f - t) (fun x => says_on_random (E := E) second e n x /\ is_secret x = false).
  Proof.
    intros Ht Hf. destruct (exactly_split _ is_secret _ Hf) as (p1 & p2 & H1 & H2 & ->).
    assert (p1 = t); [|subst; replace (t + p2 - t) with p2 by ring; exact H2].
    apply Z.le_antisymm.
    - apply (exactly_le _ _ (fun x y => y = (fst (fst x), snd x)) _ _ H1 Ht).
      + intros [[[a b] c] coins] [(Ha & Hb & Hc & Hg & H) Hs]. cbn [is_secret fst snd] in *. apply Z.eqb_eq in Hs. subst c.
        exists (a, b, coins). split; [|reflexivity]. unfold says_on_secret. split; [exact Ha|]. split; [exact Hb|]. split; [exact Hg|].
        rewrite <- H. f_equal. apply (smul_base_iff L). rewrite eqm_mod. reflexivity.
      + intros [[[a b] c] coins] [[[a' b'] c'] coins'] y [_ Hs] [_ Hs'] -> Heq. cbn [is_secret fst snd] in *.
        apply Z.eqb_eq in Hs, Hs'. congruence.
    - apply (exactly_le _ _ (fun y x => x = (fst (fst y), snd (fst y), (fst (fst y) * snd (fst y)) mod ell, snd y)) _ _ Ht H1).
      + intros [[a b] coins] (Ha & Hb & Hg & H). cbn [fst snd]. eexists. split; [|reflexivity]. cbn [is_secret].
        split; [|apply Z.eqb_refl]. unfold says_on_random. split; [exact Ha|]. split; [exact Hb|].
        split; [apply Z.mod_pos_bound, ell_pos|]. split; [exact Hg|].
        rewrite <- H. f_equal. apply (smul_base_iff L). rewrite eqm_mod. reflexivity.
      + intros [[a b] coins] [[a' b'] coins'] x _ _ -> Heq. cbn [fst snd] in *. congruence.
  Qed.
End reduction.

(** ** The generic eavesdropper *)
Fixpoint below (k : nat) (e : pexp) : Prop :=
  match e with
  | PC _ => True
  | PV i => (i < k)%nat
  | PAdd a b => below k a /\ below k b
  | PMul a b => below k a /\ below k b
  end.
Lemma below_mono k k' e : (k <= k')%nat -> below k e -> below k' e.
Proof. intros Hk. induction e; cbn [below]; intuition lia. Qed.
Lemma below_ev k e v v' : below k e -> (forall j, (j < k)%nat -> nth j v 0 = nth j v' 0) -> ev e v = ev e v'.
Proof.
  intros Hb Hv. induction e as [c|i|x IHx y IHy|x IHx y IHy]; cbn [ev below] in *.
  - reflexivity.
  - apply Hv, Hb.
  - rewrite IHx, IHy by tauto. reflexivity.
  - rewrite IHx, IHy by tauto. reflexivity.
Qed.
Lemma below_comb k c es : Forall (below k) es -> below k (sym_comb c es).
Proof. intros H. revert c; induction H; intros c; cbn [sym_comb below]; auto. Qed.

(** The points held after [i] encryptions, in the secret key and the nonces. *)
Inductive grown : nat -> list pexp -> Prop :=
| grown_start : grown 0 [PC 1; PV 0]
| grown_step i h m : grown i h -> grown (S i) (h ++ [PV (S i); PAdd (sym_comb m h) (PMul (PV (S i)) (PV 0))]).
Lemma grown_length i h : grown i h -> List.length h = (2 + 2 * i)%nat.
Proof. induction 1; [reflexivity|]. rewrite app_length, IHgrown. cbn. lia. Qed.
Lemma grown_deg i h : grown i h -> Forall (fun e => (deg e <= 2)%nat) h.
Proof.
  induction 1; [repeat constructor|]. apply Forall_app. split; [assumption|].
  constructor; [cbn; lia|]. constructor; [|constructor]. cbn [deg]. pose proof (sym_comb_deg 2 m h IHgrown). lia.
Qed.
Lemma grown_below i h : grown i h -> Forall (below (S i)) h.
Proof.
  induction 1; [constructor; [exact I|]; constructor; [cbn; lia|constructor]|].
  apply Forall_app. split; [revert IHgrown; apply Forall_impl; intros e; apply below_mono; lia|].
  constructor; [cbn; lia|]. constructor; [|constructor]. cbn [below]. split; [|lia].
  apply below_comb. revert IHgrown; apply Forall_impl; intros e; apply below_mono; lia.
Qed.

Lemma nth_skipn (i j : nat) (c : list Z) : nth i (skipn j c) 0 = nth (j + i) c 0.
Proof.
  revert c; induction j as [|j IH]; intros c; [reflexivity|]. destruct c as [|x c]; [destruct i; reflexivity|]. apply IH.
Qed.
(** The secret key is [a], the nonce [i] is [r] and the others are zero. *)
Definition only (N i : nat) (a r : Z) : list Z := a :: map (fun j => if Nat.eqb j i then r else 0) (seq 0 N).
Lemma only_nth N i a r j : (j < N)%nat -> nth (S j) (only N i a r) 0 = if Nat.eqb j i then r else 0.
Proof.
  intros Hj. unfold only. cbn [nth].
  rewrite (nth_indep _ 0 ((fun j => if Nat.eqb j i then r else 0) 0%nat)) by (rewrite map_length, seq_length; exact Hj).
  rewrite (map_nth (fun j => if Nat.eqb j i then r else 0)), seq_nth by exact Hj. reflexivity.
Qed.
Lemma comb_zero es c v : (forall j, (j < List.length es)%nat -> nth j c 0 == 0) -> ev (sym_comb c es) v == 0.
Proof.
  revert c; induction es as [|e es IH]; intros c H; [reflexivity|]. cbn [sym_comb ev].
  rewrite IH; [|intros j Hj; specialize (H (S j) ltac:(cbn; lia)); destruct c; [destruct j|]; exact H].
  specialize (H 0%nat ltac:(cbn; lia)). assert (K : hd 0 c == 0) by (destruct c; exact H).
  rewrite K. apply eqm_of_eq; ring.
Qed.

Section eavesdropping_generic.
  Context {E : Ext} (L : ExtLaws E).
  Context (R : list Z) (R_nodup : NoDup R) (R_all : forall x, In x R <-> 0 <= x < ell)
          (R_length : Z.of_nat (List.length R) = ell) (N : nat).
  Let n := S N.

  Lemma only_in i a r : 0 <= a < ell -> 0 <= r < ell -> In (only N i a r) (tuples R n).
  Proof.
    intros Ha Hr. apply (in_tuples R R_all). unfold only. split; [cbn; rewrite map_length, seq_length; reflexivity|].
    constructor; [exact Ha|]. apply Forall_forall. intros x Hx. apply in_map_iff in Hx as (j & <- & _).
    destruct (Nat.eqb j i); [exact Hr|]. pose proof ell_pos. lia.
  Qed.

  (** A combination that is always zero is empty. *)
  Lemma grown_independent i h : grown i h -> (i <= N)%nat -> forall c,
    (forall v, In v (tuples R n) -> ev (sym_comb c h) v == 0) -> forall j, (j < List.length h)%nat -> nth j c 0 == 0.
  Proof.
    pose proof two_lt_ell as Hell.
    intros Hg. induction Hg as [|i h m Hg IH]; intros Hi c H.
    - assert (H0 : nth 0 c 0 == 0).
      { pose proof (H (only N 0 0 0) ltac:(apply only_in; lia)) as K. cbn [sym_comb ev only nth] in K.
        destruct c as [|x c]; [reflexivity|]. cbn [hd tl nth] in *. etransitivity; [|exact K]. apply eqm_of_eq; ring. }
      assert (H1 : nth 1 c 0 == 0).
      { pose proof (H (only N 0 1 0) ltac:(apply only_in; lia)) as K. cbn [sym_comb ev only nth] in K.
        destruct c as [|x [|y c]]; [reflexivity..|]. cbn [hd tl nth] in *. apply eqm_sub_0.
        transitivity (x * 1 + (y * 1 + 0) - x); [apply eqm_of_eq; ring|]. rewrite K, H0. reflexivity. }
      intros [|[|j]] Hj; [exact H0|exact H1|cbn in Hj; lia].
    - set (d := nth (List.length h) c 0). set (e := nth (S (List.length h)) c 0).
      assert (Hev : forall v, ev (sym_comb c (h ++ [PV (S i); PAdd (sym_comb m h) (PMul (PV (S i)) (PV 0))])) v =
        ev (sym_comb c h) v + (d * nth (S i) v 0 + e * (ev (sym_comb m h) v + nth (S i) v 0 * nth 0 v 0))).
      { intros v. rewrite sym_comb_app. f_equal. cbn [sym_comb ev]. unfold d, e.
        replace (hd 0 (skipn (List.length h) c)) with (nth (List.length h) c 0) by (symmetry; apply hd_skipn).
        rewrite tl_skipn, hd_skipn. ring. }
      assert (Hs : forall x a, Forall (below (S i)) h -> ev (sym_comb x h) (only N i a 1) = ev (sym_comb x h) (only N i a 0)).
      { intros x a Hb. apply (below_ev (S i)); [apply below_comb, Hb|]. intros [|j] Hj; [reflexivity|].
        rewrite !only_nth by lia. destruct (Nat.eqb_spec j i); [lia|reflexivity]. }
      pose proof (grown_below i h Hg) as Hb.
      assert (Hd : forall a, 0 <= a < ell -> d + e * a == 0).
      { intros a Ha. pose proof (H _ (only_in i a 1 Ha ltac:(lia))) as K1. pose proof (H _ (only_in i a 0 Ha ltac:(lia))) as K0.
        rewrite Hev, !only_nth, Nat.eqb_refl in K1 by lia. rewrite Hev, !only_nth, Nat.eqb_refl in K0 by lia.
        rewrite !Hs in K1 by exact Hb.
        change (nth 0 (only N i a 1) 0) with a in K1. change (nth 0 (only N i a 0) 0) with a in K0.
        match type of K1 with ?x == _ => match type of K0 with ?y == _ =>
          transitivity (x - y); [apply eqm_of_eq; ring|rewrite K1, K0; reflexivity] end end. }
      assert (D0 : d == 0) by (rewrite <- (Hd 0 ltac:(lia)); apply eqm_of_eq; ring).
      assert (E0 : e == 0).
      { transitivity (d + e * 1 - d); [apply eqm_of_eq; ring|]. rewrite (Hd 1 ltac:(lia)), D0. reflexivity. }
      assert (Hrest : forall j, (j < List.length h)%nat -> nth j c 0 == 0).
      { apply IH; [lia|]. intros v Hv. specialize (H v Hv). rewrite Hev in H. rewrite D0, E0 in H.
        etransitivity; [|exact H]. apply eqm_of_eq; ring. }
      intros j Hj. rewrite app_length in Hj. cbn [List.length] in Hj.
      destruct (Nat.lt_ge_cases j (List.length h)) as [K|K]; [apply Hrest, K|].
      destruct (Nat.eq_dec j (List.length h)) as [->|K']; [exact D0|].
      replace j with (S (List.length h)) by lia. exact E0.
  Qed.

  Definition run_at (second : bool) (l : listener) (h : list pexp) (i : nat) (v : list Z) : bool :=
    concludes (E := E) (smul (nth 0 v 0) basepoint) second l (map (pt_at v) h) (skipn (S i) v).

  (** What it says is fixed but for few keys and nonces. *)
  Lemma mostly l : forall i h h', grown i h -> grown i h' -> (i <= N)%nat -> exists g : bool,
    count (fun v => xorb g (run_at false l h i v)) (tuples R n) * ell <= 2 * Z.of_nat (comparisons l) * ell ^ Z.of_nat n /\
    count (fun v => xorb g (run_at true l h' i v)) (tuples R n) * ell <= 2 * Z.of_nat (comparisons l) * ell ^ Z.of_nat n.
  Proof.
    pose proof ell_pos as Hell. assert (Hpow : 0 <= ell ^ Z.of_nat n) by (apply Z.pow_nonneg; lia).
    induction l as [b|m m' next IH|c yes IHy no IHn]; intros i h h' Hh Hh' Hi.
    - exists b. unfold run_at. cbn [concludes comparisons]. rewrite Bool.xorb_nilpotent, count_false by reflexivity. lia.
    - destruct (Nat.eq_dec i N) as [->|Hn].
      + exists false. rewrite !count_false; [nia| |]; intros v Hv; apply (in_tuples R R_all) in Hv as [Hl _]; unfold run_at; cbn [concludes];
          rewrite skipn_all2 by (unfold n in Hl; lia); reflexivity.
      + destruct (IH (S i) _ _ (grown_step i h m Hh) (grown_step i h' m' Hh') ltac:(lia)) as (g & G1 & G2). exists g.
        assert (Hstep : forall second k v, In v (tuples R n) ->
          run_at second (Names m m' next) k i v =
          run_at second next (k ++ [PV (S i); PAdd (sym_comb (if second then m' else m) k) (PMul (PV (S i)) (PV 0))]) (S i) v).
        { intros second k v Hv. apply (in_tuples R R_all) in Hv as [Hl _]. unfold run_at. rewrite (skipn_cons (S i)) by (unfold n in Hl; lia).
          cbn [concludes]. rewrite map_app. cbn [map]. rewrite (comb_at L). unfold elgamal_encrypt. cbn [enc_commitment enc_encryption].
          f_equal. f_equal. f_equal. f_equal. unfold pt_at. cbn [ev]. to_base L. reflexivity. }
        cbn [comparisons].
        assert (Hle : forall second k,
          count (fun v => xorb g (run_at second (Names m m' next) k i v)) (tuples R n) <=
          count (fun v => xorb g (run_at second next (k ++ [PV (S i); PAdd (sym_comb (if second then m' else m) k) (PMul (PV (S i)) (PV 0))]) (S i) v)) (tuples R n)).
        { intros second k. apply count_le. intros v Hv. rewrite Hstep by exact Hv. exact (fun H => H). }
        split; (etransitivity; [apply Z.mul_le_mono_nonneg_r; [lia|apply Hle]|assumption]).
    - set (e := sym_comb c h). set (e' := sym_comb c h').
      assert (Hd : (deg e <= 2)%nat) by apply (sym_comb_deg 2 c h (grown_deg i h Hh)).
      assert (Hd' : (deg e' <= 2)%nat) by apply (sym_comb_deg 2 c h' (grown_deg i h' Hh')).
      assert (Hf : forall second k v, run_at second (Compares c yes no) k i v =
        if zero_at (sym_comb c k) v then run_at second yes k i v else run_at second no k i v).
      { intros second k v. unfold run_at. cbn [concludes]. rewrite (comb_at L), (zero_iff L). destruct (zero_at (sym_comb c k) v); reflexivity. }
      cbn [comparisons].
      assert (Hiff : vanishes R n e = vanishes R n e').
      { apply Bool.eq_iff_eq_true. rewrite !vanishes_true. split; intros H v Hv; apply comb_zero.
        - intros j Hj. apply (grown_independent i h Hh Hi c H). rewrite (grown_length i h Hh). rewrite (grown_length i h' Hh') in Hj. exact Hj.
        - intros j Hj. apply (grown_independent i h' Hh' Hi c H). rewrite (grown_length i h' Hh'). rewrite (grown_length i h Hh) in Hj. exact Hj. }
      assert (Hmono : forall x y : nat, (x <= y)%nat -> 2 * Z.of_nat x * ell ^ Z.of_nat n <= 2 * Z.of_nat y * ell ^ Z.of_nat n).
      { intros x y Hxy. apply Z.mul_le_mono_nonneg_r; lia. }
      destruct (vanishes R n e) eqn:Hv.
      + destruct (IHy i h h' Hh Hh' Hi) as (g & G1 & G2). exists g.
        assert (Hle : forall second k, vanishes R n (sym_comb c k) = true ->
          count (fun v => xorb g (run_at second (Compares c yes no) k i v)) (tuples R n) * ell <=
          count (fun v => xorb g (run_at second yes k i v)) (tuples R n) * ell).
        { intros second k Hk. apply Z.mul_le_mono_nonneg_r; [lia|]. apply count_le. intros v Hin. rewrite Hf.
          rewrite (proj2 (zero_at_iff _ v) (proj1 (vanishes_true R n _) Hk v Hin)). exact (fun H => H). }
        pose proof (Hmono (comparisons yes) (S (Nat.max (comparisons yes) (comparisons no))) ltac:(lia)) as Hm.
        split; [pose proof (Hle false h Hv)|pose proof (Hle true h' (eq_sym Hiff))]; lia.
      + destruct (IHn i h h' Hh Hh' Hi) as (g & G1 & G2). exists g.
        assert (Hle : forall second k, (deg (sym_comb c k) <= 2)%nat -> vanishes R n (sym_comb c k) = false ->
          count (fun v => xorb g (run_at second (Compares c yes no) k i v)) (tuples R n) * ell <=
          count (fun v => xorb g (run_at second no k i v)) (tuples R n) * ell + 2 * ell ^ Z.of_nat n).
        { intros second k Hk Hz. pose proof (few_zeros R R_nodup R_all R_length n _ Hz) as Hfew.
          assert (Hor : count (fun v => xorb g (run_at second (Compares c yes no) k i v)) (tuples R n) <=
            count (zero_at (sym_comb c k)) (tuples R n) + count (fun v => xorb g (run_at second no k i v)) (tuples R n)).
          { apply count_or. intros v _. rewrite Hf. destruct (zero_at (sym_comb c k) v); auto. }
          assert (S2 : Z.of_nat (deg (sym_comb c k)) * ell ^ Z.of_nat n <= 2 * ell ^ Z.of_nat n) by (apply Z.mul_le_mono_nonneg_r; lia).
          apply (Z.mul_le_mono_nonneg_r _ _ ell) in Hor; lia. }
        pose proof (Hmono (S (comparisons no)) (S (Nat.max (comparisons yes) (comparisons no))) ltac:(lia)) as Hm.
        rewrite Nat2Z.inj_succ in Hm.
        split; [pose proof (Hle false h Hd Hv)|pose proof (Hle true h' Hd' (eq_sym Hiff))]; lia.
  Qed.

  Lemma listens_count second l w : exactly w (listens (E := E) second l N) ->
    w = count (run_at second l [PC 1; PV 0] 0) (tuples R n).
  Proof.
    intros Hw. set (f := run_at second l [PC 1; PV 0] 0).
    assert (Hc : exactly (count f (tuples R n)) (fun v => In v (tuples R n) /\ f v = true)).
    { exists (filter f (tuples R n)). split; [apply NoDup_filter, (tuples_nodup R R_nodup)|]. split; [intros v; apply filter_In|reflexivity]. }
    assert (Hf : forall a rs, f (a :: rs) = concludes (E := E) (elgamal_public_of_secret a) second l [basepoint; elgamal_public_of_secret a] rs).
    { intros a rs. unfold f, run_at, pt_at. cbn [map ev nth skipn]. rewrite smul_1. reflexivity. }
    apply Z.le_antisymm.
    - apply (exactly_le _ _ (fun x v => v = fst x :: snd x) _ _ Hw Hc).
      + intros [a rs] (Ha & [Hl Hr] & H). cbn [fst snd] in *. eexists. split; [|reflexivity]. rewrite Hf. split; [|exact H].
        apply (in_tuples R R_all). split; [exact (f_equal S Hl)|]. constructor; assumption.
      + intros [a rs] [a' rs'] v _ _ -> Heq. cbn in Heq. congruence.
    - apply (exactly_le _ _ (fun v x => v = fst x :: snd x) _ _ Hc Hw).
      + intros v [Hv H]. apply (in_tuples R R_all) in Hv as [Hl Hr]. destruct v as [|a rs]; [discriminate|].
        exists (a, rs). split; [|reflexivity]. inversion Hr; subst. rewrite Hf in H. unfold listens. cbn [fst snd].
        split; [assumption|]. split; [split; [exact (eq_add_S _ _ Hl)|assumption]|exact H].
      + intros v v' x _ _ -> ->. reflexivity.
  Qed.
End eavesdropping_generic.

(** ** Counts exist *)
Lemma exactly_exists {T} (l : list T) (P : T -> Prop) (f : T -> bool) : NoDup l -> (forall x, P x <-> In x l /\ f x = true) ->
  exists n, exactly n P.
Proof.
  intros Hl H. exists (Z.of_nat (List.length (filter f l))), (filter f l). split; [apply NoDup_filter; exact Hl|]. split; [|reflexivity].
  intros x. rewrite H. apply filter_In.
Qed.
Lemma exactly_filter {T} (P Q : T -> Prop) (f : T -> bool) n : exactly n Q -> (forall x, P x <-> Q x /\ f x = true) -> exists m, exactly m P.
Proof.
  intros (l & Hl & HQ & _) H. apply (exactly_exists l P f Hl). intros x. rewrite H, HQ. reflexivity.
Qed.
Lemma exactly_map {A B} (P : A -> Prop) (Q : B -> Prop) (f : A -> B) (g : B -> A) n : exactly n P ->
  (forall x, P x -> Q (f x) /\ g (f x) = x) -> (forall y, Q y -> P (g y) /\ f (g y) = y) -> exactly n Q.
Proof.
  intros (l & Hl & HP & Hn) H1 H2. exists (map f l). split; [|split; [|rewrite map_length; exact Hn]].
  - clear Hn. assert (K : forall x, In x l -> g (f x) = x) by (intros x Hx; apply H1, HP, Hx). clear HP.
    induction Hl as [|x l Hni Hl IH]; [constructor|]. cbn [map]. constructor; [|apply IH; intros z Hz; apply K; right; exact Hz].
    intros Hin. apply in_map_iff in Hin as (z & Hz & Hin). apply Hni.
    rewrite <- (K x (or_introl eq_refl)), <- Hz, (K z (or_intror Hin)). exact Hin.
  - intros y. rewrite in_map_iff. split.
    + intros (x & <- & Hx). apply H1, HP, Hx.
    + intros Hy. exists (g y). split; [apply H2, Hy|]. apply HP, H2, Hy.
Qed.
Lemma combine_split_pairs (l : list (scalar * scalar)) : combine (map fst l) (map snd l) = l.
Proof. induction l as [|[u v] l IH]; [reflexivity|]. cbn. rewrite IH. reflexivity. Qed.
Lemma exactly_pairs n : exactly (ell ^ Z.of_nat n * ell ^ Z.of_nat n) (given_pairs n).
Proof.
  apply (exactly_map _ _ (fun x => combine (fst x) (snd x)) (fun l => (map fst l, map snd l)) _
    (exactly_prod _ _ _ _ (exactly_scalars n) (exactly_scalars n))).
  - intros [us vs] [[H1 H2] [H3 H4]]. cbn [fst snd] in *. assert (Hl : List.length us = List.length vs) by congruence.
    clear H3. split; [|].
    + split; [rewrite combine_length, <- Hl, Nat.min_id; exact H1|]. clear H1. revert vs Hl H4.
      induction H2 as [|u us Hu H IH]; intros [|v vs] Hl Hv; try discriminate; cbn [combine]; constructor.
      * inversion Hv; subst. auto.
      * inversion Hv; subst. apply IH; [cbn in Hl; congruence|assumption].
    + clear -Hl. revert vs Hl; induction us as [|u us IH]; intros [|v vs] Hl; try discriminate; [reflexivity|].
      cbn [combine map fst snd]. cbn in Hl. specialize (IH vs ltac:(congruence)). congruence.
  - intros l [H1 H2]. cbn [fst snd]. split; [|apply combine_split_pairs]. split; (split; [rewrite map_length; exact H1|]);
      rewrite Forall_forall in *; intros x Hx; apply in_map_iff in Hx as (uv & <- & Huv); apply (H2 uv Huv).
Qed.
