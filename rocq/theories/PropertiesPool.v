(** C102: a service in operation whose calls share generators *)
From Verif Require Import Toy PropertiesHistory.
From Verif Require Import SpecPool PropertiesReads.
From Coq Require Import Bool Arith Lia.

Definition same_shape {Er A B} (o : outcome Er A) (o' : outcome Er B) : Prop :=
  match o, o' with Ok _, Ok _ => True | Err e, Err e' => e = e' | Panic, Panic => True | _, _ => False end.

Section shapes.
  Context {E : Ext}.
  Lemma issue_shape (i : Issuer E) number r os r' os' : same_shape (signal_issue i number r os) (signal_issue i number r' os').
  Proof.
    unfold signal_issue. destruct (map_err _ (try_from_bytes number)) as [n|e|]; cbn [bind]; [|reflexivity|exact I].
    unfold issue. destruct (nth_error (pk_Xn _) 0) as [X1|]; cbn [ok_or bind]; [|reflexivity].
    destruct (nth_error (sk_xn _) 0) as [x1|]; cbn [ok_or bind]; [|reflexivity].
    destruct (reseed _ _ r) as [c r1]. destruct (reseed _ _ r') as [c' r1']. unfold mac, mac_with.
    destruct (negb _); cbn [map_err bind]; [reflexivity|].
    destruct (scalar_random c) as [x c1], (scalar_random c') as [x' c1']. cbn [bind map_err].
    destruct (ephemeral_new c1) as [y c2], (ephemeral_new c1') as [y' c2'].
    unfold issue_statement. cbn [rq_attributes_revealed index nth_error or_panic bind].
    destruct (ir_create _ _ _ os), (ir_create _ _ _ os'). exact I.
  Qed.
  Lemma show_shape (u : SignalUser E) entry r os r' os' : same_shape (signal_show u r os entry) (signal_show u r' os' entry).
  Proof.
    unfold signal_show. destruct (us_credential (su_user u)) as [c|] eqn:Hc; cbn [ok_or bind]; [|reflexivity].
    unfold nonces_new, NUMBER_OF_ATTRIBUTES. cbn [scalars_random].
    rewrite (scalar_random_eq r), (scalar_random_eq r').
    set (z := fst (scalar_random r)). set (z' := fst (scalar_random r')). clearbody z z'.
    unfold show. rewrite Hc. cbn [ok_or bind].
    destruct (reseed _ _ (after 64 r)) as [k r1]. destruct (reseed _ _ (after 64 r')) as [k' r1'].
    destruct (scalar_random k) as [x c1], (scalar_random k') as [x' c1'].
    destruct (ephemeral_new c1) as [y c2], (ephemeral_new c1') as [y' c2'].
    unfold show_statement. cbn [show_error_factor].
    destruct (index (pk_Xn (us_issuer_parameters (su_user u))) 0) as [X|] eqn:HX; cbn [or_panic bind show_error_factor]; [|exact I].
    destruct (cr_attributes c) as [|m ms] eqn:Hm; unfold index; cbn [nth_error or_panic bind]; [exact I|].
    unfold show_commitments. cbn [combine map nth_error or_panic bind].
    destruct (vc_create _ _ _ os) as [p1 o1], (vc_create _ _ _ os') as [p2 o2]. cbn [bind].
    unfold roster_statement. rewrite Hm. unfold index, show_presentation. cbn [nth_error or_panic bind pr_attributes_blinded combine map].
    destruct (ce_create _ _ _ o1), (ce_create _ _ _ o2). exact I.
  Qed.
End shapes.

Section steps.
  Context {E : Ext} (params : SystemParameters E).

  Lemma set_same (g : pool) a r : set g a r a = r.
  Proof. unfold set. rewrite Nat.eqb_refl. reflexivity. Qed.
  Lemma set_other (g : pool) a r n : n <> a -> set g a r n = g n.
  Proof. intros H. unfold set. apply Nat.eqb_neq in H. rewrite H. reflexivity. Qed.
  Lemma left_zero n r r' : left_at n r r' -> left_at (n + 0 + 0) r r'.
  Proof. rewrite !Nat.add_0_r. auto. Qed.

  Lemma if_zero (b : bool) : (if b then 0%nat else 0%nat) = 0%nat.
  Proof. destruct b; reflexivity. Qed.
  Lemma set_left (g : pool) a r k n : left_at k (g a) r -> left_at (0 + (if (n =? a)%nat then k else 0)) (g n) (set g a r n).
  Proof.
    intros H. unfold set. destruct (Nat.eqb_spec n a) as [->|Hn]; [exact H|intros j; reflexivity].
  Qed.
  Lemma left_trans n k m (r r' r'' : rng) : left_at n r r' -> left_at (0 + k) r' r'' -> m = (n + k)%nat -> left_at m r r''.
  Proof. intros H K ->. exact (left_left _ _ _ _ _ H K). Qed.

  (** *** [issue] *)
  Lemma issue_pool_is (i : Issuer E) number (g : pool) a b (e : event E) : (exists j nu r os, e = IssueTo j nu r os) ->
    match signal_issue i number (g a) (after (if (b =? a)%nat then 32 else 0) (g b)), signal_issue_pool i number g a b with
    | Ok (iss, _, _), (Ok iss', g') => iss = iss'
    | Err e, (Err e', g') => e = e'
    | Panic, (Panic, g') => True
    | _, _ => False
    end /\
    let an := answer_of (fst (signal_issue_pool i number g a b)) in forall n,
      left_at (0 + (if (n =? a)%nat then fst (cost e an) else 0) + (if (n =? b)%nat then snd (cost e an) else 0))
        (g n) (snd (signal_issue_pool i number g a b) n).
  Proof.
    intros (j & nu & rr & oo & ->). unfold signal_issue, signal_issue_pool.
    assert (Hidle : forall n, left_at (0 + (if (n =? a)%nat then 0 else 0) + (if (n =? b)%nat then 0 else 0)) (g n) (g n)).
    { intros n. destruct (n =? a)%nat, (n =? b)%nat; intros k; reflexivity. }
    destruct (try_from_bytes number) as [m|e|]; cbn [map_err bind or_stop fst snd].
    2: { split; [reflexivity|]. destruct e; exact Hidle. }
    2: { split; [exact I|exact Hidle]. }
    unfold issue, issue_pool. destruct (nth_error (pk_Xn _) 0) as [X1|]; cbn [ok_or bind or_stop fst snd]; [|split; [reflexivity|exact Hidle]].
    destruct (nth_error (sk_xn _) 0) as [x1|]; cbn [ok_or bind or_stop fst snd]; [|split; [reflexivity|exact Hidle]].
    match goal with |- context [@reseed E ?t ?w (g a)] => rewrite (reseed_eq t w (g a)) end.
    set (c := fst (reseed _ _ (g a))). clearbody c. cbv beta iota zeta.
    assert (L1 : forall n, left_at (0 + (if (n =? a)%nat then 32 else 0)) (g n) (set g a (after 32 (g a)) n)).
    { intros n. apply set_left, left_refl. }
    set (g1 := set g a (after 32 (g a))) in *.
    assert (Hb : agree 32 (after (if (b =? a)%nat then 32 else 0) (g b)) (g1 b)).
    { intros k _. unfold g1, set, after. destruct (Nat.eqb_spec b a) as [->|Hn]; reflexivity. }
    clearbody g1.
    unfold mac, mac_with. cbn [rq_attributes_revealed].
    destruct (negb _); cbn [map_err bind or_stop fst snd answer_of cost].
    { split; [reflexivity|]. intros n. rewrite if_zero, Nat.add_0_r. apply L1. }
    destruct (scalar_random c) as [x c1]. cbn [bind map_err or_stop]. destruct (ephemeral_new c1) as [y c2].
    unfold issue_statement. cbn [index nth_error or_panic bind or_stop].
    match goal with |- context [ir_create ?t ?p ?z (g1 b)] =>
      destruct (ir_agree t p z _ _ Hb) as [K _]; destruct (ir_agree t p z (g1 b) (g1 b) (fun _ _ => eq_refl)) as [_ L2];
      destruct (ir_create t p z (g1 b)) as [pr os'], (ir_create t p z (after (if (b =? a)%nat then 32 else 0) (g b))) as [pr' os''] end.
    cbn [fst snd answer_of cost] in *. subst pr'. split; [reflexivity|]. intros n.
    eapply left_trans; [apply L1|apply (set_left g1 b os' 32 n L2)|reflexivity].
  Qed.
  Lemma issue_dealt (i : Issuer E) number (g : pool) a b r os (e : event E) : (exists j nu r os, e = IssueTo j nu r os) ->
    let an := answer_of (fst (signal_issue_pool i number g a b)) in
    (forall k, r k = g a k) ->
    (forall k, os k = g b ((if (b =? a)%nat then fst (cost e an) else 0) + k)%nat) ->
    match signal_issue i number r os, signal_issue_pool i number g a b with
    | Ok (iss, _, _), (Ok iss', g') => iss = iss'
    | Err e, (Err e', g') => e = e'
    | Panic, (Panic, g') => True
    | _, _ => False
    end.
  Proof.
    intros He an Hr Ho. destruct (issue_pool_is i number g a b e He) as [K _].
    pose proof (issue_shape i number r os (g a) (after (if (b =? a)%nat then 32 else 0) (g b))) as Hs. unfold same_shape in Hs.
    pose proof (C100_issue E i number r (g a) os (after (if (b =? a)%nat then 32 else 0) (g b)) (fun k _ => Hr k)) as K2.
    destruct (signal_issue i number (g a) (after (if (b =? a)%nat then 32 else 0) (g b))) as [[[iss1 x1] x2]|e1|],
      (signal_issue_pool i number g a b) as [[iss2|e2|] g']; try contradiction;
      destruct (signal_issue i number r os) as [[[iss3 y1] y2]|e3|]; try contradiction; try exact I; try congruence.
    subst iss2. destruct He as (j & nu & rr & oo & ->). cbn [fst answer_of cost] in an, Ho. apply K2. intros k _. rewrite Ho. reflexivity.
  Qed.

  (** *** [show] *)
  Lemma show_pool_is (u : SignalUser E) entry (g : pool) a b (e : event E) : (exists n k r os, e = Present n k r os) ->
    match signal_show u (g a) (after (if (b =? a)%nat then 96 else 0) (g b)) entry, signal_show_pool u entry g a b with
    | Ok (p, _, _), (Ok p', g') => p = p'
    | Err e, (Err e', g') => e = e'
    | Panic, (Panic, g') => True
    | _, _ => False
    end /\
    let an := answer_of (fst (signal_show_pool u entry g a b)) in forall n,
      left_at (0 + (if (n =? a)%nat then fst (cost e an) else 0) + (if (n =? b)%nat then snd (cost e an) else 0))
        (g n) (snd (signal_show_pool u entry g a b) n).
  Proof.
    intros (nn & kk & rr & oo & ->). unfold signal_show, signal_show_pool.
    destruct (us_credential (su_user u)) as [c|] eqn:Hc; cbn [ok_or bind or_stop fst snd answer_of cost].
    2: { split; [reflexivity|]. intros n. destruct (n =? a)%nat, (n =? b)%nat; intros k; reflexivity. }
    unfold nonces_new, NUMBER_OF_ATTRIBUTES. cbn [scalars_random].
    rewrite (scalar_random_eq (g a)). set (z := fst (scalar_random (g a))). clearbody z. cbv beta iota zeta.
    unfold show, show_pool. rewrite Hc. cbn [ok_or bind or_stop].
    rewrite (set_same g a). match goal with |- context [@reseed E ?t ?w (after 64 (g a))] => rewrite (reseed_eq t w (after 64 (g a))) end.
    set (q := fst (reseed _ _ (after 64 (g a)))). clearbody q. cbv beta iota zeta.
    assert (L1 : forall n, left_at (0 + (if (n =? a)%nat then 96 else 0)) (g n) (set (set g a (after 64 (g a))) a (after 32 (after 64 (g a))) n)).
    { intros n k. unfold set, after. destruct (n =? a)%nat eqn:Hn; [apply Nat.eqb_eq in Hn; subst n; f_equal; lia|reflexivity]. }
    set (g1 := set (set g a (after 64 (g a))) a (after 32 (after 64 (g a)))) in *.
    assert (Hb : forall k, after (if (b =? a)%nat then 96 else 0) (g b) k = g1 b k).
    { intros k. rewrite L1. unfold after. destruct (b =? a)%nat; reflexivity. }
    clearbody g1.
    destruct (scalar_random q) as [x c1]. destruct (ephemeral_new c1) as [y c2].
    assert (Hcrash : forall n, left_at (0 + (if (n =? a)%nat then 96 else 0) + (if (n =? b)%nat then 0 else 0)) (g n) (g1 n)).
    { intros n. rewrite if_zero, Nat.add_0_r. apply L1. }
    unfold show_statement. cbn [show_error_factor].
    destruct (index (pk_Xn (us_issuer_parameters (su_user u))) 0) as [X|] eqn:HX; cbn [or_panic bind or_stop show_error_factor fst snd answer_of cost];
      [|split; [exact I|exact Hcrash]].
    destruct (cr_attributes c) as [|m ms] eqn:Hm; unfold index; cbn [nth_error or_panic bind or_stop fst snd answer_of cost]; [split; [exact I|exact Hcrash]|].
    unfold show_commitments. cbn [combine map nth_error or_panic bind or_stop].
    match goal with |- context [vc_create ?t ?p ?w (g1 b)] =>
      destruct (vc_agree t p w _ _ (fun k (_ : (k < 32)%nat) => Hb k)) as [K L3]; destruct (vc_agree t p w (g1 b) (g1 b) (fun _ _ => eq_refl)) as [_ L2];
      destruct (vc_create t p w (g1 b)) as [pr os'], (vc_create t p w (after (if (b =? a)%nat then 96 else 0) (g b))) as [pr' os''] end.
    cbn [fst snd] in K, L2, L3. subst pr'. cbn [bind or_stop].
    unfold roster_statement. rewrite Hm. unfold index, show_presentation. cbn [nth_error or_panic bind or_stop pr_attributes_blinded combine map].
    rewrite (set_same g1 b).
    assert (Ha : agree 32 os'' os').
    { intros k _. rewrite L2, L3. apply Hb. }
    match goal with |- context [ce_create ?t ?p ?w os'] =>
      destruct (ce_agree t p w os'' os' Ha) as [K _]; destruct (ce_agree t p w os' os' (fun _ _ => eq_refl)) as [_ L4];
      destruct (ce_create t p w os') as [pe o3], (ce_create t p w os'') as [pe' o4] end.
    cbn [fst snd answer_of cost] in *. subst pe'. split; [reflexivity|]. intros n.
    eapply left_trans; [apply L1| |reflexivity].
    unfold set. destruct (Nat.eqb_spec n b) as [->|Hn]; [exact (left_left 32 32 _ _ _ L2 L4)|intros k; reflexivity].
  Qed.
  Lemma show_dealt (u : SignalUser E) entry (g : pool) a b r os (e : event E) : (exists n k r os, e = Present n k r os) ->
    let an := answer_of (fst (signal_show_pool u entry g a b)) in
    (forall k, r k = g a k) ->
    (forall k, os k = g b ((if (b =? a)%nat then fst (cost e an) else 0) + k)%nat) ->
    match signal_show u r os entry, signal_show_pool u entry g a b with
    | Ok (p, _, _), (Ok p', g') => p = p'
    | Err e, (Err e', g') => e = e'
    | Panic, (Panic, g') => True
    | _, _ => False
    end.
  Proof.
    intros He an Hr Ho. destruct (show_pool_is u entry g a b e He) as [K _].
    pose proof (show_shape u entry r os (g a) (after (if (b =? a)%nat then 96 else 0) (g b))) as Hs. unfold same_shape in Hs.
    pose proof (C100_show E u entry r (g a) os (after (if (b =? a)%nat then 96 else 0) (g b)) (fun k _ => Hr k)) as K2. cbn beta in K2.
    destruct (signal_show u (g a) (after (if (b =? a)%nat then 96 else 0) (g b)) entry) as [[[iss1 x1] x2]|e1|],
      (signal_show_pool u entry g a b) as [[iss2|e2|] g']; try contradiction;
      destruct (signal_show u r os entry) as [[[iss3 y1] y2]|e3|]; try contradiction; try exact I; try congruence.
    subst iss2. destruct He as (n & k & rr & oo & ->). cbn [fst answer_of cost] in an, Ho. apply K2. intros k' _. rewrite Ho. reflexivity.
  Qed.

  Lemma left_more u x y (r0 r r' : rng) : left_at u r0 r -> left_at (0 + x + y) r r' -> left_at (u + x + y) r0 r'.
  Proof. intros H K. replace (u + x + y)%nat with (u + (0 + x + y))%nat by lia. exact (left_left _ _ _ _ _ H K). Qed.
  Lemma left_here r : left_at (0 + 0 + 0) r r.
  Proof. intros k. reflexivity. Qed.

  Lemma pool_step_dealt s g g0 u c : (forall n, left_at (u n) (g0 n) (g n)) ->
    let '(s', g', an) := pool_step params s g c in
    step params s (dealt g0 u c an) = (s', an) /\ forall n, left_at (read_on u c an n) (g0 n) (g' n).
  Proof.
    intros HL. destruct c as [e a b].
    assert (Hidle : forall an, cost e an = (0, 0)%nat -> forall n, left_at (read_on u {| c_event := e; c_rng := a; c_thread := b |} an n) (g0 n) (g n)).
    { intros an Hc n. unfold read_on. cbn [c_event c_rng c_thread]. rewrite Hc. cbn [fst snd]. rewrite !if_zero. apply left_zero, HL. }
    unfold pool_step. cbn [c_event c_rng c_thread].
    destruct e; try (split; [unfold dealt; cbn [c_event]; apply surjective_pairing|apply Hidle; reflexivity]).
    - (* OpenIssuer *)
      pose proof (C100_create E params (after (u a) (g0 a)) (g a) (fun k _ => eq_sym (HL a k))) as K. cbn beta iota in K.
      unfold create_pool.
      destruct (signal_issuer_create params (g a)) as [i r1] eqn:H1. unfold dealt. cbn [c_event c_rng c_thread step].
      destruct (signal_issuer_create params (after (u a) (g0 a))) as [i' r1']. destruct K as (<- & _ & L1). cbn [fst].
      split; [reflexivity|]. intros n. unfold read_on. cbn [c_event c_rng c_thread cost fst snd]. rewrite if_zero.
      eapply left_more; [apply HL|]. rewrite Nat.add_0_r. apply set_left, L1.
    - (* IssueTo *)
      destruct (nth_error (sv_issuers s) issuer) as [i|] eqn:Hi.
      2: { split; [unfold dealt; cbn [c_event c_rng c_thread step]; rewrite Hi; reflexivity|apply Hidle; reflexivity]. }
      assert (Hev : exists j nu r0 os0, IssueTo issuer number r os = IssueTo (E := E) j nu r0 os0) by (repeat eexists).
      destruct (issue_pool_is i number g a b _ Hev) as [_ L1].
      match goal with |- context [dealt g0 u ?c0] => set (c := c0) end.
      pose proof (fun x y => issue_dealt i number g a b x y _ Hev) as K.
      destruct (signal_issue_pool i number g a b) as [o g'] eqn:Hf. cbn [fst snd] in L1, K.
      split; [|intros n; unfold read_on; eapply left_more; [apply HL|apply L1]].
      unfold dealt. cbn [c c_event c_rng c_thread step]. rewrite Hi.
      match goal with |- context [signal_issue i number ?x ?y] => specialize (K x y) end.
      specialize (K (fun k => eq_sym (HL a k))). lapply K; clear K; [intros K|].
      2: { intros k. unfold after, thread_at. cbn [c c_event c_rng c_thread]. rewrite HL. f_equal. lia. }
      destruct (signal_issue i number _ _) as [[[iss r1] o1]|e|], o as [iss'|e'|]; try contradiction; try reflexivity; rewrite K; reflexivity.
    - (* Enter *)
      pose proof (C100_commit E number params (after (u a) (g0 a)) (g a) (fun k _ => eq_sym (HL a k))) as K.
      unfold roster_create_pool, dealt. cbn [c_event c_rng c_thread step].
      assert (Hg : forall an n,
        left_at (read_on (E := E) u {| c_event := Enter number r; c_rng := a; c_thread := b |} an n) (g0 n) (set g a (after 64 (g a)) n)).
      { intros an n. unfold read_on. cbn [c_event c_rng c_thread cost fst snd]. rewrite if_zero.
        eapply left_more; [apply HL|]. rewrite Nat.add_0_r. apply set_left, left_refl. }
      unfold ephemeral_new. rewrite (scalar_random_eq (g a)). cbv beta iota zeta.
      unfold roster_create, ephemeral_new in K |- *. rewrite (scalar_random_eq (g a)), (scalar_random_eq (after (u a) (g0 a))) in K.
      rewrite (scalar_random_eq (after (u a) (g0 a))). cbv beta iota zeta in K |- *.
      destruct (try_from_bytes number) as [m|e|]; cbn [bind or_stop fst snd] in *.
      + split; [|apply Hg]. destruct K as [K _]. rewrite K. reflexivity.
      + split; [reflexivity|apply Hg].
      + split; [reflexivity|apply Hg].
    - (* Present *)
      destruct (nth_error (sv_users s) user) as [us|] eqn:Hu.
      2: { split; [unfold dealt; cbn [c_event c_rng c_thread step]; rewrite Hu; reflexivity|apply Hidle; reflexivity]. }
      destruct (nth_error (sv_entries s) entry) as [en|] eqn:He.
      2: { split; [unfold dealt; cbn [c_event c_rng c_thread step]; rewrite Hu, He; reflexivity|apply Hidle; reflexivity]. }
      assert (Hev : exists n k r0 os0, Present user entry r os = Present (E := E) n k r0 os0) by (repeat eexists).
      destruct (show_pool_is us en g a b _ Hev) as [_ L1].
      match goal with |- context [dealt g0 u ?c0] => set (c := c0) end.
      pose proof (fun x y => show_dealt us en g a b x y _ Hev) as K.
      destruct (signal_show_pool us en g a b) as [o g'] eqn:Hf. cbn [fst snd] in L1, K.
      split; [|intros n; unfold read_on; eapply left_more; [apply HL|apply L1]].
      unfold dealt. cbn [c c_event c_rng c_thread step]. rewrite Hu, He.
      match goal with |- context [signal_show us ?x ?y en] => specialize (K x y) end.
      specialize (K (fun k => eq_sym (HL a k))). lapply K; clear K; [intros K|].
      2: { intros k. unfold after, thread_at. cbn [c c_event c_rng c_thread]. rewrite HL. f_equal. lia. }
      rewrite (scalar_agree (after (u a) (g0 a)) (g a) (fun k _ => eq_sym (HL a k))).
      destruct (signal_show us _ _ en) as [[[p r1] o1]|e|], o as [p'|e'|]; try contradiction; try reflexivity; rewrite K; reflexivity.
  Qed.

  Lemma pool_dealt h : forall s g g0 u, (forall n, left_at (u n) (g0 n) (g n)) ->
    let ans := pool_answers params s g h in
    answers params s (deal g0 u h ans) = ans /\
    service_after params s (deal g0 u h ans) = fst (pool_after params s g h) /\
    forall n, left_at (read_after u h ans n) (g0 n) (snd (pool_after params s g h) n).
  Proof.
    induction h as [|c h IH]; intros s g g0 u HL; [split; [reflexivity|split; [reflexivity|exact HL]]|].
    pose proof (pool_step_dealt s g g0 u c HL) as K. cbn [pool_answers pool_after].
    destruct (pool_step params s g c) as [[s' g'] an]. destruct K as [K1 K2].
    cbn [deal answers service_after read_after]. rewrite K1. cbn [fst snd].
    destruct (IH s' g' g0 _ K2) as (I1 & I2 & I3). split; [f_equal; exact I1|]. split; [exact I2|exact I3].
  Qed.

  Lemma pool_cong h : forall s g g', (forall n k, g n k = g' n k) ->
    pool_answers params s g h = pool_answers params s g' h /\ fst (pool_after params s g h) = fst (pool_after params s g' h).
  Proof.
    induction h as [|c h IH]; intros s g g' Hg; [split; reflexivity|].
    pose proof (pool_step_dealt s g g' start c (fun n k => Hg n k)) as K.
    pose proof (pool_step_dealt s g' g' start c (fun n k => eq_refl)) as K'. cbn [pool_answers pool_after].
    assert (Han : snd (pool_step params s g c) = snd (pool_step params s g' c) -> 
      fst (fst (pool_step params s g c)) = fst (fst (pool_step params s g' c)) /\
      forall n k, snd (fst (pool_step params s g c)) n k = snd (fst (pool_step params s g' c)) n k).
    { destruct (pool_step params s g c) as [[s1 g1] an], (pool_step params s g' c) as [[s2 g2] an'].
      cbn [fst snd]. intros <-. destruct K as [K1 K2], K' as [K1' K2'].
      rewrite K1 in K1'. injection K1' as <-. split; [reflexivity|]. intros n k. rewrite K2, K2'. reflexivity. }
    assert (Hsame : snd (pool_step params s g c) = snd (pool_step params s g' c)).
    { clear Han. destruct (pool_step params s g c) as [[s1 g1] an], (pool_step params s g' c) as [[s2 g2] an'].
      cbn [snd]. destruct K as [K1 _], K' as [K1' _]. destruct c as [e a b]. unfold dealt in K1, K1'. cbn [c_event c_rng c_thread] in K1, K1'.
      destruct e; try congruence.
      - cbn [step] in K1, K1'. destruct (nth_error (sv_issuers s) issuer) as [i|]; [|congruence].
        match type of K1 with context [signal_issue i number ?x ?y] => match type of K1' with context [signal_issue i number ?x' ?y'] =>
          pose proof (issue_shape i number x y x' y') as Hs; unfold same_shape in Hs;
          destruct (signal_issue i number x y) as [[[? ?] ?]|e1|], (signal_issue i number x' y') as [[[? ?] ?]|e2|] end end;
          try contradiction; cbn [answer_of] in *; congruence.
      - cbn [step] in K1, K1'. destruct (nth_error (sv_users s) user) as [us|]; [|congruence].
        destruct (nth_error (sv_entries s) entry) as [en|]; [|congruence].
        match type of K1 with context [signal_show us ?x ?y en] => match type of K1' with context [signal_show us ?x' ?y' en] =>
          pose proof (show_shape us en x y x' y') as Hs; unfold same_shape in Hs;
          destruct (signal_show us x y en) as [[[? ?] ?]|e1|], (signal_show us x' y' en) as [[[? ?] ?]|e2|] end end;
          try contradiction; cbn [answer_of] in *; congruence. }
    destruct (Han Hsame) as [H1 H2]. clear K K' Han.
    destruct (pool_step params s g c) as [[s1 g1] an], (pool_step params s g' c) as [[s2 g2] an']. cbn [fst snd] in *.
    subst s2 an'. destruct (IH s1 g1 g2 H2) as [I1 I2]. split; [f_equal; exact I1|exact I2].
  Qed.

  (** *** Any streams can come of a pool *)
  Definition rng_of (e : event E) : rng :=
    match e with OpenIssuer r | IssueTo _ _ r _ | Enter _ r | Present _ _ r _ => r | _ => fun _ => Byte.x00 end.
  Definition thread_of (e : event E) : rng :=
    match e with IssueTo _ _ _ os | Present _ _ _ os => os | _ => fun _ => Byte.x00 end.
  Definition before (e : event E) (an : answer) (a b : nat) (g : pool) : pool :=
    let g1 := set g b (joined (snd (cost e an)) (thread_of e) (g b)) in
    set g1 a (joined (fst (cost e an)) (rng_of e) (g1 a)).
  Lemma before_left e an a b g n k :
    before e an a b g n ((if (n =? a)%nat then fst (cost e an) else 0) + (if (n =? b)%nat then snd (cost e an) else 0) + k)%nat = g n k.
  Proof.
    unfold before, set. destruct (Nat.eqb_spec n a) as [->|Hn].
    - unfold joined at 1. destruct (Nat.ltb_spec (fst (cost e an) + (if (a =? b)%nat then snd (cost e an) else 0) + k) (fst (cost e an))); [lia|].
      destruct (Nat.eqb_spec a b) as [<-|Hb].
      + unfold joined. match goal with |- context [(?x <? ?y)%nat] => destruct (Nat.ltb_spec x y) end; [lia|]. f_equal; lia.
      + f_equal; lia.
    - destruct (Nat.eqb_spec n b) as [->|Hb]; [|reflexivity].
      unfold joined. match goal with |- context [(?x <? ?y)%nat] => destruct (Nat.ltb_spec x y) end; [lia|]. f_equal; lia.
  Qed.
  Lemma before_rng e an a b g : agree (fst (cost e an)) (before e an a b g a) (rng_of e).
  Proof. unfold before. rewrite set_same. apply joined_first. Qed.
  Lemma before_thread e an a b g : agree (snd (cost e an)) (after (if (b =? a)%nat then fst (cost e an) else 0) (before e an a b g b)) (thread_of e).
  Proof.
    intros k Hk. unfold before, set, after. destruct (Nat.eqb_spec b a) as [->|Hn].
    - rewrite Nat.eqb_refl. unfold joined at 1. destruct (Nat.ltb_spec (fst (cost e an) + k) (fst (cost e an))); [lia|].
      replace (fst (cost e an) + k - fst (cost e an))%nat with k by lia. apply joined_first, Hk.
    - rewrite Nat.eqb_refl. cbn [Nat.add]. apply joined_first, Hk.
  Qed.

  Lemma step_pool s c g' : exists g,
    let '(s', g1, an) := pool_step params s g c in
    step params s (c_event c) = (s', an) /\ forall n k, g1 n k = g' n k.
  Proof.
    destruct c as [e a b]. cbn [c_event]. set (an0 := snd (step params s e)). exists (before e an0 a b g').
    pose proof (pool_step_dealt s (before e an0 a b g') (before e an0 a b g') start {| c_event := e; c_rng := a; c_thread := b |} (fun n k => eq_refl)) as K.
    destruct (pool_step params s (before e an0 a b g') {| c_event := e; c_rng := a; c_thread := b |}) as [[s' g1] an]. destruct K as [K1 K2].
    assert (Hs : an = an0 -> step params s e = (s', an)).
    { intros ->. rewrite <- K1. pose proof (before_rng e an0 a b g') as B1. pose proof (before_thread e an0 a b g') as B2.
      unfold dealt, thread_at. cbn [c_event c_rng c_thread]. unfold start. cbn [Nat.add].
      set (g := before e an0 a b g') in *. clearbody g. destruct e; try reflexivity; cbn [rng_of thread_of] in *.
      - cbn [cost fst] in B1. cbn [step].
        pose proof (C100_create E params r (after 0 (g a)) (fun k Hk => eq_sym (B1 k Hk))) as K. cbn beta iota in K.
        destruct (signal_issuer_create params r), (signal_issuer_create params (after 0 (g a))). destruct K as [<- _]. reflexivity.
      - cbn [step] in *. destruct (nth_error (sv_issuers s) issuer) as [i|] eqn:Hi; [|reflexivity].
        match goal with |- _ = (match signal_issue i number ?x ?y with _ => _ end, _) => 
          pose proof (issue_shape i number r os x y) as Hs; pose proof (C100_issue E i number r x os y) as K end.
        unfold same_shape in Hs. destruct (signal_issue i number r os) as [[[iss r1] o1]|e1|] eqn:Hr; cbn [answer_of snd] in *.
        + subst an0. cbn [cost fst snd] in *. lapply K; clear K; [intros K|intros k Hk; symmetry; apply B1, Hk].
          lapply K; clear K; [intros K|intros k Hk; symmetry; apply B2, Hk].
          match goal with |- _ = (match ?x with _ => _ end, _) => destruct x as [[[iss' r1'] o1']|e2|] end; try contradiction.
          destruct K as [<- _]. reflexivity.
        + match goal with |- _ = (match ?x with _ => _ end, _) => destruct x as [[[iss' r1'] o1']|e2|] end; try contradiction. rewrite Hs. reflexivity.
        + match goal with |- _ = (match ?x with _ => _ end, _) => destruct x as [[[iss' r1'] o1']|e2|] end; try contradiction. reflexivity.
      - cbn [cost fst] in B1. cbn [step].
        pose proof (C100_commit E number params r (after 0 (g a)) (fun k Hk => eq_sym (B1 k Hk))) as K.
        destruct (roster_create number params r) as [[? ?]|?|], (roster_create number params (after 0 (g a))) as [[? ?]|?|]; try contradiction; [|rewrite K; reflexivity|reflexivity].
        destruct K as [<- _]. reflexivity.
      - cbn [step] in *. destruct (nth_error (sv_users s) user) as [us|] eqn:Hu; [|reflexivity].
        destruct (nth_error (sv_entries s) entry) as [en|] eqn:He; [|reflexivity].
        match goal with |- _ = (match signal_show us ?x ?y en with _ => _ end, _) => 
          pose proof (show_shape us en r os x y) as Hs; pose proof (C100_show E us en r x os y) as K end. cbn beta in K.
        unfold same_shape in Hs. destruct (signal_show us r os en) as [[[p r1] o1]|e1|] eqn:Hr; cbn [answer_of snd] in *.
        + subst an0. cbn [cost fst snd] in *. lapply K; clear K; [intros K|intros k Hk; symmetry; apply B1, Hk].
          lapply K; clear K; [intros K|intros k Hk; symmetry; apply B2, Hk].
          rewrite (scalar_agree (after 0 (g a)) r (agree_le 96 64 _ _ ltac:(lia) B1)).
          match goal with |- _ = (match ?x with _ => _ end, _) => destruct x as [[[p' r1'] o1']|e2|] end; try contradiction.
          destruct K as [<- _]. reflexivity.
        + match goal with |- _ = (match ?x with _ => _ end, _) => destruct x as [[[p' r1'] o1']|e2|] end; try contradiction. rewrite Hs. reflexivity.
        + match goal with |- _ = (match ?x with _ => _ end, _) => destruct x as [[[p' r1'] o1']|e2|] end; try contradiction. reflexivity. }
    assert (Han : an = an0).
    { unfold an0. clear K2 Hs. destruct e; unfold dealt in K1; cbn [c_event c_rng c_thread] in K1; try (rewrite K1; reflexivity).
      - cbn [step] in K1. injection K1 as _ <-. reflexivity.
      - cbn [step] in *. destruct (nth_error (sv_issuers s) issuer) as [i|] eqn:Hi; [|injection K1 as _ <-; reflexivity].
        match type of K1 with context [signal_issue i number ?x ?y] => pose proof (issue_shape i number r os x y) as Hs; unfold same_shape in Hs;
          destruct (signal_issue i number x y) as [[[? ?] ?]|?|] end;
        destruct (signal_issue i number r os) as [[[? ?] ?]|?|]; try contradiction; injection K1 as _ <-; cbn [snd answer_of]; congruence.
      - cbn [step] in *. injection K1 as _ <-. cbn [snd]. unfold roster_create.
        destruct (ephemeral_new _), (ephemeral_new _). destruct (try_from_bytes number); reflexivity.
      - cbn [step] in *. destruct (nth_error (sv_users s) user) as [us|] eqn:Hu; [|injection K1 as _ <-; reflexivity].
        destruct (nth_error (sv_entries s) entry) as [en|] eqn:He; [|injection K1 as _ <-; reflexivity].
        match type of K1 with context [signal_show us ?x ?y en] => pose proof (show_shape us en r os x y) as Hs; unfold same_shape in Hs;
          destruct (signal_show us x y en) as [[[? ?] ?]|?|] end;
        destruct (signal_show us r os en) as [[[? ?] ?]|?|]; try contradiction; injection K1 as _ <-; cbn [snd answer_of]; congruence. }
    split; [exact (Hs Han)|]. subst an. intros n k. rewrite K2. unfold read_on, start. cbn [c_event c_rng c_thread Nat.add]. apply before_left.
  Qed.

  Lemma pool_any h : forall s, exists g,
    pool_answers params s g h = answers params s (map c_event h) /\
    fst (pool_after params s g h) = service_after params s (map c_event h).
  Proof.
    induction h as [|c h IH]; intros s; [exists (fun _ _ => Byte.x00); split; reflexivity|].
    destruct (IH (fst (step params s (c_event c)))) as (g' & H1 & H2). destruct (step_pool s c g') as (g & K). exists g.
    cbn [pool_answers pool_after map answers service_after].
    destruct (pool_step params s g c) as [[s' g1] an]. destruct K as [K1 K2]. rewrite K1 in *. cbn [fst snd] in *.
    destruct (pool_cong h s' g1 g' K2) as [C1 C2]. rewrite C1, C2, H1, H2. split; reflexivity.
  Qed.
End steps.

(** ** The stretches *)
Section stretch.
  Context {E : Ext}.
  Lemma read_on_more (u : nat -> nat) (c : call E) an n : (u n <= read_on u c an n)%nat.
  Proof. unfold read_on. lia. Qed.
  Lemma stretches_later h : forall (u : nat -> nat) ans x, In x (stretches (E := E) u h ans) -> (u (fst (fst x)) <= snd (fst x))%nat.
  Proof.
    induction h as [|c h IH]; intros u [|an ans] x Hx; try contradiction. destruct Hx as [<-|[<-|Hx]]; cbn [fst snd].
    - lia.
    - unfold thread_at. lia.
    - specialize (IH _ _ _ Hx). pose proof (read_on_more u c an (fst (fst x))). lia.
  Qed.
  Lemma stretches_apart h : forall (u : nat -> nat) ans i j x y,
    (i < j)%nat -> nth_error (stretches (E := E) u h ans) i = Some x -> nth_error (stretches u h ans) j = Some y ->
    fst (fst x) = fst (fst y) -> (snd (fst x) + snd x <= snd (fst y))%nat.
  Proof.
    induction h as [|c h IH]; intros u [|an ans] i j x y Hij Hx Hy Hxy; try (destruct i; discriminate).
    destruct j as [|[|j]]; [lia| |].
    - destruct i as [|i]; [|lia]. cbn in Hx, Hy. injection Hx as <-. injection Hy as <-. cbn [fst snd] in *.
      unfold thread_at. rewrite <- Hxy, Nat.eqb_refl. lia.
    - cbn [nth_error stretches] in Hy. destruct i as [|[|i]].
      + cbn in Hx. injection Hx as <-. cbn [fst snd] in *. apply nth_error_In, stretches_later in Hy. rewrite <- Hxy in Hy.
        unfold read_on in Hy at 1. rewrite Nat.eqb_refl in Hy. lia.
      + cbn in Hx. injection Hx as <-. cbn [fst snd] in *. apply nth_error_In, stretches_later in Hy. rewrite <- Hxy in Hy.
        unfold read_on in Hy at 1. rewrite Nat.eqb_refl in Hy. unfold thread_at. lia.
      + cbn [nth_error stretches] in Hx. exact (IH _ _ i j x y ltac:(lia) Hx Hy Hxy).
  Qed.
End stretch.

(** ** C102 *)
(** A service on a pool of generators is the service with streams of its own for
    every call: those that follow each other in the generators. *)
Theorem C102_dealt : forall E (params : SystemParameters E) (h : list (call E)) (g : pool),
  let ans := pool_answers params service_start g h in
  let h' := deal g start h ans in
  answers params service_start h' = ans /\
  service_after params service_start h' = fst (pool_after params service_start g h) /\
  (forall n, left_at (read_after start h ans n) (g n) (snd (pool_after params service_start g h) n)).
Proof. intros E params h g. exact (pool_dealt params h service_start g g start (fun n k => eq_refl)). Qed.
Print Assumptions C102_dealt.

(** No byte is read twice. *)
Theorem C102_apart : forall E (h : list (call E)) ans i j a n k b n' k',
  nth_error (stretches start h ans) i = Some (a, n, k) -> nth_error (stretches start h ans) j = Some (b, n', k') ->
  i <> j -> a = b -> (n + k <= n' \/ n' + k' <= n)%nat.
Proof.
  intros E h ans i j a n k b n' k' Hi Hj Hne Hab. destruct (Nat.lt_total i j) as [H|[H|H]]; [|contradiction|].
  - left. exact (stretches_apart h start ans i j _ _ H Hi Hj Hab).
  - right. exact (stretches_apart h start ans j i _ _ H Hj Hi (eq_sym Hab)).
Qed.
Print Assumptions C102_apart.

(** Whatever streams the calls are given, there are generators from which they
    get the same. *)
Theorem C102_any : forall E (params : SystemParameters E) (h : list (call E)), exists g,
  pool_answers params service_start g h = answers params service_start (map c_event h) /\
  fst (pool_after params service_start g h) = service_after params service_start (map c_event h).
Proof. intros E params h. apply pool_any. Qed.
Print Assumptions C102_any.

(** So everybody may rely on what C89 says. *)
Theorem C102_history : forall E, ExtLaws E -> forall (params : SystemParameters E) (h : list (call E)) g,
  sp_h params <> pzero -> Forall sound_event (map c_event h) ->
  let ans := pool_answers params service_start g h in
  ans = expectations ledger_start (map c_event h) \/
  some_mishap params ledger_start service_start (deal g start h ans).
Proof.
  intros E L params h g Hh Hs ans.
  assert (Hlen : List.length ans = List.length h).
  { unfold ans. generalize (@service_start E). clear. revert g. induction h as [|c h IH]; intros g s; [reflexivity|].
    cbn [pool_answers]. destruct (pool_step params s g c) as [[s' g'] an]. cbn [List.length]. f_equal. apply IH. }
  assert (Hb : forall h u ans, List.length ans = List.length h -> map bare (deal (E := E) g u h ans) = map bare (map c_event h)).
  { clear. induction h as [|c h IH]; intros u [|an ans] Hl; try discriminate; [reflexivity|]. cbn [deal map]. f_equal.
    - destruct c as [e a b]; destruct e; reflexivity.
    - apply IH. cbn in Hl. lia. }
  assert (Hd : forall h u ans, Forall sound_event (map c_event h) -> Forall sound_event (deal (E := E) g u h ans)).
  { clear. induction h as [|c h IH]; intros u [|an ans] Hl; try constructor.
    - inversion Hl as [|? ? H1 H2]; subst. destruct c as [e a b]; destruct e; exact H1 || exact I.
    - inversion Hl; subst. apply IH. assumption. }
  destruct (C102_dealt E params h g) as (H1 & _ & _). fold ans in H1.
  destruct (C89_history E L params (deal g start h ans) Hh (Hd h start ans Hs)) as [H|H]; [|right; exact H].
  left. rewrite <- H1, H, <- expectations_bare, (Hb h start ans Hlen), expectations_bare. reflexivity.
Qed.
Print Assumptions C102_history.

(** ** Example: issuer and user in one thread, who use its generator, and an entry
    made with another; at the end they have been read up to bytes 256 and 224. *)
Definition sample_calls : list (call toy) :=
  [ {| c_event := OpenIssuer (toy_stream 0); c_rng := 0; c_thread := 0 |};
    {| c_event := Register 0 None (str "123"); c_rng := 0; c_thread := 0 |};
    {| c_event := Enter (str "0123456789012345678901234567") (toy_stream 0); c_rng := 1; c_thread := 0 |};
    {| c_event := Enter (str "123") (toy_stream 0); c_rng := 1; c_thread := 0 |};
    {| c_event := Present 0 0 (toy_stream 0) (toy_stream 0); c_rng := 0; c_thread := 0 |};
    {| c_event := IssueTo 0 (str "123") (toy_stream 0) (toy_stream 0); c_rng := 0; c_thread := 0 |};
    {| c_event := Deliver 0 0; c_rng := 0; c_thread := 0 |};
    {| c_event := Present 0 0 (toy_stream 0) (toy_stream 0); c_rng := 1; c_thread := 0 |};
    {| c_event := CheckMember 0 0; c_rng := 0; c_thread := 0 |} ].
Definition sample_answers : list answer := [Done; Done; Crashed; Done; Failed MissingData; Done; Done; Done; Done].
Example C102_met : sp_h sample_params <> pzero /\ Forall sound_event (map c_event sample_calls) /\
  pool_answers sample_params service_start (fun n => toy_stream (1 + Z.of_nat n)) sample_calls = sample_answers /\
  map (read_after start sample_calls sample_answers) [0; 1; 2]%nat = [256; 224; 0]%nat /\
  nth_error (stretches start sample_calls sample_answers) 14 = Some (1, 128, 96)%nat /\
  nth_error (stretches start sample_calls sample_answers) 15 = Some (0, 192, 64)%nat.
Proof.
  split; [apply (peqb_false toy_laws); vm_compute; reflexivity|]. split; [repeat constructor|].
  split; [vm_compute; reflexivity|]. split; [vm_compute; reflexivity|]. split; vm_compute; reflexivity.
Qed.
