(** How many random bytes the calls read (C100). *)
From Verif Require Import Algebra BaseFacts PropertiesPhone Toy SpecReads PropertiesIssue PropertiesSignal.

Section lemmas.
  Context {E : Ext}.
  Lemma fill_agree n r s : agree n r s -> fst (fill_bytes n r) = fst (fill_bytes n s).
  Proof. intros H. cbn [fill_bytes fst]. apply map_ext_in. intros i Hi. apply in_seq in Hi. apply H. lia. Qed.
  Lemma scalar_agree r s : agree 64 r s -> fst (scalar_random r) = fst (scalar_random s).
  Proof. intros H. apply fill_agree in H. exact (f_equal from_bytes_mod_order_wide H). Qed.
  Lemma reseed_agree t w r s : agree 32 r s -> fst (@reseed E t w r) = fst (@reseed E t w s).
  Proof. intros H. apply fill_agree in H. exact (f_equal (@tr_rng E t w) H). Qed.
  Lemma agree_le n k r s : (k <= n)%nat -> agree n r s -> agree k r s.
  Proof. intros Hk H i Hi. apply H. lia. Qed.
  Lemma agree_after n k r s : agree (n + k) r s -> agree k (after n r) (after n s).
  Proof. intros H i Hi. apply H. lia. Qed.
  Lemma left_left n k r r' r'' : left_at n r r' -> left_at k r' r'' -> left_at (n + k) r r''.
  Proof. intros H K i. rewrite K, H. f_equal. lia. Qed.
  Lemma left_agree n k r s r' s' : agree (n + k) r s -> left_at n r r' -> left_at n s s' -> agree k r' s'.
  Proof. intros H Hr Hs i Hi. rewrite Hr, Hs. apply H. lia. Qed.

  Lemma ir_agree t p s o q : agree 32 o q -> fst (ir_create (E := E) t p s o) = fst (ir_create (E := E) t p s q) /\
    left_at 32 o (snd (ir_create (E := E) t p s o)).
  Proof.
    intros H. split; [|intros i; reflexivity]. unfold ir_create, ir_randomness.
    match goal with |- context [@reseed E ?a ?w o] => pose proof (reseed_agree a w o q H) as K; destruct (@reseed E a w o) as [x x'], (@reseed E a w q) as [y y'] end.
    cbn [fst] in K. rewrite K. reflexivity.
  Qed.
  Lemma vc_agree t p s o q : agree 32 o q -> fst (vc_create (E := E) t p s o) = fst (vc_create (E := E) t p s q) /\
    left_at 32 o (snd (vc_create (E := E) t p s o)).
  Proof.
    intros H. split; [|intros i; reflexivity]. unfold vc_create, vc_randomness.
    match goal with |- context [@reseed E ?a ?w o] => pose proof (reseed_agree a w o q H) as K; destruct (@reseed E a w o) as [x x'], (@reseed E a w q) as [y y'] end.
    cbn [fst] in K. rewrite K. reflexivity.
  Qed.
  Lemma ce_agree t p s o q : agree 32 o q -> fst (ce_create (E := E) t p s o) = fst (ce_create (E := E) t p s q) /\
    left_at 32 o (snd (ce_create (E := E) t p s o)).
  Proof.
    intros H. split; [|intros i; reflexivity]. unfold ce_create, ce_randomness.
    match goal with |- context [@reseed E ?a ?w o] => pose proof (reseed_agree a w o q H) as K; destruct (@reseed E a w o) as [x x'], (@reseed E a w q) as [y y'] end.
    cbn [fst] in K. rewrite K. reflexivity.
  Qed.
End lemmas.

Lemma scalar_random_eq r : scalar_random r = (fst (scalar_random r), after 64 r).
Proof. reflexivity. Qed.
Lemma reseed_eq {E} t w r : @reseed E t w r = (fst (@reseed E t w r), after 32 r).
Proof. reflexivity. Qed.
Lemma left_refl n r : left_at n r (after n r).
Proof. intros i. reflexivity. Qed.

(** ** C100: each call *)
Theorem C100_create : forall E (params : SystemParameters E), reads (Er := unit) 128 (fun r => Ok (signal_issuer_create params r)).
Proof.
  intros E params r s H.
  pose proof (scalar_agree r s (agree_le 128 64 r s ltac:(lia) H)) as K1.
  pose proof (scalar_agree (after 64 r) (after 64 s) (agree_after 64 64 r s H)) as K2.
  unfold signal_issuer_create, issuer_create, keypair_new, secret_key_new, NUMBER_OF_ATTRIBUTES.
  rewrite (scalar_random_eq r), (scalar_random_eq s). cbn [scalars_random].
  rewrite (scalar_random_eq (after 64 r)), (scalar_random_eq (after 64 s)). rewrite K1, K2.
  split; [reflexivity|]. split; intros i; unfold after; f_equal; lia.
Qed.
Print Assumptions C100_create.
Theorem C100_commit : forall E number (params : SystemParameters E), reads 64 (roster_create number params).
Proof.
  intros E number params r s H. pose proof (scalar_agree r s H) as K. unfold roster_create, ephemeral_new.
  rewrite (scalar_random_eq r), (scalar_random_eq s), K. destruct (try_from_bytes number); cbn [bind]; [|reflexivity|exact I].
  split; [reflexivity|]. split; apply left_refl.
Qed.
Print Assumptions C100_commit.
Lemma issue_reads {E} (i : Issuer E) rq : reads_two 32 32 (issue i rq).
Proof.
  intros r s o q Hr Ho. unfold issue. destruct (nth_error (pk_Xn _) 0) as [X1|]; cbn [ok_or bind]; [|reflexivity].
  destruct (nth_error (sk_xn _) 0) as [x1|]; cbn [ok_or bind]; [|reflexivity].
  match goal with |- context [@reseed E ?t ?w r] => rewrite (reseed_eq t w r), (reseed_eq t w s), (reseed_agree t w r s Hr) end.
  set (c := fst (reseed _ _ s)). clearbody c. destruct (mac _ _ c) as [[tag c']|e|]; cbn [map_err bind]; [|reflexivity|exact I].
  destruct (ephemeral_new c') as [x0t c'']. destruct (issue_statement _ _ _ _ _ _) as [[pu se]|e|]; cbn [bind]; [|reflexivity|exact I].
  match goal with |- context [ir_create ?t ?p ?x o] =>
    destruct (ir_agree t p x o q Ho) as [K L1]; destruct (ir_agree t p x q o (fun i Hi => eq_sym (Ho i Hi))) as [_ L2];
    destruct (ir_create t p x o) as [pr o'], (ir_create t p x q) as [pr' q'] end.
  cbn [fst snd] in *. subst pr'. split; [reflexivity|]. split; [apply left_refl|]. split; [apply left_refl|]. auto.
Qed.
Theorem C100_issue : forall E (i : Issuer E) number, reads_two 32 32 (signal_issue i number).
Proof.
  intros E i number r s o q Hr Ho. unfold signal_issue.
  destruct (map_err _ (try_from_bytes number)) as [n|e|]; cbn [bind]; [|reflexivity|exact I]. apply issue_reads; assumption.
Qed.
Print Assumptions C100_issue.
Lemma show_reads {E} (u : User E) nonces : reads_two 32 32 (show u nonces).
Proof.
  intros r s o q Hr Ho. unfold show. destruct (us_credential u) as [c|]; cbn [ok_or bind]; [|reflexivity].
  match goal with |- context [@reseed E ?t ?w r] => rewrite (reseed_eq t w r), (reseed_eq t w s), (reseed_agree t w r s Hr) end.
  set (k := fst (reseed _ _ s)). clearbody k. destruct (scalar_random k) as [a k']. destruct (ephemeral_new k') as [z k''].
  destruct (show_statement _ _ _ _ _) as [[[[CQ cs] pu] se]|e|]; cbn [bind]; [|reflexivity|exact I].
  match goal with |- context [vc_create ?t ?p ?x o] =>
    destruct (vc_agree t p x o q Ho) as [K L1]; destruct (vc_agree t p x q o (fun i Hi => eq_sym (Ho i Hi))) as [_ L2];
    destruct (vc_create t p x o) as [pr o'], (vc_create t p x q) as [pr' q'] end.
  cbn [fst snd] in *. subst pr'. split; [reflexivity|]. split; [apply left_refl|]. split; [apply left_refl|]. auto.
Qed.
Theorem C100_show : forall E (u : SignalUser E) entry, reads_two 96 64 (fun r os => signal_show u r os entry).
Proof.
  intros E u entry r s o q Hr Ho. unfold signal_show. destruct (us_credential (su_user u)) as [c|]; cbn [ok_or bind]; [|reflexivity].
  unfold nonces_new, NUMBER_OF_ATTRIBUTES. cbn [scalars_random].
  rewrite (scalar_random_eq r), (scalar_random_eq s), (scalar_agree r s (agree_le 96 64 r s ltac:(lia) Hr)).
  set (z := fst (scalar_random s)). clearbody z.
  pose proof (show_reads (su_user u) [z] (after 64 r) (after 64 s) o q (agree_after 64 32 r s Hr) (agree_le 64 32 o q ltac:(lia) Ho)) as K.
  destruct (show (su_user u) [z] (after 64 r) o) as [[[p r'] o']|e|], (show (su_user u) [z] (after 64 s) q) as [[[p' s'] q']|e'|];
    cbn [bind]; try contradiction; [|exact K|exact I].
  destruct K as (<- & R1 & R2 & O1 & O2). destruct (roster_statement _ _ _ _ _) as [[pu se]|e|]; cbn [bind]; [|reflexivity|exact I].
  assert (Ho' : agree 32 o' q') by (eapply (left_agree 32 32); eassumption).
  match goal with |- context [ce_create ?t ?p0 ?x o'] =>
    destruct (ce_agree t p0 x o' q' Ho') as [K L1]; destruct (ce_agree t p0 x q' o' (fun i Hi => eq_sym (Ho' i Hi))) as [_ L2];
    destruct (ce_create t p0 x o') as [pr o''], (ce_create t p0 x q') as [pr' q''] end.
  cbn [fst snd] in *. subst pr'. split; [reflexivity|].
  split; [exact (left_left 64 32 _ _ _ (left_refl 64 r) R1)|]. split; [exact (left_left 64 32 _ _ _ (left_refl 64 s) R2)|].
  split; [exact (left_left 32 32 _ _ _ O1 L1)|exact (left_left 32 32 _ _ _ O2 L2)].
Qed.
Print Assumptions C100_show.
Theorem C100_parameters : forall E fuel r (params : SystemParameters E) r', hunt_and_peck fuel r = Some (params, r') ->
  exists k, (1 <= k <= fuel)%nat /\ left_at (32 * k) r r' /\
  forall s, agree (32 * k) r s -> exists s', hunt_and_peck fuel s = Some (params, s') /\ left_at (32 * k) s s'.
Proof.
  intros E fuel. induction fuel as [|f IH]; intros r params r' H; [discriminate|]. cbn [hunt_and_peck] in H.
  change (fill_bytes 32 r) with (fst (fill_bytes 32 r), after 32 r) in H. cbv beta iota in H.
  destruct (@peck E (fst (fill_bytes 32 r))) as [h|] eqn:Hp.
  - injection H as <- <-. exists 1%nat. split; [lia|]. split; [apply (left_refl 32)|]. intros s Hs. exists (after 32 s).
    split; [|apply (left_refl 32)]. cbn [hunt_and_peck]. change (fill_bytes 32 s) with (fst (fill_bytes 32 s), after 32 s). cbv beta iota.
    rewrite <- (fill_agree 32 r s Hs), Hp. reflexivity.
  - destruct (IH _ _ _ H) as (k & Hk & Hl & Hs). exists (S k). split; [lia|].
    replace (32 * S k)%nat with (32 + 32 * k)%nat by lia. split; [exact (left_left 32 _ _ _ _ (left_refl 32 r) Hl)|].
    intros s Has. destruct (Hs (after 32 s) (agree_after 32 _ r s Has)) as (s' & He & Hl'). exists s'.
    split; [|exact (left_left 32 _ _ _ _ (left_refl 32 s) Hl')]. cbn [hunt_and_peck].
    change (fill_bytes 32 s) with (fst (fill_bytes 32 s), after 32 s). cbv beta iota.
    rewrite <- (fill_agree 32 r s (agree_le (32 + 32 * k) 32 r s ltac:(lia) Has)), Hp. exact He.
Qed.
Print Assumptions C100_parameters.

(** ** C100: [thread_rng] for the caller's generator *)
Lemma issue_thread_is {E} (i : Issuer E) rq : thread_is 32 32 (issue_thread i rq) (issue i rq).
Proof.
  intros r. unfold issue_thread, issue. destruct (nth_error (pk_Xn _) 0) as [X1|]; cbn [ok_or bind]; [|reflexivity].
  destruct (nth_error (sk_xn _) 0) as [x1|]; cbn [ok_or bind]; [|reflexivity].
  match goal with |- context [@reseed E ?t ?w r] => rewrite (reseed_eq t w r) end.
  set (c := fst (reseed _ _ r)). clearbody c. destruct (mac _ _ c) as [[tag c']|e|]; cbn [map_err bind]; [|reflexivity|exact I].
  destruct (ephemeral_new c') as [x0t c'']. destruct (issue_statement _ _ _ _ _ _) as [[pu se]|e|]; cbn [bind]; [|reflexivity|exact I].
  match goal with |- context [ir_create ?t ?p ?x (after 32 r)] =>
    destruct (ir_agree t p x (after 32 r) (after 32 r) (fun _ _ => eq_refl)) as [_ L1]; destruct (ir_create t p x (after 32 r)) as [pr o'] end.
  split; [reflexivity|]. exact (left_left 32 32 _ _ _ (left_refl 32 r) L1).
Qed.
Lemma show_thread_is {E} (u : User E) nonces : thread_is 32 32 (show_thread u nonces) (show u nonces).
Proof.
  intros r. unfold show_thread, show. destruct (us_credential u) as [c|]; cbn [ok_or bind]; [|reflexivity].
  match goal with |- context [@reseed E ?t ?w r] => rewrite (reseed_eq t w r) end.
  set (k := fst (reseed _ _ r)). clearbody k. destruct (scalar_random k) as [a k']. destruct (ephemeral_new k') as [z k''].
  destruct (show_statement _ _ _ _ _) as [[[[CQ cs] pu] se]|e|]; cbn [bind]; [|reflexivity|exact I].
  match goal with |- context [vc_create ?t ?p ?x (after 32 r)] =>
    destruct (vc_agree t p x (after 32 r) (after 32 r) (fun _ _ => eq_refl)) as [_ L1]; destruct (vc_create t p x (after 32 r)) as [pr o'] end.
  split; [reflexivity|]. exact (left_left 32 32 _ _ _ (left_refl 32 r) L1).
Qed.
Theorem C100_thread : forall E (i : Issuer E) (u : SignalUser E) number entry,
  thread_is 32 32 (signal_issue_thread i number) (signal_issue i number) /\
  thread_is 96 64 (fun r => signal_show_thread u r entry) (fun r os => signal_show u r os entry).
Proof.
  intros E i u number entry. split; intros r.
  - unfold signal_issue_thread, signal_issue. destruct (map_err _ (try_from_bytes number)) as [n|e|]; cbn [bind]; [|reflexivity|exact I].
    apply issue_thread_is.
  - unfold signal_show_thread, signal_show. destruct (us_credential (su_user u)) as [c|]; cbn [ok_or bind]; [|reflexivity].
    unfold nonces_new, NUMBER_OF_ATTRIBUTES. cbn [scalars_random]. rewrite (scalar_random_eq r). set (z := fst (scalar_random r)). clearbody z.
    pose proof (show_thread_is (su_user u) [z] (after 64 r)) as K.
    pose proof (show_reads (su_user u) [z] (after 64 r) (after 64 r) (after 32 (after 64 r)) (after 96 r) (fun _ _ => eq_refl) (fun _ _ => eq_refl)) as K2.
    destruct (show_thread (su_user u) [z] (after 64 r)) as [[p r']|e|],
      (show (su_user u) [z] (after 64 r) (after 32 (after 64 r))) as [[[p1 r1] o1]|e1|]; try contradiction;
      destruct (show (su_user u) [z] (after 64 r) (after 96 r)) as [[[p2 r2] o2]|e2|]; try contradiction; cbn [bind].
    2: { congruence. }
    2: { exact I. }
    destruct K as [<- L1]. destruct K2 as (<- & _ & _ & _ & L2).
    destruct (roster_statement _ _ _ _ _) as [[pu se]|e|]; cbn [bind]; [|reflexivity|exact I].
    assert (Ha : agree 32 r' o2).
    { intros j _. rewrite L1, L2. unfold after. f_equal; lia. }
    match goal with |- context [ce_create ?t ?p0 ?x r'] =>
      destruct (ce_agree t p0 x r' o2 Ha) as [K L3]; destruct (ce_create t p0 x r') as [pr o''], (ce_create t p0 x o2) as [pr' q''] end.
    cbn [fst snd] in *. subst pr'. split; [reflexivity|].
    exact (left_left 128 32 _ _ _ (left_left 64 64 _ _ _ (left_refl 64 r) L1) L3).
Qed.
Print Assumptions C100_thread.

(** ** C100: one generator for everything *)
Section runs.
  Context {E : Ext} (params : SystemParameters E) (number : bytes).
  Lemma apart_agree r1 r2 o2 r3 r4 o4 s1 s2 q2 s3 s4 q4 :
    agree 128 r1 s1 -> agree 32 r2 s2 -> agree 32 o2 q2 -> agree 64 r3 s3 -> agree 96 r4 s4 -> agree 64 o4 q4 ->
    run_apart params number r1 r2 o2 r3 r4 o4 = run_apart params number s1 s2 q2 s3 s4 q4.
  Proof.
    intros H1 H2 H2' H3 H4 H4'. unfold run_apart.
    pose proof (C100_create E params r1 s1 H1) as K. cbn beta iota in K.
    destruct (signal_issuer_create params r1) as [i r1'], (signal_issuer_create params s1) as [i' s1']. destruct K as [<- _].
    pose proof (C100_issue E i number r2 s2 o2 q2 H2 H2') as K.
    destruct (signal_issue i number r2 o2) as [[[iss r2'] o2']|e|], (signal_issue i number s2 q2) as [[[iss' s2'] q2']|e'|]; try contradiction; try reflexivity.
    destruct K as [<- _]. destruct (holder params i number iss) as [u|]; [|reflexivity].
    pose proof (C100_commit E number params r3 s3 H3) as K.
    destruct (roster_create number params r3) as [[en r3']|e|], (roster_create number params s3) as [[en' s3']|e'|]; try contradiction; try reflexivity.
    destruct K as [<- _]. pose proof (C100_show E u en r4 s4 o4 q4 H4 H4') as K. cbn beta in K.
    destruct (signal_show u r4 o4 en) as [[[p r4'] o4']|e|], (signal_show u s4 q4 en) as [[[p' s4'] q4']|e'|]; try contradiction; try reflexivity.
    destruct K as [<- _]. reflexivity.
  Qed.
  Lemma one_apart r o : run_one params number r o =
    run_apart params number r (after 128 r) o (after 160 r) (after 224 r) (after 32 o).
  Proof.
    unfold run_one, run_apart.
    pose proof (C100_create E params r r (fun _ _ => eq_refl)) as K. cbn beta iota in K.
    destruct (signal_issuer_create params r) as [i r1]. destruct K as (_ & L1 & _).
    pose proof (C100_issue E i number r1 (after 128 r) o o (fun j _ => L1 j) (fun _ _ => eq_refl)) as K.
    destruct (signal_issue i number r1 o) as [[[iss r2] o2]|e|], (signal_issue i number (after 128 r) o) as [[[iss' s2'] q2']|e'|]; try contradiction; try reflexivity.
    destruct K as (<- & L2 & _ & O2 & _). destruct (holder params i number iss) as [u|]; [|reflexivity].
    pose proof (left_left 128 32 _ _ _ L1 L2) as L12. cbn [Nat.add] in L12.
    pose proof (C100_commit E number params r2 (after 160 r) (fun j _ => L12 j)) as K.
    destruct (roster_create number params r2) as [[en r3]|e|], (roster_create number params (after 160 r)) as [[en' s3']|e'|]; try contradiction; try reflexivity.
    destruct K as (<- & L3 & _). pose proof (left_left 160 64 _ _ _ L12 L3) as L13. cbn [Nat.add] in L13.
    pose proof (C100_show E u en r3 (after 224 r) o2 (after 32 o) (fun j _ => L13 j) (fun j _ => O2 j)) as K. cbn beta in K.
    destruct (signal_show u r3 o2 en) as [[[p r4'] o4']|e|], (signal_show u (after 224 r) (after 32 o) en) as [[[p' s4'] q4']|e'|]; try contradiction; try reflexivity.
    destruct K as [<- _]. reflexivity.
  Qed.
  Lemma thread_apart r : run_thread params number r =
    run_apart params number r (after 128 r) (after 160 r) (after 192 r) (after 256 r) (after 352 r).
  Proof.
    unfold run_thread, run_apart.
    pose proof (C100_create E params r r (fun _ _ => eq_refl)) as K. cbn beta iota in K.
    destruct (signal_issuer_create params r) as [i r1]. destruct K as (_ & L1 & _).
    destruct (C100_thread E i {| su_phone_number := 0; su_user := user_new params (get_issuer_parameters i) None |} number
      {| re_commitment := pzero; re_opening := 0 |}) as [K _]. specialize (K r1).
    pose proof (C100_issue E i number r1 (after 128 r) (after 32 r1) (after 160 r) (fun j _ => L1 j) (fun j _ => L1 (32 + j)%nat)) as K2.
    destruct (signal_issue_thread i number r1) as [[iss r2]|e|], (signal_issue i number r1 (after 32 r1)) as [[[iss1 x1] x2]|e1|]; try contradiction;
      destruct (signal_issue i number (after 128 r) (after 160 r)) as [[[iss' s2'] q2']|e'|]; try contradiction; try reflexivity.
    destruct K as [<- L2]. destruct K2 as [<- _]. destruct (holder params i number iss) as [u|]; [|reflexivity].
    pose proof (left_left 128 64 _ _ _ L1 L2) as L12. cbn [Nat.add] in L12.
    pose proof (C100_commit E number params r2 (after 192 r) (fun j _ => L12 j)) as K.
    destruct (roster_create number params r2) as [[en r3]|e|], (roster_create number params (after 192 r)) as [[en' s3']|e'|]; try contradiction; try reflexivity.
    destruct K as (<- & L3 & _). pose proof (left_left 192 64 _ _ _ L12 L3) as L13. cbn [Nat.add] in L13.
    destruct (C100_thread E i u number en) as [_ K]. specialize (K r3). cbn beta in K.
    pose proof (C100_show E u en r3 (after 256 r) (after 96 r3) (after 352 r) (fun j _ => L13 j) (fun j _ => L13 (96 + j)%nat)) as K2. cbn beta in K2.
    destruct (signal_show_thread u r3 en) as [[p r4]|e|], (signal_show u r3 (after 96 r3) en) as [[[p1 x3] x4]|e1|]; try contradiction;
      destruct (signal_show u (after 256 r) (after 352 r) en) as [[[p' s4'] q4']|e'|]; try contradiction; try reflexivity.
    destruct K as [<- _]. destruct K2 as [<- _]. reflexivity.
  Qed.
End runs.
(** [a] on the first [n] bytes, [b] from there on. *)
Definition joined (n : nat) (a b : rng) : rng := fun i => if (i <? n)%nat then a i else b (i - n)%nat.
Lemma joined_first n a b : agree n (joined n a b) a.
Proof. intros i Hi. unfold joined. destruct (Nat.ltb_spec i n); [reflexivity|lia]. Qed.
Lemma joined_rest n k a b : (n <= k)%nat -> forall i, after k (joined n a b) i = after (k - n) b i.
Proof. intros Hk i. unfold after, joined. destruct (Nat.ltb_spec (k + i) n); [lia|f_equal; lia]. Qed.
(** The calls of a run with one generator read disjoint stretches of it, and
    whatever can come of a run with a generator for each call can come of one
    with a single generator. *)
Theorem C100_one_generator : forall E (params : SystemParameters E) number,
  (forall r o, run_one params number r o =
     run_apart params number r (after 128 r) o (after 160 r) (after 224 r) (after 32 o)) /\
  (forall r, run_thread params number r =
     run_apart params number r (after 128 r) (after 160 r) (after 192 r) (after 256 r) (after 352 r)) /\
  (forall r1 r2 o2 r3 r4 o4, exists r o, run_one params number r o = run_apart params number r1 r2 o2 r3 r4 o4) /\
  (forall r1 r2 o2 r3 r4 o4, exists r, run_thread params number r = run_apart params number r1 r2 o2 r3 r4 o4).
Proof.
  intros E params number. split; [apply one_apart|]. split; [apply thread_apart|]. split.
  2: { intros r1 r2 o2 r3 r4 o4. exists (joined 128 r1 (joined 32 r2 (joined 32 o2 (joined 64 r3 (joined 96 r4 o4))))).
    rewrite thread_apart. apply apart_agree; intros i Hi; try (apply joined_first; exact Hi);
      repeat (rewrite joined_rest by lia; cbn [Nat.sub]); try (unfold after; cbn [Nat.add]); try reflexivity; apply joined_first; exact Hi. }
  intros r1 r2 o2 r3 r4 o4.
  exists (joined 128 r1 (joined 32 r2 (joined 64 r3 r4))), (joined 32 o2 o4). rewrite one_apart. apply apart_agree.
  - apply joined_first.
  - intros i Hi. rewrite joined_rest by lia. apply (joined_first 32 r2 _ i Hi).
  - apply joined_first.
  - intros i Hi. rewrite joined_rest by lia. change (160 - 128)%nat with 32%nat. rewrite joined_rest by lia. apply (joined_first 64 r3 _ i Hi).
  - intros i Hi. rewrite joined_rest by lia. change (224 - 128)%nat with 96%nat. rewrite joined_rest by lia.
    change (96 - 32)%nat with 64%nat. rewrite joined_rest by lia. reflexivity.
  - intros i Hi. rewrite joined_rest by lia. reflexivity.
Qed.
Print Assumptions C100_one_generator.

(** ** Example: a run with one generator that comes to its end. *)
Example C100_met : exists x, @run_one toy sample_params (str "123") (toy_stream 1) (toy_stream 2) = Some x.
Proof.
  assert (H : match @run_one toy sample_params (str "123") (toy_stream 1) (toy_stream 2) with Some _ => true | None => false end = true)
    by (vm_compute; reflexivity).
  destruct (run_one _ _ _ _) as [x|]; [exists x; reflexivity|discriminate].
Qed.
Example C100_met_thread : exists x, @run_thread toy sample_params (str "123") (toy_stream 1) = Some x.
Proof.
  assert (H : match @run_thread toy sample_params (str "123") (toy_stream 1) with Some _ => true | None => false end = true)
    by (vm_compute; reflexivity).
  destruct (run_thread _ _ _) as [x|]; [exists x; reflexivity|discriminate].
Qed.
Example C100_met_parameters : exists params r', @hunt_and_peck toy 100 (toy_stream 1) = Some (params, r').
Proof.
  assert (H : match @hunt_and_peck toy 100 (toy_stream 1) with Some _ => true | None => false end = true) by (vm_compute; reflexivity).
  destruct (hunt_and_peck _ _) as [[params r']|]; [exists params, r'; reflexivity|discriminate].
Qed.
