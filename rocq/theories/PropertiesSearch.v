(** What the opening of a roster entry gives away (C117). *)
From Verif Require Import SpecSearch SpecCalls ForkFacts PhoneFacts CompositeFacts CreatedFacts SignalFacts Toy PropertiesPhone PropertiesSignal PropertiesAnonymity PropertiesSeeds PropertiesCodec.
Local Open Scope Z_scope.

Lemma opens_only {E} (L : ExtLaws E) number (params : SystemParameters E) r e r' s :
  roster_create number params r = Ok (e, r') -> sp_h params <> pzero ->
  (match roster_open e s params with Ok _ => true | _ => false end = true <-> s = number).
Proof.
  intros He Hh. pose proof (entry_made _ _ _ _ _ He) as (n & Hn & Ho & Hc).
  assert (Hopen : roster_open e number params = Ok tt).
  { apply (C29_open_exactly E L _ _ n params Hn). rewrite Ho. exact Hc. }
  split.
  - destruct (roster_open e s params) as [[]| |] eqn:H; try discriminate. intros _. exact (C29_one_number E L e s number params Hh H Hopen).
  - intros ->. rewrite Hopen. reflexivity.
Qed.
Lemma filter_one {A} (f : A -> bool) (x : A) l : (forall y, f y = true <-> y = x) -> NoDup l -> In x l -> filter f l = [x].
Proof.
  intros Hf Hn. induction Hn as [|y l Hy Hn IH]; [contradiction|]. cbn [filter]. intros [->|Hi].
  - rewrite (proj2 (Hf x) eq_refl). f_equal. clear IH Hn. induction l as [|z l IH]; [reflexivity|]. cbn [filter].
    destruct (f z) eqn:Hz; [apply Hf in Hz as ->; elim Hy; left; reflexivity|]. apply IH. intros H. apply Hy. right. exact H.
  - destruct (f y) eqn:Hz; [apply Hf in Hz as ->; contradiction|]. exact (IH Hi).
Qed.
Lemma filter_none {A} (f : A -> bool) (x : A) l : (forall y, f y = true <-> y = x) -> ~ In x l -> filter f l = [].
Proof.
  intros Hf. induction l as [|y l IH]; [reflexivity|]. cbn [filter]. intros Hi.
  destruct (f y) eqn:Hz; [apply Hf in Hz as ->; elim Hi; left; reflexivity|]. apply IH. intros H. apply Hi. right. exact H.
Qed.
Lemma in_digits b : In b digits <-> 48 <= bz b <= 57.
Proof.
  unfold digits. rewrite in_map_iff. split.
  - intros (d & <- & Hd). apply in_seq in Hd. rewrite bz_zb, Z.mod_small by lia. lia.
  - intros H. exists (Z.to_nat (bz b - 48)). rewrite Z2Nat.id by lia. split; [|apply in_seq; lia].
    replace (48 + (bz b - 48)) with (bz b) by lia. apply zb_bz.
Qed.
Lemma digits_nodup : NoDup digits.
Proof.
  apply (NoDup_map_inv bz). change (map bz digits) with [48; 49; 50; 51; 52; 53; 54; 55; 56; 57].
  repeat (constructor; [cbn [In]; lia|]). constructor.
Qed.
Lemma strings_nodup n : NoDup (strings n).
Proof.
  induction n as [|n IH]; [repeat constructor; intros []|]. cbn [strings].
  pose proof digits_nodup as Hd. revert Hd. generalize digits. intros l Hd. induction Hd as [|d l Hd Hn IHl]; [constructor|].
  cbn [flat_map]. apply ForkFacts.nodup_app; [|exact IHl|].
  - clear - IH. induction IH as [|x l Hx Hn IH]; [constructor|]. cbn [map]. constructor; [|exact IH].
    rewrite in_map_iff. intros (y & Hy & Hi). injection Hy as ->. contradiction.
  - intros x Hx Hy. apply in_map_iff in Hx as (t & <- & _). apply in_flat_map in Hy as (d' & Hd' & Ht).
    apply in_map_iff in Ht as (t' & Ht' & _). injection Ht' as -> _. contradiction.
Qed.
Lemma strings_length n : Z.of_nat (List.length (strings n)) = 10 ^ Z.of_nat n.
Proof.
  induction n as [|n IH]; [reflexivity|]. cbn [strings].
  assert (H : forall l, List.length (flat_map (fun d => map (cons d) (strings n)) l) = (List.length l * List.length (strings n))%nat).
  { induction l as [|d l IHl]; [reflexivity|]. cbn [flat_map List.length]. rewrite app_length, map_length, IHl. reflexivity. }
  rewrite H, Nat2Z.inj_mul, IH, Nat2Z.inj_succ, Z.pow_succ_r by lia. reflexivity.
Qed.
Lemma in_strings n s : In s (strings n) <-> decimal s /\ List.length s = n.
Proof.
  revert s. induction n as [|n IH]; intros s; cbn [strings].
  - split; [intros [<-|[]]; split; [constructor|reflexivity]|]. intros [_ H]. destruct s; [left; reflexivity|discriminate].
  - rewrite in_flat_map. split.
    + intros (d & Hd & Hs). apply in_map_iff in Hs as (t & <- & Ht). apply IH in Ht as [Ht1 Ht2]. apply in_digits in Hd.
      split; [constructor; assumption|cbn [List.length]; lia].
    + intros [Hs Hl]. destruct s as [|d s]; [discriminate|]. inversion Hs; subst. exists d. split; [apply in_digits; assumption|].
      apply in_map_iff. exists s. split; [reflexivity|]. apply IH. split; [assumption|]. cbn [List.length] in Hl. lia.
Qed.

(** ** C117: what the opening of an entry gives away *)
(** [strings n] are the numbers of [n] digits, each once, [10^n] of them. *)
Theorem C117_strings : forall n,
  (forall s, In s (strings n) <-> Forall (fun b => 48 <= bz b <= 57) s /\ List.length s = n) /\
  NoDup (strings n) /\ Z.of_nat (List.length (strings n)) = 10 ^ Z.of_nat n.
Proof. intros n. split; [exact (in_strings n)|]. split; [apply strings_nodup|apply strings_length]. Qed.
Print Assumptions C117_strings.

(** Who has the opening finds the number among any candidates; it is the only one found. *)
Theorem C117_found : forall E, ExtLaws E -> forall number (params : SystemParameters E) r e r' candidates,
  roster_create number params r = Ok (e, r') -> sp_h params <> pzero -> NoDup candidates ->
  (In number candidates -> search e params candidates = [number]) /\
  (~ In number candidates -> search e params candidates = []).
Proof.
  intros E L number params r e r' l He Hh Hn. pose proof (fun s => opens_only L number params r e r' s He Hh) as Ho.
  split; intros Hi; unfold search; [exact (filter_one _ number l Ho Hn Hi)|exact (filter_none _ number l Ho Hi)].
Qed.
Print Assumptions C117_found.

(** So a server given the 64 bytes of an entry finds a number of [n] digits with [10^n] trials. *)
Theorem C117_server : forall E, ExtLaws E -> forall fuel os number params (p : SystemParameters E) seed entry os' n,
  @gives E fuel os (MakeEntry number params seed) entry os' ->
  system_parameters_from_bytes params = Ok p -> sp_h p <> pzero ->
  Forall (fun b => 48 <= bz b <= 57) number -> List.length number = n ->
  @search_bytes E entry params (strings n) = [number].
Proof.
  intros E L fuel os number params p seed entry os' n H Hp Hh Hd Hl. cbn [gives] in H. destruct H as (p' & e & rest & Hp' & He & -> & _).
  assert (p' = p) as -> by congruence.
  assert (Hr : roster_from_bytes (roster_to_bytes e) = Ok e).
  { apply (C33_roster E L). pose proof (entry_made _ _ _ _ _ He) as (m & _ & Ho & _). rewrite Ho.
    pose proof (scalar_random_canonical (@chacha E seed)) as Hc. pose proof ell_lt_255 as Hb. unfold canonical in Hc. unfold bits255. lia. }
  unfold search_bytes. rewrite Hr, Hp. apply (C117_found E L number p _ e rest (strings n) He Hh (strings_nodup n)).
  apply in_strings. split; assumption.
Qed.
Print Assumptions C117_server.

(** A presentation carries the commitment; who has got the opening from elsewhere finds who presents. *)
Theorem C117_presented : forall E, ExtLaws E -> forall number (params : SystemParameters E) r e r' u r1 os p r1' os' n,
  roster_create number params r = Ok (e, r') -> sp_h params <> pzero ->
  signal_show u r1 os e = Ok (p, r1', os') ->
  Forall (fun b => 48 <= bz b <= 57) number -> List.length number = n ->
  search {| re_commitment := sc_roster_entry_commitment p; re_opening := re_opening e |} params (strings n) = [number].
Proof.
  intros E L number params r e r' u r1 os p r1' os' n He Hh Hs Hd Hl.
  assert (Hc : sc_roster_entry_commitment p = re_commitment e).
  { unfold signal_show in Hs. apply bind_ok in Hs as (c & _ & Hs). destruct (nonces_new r1 NUMBER_OF_ATTRIBUTES) as [ns r2].
    apply bind_ok in Hs as ([[pr r3] os3] & _ & Hs). cbv zeta in Hs. apply bind_ok in Hs as ([pub sec] & _ & Hs).
    destruct (ce_create _ pub sec os3) as [pf os4].
    assert (K : forall (a b : SignalCredentialPresentation E) (x y x' y' : rng), @Ok CredentialError _ (a, x, y) = Ok (b, x', y') -> a = b) by congruence.
    apply K in Hs as <-. reflexivity. }
  rewrite Hc. replace {| re_commitment := re_commitment e; re_opening := re_opening e |} with e by (destruct e; reflexivity).
  apply (C117_found E L number params r e r' (strings n) He Hh (strings_nodup n)). apply in_strings. split; assumption.
Qed.
Print Assumptions C117_presented.

(** Without it every number is as good as every other: each has exactly one opening. *)
Theorem C117_stripped : forall E, ExtLaws E -> forall fuel os entry left os' params (p : SystemParameters E) number,
  @gives E fuel os (RemoveOpening entry) left os' ->
  system_parameters_from_bytes params = Ok p -> sp_g p <> pzero -> (List.length number <= 27)%nat ->
  exists! o, canonical o /\ (search_bytes (E := E) (left ++ scalar_to_bytes o)%list params [number] = [number] /\
    @gives E fuel os (RemoveOpening (left ++ scalar_to_bytes o)%list) left os').
Proof.
  intros E L fuel os entry left os' params p number H Hp Hg Hl. cbn [gives] in *. destruct H as (e & He & -> & ->).
  destruct (proj1 (C27_outcomes number) Hl) as [(n & Hn & _) _].
  assert (Hr : forall o, canonical o -> roster_from_bytes (committed_to_bytes (re_commitment e) ++ scalar_to_bytes o)%list
    = Ok {| re_commitment := re_commitment e; re_opening := o |}).
  { intros o Ho. apply (C33_roster E L {| re_commitment := re_commitment e; re_opening := o |}). cbn [re_opening].
    pose proof ell_lt_255 as Hb. unfold canonical in Ho. unfold bits255. lia. }
  assert (Hs : forall o, canonical o -> (search_bytes (E := E) (committed_to_bytes (re_commitment e) ++ scalar_to_bytes o)%list params [number] = [number] <->
    padd (smul n (sp_h p)) (smul o (sp_g p)) = re_commitment e)).
  { intros o Ho. unfold search_bytes. rewrite (Hr o Ho), Hp. unfold search. cbn [filter].
    destruct (C29_open_exactly E L {| re_commitment := re_commitment e; re_opening := o |} number n p Hn) as [Hi Hk]. cbn [re_commitment re_opening] in Hi.
    destruct Hk as [Hk|Hk]; rewrite Hk in *.
    - split; [|reflexivity]. intros _. symmetry. apply Hi. reflexivity.
    - split; [discriminate|]. intros Hx. symmetry in Hx. apply Hi in Hx. discriminate. }
  destruct (unique_opening L (sp_g p) (smul n (sp_h p)) (re_commitment e) Hg) as (o & [Ho1 Ho2] & Hu).
  exists o. split.
  - split; [exact Ho1|]. split; [apply (Hs o Ho1), Ho2|]. eexists. split; [exact (Hr o Ho1)|]. split; reflexivity.
  - intros o' (H1 & H2 & _). apply Hu. split; [exact H1|]. apply (Hs o' H1), H2.
Qed.
Print Assumptions C117_stripped.

(** Two entries with their openings show at once whether they are for one number. *)
Theorem C117_same_number : forall E, ExtLaws E -> forall number number' (params : SystemParameters E) r r1 e r' e' r1',
  roster_create number params r = Ok (e, r') -> roster_create number' params r1 = Ok (e', r1') -> sp_h params <> pzero ->
  (psub (re_commitment e) (smul (re_opening e) (sp_g params)) = psub (re_commitment e') (smul (re_opening e') (sp_g params)) <->
   number = number').
Proof.
  intros E L number number' params r r1 e r' e' r1' He He' Hh.
  pose proof (entry_made _ _ _ _ _ He) as (n & Hn & Ho & Hc). pose proof (entry_made _ _ _ _ _ He') as (n' & Hn' & Ho' & Hc').
  rewrite Hc, Hc', Ho, Ho'.
  assert (Hp : forall m o, psub (padd (smul m (sp_h params)) (smul o (sp_g params))) (smul o (sp_g params)) = smul m (sp_h params)).
  { intros m o. generalize (sp_h params) (sp_g params). clear - L. intros h g. pring L. }
  rewrite !Hp, (smul_inj L n n' _ Hh). split.
  - intros H. apply eqm_canonical in H; [|exact (try_from_bytes_canonical _ _ Hn)|exact (try_from_bytes_canonical _ _ Hn')]. subst n'.
    exact (try_from_bytes_inj _ _ _ Hn Hn').
  - intros ->. assert (n = n') by congruence. subst n'. reflexivity.
Qed.
Print Assumptions C117_same_number.

(** Only with the identity as [h], which the search for parameters does not exclude (C44), is nothing found: every number opens it. *)
Theorem C117_identity : forall E, ExtLaws E -> forall number (params : SystemParameters E) r e r' candidates,
  roster_create number params r = Ok (e, r') -> sp_h params = pzero ->
  search e params candidates = filter (fun s => (List.length s <=? 27)%nat) candidates.
Proof.
  intros E L number params r e r' l He Hh. pose proof (entry_made _ _ _ _ _ He) as (n & Hn & Ho & Hc).
  unfold search. apply filter_ext. intros s. destruct (C27_outcomes s) as (H1 & H2 & H3).
  destruct (Nat.leb_spec (List.length s) 27) as [Hl|Hl].
  - destruct (H1 Hl) as [(m & Hm & _) _]. rewrite (proj2 (proj1 (C29_open_exactly E L e s m params Hm))); [reflexivity|].
    rewrite Hc, Ho, Hh, !(smul_pzero L). reflexivity.
  - unfold roster_open. destruct (Nat.le_gt_cases (List.length s) 32) as [Hs|Hs].
    + destruct (H2 (conj Hl Hs)) as [-> _]. reflexivity.
    + destruct (H3 Hs) as [-> _]. reflexivity.
Qed.
Print Assumptions C117_identity.

(** The number 42 in an entry: 100 trials find it. *)
Example C117_met : exists x, roster_create (str "42") phone_params (toy_stream 4) = Ok x /\
  sp_h phone_params <> pzero /\ sp_g phone_params <> pzero /\
  List.length (strings 2) = 100%nat /\ In (str "42") (strings 2) /\ ~ In (str "421") (strings 2) /\
  search (fst x) phone_params [str "41"; str "42"; str "43"] = [str "42"].
Proof.
  eexists. split; [reflexivity|].
  split; [intros H; apply (f_equal tv) in H; vm_compute in H; discriminate|].
  split; [intros H; apply (f_equal tv) in H; vm_compute in H; discriminate|].
  split; [reflexivity|]. split; [apply in_strings; split; [repeat constructor; vm_compute; discriminate|reflexivity]|].
  split; [intros H; apply in_strings in H as [_ H]; discriminate|]. vm_compute. reflexivity.
Qed.
(** The same in bytes, and shown by a user. *)
Example C117_met_bytes : exists p, @system_parameters_from_bytes toy (system_parameters_to_bytes phone_params) = Ok p /\
  (exists entry, @gives toy 0 (toy_stream 1) (MakeEntry (str "42") (system_parameters_to_bytes phone_params) (zeros 32)) entry (toy_stream 1) /\
   exists left, @gives toy 0 (toy_stream 1) (RemoveOpening entry) left (toy_stream 1)).
Proof.
  exists phone_params. assert (Hp : @system_parameters_from_bytes toy (system_parameters_to_bytes phone_params) = Ok phone_params).
  { exact (C33_system_parameters toy toy_laws phone_params). }
  split; [exact Hp|].
  assert (He : exists e r, roster_create (str "42") phone_params (@chacha toy (zeros 32)) = Ok (e, r)) 
    by (destruct (C29_create_opens toy toy_laws (str "42") phone_params (@chacha toy (zeros 32)) ltac:(vm_compute; lia)) as (e & r & He & _); eauto).
  destruct He as (e & r & He). exists (roster_to_bytes e). cbn [gives]. split; [exists phone_params, e, r; auto|].
  eexists _, e. split; [|split; reflexivity]. apply (C33_roster toy toy_laws).
  pose proof (entry_made _ _ _ _ _ He) as (m & _ & -> & _).
  pose proof (scalar_random_canonical (@chacha toy (zeros 32))) as Hc. pose proof ell_lt_255 as Hb. unfold canonical in Hc. unfold bits255. lia.
Qed.
Example C117_met_presented : exists e, roster_create (str "42") phone_params (toy_stream 4) = Ok e /\
  is_ok (signal_show sample_signal_holder (toy_stream 8) (toy_stream 9) (fst e)) = true.
Proof. apply run1 with (test := fun e => is_ok (signal_show sample_signal_holder (toy_stream 8) (toy_stream 9) (fst e))). vm_compute. reflexivity. Qed.
