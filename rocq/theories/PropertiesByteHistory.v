(** Any history of a service whose participants keep bytes and call the C
    functions (C90): ffi/src/c.rs:71-260. *)
From Verif Require Import Toy CreatedFacts PropertiesAnonymity PropertiesTestsFfi PropertiesCalls SpecByteHistory PropertiesHistory.
From Coq Require Import Lia.

Lemma nth_map_some {A B} (f : A -> B) l n : nth_error (map f l) n = option_map f (nth_error l n).
Proof. revert n; induction l; intros [|n]; cbn; auto. Qed.
Lemma put_last {A} (l : list A) x y : put (List.length l) y (l ++ [x]) = (l ++ [y])%list.
Proof. induction l as [|a l IH]; cbn; [reflexivity|]. rewrite IH. reflexivity. Qed.
Lemma nth_last {A} (l : list A) x : nth_error (l ++ [x]) (List.length l) = Some x.
Proof. induction l; cbn; auto. Qed.

Section simulation.
  Context {E : Ext} (L : ExtLaws E) (params : SystemParameters E) (Hh : sp_h params <> pzero).
  Context (fuel : nat) (api : interface) (pb : bytes) (Hapi : computes E fuel api).
  Hypothesis Hpb : @system_parameters_from_bytes E pb = Ok params.

  Lemma api_gives os a ser os' : sendable a -> gives E fuel os a ser os' -> api os a = Some (ser, os').
  Proof. intros Hs H. apply Hapi; assumption. Qed.
  Lemma api_none os a : sendable a -> (forall ser os', ~ gives E fuel os a ser os') -> api os a = None.
  Proof.
    intros Hs H. destruct (api os a) as [[ser os']|] eqn:Ha; [|reflexivity]. apply Hapi in Ha; [|exact Hs]. elim (H _ _ Ha).
  Qed.
  Lemma short_len (b : bytes) n : List.length b = n -> (0 < n < 1000)%nat -> short b.
  Proof.
    intros Hl Hn. split; [intros ->; cbn in Hl; lia|]. apply Z.lt_trans with 1000; [lia|reflexivity].
  Qed.
  Lemma short_params : short pb.
  Proof. apply (system_parameters_iff L) in Hpb. rewrite Hpb. eapply short_len; [apply (system_parameters_length L)|lia]. Qed.
  Lemma pair_lengths i : issuer_ok params i ->
    List.length (pk_Xn (kp_public (iss_keypair i))) = 1%nat /\ List.length (sk_xn (kp_secret (iss_keypair i))) = 1%nat.
  Proof.
    intros (_ & _ & Hs & (_ & Hl) & _). split; [rewrite Hl|]; exact Hs.
  Qed.
  Lemma short_keypair i : issuer_ok params i -> short (@keypair_to_bytes E (iss_keypair i)).
  Proof. intros H. destruct (pair_lengths i H) as [H1 H2]. eapply short_len; [apply (keypair_length L)|]. rewrite H1, H2. lia. Qed.
  Lemma short_issuer i : issuer_ok params i -> short (@signal_issuer_to_bytes E i).
  Proof. intros H. destruct (pair_lengths i H) as [H1 H2]. eapply short_len; [apply (issuer_length L)|]. rewrite H1, H2. lia. Qed.
  Lemma short_public i : issuer_ok params i -> short (@public_key_to_bytes E (get_issuer_parameters i)).
  Proof. intros H. destruct (pair_lengths i H) as [H1 H2]. eapply short_len; [apply (public_key_length L)|]. change (get_issuer_parameters i) with (kp_public (iss_keypair i)). rewrite H1. lia. Qed.
  Lemma short_issuance x : wf_issuance x -> short (@issuance_to_bytes E x).
  Proof. intros ((m & _ & H) & _). eapply short_len; [apply (issuance_length L)|]. rewrite H. cbn. lia. Qed.
  Lemma short_user u : wf_user (su_user u) -> short (@signal_user_to_bytes E u).
  Proof.
    intros H. apply (wf_user_iff L) in H. unfold signal_user_to_bytes. eapply short_len; [rewrite app_length, (user_length L _ H); reflexivity|].
    unfold phone_number_to_bytes. rewrite scalar_to_bytes_length. lia.
  Qed.
  Lemma short_entry e : short (@roster_to_bytes E e).
  Proof. eapply short_len; [apply (roster_length L)|lia]. Qed.
  Lemma short_shown p : @signal_presentation_from_bytes E (signal_presentation_to_bytes p) = Ok p -> short (signal_presentation_to_bytes p).
  Proof.
    intros H. apply (C33_signal_presentation E L), wf_signal_presentation_iff in H. eapply short_len; [apply (signal_presentation_length L), H|lia].
  Qed.
  Ltac send :=
    split;
    [ let s0 := fresh in let H0 := fresh in intros s0 H0; cbn [seed_of] in H0; first [discriminate H0|injection H0 as <-; assumption]
    | cbn [strings_of]; repeat (apply Forall_cons; [eauto using short_params, short_keypair, short_issuer, short_public, short_issuance, short_user, short_entry, short_shown|]); apply Forall_nil ].

  (** The bytes kept are those of the objects. *)
  Definition verified_ok (s : service E) (b : bytes) (k : nat) : Prop :=
    exists x, nth_error (sv_shown s) k = Some x /\ b = signal_presentation_to_bytes (sh_presentation x).
  Definition with_entry (s : service E) (x : showing (E := E)) (a : nat * bytes * nat) : Prop :=
    exists entry, nth_error (sv_entries s) (snd a) = Some entry /\
      sc_roster_entry_commitment (sh_presentation x) = re_commitment entry.
  Definition kept (b : holdings) (l : register) (s : service E) : Prop :=
    agree params s (ledger_of l) /\
    bs_issuers b = map (@signal_issuer_to_bytes E) (sv_issuers s) /\
    bs_issuances b = map (@issuance_to_bytes E) (sv_issuances s) /\
    bs_users b = map (@signal_user_to_bytes E) (sv_users s) /\
    bs_entries b = map (@roster_to_bytes E) (sv_entries s) /\
    bs_shown b = map (fun x => signal_presentation_to_bytes (sh_presentation x)) (sv_shown s) /\
    Forall2 (verified_ok s) (bs_verified b) (rg_verified l) /\
    Forall2 (with_entry s) (sv_shown s) (rg_shown l).

  Lemma kept_start : kept holdings_start register_start service_start.
  Proof. split; [apply agree_start|]. repeat (split; [reflexivity|]). split; constructor. Qed.

  Lemma issuer_decodes i : wf_issuer i -> @signal_issuer_from_bytes E (signal_issuer_to_bytes i) = Ok i.
  Proof. intros H. apply (C33_issuer E L). exact H. Qed.
  Lemma issuer_known s l j : agree params s l ->
    match nth_error (sv_issuers s) j with
    | Some i => (j <? lg_issuers l)%nat = true /\ issuer_ok params i
    | None => (j <? lg_issuers l)%nat = false
    end.
  Proof.
    intros (H1 & H2 & _). pose proof (issuer_at params _ j H2) as Hi. rewrite H1 in Hi.
    destruct (nth_error (sv_issuers s) j); [destruct Hi; split; [apply Nat.ltb_lt; assumption|assumption]|apply Nat.ltb_ge; exact Hi].
  Qed.

  Definition well (b : holdings) (l : register) (s : service E) (os : rng) (e : byte_event) : Prop :=
    (as_expected api b os (snd (fst (byte_step api pb b os e))) (snd (byte_expected l e)) /\
     kept (fst (fst (byte_step api pb b os e))) (fst (byte_expected l e)) (objects params s os e)) \/
    byte_mishap params l s e.

  Lemma b_open b l s os seed : List.length seed = 32%nat -> kept b l s -> well b l s os (BOpen seed).
  Proof.
    intros Hs (HA & H1 & H2 & H3 & H4 & H5 & H6 & H7). left. cbn [byte_step byte_expected objects].
    pose proof (open_good L params s (ledger_of l) (@chacha E seed) HA) as [[_ HA']|[]].
    pose proof (new_issuer L params (@chacha E seed)) as Hn.
    cbn [step fst] in *. set (i := fst (signal_issuer_create params (chacha seed))) in *.
    assert (Hk : api os (MakeKeypair pb seed) = Some (keypair_to_bytes (iss_keypair i), os)).
    { apply api_gives; [send|]. exists params. auto. }
    assert (Hi : api os (MakeIssuer pb (keypair_to_bytes (iss_keypair i))) = Some (signal_issuer_to_bytes i, os)).
    { apply api_gives; [send|]. exists params, (iss_keypair i). destruct Hn as (Hp & _ & _ & Hw).
      split; [exact Hpb|]. split; [apply (C33_keypair E L); apply Hw|]. split; [|reflexivity].
      rewrite <- Hp. destruct i; reflexivity. }
    unfold chain. rewrite Hk, Hi. cbn [concluded fst snd as_expected]. split; [exact I|].
    split; [exact HA'|]. cbn [bs_issuers bs_issuances bs_users bs_entries bs_shown bs_verified sv_issuers sv_users sv_issuances sv_entries sv_shown with_issuers rg_verified rg_shown].
    split; [rewrite map_app, H1; reflexivity|]. exact (conj H2 (conj H3 (conj H4 (conj H5 (conj H6 H7))))).
  Qed.

  Lemma b_issue b l s os j number seed : short number -> List.length seed = 32%nat -> kept b l s -> well b l s os (BIssue j number seed).
  Proof.
    intros Hsh Hs HK. pose proof HK as (HA & H1 & H2 & H3 & H4 & H5 & H6 & H7). left. cbn [byte_step byte_expected objects].
    pose proof (issue_good L params s (ledger_of l) j number (@chacha E seed) os HA) as [[_ HA']|[]].
    pose proof (issuer_known s _ j HA) as Hi. rewrite H1, nth_map_some. revert HA'. cbn [step expected].
    destruct (nth_error (sv_issuers s) j) as [i|]; cbn [option_map].
    2:{ change (lg_issuers (ledger_of l)) with (rg_issuers l) in *. rewrite Hi. cbn. intros _. split; [exact I|exact HK]. }
    destruct Hi as [Hi Hok]. change (lg_issuers (ledger_of l)) with (rg_issuers l) in *. rewrite Hi. cbn [negb].
    pose proof (number_cases number) as Hn. destruct (signal_issue i number (chacha seed) os) as [[[iss r'] os']|e|] eqn:Hq.
    - assert (Hf : SpecHistory.fits number = true).
      { unfold signal_issue in Hq. destruct (try_from_bytes number); cbn in Hq; try discriminate. apply Hn. }
      rewrite Hf. assert (Ha : api os (SpecCalls.Issue (signal_issuer_to_bytes i) number seed) = Some (issuance_to_bytes iss, os')).
      { apply api_gives; [send|]. exists i, iss, r'. split; [apply issuer_decodes, Hok|]. auto. }
      rewrite Ha. cbn [concluded fst snd as_expected]. intros HA'. split; [exact I|]. split; [exact HA'|].
      cbn [bs_issuers bs_issuances bs_users bs_entries bs_shown bs_verified sv_issuers sv_users sv_issuances sv_entries sv_shown with_issuances rg_verified rg_shown].
      split; [first [exact H1|reflexivity]|]. split; [rewrite map_app, H2; reflexivity|]. exact (conj H3 (conj H4 (conj H5 (conj H6 H7)))).
    - assert (Hf : SpecHistory.fits number = false).
      { unfold signal_issue in Hq. destruct (try_from_bytes number) as [n| |]; cbn in Hq; try discriminate; [|apply Hn].
        destruct Hn as [_ Hn]. destruct (issue_result L params i n (@chacha E seed) os Hok Hn) as (iss & r' & os' & Hq' & _).
        clear - Hq Hq'. unfold PhoneNumber, scalar in *. congruence. }
      rewrite Hf. rewrite api_none; [cbn; intros _; split; [exact I|exact HK]|send|].
      intros ser os' (i' & iss & r' & Hd & Hq' & _). rewrite (issuer_decodes i) in Hd by apply Hok. congruence.
    - assert (Hf : SpecHistory.fits number = false).
      { unfold signal_issue in Hq. destruct (try_from_bytes number) as [n| |]; cbn in Hq; try discriminate; [|apply Hn].
        destruct Hn as [_ Hn]. destruct (issue_result L params i n (@chacha E seed) os Hok Hn) as (iss & r' & os' & Hq' & _).
        clear - Hq Hq'. unfold PhoneNumber, scalar in *. congruence. }
      rewrite Hf. rewrite api_none; [cbn; intros _; split; [exact I|exact HK]|send|].
      intros ser os' (i' & iss & r' & Hd & Hq' & _). rewrite (issuer_decodes i) in Hd by apply Hok. congruence.
  Qed.

  Lemma grown_entries l s e : Forall2 (with_entry s) (sv_shown s) (rg_shown l) ->
    List.length (sv_entries s) = List.length (rg_entries l) ->
    map (fun a => (fst (fst a), snd (fst a), nth (snd a) (rg_entries l ++ [e]) [])) (rg_shown l) = lg_shown (ledger_of l).
  Proof.
    intros H Hl. cbn [ledger_of lg_shown]. apply map_ext_in. intros [[j n] k] Hin. cbn [fst snd]. f_equal.
    apply app_nth1. rewrite <- Hl. 
    assert (Hx : exists x, with_entry s x (j, n, k)).
    { clear Hl. revert Hin. induction H as [|x a xs as_ Hxa _ IH]; intros Hin; [contradiction|]. destruct Hin as [->|Hin]; eauto. }
    destruct Hx as (x & entry & He & _). apply nth_error_Some. cbn in He. congruence.
  Qed.
  Lemma entries_length s l : agree params s l -> List.length (sv_entries s) = List.length (lg_entries l).
  Proof. intros (_ & _ & _ & _ & H & _). eapply Forall2_length'. exact H. Qed.

  Lemma b_enter b l s os number seed : short number -> List.length seed = 32%nat -> kept b l s -> well b l s os (BEnter number seed).
  Proof.
    intros Hsh Hs HK. pose proof HK as (HA & H1 & H2 & H3 & H4 & H5 & H6 & H7). left. cbn [byte_step byte_expected objects].
    pose proof (enter_good L params s (ledger_of l) number (@chacha E seed) HA) as [[_ HA']|[]]. revert HA'. cbn [step expected].
    pose proof (number_cases number) as Hn.
    assert (Hc : match roster_create number params (@chacha E seed) with
                 | Ok (x, r) => SpecHistory.fits number = true /\ api os (MakeEntry number pb seed) = Some (roster_to_bytes x, os)
                 | _ => SpecHistory.fits number = false /\ api os (MakeEntry number pb seed) = None end).
    { destruct (roster_create number params (@chacha E seed)) as [[x r]|e|] eqn:Hq.
      - split.
        + unfold roster_create in Hq. destruct (ephemeral_new (@chacha E seed)). destruct (try_from_bytes number); cbn in Hq; try discriminate. apply Hn.
        + apply api_gives; [send|]. exists params, x, r. auto.
      - split.
        + unfold roster_create in Hq. destruct (ephemeral_new (@chacha E seed)). destruct (try_from_bytes number); cbn in Hq; try discriminate; apply Hn.
        + apply api_none; [send|]. intros ser os' (p' & x & r & Hd & Hq' & _). congruence.
      - split.
        + unfold roster_create in Hq. destruct (ephemeral_new (@chacha E seed)). destruct (try_from_bytes number); cbn in Hq; try discriminate; apply Hn.
        + apply api_none; [send|]. intros ser os' (p' & x & r & Hd & Hq' & _). congruence. }
    destruct (roster_create number params (@chacha E seed)) as [[x r]|e|]; destruct Hc as [-> ->].
    - cbn [concluded fst snd as_expected]. intros HA'. split; [exact I|]. pose proof (entries_length _ _ HA) as Hl.
      unfold kept. cbn [bs_issuers bs_issuances bs_users bs_entries bs_shown bs_verified sv_issuers sv_users sv_issuances sv_entries sv_shown with_entries rg_verified rg_shown].
      split; [unfold ledger_of; cbn [rg_issuers rg_issuances rg_users rg_entries rg_shown]; rewrite (grown_entries l s number H7 Hl); exact HA'|].
      split; [first [exact H1|reflexivity]|]. split; [exact H2|]. split; [exact H3|]. split; [rewrite map_app, H4; reflexivity|]. split; [exact H5|].
      split; [exact H6|]. eapply forall2_impl; [|exact H7]. intros y a (en & He & Hc). exists en. split; [apply nth_snoc, He|exact Hc].
    - cbn. intros _. split; [exact I|exact HK].
    - cbn. intros _. split; [exact I|exact HK].
  Qed.

  Lemma show_keeps_entry (u : SignalUser E) r os entry p r' os' : signal_show u r os entry = Ok (p, r', os') ->
    sc_roster_entry_commitment p = re_commitment entry.
  Proof.
    unfold signal_show. intros H. apply bind_ok in H as (c & _ & H). destruct (nonces_new r NUMBER_OF_ATTRIBUTES) as [ns r1].
    apply bind_ok in H as ([[q r2] os2] & _ & H). apply bind_ok in H as ([pub sec] & _ & H).
    destruct (ce_create _ pub sec os2) as [pf os3]. apply ok3 in H as [<- _]. reflexivity.
  Qed.
  Lemma b_show b l s os n k seed : List.length seed = 32%nat -> kept b l s -> well b l s os (BShow n k seed).
  Proof.
    intros Hs HK. pose proof HK as (HA & H1 & H2 & H3 & H4 & H5 & H6 & H7). left. cbn [byte_step byte_expected objects].
    pose proof (present_good L params Hh s (ledger_of l) n k (@chacha E seed) os HA) as [[Ha HA']|[]]. revert Ha HA'. cbn [step expected].
    pose proof HA as (_ & _ & A3 & _ & A5 & _).
    pose proof (forall2_nth _ _ _ n A3) as Hn. pose proof (forall2_nth _ _ _ k A5) as Hk.
    rewrite H3, H4, !nth_map_some. cbn [ledger_of lg_users lg_entries] in *. rewrite !nth_map_some in *.
    destruct (nth_error (sv_users s) n) as [u|], (nth_error (rg_users l) n) as [[j number]|]; cbn [option_map fst snd] in *; try contradiction.
    2:{ intros _ _. split; [exact I|exact HK]. }
    destruct (nth_error (sv_entries s) k) as [entry|] eqn:Ek, (nth_error (rg_entries l) k) as [number'|] eqn:Ek'; cbn [option_map fst snd] in *; try contradiction.
    2:{ intros _ _. split; [exact I|exact HK]. }
    destruct Hn as (i & _ & _ & Hw & Hb & c & Hc & _). destruct Hk as [_ Ho]. cbn [fst snd] in Hc.
    destruct (signal_show u (chacha seed) os entry) as [[[p r'] os']|e|] eqn:Hq; cbn [answer_of]; try discriminate. intros _.
    rewrite Hc. assert (Hap : api os (SpecCalls.Show (signal_user_to_bytes u) (roster_to_bytes entry) seed) = Some (signal_presentation_to_bytes p, os')).
    { apply api_gives; [send|]. exists u, entry, p, r'.
      split; [apply (C33_signal_user E L); auto|]. split; [apply (C33_roster E L), canonical_bits, Ho|]. auto. }
    rewrite Hap. cbn [concluded fst snd as_expected]. intros HA'. split; [exact I|]. unfold kept.
    cbn [bs_issuers bs_issuances bs_users bs_entries bs_shown bs_verified sv_issuers sv_users sv_issuances sv_entries sv_shown with_shown rg_verified rg_shown].
    split.
    { unfold ledger_of; cbn [rg_issuers rg_issuances rg_users rg_entries rg_shown]. rewrite map_app. cbn [map fst snd].
      assert (HN : nth k (rg_entries l) [] = number') by (apply nth_error_nth; exact Ek'). rewrite HN. exact HA'. }
    split; [exact H1|]. split; [exact H2|]. split; [first [exact H3|reflexivity]|]. split; [first [exact H4|reflexivity]|].
    split; [rewrite map_app, H5; reflexivity|]. split.
    - eapply forall2_impl; [|exact H6]. intros y a (x & Hx & Hy). exists x. split; [apply nth_snoc, Hx|exact Hy].
    - apply forall2_snoc; [exact H7|]. exists entry. cbn [snd sh_presentation]. split; [exact Ek|]. eapply show_keeps_entry, Hq.
  Qed.

  Lemma shown_decodes s l k x : agree params s l -> nth_error (sv_shown s) k = Some x ->
    @signal_presentation_from_bytes E (signal_presentation_to_bytes (sh_presentation x)) = Ok (sh_presentation x).
  Proof.
    intros (_ & _ & _ & _ & _ & H) Hx. pose proof (forall2_nth _ _ _ k H) as Hk. rewrite Hx in Hk.
    destruct (nth_error (lg_shown l) k) as [[[j a] a']|]; [|contradiction]. destruct Hk as (i & _ & Hw & _).
    apply (C33_signal_presentation E L), Hw.
  Qed.
  Lemma b_verify b l s os j k : kept b l s -> well b l s os (BVerify j k).
  Proof.
    intros HK. pose proof HK as (HA & H1 & H2 & H3 & H4 & H5 & H6 & H7). unfold well. cbn [byte_step byte_expected objects byte_mishap].
    pose proof (issuer_known s _ j HA) as Hi. change (lg_issuers (ledger_of l)) with (rg_issuers l) in Hi.
    pose proof (forall2_nth _ _ _ k H7) as Hk.
    rewrite H1, H5, !nth_map_some. destruct (nth_error (sv_issuers s) j) as [i|] eqn:Ej; cbn [option_map].
    2:{ rewrite Hi. left. split; [exact I|exact HK]. }
    destruct Hi as [Hi Hok]. rewrite Hi. cbn [negb].
    destruct (nth_error (sv_shown s) k) as [x|] eqn:Ek, (nth_error (rg_shown l) k) as [[[j' number] en]|] eqn:Ek'; cbn [option_map]; try contradiction.
    2:{ left. split; [exact I|exact HK]. }
    assert (Hl : nth_error (lg_shown (ledger_of l)) k = Some (j', number, nth en (rg_entries l) [])).
    { cbn [ledger_of lg_shown]. rewrite nth_map_some, Ek'. reflexivity. }
    pose proof (check_cases L params Hh s (ledger_of l) j k x j' number _ i HA Ek Hl Ej) as Hc. rewrite Nat.eqb_sym in Hc.
    pose proof (shown_decodes s _ k x HA Ek) as Hd.
    destruct (j' =? j)%nat.
    - left. assert (Hap : api os (SpecCalls.Verify (signal_issuer_to_bytes i) (signal_presentation_to_bytes (sh_presentation x))) =
                    Some (signal_presentation_to_bytes (sh_presentation x), os)).
      { apply api_gives; [send|]. exists i, (sh_presentation x), {| vs_presentation := sh_presentation x |}.
        split; [apply issuer_decodes, Hok|]. split; [exact Hd|]. split; [exact Hc|]. auto. }
      rewrite Hap. cbn [concluded fst snd as_expected]. split; [exact I|]. unfold kept.
      cbn [bs_issuers bs_issuances bs_users bs_entries bs_shown bs_verified rg_verified rg_shown].
      split; [exact HA|]. split; [first [exact H1|reflexivity]|]. split; [exact H2|]. split; [exact H3|]. split; [exact H4|].
      split; [first [exact H5|reflexivity]|]. split; [|exact H7]. apply forall2_snoc; [exact H6|]. exists x. auto.
    - destruct Hc as [Hc|Hc]; [left|right; exact Hc].
      rewrite api_none; [cbn; split; [exact I|exact HK]|send|].
      intros ser os' (i' & p & v & Hd1 & Hd2 & Hv & _). rewrite (issuer_decodes i) in Hd1 by apply Hok. congruence.
  Qed.

  Lemma membership_any i i' v : iss_system_parameters i = iss_system_parameters i' ->
    @verify_roster_membership E i v = verify_roster_membership i' v.
  Proof. unfold verify_roster_membership. intros ->. reflexivity. Qed.
  Lemma membership_value i v R : @verify_roster_membership E i v = Ok R -> R = sc_roster_entry_commitment (vs_presentation v).
  Proof.
    unfold verify_roster_membership. intros H. apply bind_ok in H as (C & _ & H). apply bind_ok in H as ([] & _ & H). congruence.
  Qed.
  Lemma b_roster b l s os j v : kept b l s -> well b l s os (BRoster j v).
  Proof.
    intros HK. pose proof HK as (HA & H1 & H2 & H3 & H4 & H5 & H6 & H7). unfold well. cbn [byte_step byte_expected objects byte_mishap].
    pose proof (issuer_known s _ j HA) as Hi. change (lg_issuers (ledger_of l)) with (rg_issuers l) in Hi.
    pose proof (forall2_nth _ _ _ v H6) as Hv.
    rewrite H1, !nth_map_some. destruct (nth_error (sv_issuers s) j) as [i|] eqn:Ej; cbn [option_map].
    2:{ rewrite Hi. left. split; [exact I|exact HK]. }
    destruct Hi as [Hi Hok]. rewrite Hi. cbn [negb].
    destruct (nth_error (bs_verified b) v) as [vb|] eqn:Ev, (nth_error (rg_verified l) v) as [k|] eqn:Ev'; try contradiction.
    2:{ left. split; [exact I|exact HK]. }
    destruct Hv as (x & Ek & ->). pose proof (forall2_nth _ _ _ k H7) as Hk. rewrite Ek in Hk.
    destruct (nth_error (rg_shown l) k) as [[[j' number] en]|] eqn:Ek'; [|contradiction].
    destruct Hk as (entry & He & Hce). cbn [snd] in He.
    pose proof HA as (_ & A2 & _ & _ & A5 & A6). pose proof (forall2_nth _ _ _ en A5) as Hen. rewrite He in Hen.
    cbn [ledger_of lg_entries] in Hen. destruct (nth_error (rg_entries l) en) as [number'|] eqn:Een; [|contradiction].
    assert (Hl : nth_error (lg_shown (ledger_of l)) k = Some (j', number, number')).
    { cbn [ledger_of lg_shown]. rewrite nth_map_some, Ek'. cbn [option_map fst snd]. assert (HN : nth en (rg_entries l) [] = number') by (apply nth_error_nth; exact Een). rewrite HN. reflexivity. }
    pose proof (forall2_nth _ _ _ k A6) as Hx. rewrite Ek, Hl in Hx. destruct Hx as (i' & Hi' & _ & _ & Hr).
    pose proof (issuer_known s _ j' HA) as Hj'. rewrite Hi' in Hj'. destruct Hj' as [_ Hok'].
    assert (Hpp : iss_system_parameters i' = iss_system_parameters i).
    { destruct Hok as [-> _], Hok' as [-> _]. reflexivity. }
    rewrite (membership_any i' i _ Hpp) in Hr.
    pose proof (shown_decodes s _ k x HA Ek) as Hd.
    assert (Hdv : @verified_signal_from_bytes E (signal_presentation_to_bytes (sh_presentation x)) = Ok {| vs_presentation := sh_presentation x |}).
    { unfold verified_signal_from_bytes. rewrite Hd. reflexivity. }
    destruct (same_bytes number number') eqn:Hsame.
    - left. destruct Hr as [R Hr]. pose proof (membership_value _ _ _ Hr) as HR. cbn [vs_presentation] in HR.
      assert (Hap : api os (VerifyRoster (signal_issuer_to_bytes i) (signal_presentation_to_bytes (sh_presentation x))) = Some (committed_to_bytes R, os)).
      { apply api_gives; [send|]. exists i, {| vs_presentation := sh_presentation x |}, R.
        split; [apply issuer_decodes, Hok|]. auto. }
      rewrite Hap. cbn [concluded fst snd as_expected]. split; [|exact HK].
      exists (roster_to_bytes entry). split; [rewrite H4, nth_map_some, He; reflexivity|].
      apply api_gives; [send|]. exists entry. destruct Hen as [_ Hcan].
      split; [apply (C33_roster E L), canonical_bits, Hcan|]. split; [|reflexivity]. congruence.
    - destruct Hr as [Hr|Hr].
      + left. rewrite api_none; [cbn; split; [exact I|exact HK]|send|].
        intros ser os' (i1 & w & c & Hd1 & Hd2 & Hw & _). rewrite (issuer_decodes i) in Hd1 by apply Hok. congruence.
      + right. split; [apply Nat.ltb_lt, Hi|]. exists k, j'. split; [reflexivity|]. exists x, number, number'. split; [exact Ek|]. split; [exact Hl|].
        split; [|exact Hr]. intros Heq. apply same_bytes_eq in Heq. congruence.
  Qed.

  Lemma nth_beyond {A} (l : list A) : nth_error l (List.length l) = None.
  Proof. apply nth_error_None. lia. Qed.
  Lemma users_length s l : agree params s l -> List.length (sv_users s) = List.length (lg_users l).
  Proof. intros (_ & _ & H & _). eapply Forall2_length'. exact H. Qed.
  Lemma b_obtain b l s os j k number : short number -> kept b l s -> well b l s os (BObtain j k number).
  Proof.
    intros Hsh HK. pose proof HK as (HA & H1 & H2 & H3 & H4 & H5 & H6 & H7). unfold well. cbn [byte_step byte_expected objects byte_mishap].
    pose proof (register_good params s (ledger_of l) j None number I HA) as [[_ HA1]|[]].
    pose proof (deliver_good L params _ _ k (List.length (sv_users s)) HA1) as [[Hans HA2]|Hm]; [left|right; exact Hm].
    pose proof (issuer_known s _ j HA) as Hi. pose proof (users_length _ _ HA) as Hlen.
    pose proof HA as (_ & _ & _ & A4 & _). pose proof (forall2_nth _ _ _ k A4) as Hk.
    change (lg_issuers (ledger_of l)) with (rg_issuers l) in *. change (lg_issuances (ledger_of l)) with (rg_issuances l) in *.
    rewrite H1, H2, !nth_map_some.
    cbn [step expected] in Hans, HA1, HA2 |- *. change (lg_issuers (ledger_of l)) with (rg_issuers l) in *.
    destruct (nth_error (sv_issuers s) j) as [i|] eqn:Ej; cbn [option_map].
    2:{ rewrite Hi. cbn [negb fst snd as_expected]. split; [exact I|]. cbn [fst sv_users sv_issuances]. rewrite nth_beyond.
        destruct (nth_error (sv_issuances s) k); exact HK. }
    destruct Hi as [Hi Hok]. rewrite Hi in *. cbn [negb fst snd] in *.
    pose proof (number_cases number) as Hn.
    assert (Hgp : api os (GetParameters (signal_issuer_to_bytes i)) = Some (public_key_to_bytes (get_issuer_parameters i), os)).
    { apply api_gives; [send|]. exists i. split; [apply issuer_decodes, Hok|]. auto. }
    destruct (signal_user_new params (get_issuer_parameters i) None number) as [u|e|] eqn:Hu; cbn [fst snd answer_of] in *.
    - assert (Hf : SpecHistory.fits number = true).
      { unfold signal_user_new in Hu. destruct (try_from_bytes number); cbn in Hu; try discriminate. apply Hn. }
      rewrite Hf in *. cbn [fst snd] in *.
      change (sv_issuances (with_users s (sv_users s ++ [u]))) with (sv_issuances s) in *.
      change (sv_users (with_users s (sv_users s ++ [u]))) with (sv_users s ++ [u])%list in *.
      cbn [lg_users lg_issuances ledger_of] in Hans, HA1, HA2. rewrite nth_last in *.
      destruct (nth_error (sv_issuances s) k) as [iss|] eqn:Ek, (nth_error (rg_issuances l) k) as [[j' number']|] eqn:Ek'; try contradiction; cbn [option_map].
      2:{ cbn [fst snd as_expected]. split; [exact I|exact HK]. }
      assert (Hlast : nth_error (map (fun a : nat * bytes => (fst a, Some (snd a))) (rg_users l) ++ [(j, None)]) (List.length (sv_users s)) = Some (j, None)).
      { rewrite Hlen. cbn [ledger_of lg_users]. rewrite nth_last. reflexivity. }
      rewrite Hlast in Hans, HA2.
      destruct Hk as (i' & _ & _ & Hw & _). assert (Hd : @issuance_from_bytes E (issuance_to_bytes iss) = Ok iss) by (apply (C33_issuance E L); exact Hw).
      destruct (signal_obtain_finish u (Some iss)) as [u' o] eqn:Hq. cbn [fst snd] in *.
      cbn [andb].
      destruct o as [[]|e|]; cbn [answer_of] in *.
      + destruct (j' =? j)%nat; cbn [fst snd] in *; [|discriminate].
        assert (Hap : api os (SpecCalls.Obtain number pb (public_key_to_bytes (get_issuer_parameters i)) (issuance_to_bytes iss)) = Some (signal_user_to_bytes u', os)).
        { apply api_gives; [send|]. exists params, (get_issuer_parameters i), iss, u, u'.
          split; [exact Hpb|]. split; [apply (C33_public_key E L)|]. auto. }
        unfold chain. rewrite Hgp, Hap. cbn [concluded fst snd as_expected]. split; [exact I|].
        rewrite put_last in *. unfold kept.
        cbn [bs_issuers bs_issuances bs_users bs_entries bs_shown bs_verified sv_issuers sv_users sv_issuances sv_entries sv_shown with_users rg_verified rg_shown].
        split.
        { unfold ledger_of; cbn [rg_issuers rg_issuances rg_users rg_entries rg_shown]. rewrite map_app. cbn [map fst snd].
          rewrite Hlen in HA2. cbn [ledger_of lg_users] in HA2. rewrite put_last in HA2. exact HA2. }
        split; [first [exact H1|reflexivity]|]. split; [first [exact H2|reflexivity]|].
        split; [rewrite map_app, H3; reflexivity|]. exact (conj H4 (conj H5 (conj H6 H7))).
      + destruct (j' =? j)%nat; cbn [fst snd] in *; [discriminate|].
        unfold chain. rewrite Hgp. rewrite api_none; [cbn; split; [exact I|exact HK]|send|].
        intros ser os' (p' & ks & iss' & v & v' & D1 & D2 & D3 & D4 & D5 & _).
        rewrite (C33_public_key E L) in D2. congruence.
      + destruct (j' =? j)%nat; cbn [fst snd] in *; [discriminate|].
        unfold chain. rewrite Hgp. rewrite api_none; [cbn; split; [exact I|exact HK]|send|].
        intros ser os' (p' & ks & iss' & v & v' & D1 & D2 & D3 & D4 & D5 & _).
        rewrite (C33_public_key E L) in D2. congruence.
    - assert (Hf : SpecHistory.fits number = false).
      { unfold signal_user_new in Hu. destruct (try_from_bytes number); cbn in Hu; try discriminate. apply Hn. }
      rewrite Hf. cbn [andb]. rewrite nth_beyond.
      assert (Ho : match nth_error (sv_issuances s) k with Some _ | None => (s, @Nobody) end = (s, Nobody)) by (destruct (nth_error (sv_issuances s) k); reflexivity).
      destruct (nth_error (sv_issuances s) k) as [iss|] eqn:Ek, (nth_error (rg_issuances l) k) as [[j' number']|] eqn:Ek'; try contradiction; cbn [option_map].
      2:{ cbn [fst snd as_expected]. split; [exact I|exact HK]. }
      destruct Hk as (i' & _ & _ & Hw & _). unfold chain. rewrite Hgp. rewrite api_none; [cbn; split; [exact I|exact HK]|send|].
      intros ser os' (p' & ks & iss' & v & v' & D1 & D2 & D3 & D4 & D5 & _). rewrite (C33_public_key E L) in D2. congruence.
    - assert (Hf : SpecHistory.fits number = false).
      { unfold signal_user_new in Hu. destruct (try_from_bytes number); cbn in Hu; try discriminate. apply Hn. }
      rewrite Hf. cbn [andb]. rewrite nth_beyond.
      destruct (nth_error (sv_issuances s) k) as [iss|] eqn:Ek, (nth_error (rg_issuances l) k) as [[j' number']|] eqn:Ek'; try contradiction; cbn [option_map].
      2:{ cbn [fst snd as_expected]. split; [exact I|exact HK]. }
      destruct Hk as (i' & _ & _ & Hw & _). unfold chain. rewrite Hgp. rewrite api_none; [cbn; split; [exact I|exact HK]|send|].
      intros ser os' (p' & ks & iss' & v & v' & D1 & D2 & D3 & D4 & D5 & _). rewrite (C33_public_key E L) in D2. congruence.
  Qed.

  Lemma b_well b l s os e : sendable_event e -> kept b l s -> well b l s os e.
  Proof.
    intros Hs HK. destruct e; cbn [sendable_event] in Hs.
    - apply b_open; assumption.
    - apply b_issue; tauto.
    - apply b_obtain; assumption.
    - apply b_enter; tauto.
    - apply b_show; assumption.
    - apply b_verify; assumption.
    - apply b_roster; assumption.
  Qed.
  Lemma run_well h : forall b l s os, Forall sendable_event h -> kept b l s -> goes_well params api pb (byte_mishap params) l s b os h.
  Proof.
    induction h as [|e h IH]; intros b l s os Hs HK; [exact I|]. inversion Hs as [|? ? He Hs']; subst. cbn [goes_well].
    pose proof (b_well b l s os e He HK) as Hw. unfold well in Hw.
    destruct (byte_step api pb b os e) as [[b' r] os']. destruct (byte_expected l e) as [l' x]. cbn [fst snd] in Hw.
    destruct Hw as [[Ha HK']|Hm]; [left|right; exact Hm]. split; [exact Ha|]. apply IH; assumption.
  Qed.
  Lemma byte_mishap_refused b l s e : kept b l s -> byte_mishap params l s e -> snd (byte_expected l e) = Nothing.
  Proof.
    intros (HA & _ & _ & _ & _ & _ & _ & H7). destruct e as [| |j k number| | |j k|j v]; cbn [byte_mishap]; try contradiction.
    - cbn [expected step mishap mishap_delivering]. change (lg_issuers (ledger_of l)) with (rg_issuers l).
      intros (iss & number' & held & j1 & j2 & i & i' & X & X' & Hk & Hl & Hn & Hne & _). cbn [byte_expected].
      assert (Hlen := users_length _ _ HA). destruct (j <? rg_issuers l)%nat; cbn [negb fst] in *.
      2:{ rewrite Hlen, nth_beyond in Hn. discriminate. }
      destruct (SpecHistory.fits number); cbn [fst] in *; cbn [lg_users lg_issuances] in *.
      2:{ rewrite Hlen, nth_beyond in Hn. discriminate. }
      rewrite Hlen, nth_last in Hn. injection Hn as <- <-. change (lg_issuances (ledger_of l)) with (rg_issuances l) in Hl.
      rewrite Hl. apply Nat.eqb_neq in Hne. rewrite Hne. reflexivity.
    - intros (x & number & number' & j1 & i & i' & x1 & x1' & C & _ & Hl & Hne & _ & Hi & _). cbn [byte_expected].
      pose proof (issuer_known s _ j HA) as Hj. rewrite Hi in Hj. change (lg_issuers (ledger_of l)) with (rg_issuers l) in Hj. destruct Hj as [Hj _].
      rewrite Hj. cbn [negb]. cbn [ledger_of lg_shown] in Hl. rewrite nth_map_some in Hl.
      destruct (nth_error (rg_shown l) k) as [[[j' n'] en]|]; [|discriminate]. cbn [option_map fst snd] in Hl. injection Hl as <- _ _.
      apply Nat.eqb_neq in Hne. rewrite Hne. reflexivity.
    - intros (Hj & k & j' & Hv & x & number & number' & Hx & Hl & Hne & _). cbn [byte_expected]. apply Nat.ltb_lt in Hj. rewrite Hj, Hv. cbn [negb].
      cbn [ledger_of lg_shown] in Hl. rewrite nth_map_some in Hl.
      destruct (nth_error (rg_shown l) k) as [[[j1 n'] en]|] eqn:Ek; [|discriminate]. cbn [option_map fst snd] in Hl. injection Hl as <- <- Hnth.
      destruct (nth_error (rg_entries l) en) as [number2|] eqn:Een.
      + assert (HN : nth en (rg_entries l) [] = number2) by (apply nth_error_nth; exact Een). rewrite HN in Hnth. subst number2.
        destruct (same_bytes n' number') eqn:Hs; [|reflexivity]. apply same_bytes_eq in Hs. contradiction.
      + exfalso. pose proof (forall2_nth _ _ _ k H7) as Hk. rewrite Hx, Ek in Hk. destruct Hk as (entry & He & _). cbn [snd] in He.
        pose proof (entries_length _ _ HA) as Hlen. cbn [ledger_of lg_entries] in Hlen.
        apply nth_error_None in Een. assert (Hs : nth_error (sv_entries s) en <> None) by congruence. apply nth_error_Some in Hs. lia.
  Qed.
  Lemma run_unrefused h : forall b l s os, Forall sendable_event h -> kept b l s -> ~ In Nothing (hopes l h) ->
    goes_well params api pb (fun _ _ _ => False) l s b os h.
  Proof.
    induction h as [|e h IH]; intros b l s os Hs HK Hn; [exact I|]. inversion Hs as [|? ? He Hs']; subst. cbn [goes_well].
    pose proof (b_well b l s os e He HK) as Hw. pose proof (byte_mishap_refused b l s e HK) as Hr. unfold well in Hw. cbn [hopes In] in Hn.
    destruct (byte_step api pb b os e) as [[b' r] os']. destruct (byte_expected l e) as [l' x]. cbn [fst snd] in *.
    destruct Hw as [[Ha HK']|Hm]; [|elim Hn; left; auto]. left. split; [exact Ha|]. apply IH; [assumption..|]. intros H. apply Hn. right; exact H.
  Qed.
End simulation.

(** ** C90 *)
(** Whatever a service does whose participants keep only bytes, and call an
    interface which computes what it should, every reply is as expected, until
    something happens by chance that must not. *)
Theorem C90_bytes : forall E, ExtLaws E -> forall fuel api, computes E fuel api ->
  forall (params : SystemParameters E) pb, system_parameters_from_bytes pb = Ok params -> sp_h params <> pzero ->
  forall h os, Forall sendable_event h ->
  goes_well params api pb (byte_mishap params) register_start service_start holdings_start os h.
Proof.
  intros E L fuel api Hapi params pb Hpb Hh h os Hs.
  apply (run_well L params Hh fuel api pb Hapi Hpb); [exact Hs|apply kept_start].
Qed.
Print Assumptions C90_bytes.
(** When nothing is to be refused, every reply is as expected. *)
Theorem C90_unrefused : forall E, ExtLaws E -> forall fuel api, computes E fuel api ->
  forall (params : SystemParameters E) pb, system_parameters_from_bytes pb = Ok params -> sp_h params <> pzero ->
  forall h os, Forall sendable_event h -> ~ In Nothing (hopes register_start h) ->
  goes_well params api pb (fun _ _ _ => False) register_start service_start holdings_start os h.
Proof.
  intros E L fuel api Hapi params pb Hpb Hh h os Hs Hn.
  apply (run_unrefused L params Hh fuel api pb Hapi Hpb); [exact Hs|apply kept_start|exact Hn].
Qed.
Print Assumptions C90_unrefused.

(** ** C *)
Lemma c_is_unique {E} m f a a' : c_is E m f a -> c_is E m f a' -> a = a'.
Proof.
  assert (G : forall p l b b', @given E m p l b -> @given E m p l b' -> b = b') by (intros p l b b' (_ & _ & H) (_ & _ & H'); congruence).
  assert (S : forall p b b', given_seed m p b -> given_seed m p b' -> b = b') by (intros p b b' (_ & H) (_ & H'); congruence).
  destruct f; destruct a; cbn [c_is]; try contradiction; destruct a'; cbn [c_is]; try contradiction; intros H H';
    repeat match goal with H : _ /\ _ |- _ => destruct H end; f_equal; eauto.
Qed.
Lemma loaded_holds bs id b : nth_error bs id = Some b -> SpecFfi.holds (loaded bs) (argument id) b.
Proof.
  intros H. split; [discriminate|]. unfold argument, read, loaded. cbn [mem_block]. rewrite H. destruct b as [|x b]; [reflexivity|].
  cbn [List.length Nat.eqb plus]. unfold slice. rewrite Nat.leb_refl. cbn [Nat.leb andb]. rewrite Nat.sub_0_r.
  cbn [skipn]. rewrite firstn_all2 by (cbn [List.length]; lia). reflexivity.
Qed.
Lemma short_given {E} (L : ExtLaws E) bs id b : nth_error bs id = Some b -> short b -> @given E (loaded bs) (argument id) (len b) b.
Proof.
  intros H [H1 H2]. apply loaded_holds in H as [H3 H4]. split; [exact H3|]. unfold len. split; [destruct b; [contradiction|discriminate]|].
  rewrite (as_size_t_small L) by lia. rewrite Nat2Z.id. exact H4.
Qed.
Lemma seed_given bs id b : nth_error bs id = Some b -> List.length b = 32%nat -> given_seed (loaded bs) (argument id) b.
Proof. intros H Hl. apply PropertiesFfi.holds_seed; [apply loaded_holds, H|exact Hl]. Qed.
Lemma c_of_is {E} (L : ExtLaws E) a : sendable a -> c_is E (loaded (fst (c_of a))) (snd (c_of a)) a /\ ~ is_open (snd (c_of a)).
Proof.
  intros [Hs Hb]. split; [|destruct a; cbn; tauto].
  assert (Hseed : forall s, seed_of a = Some s -> List.length s = 32%nat) by exact Hs. clear Hs.
  destruct a; cbn [c_of fst snd c_is]; cbn [seed_of] in Hseed; cbn [strings_of] in Hb;
    repeat match goal with H : Forall _ (_ :: _) |- _ => inversion H; subst; clear H end;
    repeat (split; [first [apply (short_given L); [reflexivity|assumption]|apply seed_given; [reflexivity|auto]]|]);
    first [apply (short_given L); [reflexivity|assumption]|apply seed_given; [reflexivity|auto]].
Qed.
(** The C functions are such an interface. *)
Theorem C90_c_computes : forall E, ExtLaws E -> forall fuel, computes E fuel (c_interface E fuel).
Proof.
  intros E L fuel os a ser os' Ha. destruct (c_of_is L a Ha) as [Hi Ho].
  pose proof (C87_c_calls E L fuel (loaded (fst (c_of a))) os (snd (c_of a)) ser os' Ho) as Hc. unfold c_interface. split.
  - intros H. destruct (c_run fuel (loaded (fst (c_of a))) os (snd (c_of a))) as [b m' os1| | |] eqn:Hr; try discriminate.
    destruct (last_contents m' (buf_ptr b) (buf_len b)) as [ser'|] eqn:Hl; [|discriminate]. injection H as -> ->.
    destruct (proj1 Hc (ex_intro _ b (ex_intro _ m' (conj eq_refl Hl)))) as (a' & Hi' & Hg).
    rewrite (c_is_unique _ _ _ _ Hi Hi'). exact Hg.
  - intros Hg. destruct (proj2 Hc (ex_intro _ a (conj Hi Hg))) as (b & m' & Hr & Hl). rewrite Hr, Hl. reflexivity.
Qed.
Print Assumptions C90_c_computes.
(** So whatever is done with the C functions, from the making of the parameters
    on, goes as expected. *)
Theorem C90_c_history : forall E, ExtLaws E -> forall fuel seed pb os0 os1, List.length seed = 32%nat ->
  c_interface E fuel os0 (MakeParameters seed) = Some (pb, os1) ->
  exists params, @system_parameters_from_bytes E pb = Ok params /\
  forall h os, sp_h params <> pzero -> Forall sendable_event h ->
    goes_well params (c_interface E fuel) pb (byte_mishap params) register_start service_start holdings_start os h /\
    (~ In Nothing (hopes register_start h) ->
     goes_well params (c_interface E fuel) pb (fun _ _ _ => False) register_start service_start holdings_start os h).
Proof.
  intros E L fuel seed pb os0 os1 Hs H. apply (C90_c_computes E L) in H.
  2:{ split; [intros s [= <-]; exact Hs|constructor]. }
  destruct H as (params & rest & Hh & -> & _). exists params.
  assert (Hd : @system_parameters_from_bytes E (system_parameters_to_bytes params) = Ok params) by (apply (system_parameters_iff L); reflexivity).
  split; [exact Hd|]. intros h os Hne Hsh. pose proof (C90_c_computes E L fuel) as Hc.
  split; [apply (C90_bytes E L fuel _ Hc params _ Hd Hne h os Hsh)|]. intros Hn.
  apply (C90_unrefused E L fuel _ Hc params _ Hd Hne h os Hsh Hn).
Qed.
Print Assumptions C90_c_history.

(** Two issuers.  Somebody takes a credential of the first for one of the second,
    is refused, and presents it with the entry of somebody else and with their own. *)
Definition sample_seed (n : nat) : bytes := le_encode 32 (Z.of_nat n).
Definition sample_byte_history : list byte_event :=
  [BOpen (sample_seed 1); BOpen (sample_seed 2); BEnter (str "14155551234") (sample_seed 3); BEnter (str "14155559999") (sample_seed 4);
   BIssue 0 (str "14155551234") (sample_seed 5); BObtain 1 0 (str "14155551234"); BObtain 0 0 (str "14155551234");
   BShow 0 1 (sample_seed 6); BShow 0 0 (sample_seed 7); BVerify 1 0; BVerify 0 0; BVerify 0 1; BRoster 0 0; BRoster 1 1;
   BIssue 1 (str "0123456789012345678901234567") (sample_seed 8); BShow 1 0 (sample_seed 9)].
Definition sample_success : list byte_event :=
  [BOpen (sample_seed 1); BEnter (str "14155551234") (sample_seed 3); BIssue 0 (str "14155551234") (sample_seed 5);
   BObtain 0 0 (str "14155551234"); BShow 0 0 (sample_seed 7); BVerify 0 0; BRoster 0 0].
(** The lengths of the results. *)
Fixpoint result_lengths (api : interface) (pb : bytes) (s : holdings) (os : rng) (h : list byte_event) : list (option nat) :=
  match h with
  | [] => []
  | e :: h' =>
    let '(s', r, os') := byte_step api pb s os e in
    match r with Gave ser => Some (List.length ser) | GaveNothing => Some 0%nat | NoOne => None end :: result_lengths api pb s' os' h'
  end.
Example C90_met :
  List.length (sample_seed 1) = 32%nat /\
  match c_interface toy 1 (toy_stream 1) (MakeParameters (zeros 32)) with Some (pb, _) => List.length pb | None => 0%nat end = 64%nat /\
  @system_parameters_from_bytes toy (system_parameters_to_bytes sample_params) = Ok sample_params /\
  sp_h sample_params <> pzero /\ Forall sendable_event sample_byte_history /\
  hopes register_start sample_byte_history =
    [Something; Something; Something; Something; Something; Nothing; Something; Something; Something; Nothing; Something; Something;
     Nothing; Commitment 0; Nothing; NotThere] /\
  result_lengths (c_interface toy 1) (system_parameters_to_bytes sample_params) holdings_start (toy_stream 1) sample_byte_history =
    [Some 160; Some 160; Some 64; Some 64; Some 328; Some 0; Some 288; Some 448; Some 448; Some 0; Some 448; Some 448; Some 0;
     Some 32; Some 0; None]%nat /\
  hopes register_start sample_success = [Something; Something; Something; Something; Something; Something; Commitment 0] /\
  ~ In Nothing (hopes register_start sample_success).
Proof.
  split; [reflexivity|]. split; [vm_compute; reflexivity|]. split; [apply (system_parameters_iff toy_laws); reflexivity|].
  split; [apply (peqb_false toy_laws); vm_compute; reflexivity|]. split.
  { unfold sample_byte_history, short. repeat (apply Forall_cons; [cbn [sendable_event]|]); try apply Forall_nil; repeat split; discriminate. }
  split; [reflexivity|]. split; [vm_compute; reflexivity|]. split; [reflexivity|]. cbn. intuition discriminate.
Qed.
