(** Any history of a service whose participants all follow the protocol (C89):
    signal-credential/src/issuer.rs, user.rs, phone_number.rs and credential.rs. *)
From Verif Require Import Toy SpecHistory CreatedFacts PropertiesAnonymity.
From Coq Require Import Lia.

(** ** Lists *)
Lemma put_same {A} n (x : A) l : nth_error l n = Some x -> put n x l = l.
Proof.
  revert n; induction l as [|y l IH]; intros [|n] H; try discriminate; cbn in *.
  - congruence.
  - rewrite IH by exact H. reflexivity.
Qed.
Lemma forall2_nth {A B} (R : A -> B -> Prop) l l' n : Forall2 R l l' ->
  match nth_error l n, nth_error l' n with
  | Some x, Some y => R x y | None, None => True | _, _ => False end.
Proof.
  intros H; revert n; induction H as [|x y l l' Hx H IH]; intros [|n]; cbn; auto. apply IH.
Qed.
Lemma forall2_put {A B} (R : A -> B -> Prop) l l' n x y : Forall2 R l l' -> R x y -> Forall2 R (put n x l) (put n y l').
Proof.
  intros H Hx; revert n; induction H as [|a b l l' Ha H IH]; intros [|n]; cbn; auto.
Qed.
Lemma forall2_snoc {A B} (R : A -> B -> Prop) l l' x y : Forall2 R l l' -> R x y -> Forall2 R (l ++ [x]) (l' ++ [y]).
Proof. intros H Hx. apply Forall2_app; auto. Qed.
Lemma nth_snoc {A} (l : list A) x n y : nth_error l n = Some y -> nth_error (l ++ [x]) n = Some y.
Proof. intros H. rewrite nth_error_app1; [exact H|]. apply nth_error_Some. congruence. Qed.
Lemma same_bytes_eq a b : same_bytes a b = true <-> a = b.
Proof. unfold same_bytes. destruct (list_eq_dec _ a b); split; congruence. Qed.

(** ** Numbers *)
Lemma number_cases b :
  match try_from_bytes b with
  | Ok n => fits b = true /\ canonical n
  | Err e => fits b = false /\ crashes b = false /\ e = LengthExceeded
  | Panic => fits b = false /\ crashes b = true
  end.
Proof.
  destruct (C27_outcomes b) as (H1 & H2 & H3). unfold fits, crashes.
  destruct (Nat.leb_spec (List.length b) 27) as [Hl|Hl].
  - destruct (H1 Hl) as [(n & -> & Hn) _]. auto.
  - destruct (Nat.leb_spec (List.length b) 32) as [Hl'|Hl'].
    + destruct (H2 ltac:(lia)) as [-> _]. split; [reflexivity|].
      apply andb_true_iff; split; [apply Nat.leb_le; lia|reflexivity].
    + destruct (H3 Hl') as [-> _]. rewrite andb_false_r. auto.
Qed.

(** ** The service and the ledger *)
Section invariant.
  Context {E : Ext} (L : ExtLaws E) (params : SystemParameters E).
  Hypothesis Hh : sp_h params <> pzero.

  Definition issuer_ok (i : Issuer E) : Prop :=
    iss_system_parameters i = params /\ consistent i /\ single_attribute i /\ wf_issuer i.
  Definition holds (i : Issuer E) (number : bytes) (c : Credential E) : Prop :=
    exists n, try_from_bytes number = Ok n /\ valid_credential i c n.
  Definition user_ok (is : list (Issuer E)) (u : SignalUser E) (a : nat * option bytes) : Prop :=
    exists i, nth_error is (fst a) = Some i /\ user_of i (su_user u) /\
      wf_user (su_user u) /\ bits255 (su_phone_number u) /\
      match snd a with
      | None => us_credential (su_user u) = None
      | Some number => exists c, us_credential (su_user u) = Some c /\ holds i number c
      end.
  Definition issuance_ok (is : list (Issuer E)) (iss : CredentialIssuance E) (a : nat * bytes) : Prop :=
    exists i, nth_error is (fst a) = Some i /\ holds i (snd a) (is_credential iss) /\ wf_issuance iss /\
      forall u, user_of i u -> snd (obtain_finish u (Some iss)) = Ok tt.
  Definition entry_ok (entry : RosterEntryCommitment E) (number : bytes) : Prop :=
    roster_open entry number params = Ok tt /\ canonical (re_opening entry).
  Definition shown_ok (is : list (Issuer E)) (x : showing (E := E)) (a : nat * bytes * bytes) : Prop :=
    let '(j, number, number') := a in
    exists i, nth_error is j = Some i /\ wf_signal_presentation (sh_presentation x) /\
      signal_verify i (sh_presentation x) = Ok {| vs_presentation := sh_presentation x |} /\
      if same_bytes number number'
      then exists R, verify_roster_membership i {| vs_presentation := sh_presentation x |} = Ok R
      else verify_roster_membership i {| vs_presentation := sh_presentation x |} = Err VerificationFailure \/
           ce_challenge (sc_roster_membership_proof (sh_presentation x)) = 0 \/
           membership_collision params (sh_presentation x) (sh_number x) (sh_blinding x) (sh_opening x).
  Definition agree (s : service E) (l : ledger) : Prop :=
    List.length (sv_issuers s) = lg_issuers l /\ Forall issuer_ok (sv_issuers s) /\
    Forall2 (user_ok (sv_issuers s)) (sv_users s) (lg_users l) /\
    Forall2 (issuance_ok (sv_issuers s)) (sv_issuances s) (lg_issuances l) /\
    Forall2 entry_ok (sv_entries s) (lg_entries l) /\
    Forall2 (shown_ok (sv_issuers s)) (sv_shown s) (lg_shown l).

  Lemma agree_start : agree service_start ledger_start.
  Proof. repeat split; constructor. Qed.

  Lemma grow_user is x u a : user_ok is u a -> user_ok (is ++ [x]) u a.
  Proof. intros (i & Hi & H). exists i. split; [apply nth_snoc, Hi|exact H]. Qed.
  Lemma grow_issuance is x u a : issuance_ok is u a -> issuance_ok (is ++ [x]) u a.
  Proof. intros (i & Hi & H). exists i. split; [apply nth_snoc, Hi|exact H]. Qed.
  Lemma grow_shown is x u a : shown_ok is u a -> shown_ok (is ++ [x]) u a.
  Proof. destruct a as [[j n] n']. intros (i & Hi & H). exists i. split; [apply nth_snoc, Hi|exact H]. Qed.
  Lemma forall2_impl {A B} (P Q : A -> B -> Prop) l l' : (forall x y, P x y -> Q x y) -> Forall2 P l l' -> Forall2 Q l l'.
  Proof. intros H F. induction F; constructor; auto. Qed.

  Lemma issuer_at is n : Forall issuer_ok is ->
    match nth_error is n with Some i => (n < List.length is)%nat /\ issuer_ok i | None => (List.length is <= n)%nat end.
  Proof.
    intros H. destruct (nth_error is n) as [i|] eqn:Hn.
    - split; [apply nth_error_Some; congruence|]. rewrite Forall_forall in H. apply H. eapply nth_error_In, Hn.
    - apply nth_error_None, Hn.
  Qed.

  Lemma new_issuer r : issuer_ok (fst (signal_issuer_create params r)).
  Proof.
    change (signal_issuer_create params r) with (issuer_create params r).
    destruct (issuer_create_facts params r) as (H1 & H2 & H3). destruct (created_issuer params r) as (H4 & _).
    split; [exact H1|]. split; [exact H2|]. split; [exact H3|]. apply (C33_issuer E L), (issuer_iff L). split; [exact H4|reflexivity].
  Qed.

  Definition good (s : service E) (l : ledger) (e : event E) : Prop :=
    (snd (step params s e) = snd (expected l e) /\ agree (fst (step params s e)) (fst (expected l e))) \/
    mishap params l s e.

  Lemma open_good s l r : agree s l -> good s l (OpenIssuer r).
  Proof.
    intros (H1 & H2 & H3 & H4 & H5 & H6). left. split; [reflexivity|]. cbn [step expected fst].
    pose proof (new_issuer r) as Hn. revert Hn. generalize (fst (signal_issuer_create params r)). intros i Hn.
    unfold agree, with_issuers, with_users, with_issuances, with_entries, with_shown; cbn [sv_issuers sv_users sv_issuances sv_entries sv_shown lg_issuers lg_users lg_issuances lg_entries lg_shown].
    split; [rewrite app_length; cbn; lia|]. split; [apply Forall_app; split; [exact H2|constructor; [exact Hn|constructor]]|].
    split; [eapply forall2_impl; [|exact H3]; intros; apply grow_user; assumption|].
    split; [eapply forall2_impl; [|exact H4]; intros; apply grow_issuance; assumption|].
    split; [exact H5|].
    eapply forall2_impl; [|exact H6]; intros; apply grow_shown; assumption.
  Qed.

  Lemma issuer_single i : issuer_ok i -> exists X1 x1,
    pk_Xn (kp_public (iss_keypair i)) = [X1] /\ sk_xn (kp_secret (iss_keypair i)) = [x1] /\ X1 = smul x1 (sp_h params).
  Proof.
    intros (H1 & H2 & H3 & _). destruct (single_cons i H3) as [x1 Hx]. exists (smul x1 (sp_h params)), x1.
    rewrite <- H1. split; [apply consistent_single; assumption|]. auto.
  Qed.

  Lemma register_good s l j key number : sound_event (Register j key number) -> agree s l -> good s l (Register j key number).
  Proof.
    intros Hk (H1 & H2 & H3 & H4 & H5 & H6). left. cbn [step expected].
    pose proof (issuer_at _ j H2) as Hi. rewrite H1 in Hi.
    destruct (nth_error (sv_issuers s) j) as [i|] eqn:Hj.
    2:{ destruct (Nat.ltb_spec j (lg_issuers l)) as [Hl|Hl]; [lia|]. cbn. split; [reflexivity|].
        exact (conj H1 (conj H2 (conj H3 (conj H4 (conj H5 H6))))). }
    destruct Hi as [Hl Hi]. destruct (Nat.ltb_spec j (lg_issuers l)) as [_|Hl']; [|lia]. cbn [negb].
    pose proof (number_cases number) as Hn. unfold signal_user_new.
    destruct (try_from_bytes number) as [n|e|]; cbn [map_err bind].
    - destruct Hn as [-> Hn]. cbn [fst snd answer_of]. split; [reflexivity|].
      unfold agree, with_issuers, with_users, with_issuances, with_entries, with_shown; cbn [sv_issuers sv_users sv_issuances sv_entries sv_shown lg_issuers lg_users lg_issuances lg_entries lg_shown].
      split; [exact H1|]. split; [exact H2|]. split; [|auto].
      apply forall2_snoc; [exact H3|]. exists i. cbn [fst snd su_user su_phone_number user_new us_credential].
      destruct (issuer_single i Hi) as (X1 & x1 & HX & _). destruct Hi as (Hp & _).
      split; [exact Hj|]. split; [split; [symmetry; exact Hp|reflexivity]|].
      split; [|split; [apply canonical_bits, Hn|reflexivity]].
      split; [exists X1; exact HX|]. split; [|discriminate]. intros k Hkey. change (key = Some k) in Hkey. subst key. exact Hk.
    - destruct Hn as (-> & Hc & ->). cbn [fst snd answer_of]. unfold unfit. rewrite Hc. split; [reflexivity|].
      exact (conj H1 (conj H2 (conj H3 (conj H4 (conj H5 H6))))).
    - destruct Hn as (-> & Hc). cbn [fst snd answer_of]. unfold unfit. rewrite Hc. split; [reflexivity|].
      exact (conj H1 (conj H2 (conj H3 (conj H4 (conj H5 H6))))).
  Qed.

  Lemma issue_result i n r os : issuer_ok i -> canonical n ->
    exists iss r' os', issue i {| rq_attributes_revealed := [n] |} r os = Ok (iss, r', os') /\
      valid_credential i (is_credential iss) n /\ wf_issuance iss /\
      forall u, user_of i u -> snd (obtain_finish u (Some iss)) = Ok tt.
  Proof.
    intros (Hp & Hc & Hs & _) Hn.
    pose (u0 := {| us_system_parameters := iss_system_parameters i; us_issuer_parameters := kp_public (iss_keypair i);
                   us_key := None; us_credential := None |}).
    destruct (C10_honest_issuance_accepted E L i u0 n r os Hc Hs (conj eq_refl eq_refl)) as (iss & r' & os' & Hi & Hv & _).
    exists iss, r', os'. split; [exact Hi|]. split; [exact Hv|]. split.
    - apply wf_issuance_iff. eapply (created_issuance L); [exact Hi|reflexivity|]. constructor; [exact Hn|constructor].
    - intros u Hu. destruct (C10_honest_issuance_accepted E L i u n r os Hc Hs Hu) as (iss1 & r1 & os1 & Hi1 & _ & Ho).
      rewrite Hi in Hi1. apply ok3 in Hi1 as [<- _]. rewrite Ho. reflexivity.
  Qed.

  Lemma issue_good s l j number r os : agree s l -> good s l (IssueTo j number r os).
  Proof.
    intros (H1 & H2 & H3 & H4 & H5 & H6). left. cbn [step expected].
    pose proof (issuer_at _ j H2) as Hi. rewrite H1 in Hi.
    destruct (nth_error (sv_issuers s) j) as [i|] eqn:Hj.
    2:{ destruct (Nat.ltb_spec j (lg_issuers l)) as [Hl|Hl]; [lia|]. cbn. split; [reflexivity|].
        exact (conj H1 (conj H2 (conj H3 (conj H4 (conj H5 H6))))). }
    destruct Hi as [Hl Hi]. destruct (Nat.ltb_spec j (lg_issuers l)) as [_|Hl']; [|lia]. cbn [negb].
    pose proof (number_cases number) as Hn. unfold signal_issue.
    destruct (try_from_bytes number) as [n|e|] eqn:Ht; cbn [map_err bind].
    - destruct Hn as [-> Hn]. destruct (issue_result i n r os Hi Hn) as (iss & r' & os' & Hq & Hv & Hw & Ho).
      match goal with |- context [issue i ?q r os] => change q with {| rq_attributes_revealed := [n : Z] |} end. unfold scalar in *. rewrite Hq.
      cbn [fst snd answer_of]. split; [reflexivity|].
      unfold agree, with_issuers, with_users, with_issuances, with_entries, with_shown; cbn [sv_issuers sv_users sv_issuances sv_entries sv_shown lg_issuers lg_users lg_issuances lg_entries lg_shown].
      split; [exact H1|]. split; [exact H2|]. split; [exact H3|]. split; [|auto].
      apply forall2_snoc; [exact H4|]. exists i. cbn [fst snd].
      split; [exact Hj|]. split; [exists n; auto|]. auto.
    - destruct Hn as (-> & Hc & ->). cbn [fst snd answer_of]. unfold unfit. rewrite Hc. split; [reflexivity|].
      exact (conj H1 (conj H2 (conj H3 (conj H4 (conj H5 H6))))).
    - destruct Hn as (-> & Hc). cbn [fst snd answer_of]. unfold unfit. rewrite Hc. split; [reflexivity|].
      exact (conj H1 (conj H2 (conj H3 (conj H4 (conj H5 H6))))).
  Qed.

  Lemma finish_refused (u : User E) iss X1 : pk_Xn (us_issuer_parameters u) = [X1] ->
    snd (obtain_finish u (Some iss)) = Ok tt \/ obtain_finish u (Some iss) = (u, Err CredentialIssuanceError).
  Proof.
    intros HX. unfold obtain_finish. rewrite HX. cbn [nth_error].
    match goal with |- context [ir_verify ?a ?b ?c] => pose proof (ir_verify_no_panic a b c);
      destruct (ir_verify a b c) as [[]| |] end; cbn; auto. congruence.
  Qed.
  Lemma deliver_good s l k n : agree s l -> good s l (Deliver k n).
  Proof.
    intros (H1 & H2 & H3 & H4 & H5 & H6). unfold good. cbn [step expected mishap].
    pose proof (forall2_nth _ _ _ k H4) as Hk. pose proof (forall2_nth _ _ _ n H3) as Hn.
    assert (HA : agree s l) by exact (conj H1 (conj H2 (conj H3 (conj H4 (conj H5 H6))))).
    destruct (nth_error (sv_issuances s) k) as [iss|] eqn:Ek, (nth_error (lg_issuances l) k) as [[j number]|] eqn:Ek'; try contradiction.
    2:{ left; split; [reflexivity|exact HA]. }
    destruct (nth_error (sv_users s) n) as [u|] eqn:En, (nth_error (lg_users l) n) as [[j' held]|] eqn:En'; try contradiction.
    2:{ left; split; [reflexivity|exact HA]. }
    destruct Hk as (i & Hi & (m & Hm & Hv) & Hw & Ho). destruct Hn as (i' & Hi' & Hu & Hwu & Hb & Hc). cbn [fst snd] in *.
    pose proof (issuer_at _ j H2) as Hj. rewrite Hi in Hj. destruct Hj as [_ Hj].
    pose proof (issuer_at _ j' H2) as Hj'. rewrite Hi' in Hj'. destruct Hj' as [_ Hj'].
    unfold signal_obtain_finish. destruct (Nat.eqb_spec j j') as [<-|Hne].
    - left. assert (i' = i) by congruence. subst i'. specialize (Ho _ Hu). rewrite (obtain_finish_accept _ _ Ho).
      cbn [fst snd answer_of]. split; [reflexivity|].
      unfold agree, with_issuers, with_users, with_issuances, with_entries, with_shown; cbn [sv_issuers sv_users sv_issuances sv_entries sv_shown lg_issuers lg_users lg_issuances lg_entries lg_shown].
      split; [exact H1|]. split; [exact H2|]. split; [|auto].
      apply forall2_put; [exact H3|]. exists i. cbn [fst snd su_user su_phone_number us_credential].
      split; [exact Hi|]. split; [exact Hu|]. split; [|split; [exact Hb|]].
      + destruct Hwu as (Hx & Hkey & _). split; [exact Hx|]. split; [exact Hkey|]. cbn [us_credential].
        intros c [= <-]. split; [apply Hw|]. destruct Hv as [Ha _]. intros (_ & _ & H0). rewrite Ha in H0.
        apply (try_from_bytes_nonzero _ _ Hm). congruence.
      + exists (is_credential iss). split; [reflexivity|]. exists m. auto.
    - destruct (issuer_single i Hj) as (X1 & x1 & HX & Hx & E1). destruct (issuer_single i' Hj') as (X1' & x1' & HX' & Hx' & E1').
      destruct Hu as [Hu1 Hu2].
      assert (HXu : pk_Xn (us_issuer_parameters (su_user u)) = [X1']) by (rewrite Hu2; exact HX').
      destruct (finish_refused (su_user u) iss X1' HXu) as [Hok|Hr].
      + right. exists iss, number, held, j, j', i, i', X1, X1'.
        pose (u0 := {| us_system_parameters := iss_system_parameters i; us_issuer_parameters := kp_public (iss_keypair i);
                   us_key := None; us_credential := None |}).
        assert (Hok0 : snd (obtain_finish u0 (Some iss)) = Ok tt) by (apply Ho; split; reflexivity).
        repeat (split; [assumption|]).
        destruct (C67_issuance_one_issuer E L u0 (su_user u) X1 [] X1' [] iss HX HXu Hok0 Hok) as [[_ He]|Hcol]; [left; exact He|right].
        cbn [u0 us_system_parameters] in Hcol. destruct Hj as [Hp _]. destruct Hj' as [Hp' _].
        rewrite Hu1, Hp, Hp' in Hcol. exact Hcol.
      + left. rewrite Hr. cbn [fst snd answer_of]. split; [reflexivity|].
        rewrite put_same; [|rewrite En; destruct u; reflexivity]. destruct s; exact HA.
  Qed.

  Lemma enter_good s l number r : agree s l -> good s l (Enter number r).
  Proof.
    intros HA. destruct HA as (H1 & H2 & H3 & H4 & H5 & H6). left. cbn [step expected].
    pose proof (number_cases number) as Hn. 
    destruct (roster_create number params r) as [[entry r']|e|] eqn:Hr.
    - pose proof Hr as Hr'. unfold roster_create in Hr'. destruct (ephemeral_new r) as [o r1].
      destruct (try_from_bytes number) as [n| |] eqn:Ht; cbn [bind] in Hr'; try discriminate. destruct Hn as [Hf Hn].
      rewrite Hf. cbn [fst snd answer_of_number]. split; [reflexivity|].
      unfold agree, with_issuers, with_users, with_issuances, with_entries, with_shown; cbn [sv_issuers sv_users sv_issuances sv_entries sv_shown lg_issuers lg_users lg_issuances lg_entries lg_shown].
      split; [exact H1|]. split; [exact H2|]. split; [exact H3|]. split; [exact H4|]. split; [|exact H6].
      apply forall2_snoc; [exact H5|]. split; [|eapply created_entry, Hr].
      destruct (C29_create_opens E L number params r) as (entry' & r2 & He & Ho); [unfold fits in Hf; apply Nat.leb_le, Hf|].
      rewrite Hr in He. assert (entry' = entry) by congruence. subst. exact Ho.
    - unfold roster_create in Hr. destruct (ephemeral_new r) as [o r1].
      destruct (try_from_bytes number) as [n|e'|]; cbn [bind] in Hr; try discriminate.
      destruct Hn as (-> & Hc & ->). cbn [fst snd answer_of_number]. unfold unfit_number. rewrite Hc. split; [congruence|].
      exact (conj H1 (conj H2 (conj H3 (conj H4 (conj H5 H6))))).
    - unfold roster_create in Hr. destruct (ephemeral_new r) as [o r1].
      destruct (try_from_bytes number) as [n|e'|]; cbn [bind] in Hr; try discriminate.
      destruct Hn as (-> & Hc). cbn [fst snd answer_of_number]. unfold unfit_number. rewrite Hc. split; [reflexivity|].
      exact (conj H1 (conj H2 (conj H3 (conj H4 (conj H5 H6))))).
  Qed.

  Lemma open_entry_good s l k number : agree s l -> good s l (OpenEntry k number).
  Proof.
    intros HA. pose proof HA as (H1 & H2 & H3 & H4 & H5 & H6). left. cbn [step expected].
    pose proof (forall2_nth _ _ _ k H5) as Hk.
    destruct (nth_error (sv_entries s) k) as [entry|] eqn:Ek, (nth_error (lg_entries l) k) as [number'|] eqn:Ek'; try contradiction.
    2:{ split; [reflexivity|exact HA]. }
    destruct Hk as [Ho _]. split; [|exact HA]. cbn [snd].
    pose proof (number_cases number) as Hn. destruct (try_from_bytes number) as [n|e|] eqn:Ht.
    - destruct Hn as [-> Hn]. destruct (C29_open_exactly E L entry number n params Ht) as [_ Hor].
      destruct (same_bytes number number') eqn:Hs.
      + apply same_bytes_eq in Hs. subst. rewrite Ho. reflexivity.
      + destruct Hor as [Hor|Hor]; [|rewrite Hor; reflexivity].
        pose proof (C29_one_number E L entry number number' params Hh Hor Ho) as He. apply same_bytes_eq in He. congruence.
    - destruct Hn as (-> & Hc & ->). unfold unfit_number. rewrite Hc. unfold roster_open. rewrite Ht. reflexivity.
    - destruct Hn as (-> & Hc). unfold unfit_number. rewrite Hc. unfold roster_open. rewrite Ht. reflexivity.
  Qed.

  Lemma present_good s l n k r os : agree s l -> good s l (Present n k r os).
  Proof.
    intros HA. pose proof HA as (H1 & H2 & H3 & H4 & H5 & H6). left. cbn [step expected].
    pose proof (forall2_nth _ _ _ k H5) as Hk. pose proof (forall2_nth _ _ _ n H3) as Hn.
    destruct (nth_error (sv_users s) n) as [u|] eqn:En, (nth_error (lg_users l) n) as [[j held]|] eqn:En'; try contradiction.
    2:{ split; [reflexivity|exact HA]. }
    destruct (nth_error (sv_entries s) k) as [entry|] eqn:Ek, (nth_error (lg_entries l) k) as [number'|] eqn:Ek'; try contradiction.
    2:{ destruct held; split; (reflexivity || exact HA). }
    destruct Hk as [Ho _]. destruct Hn as (i & Hi & Hu & Hwu & Hb & Hc). cbn [fst snd] in *.
    destruct held as [number|].
    2:{ unfold signal_show. rewrite Hc. cbn. split; [reflexivity|exact HA]. }
    destruct Hc as (c & Hc & m & Hm & Hv). rewrite Hc.
    pose proof (issuer_at _ j H2) as Hj. rewrite Hi in Hj. destruct Hj as [_ Hj].
    destruct (issuer_single i Hj) as (X1 & x1 & HX & Hx & E1).
    pose proof Hu as [Hu1 Hu2]. pose proof Hj as (Hp & Hcon & Hsg & Hwi). destruct Hv as [Ha He].
    assert (HXu : pk_Xn (us_issuer_parameters (su_user u)) = [X1]) by (rewrite Hu2; exact HX).
    destruct (signal_show_ok u c m [] X1 [] entry r os Hc Ha HXu) as (rand & rand' & Hs). cbv zeta in Hs.
    destruct Hs as (r' & os' & Hs).
    destruct (signal_show u r os entry) as [[[p r1] os1]| |] eqn:Hsh; try discriminate.
    cbn [fst snd answer_of]. split; [reflexivity|].
    unfold agree, with_issuers, with_users, with_issuances, with_entries, with_shown; cbn [sv_issuers sv_users sv_issuances sv_entries sv_shown lg_issuers lg_users lg_issuances lg_entries lg_shown].
    split; [exact H1|]. split; [exact H2|]. split; [exact H3|]. split; [exact H4|]. split; [exact H5|].
    apply forall2_snoc; [exact H6|]. exists i. cbn [sh_presentation sh_number sh_blinding sh_opening].
    split; [exact Hi|]. split; [apply wf_signal_presentation_iff; eapply (created_presentation L); [exact Hsh|exact HXu]|].
    split.
    - apply ok3 in Hs as [-> _]. apply signal_verify_ok. cbn [sc_presentation]. rewrite Hu1, E1, <- Hp. apply (shown_verify L); assumption.
    - destruct (same_bytes number number') eqn:Hsame.
      + apply same_bytes_eq in Hsame. subst number'.
        destruct (signal_presentation_accepted L i u c m r os entry Hcon Hsg Hu Hc (conj Ha He)) as (p2 & r2 & os2 & Hs2 & _ & Hvr).
        { rewrite Hp. apply (C29_open_exactly E L entry number m params Hm). exact Ho. }
        rewrite Hsh in Hs2. apply ok3 in Hs2 as [<- _]. eexists; exact Hvr.
      + rewrite Ha. cbn [hd]. rewrite <- Hp.
        eapply (C22_other_number_rejected E L i u c m [] X1 [] entry number number'); try eassumption.
        * rewrite Hp; exact Hh.
        * rewrite Hp; exact Ho.
        * intros ->. assert (same_bytes number number = true) by (apply same_bytes_eq; reflexivity). congruence.
  Qed.

  Lemma check_cases s l j k x j' number number' i : agree s l ->
    nth_error (sv_shown s) k = Some x -> nth_error (lg_shown l) k = Some (j', number, number') ->
    nth_error (sv_issuers s) j = Some i ->
    if (j =? j')%nat then signal_verify i (sh_presentation x) = Ok {| vs_presentation := sh_presentation x |}
    else signal_verify i (sh_presentation x) = Err MacVerification \/ mishap_checking params l s j k.
  Proof.
    intros (H1 & H2 & H3 & H4 & H5 & H6) Hx Hl Hi.
    pose proof (forall2_nth _ _ _ k H6) as Hk. rewrite Hx, Hl in Hk. destruct Hk as (i' & Hi' & Hw & Hv & _).
    destruct (Nat.eqb_spec j j') as [<-|Hne]; [assert (i' = i) by congruence; subst; exact Hv|].
    pose proof (issuer_at _ j H2) as Hj. rewrite Hi in Hj. destruct Hj as [_ Hj].
    pose proof (issuer_at _ j' H2) as Hj'. rewrite Hi' in Hj'. destruct Hj' as [_ Hj'].
    destruct (issuer_single i Hj) as (X1 & x1 & HX & Hx1 & E1). destruct (issuer_single i' Hj') as (X1' & x1' & HX' & Hx1' & E1').
    destruct Hj as (Hp & Hcon & _). destruct Hj' as (Hp' & Hcon' & _). destruct Hw as ((Hrev & (C & Hbl) & _) & _).
    unfold signal_verify. rewrite (issuer_verify_ok1 i _ X1 [] x1 C HX Hx1 Hrev Hbl).
    match goal with |- context [vc_verify ?a ?b ?c] => pose proof (vc_verify_no_panic a b c) as Hnp;
      destruct (vc_verify a b c) as [[]| |] eqn:Hver end; cbn [bind]; [|left; reflexivity|congruence].
    right. exists x, number, number', j', i', i, x1', x1, C.
    do 2 (split; [assumption|]). split; [congruence|]. repeat (split; [assumption|]).
    assert (Hacc : issuer_verify i (sc_presentation (sh_presentation x)) = Ok {| vf_presentation := sc_presentation (sh_presentation x) |}).
    { rewrite (issuer_verify_ok1 i _ X1 [] x1 C HX Hx1 Hrev Hbl), Hver. reflexivity. }
    apply signal_verify_ok in Hv.
    destruct (C67_presentation_one_issuer E L i' i x1' x1 _ C Hcon' Hx1' Hcon Hx1 ltac:(rewrite Hp'; exact Hh) Hrev Hbl Hv Hacc)
      as [(_ & Hmod & _)|Hcol].
    - left. assert (X1' = X1) by (subst; apply (smul_eqm L); exact Hmod).
      destruct (kp_public (iss_keypair i)) as [a], (kp_public (iss_keypair i')) as [b]. cbn [pk_Xn] in *. congruence.
    - right. rewrite Hp, Hp' in Hcol. exact Hcol.
  Qed.
  Lemma check_good s l j k : agree s l -> good s l (CheckPresentation j k).
  Proof.
    intros HA. pose proof HA as (H1 & H2 & H3 & H4 & H5 & H6). unfold good. cbn [step expected mishap].
    pose proof (issuer_at _ j H2) as Hi. rewrite H1 in Hi. pose proof (forall2_nth _ _ _ k H6) as Hk.
    destruct (nth_error (sv_issuers s) j) as [i|] eqn:Ej.
    2:{ left. destruct (nth_error (lg_shown l) k) as [[[j' n1] n2]|]; [|split; [reflexivity|exact HA]].
        destruct (Nat.ltb_spec j (lg_issuers l)) as [Hl|Hl]; [lia|]. split; [reflexivity|exact HA]. }
    destruct (nth_error (sv_shown s) k) as [x|] eqn:Ek, (nth_error (lg_shown l) k) as [[[j' number] number']|] eqn:Ek'; try contradiction.
    2:{ left; split; [reflexivity|exact HA]. }
    destruct Hi as [Hl Hi]. destruct (Nat.ltb_spec j (lg_issuers l)) as [_|Hl']; [|lia]. cbn [negb fst snd].
    pose proof (check_cases s l j k x j' number number' i HA Ek Ek' Ej) as Hc.
    destruct (j =? j')%nat; [left; rewrite Hc; split; [reflexivity|exact HA]|].
    destruct Hc as [Hc|Hc]; [left; rewrite Hc; split; [reflexivity|exact HA]|right; exact Hc].
  Qed.
  Lemma member_good s l j k : agree s l -> good s l (CheckMember j k).
  Proof.
    intros HA. pose proof HA as (H1 & H2 & H3 & H4 & H5 & H6). unfold good. cbn [step expected mishap].
    pose proof (issuer_at _ j H2) as Hi. rewrite H1 in Hi. pose proof (forall2_nth _ _ _ k H6) as Hk.
    destruct (nth_error (sv_issuers s) j) as [i|] eqn:Ej.
    2:{ left. destruct (nth_error (lg_shown l) k) as [[[j' n1] n2]|]; [|split; [reflexivity|exact HA]].
        destruct (Nat.ltb_spec j (lg_issuers l)) as [Hl|Hl]; [lia|]. split; [reflexivity|exact HA]. }
    destruct (nth_error (sv_shown s) k) as [x|] eqn:Ek, (nth_error (lg_shown l) k) as [[[j' number] number']|] eqn:Ek'; try contradiction.
    2:{ left; split; [reflexivity|exact HA]. }
    destruct Hi as [Hl Hi]. destruct (Nat.ltb_spec j (lg_issuers l)) as [_|Hl']; [|lia]. cbn [negb fst snd].
    pose proof (check_cases s l j k x j' number number' i HA Ek Ek' Ej) as Hc.
    destruct Hk as (i' & Hi' & _ & _ & Hr).
    destruct (Nat.eqb_spec j j') as [<-|Hne].
    - rewrite Hc. cbn [bind]. assert (i' = i) by congruence. subst i'. destruct (same_bytes number number') eqn:Hs.
      + destruct Hr as [R ->]. left; split; [reflexivity|exact HA].
      + destruct Hr as [->|Hr]; [left; split; [reflexivity|exact HA]|]. right; right. exists x, number, number'.
        do 2 (split; [assumption|]). split; [|exact Hr]. intros He. apply same_bytes_eq in He. congruence.
    - destruct Hc as [Hc|Hc]; [left; rewrite Hc; split; [reflexivity|exact HA]|right; left; exact Hc].
  Qed.

  Lemma reload_good s l e : agree s l ->
    match e with ReloadIssuer _ | ReloadUser _ | ReloadIssuance _ | ReloadEntry _ | ReloadPresentation _ => True | _ => False end ->
    good s l e.
  Proof.
    intros HA. pose proof HA as (H1 & H2 & H3 & H4 & H5 & H6).
    destruct e as [|? ? ?|? ? ? ?|? ?|? ?|? ?|? ? ? ?|? ?|? ?|n|n|n|n|n]; intros He; try contradiction He; left; cbn [step expected].
    - pose proof (issuer_at _ n H2) as Hi. rewrite H1 in Hi. destruct (nth_error (sv_issuers s) n) as [i|] eqn:En.
      + destruct Hi as (Hl & _ & _ & _ & Hw). unfold signal_issuer_from_bytes, signal_issuer_to_bytes.
        apply (C33_issuer E L) in Hw. rewrite Hw, (put_same n i _ En). destruct (Nat.ltb_spec n (lg_issuers l)); [|lia].
        split; [reflexivity|destruct s; exact HA].
      + destruct (Nat.ltb_spec n (lg_issuers l)); [lia|]. split; [reflexivity|exact HA].
    - pose proof (forall2_nth _ _ _ n H3) as Hn.
      destruct (nth_error (sv_users s) n) as [u|] eqn:En, (nth_error (lg_users l) n) as [a|] eqn:En'; try contradiction.
      + destruct Hn as (i & _ & _ & Hw & Hb & _). assert (Hr := proj2 (C33_signal_user E L u) (conj Hw Hb)).
        rewrite Hr, (put_same n u _ En). split; [reflexivity|destruct s; exact HA].
      + split; [reflexivity|exact HA].
    - pose proof (forall2_nth _ _ _ n H4) as Hn.
      destruct (nth_error (sv_issuances s) n) as [iss|] eqn:En, (nth_error (lg_issuances l) n) as [a|] eqn:En'; try contradiction.
      + destruct Hn as (i & _ & _ & Hw & _). apply (C33_issuance E L) in Hw.
        rewrite Hw, (put_same n iss _ En). split; [reflexivity|destruct s; exact HA].
      + split; [reflexivity|exact HA].
    - pose proof (forall2_nth _ _ _ n H5) as Hn.
      destruct (nth_error (sv_entries s) n) as [u|] eqn:En, (nth_error (lg_entries l) n) as [a|] eqn:En'; try contradiction.
      + destruct Hn as (_ & Hc). apply canonical_bits in Hc. apply (C33_roster E L) in Hc.
        rewrite Hc, (put_same n u _ En). split; [reflexivity|destruct s; exact HA].
      + split; [reflexivity|exact HA].
    - pose proof (forall2_nth _ _ _ n H6) as Hn.
      destruct (nth_error (sv_shown s) n) as [x|] eqn:En, (nth_error (lg_shown l) n) as [[[j n1] n2]|] eqn:En'; try contradiction.
      + destruct Hn as (i & _ & Hw & _). apply (C33_signal_presentation E L) in Hw.
        rewrite Hw, put_same; [|rewrite En; destruct x; reflexivity]. split; [reflexivity|destruct s; exact HA].
      + split; [reflexivity|exact HA].
  Qed.

  Lemma step_good s l e : sound_event e -> agree s l -> good s l e.
  Proof.
    intros Hs HA. destruct e.
    - apply open_good, HA.
    - apply register_good; assumption.
    - apply issue_good, HA.
    - apply deliver_good, HA.
    - apply enter_good, HA.
    - apply open_entry_good, HA.
    - apply present_good, HA.
    - apply check_good, HA.
    - apply member_good, HA.
    - apply reload_good; [exact HA|exact I].
    - apply reload_good; [exact HA|exact I].
    - apply reload_good; [exact HA|exact I].
    - apply reload_good; [exact HA|exact I].
    - apply reload_good; [exact HA|exact I].
  Qed.
  Lemma run_good h : forall s l, Forall sound_event h -> agree s l ->
    answers params s h = expectations l h \/ some_mishap params l s h.
  Proof.
    induction h as [|e h IH]; intros s l Hs HA; [left; reflexivity|]. inversion Hs as [|? ? He Hs']; subst.
    cbn [answers expectations some_mishap]. destruct (step_good s l e He HA) as [[Ha Hn]|Hm]; [|right; left; exact Hm].
    destruct (IH _ _ Hs' Hn) as [Hr|Hr]; [left; rewrite Ha, Hr; reflexivity|right; right; exact Hr].
  Qed.

  Lemma mishap_refused s l e : agree s l -> mishap params l s e -> refusal (snd (expected l e)).
  Proof.
    intros (H1 & H2 & H3 & H4 & H5 & H6). unfold refusal.
    assert (Hc : forall j k, mishap_checking params l s j k ->
      exists j' number number', nth_error (lg_shown l) k = Some (j', number, number') /\ (j =? j')%nat = false /\ (j <? lg_issuers l)%nat = true).
    { intros j k (x & number & number' & j' & i & i' & x1 & x1' & C & Hx & Hl & Hne & Hi & Hi' & _).
      exists j', number, number'. split; [exact Hl|]. split; [apply Nat.eqb_neq; congruence|].
      apply Nat.ltb_lt. rewrite <- H1. apply nth_error_Some. congruence. }
    destruct e; cbn [mishap]; try contradiction.
    - intros (iss & number & held & j & j' & i & i' & X1 & X1' & Hk & Hl & Hn & Hne & _).
      cbn [expected]. rewrite Hl, Hn. apply Nat.eqb_neq in Hne. rewrite Hne. auto.
    - intros H. destruct (Hc _ _ H) as (j' & number & number' & Hl & He & Hlt). cbn [expected]. rewrite Hl, Hlt, He. auto.
    - intros [H|(x & number & number' & Hx & Hl & Hne & _)].
      + destruct (Hc _ _ H) as (j' & number & number' & Hl & He & Hlt). cbn [expected]. rewrite Hl, Hlt, He. auto.
      + cbn [expected]. rewrite Hl, Nat.eqb_refl. destruct (same_bytes number number') eqn:Hs.
        { apply same_bytes_eq in Hs. contradiction. }
        pose proof (forall2_nth _ _ _ presentation H6) as Hk. rewrite Hx, Hl in Hk. destruct Hk as (i & Hi & _).
        assert (Hlt : (issuer <? lg_issuers l)%nat = true) by (apply Nat.ltb_lt; rewrite <- H1; apply nth_error_Some; congruence).
        rewrite Hlt. auto.
  Qed.
  Lemma run_unrefused h : forall s l, Forall sound_event h -> agree s l ->
    (forall a, In a (expectations l h) -> ~ refusal a) -> answers params s h = expectations l h.
  Proof.
    induction h as [|e h IH]; intros s l Hs HA Hr; [reflexivity|]. inversion Hs as [|? ? He Hs']; subst.
    cbn [answers expectations] in *. destruct (step_good s l e He HA) as [[Ha Hn]|Hm].
    - rewrite Ha, (IH _ _ Hs' Hn); [reflexivity|]. intros a H. apply Hr. right; exact H.
    - elim (Hr (snd (expected l e))); [left; reflexivity|]. exact (mishap_refused s l e HA Hm).
  Qed.
End invariant.

(** ** The ledger alone *)
Section ledgers.
  Context {E : Ext}.

  Lemma expected_bare l (e : event E) : expected l (bare e) = expected l e.
  Proof. destruct e; reflexivity. Qed.
  Lemma expectations_bare (h : list (event E)) : forall l, expectations l (map bare h) = expectations l h.
  Proof.
    induction h as [|e h IH]; intros l; [reflexivity|]. cbn [map expectations]. rewrite expected_bare, IH. reflexivity.
  Qed.

  Definition ledger_after (h : list (event E)) (l : ledger) : ledger := fold_left (fun l e => fst (expected l e)) h l.
  Lemma expectations_app h h' : forall l,
    expectations l (h ++ h')%list = (expectations l h ++ expectations (ledger_after h l) h')%list.
  Proof. induction h as [|e h IH]; intros l; [reflexivity|]. cbn [app expectations ledger_after fold_left]. rewrite IH. reflexivity. Qed.

  (** Everything in the ledger has its event. *)
  Definition backed (h : list (event E)) (l : ledger) : Prop :=
    (forall j number, In (j, number) (lg_issuances l) -> exists r os, In (IssueTo j number r os) h) /\
    (forall j number, In (j, Some number) (lg_users l) -> exists r os, In (IssueTo j number r os) h) /\
    (forall number, In number (lg_entries l) -> exists r, In (Enter number r) h) /\
    (forall j number number', In (j, number, number') (lg_shown l) ->
       (exists r os, In (IssueTo j number r os) h) /\ exists r, In (Enter number' r) h).
  Lemma backed_more h h' l : (forall e, In e h -> In e h') -> backed h l -> backed h' l.
  Proof.
    intros Hi (H1 & H2 & H3 & H4). split; [|split; [|split]].
    - intros j b Hb. destruct (H1 _ _ Hb) as (r & os & H). eauto.
    - intros j b Hb. destruct (H2 _ _ Hb) as (r & os & H). eauto.
    - intros b Hb. destruct (H3 _ Hb) as (r & H). eauto.
    - intros j b b' Hb. destruct (H4 _ _ _ Hb) as ((r & os & H) & r' & H'). split; eauto.
  Qed.
  Lemma in_put {A} n (x y : A) l : In y (put n x l) -> y = x \/ In y l.
  Proof.
    revert n; induction l as [|z l IH]; intros [|n] H; cbn in H; try contradiction.
    - destruct H as [<-|H]; [left; reflexivity|right; right; exact H].
    - destruct H as [<-|H]; [right; left; reflexivity|]. destruct (IH _ H); [left; assumption|right; right; assumption].
  Qed.
  Lemma in_snoc {A} (l : list A) x y : In y (l ++ [x]) -> y = x \/ In y l.
  Proof. intros H. apply in_app_or in H as [H|[<-|[]]]; auto. Qed.
  Lemma backed_step h l (e : event E) : backed h l -> backed (h ++ [e]) (fst (expected l e)).
  Proof.
    intros HB. assert (HB' : backed (h ++ [e]) l) by (apply (backed_more h); [intros; apply in_or_app; auto|exact HB]).
    assert (He : In e (h ++ [e])) by (apply in_or_app; right; left; reflexivity).
    revert He HB'. generalize (h ++ [e])%list. clear HB h. intros h He HB. pose proof HB as (H1 & H2 & H3 & H4).
    destruct e as [r|j key b|j b r os|k n|b r|k b|n k r os|j k|j k|n|n|n|n|n]; cbn [expected]; try exact HB.
    - destruct (negb _); [exact HB|]. destruct (fits b); [|exact HB]. split; [exact H1|]. split; [|auto].
      cbn [fst lg_users]. intros j0 b0 Hb. apply in_snoc in Hb as [Hb|Hb]; [discriminate|eauto].
    - destruct (negb _); [exact HB|]. destruct (fits b); [|exact HB]. split; [|auto].
      cbn [fst lg_issuances]. intros j0 b0 Hb. apply in_snoc in Hb as [[= -> ->]|Hb]; eauto.
    - destruct (nth_error (lg_issuances l) k) as [[j b]|] eqn:Ek; [|exact HB].
      destruct (nth_error (lg_users l) n) as [[j' o]|] eqn:En; [|exact HB].
      destruct (Nat.eqb_spec j j') as [<-|_]; [|exact HB]. split; [exact H1|]. split; [|auto].
      cbn [fst lg_users]. intros j0 b0 Hb. apply in_put in Hb as [[= -> ->]|Hb]; [|eauto].
      apply H1. eapply nth_error_In, Ek.
    - destruct (fits b); [|exact HB]. split; [exact H1|]. split; [exact H2|]. split; [|exact H4].
      cbn [fst lg_entries]. intros b0 Hb. apply in_snoc in Hb as [->|Hb]; eauto.
    - destruct (nth_error (lg_entries l) k); exact HB.
    - destruct (nth_error (lg_users l) n) as [[j [b|]]|] eqn:En; [| |exact HB];
        destruct (nth_error (lg_entries l) k) as [b'|] eqn:Ek; try exact HB.
      split; [exact H1|]. split; [exact H2|]. split; [exact H3|]. cbn [fst lg_shown].
      intros j0 b0 b1 Hb. apply in_snoc in Hb as [[= -> -> ->]|Hb]; [|eauto].
      split; [apply H2; eapply nth_error_In, En|apply H3; eapply nth_error_In, Ek].
    - destruct (nth_error (lg_shown l) k) as [[[a b] c]|]; [|exact HB]. destruct (negb _); exact HB.
    - destruct (nth_error (lg_shown l) k) as [[[a b] c]|]; [|exact HB]. destruct (negb _); exact HB.
  Qed.
  Lemma backed_after h' : forall h l, backed h l -> backed (h ++ h')%list (ledger_after h' l).
  Proof.
    induction h' as [|e h' IH]; intros h l HB; [rewrite app_nil_r; exact HB|].
    cbn [ledger_after fold_left]. replace (h ++ e :: h')%list with ((h ++ [e]) ++ h')%list by (rewrite <- app_assoc; reflexivity).
    apply IH, backed_step, HB.
  Qed.
  Lemma backed_start : backed [] ledger_start.
  Proof. split; [|split; [|split]]; intros; contradiction. Qed.
End ledgers.

(** ** C89 *)
Theorem C89_history : forall E, ExtLaws E -> forall (params : SystemParameters E) h,
  sp_h params <> pzero -> Forall sound_event h ->
  answers params service_start h = expectations ledger_start h \/
  some_mishap params ledger_start service_start h.
Proof. intros E L params h Hh Hs. apply (run_good L params Hh h); [exact Hs|apply agree_start]. Qed.
Print Assumptions C89_history.

(** As long as nobody is to be refused, nothing is left to chance. *)
Theorem C89_unrefused : forall E, ExtLaws E -> forall (params : SystemParameters E) h,
  sp_h params <> pzero -> Forall sound_event h ->
  (forall a, In a (expectations ledger_start h) -> ~ refusal a) ->
  answers params service_start h = expectations ledger_start h.
Proof. intros E L params h Hh Hs Hr. apply (run_unrefused L params Hh h); [exact Hs|apply agree_start|exact Hr]. Qed.
Print Assumptions C89_unrefused.

(** No randomness, no key of a user and no choice of parameters shows in the answers. *)
Theorem C89_randomness : forall E, ExtLaws E -> forall (params params' : SystemParameters E) h h',
  sp_h params <> pzero -> sp_h params' <> pzero -> Forall sound_event h -> Forall sound_event h' ->
  map bare h = map bare h' ->
  answers params service_start h = answers params' service_start h' \/
  some_mishap params ledger_start service_start h \/ some_mishap params' ledger_start service_start h'.
Proof.
  intros E L params params' h h' Hh Hh' Hs Hs' Hb.
  destruct (C89_history E L params h Hh Hs) as [H|H]; [|auto].
  destruct (C89_history E L params' h' Hh' Hs') as [H'|H']; [|auto].
  left. rewrite H, H', <- (expectations_bare h), <- (expectations_bare h'), Hb. reflexivity.
Qed.
Print Assumptions C89_randomness.

(** Who is found to be a member has been given a credential by the very issuer
    that checks, for a number that was entered on the roster. *)
Theorem C89_member : forall E, ExtLaws E -> forall (params : SystemParameters E) h j k,
  sp_h params <> pzero -> Forall sound_event h ->
  last (answers params service_start (h ++ [CheckMember j k])) Nobody = Done ->
  (exists number r os r', In (IssueTo j number r os) h /\ In (Enter number r') h) \/
  some_mishap params ledger_start service_start (h ++ [CheckMember j k]).
Proof.
  intros E L params h j k Hh Hs Hd.
  destruct (C89_history E L params (h ++ [CheckMember j k]) Hh) as [H|H]; [|left|right; exact H].
  { apply Forall_app; split; [exact Hs|]. constructor; [exact I|constructor]. }
  rewrite H, expectations_app in Hd. cbn [expectations] in Hd. rewrite last_last in Hd.
  destruct (backed_after h [] ledger_start backed_start) as (_ & _ & _ & HB). cbn [app] in HB.
  cbn [expected] in Hd. destruct (nth_error (lg_shown (ledger_after h ledger_start)) k) as [[[j' b] b']|] eqn:Ek; [|discriminate].
  destruct (negb _); [discriminate|]. cbn [snd] in Hd.
  destruct (Nat.eqb_spec j j') as [<-|_]; [|discriminate]. destruct (same_bytes b b') eqn:Hb; [|discriminate].
  apply same_bytes_eq in Hb. subst b'. destruct (HB j b b (nth_error_In _ _ Ek)) as ((r & os & H1) & r' & H2).
  exists b, r, os, r'. auto.
Qed.
Print Assumptions C89_member.

(** Two issuers.  Somebody registered with the first is sent a credential of the
    second, is refused, is sent one of the first, and presents it with the entry of
    somebody else and with their own. *)
Definition sample_history : list (event toy) :=
  [OpenIssuer (toy_stream 1); OpenIssuer (toy_stream 2);
   Register 0 (Some {| eg_secret := 4; eg_public := pt 4 |}) (str "14155551234");
   Enter (str "14155551234") (toy_stream 3); Enter (str "14155559999") (toy_stream 4);
   IssueTo 1 (str "14155551234") (toy_stream 5) (toy_stream 6); Deliver 0 0; Present 0 0 (toy_stream 7) (toy_stream 8);
   IssueTo 0 (str "14155551234") (toy_stream 9) (toy_stream 10); ReloadIssuance 1; Deliver 1 0; ReloadUser 0;
   Present 0 1 (toy_stream 11) (toy_stream 12); Present 0 0 (toy_stream 13) (toy_stream 14); ReloadPresentation 1;
   CheckPresentation 0 0; CheckMember 0 0; CheckMember 0 1; CheckMember 1 1; Register 1 None (str "0123456789012345678901234567")].
Example C89_met : sp_h sample_params <> pzero /\ Forall sound_event sample_history /\
  answers sample_params service_start sample_history = expectations ledger_start sample_history /\
  expectations ledger_start sample_history =
    [Done; Done; Done; Done; Done; Done; Failed CredentialIssuanceError; Failed MissingData; Done; Done; Done; Done;
     Done; Done; Done; Done; Failed VerificationFailure; Done; Failed MacVerification; Crashed].
Proof.
  split; [apply (peqb_false toy_laws); vm_compute; reflexivity|]. split; [|split; [vm_compute; reflexivity|reflexivity]].
  unfold sample_history. repeat (apply Forall_cons; [|]); try apply Forall_nil; try exact I.
  split; [split; [discriminate|reflexivity]|]. intros [H _]; discriminate H.
Qed.
