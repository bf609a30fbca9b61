(** A service among strangers (C95): signal-credential/src/issuer.rs, user.rs,
    phone_number.rs and credential.rs. *)
From Verif Require Import Toy Algebra IssueFacts ShowFacts SignalFacts SpecCodec SpecStrangers PropertiesCodec PropertiesHistory.
From Coq Require Import Lia Bool.

Lemma put_at {A} n (x y : A) l : nth_error l n = Some y -> nth_error (put n x l) n = Some x.
Proof. revert n; induction l as [|z l IH]; intros [|n] H; try discriminate; cbn in *; auto. Qed.
Lemma put_other {A} n n' (x : A) l : n' <> n -> nth_error (put n x l) n' = nth_error l n'.
Proof. revert n n'; induction l as [|z l IH]; intros [|n] [|n'] H; cbn; auto; congruence. Qed.
Lemma put_length {A} n (x : A) l : List.length (put n x l) = List.length l.
Proof. revert n; induction l as [|z l IH]; intros [|n]; cbn; auto. Qed.
Lemma put_put {A} n (x y : A) l : put n x (put n y l) = put n x l.
Proof. revert n; induction l as [|z l IH]; intros [|n]; cbn; auto. rewrite IH. reflexivity. Qed.

Lemma forall2_length {A B} (R : A -> B -> Prop) l l' : Forall2 R l l' -> List.length l = List.length l'.
Proof. induction 1; cbn; congruence. Qed.

Section strangers.
  Context {E : Ext} (L : ExtLaws E) (params : SystemParameters E).
  Hypothesis Hh : sp_h params <> pzero.

  Lemma repeats_rest (iss : CredentialIssuance E) b :
    repeats iss b = true -> exists rest, b = (issuance_to_bytes iss ++ rest)%list.
  Proof.
    unfold repeats. intros H. apply same_bytes_eq in H. exists (skipn (List.length (issuance_to_bytes iss)) b).
    rewrite <- H at 1. symmetry. apply firstn_skipn.
  Qed.
  Lemma copied_nth l b k : copied l b = Some k -> exists iss : CredentialIssuance E,
    nth_error l k = Some iss /\ exists rest, b = (issuance_to_bytes iss ++ rest)%list.
  Proof.
    revert k; induction l as [|iss l IH]; intros k H; [discriminate|]. cbn [copied] in H.
    destruct (repeats iss b) eqn:Hr.
    - injection H as <-. exists iss. split; [reflexivity|apply repeats_rest, Hr].
    - destruct (copied l b) as [k'|]; [|discriminate]. injection H as <-. destruct (IH k' eq_refl) as (iss' & H1 & H2).
      exists iss'. auto.
  Qed.

  (** What is passed on is as good as what is delivered. *)
  Lemma copy_delivers s l n b k : agree params s l -> copied (sv_issuances s) b = Some k ->
    open_step params s (SendIssuance n b) = step params s (Deliver k n).
  Proof.
    intros (_ & _ & _ & H4 & _) Hk. apply copied_nth in Hk as (iss & Hk & Hb).
    pose proof (forall2_nth _ _ _ k H4) as Hi. rewrite Hk in Hi.
    destruct (nth_error (lg_issuances l) k) as [a|]; [|contradiction]. destruct Hi as (i & _ & _ & Hw & _).
    assert (Hd : issuance_from_bytes b = Ok iss) by (apply (C34_trailing_refuted E L b); auto).
    cbn [open_step step]. rewrite Hd, Hk. reflexivity.
  Qed.

  (** A credential that is refused leaves no trace. *)
  Lemma finish_same (u : SignalUser E) iss : snd (signal_obtain_finish u (Some iss)) <> Ok tt ->
    fst (signal_obtain_finish u (Some iss)) = u.
  Proof.
    unfold signal_obtain_finish. rewrite obtain_finish_result. destruct (snd (obtain_finish _ _)) as [[]|e|]; cbn [fst snd].
    - congruence.
    - destruct u; reflexivity.
    - destruct u; reflexivity.
  Qed.
  Lemma refused_same s n b : snd (open_step params s (SendIssuance n b)) <> Done ->
    fst (open_step params s (SendIssuance n b)) = s.
  Proof.
    cbn [open_step]. destruct (nth_error (sv_users s) n) as [u|] eqn:En; [|reflexivity].
    destruct (issuance_from_bytes b) as [iss|e|]; [|reflexivity|reflexivity].
    pose proof (finish_same u iss) as Hu. destruct (signal_obtain_finish u (Some iss)) as [u' o]. cbn [fst snd] in *.
    intros Hd. assert (Ho : o <> Ok tt) by (intros ->; apply Hd; reflexivity). rewrite (Hu Ho), (put_same n u _ En).
    destruct s; reflexivity.
  Qed.

  Lemma others_same s x : match x with Own _ | SendIssuance _ _ => False | _ => True end ->
    fst (open_step params s x) = s.
  Proof.
    destruct x as [e|n b|n b r os|j b|j b]; intros []; cbn [open_step].
    - destruct (nth_error _ _); [|reflexivity]. destruct (roster_from_bytes b); reflexivity.
    - destruct (nth_error _ _); reflexivity.
    - destruct (nth_error _ _); reflexivity.
  Qed.

  Lemma answer_done (a : answer) : a = Done \/ a <> Done.
  Proof. destruct a; (left; reflexivity) || (right; discriminate). Qed.
  Lemma open_run_good h : forall s l, Forall sound_open h -> agree params s l -> no_forgery params s h ->
    own_answers params s h = expectations l (own_events params s h) \/ some_mishap params l s (own_events params s h).
  Proof.
    induction h as [|x h IH]; intros s l Hs HA Hf; [left; reflexivity|]. inversion Hs as [|? ? Hx Hs']; subst.
    cbn [no_forgery own_answers own_events] in *. destruct Hf as [Hf Hf'].
    assert (Hown : forall e, sound_event e -> own_part s x = [e] -> open_step params s x = step params s e ->
      ((if own_part s x then [] else [snd (open_step params s x)]) ++ own_answers params (fst (open_step params s x)) h)%list =
      expectations l (own_part s x ++ own_events params (fst (open_step params s x)) h) \/
      some_mishap params l s (own_part s x ++ own_events params (fst (open_step params s x)) h)).
    { intros e He -> Hst. rewrite Hst in *. cbn [app expectations some_mishap].
      destruct (step_good L params Hh s l e He HA) as [[Ha Hn]|Hm]; [|right; left; exact Hm].
      destruct (IH _ _ Hs' Hn Hf') as [Hr|Hr]; [left; rewrite Ha, Hr; reflexivity|right; right; exact Hr]. }
    assert (Hnone : own_part s x = [] -> fst (open_step params s x) = s ->
      ((if own_part s x then [] else [snd (open_step params s x)]) ++ own_answers params (fst (open_step params s x)) h)%list =
      expectations l (own_part s x ++ own_events params (fst (open_step params s x)) h) \/
      some_mishap params l s (own_part s x ++ own_events params (fst (open_step params s x)) h)).
    { intros -> Hst. rewrite Hst in *. cbn [app]. exact (IH _ _ Hs' HA Hf'). }
    destruct x as [e|n b|n b r os|j b|j b].
    - exact (Hown e Hx eq_refl eq_refl).
    - destruct (copied (sv_issuances s) b) as [k|] eqn:Hk.
      + apply (Hown (Deliver k n)); [exact I|cbn [own_part]; rewrite Hk; reflexivity|]. exact (copy_delivers s l n b k HA Hk).
      + apply Hnone; [cbn [own_part]; rewrite Hk; reflexivity|].
        destruct (answer_done (snd (open_step params s (SendIssuance n b)))) as [Hd|Hd]; [elim (Hf Hd); reflexivity|].
        exact (refused_same s n b Hd).
    - apply Hnone; [reflexivity|apply others_same; exact I].
    - apply Hnone; [reflexivity|apply others_same; exact I].
    - apply Hnone; [reflexivity|apply others_same; exact I].
  Qed.

  Lemma after_good h : forall s l, Forall sound_event h -> agree params s l -> ~ some_mishap params l s h ->
    agree params (service_after params h s) (expected_after h l).
  Proof.
    induction h as [|e h IH]; intros s l Hs HA Hm; [exact HA|]. inversion Hs as [|? ? He Hs']; subst.
    cbn [some_mishap] in Hm. cbn [service_after expected_after fold_left].
    destruct (step_good L params Hh s l e He HA) as [[_ Hn]|Hm']; [|elim Hm; left; exact Hm'].
    apply IH; [exact Hs'|exact Hn|tauto].
  Qed.

  (** For the examples. *)
  Lemma unrefused_no_mishap h : forall s l, Forall sound_event h -> agree params s l ->
    (forall a, In a (expectations l h) -> ~ refusal a) -> ~ some_mishap params l s h.
  Proof.
    induction h as [|e h IH]; intros s l Hs HA Hr; [exact (fun H => H)|]. inversion Hs as [|? ? He Hs']; subst.
    cbn [expectations some_mishap] in *.
    assert (Hm : ~ mishap params l s e).
    { intros Hm. elim (Hr (snd (expected l e))); [left; reflexivity|]. exact (mishap_refused params s l e HA Hm). }
    intros [H|H]; [exact (Hm H)|]. destruct (step_good L params Hh s l e He HA) as [[_ Hn]|H']; [|exact (Hm H')].
    revert H. apply IH; [exact Hs'|exact Hn|]. intros a Ha. apply Hr. right; exact Ha.
  Qed.
  Fixpoint no_forgery_b (s : service E) (h : list (open_event E)) : bool :=
    match h with
    | [] => true
    | x :: h' =>
      match x with
      | SendIssuance n b => match snd (open_step params s x) with Done => if copied (sv_issuances s) b then true else false | _ => true end
      | _ => true
      end && no_forgery_b (fst (open_step params s x)) h'
    end.
  Lemma no_forgery_true h : forall s, no_forgery_b s h = true -> no_forgery params s h.
  Proof.
    induction h as [|x h IH]; intros s H; [exact I|]. cbn [no_forgery no_forgery_b] in *. apply andb_true_iff in H as [H H'].
    split; [|exact (IH _ H')]. destruct x as [e|n b|n b r os|j b|j b]; try exact I.
    destruct (snd _); try discriminate. intros _. destruct (copied _ b); discriminate.
  Qed.
End strangers.

(** ** C95 *)
(** As long as no user takes what no issuer made, nobody else's messages show in
    the answers that the service gives to its own. *)
Theorem C95_undisturbed : forall E, ExtLaws E -> forall (params : SystemParameters E) h,
  sp_h params <> pzero -> Forall sound_open h -> no_forgery params service_start h ->
  own_answers params service_start h = expectations ledger_start (own_events params service_start h) \/
  some_mishap params ledger_start service_start (own_events params service_start h).
Proof. intros E L params h Hh Hs Hf. apply (open_run_good L params Hh h); [exact Hs|apply agree_start|exact Hf]. Qed.
Print Assumptions C95_undisturbed.

(** Whatever a stranger sends, nothing changes but the credential of the user it
    was sent to, *)
Theorem C95_reach : forall E (params : SystemParameters E) s n b s' a,
  open_step params s (SendIssuance n b) = (s', a) ->
  sv_issuers s' = sv_issuers s /\ sv_issuances s' = sv_issuances s /\ sv_entries s' = sv_entries s /\ sv_shown s' = sv_shown s /\
  List.length (sv_users s') = List.length (sv_users s) /\
  (forall n', n' <> n -> nth_error (sv_users s') n' = nth_error (sv_users s) n') /\
  (forall u u', nth_error (sv_users s) n = Some u -> nth_error (sv_users s') n = Some u' ->
     su_phone_number u' = su_phone_number u /\ us_key (su_user u') = us_key (su_user u) /\
     us_system_parameters (su_user u') = us_system_parameters (su_user u) /\
     us_issuer_parameters (su_user u') = us_issuer_parameters (su_user u) /\
     (a <> Done -> u' = u)).
Proof.
  intros E params s n b s' a H.
  destruct (answer_done a) as [Hd|Hd].
  2:{ pose proof (refused_same params s n b) as Hs. rewrite H in Hs. cbn [fst snd] in Hs. specialize (Hs Hd). subst s'.
      repeat (split; [reflexivity|]). intros u u' Hu Hu'. assert (u' = u) by congruence. subst u'. auto. }
  cbn [open_step] in H. destruct (nth_error (sv_users s) n) as [u|] eqn:En; [|injection H as <- <-; discriminate].
  destruct (issuance_from_bytes b) as [iss|e|]; [|injection H as <- <-; discriminate|injection H as <- <-; discriminate].
  unfold signal_obtain_finish in H. rewrite obtain_finish_result in H.
  destruct (snd (obtain_finish _ _)) as [[]|e|]; injection H as <- <-; try discriminate.
  unfold with_users; cbn [sv_issuers sv_users sv_issuances sv_entries sv_shown].
  repeat (split; [reflexivity|]). split; [apply put_length|]. split; [intros n' Hn; apply put_other; exact Hn|].
  intros u0 u' Hu Hu'. rewrite (put_at n _ _ _ En) in Hu'. injection Hu as <-. injection Hu' as <-.
  cbn [su_phone_number su_user us_key us_system_parameters us_issuer_parameters]. repeat (split; [reflexivity|]). congruence.
Qed.
Print Assumptions C95_reach.

(** and that only until the next credential that an issuer sends is delivered;
    the other messages change nothing at all. *)
Theorem C95_recovers : forall E (params : SystemParameters E) s n b k,
  snd (step params s (Deliver k n)) = Done ->
  step params (fst (open_step params s (SendIssuance n b))) (Deliver k n) = step params s (Deliver k n).
Proof.
  intros E params s n b k. cbn [open_step step].
  destruct (nth_error (sv_users s) n) as [u|] eqn:En; [|cbn [fst]; rewrite En; reflexivity].
  destruct (issuance_from_bytes b) as [iss|e|]; [|cbn [fst]; rewrite En; reflexivity|cbn [fst]; rewrite En; reflexivity].
  destruct (signal_obtain_finish u (Some iss)) as [u' o] eqn:Hu. unfold with_users.
  cbn [fst sv_issuers sv_users sv_issuances sv_entries sv_shown].
  destruct (nth_error (sv_issuances s) k) as [iss'|]; [|intros H; discriminate].
  rewrite (put_at n _ _ _ En).
  assert (Hs : snd (signal_obtain_finish u (Some iss')) = Ok tt -> signal_obtain_finish u' (Some iss') = signal_obtain_finish u (Some iss')).
  { unfold signal_obtain_finish in *. rewrite obtain_finish_result in Hu.
    assert (Huu : us_system_parameters (su_user u') = us_system_parameters (su_user u) /\
                  us_issuer_parameters (su_user u') = us_issuer_parameters (su_user u) /\
                  us_key (su_user u') = us_key (su_user u) /\ su_phone_number u' = su_phone_number u).
    { destruct (snd (obtain_finish (su_user u) (Some iss))) as [[]|e|]; injection Hu as <- <-; auto. }
    destruct Huu as (H1 & H2 & H3 & H4).
    assert (Hr : snd (obtain_finish (su_user u') (Some iss')) = snd (obtain_finish (su_user u) (Some iss'))).
    { unfold obtain_finish. rewrite H1, H2. destruct (nth_error _ 0); [|reflexivity]. destruct (ir_verify _ _ _); reflexivity. }
    rewrite (obtain_finish_result (su_user u')), Hr, (obtain_finish_result (su_user u)).
    destruct (snd (obtain_finish (su_user u) (Some iss'))) as [[]|e|]; cbn [snd]; try discriminate.
    intros _. rewrite H1, H2, H3, H4. reflexivity. }
  destruct (signal_obtain_finish u (Some iss')) as [u2 o2]. cbn [snd] in *. intros Hd.
  assert (Ho : o2 = Ok tt) by (destruct o2 as [[]| |]; [reflexivity|discriminate|discriminate]).
  rewrite (Hs Ho). rewrite put_put. reflexivity.
Qed.
Print Assumptions C95_recovers.
Theorem C95_read_only : forall E (params : SystemParameters E) s,
  (forall n b r os, fst (open_step params s (SendEntry n b r os)) = s) /\
  (forall j b, fst (open_step params s (SendPresentation j b)) = s) /\
  (forall j b, fst (open_step params s (SendMember j b)) = s).
Proof. intros E params s. split; [|split]; intros; apply others_same; exact I. Qed.
Print Assumptions C95_read_only.

(** But a user does take what no issuer made: whoever carries a credential can put
    any other attribute into it.  The user stores it in place of the one they had,
    presents it, and is refused by their issuer. *)
Theorem C95_lost_refuted : forall E, ExtLaws E -> forall (params : SystemParameters E) h,
  sp_h params <> pzero -> Forall sound_event h -> ~ some_mishap params ledger_start service_start h ->
  let s := service_after params h service_start in
  let l := expected_after h ledger_start in
  forall j k n e number held i x1 iss entry m r os,
  nth_error (lg_issuances l) k = Some (j, number) -> nth_error (lg_users l) n = Some (j, held) ->
  nth_error (sv_issuers s) j = Some i -> sk_xn (kp_secret (iss_keypair i)) = [x1] -> x1 mod ell <> 0 ->
  nth_error (sv_issuances s) k = Some iss -> nth_error (sv_entries s) e = Some entry ->
  canonical m -> cr_attributes (is_credential iss) <> [m] ->
  let events := [Present n e r os; CheckPresentation j (List.length (sv_shown s))] in
  let b := issuance_to_bytes (with_attribute iss m) in
  let c := is_credential (with_attribute iss m) in
  let z0 := fst (scalar_random r) in
  let cs := @show_csprng E (snd (scalar_random r)) in
  let rr := fst (scalar_random cs) in
  let zQ := fst (scalar_random (snd (scalar_random cs))) in
  let X1 := smul x1 (sp_h params) in
  (held <> None -> answers params s events = [Done; Done]) /\
  exists rand,
    let p := shown params X1 c m z0 rr zQ rand in
    let q' := shown_publics params X1 c m z0 rr zQ in
    let q := presentation_publics params X1 (sk_x0 (kp_secret (iss_keypair i))) x1
               (pr_rerandomized_nonce p) (pr_rerandomized_mac_commitment p) (vcp_Cm0 q') in
    open_answers params s (SendIssuance n b :: map Own events) = [Done; Done; Failed MacVerification] \/
    pr_rerandomized_nonce p = pzero \/ vc_challenge (pr_proof p) = 0 \/
    @challenge_collision E (extend show_transcript (vc_messages q' (vc_image q' rand)))
      (extend show_transcript (vc_messages q (vc_recompute (pr_proof p) q))).
Proof.
  intros E L params h Hh Hs Hm s l j k n e number held i x1 iss entry m r os Hlk Hln Hi Hx Hx0 Hk He Hcm Hne events b c z0 cs rr zQ X1.
  pose proof (after_good L params Hh h _ _ Hs (agree_start params) Hm) as HA. fold s l in HA.
  pose proof HA as (H1 & H2 & H3 & H4 & H5 & H6).
  pose proof (forall2_length _ _ _ H6) as Hlen.
  pose proof (forall2_nth _ _ _ k H4) as Hki. rewrite Hk, Hlk in Hki. destruct Hki as (i1 & Hi1 & (m0 & Hm0 & Hv) & Hw & Hacc).
  cbn [fst snd] in Hi1, Hm0. assert (i1 = i) by congruence. subst i1. clear Hi1.
  pose proof (forall2_nth _ _ _ n H3) as Hu. rewrite Hln in Hu.
  destruct (nth_error (sv_users s) n) as [u|] eqn:En; [|contradiction]. destruct Hu as (i1 & Hi1 & Hu & Hwu & Hb & Hheld).
  cbn [fst snd] in Hi1, Hheld. assert (i1 = i) by congruence. subst i1. clear Hi1.
  pose proof (forall2_nth _ _ _ e H5) as Hent. rewrite He in Hent.
  destruct (nth_error (lg_entries l) e) as [enumber|] eqn:Ee; [|contradiction].
  pose proof (issuer_at params _ j H2) as Hj. rewrite Hi in Hj. destruct Hj as [Hjl (Hp & Hcon & Hsg & Hwi)].
  assert (HX : pk_Xn (kp_public (iss_keypair i)) = [X1]) by (unfold X1; rewrite <- Hp; apply consistent_single; assumption).
  split.
  { intros Hhd. destruct held as [held|]; [|congruence].
    assert (Hexp : expectations l events = [Done; Done]).
    { unfold events. cbn [expectations expected]. rewrite Hln, Ee. cbn [fst snd lg_shown lg_issuers].
      rewrite Hlen, nth_error_app2, Nat.sub_diag by lia. cbn [nth_error].
      replace (j <? lg_issuers l)%nat with true by (symmetry; apply Nat.ltb_lt; lia). cbn [negb snd fst].
      rewrite Nat.eqb_refl. reflexivity. }
    rewrite <- Hexp. apply (run_unrefused L params Hh); [repeat constructor|exact HA|].
    rewrite Hexp. intros a [<-|[<-|[]]] [H|[H|H]]; discriminate. }
  assert (Hwf : wf_issuance (with_attribute iss m)).
  { destruct Hw as (_ & Hw2). split; [|exact Hw2]. exists m. split; [exact Hcm|reflexivity]. }
  assert (Hd : issuance_from_bytes b = Ok (with_attribute iss m)) by (apply (C33_issuance E L); exact Hwf).
  assert (Hok : snd (obtain_finish (su_user u) (Some (with_attribute iss m))) = Ok tt).
  { rewrite <- (Hacc _ Hu). exact (proj1 (C12_attributes_ignored_refuted E L (su_user u) iss [m])). }
  set (u' := {| su_phone_number := su_phone_number u;
                su_user := {| us_system_parameters := us_system_parameters (su_user u);
                              us_issuer_parameters := us_issuer_parameters (su_user u);
                              us_key := us_key (su_user u); us_credential := Some c |} |}).
  assert (Hfin : signal_obtain_finish u (Some (with_attribute iss m)) = (u', Ok tt)).
  { unfold signal_obtain_finish. rewrite (obtain_finish_accept _ _ Hok). reflexivity. }
  destruct Hu as [Hu1 Hu2].
  destruct (signal_show_ok u' c m [] X1 [] entry r os) as (rand & rand' & Hsh); [reflexivity|reflexivity|cbn [u' su_user us_issuer_parameters]; rewrite Hu2; exact HX|].
  cbv zeta in Hsh. destruct Hsh as (r' & os' & Hsh). cbn [u' su_user us_system_parameters] in Hsh. fold u' in Hsh.
  rewrite Hu1, Hp in Hsh. fold z0 cs in Hsh. fold rr zQ in Hsh.
  exists rand. intros p q' q. fold p in Hsh.
  destruct (peqb (pr_rerandomized_nonce p) pzero) eqn:Hz; [right; left; apply (peqb_true L); exact Hz|].
  apply (peqb_false L) in Hz.
  assert (Hver : issuer_verify i p = Ok {| vf_presentation := p |} \/ issuer_verify i p = Err MacVerification).
  { rewrite (issuer_verify_ok1 i p X1 [] x1 (vcp_Cm0 q') HX Hx eq_refl eq_refl).
    match goal with |- context [vc_verify ?a ?b ?c] => pose proof (vc_verify_no_panic a b c); destruct (vc_verify a b c) end;
      [left; reflexivity|right; reflexivity|congruence]. }
  destruct Hver as [Hver|Hver].
  - right; right. assert (Hver' := Hver). unfold p, X1 in Hver'. rewrite <- Hp in Hver'.
    destruct (shown_rejected L i c x1 m z0 rr zQ rand Hcon Hx Hver') as [He'|[H0|Hcol]]; clear Hver'.
    + exfalso. destruct Hv as [Ha [_ Hq]].
      assert (He2 : mac_equation (kp_secret (iss_keypair i)) [m] (cr_mac c)).
      { apply (apply_to_tag_equation_iff L rr); [|exact He']. intros Hrr. apply Hz. cbn [p shown pr_rerandomized_nonce].
        rewrite (smul_eqm L _ _ _ Hrr). reflexivity. }
      destruct He2 as [_ Hq']. cbn [c with_attribute is_credential cr_mac] in Hq'. rewrite Hx in Hq, Hq'. cbn [dot] in Hq, Hq'.
      rewrite Hq in Hq'.
      assert (Hn0 : tag_nonce (cr_mac (is_credential iss)) <> pzero).
      { intros H0. apply Hz. cbn [p shown pr_rerandomized_nonce c with_attribute is_credential cr_mac]. rewrite H0. apply (smul_pzero L). }
      apply (smul_inj L) in Hq'; [|exact Hn0]. apply Hne. rewrite Ha. f_equal.
      assert (Hc0 : canonical m0) by (pose proof (number_cases number) as Hnc; rewrite Hm0 in Hnc; apply Hnc).
      enough (Hmm : m0 mod ell = m mod ell) by (unfold canonical in *; rewrite !Z.mod_small in Hmm by assumption; exact Hmm).
      apply (eqm_mul_cancel m0 m x1).
      { intros K. apply Hx0. unfold Algebra.eqm in K. rewrite K. apply Z.mod_0_l. pose proof ell_pos; lia. }
      apply eqm_sub_0 in Hq'. apply eqm_sub_0. rewrite <- Hq'. apply eqm_of_eq; zring.
    + left. rewrite Hp in H0. exact H0.
    + right. rewrite Hp in Hcol. exact Hcol.
  - left. unfold events. cbn [map open_answers]. cbn [open_step]. rewrite En, Hd, Hfin. cbn [fst snd answer_of].
    cbn [step]. unfold with_users. cbn [sv_issuers sv_users sv_issuances sv_entries sv_shown].
    rewrite (put_at n _ _ _ En), He, Hsh. cbn [u' su_user us_credential fst snd answer_of].
    unfold with_shown. cbn [sv_issuers sv_users sv_issuances sv_entries sv_shown].
    rewrite Hi, nth_error_app2, Nat.sub_diag by lia. cbn [nth_error sh_presentation snd].
    unfold signal_verify. cbn [sc_presentation]. rewrite Hver. reflexivity.
Qed.
Print Assumptions C95_lost_refuted.

(** Strangers send noise, replay a credential and a presentation, and the service
    works; then one changes the number in a credential, and the user loses theirs. *)
Definition sample_before : list (event toy) :=
  [OpenIssuer (toy_stream 1); Register 0 None (str "14155551234"); Enter (str "14155551234") (toy_stream 3);
   IssueTo 0 (str "14155551234") (toy_stream 9) (toy_stream 10); Deliver 0 0].
Definition sample_mail (m : option Z) : bytes :=
  match nth_error (sv_issuances (service_after sample_params sample_before service_start)) 0 with
  | Some iss => issuance_to_bytes (match m with Some m => with_attribute iss m | None => iss end)
  | None => []
  end.
Definition sample_open : list (open_event toy) :=
  (SendMember 0 [Byte.x00] :: map Own (firstn 4 sample_before) ++
   [SendIssuance 0 (str "noise"); SendIssuance 0 (sample_mail None ++ str "more"); SendEntry 0 (repeat Byte.x00 64) (toy_stream 7) (toy_stream 8);
    SendPresentation 0 (repeat Byte.x00 64); SendIssuance 3 (sample_mail None);
    Own (Present 0 0 (toy_stream 13) (toy_stream 14)); Own (CheckMember 0 0)])%list.
Example C95_met : sp_h sample_params <> pzero /\ Forall sound_open sample_open /\ no_forgery sample_params service_start sample_open /\
  own_answers sample_params service_start sample_open = [Done; Done; Done; Done; Done; Nobody; Done; Done] /\
  expectations ledger_start (own_events sample_params service_start sample_open) = [Done; Done; Done; Done; Done; Nobody; Done; Done].
Proof.
  split; [apply (peqb_false toy_laws); vm_compute; reflexivity|].
  split; [unfold sample_open; repeat (apply Forall_cons; [exact I|]); apply Forall_nil|].
  split; [apply no_forgery_true; vm_compute; reflexivity|]. split; vm_compute; reflexivity.
Qed.
Example C95_met_lost : Forall sound_event sample_before /\ ~ some_mishap sample_params ledger_start service_start sample_before /\
  open_answers sample_params (service_after sample_params sample_before service_start)
    [SendIssuance 0 (sample_mail (Some 7)); Own (Present 0 0 (toy_stream 13) (toy_stream 14)); Own (CheckPresentation 0 0)] =
  [Done; Done; Failed MacVerification] /\
  answers sample_params (service_after sample_params sample_before service_start)
    [Present 0 0 (toy_stream 13) (toy_stream 14); CheckPresentation 0 0] = [Done; Done] /\
  nth_error (lg_issuances (expected_after sample_before ledger_start)) 0 = Some (0%nat, str "14155551234") /\
  nth_error (lg_users (expected_after sample_before ledger_start)) 0 = Some (0%nat, Some (str "14155551234")).
Proof.
  assert (Hs : Forall sound_event sample_before) by (repeat (apply Forall_cons; [exact I|]); apply Forall_nil).
  split; [exact Hs|]. split.
  { apply (unrefused_no_mishap toy_laws sample_params); [apply (peqb_false toy_laws); vm_compute; reflexivity|exact Hs|apply agree_start|].
    cbn. intros a H [K|[K|K]]; subst a; repeat (destruct H as [H|H]; [discriminate|]); exact H. }
  split; [vm_compute; reflexivity|]. split; [vm_compute; reflexivity|]. split; reflexivity.
Qed.
