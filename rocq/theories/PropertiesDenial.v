(** What a presentation proves, and to whom (C97): signal-credential/src/issuer.rs
    and user.rs, aeonflux/src/issuer.rs and user.rs. *)
From Verif Require Import Toy Algebra IssueFacts ShowFacts SignalFacts CompositeFacts CreatedFacts SpecCodec SpecDenial PropertiesCodec
  PropertiesAnonymity PropertiesHistory PropertiesStrangers.
From Coq Require Import Lia Bool.

(** ** An issuer takes a presentation again *)
Section replay.
  Context {E : Ext} (L : ExtLaws E) (params : SystemParameters E).

  Definition single_user (u : SignalUser E) : Prop := List.length (pk_Xn (us_issuer_parameters (su_user u))) = 1%nat.
  Definition steady (s : service E) : Prop :=
    Forall (issuer_ok params) (sv_issuers s) /\ Forall single_user (sv_users s) /\
    Forall (fun x : showing => wf_signal_presentation (sh_presentation x)) (sv_shown s).

  Lemma forall_put {A} (P : A -> Prop) n x l : Forall P l -> P x -> Forall P (put n x l).
  Proof.
    intros Hl Hx; revert n; induction Hl as [|y l Hy Hl IH]; intros [|n]; cbn; constructor; auto.
  Qed.
  Lemma forall_at {A} (P : A -> Prop) l n x : Forall P l -> nth_error l n = Some x -> P x.
  Proof. intros H Hn. rewrite Forall_forall in H. apply H. eapply nth_error_In, Hn. Qed.
  Lemma forall_snoc {A} (P : A -> Prop) l x : Forall P l -> P x -> Forall P (l ++ [x])%list.
  Proof. intros H Hx. apply Forall_app. split; [exact H|constructor; [exact Hx|constructor]]. Qed.

  Lemma finish_single u iss : single_user u -> single_user (fst (signal_obtain_finish u (Some iss))).
  Proof.
    unfold single_user, signal_obtain_finish. rewrite obtain_finish_result.
    destruct (snd (obtain_finish _ _)) as [[]|e|]; cbn; auto.
  Qed.
  Lemma issuer_public i : issuer_ok params i -> List.length (pk_Xn (kp_public (iss_keypair i))) = 1%nat.
  Proof.
    intros (_ & Hc & Hs & _). destruct (single_cons i Hs) as [x1 Hx]. rewrite (consistent_single i x1 Hc Hx). reflexivity.
  Qed.

  (** Whatever happens, the issuers stay as they are and what is shown can be read. *)
  Definition kept (s s' : service E) : Prop := (exists more, sv_issuers s' = (sv_issuers s ++ more)%list) /\ steady s'.
  Lemma kept_same s s' : sv_issuers s' = sv_issuers s -> steady s' -> kept s s'.
  Proof. intros H Hs. split; [exists []; rewrite app_nil_r; exact H|exact Hs]. Qed.

  Lemma step_kept s e : steady s -> kept s (fst (step params s e)).
  Proof.
    intros Hst. pose proof Hst as (Hi & Hu & Hp).
    destruct e as [r|j key number|j number r os|k n|number r|k number|n k r os|j k|j k|j|n|k|k|k]; cbn [step].
    - split; [eexists; reflexivity|]. cbn [fst]. unfold steady, with_issuers; cbn [sv_issuers sv_users sv_shown].
      split; [apply forall_snoc; [exact Hi|apply (new_issuer L)]|]. split; [exact Hu|exact Hp].
    - destruct (nth_error (sv_issuers s) j) as [i|] eqn:Hj; [|apply kept_same; [reflexivity|exact Hst]].
      destruct (signal_user_new _ _ _ _) as [u| |] eqn:Hn; cbn [fst]; (apply kept_same; [reflexivity|]); try exact Hst.
      unfold steady, with_users; cbn [sv_issuers sv_users sv_shown]. split; [exact Hi|]. split; [|exact Hp].
      apply forall_snoc; [exact Hu|]. unfold signal_user_new in Hn.
      apply bind_ok in Hn as (n & _ & Hn).
      assert (K : forall a b : SignalUser E, @Ok CredentialError _ a = Ok b -> a = b) by congruence. apply K in Hn as <-.
      unfold single_user; cbn. apply issuer_public. exact (forall_at _ _ _ _ Hi Hj).
    - destruct (nth_error (sv_issuers s) j) as [i|] eqn:Hj; [|apply kept_same; [reflexivity|exact Hst]].
      destruct (signal_issue _ _ _ _) as [[[iss r'] os']| |]; cbn [fst]; (apply kept_same; [reflexivity|exact Hst]).
    - destruct (nth_error (sv_issuances s) k) as [iss|]; [|apply kept_same; [reflexivity|exact Hst]].
      destruct (nth_error (sv_users s) n) as [u|] eqn:Hn; [|apply kept_same; [reflexivity|exact Hst]].
      pose proof (finish_single u iss (forall_at _ _ _ _ Hu Hn)) as Hf.
      destruct (signal_obtain_finish u (Some iss)) as [u' o]. cbn [fst] in *. apply kept_same; [reflexivity|].
      unfold steady, with_users; cbn [sv_issuers sv_users sv_shown]. split; [exact Hi|]. split; [|exact Hp]. apply forall_put; assumption.
    - destruct (roster_create _ _ _) as [[entry r']| |]; cbn [fst]; (apply kept_same; [reflexivity|exact Hst]).
    - destruct (nth_error (sv_entries s) k); (apply kept_same; [reflexivity|exact Hst]).
    - destruct (nth_error (sv_users s) n) as [u|] eqn:Hn; [|apply kept_same; [reflexivity|exact Hst]].
      destruct (nth_error (sv_entries s) k) as [entry|]; [|apply kept_same; [reflexivity|exact Hst]].
      destruct (signal_show u r os entry) as [[[p r'] os']| |] eqn:Hsh; cbn [fst]; try (apply kept_same; [reflexivity|exact Hst]).
      destruct (us_credential (su_user u)) as [c|]; [|apply kept_same; [reflexivity|exact Hst]].
      apply kept_same; [reflexivity|]. unfold steady, with_shown; cbn [sv_issuers sv_users sv_shown].
      split; [exact Hi|]. split; [exact Hu|]. apply forall_snoc; [exact Hp|]. cbn [sh_presentation].
      pose proof (forall_at _ _ _ _ Hu Hn) as H1. unfold single_user in H1.
      destruct (pk_Xn (us_issuer_parameters (su_user u))) as [|X0 [|]] eqn:HX; try discriminate.
      apply wf_signal_presentation_iff. exact (created_presentation L _ _ _ _ _ _ _ _ Hsh HX).
    - destruct (nth_error (sv_issuers s) j), (nth_error (sv_shown s) k); (apply kept_same; [reflexivity|exact Hst]).
    - destruct (nth_error (sv_issuers s) j), (nth_error (sv_shown s) k); (apply kept_same; [reflexivity|exact Hst]).
    - destruct (nth_error (sv_issuers s) j) as [i|] eqn:Hj; [|apply kept_same; [reflexivity|exact Hst]].
      destruct (forall_at _ _ _ _ Hi Hj) as (_ & _ & _ & Hw). apply (C33_issuer E L) in Hw.
      unfold signal_issuer_from_bytes, signal_issuer_to_bytes. rewrite Hw, (put_same j i _ Hj).
      apply kept_same; [reflexivity|destruct s; exact Hst].
    - destruct (nth_error (sv_users s) n) as [u|] eqn:Hn; [|apply kept_same; [reflexivity|exact Hst]].
      destruct (signal_user_from_bytes _) as [u'| |] eqn:Hd; cbn [fst]; (apply kept_same; [reflexivity|]); try exact Hst.
      unfold steady, with_users; cbn [sv_issuers sv_users sv_shown]. split; [exact Hi|]. split; [|exact Hp].
      apply forall_put; [exact Hu|]. apply (signal_user_iff L) in Hd as (_ & _ & _ & (H1 & _) & _). exact H1.
    - destruct (nth_error (sv_issuances s) k); [|apply kept_same; [reflexivity|exact Hst]].
      destruct (issuance_from_bytes _); cbn [fst]; (apply kept_same; [reflexivity|exact Hst]).
    - destruct (nth_error (sv_entries s) k); [|apply kept_same; [reflexivity|exact Hst]].
      destruct (roster_from_bytes _); cbn [fst]; (apply kept_same; [reflexivity|exact Hst]).
    - destruct (nth_error (sv_shown s) k) as [x|] eqn:Hx; [|apply kept_same; [reflexivity|exact Hst]].
      destruct (signal_presentation_from_bytes _) as [p| |] eqn:Hd; cbn [fst]; (apply kept_same; [reflexivity|]); try exact Hst.
      unfold steady, with_shown; cbn [sv_issuers sv_users sv_shown]. split; [exact Hi|]. split; [exact Hu|].
      apply forall_put; [exact Hp|]. cbn [sh_presentation]. apply wf_signal_presentation_iff.
      apply (signal_presentation_iff L) in Hd as [Hd _]. exact Hd.
  Qed.
  Lemma open_kept s x : steady s -> kept s (fst (open_step params s x)).
  Proof.
    intros Hst. destruct x as [e|n b|n b r os|j b|j b]; [apply step_kept; exact Hst| | | |].
    2-4: rewrite others_same by exact I; apply kept_same; [reflexivity|exact Hst].
    pose proof Hst as (Hi & Hu & Hp). cbn [open_step].
    destruct (nth_error (sv_users s) n) as [u|] eqn:Hn; [|apply kept_same; [reflexivity|exact Hst]].
    destruct (issuance_from_bytes b) as [iss| |]; [|apply kept_same; [reflexivity|exact Hst]..].
    pose proof (finish_single u iss (forall_at _ _ _ _ Hu Hn)) as Hf.
    destruct (signal_obtain_finish u (Some iss)) as [u' o]. cbn [fst] in *. apply kept_same; [reflexivity|].
    unfold steady, with_users; cbn [sv_issuers sv_users sv_shown]. split; [exact Hi|]. split; [|exact Hp]. apply forall_put; assumption.
  Qed.
  Lemma history_kept h : forall s, steady s -> kept s (open_after params h s).
  Proof.
    induction h as [|x h IH]; intros s Hs; [apply kept_same; [reflexivity|exact Hs]|]. cbn [open_after fold_left].
    destruct (open_kept s x Hs) as [[more Hm] Hs']. destruct (IH _ Hs') as [[more' Hm'] Hs''].
    split; [|exact Hs'']. exists (more ++ more')%list. rewrite app_assoc, <- Hm. exact Hm'.
  Qed.
  Lemma steady_start : steady service_start.
  Proof. split; [constructor|]. split; constructor. Qed.
  Lemma still_there s s' j i : kept s s' -> nth_error (sv_issuers s) j = Some i -> nth_error (sv_issuers s') j = Some i.
  Proof. intros [[more ->] _] H. rewrite nth_error_app1; [exact H|]. apply nth_error_Some. congruence. Qed.
End replay.

(** A presentation is not good for one time.  Whatever an issuer answered to bytes
    that somebody sent, it answers to whoever sends them at any later time; and so
    it does for everything that was ever shown. *)
Theorem C97_replay_refuted : forall E, ExtLaws E -> forall (params : SystemParameters E) h h',
  let s := open_after params h service_start in
  let s' := open_after params h' s in
  (forall j b a, snd (open_step params s (SendPresentation j b)) = a -> a <> Nobody ->
     snd (open_step params s' (SendPresentation j b)) = a) /\
  (forall j b a, snd (open_step params s (SendMember j b)) = a -> a <> Nobody ->
     snd (open_step params s' (SendMember j b)) = a) /\
  (forall j k x, nth_error (sv_shown s) k = Some x -> nth_error (sv_issuers s) j <> None ->
     let b := signal_presentation_to_bytes (sh_presentation x) in
     snd (open_step params s' (SendPresentation j b)) = snd (step params s (CheckPresentation j k)) /\
     snd (open_step params s' (SendMember j b)) = snd (step params s (CheckMember j k))).
Proof.
  intros E L params h h' s s'.
  destruct (history_kept L params h service_start (steady_start params)) as [_ Hs]. fold s in Hs.
  pose proof (history_kept L params h' s Hs) as Hk. fold s' in Hk. clearbody s s'.
  assert (Hsame : forall j, nth_error (sv_issuers s) j <> None -> nth_error (sv_issuers s') j = nth_error (sv_issuers s) j).
  { intros j Hj. destruct (nth_error (sv_issuers s) j) as [i|] eqn:Hi; [|congruence]. exact (still_there _ _ _ _ _ Hk Hi). }
  split; [|split].
  - intros j b a <- Ha. cbn [open_step] in *.
    destruct (nth_error (sv_issuers s) j) as [i|] eqn:Hi; [|contradiction Ha; reflexivity].
    rewrite Hsame, Hi by congruence. reflexivity.
  - intros j b a <- Ha. cbn [open_step] in *.
    destruct (nth_error (sv_issuers s) j) as [i|] eqn:Hi; [|contradiction Ha; reflexivity].
    rewrite Hsame, Hi by congruence. reflexivity.
  - intros j k x Hx Hj b. pose proof (forall_at _ _ _ _ (proj2 (proj2 Hs)) Hx) as Hw. cbn beta in Hw.
    apply (C33_signal_presentation E L) in Hw. fold b in Hw.
    cbn [open_step step]. rewrite (Hsame j Hj). destruct (nth_error (sv_issuers s) j) as [i|]; [|congruence].
    rewrite Hx, Hw. cbn [bind snd]. split; reflexivity.
Qed.
Print Assumptions C97_replay_refuted.

(** ** Without the key a presentation proves nothing *)
Section deny.
  Context {E : Ext} (L : ExtLaws E).

  Lemma issuer_of_known params x0 x1 : known_as params (smul x1 (sp_h params)) (@issuer_of E params x0 x1).
  Proof.
    split; [reflexivity|]. split; [reflexivity|]. split; [|reflexivity].
    unfold consistent, key_matches; cbn. constructor; [reflexivity|constructor].
  Qed.
  Lemma known_key params X1 (i : Issuer E) : known_as params X1 i ->
    exists x1, sk_xn (kp_secret (iss_keypair i)) = [x1] /\ X1 = smul x1 (sp_h params).
  Proof.
    intros (Hp & HX & Hc & Hs). destruct (single_cons i Hs) as [x1 Hx]. exists x1. split; [exact Hx|].
    pose proof (consistent_single i x1 Hc Hx) as K. rewrite HX, Hp in K. cbn in K. congruence.
  Qed.
  Lemma known_user params X1 (i : Issuer E) u : known_as params X1 i -> knows params X1 u -> user_of i u.
  Proof. intros (Hp & HX & _) [H1 H2]. split; congruence. Qed.

  (** What is made by [signal_show_with] from a valid credential is taken. *)
  Lemma shown_taken i (u : SignalUser E) c m entry z0 rr zQ rand rand' p :
    consistent i -> single_attribute i -> user_of i (su_user u) -> valid_credential i c m ->
    commits (iss_system_parameters i) entry m ->
    signal_show_with u c entry z0 rr zQ rand rand' = Ok p -> takes i p.
  Proof.
    intros Hc Hs [Hp1 Hk1] [Ha He] Hre Hsh. destruct (single_cons i Hs) as [x1 Hx].
    pose proof (consistent_single i x1 Hc Hx) as HX.
    assert (HX' : pk_Xn (us_issuer_parameters (su_user u)) = [smul x1 (sp_h (iss_system_parameters i))]) by (rewrite Hk1; exact HX).
    rewrite (signal_show_with_ok u c entry m [] _ [] z0 rr zQ rand rand' Ha HX'), Hp1 in Hsh. cbv zeta in Hsh.
    match type of Hsh with Ok ?x = _ => assert (Hpe : x = p) by congruence end. clear Hsh. subst p. split.
    - apply signal_verify_ok. cbn [sc_presentation]. apply (shown_verify L); assumption.
    - erewrite verify_roster_ok by reflexivity.
      cbn [sc_roster_membership_proof sc_presentation sc_roster_entry_commitment shown pr_rerandomized_nonce].
      rewrite (ce_complete L); [reflexivity|]. apply roster_relation. exact Hre.
  Qed.

  Lemma made_up_valid params x0 x1 m (c : Credential E) : cr_attributes c = [m] ->
    (valid_credential (issuer_of params x0 x1) c m <-> tag_mac (cr_mac c) = smul (x0 + x1 * m) (tag_nonce (cr_mac c))).
  Proof.
    intros Ha. unfold valid_credential, mac_equation, issuer_of; cbn [iss_keypair kp_secret sk_xn sk_x0 dot List.length].
    replace (x0 + (x1 * m + 0)) with (x0 + x1 * m) by lia. tauto.
  Qed.
  (** There is exactly one key with this public key under which a tag is right. *)
  Lemma one_key params X1 (c : Credential E) m :
    sp_h params <> pzero -> tag_nonce (cr_mac c) <> pzero -> cr_attributes c = [m] ->
    exists! k : scalar * scalar, canonical (fst k) /\ canonical (snd k) /\ X1 = smul (snd k) (sp_h params) /\
      valid_credential (issuer_of params (fst k) (snd k)) c m.
  Proof.
    intros Hh Hn Ha. destruct (unique_opening L (sp_h params) pzero X1 Hh) as (x1 & [H1 H2] & Hu).
    rewrite (padd_zero E L) in H2.
    destruct (unique_opening L (tag_nonce (cr_mac c)) (smul (x1 * m) (tag_nonce (cr_mac c))) (tag_mac (cr_mac c)) Hn) as (x0 & [H3 H4] & Hu').
    assert (Hsum : forall x0 x1 (P : point E), padd (smul (x1 * m) P) (smul x0 P) = smul (x0 + x1 * m) P) by (clear - L; intros; pring L).
    exists (x0, x1). cbn [fst snd]. split.
    - repeat (split; [assumption || (symmetry; assumption)|]). apply made_up_valid; [exact Ha|]. rewrite <- Hsum. symmetry; exact H4.
    - intros [y0 y1] (K1 & K2 & K3 & K4). cbn [fst snd] in *.
      assert (x1 = y1) by (apply Hu; split; [exact K2|rewrite (padd_zero E L); symmetry; exact K3]). subst y1. f_equal.
      apply Hu'. split; [exact K1|]. rewrite Hsum. symmetry. apply (made_up_valid params y0 x1 m c Ha). exact K4.
  Qed.
End deny.

(** Whoever takes any credential, issued or made up, presents it.  There is an
    issuer with the very same parameters and public key that takes the
    presentation, and the roster entry with it: without the secret key nobody can
    tell that it is not the right one. *)
Theorem C97_third_party : forall E, ExtLaws E ->
  forall (params : SystemParameters E) X1 (u : SignalUser E) c m,
  sp_h params <> pzero -> knows params X1 (su_user u) ->
  us_credential (su_user u) = Some c -> cr_attributes c = [m] -> tag_nonce (cr_mac c) <> pzero ->
  exists! k : scalar * scalar, let i := issuer_of params (fst k) (snd k) in
    canonical (fst k) /\ canonical (snd k) /\ known_as params X1 i /\ valid_credential i c m /\
    forall entry r os, commits params entry m ->
      exists p r' os', signal_show u r os entry = Ok (p, r', os') /\ sc_roster_entry_commitment p = re_commitment entry /\ takes i p.
Proof.
  intros E L params X1 u c m Hh Hk Hc Ha Hn.
  destruct (one_key L params X1 c m Hh Hn Ha) as ([x0 x1] & (H1 & H2 & H3 & H4) & Hu). cbn [fst snd] in *.
  pose proof (issuer_of_known params x0 x1) as Hi. rewrite <- H3 in Hi.
  exists (x0, x1). cbn [fst snd]. split.
  - repeat (split; [assumption|]). intros entry r os Hre. pose proof Hi as (_ & _ & Hcon & Hs).
    destruct (signal_presentation_accepted L (issuer_of params x0 x1) u c m r os entry Hcon Hs (known_user _ _ _ _ Hi Hk) Hc H4 Hre)
      as (p & r' & os' & Hsh & Hv & Hm).
    exists p, r', os'. split; [exact Hsh|]. rewrite (C66_entry_shown E L _ _ _ _ _ _ _ Hsh). split; [reflexivity|].
    split; [exact Hv|]. rewrite (C66_entry_shown E L _ _ _ _ _ _ _ Hsh). exact Hm.
  - intros [y0 y1] (K1 & K2 & (_ & K3 & _) & K4 & _). cbn [fst snd] in *. apply Hu. cbn [fst snd].
    repeat (split; [assumption|]). split; [|exact K4]. cbn in K3. congruence.
Qed.
Print Assumptions C97_third_party.

(** And what can be made up so is all there is: the presentations for which there
    is an issuer with this public key that takes them are those which somebody
    with nothing but the public key can make, for any number [m]. *)
Theorem C97_made_up : forall E, ExtLaws E ->
  forall (params : SystemParameters E) X1 (u : SignalUser E) m p C,
  sp_h params <> pzero -> sp_g params <> pzero -> knows params X1 (su_user u) ->
  pr_attributes_revealed (sc_presentation p) = [] -> pr_attributes_blinded (sc_presentation p) = [C] ->
  vc_canonical (vc_responses (pr_proof (sc_presentation p))) ->
  ce_canonical (ce_responses (sc_roster_membership_proof p)) ->
  ((exists i, known_as params X1 i /\ takes i p) <->
   exists Q entry z0 rr zQ rand rand', commits params entry m /\
     signal_show_with u (made_up m Q) entry z0 rr zQ rand rand' = Ok p).
Proof.
  intros E L params X1 u m p C Hh Hg Hk Hr Hb Hv Hc. split.
  - intros (i & Hi & [V1 V2]). destruct (known_key _ _ _ Hi) as (x1 & Hx & HX). pose proof Hi as (Hp & HXi & Hcon & Hs).
    set (Q := smul (sk_x0 (kp_secret (iss_keypair i)) + dot (sk_xn (kp_secret (iss_keypair i))) [m]) (@basepoint E)).
    assert (Hval : valid_credential i (made_up m Q) m).
    { split; [reflexivity|]. split; [rewrite Hx; reflexivity|reflexivity]. }
    rewrite <- Hp in Hh, Hg.
    destruct (C66_number_hidden E L i u (made_up m Q) m x1 p C Hcon Hx (known_user _ _ _ _ Hi Hk) Hh Hg Hval (basepoint_nonzero E L) V1) as (w & Hw & _).
    { rewrite V2. reflexivity. }
    { exact Hr. } { exact Hb. } { exact Hv. } { exact Hc. }
    destruct w as [[[[[o z0] rr] zQ] rand] rand']. destruct Hw as (K1 & _ & _ & _ & _ & _ & _ & K2).
    exists Q, {| re_commitment := sc_roster_entry_commitment p; re_opening := o |}, z0, rr, zQ, rand, rand'.
    split; [|exact K2]. unfold commits; cbn [re_commitment re_opening]. rewrite <- Hp. exact K1.
  - intros (Q & entry & z0 & rr & zQ & rand & rand' & Hre & Hsh).
    destruct (one_key L params X1 (made_up m Q) m Hh (basepoint_nonzero E L) eq_refl) as ([x0 x1] & (_ & _ & H3 & H4) & _). cbn [fst snd] in *.
    pose proof (issuer_of_known params x0 x1) as Hi. rewrite <- H3 in Hi. exists (issuer_of params x0 x1). split; [exact Hi|].
    pose proof Hi as (_ & _ & Hcon & Hs).
    exact (shown_taken L _ u _ m entry _ _ _ _ _ _ Hcon Hs (known_user _ _ _ _ Hi Hk) H4 Hre Hsh).
Qed.
Print Assumptions C97_made_up.

(** ** To the issuer a presentation proves nothing about who made it *)

(** The issuer takes a presentation for an entry made for a number.  With a
    credential that the issuer writes for this number, to whomever, and the opening
    of the entry, there is exactly one way to make that presentation. *)
Theorem C97_issuer_can : forall E, ExtLaws E ->
  forall (i : Issuer E) (u : SignalUser E) number entry p C iss r os r' os',
  consistent i -> single_attribute i -> user_of i (su_user u) ->
  sp_h (iss_system_parameters i) <> pzero -> sp_g (iss_system_parameters i) <> pzero ->
  roster_open entry number (iss_system_parameters i) = Ok tt -> canonical (re_opening entry) ->
  sc_roster_entry_commitment p = re_commitment entry -> takes i p ->
  pr_attributes_revealed (sc_presentation p) = [] -> pr_attributes_blinded (sc_presentation p) = [C] ->
  vc_canonical (vc_responses (pr_proof (sc_presentation p))) ->
  ce_canonical (ce_responses (sc_roster_membership_proof p)) ->
  signal_issue i number r os = Ok (iss, r', os') -> tag_nonce (cr_mac (is_credential iss)) <> pzero ->
  exists! w : scalar * scalar * scalar * vc_Scalars * ce_Scalars,
    let '(z0, rr, zQ, rand, rand') := w in
    canonical z0 /\ canonical rr /\ canonical zQ /\ vc_canonical rand /\ ce_canonical rand' /\
    signal_show_with u (is_credential iss) entry z0 rr zQ rand rand' = Ok p.
Proof.
  intros E L i u number entry p C iss r os r' os' Hcon Hs Hu Hh Hg Ho Hoc HR [V1 V2] Hr Hb Hv Hc Hiss Hn.
  destruct (single_cons i Hs) as [x1 Hx].
  unfold signal_issue in Hiss. apply bind_ok in Hiss as (n & Hnum & Hiss).
  assert (Hnum' : try_from_bytes number = Ok n) by (destruct (try_from_bytes number); cbn in Hnum; congruence). clear Hnum.
  destruct (C10_honest_issuance_accepted E L i (su_user u) n r os Hcon Hs Hu) as (iss1 & r1 & os1 & Hi1 & Hval & _).
  assert (Hiss' := eq_trans (eq_sym Hi1) Hiss). apply ok3 in Hiss' as [-> _]. clear Hiss.
  apply (C29_open_exactly E L entry number n _ Hnum') in Ho.
  destruct (C66_number_hidden E L i u (is_credential iss) n x1 p C Hcon Hx Hu Hh Hg Hval Hn V1) as (w & Hw & Huw).
  { rewrite V2. reflexivity. } { exact Hr. } { exact Hb. } { exact Hv. } { exact Hc. }
  destruct w as [[[[[o z0] rr] zQ] rand] rand']. destruct Hw as (K1 & K2 & K3 & K4 & K5 & K6 & K7 & K8).
  rewrite HR in K1, K8.
  destruct (unique_opening L (sp_g (iss_system_parameters i)) (smul n (sp_h (iss_system_parameters i))) (re_commitment entry) Hg)
    as (o' & _ & Huo).
  assert (o = re_opening entry).
  { rewrite <- (Huo o), <- (Huo (re_opening entry)); [reflexivity| |]; split; auto. }
  subst o. assert (He : {| re_commitment := re_commitment entry; re_opening := re_opening entry |} = entry) by (destruct entry; reflexivity).
  rewrite He in K8. exists (z0, rr, zQ, rand, rand'). split.
  - repeat (split; [assumption|]). exact K8.
  - intros [[[[y0 yr] yQ] ra] ra'] (J1 & J2 & J3 & J4 & J5 & J6).
    specialize (Huw (re_opening entry, y0, yr, yQ, ra, ra')). cbv zeta beta iota in Huw. rewrite HR, He in Huw.
    assert (Hq := Huw (conj Ho (conj Hoc (conj J1 (conj J2 (conj J3 (conj J4 (conj J5 J6)))))))).
    injection Hq as -> -> -> -> ->. reflexivity.
Qed.
Print Assumptions C97_issuer_can.

(** A service works; a presentation is shown and checked.  A stranger sends it
    again, and again when there is another issuer and another user. *)
Definition sample_showing : list (open_event toy) :=
  (map Own sample_before ++ [Own (Present 0 0 (toy_stream 13) (toy_stream 14))])%list.
Definition sample_letter : bytes :=
  match nth_error (sv_shown (open_after sample_params sample_showing service_start)) 0 with
  | Some x => signal_presentation_to_bytes (sh_presentation x)
  | None => []
  end.
Example C97_met_replay :
  List.length sample_letter = 448%nat /\
  open_answers sample_params (open_after sample_params sample_showing service_start)
    [SendMember 0 sample_letter; Own (OpenIssuer (toy_stream 20)); Own (Register 1 None (str "33612345678")); SendIssuance 0 (str "noise");
     SendMember 0 sample_letter; SendPresentation 0 sample_letter; SendMember 1 sample_letter; SendMember 2 sample_letter] =
  [Done; Done; Done; Crashed; Done; Done; Failed MacVerification; Nobody].
Proof. split; vm_compute; reflexivity. Qed.

(** The credential for 100 with the tag 40 is not the issuer's, whose key is (5, 7);
    it is that of the issuer with the key (40 - 7 * 100, 7). *)
Definition sample_pretender : SignalUser toy :=
  {| su_phone_number := 100;
     su_user := {| us_system_parameters := sample_params; us_issuer_parameters := {| pk_Xn := [pt 231] |};
                   us_key := None; us_credential := Some (made_up 100 (pt 40)) |} |}.
Definition sample_other : Issuer toy := issuer_of sample_params ((40 - 700) mod ell) 7.
Example C97_met_third : sp_h sample_params <> pzero /\ knows sample_params (pt 231) (su_user sample_pretender) /\
  tag_nonce (cr_mac (made_up 100 (pt 40))) <> pzero /\ commits sample_params (sample_entry 100) 100 /\
  get_issuer_parameters sample_other = get_issuer_parameters sample_issuer /\
  exists p r' os', signal_show sample_pretender (toy_stream 8) (toy_stream 9) (sample_entry 100) = Ok (p, r', os') /\
    is_ok (signal_verify sample_other p) &&
    is_ok (verify_roster_membership sample_other {| vs_presentation := p |}) &&
    is_err (signal_verify sample_issuer p) = true.
Proof.
  split; [intros H; apply (f_equal tv) in H; vm_compute in H; discriminate|]. split; [split; reflexivity|].
  split; [intros H; apply (f_equal tv) in H; vm_compute in H; discriminate|].
  split; [apply toy_eq; vm_compute; reflexivity|].
  split; [unfold get_issuer_parameters, sample_other, issuer_of, sample_issuer, issuer_with; cbn [iss_keypair kp_public]; do 2 f_equal; apply toy_eq; vm_compute; reflexivity|].
  apply run3. vm_compute. reflexivity.
Qed.
Example C97_met_made_up : sp_g sample_params <> pzero /\
  exists p, signal_show_with sample_pretender (made_up 100 (pt 40)) (sample_entry 100) 3 4 5
              {| vcs_m0 := 6; vcs_z0 := 7; vcs_minus_zQ := 8 |} {| ces_m0 := 9; ces_z0 := 10; ces_z1 := 11 |} = Ok p /\
    is_ok (signal_verify sample_other p) && is_ok (verify_roster_membership sample_other {| vs_presentation := p |}) = true.
Proof.
  split; [intros H; apply (f_equal tv) in H; vm_compute in H; discriminate|]. apply run1. vm_compute. reflexivity.
Qed.
(** The holder presents; the issuer writes another credential for the number. *)
Definition sample_denied (number : bytes) : bool :=
  match try_from_bytes number, signal_issue sample_issuer number (toy_stream 2) (toy_stream 3),
        signal_issue sample_issuer number (toy_stream 4) (toy_stream 5), signal_user_new sample_params {| pk_Xn := [pt 231] |} None number with
  | Ok n, Ok (iss, _, _), Ok (iss', _, _), Ok u =>
    match signal_show (fst (signal_obtain_finish u (Some iss))) (toy_stream 5) (toy_stream 6) (sample_entry n) with
    | Ok (p, _, _) =>
      is_ok (roster_open (sample_entry n) number sample_params) &&
      is_ok (signal_verify sample_issuer p) && is_ok (verify_roster_membership sample_issuer {| vs_presentation := p |}) &&
      negb (peqb (tag_nonce (cr_mac (is_credential iss'))) pzero) &&
      negb (peqb (tag_nonce (cr_mac (is_credential iss'))) (tag_nonce (cr_mac (is_credential iss))))
    | _ => false
    end
  | _, _, _, _ => false
  end.
Example C97_met_issuer : sample_denied (str "14155551234") = true.
Proof. vm_compute. reflexivity. Qed.
