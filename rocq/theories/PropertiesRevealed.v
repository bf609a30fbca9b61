(** Revealed attributes in presentations (C76): aeonflux/src/issuer.rs:197-229 and
    aeonflux/src/credential.rs:267-321. *)
From Verif Require Import PhoneFacts SignalFacts CompositeFacts PropertiesIssue PropertiesShow PropertiesPhone PropertiesSignal Toy.
From Coq Require Import Setoid.
Local Open Scope string_scope.
Local Open Scope Z_scope.

(** ** C76: revealed and hidden attributes of a presentation *)

(** [x1 a1 P + x2 a2 P + ...] and [x1 C1 + x2 C2 + ...]. *)
Fixpoint keyed {E : Ext} (xs : list scalar) (Cs : list (point E)) : point E :=
  match xs, Cs with
  | x :: xs', C :: Cs' => padd (smul x C) (keyed xs' Cs')
  | _, _ => pzero
  end.

Section sums.
  Context {E : Ext} (L : ExtLaws E).
  Lemma nth_skipn (xs : list scalar) j x : nth_error xs j = Some x -> skipn j xs = x :: skipn (S j) xs.
  Proof.
    revert xs; induction j as [|j IH]; intros [|y xs] H; try discriminate; cbn in H.
    - injection H as ->. reflexivity.
    - cbn [skipn]. rewrite (IH xs H). reflexivity.
  Qed.
  Lemma revealed_sum (xs : list scalar) (P : point E) ms : forall j V V', verify_revealed xs P j ms V = Ok V' ->
    V' = padd V (smul (dot (skipn j xs) ms) P).
  Proof.
    induction ms as [|m ms IH]; intros j V V' H.
    - cbn in H. injection H as <-. destruct (skipn j xs); cbn [dot]; rewrite smul_0, (padd_zero_r L); reflexivity.
    - cbn [verify_revealed] in H. unfold index in H. destruct (nth_error xs j) as [x|] eqn:Hx; [|discriminate].
      cbn [or_panic bind] in H. apply IH in H. subst V'. rewrite (nth_skipn xs j x Hx). cbn [dot].
      generalize (dot (skipn (S j) xs) ms) as d. intros d. clear Hx. pring L.
  Qed.
  Lemma blinded_sum (xs : list scalar) Cs : forall j (V V' : point E), verify_blinded xs j Cs V = Ok V' ->
    V' = padd V (keyed (skipn j xs) Cs).
  Proof.
    induction Cs as [|C Cs IH]; intros j V V' H.
    - cbn in H. injection H as <-. destruct (skipn j xs); cbn [keyed]; rewrite (padd_zero_r L); reflexivity.
    - cbn [verify_blinded] in H. unfold index in H. destruct (nth_error xs j) as [x|] eqn:Hx; [|discriminate].
      cbn [or_panic bind] in H. apply IH in H. subst V'. rewrite (nth_skipn xs j x Hx). cbn [keyed].
      generalize (keyed (skipn (S j) xs) Cs) as d. intros d. clear Hx. pring L.
  Qed.
End sums.

(** The statement checked: attribute [j] of those revealed and attribute [j] of
    those hidden both come with [x_j], so only their sum matters. *)
Theorem C76_statement : forall E, ExtLaws E -> forall (i : Issuer E) (p : CredentialPresentation E) q,
  verify_statement i p = Ok q ->
  let k := kp_secret (iss_keypair i) in
  vcp_V q = psub (padd (padd (smul (sk_x0 k) (pr_rerandomized_nonce p))
                             (smul (dot (sk_xn k) (pr_attributes_revealed p)) (pr_rerandomized_nonce p)))
                       (keyed (sk_xn k) (pr_attributes_blinded p)))
                 (pr_rerandomized_mac_commitment p) /\
  vcp_P q = pr_rerandomized_nonce p /\ exists Cs, pr_attributes_blinded p = vcp_Cm0 q :: Cs.
Proof.
  intros E L i p q H k. unfold verify_statement in H. fold k in H.
  apply bind_ok in H as (V1 & H1 & H). apply bind_ok in H as (V2 & H2 & H).
  apply bind_ok in H as (X0 & _ & H). apply bind_ok in H as (C & HC & H). injection H as <-. cbn [vcp_V vcp_P vcp_Cm0].
  apply (revealed_sum L) in H1. apply (blinded_sum L) in H2. subst V1 V2. cbn [skipn]. split; [reflexivity|]. split; [reflexivity|].
  unfold index in HC. destruct (pr_attributes_blinded p) as [|C' Cs]; [discriminate|]. cbn in HC. injection HC as ->. eauto.
Qed.
Print Assumptions C76_statement.
Example C76_statement_met : is_ok (verify_statement sample_issuer
    {| pr_rerandomized_mac_commitment := pt 5; pr_rerandomized_nonce := pt 2; pr_attributes_revealed := [4];
       pr_attributes_blinded := [pt 3]; pr_proof := pr_proof (sample_shown 7) |}) = true.
Proof. vm_compute. reflexivity. Qed.

(** The user who says its attribute is [n]. *)
Definition claiming {E : Ext} (u : SignalUser E) (c : Credential E) (n : scalar) : SignalUser E :=
  let v := su_user u in
  {| su_phone_number := su_phone_number u;
     su_user := {| us_system_parameters := us_system_parameters v; us_issuer_parameters := us_issuer_parameters v;
                   us_key := us_key v; us_credential := Some {| cr_mac := cr_mac c; cr_attributes := [n] |} |} |}.
(** The presentation, with [a] as a revealed attribute. *)
Definition revealing {E : Ext} (p : SignalCredentialPresentation E) (a : scalar) : SignalCredentialPresentation E :=
  let q := sc_presentation p in
  {| sc_roster_entry_commitment := sc_roster_entry_commitment p;
     sc_presentation := {| pr_rerandomized_mac_commitment := pr_rerandomized_mac_commitment q;
                           pr_rerandomized_nonce := pr_rerandomized_nonce q; pr_attributes_revealed := [a];
                           pr_attributes_blinded := pr_attributes_blinded q; pr_proof := pr_proof q |};
     sc_roster_membership_proof := sc_roster_membership_proof p |}.

(** A user with a credential for any number [m] shows membership under the entry
    of any number whose opening it knows: it runs [show] as if its number were
    that number [n], and puts [m - n] among the revealed attributes. *)
Theorem C76_any_number_refuted : forall E, ExtLaws E ->
  forall (i : Issuer E) (u : SignalUser E) c m number n entry r os,
  consistent i -> single_attribute i -> user_of i (su_user u) -> valid_credential i c m ->
  try_from_bytes number = Ok n -> roster_open entry number (iss_system_parameters i) = Ok tt ->
  exists p r' os', signal_show (claiming u c n) r os entry = Ok (p, r', os') /\
    let p' := revealing p ((m - n) mod ell) in
    signal_verify i p' = Ok {| vs_presentation := p' |} /\
    verify_roster_membership i {| vs_presentation := p' |} = Ok (re_commitment entry).
Proof.
  intros E L i u c m number n entry r os Hc Hs [Hp Hk] [Ha He] Hn Ho.
  apply (C29_open_exactly E L entry number n _ Hn) in Ho.
  destruct (single_cons i Hs) as [x1 Hx]. pose proof (consistent_single i x1 Hc Hx) as HX.
  set (v := claiming u c n). set (c' := {| cr_mac := cr_mac c; cr_attributes := [n] |}).
  assert (HX' : pk_Xn (us_issuer_parameters (su_user v)) = [smul x1 (sp_h (iss_system_parameters i))])
    by (cbn; rewrite Hk; exact HX).
  destruct (signal_show_ok v c' n [] _ [] entry r os eq_refl eq_refl HX') as (rand & rand' & Hsh). cbv zeta in Hsh.
  destruct Hsh as (r' & os' & Hsh). cbn [v claiming su_user us_system_parameters] in Hsh. rewrite Hp in Hsh.
  eexists _, r', os'. split; [exact Hsh|]. cbv zeta. split.
  - apply signal_verify_ok. unfold revealing. cbn [sc_presentation].
    match goal with |- context [shown ?a ?b ?c ?d ?z0 ?rr ?zQ rand] => set (z := z0); set (q := rr); set (w := zQ) end.
    unfold issuer_verify, verify_statement. cbv zeta.
    cbn [pr_attributes_revealed pr_attributes_blinded pr_rerandomized_nonce pr_rerandomized_mac_commitment pr_proof shown].
    rewrite HX, Hx. cbn [verify_revealed verify_blinded index nth_error or_panic bind].
    change (transcript_new "AEONFLUX SHOW") with show_transcript.
    set (params := iss_system_parameters i) in *. set (X1 := smul x1 (sp_h params)).
    match goal with |- context [vc_verify ?pf show_transcript ?pub] => assert (Hq : pub = shown_publics params X1 c' n z q w) end.
    { unfold shown_publics. cbn [cr_mac c']. f_equal.
      destruct He as [_ He]. rewrite Hx in He. cbn [dot] in He. rewrite He. unfold X1.
      generalize (sk_x0 (kp_secret (iss_keypair i))) as x0. intros x0. unfold s_mul.
      rewrite (smul_eqm L ((x1 * ((m - n) mod ell)) mod ell) (x1 * (m - n)) _) by (rewrite !eqm_mod; reflexivity).
      generalize (tag_nonce (cr_mac c)) (sp_h params) z q w. intros P h z' q' w'. unfold scalar, PhoneNumber in *. clear - L. pring L. }
    rewrite Hq, (vc_complete L) by apply (shown_relation L). reflexivity.
  - erewrite verify_roster_ok by reflexivity.
    cbn [revealing sc_roster_membership_proof sc_presentation sc_roster_entry_commitment shown pr_rerandomized_nonce].
    rewrite (ce_complete L); [reflexivity|]. apply roster_relation. exact Ho.
Qed.
Print Assumptions C76_any_number_refuted.

(** The number 14155551234's credential, shown as 14155559999. *)
Definition sample_impersonation : bool :=
  let i := fst (signal_issuer_create sample_params (toy_stream 1)) in
  match signal_issue i (str "14155551234") (toy_stream 2) (toy_stream 3),
        signal_user_new sample_params (get_issuer_parameters i) None (str "14155551234"),
        try_from_bytes (str "14155551234"), try_from_bytes (str "14155559999"),
        roster_create (str "14155559999") sample_params (toy_stream 4) with
  | Ok (iss, _, _), Ok u, Ok m, Ok n, Ok (entry, _) =>
    match signal_show (claiming u (is_credential iss) n) (toy_stream 5) (toy_stream 6) entry with
    | Ok (p, _, _) =>
      let p' := revealing p ((m - n) mod ell) in
      negb (m =? n) && is_ok (roster_open entry (str "14155559999") sample_params) &&
      negb (is_ok (signal_verify i p)) &&
      is_ok (signal_verify i p') && is_ok (verify_roster_membership i {| vs_presentation := p' |})
    | _ => false
    end
  | _, _, _, _, _ => false
  end.
Example C76_any_number_met : sample_impersonation = true.
Proof. vm_compute. reflexivity. Qed.

(** Presentations which come as bytes have no revealed attributes. *)
Theorem C76_none_from_bytes : forall E, ExtLaws E -> forall b,
  (forall p : CredentialPresentation E, presentation_from_bytes b = Ok p -> pr_attributes_revealed p = []) /\
  (forall p : SignalCredentialPresentation E, signal_presentation_from_bytes b = Ok p ->
     pr_attributes_revealed (sc_presentation p) = []).
Proof.
  intros E L b. split; intros p H.
  - apply (presentation_iff L) in H as [(Hr & _) _]. exact Hr.
  - apply (signal_presentation_iff L) in H as [[(Hr & _) _] _]. exact Hr.
Qed.
Print Assumptions C76_none_from_bytes.
Example C76_none_from_bytes_met : is_ok (@presentation_from_bytes toy (presentation_to_bytes (sample_shown 7))) = true.
Proof. vm_compute. reflexivity. Qed.
