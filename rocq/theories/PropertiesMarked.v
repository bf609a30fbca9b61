(** The issuer that has a key for each user (C104): aeonflux/src/issuer.rs and user.rs,
    signal-credential/src/issuer.rs and user.rs. *)
From Verif Require Import Toy Algebra ProofFacts IssueFacts ShowFacts SignalFacts PhoneFacts CodecFacts CompositeFacts.
From Verif Require Import PropertiesIssue PropertiesShow PropertiesSignal PropertiesAnonymity SpecMarked.
From Coq Require Import Lia Bool.

Lemma replaced_map {A B} (f : A -> B) x l : forall k, map f (replaced k x l) = replaced k (f x) (map f l).
Proof. induction l as [|y l IH]; intros [|k]; cbn; [reflexivity..|]. rewrite IH. reflexivity. Qed.
Lemma replaced_nth {A} (x : A) l : forall k j y, nth_error (replaced k x l) j = Some y ->
  (j = k /\ y = x) \/ nth_error l j = Some y.
Proof.
  induction l as [|z l IH]; intros [|k] [|j] y; cbn; try discriminate; auto.
  - intros H. injection H as <-. auto.
  - intros H. destruct (IH k j y H) as [[-> ->]|Hy]; auto.
Qed.
Lemma snoc_nth {A} (x : A) l j y : nth_error (l ++ [x]) j = Some y -> y = x \/ nth_error l j = Some y.
Proof.
  intros H. destruct (Nat.lt_ge_cases j (List.length l)) as [Hl|Hl].
  - right. rewrite nth_error_app1 in H by exact Hl. exact H.
  - left. rewrite nth_error_app2 in H by exact Hl. destruct (j - List.length l)%nat as [|[|]]; cbn in H; congruence.
Qed.
Lemma encodable_cases b : match try_from_bytes b with
  | Ok _ => encodable b = Ok tt | Err _ => encodable b = Err MissingData | Panic => encodable b = Panic end.
Proof.
  unfold encodable. destruct (Nat.leb_spec (List.length b) 27) as [H|H].
  - rewrite try_from_bytes_ok by exact H. reflexivity.
  - unfold try_from_bytes. destruct (Nat.leb_spec (List.length b) 32) as [H'|H'].
    + rewrite phone_number_encode_panic by lia. reflexivity.
    + rewrite phone_number_encode_err by lia. reflexivity.
Qed.

Section marking.
  Context {E : Ext} (L : ExtLaws E).
  Variables (i : Issuer E) (x1 : scalar) (x0 : nat -> scalar).
  Hypotheses (Hc : consistent i) (Hx : sk_xn (kp_secret (iss_keypair i)) = [x1]).
  Notation params := (iss_system_parameters i).

  Definition served (k : nat) (u : SignalUser E) : Prop :=
    user_of i (su_user u) /\
    forall c, us_credential (su_user u) = Some c -> exists m, valid_credential (keyed i (x0 k)) c m.
  Definition hears_it (k : nat) (p : SignalCredentialPresentation E) : Prop :=
    signal_verify (keyed i (x0 k)) p = Ok {| vs_presentation := p |} /\
    pr_attributes_revealed (sc_presentation p) = [] /\ exists C, pr_attributes_blinded (sc_presentation p) = [C].
  Definition orderly (s : scene E) : Prop :=
    (forall k u, nth_error (sn_users s) k = Some u -> served k u) /\
    (forall k p, In (k, p) (sn_heard s) -> hears_it k p).
  Definition has_credential (u : SignalUser E) : bool :=
    match us_credential (su_user u) with Some _ => true | None => false end.

  Lemma enrolled k u number n r os : served k u -> try_from_bytes number = Ok n ->
    exists iss r' os' u', signal_issue (keyed i (x0 k)) number r os = Ok (iss, r', os') /\
      signal_obtain_finish u (Some iss) = (u', Ok tt) /\ served k u' /\ has_credential u' = true.
  Proof.
    intros [Hu _] Hn. unfold signal_issue. rewrite Hn. cbn [map_err bind].
    destruct (C10_honest_issuance_accepted E L (keyed i (x0 k)) (su_user u) n r os Hc ltac:(unfold single_attribute; cbn; rewrite Hx; reflexivity) Hu)
      as (iss & r' & os' & Hi & Hv & Ho).
    eexists iss, r', os', _. split; [exact Hi|]. unfold signal_obtain_finish. rewrite Ho. split; [reflexivity|].
    split; [|reflexivity]. split; [exact Hu|]. cbn. intros c H. injection H as <-. exists n. exact Hv.
  Qed.

  Lemma shows k u entry r os : served k u -> 
    if has_credential u then exists p r' os', signal_show u r os entry = Ok (p, r', os') /\ hears_it k p
    else signal_show u r os entry = Err MissingData.
  Proof.
    intros [[Hp Hk] Hv]. unfold has_credential. destruct (us_credential (su_user u)) as [c|] eqn:Hcr.
    - destruct (Hv c eq_refl) as (m & Ha & He).
      pose proof (consistent_single i x1 Hc Hx) as HX. rewrite <- Hk in HX.
      destruct (signal_show_ok u c m [] _ [] entry r os Hcr Ha HX) as (v & v' & r1 & os1 & H). cbv zeta in H.
      eexists _, r1, os1. split; [exact H|]. split; [|split; [reflexivity|eexists; reflexivity]].
      apply signal_verify_ok. cbn [sc_presentation]. rewrite Hp.
      exact (shown_verify L (keyed i (x0 k)) c x1 m _ _ _ v Hc Hx He).
    - unfold signal_show. rewrite Hcr. reflexivity.
  Qed.

  Lemma happens_well s d : orderly s ->
    orderly (fst (happens i x0 s d)) /\
    (map has_credential (sn_users (fst (happens i x0 s d))), snd (happens i x0 s d)) =
      promised (map has_credential (sn_users s)) d.
  Proof.
    intros [Hs Hh]. destruct d as [key number|k number r os|k entry r os]; cbn [happens promised].
    - unfold signal_user_new. pose proof (encodable_cases number) as Hn.
      destruct (try_from_bytes number) as [n|e|] eqn:Hb; cbn [map_err bind fst snd]; rewrite Hn; cbn [sn_users sn_heard].
      + split; [|rewrite map_app; reflexivity]. split; [|exact Hh]. cbn [sn_users]. intros k u H.
        apply snoc_nth in H as [->|H]; [|exact (Hs k u H)]. split; [split; reflexivity|]. cbn. discriminate.
      + split; [split; assumption|reflexivity].
      + split; [split; assumption|reflexivity].
    - rewrite nth_error_map. destruct (nth_error (sn_users s) k) as [u|] eqn:Hu; cbn [option_map fst snd]; [|split; [split; assumption|reflexivity]].
      pose proof (encodable_cases number) as Hn. destruct (try_from_bytes number) as [n|e|] eqn:Hb.
      + destruct (enrolled k u number n r os (Hs k u Hu) Hb) as (iss & r' & os' & u' & H1 & H2 & H3 & H4).
        rewrite H1, H2. cbn [fst snd sn_users sn_heard]. rewrite Hn. split; [|rewrite replaced_map, H4; reflexivity].
        split; [|exact Hh]. cbn [sn_users]. intros j v H. apply replaced_nth in H as [[-> ->]|H]; [exact H3|exact (Hs j v H)].
      + unfold signal_issue. rewrite Hb. cbn [map_err bind fst snd]. rewrite Hn. split; [split; assumption|reflexivity].
      + unfold signal_issue. rewrite Hb. cbn [map_err bind fst snd]. rewrite Hn. split; [split; assumption|reflexivity].
    - rewrite nth_error_map. destruct (nth_error (sn_users s) k) as [u|] eqn:Hu; cbn [option_map fst snd]; [|split; [split; assumption|reflexivity]].
      pose proof (shows k u entry r os (Hs k u Hu)) as H. destruct (has_credential u).
      + destruct H as (p & r' & os' & H1 & H2). rewrite H1. cbn [fst snd sn_users sn_heard].
        rewrite (proj1 H2). cbn [bind]. split; [|reflexivity]. split; [exact Hs|]. cbn [sn_heard]. intros j q Hj.
        apply in_app_or in Hj as [Hj|[Hj|[]]]; [exact (Hh j q Hj)|]. injection Hj as <- <-. exact H2.
      + rewrite H. cbn [fst snd]. split; [split; assumption|reflexivity].
  Qed.
  Lemma goes_on_well h : forall s, orderly s ->
    orderly (fst (goes_on i x0 s h)) /\ snd (goes_on i x0 s h) = promises (map has_credential (sn_users s)) h.
  Proof.
    induction h as [|d h IH]; intros s Hs; [split; [exact Hs|reflexivity]|]. cbn [goes_on promises].
    destruct (happens_well s d Hs) as [H1 H2]. destruct (happens i x0 s d) as [s1 a]. cbn [fst snd] in H1, H2.
    destruct (IH s1 H1) as [H3 H4]. destruct (goes_on i x0 s1 h) as [s2 l]. cbn [fst snd] in *.
    rewrite <- H2. cbn [fst snd]. split; [exact H3|]. congruence.
  Qed.
  Lemma orderly_opening : orderly opening.
  Proof. split; [intros [|k] u H; discriminate|intros k p []]. Qed.

  Lemma key_mod a b p : a == b -> pr_attributes_revealed (sc_presentation p) = [] ->
    (exists C, pr_attributes_blinded (sc_presentation p) = [C]) ->
    signal_verify (keyed i a) p = Ok {| vs_presentation := p |} -> signal_verify (keyed i b) p = Ok {| vs_presentation := p |}.
  Proof.
    intros Hab Hr [C Hb] H. apply signal_verify_ok in H. apply signal_verify_ok.
    pose proof (consistent_single i x1 Hc Hx) as HX.
    apply (C18_acceptance E L (keyed i a) _ [] x1 _ C HX Hx Hr Hb) in H.
    apply (C18_acceptance E L (keyed i b) _ [] x1 _ C HX Hx Hr Hb). rewrite H. f_equal.
    unfold presentation_hashed, presentation_publics. cbn. rewrite (smul_eqm L _ _ _ Hab). reflexivity.
  Qed.
End marking.

(** Nobody gets another reply, whatever keys the issuer uses. *)
Theorem C104_replies : forall E, ExtLaws E -> forall (i : Issuer E) x0 h,
  consistent i -> single_attribute i -> replies i x0 h = promises [] h.
Proof.
  intros E L i x0 h Hc Hs. destruct (single_cons i Hs) as [x1 Hx].
  exact (proj2 (goes_on_well L i x1 x0 Hc Hx h opening (orderly_opening i x0))).
Qed.
Print Assumptions C104_replies.

(** Of every presentation heard the issuer names all who have the same key as who made
    it; anybody else only if the nonce is the identity or two transcripts have one
    challenge. *)
Theorem C104_named : forall E, ExtLaws E -> forall (i : Issuer E) x1 x0 h k p n,
  consistent i -> sk_xn (kp_secret (iss_keypair i)) = [x1] -> sp_h (iss_system_parameters i) <> pzero ->
  In (k, p) (sn_heard (comes_to i x0 h)) ->
  (forall j, (j < n)%nat -> x0 j mod ell = x0 k mod ell -> In j (named i x0 n p)) /\
  (forall j, In j (named i x0 n p) -> (j < n)%nat /\
     (x0 j mod ell = x0 k mod ell \/ pr_rerandomized_nonce (sc_presentation p) = pzero \/
      exists C, pr_attributes_blinded (sc_presentation p) = [C] /\
      let X1 := smul x1 (sp_h (iss_system_parameters i)) in
      @challenge_collision E (presentation_hashed (keyed i (x0 j)) X1 x1 (sc_presentation p) C)
        (presentation_hashed (keyed i (x0 k)) X1 x1 (sc_presentation p) C))).
Proof.
  intros E L i x1 x0 h k p n Hc Hx Hh Hin.
  destruct (goes_on_well L i x1 x0 Hc Hx h opening (orderly_opening i x0)) as [[_ H] _].
  destruct (H k p Hin) as (Hv & Hr & C & Hb). clear H Hin. split.
  - intros j Hj He. unfold named. apply filter_In. split; [apply in_seq; lia|].
    rewrite (key_mod L i x1 Hc Hx (x0 k) (x0 j) p (eq_sym He) Hr (ex_intro _ C Hb) Hv). reflexivity.
  - intros j Hj. unfold named in Hj. apply filter_In in Hj as [Hj Hok]. apply in_seq in Hj. split; [lia|].
    destruct (signal_verify (keyed i (x0 j)) p) as [w| |] eqn:Hw; try discriminate.
    assert (Hw' : signal_verify (keyed i (x0 j)) p = Ok {| vs_presentation := p |}).
    { unfold signal_verify in *. destruct (issuer_verify (keyed i (x0 j)) _); cbn [bind] in *; [reflexivity|discriminate..]. }
    apply signal_verify_ok in Hv, Hw'.
    destruct (C67_presentation_one_issuer E L (keyed i (x0 j)) (keyed i (x0 k)) x1 x1 _ C Hc Hx Hc Hx Hh Hr Hb Hw' Hv)
      as [(_ & _ & [H|H])|H]; [right; left; exact H|left; exact H|].
    right; right. exists C. split; [exact Hb|exact H].
Qed.
Print Assumptions C104_named.

(** With one key for all it names everybody; with a key for each user it names who made
    the presentation. *)
Theorem C104_honest : forall E, ExtLaws E -> forall (i : Issuer E) x0 h k p n,
  consistent i -> single_attribute i -> sp_h (iss_system_parameters i) <> pzero ->
  (forall j, x0 j = x0 0%nat) -> In (k, p) (sn_heard (comes_to i x0 h)) -> named i x0 n p = seq 0 n.
Proof.
  intros E L i x0 h k p n Hc Hs Hh H0 Hin. destruct (single_cons i Hs) as [x1 Hx].
  destruct (C104_named E L i x1 x0 h k p n Hc Hx Hh Hin) as [H _]. unfold named in *.
  assert (Ha : forall j, In j (seq 0 n) -> (match signal_verify (keyed i (x0 j)) p with Ok _ => true | _ => false end) = true).
  { intros j Hj. apply in_seq in Hj. specialize (H j ltac:(lia) ltac:(rewrite (H0 j), (H0 k); reflexivity)).
    apply filter_In in H as [_ H]. exact H. }
  clear H. revert Ha. generalize (seq 0 n). intros l. induction l as [|j l IH]; intros Ha; [reflexivity|].
  cbn [filter]. rewrite (Ha j (or_introl eq_refl)). f_equal. apply IH. intros j' Hj. apply Ha. right; exact Hj.
Qed.
Print Assumptions C104_honest.

Theorem C104_who_refuted : forall E, ExtLaws E -> forall (i : Issuer E) x1 x0 h k p n,
  consistent i -> sk_xn (kp_secret (iss_keypair i)) = [x1] -> sp_h (iss_system_parameters i) <> pzero ->
  (forall j j', (j < n)%nat -> (j' < n)%nat -> x0 j mod ell = x0 j' mod ell -> j = j') -> (k < n)%nat ->
  In (k, p) (sn_heard (comes_to i x0 h)) ->
  named i x0 n p = [k] \/ pr_rerandomized_nonce (sc_presentation p) = pzero \/
  exists j C, (j < n)%nat /\ j <> k /\ pr_attributes_blinded (sc_presentation p) = [C] /\
    let X1 := smul x1 (sp_h (iss_system_parameters i)) in
    @challenge_collision E (presentation_hashed (keyed i (x0 j)) X1 x1 (sc_presentation p) C)
      (presentation_hashed (keyed i (x0 k)) X1 x1 (sc_presentation p) C).
Proof.
  intros E L i x1 x0 h k p n Hc Hx Hh Hd Hk Hin.
  destruct (C104_named E L i x1 x0 h k p n Hc Hx Hh Hin) as [H1 H2].
  pose proof (H1 k Hk eq_refl) as Hkin.
  assert (Hnd : NoDup (named i x0 n p)) by (apply NoDup_filter, seq_NoDup).
  remember (filter (fun j => negb (j =? k)%nat) (named i x0 n p)) as others eqn:Ho. destruct others as [|j others].
  - left. assert (Ha : forall j, In j (named i x0 n p) -> j = k).
    { intros j Hj. destruct (Nat.eqb_spec j k) as [He|He]; [exact He|]. exfalso.
      assert (Hb : In j (filter (fun j => negb (j =? k)%nat) (named i x0 n p))).
      { apply filter_In. split; [exact Hj|]. apply Nat.eqb_neq in He. rewrite He. reflexivity. }
      rewrite <- Ho in Hb. exact Hb. }
    destruct (named i x0 n p) as [|a [|b l]]; [contradiction|rewrite (Ha a (or_introl eq_refl)); reflexivity|].
    exfalso. inversion Hnd as [|? ? Hni _]. apply Hni. left.
    rewrite (Ha a (or_introl eq_refl)). apply Ha. right; left; reflexivity.
  - right. assert (Hj : In j (filter (fun j => negb (j =? k)%nat) (named i x0 n p))) by (rewrite <- Ho; left; reflexivity).
    apply filter_In in Hj as [Hj Hjk]. apply negb_true_iff, Nat.eqb_neq in Hjk.
    destruct (H2 j Hj) as [Hn [H|[H|(C & Hb & H)]]].
    + exfalso. exact (Hjk (Hd j k Hn Hk H)).
    + left; exact H.
    + right. exists j, C. auto.
Qed.
Print Assumptions C104_who_refuted.

(** Such issuers can be written down and read again, as the C interface does it before
    each call. *)
Theorem C104_bytes : forall E, ExtLaws E -> forall (i : Issuer E) x0,
  wf_issuer i -> canonical x0 ->
  signal_issuer_from_bytes (signal_issuer_to_bytes (keyed i x0)) = Ok (keyed i x0) /\
  get_issuer_parameters (keyed i x0) = get_issuer_parameters i.
Proof.
  intros E L i x0 [[[_ Hs] Hl] Hn] H0. split; [|reflexivity]. apply (issuer_iff L). split; [|reflexivity].
  split; [|exact Hn]. split; [split; [exact H0|exact Hs]|exact Hl].
Qed.
Print Assumptions C104_bytes.

(** Users who compare the commitments they were sent learn nothing: each commitment is
    one to every key. *)
Theorem C104_commitments : forall E, ExtLaws E -> forall (i : Issuer E) (l : list (CredentialIssuance E)) x0,
  sp_h (iss_system_parameters i) <> pzero ->
  Forall (fun iss => exists! y, canonical y /\
    is_secret_key_commitment iss = padd (smul x0 (sp_g (iss_system_parameters i))) (smul y (sp_h (iss_system_parameters i)))) l.
Proof.
  intros E L i l x0 Hh. apply Forall_forall. intros iss _.
  destruct (unique_opening L (sp_h (iss_system_parameters i)) (smul x0 (sp_g (iss_system_parameters i))) (is_secret_key_commitment iss) Hh)
    as (y & [H1 H2] & Hu).
  exists y. split; [split; [exact H1|symmetry; exact H2]|]. intros y' [H3 H4]. apply Hu. auto.
Qed.
Print Assumptions C104_commitments.

(** Users who compare their credentials have to tell whether points are multiples by one
    scalar, which is the Diffie-Hellman decision: who does not know [x0] makes of points
    [R] and [Z] credentials that are valid under one key exactly if all [Z] are [x0 R],
    and valid under some key each whatever the [Z] are. *)
Theorem C104_credentials : forall E, ExtLaws E -> forall (i : Issuer E) x1 (l : list (scalar * (point E * point E))),
  sk_xn (kp_secret (iss_keypair i)) = [x1] -> Forall (fun '(_, (R, _)) => R <> pzero) l ->
  (forall x0, Forall (fun '(m, c) => valid_credential (keyed i x0) c m) (made_from x1 l) <->
              Forall (fun '(_, (R, Z)) => Z = smul x0 R) l) /\
  exists x0s, Forall2 (fun x0 '(m, c) => canonical x0 /\ valid_credential (keyed i x0) c m) x0s (made_from x1 l).
Proof.
  intros E L i x1 l Hx Hl.
  assert (Hone : forall x0 m (R Z : point E),
    valid_credential (keyed i x0) {| cr_mac := {| tag_nonce := R; tag_mac := padd Z (smul (m * x1) R) |}; cr_attributes := [m] |} m
    <-> Z = smul x0 R).
  { intros x0 m R Z. unfold valid_credential, mac_equation. cbn [cr_attributes cr_mac tag_nonce tag_mac keyed iss_keypair kp_secret sk_x0 sk_xn].
    rewrite Hx. cbn. split.
    - intros (_ & _ & H). dlogs L. to_base_in L H. to_base L. apply (smul_base_iff L) in H. apply (smul_base_iff L).
      apply eqm_sub_0 in H. apply eqm_sub_0. rewrite <- H. apply eqm_of_eq; zring.
    - intros ->. split; [reflexivity|]. split; [reflexivity|]. pring L. }
  split.
  - intros x0. unfold made_from. rewrite Forall_map. clear Hl. split; intros H; refine (Forall_impl _ _ H); intros [m [R Z]]; apply Hone.
  - induction Hl as [|[m [R Z]] l HR Hl IH]; [exists []; constructor|]. destruct IH as [x0s IH].
    destruct (unique_opening L R pzero Z HR) as (k & [Hk1 Hk2] & _). exists (k :: x0s). constructor; [|exact IH].
    split; [exact Hk1|]. apply Hone. rewrite (padd_zero E L) in Hk2. symmetry; exact Hk2.
Qed.
Print Assumptions C104_credentials.

(** Two users with different keys, one number too long, somebody who was never enrolled:
    the issuer names who presented. *)
Definition sample_deeds : list (deed toy) :=
  [Registers None (str "123"); Registers None (str "456"); Registers None (map zb (repeat 49 30)); Registers None (str "789");
   Enrols 0 (str "123") (toy_stream 1) (toy_stream 2); Enrols 1 (str "456") (toy_stream 3) (toy_stream 4);
   Appears 2 (sample_entry 100) (toy_stream 5) (toy_stream 6); Appears 1 (sample_entry 100) (toy_stream 8) (toy_stream 9);
   Appears 0 (sample_entry 100) (toy_stream 10) (toy_stream 11); Appears 5 (sample_entry 100) (toy_stream 10) (toy_stream 11)].
Definition sample_keys (k : nat) : scalar := 5 + Z.of_nat k.
Example C104_met : consistent sample_issuer /\ single_attribute sample_issuer /\
  sp_h (iss_system_parameters sample_issuer) <> pzero /\ wf_issuer sample_issuer /\
  (forall j j', (j < 3)%nat -> (j' < 3)%nat -> sample_keys j mod ell = sample_keys j' mod ell -> j = j') /\
  promises [] sample_deeds =
    [Some (Ok tt); Some (Ok tt); Some Panic; Some (Ok tt); Some (Ok tt); Some (Ok tt);
     Some (Err MissingData); Some (Ok tt); Some (Ok tt); None] /\
  replies sample_issuer sample_keys sample_deeds = promises [] sample_deeds /\
  map (fun x => (fst x, named sample_issuer sample_keys 3 (snd x))) (sn_heard (comes_to sample_issuer sample_keys sample_deeds)) =
    [(1%nat, [1%nat]); (0%nat, [0%nat])] /\
  map (fun x => (fst x, named sample_issuer (fun _ => 5) 3 (snd x))) (sn_heard (comes_to sample_issuer (fun _ => 5) sample_deeds)) =
    [(1%nat, [0%nat; 1%nat; 2%nat]); (0%nat, [0%nat; 1%nat; 2%nat])].
Proof.
  destruct C66_met as (H1 & H2 & H3 & H4 & H5 & _).
  split; [exact H1|]. split; [exact H2|]. split; [exact H5|]. pose proof ell_gt_252 as Hell.
  assert (Hb : forall x, 0 <= x < 2 ^ 252 -> canonical x) by (intros x Hx; unfold canonical; lia).
  split.
  { split; [|discriminate]. split; [|reflexivity]. split; [apply Hb; cbn; lia|].
    constructor; [apply Hb; cbn; lia|constructor]. }
  split.
  { intros j j' Hj Hj' H. unfold sample_keys in H. rewrite !Z.mod_small in H by lia. lia. }
  split; [reflexivity|]. split; [vm_compute; reflexivity|]. split; vm_compute; reflexivity.
Qed.
(** Points that are multiples by one scalar, and points that are not. *)
Example C104_met_credentials :
  let good := [(100, (pt 3, pt 15)); (200, (pt 4, pt 20))] : list (scalar * (point toy * point toy)) in
  let bad := [(100, (pt 3, pt 15)); (200, (pt 4, pt 24))] : list (scalar * (point toy * point toy)) in
  Forall (fun '(_, (R, _)) => R <> pzero) good /\ Forall (fun '(_, (R, _)) => R <> pzero) bad /\
  Forall (fun '(_, (R, Z)) => Z = smul 5 R) good /\ ~ Forall (fun '(_, (R, Z)) => Z = smul 5 R) bad /\
  made_from 7 good = [(100, sample_credential); (200, {| cr_mac := {| tag_nonce := pt 4; tag_mac := pt ((5 + 7 * 200) * 4) |}; cr_attributes := [200] |})].
Proof.
  cbv zeta. split; [|split; [|split; [|split]]].
  - repeat constructor; intros H; apply (f_equal tv) in H; vm_compute in H; discriminate.
  - repeat constructor; intros H; apply (f_equal tv) in H; vm_compute in H; discriminate.
  - repeat constructor; apply toy_eq; vm_compute; reflexivity.
  - intros H. inversion H as [|? ? _ H']. inversion H' as [|? ? H'' _]. apply (f_equal tv) in H''. vm_compute in H''. discriminate.
  - unfold made_from, sample_credential. cbn [map]. repeat f_equal; apply toy_eq; vm_compute; reflexivity.
Qed.
