(** What the check of a roster at a permission level gives (C107):
    signal-credential/tests/full-protocol.rs:66-92 and
    signal-credential/src/issuer.rs:157-181. *)
From Verif Require Import Toy Algebra IssueFacts ShowFacts SignalFacts SpecRoster PropertiesIssue PropertiesShow PropertiesPhone PropertiesSignal.
From Coq Require Import Lia Bool.

Section facts.
  Context {E : Ext} (L : ExtLaws E).

  Lemma contains_in (l : list (point E)) c : contains l c = true <-> In c l.
  Proof.
    unfold contains. rewrite existsb_exists. split.
    - intros (x & Hx & He). apply (peqb_true L) in He. subst x. exact Hx.
    - intros H. exists c. split; [exact H|]. apply (peqb_true L). reflexivity.
  Qed.
  Lemma contains_out (l : list (point E)) c : contains l c = false <-> ~ In c l.
  Proof. rewrite <- contains_in. destruct (contains l c); split; congruence. Qed.

  Lemma allowed_is (i : Issuer E) ro v p b :
    allowed i ro v p = Ok b <-> takes i p /\ b = contains (listed ro v) (sc_roster_entry_commitment p).
  Proof.
    unfold allowed, takes. split.
    - intros H. apply bind_ok in H as (w & Hw & H). apply bind_ok in H as (c & Hc & H).
      assert (w = {| vs_presentation := p |}) as ->.
      { unfold signal_verify in Hw. apply bind_ok in Hw as (? & _ & Hw). injection Hw as <-. reflexivity. }
      assert (c = sc_roster_entry_commitment p) as ->.
      { unfold verify_roster_membership in Hc. apply bind_ok in Hc as (? & _ & Hc). cbv zeta in Hc.
        apply bind_ok in Hc as (? & _ & Hc). injection Hc as <-. reflexivity. }
      injection H as <-. auto.
    - intros [[Hs Hm] ->]. rewrite Hs. cbn [bind]. rewrite Hm. reflexivity.
  Qed.

  Lemma existsb_ext' {A} (f g : A -> bool) l : (forall x, f x = g x) -> existsb f l = existsb g l.
  Proof. intros H. induction l as [|x l IH]; cbn; [reflexivity|]. rewrite H, IH. reflexivity. Qed.
  Lemma existsb_map {A B} (f : B -> bool) (g : A -> B) l : existsb f (map g l) = existsb (fun x => f (g x)) l.
  Proof. induction l as [|x l IH]; cbn; [reflexivity|]. rewrite IH. reflexivity. Qed.
  Lemma compressed_same (P Q : point E) : bytes_eqb (compress P) (compress Q) = peqb P Q.
  Proof.
    apply Bool.eq_iff_eq_true. rewrite bytes_eqb_true, (peqb_true L). split; [|intros ->; reflexivity].
    intros H. assert (Some P = Some Q) as He; [|injection He as ->; reflexivity].
    rewrite <- (decompress_compress E L P), <- (decompress_compress E L Q), H. reflexivity.
  Qed.

  Lemma listed_push (ro : Roster E) v c w : listed (roster_push ro v c) w = listed ro w ++ (match v, w with Admins, Admins | Users, Users => [c] | _, _ => [] end).
  Proof. destruct v, w; cbn; rewrite ?app_nil_r; reflexivity. Qed.
  Lemma listed_pushes (h : list (level * point E)) ro v c :
    In c (listed (fold_left (fun ro x => roster_push ro (fst x) (snd x)) h ro) v) <->
    In c (listed ro v) \/ In (v, c) h.
  Proof.
    revert ro; induction h as [|[w d] h IH]; intros ro; cbn [fold_left]; [cbn; tauto|].
    rewrite IH, listed_push, in_app_iff. cbn [fst snd In].
    assert (In c (match w, v with Admins, Admins | Users, Users => [d] | _, _ => [] end) <-> (w, d) = (v, c)) as ->; [|tauto].
    destruct w, v; cbn; split; (intros [->|[]] || intros H); try contradiction; try reflexivity; try discriminate H.
    all: try (injection H as ->; left; reflexivity).
  Qed.

  Lemma holder_let_in (i : Issuer E) ro v u m entry :
    consistent i -> single_attribute i -> holds_for i u m -> commits (iss_system_parameters i) entry m ->
    In (re_commitment entry) (listed ro v) -> let_in i ro v u entry.
  Proof.
    intros Hc Hs (Hu & c & Hcr & Hv) He Hin r os.
    destruct (signal_presentation_accepted L i u c m r os entry Hc Hs Hu Hcr Hv He) as (p & r' & os' & H1 & H2 & H3).
    exists p, r', os'. split; [exact H1|]. unfold allowed. rewrite H2. cbn [bind]. rewrite H3. cbn [bind].
    f_equal. apply contains_in. exact Hin.
  Qed.
End facts.

(** ** C107: the check decides membership of the list *)
(** The answer is whether the commitment shown is in the list of that level,
    and there is an answer exactly for the presentations taken. *)
Theorem C107_decides : forall E, ExtLaws E -> forall (i : Issuer E) ro v p b,
  allowed i ro v p = Ok b <->
  takes i p /\ (b = true <-> In (sc_roster_entry_commitment p) (listed ro v)).
Proof.
  intros E L i ro v p b. rewrite allowed_is. rewrite <- (contains_in L).
  destruct b, (contains _ _); split; intros [H1 H2]; (split; [exact H1|]); try tauto; try discriminate; try congruence.
  all: exfalso; destruct H2 as [H2 H2']; (discriminate (H2 eq_refl) || discriminate (H2' eq_refl)).
Qed.
Print Assumptions C107_decides.
(** A roster is made by pushes: what was pushed at one level is not at the
    other, and nothing is lost. *)
Theorem C107_pushed : forall E, ExtLaws E -> forall (i : Issuer E) (h : list (level * point E)) v p,
  let ro := fold_left (fun ro x => roster_push ro (fst x) (snd x)) h roster_new in
  allowed i ro v p = Ok true <-> takes i p /\ In (v, sc_roster_entry_commitment p) h.
Proof.
  intros E L i h v p ro. rewrite (C107_decides E L). subst ro. rewrite listed_pushes.
  destruct v; cbn; tauto.
Qed.
Print Assumptions C107_pushed.
(** A server may as well keep bytes. *)
Theorem C107_bytes : forall E, ExtLaws E -> forall (i : Issuer E) ro v p,
  allowed_bytes i (map compress (listed ro v)) p = allowed i ro v p.
Proof.
  intros E L i ro v p. unfold allowed_bytes, allowed.
  destruct (signal_verify i p) as [w| |]; cbn [bind]; try reflexivity.
  destruct (verify_roster_membership i w) as [c| |]; cbn [bind]; try reflexivity.
  f_equal. rewrite existsb_map. unfold contains. apply existsb_ext'. intros x. apply (compressed_same L).
Qed.
Print Assumptions C107_bytes.

(** ** C107: who is let in *)
(** A user with a credential and an entry for the same number makes a
    presentation for which the answer is right at every level of every
    roster. *)
Theorem C107_member : forall E, ExtLaws E -> forall (i : Issuer E) u m entry r os,
  consistent i -> single_attribute i -> holds_for i u m -> commits (iss_system_parameters i) entry m ->
  exists p r' os', signal_show u r os entry = Ok (p, r', os') /\
    forall ro v b, allowed i ro v p = Ok b <-> (b = true <-> In (re_commitment entry) (listed ro v)).
Proof.
  intros E L i u m entry r os Hc Hs (Hu & c & Hcr & Hv) He.
  destruct (signal_presentation_accepted L i u c m r os entry Hc Hs Hu Hcr Hv He) as (p & r' & os' & H1 & H2 & H3).
  exists p, r', os'. split; [exact H1|]. intros ro v b.
  assert (sc_roster_entry_commitment p = re_commitment entry) as Hp.
  { unfold verify_roster_membership in H3. apply bind_ok in H3 as (? & _ & H3). cbv zeta in H3.
    apply bind_ok in H3 as (? & _ & H3). injection H3 as H3. exact H3. }
  rewrite (C107_decides E L), Hp. split; [tauto|]. intros Hb. split; [|exact Hb].
  split; [exact H2|]. rewrite Hp. exact H3.
Qed.
Print Assumptions C107_member.
(** With an entry which is not for the number in their credential, users of
    this code get no answer, unless a challenge happens to be zero or two
    transcripts collide. *)
Theorem C107_only_own : forall E, ExtLaws E ->
  forall (i : Issuer E) u c m entry r os p r' os' ro v b,
  single_attribute i -> consistent i -> user_of i (su_user u) ->
  us_credential (su_user u) = Some c -> cr_attributes c = [m] ->
  ~ commits (iss_system_parameters i) entry m ->
  signal_show u r os entry = Ok (p, r', os') -> allowed i ro v p = Ok b ->
  ce_challenge (sc_roster_membership_proof p) = 0 \/
  membership_collision (iss_system_parameters i) p m (fst (scalar_random r)) (re_opening entry).
Proof.
  intros E L i u c m entry r os p r' os' ro v b Hs Hco [Hp Hk] Hu Ha He Hsh Hal.
  apply allowed_is in Hal as [[_ Hm] _].
  destruct (single_cons i Hs) as [x1 Hx]. pose proof (consistent_single i x1 Hco Hx) as HX. rewrite <- Hk in HX.
  destruct (C22_wrong_entry_rejected E L i u c m [] _ [] entry r os p r' os' Hp Hu Ha HX He Hsh) as [H|H]; [|exact H].
  rewrite Hm in H. discriminate.
Qed.
Print Assumptions C107_only_own.

(** ** C107: what the check does not give *)
(** A presentation is not made for a group or a level: whoever was let in
    somewhere is let in wherever the same commitment is listed, and again
    and again. *)
Theorem C107_level_refuted : forall E, ExtLaws E -> forall (i : Issuer E) ro v ro' v' p,
  allowed i ro v p = Ok true -> In (sc_roster_entry_commitment p) (listed ro' v') ->
  allowed i ro' v' p = Ok true.
Proof.
  intros E L i ro v ro' v' p H Hin. apply (C107_decides E L) in H as [Ht _].
  apply (C107_decides E L). split; [exact Ht|]. tauto.
Qed.
Print Assumptions C107_level_refuted.
(** Whoever knows the number and the opening of a listed entry (whoever
    made it, say) is let in at its level without any credential. *)
Theorem C107_without_credential_refuted : forall E, ExtLaws E ->
  forall (i : Issuer E) ro v number n entry X1 z0 zQ os os',
  consistent i -> single_attribute i -> pk_Xn (kp_public (iss_keypair i)) = [X1] ->
  try_from_bytes number = Ok n -> roster_open entry number (iss_system_parameters i) = Ok tt ->
  In (re_commitment entry) (listed ro v) ->
  allowed i ro v (forge_signal_presentation (iss_system_parameters i) X1 n z0 zQ entry os os') = Ok true.
Proof.
  intros E L i ro v number n entry X1 z0 zQ os os' Hc Hs HX Hn Ho Hin.
  destruct (single_cons i Hs) as [x1 Hx].
  destruct (C20_membership_without_credential_refuted E L i x1 number n entry z0 zQ os os' Hc Hx Hn Ho X1 HX) as [H1 H2].
  unfold allowed. rewrite H1. cbn [bind]. rewrite H2. cbn [bind]. f_equal. apply (contains_in L). exact Hin.
Qed.
Print Assumptions C107_without_credential_refuted.
(** A list of commitments says nothing about its members: for every choice
    of numbers, also all the same, there is exactly one choice of openings
    which makes them the members, and then they are all let in. *)
Theorem C107_any_members : forall E, ExtLaws E -> forall (i : Issuer E) ro v (ms : list scalar),
  sp_g (iss_system_parameters i) <> pzero -> consistent i -> single_attribute i ->
  List.length ms = List.length (listed ro v) ->
  exists entries : list (RosterEntryCommitment E),
    (map re_commitment entries = listed ro v /\
     Forall (fun e => canonical (re_opening e)) entries /\
     Forall2 (fun e m => commits (iss_system_parameters i) e m) entries ms) /\
    (forall entries' : list (RosterEntryCommitment E),
       map re_commitment entries' = listed ro v ->
       Forall (fun e => canonical (re_opening e)) entries' ->
       Forall2 (fun e m => commits (iss_system_parameters i) e m) entries' ms -> entries' = entries) /\
    Forall2 (fun e m => forall u, holds_for i u m -> let_in i ro v u e) entries ms.
Proof.
  intros E L i ro v ms Hg Hc Hs Hl.
  assert (H : exists entries : list (RosterEntryCommitment E),
    (map re_commitment entries = listed ro v /\
     Forall (fun e => canonical (re_opening e)) entries /\
     Forall2 (fun e m => commits (iss_system_parameters i) e m) entries ms) /\
    (forall entries' : list (RosterEntryCommitment E),
       map re_commitment entries' = listed ro v ->
       Forall (fun e => canonical (re_opening e)) entries' ->
       Forall2 (fun e m => commits (iss_system_parameters i) e m) entries' ms -> entries' = entries)).
  { revert Hl. generalize (listed ro v) as l. clear - L Hg.
    induction ms as [|m ms IH]; intros [|c l] Hl; try discriminate Hl.
    - exists []. repeat split; constructor || (intros [|] ? _ _; [reflexivity|discriminate]).
    - injection Hl as Hl. destruct (IH l Hl) as (es & (H1 & H2 & H3) & Hu).
      destruct (unique_opening L (sp_g (iss_system_parameters i)) (smul m (sp_h (iss_system_parameters i))) c Hg)
        as (k & [Hk1 Hk2] & Hk).
      exists ({| re_commitment := c; re_opening := k |} :: es). split.
      + split; [cbn; rewrite H1; reflexivity|]. split; [constructor; [exact Hk1|exact H2]|].
        constructor; [|exact H3]. unfold commits. cbn. symmetry. exact Hk2.
      + intros [|e es'] G1 G2 G3; [discriminate|]. injection G1 as <- G1.
        inversion G2 as [|? ? Ge G2']; subst. inversion G3 as [|? ? ? ? Gc G3']; subst.
        f_equal; [|exact (Hu es' eq_refl G2' G3') || (apply Hu; assumption)].
        destruct e as [c' z]. cbn in *. f_equal. symmetry. apply Hk. split; [exact Ge|].
        unfold commits in Gc. cbn in Gc. symmetry. exact Gc. }
  destruct H as (es & (H1 & H2 & H3) & Hu). exists es. split; [auto|]. split; [exact Hu|].
  assert (Hin : forall e, In e es -> In (re_commitment e) (listed ro v)).
  { intros e He. rewrite <- H1. apply in_map. exact He. }
  revert Hin. clear - L H3 Hc Hs. induction H3 as [|e m es ms He H3 IH]; intros Hin; constructor.
  - intros u Hu. apply (holder_let_in L i ro v u m e Hc Hs Hu He). apply Hin. left. reflexivity.
  - apply IH. intros e' He'. apply Hin. right. exact He'.
Qed.
Print Assumptions C107_any_members.
(** Taking commitments off a list does not take a person off: for every list
    of commitments there is another entry for the same number which is not
    among them, and wherever that one is listed the user stays in when all of
    those are taken off. *)
Theorem C107_removed_refuted : forall E, ExtLaws E -> forall (i : Issuer E) m (gone : list (point E)),
  sp_g (iss_system_parameters i) <> pzero -> consistent i -> single_attribute i ->
  Z.of_nat (List.length gone) < ell ->
  exists entry, commits (iss_system_parameters i) entry m /\ canonical (re_opening entry) /\
    ~ In (re_commitment entry) gone /\
    forall ro ro' v u, holds_for i u m -> In (re_commitment entry) (listed ro v) ->
      without gone (listed ro v) (listed ro' v) -> let_in i ro' v u entry.
Proof.
  intros E L i m gone Hg Hc Hs Hl.
  set (f := fun k : nat => padd (smul m (sp_h (iss_system_parameters i))) (smul (Z.of_nat k) (sp_g (iss_system_parameters i)))).
  assert (Hf : exists k, (k <= List.length gone)%nat /\ ~ In (f k) gone).
  { destruct (forallb (fun k => contains gone (f k)) (seq 0 (S (List.length gone)))) eqn:Ha.
    - exfalso. rewrite forallb_forall in Ha.
      assert (Hd : NoDup (map f (seq 0 (S (List.length gone))))).
      { assert (Hi : forall a b, (a <= List.length gone)%nat -> (b <= List.length gone)%nat -> f a = f b -> a = b).
        { intros a b Hla Hlb Hab. unfold f in Hab. apply (padd_cancel_l L) in Hab.
          apply (smul_inj L _ _ _ Hg) in Hab. apply eqm_canonical in Hab; [|unfold canonical; lia..]. lia. }
        assert (Hle : forall n a, (a + n <= S (List.length gone))%nat -> NoDup (map f (seq a n))).
        { induction n as [|n IHn]; intros a Han; cbn; constructor.
          - intros Hin. apply in_map_iff in Hin as (b & Hb & Hbs). apply in_seq in Hbs.
            apply Hi in Hb; lia.
          - apply IHn. lia. }
        apply Hle. lia. }
      assert (Hinc : incl (map f (seq 0 (S (List.length gone)))) gone).
      { intros c Hin. apply in_map_iff in Hin as (k & <- & Hk). apply (contains_in L). apply Ha. exact Hk. }
      pose proof (NoDup_incl_length Hd Hinc) as Hlen. rewrite map_length, seq_length in Hlen. lia.
    - assert (Hx : exists k, In k (seq 0 (S (List.length gone))) /\ contains gone (f k) = false).
      { clear - Ha. induction (seq 0 (S (List.length gone))) as [|x l IH]; cbn in Ha; [discriminate|].
        destruct (contains gone (f x)) eqn:Hx.
        - destruct (IH Ha) as (k & Hk & Hk'). exists k. split; [right; exact Hk|exact Hk'].
        - exists x. split; [left; reflexivity|exact Hx]. }
      destruct Hx as (k & Hk & Hk'). apply in_seq in Hk. exists k. split; [lia|]. apply (contains_out L). exact Hk'. }
  destruct Hf as (k & Hk & Hn). exists {| re_commitment := f k; re_opening := Z.of_nat k |}.
  assert (He : commits (iss_system_parameters i) {| re_commitment := f k; re_opening := Z.of_nat k |} m) by reflexivity.
  split; [exact He|]. split; [unfold canonical; cbn; lia|]. split; [exact Hn|].
  intros ro ro' v u Hu Hin Hw. apply (holder_let_in L i ro' v u m _ Hc Hs Hu He). apply Hw. split; [exact Hin|exact Hn].
Qed.
Print Assumptions C107_removed_refuted.
(** From a commitment alone anybody can compute the commitment of another
    entry for the same unknown number, or for one which differs from it by a
    chosen amount; every commitment to be listed is of the first kind. *)
Theorem C107_malleable_refuted : forall E, ExtLaws E -> forall (params : SystemParameters E) entry m,
  (forall d, commits params (shifted params d entry) m <-> commits params entry m) /\
  (forall k, commits params (renumbered params k entry) (m + k) <-> commits params entry m) /\
  (forall c, sp_g params <> pzero -> exists! d, canonical d /\ re_commitment (shifted params d entry) = c).
Proof.
  intros E L [g h] [c z] m. unfold commits, shifted, renumbered. cbn [re_commitment re_opening sp_g sp_h]. split; [|split].
  - intros d. rewrite (smul_mod L). split; intros H.
    + apply (padd_cancel_l L (smul d g)). rewrite (padd_comm E L _ c), H. clear - L. pring L.
    + rewrite H. clear - L. pring L.
  - intros k. split; intros H.
    + apply (padd_cancel_l L (smul k h)). rewrite (padd_comm E L _ c), H. clear - L. pring L.
    + rewrite H. clear - L. pring L.
  - intros c' Hg. exact (unique_opening L g c c' Hg).
Qed.
Print Assumptions C107_malleable_refuted.

(** ** Examples *)
(** An administrator with number 101 and a user with number 100. *)
Definition sample_roster : Roster toy :=
  {| ro_admins := [re_commitment (sample_entry 101)]; ro_users := [re_commitment (sample_entry 100)] |}.
Definition says (x : outcome CredentialError bool) (b : bool) : bool :=
  match x with Ok b' => Bool.eqb b b' | _ => false end.
Example C107_met_member : consistent sample_issuer /\ single_attribute sample_issuer /\
  holds_for sample_issuer sample_signal_holder 100 /\ commits sample_params (sample_entry 100) 100 /\
  sample_roster = fold_left (fun ro x => roster_push ro (fst x) (snd x))
    [(Admins, re_commitment (sample_entry 101)); (Users, re_commitment (sample_entry 100))] roster_new /\
  exists p r' os', signal_show sample_signal_holder (toy_stream 8) (toy_stream 9) (sample_entry 100) = Ok (p, r', os') /\
    says (allowed sample_issuer sample_roster Users p) true && says (allowed sample_issuer sample_roster Admins p) false &&
    says (allowed_bytes sample_issuer (map compress (ro_users sample_roster)) p) true = true.
Proof.
  split; [apply sample_consistent|]. split; [apply sample_consistent|].
  split; [split; [split; reflexivity|]; exists sample_credential; split; [reflexivity|apply sample_valid]|].
  split; [apply toy_eq; vm_compute; reflexivity|]. split; [reflexivity|]. apply run3. vm_compute. reflexivity.
Qed.
Example C107_met_only_own : ~ commits sample_params (sample_entry 101) 100 /\
  exists p r' os', signal_show sample_signal_holder (toy_stream 8) (toy_stream 9) (sample_entry 101) = Ok (p, r', os') /\
    is_ok (signal_verify sample_issuer p) && is_err (allowed sample_issuer sample_roster Admins p) = true.
Proof.
  split; [intros H; apply (f_equal tv) in H; vm_compute in H; discriminate|]. apply run3. vm_compute. reflexivity.
Qed.
Example C107_met_without_credential : pk_Xn (kp_public (iss_keypair sample_issuer)) = [pt 231] /\
  exists n, try_from_bytes (str "14155551234") = Ok n /\
    (let e := sample_entry n in
     let p := forge_signal_presentation sample_params (pt 231) n 2 3 e (toy_stream 1) (toy_stream 2) in
     is_ok (roster_open e (str "14155551234") sample_params) &&
     says (allowed sample_issuer {| ro_admins := [re_commitment e]; ro_users := [] |} Admins p) true &&
     says (allowed sample_issuer {| ro_admins := [re_commitment e]; ro_users := [] |} Users p) false) = true.
Proof. split; [reflexivity|]. apply run1. vm_compute. reflexivity. Qed.
(** Both on the lists may be the one with number 100. *)
Example C107_met_any_members : sp_g (iss_system_parameters sample_issuer) <> pzero /\
  List.length [100] = List.length (listed sample_roster Admins) /\
  let e := {| re_commitment := re_commitment (sample_entry 101); re_opening := 50 |} in
  commits sample_params e 100 /\ canonical (re_opening e).
Proof.
  split; [intros H; apply (f_equal tv) in H; vm_compute in H; discriminate|]. split; [reflexivity|].
  split; [apply toy_eq; vm_compute; reflexivity|]. vm_compute. split; [discriminate|reflexivity].
Qed.
Example C107_met_removed :
  let gone := [re_commitment (sample_entry 100)] in
  let other := {| re_commitment := pt (33 * 100 + 18); re_opening := 18 |} in
  Z.of_nat (List.length gone) < ell /\ commits sample_params other 100 /\ ~ In (re_commitment other) gone /\
  without gone (re_commitment other :: gone) [re_commitment other].
Proof.
  assert (Hn : pt (33 * 100 + 18) <> re_commitment (sample_entry 100))
    by (intros H; apply (f_equal tv) in H; vm_compute in H; discriminate).
  split; [vm_compute; reflexivity|]. split; [apply toy_eq; vm_compute; reflexivity|].
  split; [intros [H|[]]; apply Hn; symmetry; exact H|].
  intros c. cbn [In re_commitment]. split.
  - intros [<-|[]]. split; [left; reflexivity|]. intros [H|[]]. apply Hn. symmetry. exact H.
  - intros [[<-|[<-|[]]] H]; [left; reflexivity|]. exfalso. apply H. left. reflexivity.
Qed.
Example C107_met_malleable : re_commitment (shifted sample_params 5 (sample_entry 100)) = pt (33 * 100 + 22) /\
  re_commitment (renumbered sample_params 1 (sample_entry 100)) = re_commitment (sample_entry 101) /\
  commits sample_params (renumbered sample_params 1 (sample_entry 100)) 101.
Proof. repeat split; apply toy_eq; vm_compute; reflexivity. Qed.
