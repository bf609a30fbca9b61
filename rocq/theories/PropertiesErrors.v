(** C78: which error a decoder returns. *)
From Verif Require Import CompositeFacts PropertiesCodec SpecErrors Toy.
From Coq Require Import ZifyNat.

(** ** Reading a decoder as a list of faults *)
Definition agrees {Er A} (o : outcome Er A) (l : list (fault Er)) : Prop :=
  match o with
  | Ok _ => no_fault l
  | Err e => first_fault l (Reject e)
  | Panic => first_fault l Crash
  end.

Section agrees.
  Context {Er : Type}.
  Implicit Types (l : list (fault Er)) (v : ending Er).

  Lemma first_not_none l v : first_fault l v -> ~ no_fault l.
  Proof. induction l as [|[P w] l IH]; cbn; [tauto|]. intros [[H _]|[H1 H2]] [N1 N2]; tauto. Qed.
  Lemma first_unique l v v' : first_fault l v -> first_fault l v' -> v = v'.
  Proof.
    induction l as [|[P w] l IH]; cbn; [tauto|].
    intros [[H1 ->]|[H1 H2]] [[K1 ->]|[K1 K2]]; tauto.
  Qed.
  Lemma agrees_ends {A} (o : outcome Er A) l : agrees o l -> ends_by o l.
  Proof.
    intros H. destruct o as [a|e|]; cbn [agrees] in H; (split; [|split]).
    - split; eauto.
    - intros e. split; [discriminate|]. intros K. destruct (first_not_none _ _ K H).
    - split; [discriminate|]. intros K. destruct (first_not_none _ _ K H).
    - split; [intros [a ?]; discriminate|]. intros K. destruct (first_not_none _ _ H K).
    - intros e'. split; [intros [= <-]; exact H|]. intros K. pose proof (first_unique _ _ _ H K). congruence.
    - split; [discriminate|]. intros K. pose proof (first_unique _ _ _ H K). discriminate.
    - split; [intros [a ?]; discriminate|]. intros K. destruct (first_not_none _ _ H K).
    - intros e'. split; [discriminate|]. intros K. pose proof (first_unique _ _ _ H K). discriminate.
    - tauto.
  Qed.

  Lemma first_app l1 l2 v : no_fault l1 -> first_fault l2 v -> first_fault (l1 ++ l2)%list v.
  Proof. induction l1 as [|[P w] l1 IH]; cbn; [auto|]. intros [H1 H2] H. right. auto. Qed.
  Lemma first_app_l l1 l2 v : first_fault l1 v -> first_fault (l1 ++ l2)%list v.
  Proof. induction l1 as [|[P w] l1 IH]; cbn; [tauto|]. intros [H|[H1 H2]]; auto. Qed.
  Lemma none_app l1 l2 : no_fault l1 -> no_fault l2 -> no_fault (l1 ++ l2)%list.
  Proof. induction l1 as [|[P w] l1 IH]; cbn; [auto|]. intros [H1 H2] H. auto. Qed.

  Lemma agrees_bind {A B} (o : outcome Er A) (k : A -> outcome Er B) l1 l2 :
    agrees o l1 -> (forall a, o = Ok a -> no_fault l1 -> agrees (k a) l2) ->
    agrees (bind o k) (l1 ++ l2)%list.
  Proof.
    intros H1 H2. destruct o as [a|e|]; cbn [bind].
    - specialize (H2 a eq_refl H1). cbn [agrees] in H1.
      destruct (k a) as [c|e|]; cbn [agrees] in *; [apply none_app|apply first_app|apply first_app]; assumption.
    - apply first_app_l, H1.
    - apply first_app_l, H1.
  Qed.
  Lemma agrees_ok {A} (a : A) : agrees (Ok a) (@nil (fault Er)).
  Proof. exact I. Qed.
  Lemma agrees_ok_or {A} (e : Er) (x : option A) P : (x = None <-> P) -> agrees (ok_or e x) [(P, Reject e)].
  Proof.
    intros H. destruct x as [a|]; cbn.
    - split; [|exact I]. rewrite <- H. discriminate.
    - left. split; [apply H|]; reflexivity.
  Qed.
  Lemma agrees_or_panic {A} (x : option A) P : (x = None <-> P) -> agrees (or_panic x) [(P, @Crash Er)].
  Proof.
    intros H. destruct x as [a|]; cbn.
    - split; [|exact I]. rewrite <- H. discriminate.
    - left. split; [apply H|]; reflexivity.
  Qed.
  Lemma agrees_check {A} (c : bool) v (o k : outcome Er A) (P : Prop) l :
    match o with Ok _ => False | Err e => v = Reject e | Panic => v = Crash end ->
    (c = true <-> P) -> (~ P -> agrees k l) -> agrees (if c then o else k) ((P, v) :: l).
  Proof.
    intros Ho Hc Hk. destruct c.
    - destruct o as [a|e|]; [contradiction| |]; left; (split; [apply Hc; reflexivity|symmetry; exact Ho]).
    - assert (N : ~ P) by (rewrite <- Hc; discriminate). specialize (Hk N).
      destruct k as [a|e|]; cbn [agrees] in *; [split; assumption|right; split; assumption|right; split; assumption].
  Qed.
  Lemma agrees_drop {A} (o : outcome Er A) (P : Prop) v l : ~ P -> agrees o ((P, v) :: l) -> agrees o l.
  Proof. intros N. destruct o as [a|e|]; cbn; tauto. Qed.
  (** The same conditions, differently written. *)
  Definition same (x y : fault Er) : Prop := (fst x <-> fst y) /\ snd x = snd y.
  Lemma agrees_same {A} (o : outcome Er A) l l' : Forall2 same l l' -> agrees o l -> agrees o l'.
  Proof.
    intros H. assert (F : forall v, first_fault l v -> first_fault l' v).
    { intros v. induction H as [|[P w] [P' w'] l l' [H1 H2] Hl IH]; cbn in *; [auto|]. subst w'. tauto. }
    assert (N : no_fault l -> no_fault l').
    { clear F. induction H as [|[P w] [P' w'] l l' [H1 H2] Hl IH]; cbn in *; [auto|]. tauto. }
    destruct o; cbn [agrees]; auto.
  Qed.
End agrees.

Definition ending_map {Er Er'} (f : Er -> Er') (v : ending Er) : ending Er' :=
  match v with Reject e => Reject (f e) | Crash => Crash end.
Lemma agrees_map_err {Er Er' A} (f : Er -> Er') (o : outcome Er A) l :
  agrees o l -> agrees (map_err f o) (map (fun x => (fst x, ending_map f (snd x))) l).
Proof.
  assert (F : forall v, first_fault l v -> first_fault (map (fun x => (fst x, ending_map f (snd x))) l) (ending_map f v)).
  { intros v. induction l as [|[P w] l IH]; cbn; [auto|]. intros [[H1 ->]|[H1 H2]]; auto. }
  assert (N : no_fault l -> no_fault (map (fun x => (fst x, ending_map f (snd x))) l)).
  { clear F. induction l as [|[P w] l IH]; cbn; [auto|]. tauto. }
  destruct o as [a|e|]; cbn [agrees map_err]; [exact N| |]; apply F.
Qed.

(** ** Fields of fields *)
Lemma field_field off n o m (b : bytes) : (o + m <= n)%nat -> field o m (field off n b) = field (off + o) m b.
Proof.
  intros H. unfold field. rewrite skipn_firstn_comm, firstn_firstn, skipn_skipn', Nat.min_l by lia.
  rewrite Nat.add_comm. reflexivity.
Qed.
Lemma field_skipn off o m (b : bytes) : field o m (skipn off b) = field (off + o) m b.
Proof. unfold field. rewrite skipn_skipn', Nat.add_comm. reflexivity. Qed.
Lemma field_length off n (b : bytes) : (off + n <= List.length b)%nat -> List.length (field off n b) = n.
Proof. intros H. unfold field. rewrite firstn_length, skipn_length. lia. Qed.
Lemma field_whole n (b : bytes) : List.length b = n -> field 0 n b = b.
Proof. apply field_all. Qed.
Lemma slice_field a n (b : bytes) : (a <= n)%nat -> (n <= List.length b)%nat -> slice a n b = Some (field a (n - a) b).
Proof. apply slice_some. Qed.
Lemma field_to_end off n (b : bytes) : List.length b = (off + n)%nat -> skipn off b = field off n b.
Proof. intros H. unfold field. symmetry. apply firstn_all2. rewrite skipn_length. lia. Qed.

Section errors.
  Context {E : Ext} (L : ExtLaws E).

  Lemma decompress_none b : @decompress E b = None <-> ~ exists P : point E, b = compress P.
  Proof.
    split.
    - intros H [P HP]. apply (decompress_iff L) in HP. congruence.
    - intros H. destruct (decompress b) as [P|] eqn:HP; [|reflexivity].
      apply (decompress_iff L) in HP. destruct H. eauto.
  Qed.
  Lemma canonical_none b : List.length b = 32%nat ->
    (from_canonical_bytes b = None <-> ~ exists s, canonical s /\ b = le32 s).
  Proof.
    intros Hl. split.
    - intros H (s & Hs & ->). pose proof (from_canonical_to_bytes s Hs) as K.
      unfold scalar_to_bytes in K. unfold le32 in H. congruence.
    - intros H. destruct (from_canonical_bytes b) as [s|] eqn:Hs; [|reflexivity].
      apply from_canonical_inv in Hs; [|exact Hl]. destruct H. exists s. exact Hs.
  Qed.
  Lemma bad_point_field off o n b : (o + 32 <= n)%nat -> (bad_point E o (field off n b) <-> bad_point E (off + o) b).
  Proof. intros H. unfold bad_point. rewrite field_field by exact H. reflexivity. Qed.
  Lemma bad_scalar_field off o n b : (o + 32 <= n)%nat -> (bad_scalar o (field off n b) <-> bad_scalar (off + o) b).
  Proof. intros H. unfold bad_scalar. rewrite field_field by exact H. reflexivity. Qed.

  (** *** Proofs *)
  Lemma prefixed_scalars_inv l off (b : bytes) : Forall canonical l -> l <> [] -> prefixed_scalars off l b ->
    exists rest, skipn off b = (bincode_serialize l ++ rest)%list.
  Proof.
    revert off. induction l as [|s l IH]; intros off Hc Hn Hp; [contradiction|].
    inversion Hc as [|? ? Hs Hl]; subst. cbn [prefixed_scalars] in Hp. destruct Hp as (H1 & H2 & H3).
    assert (K : skipn off b = (bincode_scalar s ++ skipn (off + 40) b)%list).
    { rewrite <- (firstn_skipn 8 (skipn off b)). rewrite <- (firstn_skipn 32 (skipn 8 (skipn off b))).
      rewrite !skipn_skipn'. replace (32 + (8 + off))%nat with (off + 40)%nat by lia.
      replace (8 + off)%nat with (off + 8)%nat by lia.
      unfold field in H1, H2. rewrite H1, H2. unfold bincode_scalar, scalar_serialize_bytes, le32, scalar_to_bytes.
      rewrite <- app_assoc. reflexivity. }
    destruct l as [|s' l].
    - exists (skipn (off + 40) b). rewrite K. cbn [bincode_serialize flat_map]. rewrite app_nil_r. reflexivity.
    - destruct (IH _ Hl ltac:(discriminate) H3) as [rest Hr]. exists rest. rewrite K, Hr.
      change (bincode_serialize (s :: s' :: l)) with (bincode_scalar s ++ bincode_serialize (s' :: l))%list.
      rewrite app_assoc. reflexivity.
  Qed.
  Lemma deserialize_none n off (b : bytes) : (0 < n)%nat -> (off <= List.length b)%nat ->
    (bincode_deserialize n (skipn off b) = None <-> bad_proof n off b).
  Proof.
    intros Hn Ho. unfold bad_proof. split.
    - intros H (l & Hl & Hc & Hp). destruct (prefixed_scalars_inv l off b Hc) as [rest Hr]; [intros ->; cbn in Hl; lia|exact Hp|].
      rewrite (proj2 (bincode_deserialize_iff n (skipn off b) l)) in H; [discriminate|]. eauto.
    - intros H. destruct (bincode_deserialize n (skipn off b)) as [l|] eqn:Hd; [|reflexivity].
      apply bincode_deserialize_iff in Hd as (Hl & Hc & rest & Hr). destruct H. exists l. split; [exact Hl|]. split; [exact Hc|].
      rewrite <- (firstn_skipn off b), Hr. apply prefixed_scalars_ok. rewrite firstn_length. lia.
  Qed.
  Lemma ir_none off (b : bytes) : (off <= List.length b)%nat -> (ir_deserialize (skipn off b) = None <-> bad_proof 5 off b).
  Proof.
    intros H. rewrite <- deserialize_none by (lia || exact H). unfold ir_deserialize.
    destruct (bincode_deserialize 5 (skipn off b)) as [l|] eqn:Hd; [|tauto].
    apply bincode_deserialize_iff in Hd as (Hl & _). do 6 (destruct l; try discriminate). split; discriminate.
  Qed.
  Lemma vc_none off (b : bytes) : (off <= List.length b)%nat -> (vc_deserialize (skipn off b) = None <-> bad_proof 4 off b).
  Proof.
    intros H. rewrite <- deserialize_none by (lia || exact H). unfold vc_deserialize.
    destruct (bincode_deserialize 4 (skipn off b)) as [l|] eqn:Hd; [|tauto].
    apply bincode_deserialize_iff in Hd as (Hl & _). do 5 (destruct l; try discriminate). split; discriminate.
  Qed.
  Lemma ce_none off (b : bytes) : (off <= List.length b)%nat -> (ce_deserialize (skipn off b) = None <-> bad_proof 4 off b).
  Proof.
    intros H. rewrite <- deserialize_none by (lia || exact H). unfold ce_deserialize.
    destruct (bincode_deserialize 4 (skipn off b)) as [l|] eqn:Hd; [|tauto].
    apply bincode_deserialize_iff in Hd as (Hl & _). do 5 (destruct l; try discriminate). split; discriminate.
  Qed.
  Lemma prefixed_scalars_field l off n o (b : bytes) : (o + 40 * List.length l <= n)%nat ->
    (prefixed_scalars o l (field off n b) <-> prefixed_scalars (off + o) l b).
  Proof.
    revert o. induction l as [|s l IH]; intros o H; cbn [prefixed_scalars List.length] in *; [tauto|].
    rewrite !field_field by lia. rewrite IH by lia. rewrite !Nat.add_assoc. reflexivity.
  Qed.
  Lemma bad_proof_field k off n o (b : bytes) : (o + 40 * k <= n)%nat -> (bad_proof k o (field off n b) <-> bad_proof k (off + o) b).
  Proof.
    intros H. unfold bad_proof. apply not_iff_compat. split; intros (l & Hl & Hc & Hp); exists l; (split; [exact Hl|split; [exact Hc|]]);
      (apply (prefixed_scalars_field l off n o b); [unfold scalar in *; lia|exact Hp]).
  Qed.

  (** *** Lists of items *)
  Lemma agrees_items {Er A} (f : bytes -> outcome Er A) (bad : bytes -> Prop) e n b :
    (forall c, List.length c = 32%nat -> agrees (f c) [(bad c, Reject e)]) ->
    List.length b = (32 * n)%nat ->
    agrees (try_map f (chunks 32 b)) [(exists i, (i < n)%nat /\ bad (field (32 * i) 32 b), Reject e)].
  Proof.
    intros Hf. revert b. induction n as [|n IH]; intros b Hl.
    - destruct b; [|cbn in Hl; lia]. cbn. split; [|exact I]. intros (i & Hi & _). lia.
    - rewrite chunks_split by lia. change (try_map f (firstn 32 b :: chunks 32 (skipn 32 b)))
        with (do y <- f (field 0 32 b); do ys <- try_map f (chunks 32 (skipn 32 b)); Ok (y :: ys)).
      assert (H0 : List.length (field 0 32 b) = 32%nat) by (apply field_length; lia).
      specialize (Hf _ H0). specialize (IH (skipn 32 b)). rewrite skipn_length in IH. specialize (IH ltac:(lia)).
      assert (Hx : forall i, field (32 * i) 32 (skipn 32 b) = field (32 * S i) 32 b).
      { intros i. rewrite field_skipn. f_equal. lia. }
      destruct (f (field 0 32 b)) as [a|e'|]; cbn [bind agrees] in *.
      + destruct (try_map f (chunks 32 (skipn 32 b))) as [ys|e'|]; cbn [bind agrees] in *.
        * destruct Hf as [Hf _], IH as [IH _]. split; [|exact I]. intros (i & Hi & Hb). destruct i as [|i].
          -- apply Hf, Hb.
          -- apply IH. exists i. split; [lia|]. rewrite Hx. exact Hb.
        * destruct IH as [[(i & Hi & Hb) IH]|[_ []]]. left. split; [|exact IH]. exists (S i). split; [lia|]. rewrite <- Hx. exact Hb.
        * destruct IH as [[(i & Hi & Hb) IH]|[_ []]]. discriminate.
      + destruct Hf as [[Hf ->]|[_ []]]. left. split; [|reflexivity]. exists 0%nat. split; [lia|exact Hf].
      + destruct Hf as [[_ Hf]|[_ []]]. discriminate.
  Qed.

  (** *** The decoders *)
  Lemma decompress_at off b : @decompress E (field off 32 b) = None <-> bad_point E off b.
  Proof. apply decompress_none. Qed.
  Lemma canonical_at off b : (off + 32 <= List.length b)%nat ->
    (from_canonical_bytes (field off 32 b) = None <-> bad_scalar off b).
  Proof. intros H. apply canonical_none, field_length, H. Qed.
  Lemma negb_eqb a b : negb (a =? b)%nat = true <-> a <> b.
  Proof. destruct (Nat.eqb_spec a b); cbn; split; congruence. Qed.
  Lemma ltb_true a b : (a <? b)%nat = true <-> (a < b)%nat.
  Proof. apply Nat.ltb_lt. Qed.
  Lemma not_neq (a b : nat) : ~ a <> b -> a = b.
  Proof. lia. Qed.

  Lemma agrees_point off b {Er} (e : Er) : agrees (ok_or e (@decompress E (field off 32 b))) [(bad_point E off b, Reject e)].
  Proof. apply agrees_ok_or, decompress_at. Qed.
  Lemma agrees_scalar off b {Er} (e : Er) : (off + 32 <= List.length b)%nat ->
    agrees (ok_or e (from_canonical_bytes (field off 32 b))) [(bad_scalar off b, Reject e)].
  Proof. intros H. apply agrees_ok_or, canonical_at, H. Qed.

  Lemma system_parameters_agrees b : agrees (@system_parameters_from_bytes E b) (system_parameters_faults E b).
  Proof.
    apply agrees_check; [reflexivity|apply negb_eqb|]. intros N. apply not_neq in N.
    rewrite !slice_field by lia. cbn [or_panic bind Nat.sub].
    refine (agrees_bind _ _ [_] _ (agrees_point 0 b _) _). intros g _ _.
    refine (agrees_bind _ _ [_] _ (agrees_point 32 b _) _). intros h _ _. apply agrees_ok.
  Qed.
  Lemma tag_agrees b : agrees (@tag_from_bytes E b) (tag_faults E b).
  Proof.
    apply agrees_check; [reflexivity|apply negb_eqb|]. intros N. apply not_neq in N.
    rewrite !slice_field by lia. cbn [or_panic bind Nat.sub].
    refine (agrees_bind _ _ [_] _ (agrees_point 0 b _) _). intros g _ _.
    refine (agrees_bind _ _ [_] _ (agrees_point 32 b _) _). intros h _ _. apply agrees_ok.
  Qed.
  Lemma mod_length {A} (b : list A) n : ~ Nat.modulo (List.length b) n <> 0%nat -> n <> 0%nat ->
    List.length b = (n * (List.length b / n))%nat.
  Proof. intros H Hn. pose proof (Nat.div_mod (List.length b) n Hn). lia. Qed.
  Lemma public_key_agrees b : agrees (@public_key_from_bytes E b) (public_key_faults E b).
  Proof.
    apply agrees_check; [reflexivity|apply negb_eqb|]. intros N. apply mod_length in N; [|lia].
    refine (agrees_bind _ _ [_] [] _ _); [|intros Xn _ _; apply agrees_ok].
    eapply agrees_same; [|apply (agrees_items _ (bad_point E 0)); [|exact N]].
    - constructor; [|constructor]. split; [|reflexivity]. cbn [fst]. unfold bad_points, bad_point. cbn [Nat.add].
      split; intros (i & Hi & H); exists i; (split; [exact Hi|]); revert H; rewrite field_whole by (apply field_length; lia); exact id.
    - intros c Hc. rewrite <- (field_whole 32 c Hc) at 1. apply agrees_point.
  Qed.

  Lemma bad_scalars_items n b : List.length b = (32 * n)%nat ->
    ((exists i, (i < n)%nat /\ bad_scalar 0 (field (32 * i) 32 b)) <-> bad_scalars 0 n b).
  Proof.
    intros N. unfold bad_scalars, bad_scalar. cbn [Nat.add].
    split; intros (i & Hi & H); exists i; (split; [exact Hi|]); revert H; rewrite field_whole by (apply field_length; lia); exact id.
  Qed.
  Lemma empty_length (b : bytes) : (List.length b =? 0)%nat = true <-> b = [].
  Proof. destruct b; cbn; split; congruence. Qed.
  Lemma secret_key_agrees b : agrees (secret_key_from_bytes b) (secret_key_faults b).
  Proof.
    apply agrees_check; [reflexivity|apply negb_eqb|]. intros N. apply mod_length in N; [|lia].
    apply agrees_check; [reflexivity|apply empty_length|]. intros Hb.
    refine (agrees_bind _ _ [_] [] _ _).
    - eapply agrees_same; [|apply (agrees_items _ (bad_scalar 0)); [|exact N]].
      + constructor; [|constructor]. split; [|reflexivity]. cbn [fst]. apply bad_scalars_items, N.
      + intros c Hc. rewrite <- (field_whole 32 c Hc) at 1. apply agrees_scalar. lia.
    - intros xs Hx _. destruct xs as [|x xs]; [|apply agrees_ok]. exfalso.
      apply try_map_ok in Hx. inversion Hx as [H|]. symmetry in H.
      destruct (chunks_exact 32 b (List.length b / 32)) as (_ & Hk & _); [lia|lia|]. rewrite H in Hk. rewrite <- Hk in N.
      destruct b; [congruence|discriminate N].
  Qed.
  Lemma bad_points_skip o off n m b : (o + 32 * m <= n)%nat -> (bad_points E o m (field off n b) <-> bad_points E (off + o) m b).
  Proof.
    intros H. unfold bad_points. split; intros (i & Hi & Hb); exists i; (split; [exact Hi|]); revert Hb;
      rewrite bad_point_field by lia; rewrite Nat.add_assoc; exact id.
  Qed.
  Lemma bad_scalars_skip o off n m b : (o + 32 * m <= n)%nat -> (bad_scalars o m (field off n b) <-> bad_scalars (off + o) m b).
  Proof.
    intros H. unfold bad_scalars. split; intros (i & Hi & Hb); exists i; (split; [exact Hi|]); revert Hb;
      rewrite bad_scalar_field by lia; rewrite Nat.add_assoc; exact id.
  Qed.
  Lemma div32 n : (32 * n / 32 = n)%nat.
  Proof. rewrite Nat.mul_comm. apply Nat.div_mul. lia. Qed.
  (** The keys inside a longer string. *)
  Lemma public_key_at off n b : (off + 32 * n <= List.length b)%nat ->
    agrees (@public_key_from_bytes E (field off (32 * n) b)) [(bad_points E off n b, Reject MacPointDecompressionError)].
  Proof.
    intros H. pose proof (public_key_agrees (field off (32 * n) b)) as K. unfold public_key_faults in K.
    rewrite field_length, mod32, div32 in K by exact H. apply agrees_drop in K; [|congruence].
    eapply agrees_same; [|exact K]. constructor; [|constructor]. split; [|reflexivity]. cbn [fst].
    rewrite bad_points_skip, Nat.add_0_r by lia. reflexivity.
  Qed.
  Lemma secret_key_at off n b : (off + 32 * n <= List.length b)%nat -> (0 < n)%nat ->
    agrees (secret_key_from_bytes (field off (32 * n) b)) [(bad_scalars off n b, Reject MacScalarFormatError)].
  Proof.
    intros H Hn. pose proof (secret_key_agrees (field off (32 * n) b)) as K. unfold secret_key_faults in K.
    pose proof (field_length off (32 * n) b H) as Hl.
    rewrite Hl, mod32, div32 in K. apply agrees_drop in K; [|congruence].
    apply agrees_drop in K; [|intros Hb; rewrite Hb in Hl; cbn [List.length] in Hl; lia].
    eapply agrees_same; [|exact K]. constructor; [|constructor]. split; [|reflexivity]. cbn [fst].
    rewrite bad_scalars_skip, Nat.add_0_r by lia. reflexivity.
  Qed.
  Lemma keypair_agrees b : agrees (@keypair_from_bytes E b) (keypair_faults E b).
  Proof.
    destruct (le_lt_dec 32 (List.length b)) as [H|H].
    - rewrite keypair_long by exact H.
      assert (D : agrees (if negb (Nat.modulo (List.length b) 64 =? 32)%nat then Err KeypairDeserialisation else
         do public <- @public_key_from_bytes E (firstn ((List.length b - 32) / 2) b);
         do secret <- secret_key_from_bytes (skipn ((List.length b - 32) / 2) b);
         Ok {| kp_public := public; kp_secret := secret |}) (tl (keypair_faults E b))).
      { apply agrees_check; [reflexivity|apply negb_eqb|]. intros N. apply not_neq in N.
        set (k := ((List.length b - 32) / 64)%nat).
        assert (Hk : List.length b = (32 + 64 * k)%nat).
        { pose proof (Nat.div_mod (List.length b) 64 ltac:(lia)) as Hd. rewrite N in Hd.
          assert (k = List.length b / 64)%nat; [|lia]. unfold k. rewrite Hd at 1.
          replace (64 * (List.length b / 64) + 32 - 32)%nat with ((List.length b / 64) * 64)%nat by lia. apply Nat.div_mul. lia. }
        clearbody k. replace ((List.length b - 32) / 2)%nat with (32 * k)%nat
          by (rewrite Hk; replace (32 + 64 * k - 32)%nat with (32 * k * 2)%nat by lia; rewrite Nat.div_mul; lia).
        refine (agrees_bind _ _ [_] _ (public_key_at 0 k b _) _); [lia|]. intros public _ _.
        rewrite (field_to_end (32 * k) (32 * (k + 1)) b) by lia.
        refine (agrees_bind _ _ [_] [] (secret_key_at (32 * k) (k + 1) b _ _) _); [lia|lia|]. intros secret _ _. apply agrees_ok. }
      destruct (Nat.eqb_spec (Nat.modulo (List.length b) 64) 32) as [Hm|Hm]; cbn [negb] in D;
        unfold keypair_faults in *; cbn [tl] in D;
        [set (o := bind _ _) in *|set (o := Err _) in *];
        apply (agrees_check false (if debug_build E then Crash else Reject KeypairDeserialisation)
                            (if debug_build E then Panic else Err KeypairDeserialisation));
        try (destruct (debug_build E); reflexivity); try (split; [discriminate|lia]); intros _; exact D.
    - rewrite (keypair_short L) by exact H. unfold keypair_faults.
      destruct (debug_build E); left; (split; [exact H|reflexivity]).
  Qed.

  Lemma commitment_agrees b : agrees (@commitment_from_bytes E b) (commitment_faults E b).
  Proof.
    unfold commitment_from_bytes, commitment_faults.
    refine (agrees_bind _ _ [_] [_] _ _).
    - apply agrees_or_panic. apply slice_none. lia.
    - intros tmp Ht _. apply or_panic_ok in Ht. pose proof (slice_length _ _ _ _ Ht) as [_ K].
      rewrite slice_field in Ht by lia. injection Ht as <-.
      apply agrees_point.
  Qed.
  Lemma commitment_at off b : (off + 32 <= List.length b)%nat ->
    agrees (@commitment_from_bytes E (field off 32 b)) [(bad_point E off b, Reject MissingData)].
  Proof.
    intros H. pose proof (commitment_agrees (field off 32 b)) as K. unfold commitment_faults in K.
    rewrite field_length in K by exact H. apply agrees_drop in K; [|lia].
    eapply agrees_same; [|exact K]. constructor; [|constructor]. split; [|reflexivity]. cbn [fst].
    rewrite bad_point_field, Nat.add_0_r by lia. reflexivity.
  Qed.
  Lemma elgamal_public_agrees b : agrees (@elgamal_public_from_bytes E b) (elgamal_public_faults E b).
  Proof.
    apply agrees_check; [reflexivity|apply negb_eqb|]. intros N. apply not_neq in N.
    rewrite <- (field_whole 32 b N) at 1. apply agrees_point.
  Qed.
  Lemma elgamal_secret_agrees b : agrees (elgamal_secret_from_bytes b) (elgamal_secret_faults b).
  Proof.
    apply agrees_check; [reflexivity|apply negb_eqb|]. intros N. apply not_neq in N.
    rewrite <- (field_whole 32 b N) at 1. apply agrees_scalar. lia.
  Qed.
  Lemma elgamal_keypair_agrees b : agrees (@elgamal_keypair_from_bytes E b) (elgamal_keypair_faults E b).
  Proof.
    apply agrees_check; [reflexivity|apply negb_eqb|]. intros N. apply not_neq in N.
    rewrite !slice_field by lia. cbn [or_panic bind Nat.sub].
    refine (agrees_bind _ _ [_] _ _ _).
    - pose proof (elgamal_secret_agrees (field 0 32 b)) as K. unfold elgamal_secret_faults in K.
      rewrite field_length in K by lia. apply agrees_drop in K; [|congruence].
      eapply agrees_same; [|exact K]. constructor; [|constructor]. split; [|reflexivity]. cbn [fst].
      apply bad_scalar_field. lia.
    - intros secret _ _. refine (agrees_bind _ _ [_] [] _ _); [|intros public _ _; apply agrees_ok].
      pose proof (elgamal_public_agrees (field 32 32 b)) as K. unfold elgamal_public_faults in K.
      rewrite field_length in K by lia. apply agrees_drop in K; [|congruence].
      eapply agrees_same; [|exact K]. constructor; [|constructor]. split; [|reflexivity]. cbn [fst].
      apply (bad_point_field 32 0). lia.
  Qed.
  Lemma attribute_at off b : (off + 32 <= List.length b)%nat ->
    agrees (attribute_from_chunk (field off 32 b)) [(bad_scalar off b, Reject ScalarFormatError)].
  Proof.
    intros H. unfold attribute_from_chunk, to_array. rewrite field_length by exact H. cbn [Nat.eqb or_panic bind].
    apply agrees_scalar, H.
  Qed.
  Lemma request_agrees b : agrees (request_from_bytes b) (request_faults b).
  Proof.
    apply agrees_check; [reflexivity|apply negb_eqb|]. intros N. apply mod_length in N; [|lia].
    refine (agrees_bind _ _ [_] [] _ _); [|intros xs _ _; apply agrees_ok].
    eapply agrees_same; [|apply (agrees_items _ (bad_scalar 0)); [|exact N]].
    - constructor; [|constructor]. split; [|reflexivity]. cbn [fst]. apply bad_scalars_items, N.
    - intros c Hc. rewrite <- (field_whole 32 c Hc) at 1. apply attribute_at. lia.
  Qed.
  Lemma tag_at off b : (off + 64 <= List.length b)%nat ->
    agrees (@tag_from_bytes E (field off 64 b))
      [(bad_point E off b, Reject MacPointDecompressionError); (bad_point E (off + 32) b, Reject MacPointDecompressionError)].
  Proof.
    intros H. pose proof (tag_agrees (field off 64 b)) as K. unfold tag_faults in K.
    rewrite field_length in K by exact H. apply agrees_drop in K; [|congruence].
    eapply agrees_same; [|exact K]. constructor; [|constructor; [|constructor]]; (split; [|reflexivity]); cbn [fst].
    - rewrite bad_point_field, Nat.add_0_r by lia. reflexivity.
    - apply bad_point_field. lia.
  Qed.
  Lemma chunks_one (b : bytes) : List.length b = 32%nat -> chunks 32 b = [b].
  Proof. intros H. rewrite <- (app_nil_r b) at 1. rewrite chunks_app by (lia || exact H). reflexivity. Qed.
  Lemma credential_agrees b : agrees (@credential_from_bytes E b) (credential_faults E b).
  Proof.
    apply agrees_check; [reflexivity| |].
    - rewrite !orb_true_iff, !negb_eqb, ltb_true. unfold SIZEOF_CREDENTIAL. split; [|tauto].
      intros [[H|H]|H]; [|lia|exact H]. intros K. rewrite K in H. apply H. reflexivity.
    - intros N. apply not_neq in N. rewrite slice_field, slice_from_some by lia. cbn [or_panic bind Nat.sub].
      refine (agrees_bind _ _ [_; _] _ (agrees_map_err _ _ _ (tag_at 0 b _)) _); [lia|]. intros t _ _.
      rewrite (field_to_end 64 32) by lia. rewrite chunks_one by (apply field_length; lia).
      cbn [try_map]. refine (agrees_bind _ _ [_] [] _ _); [|intros xs _ _; apply agrees_ok].
      refine (agrees_bind _ _ [_] [] (attribute_at 64 b _) _); [lia|]. intros x _ _. apply agrees_ok.
  Qed.
  Lemma credential_at off b : (off + 96 <= List.length b)%nat ->
    agrees (@credential_from_bytes E (field off 96 b))
      [(bad_point E off b, Reject NoIssuerParameters); (bad_point E (off + 32) b, Reject NoIssuerParameters);
       (bad_scalar (off + 64) b, Reject ScalarFormatError)].
  Proof.
    intros H. pose proof (credential_agrees (field off 96 b)) as K. unfold credential_faults in K.
    rewrite field_length in K by exact H. apply agrees_drop in K; [|congruence].
    eapply agrees_same; [|exact K]. constructor; [|constructor; [|constructor; [|constructor]]]; (split; [|reflexivity]); cbn [fst].
    - rewrite bad_point_field, Nat.add_0_r by lia. reflexivity.
    - apply bad_point_field. lia.
    - apply bad_scalar_field. lia.
  Qed.
  Lemma agrees_slice {Er} a n (b : bytes) : (a <= n)%nat -> agrees (or_panic (slice a n b)) [((List.length b < n)%nat, @Crash Er)].
  Proof. intros H. apply agrees_or_panic, slice_none, H. Qed.
  Lemma slice_is a n (b c : bytes) : @or_panic CredentialError _ (slice a n b) = Ok c -> c = field a (n - a) b /\ (a <= n <= List.length b)%nat.
  Proof.
    intros H. apply or_panic_ok in H. pose proof (slice_length _ _ _ _ H) as [_ K]. split; [|exact K].
    rewrite slice_field in H by lia. congruence.
  Qed.
  Lemma issuance_agrees b : agrees (@issuance_from_bytes E b) (issuance_faults E b).
  Proof.
    unfold issuance_from_bytes, issuance_faults, SIZEOF_CREDENTIAL.
    refine (agrees_bind _ _ [_] _ (agrees_slice 0 32 b _) _); [lia|]. intros cb Hc _.
    apply slice_is in Hc as [-> Hc]. cbn [Nat.sub].
    refine (agrees_bind _ _ [_] _ (commitment_at 0 b _) _); [lia|]. intros c _ _.
    refine (agrees_bind _ _ [_] _ (agrees_slice 32 128 b _) _); [lia|]. intros kb Hk _.
    apply slice_is in Hk as [-> Hk]. cbn [Nat.sub].
    refine (agrees_bind _ _ [_; _; _] _ (credential_at 32 b _) _); [lia|]. intros k _ _.
    rewrite slice_from_some by (cbn; lia). cbn [or_panic bind].
    refine (agrees_bind _ _ [_] [] _ _); [|intros p _ _; apply agrees_ok].
    apply agrees_ok_or, ir_none. cbn. lia.
  Qed.

  Lemma presentation_agrees b : agrees (@presentation_from_bytes E b) (presentation_faults E b).
  Proof.
    apply agrees_check; [reflexivity|apply negb_eqb|]. intros _.
    change (32 * (PRESENTATION_NUMBER_OF_REVEALED_ATTRIBUTES + PRESENTATION_NUMBER_OF_BLINDED_ATTRIBUTES))%nat with 32%nat. cbv zeta.
    refine (agrees_bind _ _ [_] _ (agrees_slice 0 32 b _) _); [lia|]. intros cb Hc _.
    apply slice_is in Hc as [-> Hc]. cbn [Nat.sub].
    refine (agrees_bind _ _ [_] _ (commitment_at 0 b _) _); [lia|]. intros c _ _.
    refine (agrees_bind _ _ [_] _ (agrees_slice 32 64 b _) _); [lia|]. intros nb Hn _.
    apply slice_is in Hn as [-> Hn]. cbn [Nat.sub].
    refine (agrees_bind _ _ [_] _ (agrees_point 32 b _) _). intros n _ _.
    refine (agrees_bind _ _ [_] _ (agrees_slice 64 96 b _) _); [lia|]. intros ab Ha _.
    apply slice_is in Ha as [-> Ha]. cbn [Nat.sub].
    rewrite chunks_one by (apply field_length; lia).
    refine (agrees_bind _ _ [_] _ _ _).
    - cbn [presentation_attributes]. change (0 <? PRESENTATION_NUMBER_OF_REVEALED_ATTRIBUTES)%nat with false. cbv iota.
      refine (agrees_bind _ _ [_] [] _ _).
      + exact (agrees_map_err _ _ _ (commitment_at 64 b ltac:(lia))).
      + intros x _ _. apply agrees_ok.
    - intros [revealed blinded] _ _. change (64 + 32)%nat with 96%nat. rewrite slice_from_some by lia. cbn [or_panic bind].
      refine (agrees_bind _ _ [_] [] _ _); [|intros p _ _; apply agrees_ok].
      apply agrees_ok_or, vc_none. lia.
  Qed.
  Lemma presentation_at off b : (off + 256 <= List.length b)%nat ->
    agrees (@presentation_from_bytes E (field off 256 b))
      [(bad_point E off b, Reject MissingData); (bad_point E (off + 32) b, Reject MissingData);
       (bad_point E (off + 64) b, Reject PointDecompressionError); (bad_proof 4 (off + 96) b, Reject MissingData)].
  Proof.
    intros H. pose proof (presentation_agrees (field off 256 b)) as K. unfold presentation_faults in K.
    rewrite field_length in K by exact H. apply agrees_drop in K; [|intros N; apply N; reflexivity].
    apply agrees_drop in K; [|lia].
    assert (K' : agrees (@presentation_from_bytes E (field off 256 b))
      [(bad_point E 0 (field off 256 b), Reject MissingData); (bad_point E 32 (field off 256 b), Reject MissingData);
       (bad_point E 64 (field off 256 b), Reject PointDecompressionError); (bad_proof 4 96 (field off 256 b), Reject MissingData)]).
    { clear -K. assert (N1 : ~ (256 < 64)%nat) by lia. assert (N2 : ~ (256 < 96)%nat) by lia.
      destruct (presentation_from_bytes (field off 256 b)); cbn [agrees first_fault no_fault] in *; tauto. }
    eapply agrees_same; [|exact K'].
    constructor; [|constructor; [|constructor; [|constructor; [|constructor]]]]; (split; [|reflexivity]); cbn [fst].
    - rewrite bad_point_field, Nat.add_0_r by lia. reflexivity.
    - apply bad_point_field. lia.
    - apply bad_point_field. lia.
    - apply bad_proof_field. lia.
  Qed.
  Lemma system_parameters_at off b : (off + 64 <= List.length b)%nat ->
    agrees (@system_parameters_from_bytes E (field off 64 b))
      [(bad_point E off b, Reject PointDecompressionError); (bad_point E (off + 32) b, Reject PointDecompressionError)].
  Proof.
    intros H. pose proof (system_parameters_agrees (field off 64 b)) as K. unfold system_parameters_faults in K.
    rewrite field_length in K by exact H. apply agrees_drop in K; [|congruence].
    eapply agrees_same; [|exact K]. constructor; [|constructor; [|constructor]]; (split; [|reflexivity]); cbn [fst].
    - rewrite bad_point_field, Nat.add_0_r by lia. reflexivity.
    - apply bad_point_field. lia.
  Qed.
  Lemma issuer_agrees b : agrees (@issuer_from_bytes E b) (issuer_faults E b).
  Proof.
    apply agrees_check; [reflexivity|apply ltb_true|]. intros N.
    rewrite slice_field, slice_from_some by lia. cbn [or_panic bind Nat.sub].
    refine (agrees_bind _ _ [_; _] _ (system_parameters_at 0 b _) _); [lia|]. intros params _ _.
    refine (agrees_bind _ _ [_; _; _] [] _ _); [|intros kp _ _; apply agrees_ok].
    set (n := (List.length b - 64)%nat). rewrite (field_to_end 64 n b) by lia.
    pose proof (keypair_agrees (field 64 n b)) as K. unfold keypair_faults in K.
    rewrite field_length in K by lia. apply agrees_drop in K; [|lia].
    pose proof (agrees_map_err mac_to_credential_error _ _ K) as K'. cbn [map fst snd ending_map mac_to_credential_error] in K'.
    assert (Hm : Nat.modulo n 64 = Nat.modulo (List.length b) 64).
    { replace (List.length b) with (n + 1 * 64)%nat by lia. rewrite Nat.mod_add by lia. reflexivity. }
    rewrite Hm in K'. replace (n - 32)%nat with (List.length b - 96)%nat in K' by lia.
    set (k := ((List.length b - 96) / 64)%nat) in *.
    assert (Hk : (64 * k <= List.length b - 96)%nat) by (apply Nat.mul_div_le; lia). clearbody k.
    eapply agrees_same; [|exact K'].
    constructor; [|constructor; [|constructor; [|constructor]]]; (split; [|reflexivity]); cbn [fst].
    - reflexivity.
    - apply (bad_points_skip 0). lia.
    - apply bad_scalars_skip. lia.
  Qed.

  (** The optional fields of the user record. *)
  Lemma agrees_optional {Er A} off n (b : bytes) (o : outcome Er A) (l : list (fault Er)) :
    agrees o l ->
    agrees (if bytes_eqb (field off n b) (zeros n) then Ok None else do x <- o; Ok (Some x))
           (map (fun x => (present off n b /\ fst x, snd x)) l).
  Proof.
    intros H. unfold present. destruct (bytes_eqb (field off n b) (zeros n)) eqn:Hz.
    - apply bytes_eqb_true in Hz. cbn [agrees]. clear H. induction l as [|[P v] l IH]; cbn; [exact I|]. tauto.
    - apply bytes_eqb_false in Hz.
      assert (K : agrees (do x <- o; Ok (Some x)) (l ++ [])%list) by (apply agrees_bind; [exact H|intros x _ _; apply agrees_ok]).
      rewrite app_nil_r in K. eapply agrees_same; [|exact K].
      clear H K. induction l as [|[P v] l IH]; cbn [map]; constructor; [|exact IH].
      split; cbn [fst snd]; [tauto|reflexivity].
  Qed.
  Lemma elgamal_keypair_at off b : (off + 64 <= List.length b)%nat ->
    agrees (@elgamal_keypair_from_bytes E (field off 64 b))
      [(bad_scalar off b, Reject MissingData); (bad_point E (off + 32) b, Reject MissingData)].
  Proof.
    intros H. pose proof (elgamal_keypair_agrees (field off 64 b)) as K. unfold elgamal_keypair_faults in K.
    rewrite field_length in K by exact H. apply agrees_drop in K; [|congruence].
    eapply agrees_same; [|exact K]. constructor; [|constructor; [|constructor]]; (split; [|reflexivity]); cbn [fst].
    - rewrite bad_scalar_field, Nat.add_0_r by lia. reflexivity.
    - apply bad_point_field. lia.
  Qed.
  Lemma one_point off b : bad_points E off 1 b <-> bad_point E off b.
  Proof.
    unfold bad_points. split.
    - intros (i & Hi & H). replace i with 0%nat in H by lia. rewrite Nat.add_0_r in H. exact H.
    - intros H. exists 0%nat. split; [lia|]. rewrite Nat.add_0_r. exact H.
  Qed.
  Lemma user_agrees b : agrees (@user_from_bytes E b) (user_faults E 0 b).
  Proof.
    apply agrees_check; [reflexivity|apply negb_eqb|]. intros N. apply not_neq in N.
    rewrite !slice_field, slice_from_some by lia. cbn [or_panic bind Nat.sub].
    refine (agrees_bind _ _ [_; _] _ (system_parameters_at 0 b _) _); [lia|]. intros params _ _.
    refine (agrees_bind _ _ [_] _ _ _).
    - eapply agrees_same; [|exact (agrees_map_err _ _ _ (public_key_at 64 1 b ltac:(lia)))].
      constructor; [|constructor]. split; [|reflexivity]. cbn [fst map]. apply one_point.
    - intros ip _ _. rewrite (field_to_end 160 96 b) by lia.
      refine (agrees_bind _ _ [_; _] _ (agrees_optional 96 64 b _ _ (elgamal_keypair_at 96 b _)) _); [lia|]. intros k _ _.
      refine (agrees_bind _ _ [_; _; _] [] (agrees_optional 160 96 b _ _ (credential_at 160 b _)) _); [lia|]. intros c _ _.
      apply agrees_ok.
  Qed.
  Lemma phone_number_agrees b : agrees (phone_number_from_bytes b) (phone_number_faults b).
  Proof.
    apply agrees_check; [reflexivity|apply negb_eqb|]. intros N. apply not_neq in N.
    rewrite slice_field by lia. apply agrees_ok.
  Qed.
  Lemma committed_agrees b : agrees (@committed_from_bytes E b) (committed_faults E b).
  Proof. exact (agrees_map_err _ _ _ (commitment_agrees b)). Qed.
  Lemma committed_at off b : (off + 32 <= List.length b)%nat ->
    agrees (@committed_from_bytes E (field off 32 b)) [(bad_point E off b, Reject InvalidPhoneNumber)].
  Proof. intros H. exact (agrees_map_err _ _ _ (commitment_at off b H)). Qed.
  Lemma roster_agrees b : agrees (@roster_from_bytes E b) (roster_faults E b).
  Proof.
    refine (agrees_bind _ _ [_] _ (agrees_slice 0 32 b _) _); [lia|]. intros cb Hc N.
    assert (H : (32 <= List.length b)%nat) by (destruct N as [N _]; lia).
    rewrite slice_field in Hc by lia. injection Hc as <-. cbn [Nat.sub].
    refine (agrees_bind _ _ [_] _ (committed_at 0 b _) _); [lia|]. intros c _ _.
    rewrite slice_from_some by lia. cbn [or_panic bind].
    refine (agrees_bind _ _ [_] [] _ _); [|intros tmp _ _; apply agrees_ok].
    apply agrees_or_panic. unfold to_array. rewrite skipn_length.
    destruct (Nat.eqb_spec (List.length b - 32) 32) as [K|K]; split; try discriminate; try reflexivity; intros; lia.
  Qed.
  Lemma signal_presentation_agrees b : agrees (@signal_presentation_from_bytes E b) (signal_presentation_faults E b).
  Proof.
    apply agrees_check; [reflexivity|apply ltb_true|]. intros N.
    change (32 + SIZEOF_CREDENTIAL_PRESENTATION)%nat with 288%nat.
    rewrite !slice_field, slice_from_some by lia. cbn [or_panic bind Nat.sub].
    refine (agrees_bind _ _ [_] _ (agrees_map_err _ _ _ (committed_at 0 b _)) _); [lia|]. intros c _ _.
    refine (agrees_bind _ _ [_; _; _; _] _ (presentation_at 32 b _) _); [lia|]. intros p _ _.
    refine (agrees_bind _ _ [_] [] _ _); [|intros q _ _; apply agrees_ok].
    apply agrees_ok_or, ce_none. lia.
  Qed.
  Lemma signal_user_agrees b : agrees (@signal_user_from_bytes E b) (signal_user_faults E b).
  Proof.
    refine (agrees_bind _ _ [_] _ (agrees_slice 0 32 b _) _); [lia|]. intros nb Hn _.
    apply slice_is in Hn as [-> H]. cbn [Nat.sub].
    assert (Hp : phone_number_from_bytes (field 0 32 b) = Ok (from_bits (field 0 32 b))).
    { unfold phone_number_from_bytes. rewrite field_length by lia. cbn [Nat.eqb negb].
      rewrite slice_all by (apply field_length; lia). reflexivity. }
    rewrite Hp. cbn [map_err bind]. rewrite slice_from_some by lia. cbn [or_panic bind].
    refine (agrees_bind _ _ [_; _; _; _; _; _; _; _; _] [] _ _); [|intros u _ _; apply agrees_ok].
    set (n := (List.length b - 32)%nat). rewrite (field_to_end 32 n b) by lia.
    pose proof (user_agrees (field 32 n b)) as K. unfold user_faults in K. rewrite field_length in K by lia.
    destruct (Nat.eq_dec n 256) as [Hl|Hl].
    - apply agrees_drop in K; [|lia]. apply (agrees_check false _ (Err MissingData)); [reflexivity|split; [discriminate|lia]|]. intros _.
      eapply agrees_same; [|exact K]. rewrite Hl. unfold present.
      repeat first [apply Forall2_nil | apply Forall2_cons]; (split; [|reflexivity]); cbn [fst Nat.add];
        rewrite ?bad_point_field, ?bad_scalar_field, ?field_field by lia; reflexivity.
    - destruct (@user_from_bytes E (field 32 n b)); cbn [agrees first_fault no_fault] in K.
      + destruct K as [K _]. exfalso. apply K. lia.
      + destruct K as [[K1 K2]|[K _]]; [left; split; [lia|exact K2]|exfalso; apply K; lia].
      + destruct K as [[_ K]|[K _]]; [discriminate|exfalso; apply K; lia].
  Qed.
End errors.

(** ** C78 *)
Theorem C78_keys : forall E, ExtLaws E -> forall b,
  ends_by (@system_parameters_from_bytes E b) (system_parameters_faults E b) /\
  ends_by (@tag_from_bytes E b) (tag_faults E b) /\
  ends_by (@public_key_from_bytes E b) (public_key_faults E b) /\
  ends_by (secret_key_from_bytes b) (secret_key_faults b) /\
  ends_by (@keypair_from_bytes E b) (keypair_faults E b).
Proof.
  intros E L b. split; [|split; [|split; [|split]]]; apply agrees_ends;
    [apply system_parameters_agrees|apply tag_agrees|apply public_key_agrees|apply secret_key_agrees|apply keypair_agrees];
    exact L.
Qed.
Print Assumptions C78_keys.

Theorem C78_commitments : forall E, ExtLaws E -> forall b,
  ends_by (@commitment_from_bytes E b) (commitment_faults E b) /\
  ends_by (@elgamal_public_from_bytes E b) (elgamal_public_faults E b) /\
  ends_by (elgamal_secret_from_bytes b) (elgamal_secret_faults b) /\
  ends_by (@elgamal_keypair_from_bytes E b) (elgamal_keypair_faults E b).
Proof.
  intros E L b. split; [|split; [|split]]; apply agrees_ends;
    [apply commitment_agrees|apply elgamal_public_agrees|apply elgamal_secret_agrees|apply elgamal_keypair_agrees];
    exact L.
Qed.
Print Assumptions C78_commitments.

Lemma agrees_wrap {Er A B} (o : outcome Er A) (f : A -> B) l : agrees o l -> agrees (do x <- o; Ok (f x)) l.
Proof. destruct o; exact id. Qed.

Theorem C78_messages : forall E, ExtLaws E -> forall b,
  ends_by (@credential_from_bytes E b) (credential_faults E b) /\
  ends_by (request_from_bytes b) (request_faults b) /\
  ends_by (@issuance_from_bytes E b) (issuance_faults E b) /\
  ends_by (@presentation_from_bytes E b) (presentation_faults E b) /\
  ends_by (@verified_from_bytes E b) (presentation_faults E b) /\
  ends_by (@signal_presentation_from_bytes E b) (signal_presentation_faults E b) /\
  ends_by (@verified_signal_from_bytes E b) (signal_presentation_faults E b).
Proof.
  intros E L b. split; [|split; [|split; [|split; [|split; [|split]]]]]; apply agrees_ends.
  - apply (credential_agrees L).
  - apply request_agrees.
  - apply (issuance_agrees L).
  - apply (presentation_agrees L).
  - apply agrees_wrap, (presentation_agrees L).
  - apply (signal_presentation_agrees L).
  - apply agrees_wrap, (signal_presentation_agrees L).
Qed.
Print Assumptions C78_messages.

Theorem C78_records : forall E, ExtLaws E -> forall b,
  ends_by (@issuer_from_bytes E b) (issuer_faults E b) /\
  ends_by (@signal_issuer_from_bytes E b) (issuer_faults E b) /\
  ends_by (@user_from_bytes E b) (user_faults E 0 b) /\
  ends_by (@signal_user_from_bytes E b) (signal_user_faults E b) /\
  ends_by (phone_number_from_bytes b) (phone_number_faults b) /\
  ends_by (@committed_from_bytes E b) (committed_faults E b) /\
  ends_by (@roster_from_bytes E b) (roster_faults E b).
Proof.
  intros E L b. split; [|split; [|split; [|split; [|split; [|split]]]]]; apply agrees_ends.
  - apply (issuer_agrees L).
  - apply (issuer_agrees L).
  - apply (user_agrees L).
  - apply (signal_user_agrees L).
  - apply phone_number_agrees.
  - apply (committed_agrees L).
  - apply (roster_agrees L).
Qed.
Print Assumptions C78_records.

(** [PointDecompressionError] is not what a string that should be a point and is
    none leads to: inside a credential it is reported as missing parameters of
    the issuer, in the commitments as missing data. *)
Theorem C78_point_error_refuted : forall E, ExtLaws E -> forall b,
  bad_point E 0 b ->
  (List.length b = 96%nat -> @credential_from_bytes E b = Err NoIssuerParameters) /\
  ((32 <= List.length b)%nat -> @commitment_from_bytes E b = Err MissingData /\ @issuance_from_bytes E b = Err MissingData) /\
  ((288 <= List.length b)%nat -> @signal_presentation_from_bytes E b = Err MissingData).
Proof.
  intros E L b Hb. destruct (C78_messages E L b) as (Hc & _ & Hi & _ & _ & Hs & _).
  destruct (C78_commitments E L b) as (Hm & _). split; [|split].
  - intros Hl. apply Hc. right. split; [congruence|]. left. auto.
  - intros Hl. split; [apply Hm|apply Hi]; (right; split; [lia|]; left; auto).
  - intros Hl. apply Hs. right. split; [lia|]. left. auto.
Qed.
Print Assumptions C78_point_error_refuted.

(** Examples: an issuance with one thing wrong after another, from the end to the
    beginning, and the ways in which it is refused. *)
Definition bad_item : bytes := repeat xff 32.
Definition good_proof (n : nat) : bytes := bincode_serialize (repeat 0%Z n).
Definition reported (o : outcome CredentialError (CredentialIssuance toy)) : nat :=
  match o with
  | Ok _ => 0 | Panic => 1 | Err MissingData => 2 | Err NoIssuerParameters => 3 | Err ScalarFormatError => 4 | Err _ => 5
  end%nat.
Example C78_met : map (fun b => reported (issuance_from_bytes b))
  [ (zeros 128 ++ good_proof 5)%list;
    (zeros 128 ++ good_proof 4)%list;
    (zeros 96 ++ bad_item)%list;
    (zeros 64 ++ bad_item ++ bad_item)%list;
    (zeros 32 ++ bad_item ++ bad_item ++ bad_item)%list;
    (zeros 127)%list;
    (bad_item ++ zeros 95)%list;
    zeros 31 ] = [0; 2; 4; 3; 3; 1; 2; 1]%nat.
Proof. vm_compute. reflexivity. Qed.
(** The conditions of the table hold or fail for these. *)
Example C78_met_faults : bad_point toy 0 bad_item /\ ~ bad_point toy 0 (zeros 32) /\ bad_scalar 0 bad_item /\
  first_fault (issuance_faults toy (zeros 128 ++ good_proof 4)%list) (Reject MissingData) /\
  first_fault (user_faults toy 0 (zeros 160 ++ bad_item ++ zeros 64)%list) (Reject NoIssuerParameters).
Proof.
  assert (H1 : bad_point toy 0 bad_item).
  { apply (decompress_at toy_laws). vm_compute. reflexivity. }
  split; [exact H1|]. split.
  { intros H. apply (decompress_at toy_laws) in H. revert H. change (field 0 32 (zeros 32)) with (zeros 32).
    intros H. assert (K : match @decompress toy (zeros 32) with None => true | Some _ => false end = true) by (rewrite H; reflexivity).
    vm_compute in K. discriminate. }
  split.
  { apply canonical_at; [vm_compute; lia|]. vm_compute. reflexivity. }
  split.
  - apply (C78_messages toy toy_laws).
    assert (K : match @issuance_from_bytes toy (zeros 128 ++ good_proof 4)%list with Err MissingData => true | _ => false end = true)
      by (vm_compute; reflexivity).
    destruct (@issuance_from_bytes toy (zeros 128 ++ good_proof 4)%list) as [|[]|]; try discriminate. reflexivity.
  - apply (C78_records toy toy_laws).
    assert (K : match @user_from_bytes toy (zeros 160 ++ bad_item ++ zeros 64)%list with Err NoIssuerParameters => true | _ => false end = true)
      by (vm_compute; reflexivity).
    destruct (@user_from_bytes toy (zeros 160 ++ bad_item ++ zeros 64)%list) as [|[]|]; try discriminate. reflexivity.
Qed.
