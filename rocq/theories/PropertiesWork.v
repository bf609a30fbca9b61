(** C94: how much work a call does. *)
From Verif Require Import BaseFacts Toy PhoneFacts CodecFacts PropertiesPhone PropertiesCodec PropertiesIssue PropertiesShow.
From Verif Require Import SpecCodec SpecTiming SpecWork TimingFacts PropertiesTiming.
Local Open Scope nat_scope.

(** ** Adding up *)
Lemma work_now {A} (a : A) : work (now a) = 0. Proof. reflexivity. Qed.
Lemma work_seen {A} e (a : A) : work (seen e a) = steps e.
Proof. unfold work, seen. cbn [fst map list_sum fold_right]. lia. Qed.
Lemma work_bind {A B} (m : timed A) (k : A -> timed B) : work (tbind m k) = work m + work (k (snd m)).
Proof. unfold work. rewrite fst_tbind, map_app, list_sum_app. reflexivity. Qed.
Lemma work_if b : work (t_if b) = 1. Proof. apply work_seen. Qed.
Lemma work_attempt {Er A} (m : timed (outcome Er A)) : work (attempt m) = work m + 1.
Proof. unfold attempt. rewrite !work_bind, work_if, work_now. lia. Qed.
Lemma work_map_err {Er F A} (f : Er -> F) (m : timed (outcome Er A)) : work (t_map_err f m) = work m.
Proof. unfold t_map_err. rewrite work_bind, work_now. lia. Qed.
Lemma work_index {Er A} (l : list A) i : work (@t_index Er A l i) = 2.
Proof. unfold t_index. rewrite work_attempt, work_seen. reflexivity. Qed.
Lemma work_array_set {Er} i v l : work (@t_array_set Er i v l) = 2.
Proof. unfold t_array_set. rewrite work_attempt, work_seen. reflexivity. Qed.
Lemma work_pass {Er A B} (m : timed (outcome Er A)) (k : A -> timed (outcome Er B)) :
  work (pass m k) = work m + match snd m with Ok a => work (k a) | _ => 0 end.
Proof. unfold pass. rewrite work_bind. destruct (snd m); reflexivity. Qed.

Lemma le_bind {A B} (m : timed A) (k : A -> timed B) p q :
  work m <= p -> work (k (snd m)) <= q -> work (tbind m k) <= p + q.
Proof. rewrite work_bind. lia. Qed.
Lemma le_pass {Er A B} (m : timed (outcome Er A)) (k : A -> timed (outcome Er B)) p q :
  work m <= p -> (forall a, snd m = Ok a -> work (k a) <= q) -> work (pass m k) <= p + q.
Proof. intros H K. rewrite work_pass. destruct (snd m); [specialize (K a eq_refl)|..]; lia. Qed.
Lemma le_branch {A} (b : bool) (x y : timed A) p q :
  work x <= p -> work y <= q -> work (if b then x else y) <= Nat.max p q.
Proof. destruct b; lia. Qed.
Lemma le_now {A} (a : A) : work (now a) <= 0. Proof. reflexivity. Qed.
Lemma le_if b : work (t_if b) <= 1. Proof. rewrite work_if. lia. Qed.
Lemma le_seen {A} e (a : A) : work (seen e a) <= steps e. Proof. rewrite work_seen. lia. Qed.
Lemma le_index {Er A} (l : list A) i : work (@t_index Er A l i) <= 2. Proof. rewrite work_index. lia. Qed.
Lemma le_array_set {Er} i v l : work (@t_array_set Er i v l) <= 2. Proof. rewrite work_array_set. lia. Qed.
Lemma le_attempt {Er A} (m : timed (outcome Er A)) p : work m <= p -> work (attempt m) <= p + 1.
Proof. rewrite work_attempt. lia. Qed.
Lemma le_map_err {Er F A} (f : Er -> F) (m : timed (outcome Er A)) p : work m <= p -> work (t_map_err f m) <= p.
Proof. rewrite work_map_err. lia. Qed.
Lemma le_or a b : work (t_or a b) <= 2.
Proof. unfold t_or. rewrite work_bind, work_if. destruct a; cbn [snd t_if seen]; rewrite ?work_if, ?work_now; lia. Qed.
Lemma common_le a b : common a b <= List.length b.
Proof. revert b. induction a as [|x a IH]; intros [|y b]; cbn [common List.length]; try lia. destruct (Byte.eqb x y); [specialize (IH b)|]; lia. Qed.
Lemma le_bytes_eqb a b : work (t_bytes_eqb a b) <= List.length b + 2.
Proof.
  unfold t_bytes_eqb. rewrite work_bind, work_seen, work_if. cbn [steps]. pose proof (common_le a b). lia.
Qed.

(** Adds up the bounds of the parts of a straight-line function. *)
Create HintDb parts.
Ltac bound :=
  cbv beta;
  lazymatch goal with
  | |- work (now _) <= _ => apply le_now
  | |- work (t_if _) <= _ => apply le_if
  | |- work (seen _ _) <= _ => apply le_seen
  | |- work (t_index _ _) <= _ => apply le_index
  | |- work (t_array_set _ _ _) <= _ => apply le_array_set
  | |- work (t_or _ _) <= _ => apply le_or
  | |- work (t_bytes_eqb _ _) <= _ => apply le_bytes_eqb
  | |- work (attempt _) <= _ => eapply le_attempt; bound
  | |- work (t_map_err _ _) <= _ => eapply le_map_err; bound
  | |- work (pass _ _) <= _ => eapply le_pass; [bound|intros; bound]
  | |- work (tbind _ _) <= _ => eapply le_bind; [bound|bound]
  | |- work (if _ then _ else _) <= _ => eapply le_branch; [bound|bound]
  | |- work (let (_, _) := ?p in _) <= _ => destruct p; bound
  | |- _ => solve [eauto with parts nocore]
  end.
Ltac total := eapply Nat.le_trans; [bound|].

(** ** Loops *)
Lemma try_map_work {Er A B} (f : A -> timed (outcome Er B)) p l : (forall x, work (f x) <= p) ->
  work (t_try_map f l) <= List.length l * (1 + p) + 1.
Proof.
  intros H. induction l as [|x l IH]; [reflexivity|]. cbn [t_try_map List.length]. rewrite work_bind, work_if, work_pass.
  specialize (H x). destruct (snd (f x)); try lia. rewrite work_pass. destruct (snd (t_try_map f l)); rewrite ?work_now; lia.
Qed.
Lemma chunks_count (b : bytes) : negb (List.length b mod 32 =? 0) = false -> List.length (chunks 32 b) = List.length b / 32.
Proof.
  intros H. apply Bool.negb_false_iff, Nat.eqb_eq in H. pose proof (Nat.div_mod (List.length b) 32 ltac:(lia)) as D. rewrite H in D.
  apply (chunks_exact 32 b (List.length b / 32)); lia.
Qed.

(** ** Decoding *)
Section decode.
  Context {E : Ext}.
  Lemma tag_work b : work (@t_tag_from_bytes E b) <= 5.
  Proof. unfold t_tag_from_bytes. total. cbn. lia. Qed.
  Lemma parameters_work b : work (@t_system_parameters_from_bytes E b) <= 5.
  Proof. unfold t_system_parameters_from_bytes. total. cbn. lia. Qed.
  Lemma elgamal_public_work b : work (@t_elgamal_public_from_bytes E b) <= 2.
  Proof. unfold t_elgamal_public_from_bytes. total. cbn. lia. Qed.
  Lemma elgamal_secret_work b : work (t_elgamal_secret_from_bytes b) <= 2.
  Proof. unfold t_elgamal_secret_from_bytes. total. cbn. lia. Qed.
  Hint Resolve tag_work parameters_work elgamal_public_work elgamal_secret_work : parts.
  Lemma elgamal_keypair_work b : work (@t_elgamal_keypair_from_bytes E b) <= 9.
  Proof. unfold t_elgamal_keypair_from_bytes. total. cbn. lia. Qed.
  Lemma number_work b : work (t_phone_number_from_bytes b) <= 2.
  Proof. unfold t_phone_number_from_bytes. total. cbn. lia. Qed.
  Lemma public_key_work b : work (@t_public_key_from_bytes E b) <= 2 * (List.length b / 32) + 2.
  Proof.
    unfold t_public_key_from_bytes. rewrite work_bind, work_if, snd_t_if. destruct (negb _) eqn:H; [rewrite work_now; lia|].
    rewrite work_pass. pose proof (try_map_work (fun chunk : bytes => attempt (now (ok_or MacPointDecompressionError (@decompress E chunk)))) 1
      (chunks 32 b) ltac:(intros; total; lia)) as T. pose proof (chunks_count b H) as C. unfold bytes in *. rewrite C in T. match goal with |- context [match ?x with _ => _ end] => destruct x end; rewrite ?work_now; lia.
  Qed.
  Lemma read_secret_work c x xn : work (t_read_secret c x xn) <= 3 * List.length c + 1.
  Proof.
    revert x xn. induction c as [|b c IH]; intros x xn; [reflexivity|]. cbn [t_read_secret List.length].
    rewrite work_bind, work_if, work_pass, work_attempt, work_now. destruct (snd (attempt _)); try lia.
    rewrite work_bind, work_if, snd_t_if. destruct x as [y|]; [specialize (IH (Some y) (xn ++ [a])%list)|specialize (IH (Some a) xn)]; cbn match in *; lia.
  Qed.
  Lemma secret_key_work b : work (t_secret_key_from_bytes b) <= 3 * (List.length b / 32) + 4.
  Proof.
    unfold t_secret_key_from_bytes. rewrite work_bind, work_if, snd_t_if. destruct (negb _) eqn:H; [rewrite work_now; lia|].
    rewrite work_bind, work_if, snd_t_if. destruct (List.length b =? 0); [rewrite work_now; lia|]. rewrite work_pass.
    pose proof (read_secret_work (chunks 32 b) None []) as T. pose proof (chunks_count b H) as C. unfold bytes in *. rewrite C in T.
    destruct (snd _) as [[x xn]| |]; try lia. rewrite work_pass, work_attempt, work_now. match goal with |- context [match ?x with _ => _ end] => destruct x end; rewrite ?work_now; lia.
  Qed.
  Lemma keypair_work b : work (@t_keypair_from_bytes E b) <= 3 * (List.length b / 32) + 13.
  Proof.
    unfold t_keypair_from_bytes. rewrite work_bind, work_if, snd_t_if.
    destruct (debug_build E && _); [rewrite work_now; lia|]. rewrite work_bind. set (o := t_or _ _).
    assert (O : work o <= 2) by apply le_or. destruct (snd o); [rewrite work_now; lia|]. clearbody o. set (p := ((if (Z.of_nat (List.length b) <? 32)%Z then _ else _) / 2)%Z). clearbody p.
    rewrite work_pass, work_attempt, work_now. autorewrite with timed. destruct (p <=? Z.of_nat (List.length b))%Z eqn:Hp; [|cbn [or_panic]; lia].
    destruct (slice 0 (Z.to_nat p) b) as [pb|] eqn:S1; [|cbn [or_panic]; lia]. cbn [or_panic]. apply slice_length in S1.
    rewrite work_pass, work_attempt. pose proof (public_key_work pb) as P.
    assert (D : List.length pb / 32 <= List.length b / 32) by (apply Nat.div_le_mono; lia).
    destruct (snd (attempt (t_public_key_from_bytes pb))); try lia.
    rewrite work_pass, work_attempt, work_now. autorewrite with timed.
    destruct (slice_from (Z.to_nat p) b) as [sb|] eqn:S2; [|cbn [or_panic]; lia]. cbn [or_panic]. unfold slice_from in S2. apply slice_length in S2.
    rewrite work_pass, work_attempt. pose proof (secret_key_work sb) as Q.
    assert (List.length pb / 32 + List.length sb / 32 <= List.length b / 32); [|destruct (snd _); rewrite ?work_now; lia].
    replace (List.length b) with (List.length pb + List.length sb) by lia.
    generalize (List.length pb) (List.length sb). intros x y.
    pose proof (Nat.div_mod x 32 ltac:(lia)). pose proof (Nat.div_mod y 32 ltac:(lia)). pose proof (Nat.div_mod (x + y) 32 ltac:(lia)).
    pose proof (Nat.mod_upper_bound (x + y) 32 ltac:(lia)). lia.
  Qed.
  Lemma issuer_work b : work (@t_issuer_from_bytes E b) <= 3 * (List.length b / 32) + 17.
  Proof.
    unfold t_issuer_from_bytes. rewrite work_bind, work_if, snd_t_if. destruct (_ <? _) eqn:H; [rewrite work_now; lia|].
    apply Nat.ltb_ge in H.
    rewrite work_pass, work_attempt, work_now. destruct (snd (attempt (now (or_panic (slice 0 64 b))))) as [pb| |]; try lia.
    rewrite work_pass, work_attempt. pose proof (parameters_work pb). destruct (snd (attempt (t_system_parameters_from_bytes pb))); try lia.
    rewrite work_pass, work_attempt, work_now. autorewrite with timed. destruct (slice_from 64 b) as [kb|] eqn:S; [|cbn [or_panic]; lia].
    cbn [or_panic]. unfold slice_from in S. apply slice_length in S. rewrite work_pass, work_attempt, work_map_err.
    pose proof (keypair_work kb) as K.
    assert (List.length kb / 32 + 2 = List.length b / 32).
    { replace (List.length b) with (List.length kb + 2 * 32) by lia. rewrite Nat.div_add by lia. reflexivity. }
    match goal with |- context [match ?x with _ => _ end] => destruct x end; rewrite ?work_now; lia.
  Qed.
  Lemma attribute_work c : work (t_attribute_from_chunk c) <= 2.
  Proof. unfold t_attribute_from_chunk. total. lia. Qed.
  Lemma credential_work b : work (@t_credential_from_bytes E b) <= 15.
  Proof.
    unfold t_credential_from_bytes. rewrite work_bind. set (o := t_or _ _). assert (O : work o <= 2) by apply le_or.
    rewrite work_bind. set (bad := if snd o then _ else _). assert (B : work bad <= 1) by (unfold bad; destruct (snd o); rewrite ?work_now, ?work_if; lia).
    destruct (snd bad) eqn:H; [rewrite work_now; lia|].
    assert (Hb : List.length b = 96).
    { unfold bad in H. destruct (snd o); [discriminate|]. rewrite snd_t_if in H. apply Bool.negb_false_iff, Nat.eqb_eq in H. exact H. }
    rewrite work_pass, work_attempt, work_now. destruct (snd (attempt (now (or_panic (slice 0 64 b))))) as [tb| |]; try lia.
    rewrite work_pass, work_attempt, work_map_err. pose proof (tag_work tb). destruct (snd (attempt _)); try lia.
    rewrite work_pass, work_attempt, work_now. autorewrite with timed. destruct (slice_from 64 b) as [ab|] eqn:S; [|cbn [or_panic]; lia].
    cbn [or_panic]. unfold slice_from in S. apply slice_length in S. rewrite work_pass.
    pose proof (try_map_work _ 2 (chunks 32 ab) attribute_work) as T.
    pose proof (proj1 (proj2 (chunks_exact 32 ab 1 ltac:(lia) ltac:(lia)))) as C. unfold bytes in *. rewrite C in T. match goal with |- context [match ?x with _ => _ end] => destruct x end; rewrite ?work_now; lia.
  Qed.
  Hint Resolve elgamal_keypair_work credential_work : parts.
  Lemma user_work b : work (@t_user_from_bytes E b) <= 207.
  Proof.
    unfold t_user_from_bytes. rewrite work_bind, work_if, snd_t_if. destruct (negb _) eqn:H; [rewrite work_now; lia|].
    apply Bool.negb_false_iff, Nat.eqb_eq in H.
    rewrite work_pass, work_attempt, work_now. destruct (snd (attempt (now (or_panic (slice 0 64 b))))) as [pb| |]; try lia.
    rewrite work_pass, work_attempt. pose proof (parameters_work pb). destruct (snd (attempt (t_system_parameters_from_bytes pb))); try lia.
    rewrite work_pass, work_attempt, work_now. autorewrite with timed. destruct (slice 64 96 b) as [ib|] eqn:S; [|cbn [or_panic]; lia].
    cbn [or_panic]. apply slice_length in S. rewrite work_pass, work_attempt, work_map_err.
    pose proof (public_key_work ib) as K. replace (List.length ib) with 32 in K by lia. change (32 / 32) with 1 in K.
    destruct (snd (attempt (t_map_err _ _))); try lia.
    match goal with |- context [pass ?m ?k] => assert (work (pass m k) <= 193) by (total; cbn; lia) end. lia.
  Qed.
  Hint Resolve number_work user_work : parts.
  Lemma signal_user_work b : work (@t_signal_user_from_bytes E b) <= 213.
  Proof. unfold t_signal_user_from_bytes. total. cbn. lia. Qed.

  (** What is accepted costs exactly this. *)
  Lemma try_map_exact {Er A B} (f : A -> timed (outcome Er B)) p l ys : (forall x, work (f x) = p) ->
    snd (t_try_map f l) = Ok ys -> work (t_try_map f l) = List.length ys * (1 + p) + 1.
  Proof.
    intros H. revert ys. induction l as [|x l IH]; intros ys; [intros [= <-]; reflexivity|].
    cbn [t_try_map List.length]. rewrite snd_tbind, snd_pass, work_bind, work_if, work_pass, H.
    destruct (snd (f x)) as [y| |]; try discriminate. cbn [bind]. rewrite snd_pass, work_pass.
    destruct (snd (t_try_map f l)) as [zs| |] eqn:T; try discriminate. intros [= <-]. rewrite work_now, (IH zs eq_refl). cbn [List.length]. lia.
  Qed.
  Lemma public_key_exact b pk : snd (@t_public_key_from_bytes E b) = Ok pk ->
    work (@t_public_key_from_bytes E b) = 2 * List.length (pk_Xn pk) + 2.
  Proof.
    unfold t_public_key_from_bytes. rewrite snd_tbind, work_bind, work_if, snd_t_if. destruct (negb _); [discriminate|].
    rewrite snd_pass, work_pass. set (m := t_try_map _ _). destruct (snd m) as [ys| |] eqn:H; try discriminate. intros [= <-].
    unfold m in *. rewrite (fun f : forall c, _ => try_map_exact _ 1 _ _ f H), work_now by (intros; reflexivity). cbn [pk_Xn]. lia.
  Qed.
  Lemma read_secret_exact c x xn x' xn' : snd (t_read_secret c (Some x) xn) = Ok (x', xn') ->
    work (t_read_secret c (Some x) xn) + 3 * List.length xn = 3 * List.length xn' + 1.
  Proof.
    revert xn. induction c as [|b c IH]; intros xn; [intros [= _ <-]; cbn; lia|]. cbn [t_read_secret].
    rewrite snd_tbind, snd_pass, work_bind, work_if, work_pass, snd_attempt, work_attempt, work_now.
    destruct (snd (now _)) as [y| |]; try discriminate. cbn [bind]. rewrite snd_tbind, work_bind, work_if, snd_t_if.
    intros H. specialize (IH _ H). rewrite app_length in IH. cbn [List.length] in IH. lia.
  Qed.
  Lemma secret_key_exact b sk : snd (t_secret_key_from_bytes b) = Ok sk ->
    work (t_secret_key_from_bytes b) = 3 * List.length (sk_xn sk) + 7.
  Proof.
    unfold t_secret_key_from_bytes. rewrite snd_tbind, work_bind, work_if, snd_t_if. destruct (negb _); [discriminate|].
    rewrite snd_tbind, work_bind, work_if, snd_t_if. destruct (List.length b =? 0); [discriminate|].
    destruct (chunks 32 b) as [|c cs]; [discriminate|]. cbn [t_read_secret].
    rewrite snd_pass, work_pass, snd_tbind, work_bind, work_if, snd_pass, work_pass, snd_attempt, work_attempt, work_now.
    destruct (snd (now (ok_or _ (from_canonical_bytes c)))) as [y| |]; try discriminate. cbn [bind]. rewrite snd_tbind, work_bind, work_if, snd_t_if.
    destruct (snd (t_read_secret cs (Some y) [])) as [[x xn]| |] eqn:H; try discriminate. cbn [bind].
    pose proof (read_secret_exact _ _ _ _ _ H) as W. cbn [List.length] in W. autorewrite with timed. rewrite work_pass, work_attempt, work_now, snd_attempt, snd_now.
    destruct (ok_or _ x); try discriminate. intros [= <-]. cbn [sk_xn]. rewrite work_now. lia.
  Qed.
  Lemma or_exact a b : snd (t_or a b) = false -> work (t_or a b) = 2.
  Proof. rewrite snd_t_or. destruct a; [discriminate|]. intros _. unfold t_or. rewrite work_bind. reflexivity. Qed.
  Lemma keypair_exact b k : snd (@t_keypair_from_bytes E b) = Ok k ->
    work (@t_keypair_from_bytes E b) = 2 * List.length (pk_Xn (kp_public k)) + 3 * List.length (sk_xn (kp_secret k)) + 16.
  Proof.
    unfold t_keypair_from_bytes. rewrite snd_tbind, work_bind, work_if, snd_t_if. destruct (debug_build E && _); [discriminate|].
    rewrite snd_tbind, work_bind. set (o := t_or _ _). destruct (snd o) eqn:O; [discriminate|]. assert (W : work o = 2) by (apply or_exact, O). rewrite W.
    rewrite snd_pass, work_pass, snd_attempt, work_attempt, work_now. destruct (snd (now _)) as [pb| |]; try discriminate. cbn [bind].
    rewrite snd_pass, work_pass, snd_attempt, work_attempt. destruct (snd (t_public_key_from_bytes pb)) as [p| |] eqn:P; try discriminate. cbn [bind].
    rewrite snd_pass, work_pass, snd_attempt, work_attempt, work_now. destruct (snd (now _)) as [sb| |]; try discriminate. cbn [bind].
    rewrite snd_pass, work_pass, snd_attempt, work_attempt. destruct (snd (t_secret_key_from_bytes sb)) as [s| |] eqn:S; try discriminate. cbn [bind].
    intros [= <-]. cbn [kp_public kp_secret]. rewrite (public_key_exact _ _ P), (secret_key_exact _ _ S), work_now. lia.
  Qed.
  Lemma parameters_exact b q : snd (@t_system_parameters_from_bytes E b) = Ok q -> work (@t_system_parameters_from_bytes E b) = 5.
  Proof.
    unfold t_system_parameters_from_bytes. rewrite snd_tbind, work_bind, work_if, snd_t_if. destruct (negb _); [discriminate|].
    do 4 (rewrite snd_pass, work_pass, snd_attempt, work_attempt, work_now; destruct (snd (now _)); try discriminate; cbn [bind]). reflexivity.
  Qed.
  Lemma issuer_exact b i : snd (@t_issuer_from_bytes E b) = Ok i ->
    work (@t_issuer_from_bytes E b) =
    2 * List.length (pk_Xn (kp_public (iss_keypair i))) + 3 * List.length (sk_xn (kp_secret (iss_keypair i))) + 26.
  Proof.
    unfold t_issuer_from_bytes. rewrite snd_tbind, work_bind, work_if, snd_t_if. destruct (_ <? _); [discriminate|].
    rewrite snd_pass, work_pass, snd_attempt, work_attempt, work_now. destruct (snd (now _)) as [pb| |]; try discriminate. cbn [bind].
    rewrite snd_pass, work_pass, snd_attempt, work_attempt. destruct (snd (t_system_parameters_from_bytes pb)) as [p| |] eqn:P; try discriminate. cbn [bind].
    rewrite snd_pass, work_pass, snd_attempt, work_attempt, work_now. destruct (snd (now _)) as [kb| |]; try discriminate. cbn [bind].
    rewrite snd_pass, work_pass, snd_attempt, work_attempt, snd_t_map_err, work_map_err.
    destruct (snd (t_keypair_from_bytes kb)) as [k| |] eqn:K; try discriminate. cbn [bind map_err].
    intros [= <-]. cbn [iss_keypair]. rewrite (parameters_exact _ _ P), (keypair_exact _ _ K), work_now. lia.
  Qed.
End decode.

(** ** Phone numbers *)
Lemma write_work (f : byte -> timed byte) p i d l : (forall x, work (f x) = p) ->
  work (t_write_digits f i d l) <= (4 + p) * List.length d + 1 /\
  forall v, snd (t_write_digits f i d l) = Ok v -> work (t_write_digits f i d l) = (4 + p) * List.length d + 1.
Proof.
  intros H. revert i l. induction d as [|x d IH]; intros i l; [split; [cbn; lia|intros; cbn; lia]|].
  cbn [t_write_digits List.length]. rewrite !work_bind, work_if, work_seen, H, work_pass, work_array_set.
  rewrite !snd_tbind, snd_pass. cbn [snd seen steps]. destruct (snd (t_array_set i (snd (f x)) l)) as [l'| |]; cbn [bind];
    try (split; [lia|discriminate]). destruct (IH (S i) l') as [I1 I2]. split; [lia|]. intros v Hv. rewrite (I2 v Hv). lia.
Qed.
Lemma encode_work f p b : (forall x, work (f x) = p) ->
  work (t_phone_number_encode f b) <= (4 + p) * List.length b + 12 /\
  (32 < List.length b -> work (t_phone_number_encode f b) = 1) /\
  forall n, snd (t_phone_number_encode f b) = Ok n -> work (t_phone_number_encode f b) = (4 + p) * List.length b + 12.
Proof.
  intros H. unfold t_phone_number_encode. rewrite work_bind, work_if, snd_t_if, snd_tbind, snd_t_if.
  destruct (Nat.ltb_spec 32 (List.length b)); [rewrite work_now; split; [lia|]; split; [lia|discriminate]|].
  rewrite work_pass, work_array_set, snd_pass. destruct (snd (t_array_set 0 _ _)) as [l1| |]; cbn [bind]; try (split; [lia|]; split; [lia|discriminate]).
  rewrite work_pass, work_array_set, snd_pass. destruct (snd (t_array_set 1 _ _)) as [l2| |]; cbn [bind]; try (split; [lia|]; split; [lia|discriminate]).
  rewrite work_pass, snd_pass. destruct (write_work f p 2 b l2 H) as [W1 W2].
  destruct (snd (t_write_digits f 2 b l2)) as [l3| |]; cbn [bind]; try (split; [lia|]; split; [lia|discriminate]). specialize (W2 l3 eq_refl).
  do 3 (rewrite work_pass, work_array_set, snd_pass; destruct (snd (t_array_set _ _ _)); cbn [bind]; try (split; [lia|]; split; [lia|discriminate])).
  rewrite work_now. split; [lia|]. split; [lia|]. intros. lia.
Qed.
Lemma find_length_work i l : work (t_find_length i l) <= 3 * List.length l + 1 /\ (0 <= snd (t_find_length i l) < 256)%Z.
Proof.
  revert i. induction l as [|b l IH]; intros i; [cbn; lia|]. cbn [t_find_length List.length].
  rewrite !work_bind, work_if, work_seen, !snd_tbind, snd_t_if, work_if. cbn [snd seen steps].
  destruct (bz b =? 0)%Z; [specialize (IH (i - 1)); lia|]. rewrite work_seen. cbn [steps snd seen]. pose proof (bz_range b). lia.
Qed.
Lemma read_digits_work n i s : i <= List.length s -> work (t_read_digits n i s) <= 4 * (List.length s - i) + 3.
Proof.
  revert i. induction n as [|n IH]; intros i H; [cbn; lia|]. cbn [t_read_digits]. rewrite work_bind, work_if, work_pass, work_index, snd_t_index.
  unfold index. destruct (nth_error s i) as [d|] eqn:D; cbn [or_panic]; [|lia].
  assert (i < List.length s) by (apply nth_error_Some; rewrite D; discriminate).
  rewrite work_bind, work_seen. cbn [snd seen steps]. rewrite work_pass. specialize (IH (S i) ltac:(lia)).
  destruct (snd (t_read_digits n (S i) s)); rewrite ?work_now; lia.
Qed.
Lemma to_string_work n : work (t_phone_number_to_string n) <= 476.
Proof.
  unfold t_phone_number_to_string. rewrite !work_bind, work_seen. cbn [snd seen steps].
  destruct (find_length_work 32 (rev (scalar_to_bytes n))) as [F R]. rewrite rev_length, scalar_to_bytes_length in F.
  pose proof (read_digits_work (Z.to_nat (snd (t_find_length 32 (rev (scalar_to_bytes n))))) 2 (scalar_to_bytes n)) as D.
  rewrite scalar_to_bytes_length in D. specialize (D ltac:(lia)). lia.
Qed.

(** ** MACs, issuing, showing, verifying *)
Section protocol.
  Context {E : Ext}.
  Lemma mac_exponent_work x xn m : work (t_mac_exponent x xn m) = Nat.min (List.length xn) (List.length m) + 1.
  Proof.
    revert x m. induction xn as [|y xn IH]; intros x [|n m]; try reflexivity.
    cbn [t_mac_exponent List.length Nat.min]. rewrite work_bind, work_if, IH. lia.
  Qed.
  Lemma verify_exponent_work x xn m : work (t_verify_exponent x xn m) = Nat.min (List.length xn) (List.length m) + 1.
  Proof.
    revert x m. induction xn as [|y xn IH]; intros x [|n m]; try reflexivity.
    cbn [t_verify_exponent List.length Nat.min]. rewrite work_bind, work_if, IH. lia.
  Qed.
  Lemma mac_work k m r : work (@t_mac E k m r) <= List.length m + 2.
  Proof.
    unfold t_mac. rewrite work_bind, work_if, snd_t_if. destruct (negb _); [rewrite work_now; lia|].
    destruct (scalar_random r). rewrite work_bind, mac_exponent_work, work_now. lia.
  Qed.
  Lemma mac_verify_work k (t : Tag E) m : work (t_mac_verify k t m) <= List.length (sk_xn k) + 3.
  Proof.
    unfold t_mac_verify. rewrite work_bind, work_if, snd_t_if. destruct (peqb _ _); [rewrite work_now; lia|].
    rewrite !work_bind, verify_exponent_work, work_if, work_now. lia.
  Qed.
  Lemma ir_create_work t (p : ir_Publics E) s os : work (t_ir_create t p s os) = 8.
  Proof. unfold t_ir_create. destruct (ir_randomness _ _ _). reflexivity. Qed.
  Lemma ab_create_work t (p : ab_Publics E) s os : work (t_ab_create t p s os) = 7.
  Proof. unfold t_ab_create. destruct (ab_randomness _ _ _). reflexivity. Qed.
  Lemma ib_create_work t (p : ib_Publics E) s os : work (t_ib_create t p s os) = 17.
  Proof. unfold t_ib_create. destruct (ib_randomness _ _ _). reflexivity. Qed.
  Lemma vc_create_work t (p : vc_Publics E) s os : work (t_vc_create t p s os) = 6.
  Proof. unfold t_vc_create. destruct (vc_randomness _ _ _). reflexivity. Qed.
  Lemma ce_create_work t (p : ce_Publics E) s os : work (t_ce_create t p s os) = 6.
  Proof. unfold t_ce_create. destruct (ce_randomness _ _ _). reflexivity. Qed.
  Lemma ir_verify_work q t (p : ir_Publics E) : work (t_ir_verify q t p) = 12. Proof. reflexivity. Qed.
  Lemma ab_verify_work q t (p : ab_Publics E) : work (t_ab_verify q t p) = 11. Proof. reflexivity. Qed.
  Lemma ib_verify_work q t (p : ib_Publics E) : work (t_ib_verify q t p) = 25. Proof. reflexivity. Qed.
  Lemma vc_verify_work q t (p : vc_Publics E) : work (t_vc_verify q t p) = 9. Proof. reflexivity. Qed.
  Lemma ce_verify_work q t (p : ce_Publics E) : work (t_ce_verify q t p) = 9. Proof. reflexivity. Qed.

  Lemma issue_work (i : Issuer E) q r os : work (t_issue i q r os) <= 3 * List.length (rq_attributes_revealed q) + 17.
  Proof.
    unfold t_issue. set (a := rq_attributes_revealed q).
    rewrite work_pass, work_attempt, work_now. destruct (snd (attempt _)) as [X1| |]; try lia.
    rewrite work_pass, work_attempt, work_now. destruct (snd (attempt (now (ok_or NoIssuerKey _)))) as [x1| |]; try lia.
    destruct (reseed _ _ r) as [cs r']. rewrite work_bind, work_seen. cbn [snd seen steps].
    rewrite work_pass, work_attempt, work_map_err. pose proof (mac_work (kp_secret (iss_keypair i)) a cs) as M.
    destruct (snd (attempt (t_map_err _ _))) as [[tag cs']| |]; try lia. destruct (ephemeral_new cs') as [x0 cs''].
    rewrite work_pass. assert (S : work (t_issue_statement i X1 x1 a tag x0) <= 2) by (unfold t_issue_statement; total; lia).
    destruct (snd (t_issue_statement i X1 x1 a tag x0)) as [[p s]| |]; try lia.
    rewrite work_bind, ir_create_work. destruct (snd (t_ir_create _ _ _ _)). rewrite work_bind, work_seen, work_now. cbn [steps]. lia.
  Qed.
  Lemma verify_revealed_work xn (P : point E) k a V : k <= List.length xn ->
    work (t_verify_revealed xn P k a V) <= 3 * (List.length xn - k) + 3 /\
    work (t_verify_revealed xn P k a V) <= 3 * List.length a + 1.
  Proof.
    revert k V. induction a as [|m a IH]; intros k V H; [cbn; lia|]. cbn [t_verify_revealed List.length].
    rewrite work_bind, work_if, work_pass, work_index, snd_t_index. unfold index.
    destruct (nth_error xn k) as [x|] eqn:X; cbn [or_panic]; [|lia].
    assert (k < List.length xn) by (apply nth_error_Some; rewrite X; discriminate).
    specialize (IH (S k) (padd V (smul (s_mul x m) P)) ltac:(lia)). lia.
  Qed.
  Lemma verify_blinded_work xn k (a : list (point E)) V : k <= List.length xn ->
    work (t_verify_blinded xn k a V) <= 3 * (List.length xn - k) + 3 /\
    work (t_verify_blinded xn k a V) <= 3 * List.length a + 1.
  Proof.
    revert k V. induction a as [|m a IH]; intros k V H; [cbn; lia|]. cbn [t_verify_blinded List.length].
    rewrite work_bind, work_if, work_pass, work_index, snd_t_index. unfold index.
    destruct (nth_error xn k) as [x|] eqn:X; cbn [or_panic]; [|lia].
    assert (k < List.length xn) by (apply nth_error_Some; rewrite X; discriminate).
    specialize (IH (S k) (padd V (smul x m)) ltac:(lia)). lia.
  Qed.
  Lemma verify_work (i : Issuer E) p :
    work (t_issuer_verify i p) <= 6 * List.length (sk_xn (kp_secret (iss_keypair i))) + 20 /\
    work (t_issuer_verify i p) <= 3 * (List.length (pr_attributes_revealed p) + List.length (pr_attributes_blinded p)) + 16.
  Proof.
    assert (S : work (t_verify_statement i p) <= 6 * List.length (sk_xn (kp_secret (iss_keypair i))) + 10 /\
      work (t_verify_statement i p) <= 3 * (List.length (pr_attributes_revealed p) + List.length (pr_attributes_blinded p)) + 6).
    { unfold t_verify_statement. rewrite work_pass. set (V0 := smul _ _).
      pose proof (verify_revealed_work (sk_xn (kp_secret (iss_keypair i))) (pr_rerandomized_nonce p) 0 (pr_attributes_revealed p) V0 ltac:(lia)) as R.
      destruct (snd (t_verify_revealed _ _ _ _ _)) as [V| |]; try lia. rewrite work_pass.
      pose proof (verify_blinded_work (sk_xn (kp_secret (iss_keypair i))) 0 (pr_attributes_blinded p) V ltac:(lia)) as B.
      destruct (snd (t_verify_blinded _ _ _ _)) as [W| |]; try lia. rewrite work_pass, work_index.
      destruct (snd (t_index _ _)); try lia. rewrite work_pass, work_index. destruct (snd (t_index _ _)); rewrite ?work_now; lia. }
    unfold t_issuer_verify. rewrite work_pass. destruct (snd (t_verify_statement i p)); try lia.
    rewrite work_pass, work_attempt, work_map_err, vc_verify_work. destruct (snd (attempt _)); rewrite ?work_now; lia.
  Qed.
  Lemma show_commitments_work (P A : point E) z a : work (t_show_commitments P A z a) <= List.length z + 1.
  Proof.
    revert a. induction z as [|x z IH]; intros [|m a]; try (cbn; lia). cbn [t_show_commitments List.length].
    rewrite !work_bind, work_if, work_now. specialize (IH a). lia.
  Qed.
  Lemma show_error_work (Xn : list (point E)) k z V : work (t_show_error_factor Xn k z V) <= 3 * List.length z + 1.
  Proof.
    revert k V. induction z as [|x z IH]; intros k V; [cbn; lia|]. cbn [t_show_error_factor List.length].
    rewrite work_bind, work_if, work_pass, work_index. destruct (snd (t_index Xn k)) as [X| |]; try lia. specialize (IH (S k) (padd V (smul x X))). lia.
  Qed.
  Lemma show_work (u : User E) z r os : work (t_show u z r os) <= 4 * List.length z + 17.
  Proof.
    unfold t_show. rewrite work_pass, work_attempt, work_now. destruct (snd (attempt _)) as [c| |]; try lia.
    destruct (reseed _ _ r) as [cs r']. destruct (scalar_random cs) as [a cs']. destruct (ephemeral_new cs') as [zQ cs''].
    rewrite work_pass.
    assert (S : work (t_show_statement u c z a zQ) <= 4 * List.length z + 10).
    { unfold t_show_statement. rewrite work_bind. set (m := t_show_commitments _ _ _ _).
      assert (M : work m <= List.length z + 1) by apply show_commitments_work. rewrite work_pass. set (e := t_show_error_factor _ _ _ _).
      assert (F : work e <= 3 * List.length z + 1) by apply show_error_work. destruct (snd e); try lia.
      match goal with |- context [pass ?x ?k] => assert (work (pass x k) <= 8) by (total; cbn; lia) end. lia. }
    destruct (snd (t_show_statement u c z a zQ)) as [[[[CQ Cs] p] s]| |]; try lia.
    rewrite work_bind, vc_create_work. destruct (snd (t_vc_create _ _ _ _)). rewrite work_now. lia.
  Qed.
  Lemma scalars_random_work n r : work (t_scalars_random n r) = n + 1 /\ List.length (fst (snd (t_scalars_random n r))) = n.
  Proof.
    revert r. induction n as [|n IH]; intros r; [split; reflexivity|]. cbn [t_scalars_random].
    rewrite work_bind, work_if, snd_tbind. destruct (scalar_random r) as [x r']. rewrite work_bind, snd_tbind.
    destruct (IH r') as [I1 I2]. destruct (snd (t_scalars_random n r')) as [xs r'']. cbn [fst snd now List.length] in *.
    rewrite work_now. lia.
  Qed.
  Lemma signal_show_work (u : SignalUser E) r os e : work (t_signal_show u r os e) <= 37.
  Proof.
    unfold t_signal_show. rewrite work_pass, work_attempt, work_now. destruct (snd (attempt _)) as [c| |]; try lia.
    rewrite work_bind. unfold t_nonces_new. destruct (scalars_random_work NUMBER_OF_ATTRIBUTES r) as [W N].
    change NUMBER_OF_ATTRIBUTES with 1 in *. rewrite W. destruct (snd (t_scalars_random 1 r)) as [z r']. cbn [fst] in N.
    rewrite work_pass, work_attempt. pose proof (show_work (su_user u) z r' os) as S. unfold scalar in *. rewrite N in S.
    destruct (snd (attempt (t_show _ _ _ _))) as [[[p r''] os']| |]; try lia. rewrite work_pass.
    assert (R : work (t_roster_statement u c z p e) <= 6) by (unfold t_roster_statement; total; lia).
    destruct (snd (t_roster_statement u c z p e)) as [[q s]| |]; try lia.
    rewrite work_bind, ce_create_work. destruct (snd (t_ce_create _ _ _ _)). rewrite work_now. lia.
  Qed.
  Lemma public_elements_work (h : point E) xn : work (t_public_elements h xn) = List.length xn + 1.
  Proof. induction xn as [|x xn IH]; [reflexivity|]. cbn [t_public_elements List.length]. rewrite !work_bind, work_if, work_now, IH. lia. Qed.
  Lemma obtain_work (u : User E) o : work (t_obtain_finish u o) <=
    match o with None => 1 | Some i => List.length (cr_attributes (is_credential i)) + 16 end.
  Proof.
    unfold t_obtain_finish. destruct o as [i|]; [|rewrite work_seen; cbn; lia]. rewrite work_bind, work_if.
    destruct (nth_error _ 0); [|rewrite work_seen; cbn; lia]. rewrite !work_bind, work_if, work_attempt, ir_verify_work.
    destruct (snd (attempt _)); rewrite ?work_seen, ?work_now; cbn [steps]; lia.
  Qed.
End protocol.

(** ** C94 *)

(** Reading anything but keys takes a bounded number of steps, however long the
    input. *)
Theorem C94_decode : forall E b,
  work (@t_tag_from_bytes E b) <= 5 /\ work (@t_system_parameters_from_bytes E b) <= 5 /\
  work (@t_elgamal_public_from_bytes E b) <= 2 /\ work (t_elgamal_secret_from_bytes b) <= 2 /\
  work (@t_elgamal_keypair_from_bytes E b) <= 9 /\ work (t_phone_number_from_bytes b) <= 2 /\
  work (@t_credential_from_bytes E b) <= 15 /\ work (@t_user_from_bytes E b) <= 207 /\
  work (@t_signal_user_from_bytes E b) <= 213.
Proof.
  intros E b. repeat apply conj; auto using tag_work, parameters_work, elgamal_public_work, elgamal_secret_work, elgamal_keypair_work, number_work,
    credential_work, user_work, signal_user_work.
Qed.
Print Assumptions C94_decode.
(** Input of the wrong length is refused at once. *)
Theorem C94_wrong_length : forall E b,
  (List.length b <> 64 -> work (@t_tag_from_bytes E b) = 1 /\ work (@t_system_parameters_from_bytes E b) = 1 /\
                          work (@t_elgamal_keypair_from_bytes E b) = 1) /\
  (List.length b <> 32 -> work (@t_elgamal_public_from_bytes E b) = 1 /\ work (t_elgamal_secret_from_bytes b) = 1 /\
                          work (t_phone_number_from_bytes b) = 1) /\
  (List.length b <> 96 -> work (@t_credential_from_bytes E b) <= 3) /\
  (List.length b <> 256 -> work (@t_user_from_bytes E b) = 1) /\
  (List.length b <> 288 -> work (@t_signal_user_from_bytes E b) <= 7) /\
  (List.length b mod 32 <> 0 -> work (@t_public_key_from_bytes E b) = 1 /\ work (t_secret_key_from_bytes b) = 1) /\
  (List.length b < 160 -> work (@t_issuer_from_bytes E b) = 1).
Proof.
  intros E b.
  assert (U : forall c : bytes, List.length c <> 256 -> work (@t_user_from_bytes E c) = 1).
  { intros c H. unfold t_user_from_bytes. rewrite work_bind, work_if, snd_t_if, (proj2 (Nat.eqb_neq _ _) H). reflexivity. }
  split; [|split; [|split; [|split; [|split; [|split]]]]].
  - intros H. unfold t_tag_from_bytes, t_system_parameters_from_bytes, t_elgamal_keypair_from_bytes.
    rewrite !work_bind, !work_if, !snd_t_if, (proj2 (Nat.eqb_neq _ _) H). auto.
  - intros H. unfold t_elgamal_public_from_bytes, t_elgamal_secret_from_bytes, t_phone_number_from_bytes.
    rewrite !work_bind, !work_if, !snd_t_if, (proj2 (Nat.eqb_neq _ _) H). auto.
  - intros H. unfold t_credential_from_bytes. rewrite work_bind. set (o := t_or _ _). assert (O : work o <= 2) by apply le_or.
    rewrite work_bind. destruct (snd o); [rewrite work_now; cbn [snd now]; rewrite work_now; lia|].
    rewrite work_if, snd_t_if. change SIZEOF_CREDENTIAL with 96. rewrite (proj2 (Nat.eqb_neq _ _) H). cbn [negb]. rewrite work_now. lia.
  - exact (U b).
  - intros H. unfold t_signal_user_from_bytes. rewrite work_pass, work_attempt, work_now, snd_attempt, snd_now.
    destruct (slice 0 32 b) as [nb|] eqn:S0; cbn [or_panic]; [|lia].
    rewrite work_pass, work_attempt, work_map_err. pose proof (number_work nb). destruct (snd (attempt _)); try lia.
    rewrite work_pass, work_attempt, work_now, snd_attempt, snd_now. destruct (slice_from 32 b) as [ub|] eqn:S; cbn [or_panic]; [|lia].
    unfold slice_from in S. apply slice_length in S. rewrite work_pass, work_attempt, U by lia.
    destruct (snd (attempt _)); rewrite ?work_now; lia.
  - intros H. unfold t_public_key_from_bytes, t_secret_key_from_bytes.
    rewrite !work_bind, !work_if, !snd_t_if, (proj2 (Nat.eqb_neq _ _) H). auto.
  - intros H. unfold t_issuer_from_bytes. rewrite work_bind, work_if, snd_t_if, (proj2 (Nat.ltb_lt (List.length b) (64 + 96)) ltac:(lia)). reflexivity.
Qed.
Print Assumptions C94_wrong_length.
(** Reading keys takes at most three steps for every 32 bytes, and what is
    accepted a number of steps which its components give. *)
Theorem C94_decode_keys : forall E b,
  work (@t_public_key_from_bytes E b) <= 2 * (List.length b / 32) + 2 /\
  work (t_secret_key_from_bytes b) <= 3 * (List.length b / 32) + 4 /\
  work (@t_keypair_from_bytes E b) <= 3 * (List.length b / 32) + 13 /\
  work (@t_issuer_from_bytes E b) <= 3 * (List.length b / 32) + 17 /\
  (forall i : Issuer E, issuer_from_bytes b = Ok i ->
   work (@t_issuer_from_bytes E b) =
   2 * List.length (pk_Xn (kp_public (iss_keypair i))) + 3 * List.length (sk_xn (kp_secret (iss_keypair i))) + 26).
Proof.
  intros E b. repeat split; auto using public_key_work, secret_key_work, keypair_work, issuer_work.
  intros i H. apply issuer_exact. rewrite issuer_from_bytes_result. exact H.
Qed.
Print Assumptions C94_decode_keys.
(** There is no bound on that: an issuer may have any number of components. *)
Theorem C94_issuer_refuted : forall E, ExtLaws E -> forall n, exists b (i : Issuer E),
  issuer_from_bytes b = Ok i /\ n <= work (@t_issuer_from_bytes E b).
Proof.
  intros E L n.
  set (i := {| iss_system_parameters := {| sp_g := basepoint; sp_h := basepoint |};
               iss_keypair := {| kp_public := {| pk_Xn := repeat (@basepoint E) (S n) |};
                                 kp_secret := {| sk_x0 := 0%Z; sk_xn := repeat 0%Z (S n) |} |} |}).
  assert (D : issuer_from_bytes (issuer_to_bytes i) = Ok i). { apply (C33_issuer E L). split; [|discriminate]. split; [|cbn [i iss_keypair kp_public kp_secret pk_Xn sk_xn]; rewrite !repeat_length; reflexivity].
    split; [|apply Forall_forall; intros x H; apply repeat_spec in H; subst x]; split; reflexivity. }
  exists (issuer_to_bytes i), i. split; [exact D|]. rewrite (proj2 (proj2 (proj2 (proj2 (C94_decode_keys E _)))) i D).
  cbn [i iss_keypair kp_public kp_secret pk_Xn sk_xn]. rewrite !repeat_length. lia.
Qed.
Print Assumptions C94_issuer_refuted.
(** Encoding a number takes four steps a byte, five from text, but one if it has
    more than 32; decoding one is bounded. *)
Theorem C94_numbers : forall b,
  work (t_try_from_bytes b) <= 4 * List.length b + 12 /\ work (t_try_from_string b) <= 5 * List.length b + 12 /\
  (32 < List.length b -> work (t_try_from_bytes b) = 1 /\ work (t_try_from_string b) = 1) /\
  (forall n, try_from_bytes b = Ok n -> work (t_try_from_bytes b) = 4 * List.length b + 12) /\
  (forall n, try_from_string b = Ok n -> work (t_try_from_string b) = 5 * List.length b + 12) /\
  (forall n, work (t_phone_number_to_string n) <= 476).
Proof.
  intros b. destruct (encode_work (fun d => now d) 0 b (fun x => eq_refl)) as (A1 & A2 & A3).
  destruct (encode_work (fun d => seen (Arm (ascii_digit d)) (ascii_digit d)) 1 b (fun x => eq_refl)) as (B1 & B2 & B3).
  split; [exact A1|]. split; [exact B1|]. split; [auto|]. split; [|split; [|exact to_string_work]].
  - intros n H. apply (A3 n). rewrite <- H. apply try_from_bytes_result.
  - intros n H. apply (B3 n). rewrite <- H. apply try_from_string_result.
Qed.
Print Assumptions C94_numbers.
(** The proofs take the same number of steps whatever they are about. *)
Theorem C94_proofs : forall E t os,
  (forall p s, work (@t_ir_create E t p s os) = 8) /\ (forall q p, work (@t_ir_verify E q t p) = 12) /\
  (forall p s, work (@t_ab_create E t p s os) = 7) /\ (forall q p, work (@t_ab_verify E q t p) = 11) /\
  (forall p s, work (@t_ib_create E t p s os) = 17) /\ (forall q p, work (@t_ib_verify E q t p) = 25) /\
  (forall p s, work (@t_vc_create E t p s os) = 6) /\ (forall q p, work (@t_vc_verify E q t p) = 9) /\
  (forall p s, work (@t_ce_create E t p s os) = 6) /\ (forall q p, work (@t_ce_verify E q t p) = 9).
Proof.
  intros E t os. repeat split; auto using ir_create_work, ab_create_work, ib_create_work, vc_create_work, ce_create_work.
Qed.
Print Assumptions C94_proofs.
(** Issuing takes three steps an attribute; a credential for a phone number four
    a byte of the number. *)
Theorem C94_issue : forall E (i : Issuer E) r os,
  (forall q, work (t_issue i q r os) <= 3 * List.length (rq_attributes_revealed q) + 17) /\
  (forall k m, work (@t_mac E k m r) <= List.length m + 2) /\
  (forall number, work (t_signal_issue i number r os) <= 4 * List.length number + 33) /\
  (forall number, 32 < List.length number -> work (t_signal_issue i number r os) = 2).
Proof.
  intros E i r os. split; [intros; apply issue_work|]. split; [intros; apply mac_work|].
  split; intros b; unfold t_signal_issue; rewrite work_pass, work_attempt, work_map_err;
    destruct (encode_work (fun d => now d) 0 b (fun x => eq_refl)) as (A1 & A2 & _); fold (t_try_from_bytes b) in *.
  - destruct (snd (attempt _)) as [n| |]; try lia. pose proof (issue_work i {| rq_attributes_revealed := [n] |} r os) as I.
    cbn [rq_attributes_revealed List.length] in I. lia.
  - intros H. rewrite (A2 H). rewrite snd_attempt, snd_t_map_err. unfold t_try_from_bytes, t_phone_number_encode.
    rewrite snd_tbind, snd_t_if, (proj2 (Nat.ltb_lt _ _) H). reflexivity.
Qed.
Print Assumptions C94_issue.
(** Showing and finishing an issuance are bounded by what the user holds and is
    given. *)
Theorem C94_user : forall E r os,
  (forall (u : User E) z, work (t_show u z r os) <= 4 * List.length z + 17) /\
  (forall (u : SignalUser E) e, work (t_signal_show u r os e) <= 37) /\
  (forall (u : SignalUser E) i, work (t_signal_obtain_finish u (Some i)) <= List.length (cr_attributes (is_credential i)) + 16) /\
  (forall u : SignalUser E, work (t_signal_obtain_finish u None) = 1).
Proof.
  intros E r os. split; [intros; apply show_work|]. split; [intros; apply signal_show_work|].
  assert (O : forall (u : SignalUser E) o, work (t_signal_obtain_finish u o) = work (t_obtain_finish (su_user u) o)).
  { intros u o. unfold t_signal_obtain_finish. rewrite work_bind. destruct (snd (t_obtain_finish _ _)). rewrite work_now. lia. }
  split; [|reflexivity]. intros u i. rewrite O. exact (obtain_work (su_user u) (Some i)).
Qed.
Print Assumptions C94_user.
(** Verifying is bounded by the presentation, and by the key alone: however many
    attributes a presentation has, it costs the issuer no more. *)
Theorem C94_verify : forall E (i : Issuer E),
  (forall p, work (t_signal_verify i p) <=
     3 * (List.length (pr_attributes_revealed (sc_presentation p)) + List.length (pr_attributes_blinded (sc_presentation p))) + 17) /\
  (forall p, work (t_signal_verify i p) <= 6 * List.length (sk_xn (kp_secret (iss_keypair i))) + 21) /\
  (forall c, work (t_verify_roster_membership i c) <= 12) /\
  (forall k (t : Tag E) m, work (t_mac_verify k t m) <= List.length (sk_xn k) + 3).
Proof.
  intros E i.
  assert (V : forall p, work (t_signal_verify i p) = work (t_issuer_verify i (sc_presentation p)) + 1).
  { intros p. unfold t_signal_verify. rewrite work_pass, work_attempt. destruct (snd (attempt _)); rewrite ?work_now; lia. }
  split; [intros p; rewrite V; pose proof (verify_work i (sc_presentation p)); lia|].
  split; [intros p; rewrite V; pose proof (verify_work i (sc_presentation p)); lia|].
  split; [|intros; apply mac_verify_work]. intros c. unfold t_verify_roster_membership.
  rewrite work_pass, work_index. destruct (snd (t_index _ 0)); try lia.
  rewrite work_pass, work_attempt, work_map_err, ce_verify_work. destruct (snd (attempt _)); rewrite ?work_now; lia.
Qed.
Print Assumptions C94_verify.

(** Honest calls, which reach the bounds; a presentation with a thousand
    attributes, which costs little more than one with a single attribute. *)
Definition heavy : SignalCredentialPresentation toy :=
  let p := sample_shown 1 in
  {| sc_roster_entry_commitment := pt 5;
     sc_presentation := {| pr_proof := pr_proof p; pr_rerandomized_nonce := pr_rerandomized_nonce p;
                           pr_attributes_revealed := pr_attributes_revealed p;
                           pr_attributes_blinded := repeat (pt 3) 1000;
                           pr_rerandomized_mac_commitment := pr_rerandomized_mac_commitment p |};
     sc_roster_membership_proof := {| ce_challenge := 0; ce_responses := {| ces_m0 := 0; ces_z0 := 0; ces_z1 := 0 |} |} |}%Z.
Example C94_met_run :
  work (t_signal_issue sample_issuer [x01; x02; x03] (toy_stream 1) (toy_stream 2)) = 4 * 3 + 33 /\
  work (t_signal_show {| su_phone_number := 100%Z; su_user := sample_holder |} (toy_stream 3) (toy_stream 4)
          {| re_commitment := pt 9; re_opening := 17%Z |}) = 37 /\
  work (t_issuer_verify sample_issuer (sample_shown 1%Z)) = 3 * (0 + 1) + 16 /\
  work (t_signal_verify sample_issuer heavy) = 8.
Proof. repeat split; vm_compute; reflexivity. Qed.
Example C94_met_numbers :
  work (t_try_from_bytes [x01; x02; x03]) = 24 /\ work (t_try_from_string (str "123")) = 27 /\
  work (t_phone_number_to_string 255%Z) = 476 /\ work (t_try_from_bytes (repeat x01 1000)) = 1.
Proof. repeat split; vm_compute; reflexivity. Qed.
(** The keys of the issuer, and the same with ten components. *)
Example C94_met_keys :
  work (@t_issuer_from_bytes toy (issuer_to_bytes sample_issuer)) = 31 /\
  work (@t_issuer_from_bytes toy (issuer_to_bytes (issuer_with toy sample_params (repeat (pt 231) 10) 5%Z (repeat 7%Z 10)))) = 76 /\
  work (@t_issuer_from_bytes toy (zeros 100)) = 1.
Proof. repeat split; vm_compute; reflexivity. Qed.
