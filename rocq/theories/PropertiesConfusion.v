(** Which results can stand for which arguments (C105): the decoders of aeonflux/src and
    signal-credential/src. *)
From Verif Require Import Toy Algebra ProofFacts PhoneFacts CodecFacts CompositeFacts IssueFacts ShowFacts SignalFacts PropertiesCodec PropertiesIssue PropertiesShow PropertiesPhone PropertiesSignal SpecConfusion.
From Coq Require Import Lia Bool.

Lemma word_here (x y : bytes) : List.length x = 32%nat -> word 0 (x ++ y) = x.
Proof. apply field_here. Qed.
Lemma word_all (x : bytes) : List.length x = 32%nat -> word 0 x = x.
Proof. apply field_all. Qed.
Lemma word_skip k (x y : bytes) : List.length x = 32%nat -> word (S k) (x ++ y) = word k y.
Proof. intros H. unfold word. rewrite (field_skip 32) by (exact H || lia). f_equal. lia. Qed.
Lemma words_of n : forall b, List.length b = (32 * n)%nat -> b = List.concat (map (fun k => word k b) (seq 0 n)).
Proof.
  induction n as [|n IH]; intros b Hb; [destruct b; [reflexivity|discriminate]|].
  destruct (app_split b 32 ltac:(lia)) as (x & y & -> & Hx). cbn [seq map List.concat].
  rewrite word_here by exact Hx. f_equal. rewrite app_length in Hb. rewrite (IH y) at 1 by lia.
  f_equal. rewrite <- seq_shift, map_map. apply map_ext. intros k. symmetry. apply word_skip, Hx.
Qed.
Lemma concat_words (l l' : list bytes) : Forall (fun w => List.length w = 32%nat) l -> Forall (fun w => List.length w = 32%nat) l' ->
  List.concat l = List.concat l' -> l = l'.
Proof.
  intros H. revert l'. induction H as [|x l Hx H IH]; intros l' H' He; destruct H' as [|y l' Hy H'].
  - reflexivity.
  - exfalso. apply (f_equal (@List.length _)) in He. cbn in He. rewrite app_length in He. unfold bytes in *. lia.
  - exfalso. apply (f_equal (@List.length _)) in He. cbn in He. rewrite app_length in He. unfold bytes in *. lia.
  - cbn in He. assert (Hxy : x = y).
    { rewrite <- (word_here x (List.concat l) Hx), <- (word_here y (List.concat l') Hy). unfold bytes in *. rewrite He. reflexivity. }
    subst y. apply app_inv_head in He. f_equal. apply IH; assumption.
Qed.

Section confusion.
  Context {E : Ext} (L : ExtLaws E).
  Local Notation is_point := (is_point E).

  Lemma point_length w : is_point w -> List.length w = 32%nat.
  Proof. intros [P ->]. apply (compress_len L). Qed.
  Lemma scalar_length w : is_scalar w -> List.length w = 32%nat.
  Proof. intros (x & _ & ->). apply scalar_to_bytes_length. Qed.
  Lemma points_are l : Forall is_point l <-> exists Ps : list (point E), l = map compress Ps.
  Proof.
    split.
    - intros H. induction H as [|w l [P ->] H [Ps ->]]; [exists []; reflexivity|exists (P :: Ps); reflexivity].
    - intros [Ps ->]. apply Forall_map, Forall_forall. intros P _. exists P. reflexivity.
  Qed.
  Lemma scalars_are l : Forall is_scalar l <-> exists xs, Forall canonical xs /\ l = map scalar_to_bytes xs.
  Proof.
    split.
    - intros H. induction H as [|w l (x & Hx & ->) H (xs & Hxs & ->)]; [exists []; split; [constructor|reflexivity]|].
      exists (x :: xs). split; [constructor; assumption|reflexivity].
    - intros (xs & Hxs & ->). apply Forall_map. refine (Forall_impl _ _ Hxs). intros x Hx. exists x. split; [exact Hx|reflexivity].
  Qed.
  Lemma compress_all (Ps : list (point E)) : Forall (fun w => List.length w = 32%nat) (map compress Ps).
  Proof. apply Forall_map, Forall_forall. intros P _. apply (compress_len L). Qed.
  Lemma encode_all xs : Forall (fun w => List.length w = 32%nat) (map scalar_to_bytes xs).
  Proof. apply Forall_map, Forall_forall. intros x _. apply scalar_to_bytes_length. Qed.
  Lemma words_all n b : List.length b = (32 * n)%nat -> Forall (fun w => List.length w = 32%nat) (map (fun k => word k b) (seq 0 n)).
  Proof.
    intros Hb. apply Forall_map, Forall_forall. intros k Hk. apply in_seq in Hk. unfold word, field.
    rewrite firstn_length, skipn_length. lia.
  Qed.

  (** The decoders that read words. *)
  Lemma parameters_words b : taken E WParameters b <-> List.length b = 64%nat /\ points E [0; 1]%nat b.
  Proof.
    unfold points. rewrite !Forall_cons_iff. split.
    - intros [p H]. apply (system_parameters_iff L) in H. subst b. split; [apply (system_parameters_length L)|].
      unfold system_parameters_to_bytes. rewrite word_skip, word_here, word_all by apply (compress_len L).
      repeat split; try constructor; eexists; reflexivity.
    - intros (Hl & [P HP] & [Q HQ] & _). exists {| sp_g := P; sp_h := Q |}. apply (system_parameters_iff L).
      rewrite (words_of 2 b Hl). cbn [seq map List.concat]. rewrite HP, HQ, app_nil_r. reflexivity.
  Qed.
  Lemma public_words n b : List.length b = (32 * n)%nat -> (taken E WIssuerParameters b <-> points E (seq 0 n) b).
  Proof.
    intros Hb. unfold points. rewrite <- (Forall_map (fun k => word k b) is_point), points_are. cbn [taken]. split.
    - intros [k H]. apply (public_key_iff L) in H. exists (pk_Xn k). unfold public_key_to_bytes in H. rewrite flat_map_concat_map in H.
      apply concat_words; [apply words_all, Hb|apply compress_all|]. rewrite <- words_of by exact Hb. exact H.
    - intros [Ps HP]. exists {| pk_Xn := Ps |}. apply (public_key_iff L). unfold public_key_to_bytes. cbn [pk_Xn].
      rewrite flat_map_concat_map. refine (eq_trans (words_of n b Hb) _). apply f_equal. exact HP.
  Qed.
  Lemma public_length b : taken E WIssuerParameters b -> exists n, List.length b = (32 * n)%nat.
  Proof. intros [k H]. apply (public_key_iff L) in H. exists (List.length (pk_Xn k)). rewrite H. apply (public_key_length L). Qed.
  Lemma keypair_words n b : List.length b = (32 * (n + S n))%nat ->
    (taken E WKeypair b <-> points E (seq 0 n) b /\ scalars (seq n (S n)) b).
  Proof.
    intros Hb. unfold points, scalars.
    rewrite <- (Forall_map (fun k => word k b) is_point), <- (Forall_map (fun k => word k b) is_scalar), points_are, scalars_are. cbn [taken]. split.
    - intros [k H]. apply (keypair_iff L) in H as [[[Hs0 Hs] Hl] H].
      assert (Hn : List.length (pk_Xn (kp_public k)) = n) by (rewrite H, (keypair_length L) in Hb; lia).
      assert (Hc : map (fun k => word k b) (seq 0 (n + S n)) =
        (map compress (pk_Xn (kp_public k)) ++ map scalar_to_bytes (sk_x0 (kp_secret k) :: sk_xn (kp_secret k)))%list).
      { apply concat_words; [apply words_all, Hb|apply Forall_app; split; [apply compress_all|apply encode_all]|].
        rewrite <- words_of by exact Hb. rewrite concat_app. cbn [map List.concat]. rewrite <- !flat_map_concat_map. exact H. }
      rewrite seq_app, map_app in Hc. apply app_inj_l in Hc as [H1 H2]; [|rewrite !map_length, seq_length; exact Hn].
      split; [exists (pk_Xn (kp_public k)); exact H1|]. exists (sk_x0 (kp_secret k) :: sk_xn (kp_secret k)). split; [constructor; assumption|exact H2].
    - intros [[Ps HP] ([|x0 xs] & Hxs & HS)]; [cbn in HS; discriminate HS|].
      exists {| kp_public := {| pk_Xn := Ps |}; kp_secret := {| sk_x0 := x0; sk_xn := xs |} |}. apply (keypair_iff L). split.
      + inversion Hxs as [|? ? Hx0 Hxs']; subst. split; [split; assumption|]. cbn [kp_public kp_secret pk_Xn sk_xn].
        apply (f_equal (@List.length _)) in HP, HS. rewrite !map_length, !seq_length in HP, HS. cbn [List.length] in HS. lia.
      + unfold keypair_to_bytes, public_key_to_bytes, secret_key_to_bytes. cbn [kp_public kp_secret pk_Xn sk_x0 sk_xn].
        change (scalar_to_bytes x0 ++ flat_map scalar_to_bytes xs)%list with (flat_map scalar_to_bytes (x0 :: xs)).
        rewrite !flat_map_concat_map. refine (eq_trans (words_of (n + S n) b Hb) _). rewrite seq_app, map_app, concat_app.
        apply f_equal2; apply f_equal; [exact HP|exact HS].
  Qed.
  Lemma keypair_length_odd b : taken E WKeypair b -> exists n, List.length b = (32 * (n + S n))%nat.
  Proof.
    intros [k H]. apply (keypair_iff L) in H as [[_ Hl] ->]. exists (List.length (pk_Xn (kp_public k))).
    rewrite (keypair_length L). lia.
  Qed.
  Lemma points_shift (x b : bytes) l : List.length x = 64%nat -> points E (map (fun k => S (S k)) l) (x ++ b) <-> points E l b.
  Proof.
    intros Hx. destruct (app_split_exact x 32 32 Hx) as (u & v & -> & Hu & Hv). unfold points. rewrite Forall_map, !Forall_forall.
    split; intros H k Hk; specialize (H k Hk); rewrite <- app_assoc, !word_skip in * by assumption; exact H.
  Qed.
  Lemma scalars_shift (x b : bytes) l : List.length x = 64%nat -> scalars (map (fun k => S (S k)) l) (x ++ b) <-> scalars l b.
  Proof.
    intros Hx. destruct (app_split_exact x 32 32 Hx) as (u & v & -> & Hu & Hv). unfold scalars. rewrite Forall_map, !Forall_forall.
    split; intros H k Hk; specialize (H k Hk); rewrite <- app_assoc, !word_skip in * by assumption; exact H.
  Qed.
  Lemma points_front (x b : bytes) : List.length x = 64%nat -> points E [0; 1]%nat (x ++ b) <-> points E [0; 1]%nat x.
  Proof.
    intros Hx. destruct (app_split_exact x 32 32 Hx) as (u & v & -> & Hu & Hv). unfold points.
    rewrite !Forall_cons_iff, <- app_assoc, !word_skip, !word_here, word_all by assumption.
    split; intros (H1 & H2 & _); repeat (split || constructor); assumption.
  Qed.
  Lemma points_app l l' b : points E (l ++ l')%list b <-> points E l b /\ points E l' b.
  Proof. apply Forall_app. Qed.
  Lemma issuer_words n b : List.length b = (64 + 32 * (n + S n))%nat -> (1 <= n)%nat ->
    (taken E WIssuer b <-> points E (seq 0 (2 + n)) b /\ scalars (seq (2 + n) (S n)) b).
  Proof.
    intros Hb Hn. destruct (app_split_exact b 64 _ Hb) as (x & y & -> & Hx & Hy).
    assert (H2 : forall a m, seq (S (S a)) m = map (fun k => S (S k)) (seq a m)) by (intros; rewrite <- !seq_shift, map_map; reflexivity).
    rewrite (seq_app 2 n 0). change (seq (0 + 2) n) with (seq 2 n). rewrite H2. change (2 + n)%nat with (S (S n)).
    rewrite (H2 n (S n)). clear H2. change (seq 0 2) with [0; 1]%nat.
    rewrite points_app, points_front, points_shift, scalars_shift by exact Hx. cbn [taken].
    unfold signal_issuer_from_bytes. rewrite (issuer_eq x y Hx) by lia. split.
    - intros [i H]. inv_ok. assert (H1 : taken E WParameters x) by (eexists; eassumption).
      assert (H2 : taken E WKeypair y) by (eexists; eassumption).
      apply parameters_words in H1 as [_ H1]. apply (keypair_words n y Hy) in H2. tauto.
    - intros [[H1 H2] H3]. assert (K1 : taken E WParameters x) by (apply parameters_words; tauto).
      assert (K2 : taken E WKeypair y) by (apply (keypair_words n y Hy); tauto).
      destruct K1 as [p ->], K2 as [k ->]. eexists. reflexivity.
  Qed.
  Lemma issuer_length_odd b : taken E WIssuer b -> exists n, List.length b = (64 + 32 * (n + S n))%nat /\ (1 <= n)%nat.
  Proof.
    intros [i H]. apply (issuer_iff L) in H as [[[_ Hl] Hn] ->]. exists (List.length (pk_Xn (kp_public (iss_keypair i)))).
    rewrite (issuer_length L). split; [lia|]. destruct (pk_Xn _); [congruence|cbn [List.length]; lia].
  Qed.

  (** Those that read more. *)
  Lemma entry_words b : taken E WEntry b <-> List.length b = 64%nat /\ points E [0]%nat b.
  Proof.
    cbn [taken]. unfold points. rewrite Forall_cons_iff. split.
    - intros [e H]. apply (roster_iff L) in H as (o & Ho & -> & _). rewrite app_length, (compress_len L), Ho. split; [reflexivity|].
      rewrite word_here by apply (compress_len L). split; [eexists; reflexivity|constructor].
    - intros (Hb & [P HP] & _). destruct (app_split_exact b 32 32 Hb) as (x & y & -> & Hx & Hy). rewrite word_here in HP by exact Hx.
      exists {| re_commitment := P; re_opening := le_decode y mod 2 ^ 255 |}. apply (roster_iff L). exists y. subst x. auto.
  Qed.
  Lemma user_taken_length b : taken E WUser b -> List.length b = 288%nat.
  Proof.
    intros [u H]. apply (signal_user_iff L) in H as (n & Hn & _ & Hw & ->). rewrite app_length, (user_length L) by exact Hw. lia.
  Qed.
  Lemma issuance_taken_length b : taken E WIssuance b -> (328 <= List.length b)%nat.
  Proof.
    intros [i H]. apply (issuance_iff L) in H as [[[Hw _] _] [rest ->]]. rewrite app_length, (issuance_length L), Hw. lia.
  Qed.
  Lemma presentation_taken_length b : taken E WPresentation b -> (448 <= List.length b)%nat.
  Proof.
    intros [p H]. apply (signal_presentation_iff L) in H as [Hw [rest ->]]. rewrite app_length, (signal_presentation_length L) by exact (proj1 Hw). lia.
  Qed.
  Lemma verified_taken b : taken E WVerified b <-> taken E WPresentation b.
  Proof.
    cbn [taken]. unfold verified_signal_from_bytes. split.
    - intros [v H]. inv_ok. eexists. eassumption.
    - intros [p ->]. eexists. reflexivity.
  Qed.
  Lemma number_taken_length b : taken E WNumber b -> (List.length b <= 27)%nat.
  Proof. intros [n H]. exact (try_from_bytes_inv _ _ H). Qed.
  Lemma issuance_of_scalars (x : bytes) (P N M : point E) (m : scalar) l rest : canonical m -> Forall canonical l -> List.length l = 5%nat ->
    x = (@compress E P ++ compress N ++ compress M ++ scalar_to_bytes m ++ bincode_serialize l ++ rest)%list -> taken E WIssuance x.
  Proof.
    intros Hm Hl Hn ->. destruct l as [|a [|c [|d [|e [|f [|]]]]]]; try discriminate Hn.
    exists {| is_secret_key_commitment := P; is_credential := {| cr_mac := {| tag_nonce := N; tag_mac := M |}; cr_attributes := [m] |};
      is_proof := {| ir_challenge := a; ir_responses := {| irs_x0 := c; irs_x1 := d; irs_x0_tilde := e; irs_m1x1 := f |} |} |}.
    apply (issuance_iff L). split.
    - split; [split; [reflexivity|]|]; [constructor; [exact Hm|constructor]|exact Hl].
    - exists rest. unfold issuance_to_bytes, commitment_to_bytes, credential_to_bytes, tag_to_bytes.
      cbn [is_secret_key_commitment is_credential is_proof cr_mac cr_attributes tag_nonce tag_mac flat_map].
      rewrite app_nil_r, <- !app_assoc. reflexivity.
  Qed.
  Lemma issuance_taken_scalar b : taken E WIssuance b -> scalars [3]%nat b.
  Proof.
    intros [i H]. apply (issuance_iff L) in H as [[[Hl Hw] _] [rest ->]]. constructor; [|constructor].
    unfold issuance_to_bytes, commitment_to_bytes, credential_to_bytes, tag_to_bytes.
    destruct (cr_attributes (is_credential i)) as [|m [|]]; try discriminate Hl. inversion Hw; subst. cbn [flat_map].
    rewrite app_nil_r, <- !app_assoc, !word_skip by apply (compress_len L). rewrite word_here by apply scalar_to_bytes_length.
    exists m. split; [assumption|reflexivity].
  Qed.

  (** What the strings of each kind are like. *)
  Definition size (k : kind) : nat :=
    match k with
    | KParameters | KEntry => 64 | KKeypair => 96 | KIssuer => 160 | KIssuerParameters | KCommitment => 32
    | KIssuance => 328 | KUser => 288 | KPresentation | KVerified => 448
    end.
  Definition where_points (k : kind) : list nat :=
    match k with
    | KParameters => [0; 1] | KEntry | KKeypair | KCommitment | KIssuerParameters => [0] | KIssuer => [0; 1; 2]
    | KIssuance => [0] | KUser => [1; 2; 3; 5; 6; 7] | KPresentation | KVerified => [0; 1; 2; 3]
    end%nat.
  Definition where_scalars (k : kind) : list nat :=
    match k with
    | KKeypair => [1; 2] | KIssuer => [3; 4] | KUser => [4; 8] | _ => []
    end%nat.
  Lemma compress_point (P : point E) : is_point (compress P).
  Proof. exists P. reflexivity. Qed.
  Lemma canonical_scalar x : canonical x -> is_scalar (scalar_to_bytes x).
  Proof. exists x. auto. Qed.
  Ltac reach := repeat (rewrite word_skip by (first [apply (compress_len L)|apply scalar_to_bytes_length]));
    first [rewrite word_here by (first [apply (compress_len L)|apply scalar_to_bytes_length])
          |rewrite word_all by (first [apply (compress_len L)|apply scalar_to_bytes_length])];
    first [apply compress_point|apply canonical_scalar; assumption].
  Ltac lengths := rewrite ?app_length, ?(compress_len L), ?scalar_to_bytes_length; reflexivity.
  Lemma user_parts (u : User E) : wf_user u -> exists (g h X P N M : point E) x m, canonical x /\ canonical m /\
    user_to_bytes u = (@compress E g ++ compress h ++ compress X ++ scalar_to_bytes x ++ compress P ++ compress N ++ compress M ++ scalar_to_bytes m)%list.
  Proof.
    intros ([X HX] & Hk & Hc).
    assert (H0 : zeros 32 = scalar_to_bytes 0) by reflexivity.
    assert (Hz : zeros 32 = @compress E pzero) by (symmetry; apply (compress_zero E L)).
    assert (C0 : canonical 0) by (split; [lia|apply ell_pos]).
    assert (K1 : exists x P, canonical x /\
      match us_key u with None => zeros 64 | Some k => elgamal_keypair_to_bytes k end = (scalar_to_bytes x ++ @compress E P)%list).
    { destruct (us_key u) as [k|].
      - destruct (Hk k eq_refl) as [Hk' _]. exists (eg_secret k), (eg_public k). split; [exact Hk'|reflexivity].
      - exists 0, pzero. split; [exact C0|]. change (zeros 64) with (zeros (32 + 32)). rewrite zeros_app. apply f_equal2; assumption. }
    assert (K2 : exists (N M : point E) m, canonical m /\
      match us_credential u with None => zeros 96 | Some c => credential_to_bytes c end = (@compress E N ++ compress M ++ scalar_to_bytes m)%list).
    { destruct (us_credential u) as [c|].
      - destruct (Hc c eq_refl) as [(m & Hm & Ha) _]. exists (tag_nonce (cr_mac c)), (tag_mac (cr_mac c)), m. split; [exact Hm|].
        unfold credential_to_bytes, tag_to_bytes. rewrite Ha. cbn [flat_map]. rewrite app_nil_r, <- app_assoc. reflexivity.
      - exists pzero, pzero, 0. split; [exact C0|]. change (zeros 96) with (zeros (32 + (32 + 32))). rewrite !zeros_app.
        repeat apply f_equal2; assumption. }
    destruct K1 as (x & P & Hx & K1), K2 as (N & M & m & Hm & K2).
    exists (sp_g (us_system_parameters u)), (sp_h (us_system_parameters u)), X, P, N, M, x, m. split; [exact Hx|]. split; [exact Hm|].
    unfold user_to_bytes.
    refine (eq_trans (f_equal2 (@app _) eq_refl (f_equal2 (@app _) eq_refl (f_equal2 (@app _) K1 K2))) _). unfold system_parameters_to_bytes, public_key_to_bytes. rewrite HX. cbn [flat_map].
    rewrite app_nil_r, <- !app_assoc. reflexivity.
  Qed.
  Lemma presentation_parts (p : SignalCredentialPresentation E) : wf_signal_presentation p -> exists (R M N C : point E) l, Forall canonical l /\ List.length l = 8%nat /\
    signal_presentation_to_bytes p = (@compress E R ++ compress M ++ compress N ++ compress C ++ bincode_serialize l)%list.
  Proof.
    intros Hw. apply (wf_signal_presentation_iff) in Hw as [(H1 & H2 & H3) H4].
    destruct (pr_attributes_blinded (sc_presentation p)) as [|C [|]] eqn:HC; try discriminate H2.
    exists (sc_roster_entry_commitment p), (pr_rerandomized_mac_commitment (sc_presentation p)), (pr_rerandomized_nonce (sc_presentation p)), C,
      (vc_proof_scalars (pr_proof (sc_presentation p)) ++ ce_proof_scalars (sc_roster_membership_proof p))%list.
    split; [apply Forall_app; split; assumption|]. split; [reflexivity|].
    unfold signal_presentation_to_bytes, presentation_to_bytes, committed_to_bytes, commitment_to_bytes, vc_serialize, ce_serialize, bincode_serialize.
    rewrite H1, HC, flat_map_app. cbn [flat_map]. rewrite !app_nil_r, <- !app_assoc. reflexivity.
  Qed.
  Lemma shape k b : made E k b -> List.length b = size k /\ points E (where_points k) b /\ scalars (where_scalars k) b.
  Proof.
    destruct k; cbn [made size where_points where_scalars].
    - intros [p ->]. unfold system_parameters_to_bytes. split; [lengths|]. split; repeat constructor; reach.
    - intros (k & (X & x0 & x1 & -> & H0 & H1) & ->). unfold keypair_to_bytes, public_key_to_bytes, secret_key_to_bytes.
      cbn [kp_public kp_secret pk_Xn sk_x0 sk_xn flat_map]. rewrite !app_nil_r. split; [lengths|]. split; repeat constructor; reach.
    - intros (i & (X & x0 & x1 & Hk & H0 & H1) & ->). unfold signal_issuer_to_bytes, issuer_to_bytes, system_parameters_to_bytes. rewrite Hk.
      unfold keypair_to_bytes, public_key_to_bytes, secret_key_to_bytes.
      cbn [kp_public kp_secret pk_Xn sk_x0 sk_xn flat_map]. rewrite !app_nil_r, <- !app_assoc. split; [lengths|]. split; repeat constructor; reach.
    - intros [X ->]. unfold public_key_to_bytes. cbn [pk_Xn flat_map]. rewrite app_nil_r. split; [lengths|]. split; repeat constructor; reach.
    - intros (i & Hw & ->). apply (wf_issuance_iff) in Hw as [[Hw _] _]. rewrite (issuance_length L), Hw. split; [reflexivity|].
      unfold issuance_to_bytes, commitment_to_bytes. split; repeat constructor; reach.
    - intros (u & Hu & Hn & ->). destruct (user_parts _ Hu) as (g & h & X & P & N & M & x & m & Hx & Hm & He).
      unfold signal_user_to_bytes. rewrite He. unfold phone_number_to_bytes. split; [lengths|]. split; repeat constructor; reach.
    - intros (e & _ & ->). unfold roster_to_bytes, committed_to_bytes, commitment_to_bytes. split; [lengths|]. split; repeat constructor; reach.
    - intros [C ->]. unfold committed_to_bytes, commitment_to_bytes. split; [lengths|]. split; repeat constructor; reach.
    - intros (p & Hw & ->). split; [apply wf_signal_presentation_iff in Hw; exact (signal_presentation_length L _ (proj1 Hw))|].
      destruct (presentation_parts p Hw) as (R & M & N & C & l & _ & _ & ->). split; repeat constructor; reach.
    - intros (v & Hw & ->). unfold verified_signal_to_bytes.
      split; [apply wf_signal_presentation_iff in Hw; exact (signal_presentation_length L _ (proj1 Hw))|].
      destruct (presentation_parts _ Hw) as (R & M & N & C & l & _ & _ & ->). split; repeat constructor; reach.
  Qed.

  Ltac absurd T :=
    let n := fresh in let T' := fresh in exfalso;
    first [apply parameters_words in T as [T _]; lia
          |apply keypair_length_odd in T as [n T]; lia
          |apply issuer_length_odd in T as [n [T T']]; lia
          |apply public_length in T as [n T]; lia
          |apply issuance_taken_length in T; lia
          |apply user_taken_length in T; lia
          |apply entry_words in T as [T _]; lia
          |apply presentation_taken_length in T; lia
          |apply verified_taken in T; apply presentation_taken_length in T; lia
          |apply number_taken_length in T; lia].
  Ltac never := split; [let T := fresh in intros T; absurd T|intros []].
  Ltac words := unfold points, scalars in *; cbn [seq Nat.add] in *; rewrite ?Forall_cons_iff in *; tauto.
  Ltac always := split; [intros _; exact I|intros _].
  Lemma issuance_of_presentation p : wf_signal_presentation p ->
    (taken E WIssuance (signal_presentation_to_bytes p) <-> scalars [3]%nat (@signal_presentation_to_bytes E p)).
  Proof.
    intros Hw. split; [apply issuance_taken_scalar|]. intros H. destruct (presentation_parts p Hw) as (R & M & N & C & l & Hl & Hn & He).
    rewrite He in *. inversion H as [|? ? H1 _]; subst. rewrite !word_skip, word_here in H1 by apply (compress_len L).
    destruct H1 as (m & Hm & HC).
    apply (issuance_of_scalars _ R M N m (firstn 5 l) (bincode_serialize (skipn 5 l)) Hm).
    - rewrite <- (firstn_skipn 5 l) in Hl. apply Forall_app in Hl. apply Hl.
    - rewrite firstn_length, Hn. reflexivity.
    - unfold bincode_serialize. rewrite <- flat_map_app, firstn_skipn. repeat apply f_equal2; try reflexivity. exact HC.
  Qed.
  Lemma table_holds : forall k w b, made E k b -> (taken E w b <-> table E k w b).
  Proof.
    intros k w b H. destruct (shape k b H) as (Hb & Hp & Hs). destruct k; cbn [size where_points where_scalars] in Hb, Hp, Hs;
      destruct w; cbn [table]; try solve [never].
    - always. apply parameters_words. auto.
    - always. apply (public_words 2 b Hb). exact Hp.
    - always. apply entry_words. split; [exact Hb|]. words.
    - always. apply (keypair_words 1 b Hb). split; assumption.
    - rewrite (public_words 3 b Hb). words.
    - rewrite (keypair_words 2 b Hb). words.
    - always. apply (issuer_words 1 b Hb); [lia|]. split; assumption.
    - rewrite (public_words 5 b Hb). words.
    - rewrite (keypair_words 0 b Hb). words.
    - always. apply (public_words 1 b Hb). exact Hp.
    - always. destruct H as (i & Hw & ->). exists i. apply (issuance_iff L). split; [apply wf_issuance_iff; exact Hw|].
      exists []. rewrite app_nil_r. reflexivity.
    - rewrite (keypair_words 4 b Hb). words.
    - rewrite (issuer_words 3 b Hb) by lia. words.
    - rewrite (public_words 9 b Hb). words.
    - always. destruct H as (u & Hu & Hn & ->). exists u. apply (signal_user_iff L). exists (scalar_to_bytes (su_phone_number u)).
      split; [apply scalar_to_bytes_length|]. split; [|split; [apply (wf_user_iff L), Hu|reflexivity]].
      unfold scalar_to_bytes. unfold bits255 in Hn. rewrite le_decode_encode_small by lia. symmetry. apply Z.mod_small. exact Hn.
    - rewrite parameters_words. words.
    - rewrite (public_words 2 b Hb). words.
    - always. apply entry_words. auto.
    - rewrite (keypair_words 0 b Hb). words.
    - always. apply (public_words 1 b Hb). exact Hp.
    - rewrite (public_words 14 b Hb). words.
    - destruct H as (p & Hw & ->). apply issuance_of_presentation, Hw.
    - always. destruct H as (p & Hw & ->). exists p. apply (signal_presentation_iff L). split; [apply wf_signal_presentation_iff, Hw|].
      exists []. rewrite app_nil_r. reflexivity.
    - always. apply verified_taken. destruct H as (p & Hw & ->). exists p. apply (signal_presentation_iff L).
      split; [apply wf_signal_presentation_iff, Hw|]. exists []. rewrite app_nil_r. reflexivity.
    - rewrite (public_words 14 b Hb). words.
    - destruct H as (v & Hw & ->). apply issuance_of_presentation, Hw.
    - always. destruct H as (v & Hw & ->). exists (vs_presentation v). apply (signal_presentation_iff L).
      split; [apply wf_signal_presentation_iff, Hw|]. exists []. rewrite app_nil_r. reflexivity.
    - always. apply verified_taken. destruct H as (v & Hw & ->). exists (vs_presentation v). apply (signal_presentation_iff L).
      split; [apply wf_signal_presentation_iff, Hw|]. exists []. rewrite app_nil_r. reflexivity.
  Qed.

  Lemma first_point b : (32 <= List.length b)%nat -> (exists P : point E, decompress (firstn 32 b) = Some P) <-> points E [0]%nat b.
  Proof.
    intros Hb. unfold points, SpecConfusion.is_point. split.
    - intros [P H]. apply (decompress_iff L) in H. constructor; [|constructor]. exists P. exact H.
    - intros H. inversion H as [|? ? [P H'] _]; subst. exists P. apply (decompress_iff L). exact H'.
  Qed.
  Lemma crash_table_holds : forall k w b, made E k b -> (crashes E w b <-> crash_table E k w b).
  Proof.
    intros k w b H. destruct (shape k b H) as (Hb & Hp & _). assert (H32 : (32 <= List.length b)%nat) by (destruct k; cbn in Hb; lia).
    destruct w; cbn [crashes].
    - pose proof (system_parameters_no_panic (E := E) b). destruct k; cbn; tauto.
    - rewrite (keypair_panic L). destruct k; cbn; (split; [intros [_ K]; lia|intros []]).
    - pose proof (issuer_no_panic L b). unfold signal_issuer_from_bytes. destruct k; cbn; tauto.
    - pose proof (public_key_no_panic (E := E) b). destruct k; cbn; tauto.
    - rewrite (issuance_panic L), first_point by exact H32. destruct k; cbn [crash_table size where_points] in *;
        (split; [intros [K|[K _]]; first [exact I|lia]|intros K; first [contradiction|right; split; [lia|words]]]).
    - rewrite signal_user_panic. destruct k; cbn [crash_table]; (split; [intros K; lia|intros []]).
    - rewrite (roster_panic L), first_point by exact H32. destruct k; cbn [crash_table size where_points] in *;
        (split; [intros [K|[K K']]; first [exact I|exact K'|lia]|intros K; first [contradiction|right; split; [lia|first [exact K|words]]]]).
    - pose proof (signal_presentation_no_panic L b). destruct k; cbn; tauto.
    - assert (K : @verified_signal_from_bytes E b <> Panic).
      { unfold verified_signal_from_bytes. intros K. apply bind_panic in K as [K|(? & _ & K)]; [exact (signal_presentation_no_panic L b K)|discriminate]. }
      destruct k; cbn; tauto.
    - destruct (C27_outcomes b) as (_ & A2 & A3). destruct k; cbn [crash_table size] in *;
        (split; [intros K|intros K; first [contradiction|apply A2; lia]]; first [exact I|rewrite (proj1 (A3 ltac:(lia))) in K; discriminate]).
  Qed.

  Lemma parameters_as_entry : forall (i : Issuer E) (u : SignalUser E) c m r os, consistent i -> single_attribute i ->
    user_of i (su_user u) -> us_credential (su_user u) = Some c -> valid_credential i c m ->
    exists e p r' os', roster_from_bytes (system_parameters_to_bytes (iss_system_parameters i)) = Ok e /\
      signal_show u r os e = Ok (p, r', os') /\ signal_verify i p = Ok {| vs_presentation := p |} /\
      sc_roster_entry_commitment p = sp_g (iss_system_parameters i).
  Proof.
    intros i u c m r os Hc Hs [Hp Hk] Hu [Ha He].
    set (e := {| re_commitment := sp_g (iss_system_parameters i);
                 re_opening := le_decode (@compress E (sp_h (iss_system_parameters i))) mod 2 ^ 255 |}).
    destruct (single_cons i Hs) as [x1 Hx]. pose proof (consistent_single i x1 Hc Hx) as HX.
    assert (HX' : pk_Xn (us_issuer_parameters (su_user u)) = [smul x1 (sp_h (iss_system_parameters i))])
      by (rewrite Hk; exact HX).
    destruct (signal_show_ok u c m [] _ [] e r os Hu Ha HX') as (rand & rand' & Hsh). cbv zeta in Hsh.
    destruct Hsh as (r' & os' & Hsh). rewrite Hp in Hsh.
    exists e. eexists _, r', os'. split.
    { apply (roster_iff L). exists (compress (sp_h (iss_system_parameters i))). split; [apply (compress_len L)|]. split; reflexivity. }
    split; [exact Hsh|]. split; [|reflexivity]. apply signal_verify_ok. cbn [sc_presentation]. apply (shown_verify L); assumption.
  Qed.

  Lemma parameters_as_issuer_parameters : forall (p : SystemParameters E) key number n, try_from_bytes number = Ok n ->
    exists k u, public_key_from_bytes (system_parameters_to_bytes p) = Ok k /\ signal_user_new p k key number = Ok u /\
      ~ taken E WUser (signal_user_to_bytes u).
  Proof.
    intros p key number n Hn. exists {| pk_Xn := [sp_g p; sp_h p] |}. eexists. split; [|split].
    - apply (public_key_iff L). unfold system_parameters_to_bytes, public_key_to_bytes. cbn [pk_Xn flat_map]. rewrite app_nil_r. reflexivity.
    - unfold signal_user_new. rewrite Hn. reflexivity.
    - intros T. apply user_taken_length in T. unfold signal_user_to_bytes, phone_number_to_bytes, user_to_bytes, user_new in T.
      cbn [su_user su_phone_number us_system_parameters us_issuer_parameters us_key us_credential] in T.
      rewrite !app_length, scalar_to_bytes_length, (system_parameters_length L), (public_key_length L) in T. cbn [pk_Xn List.length] in T.
      destruct key as [k|]; [rewrite (elgamal_keypair_length L) in T|]; rewrite ?zeros_length in T; lia.
  Qed.

  Lemma presentation_as_issuance : forall (i : Issuer E) X1 Xs x1 p C (u : SignalUser E) Y1 Ys (s : CredentialIssuance E),
    pk_Xn (kp_public (iss_keypair i)) = X1 :: Xs -> sk_xn (kp_secret (iss_keypair i)) = [x1] ->
    wf_signal_presentation p -> pr_attributes_blinded (sc_presentation p) = [C] ->
    signal_verify i p = Ok {| vs_presentation := p |} ->
    issuance_from_bytes (signal_presentation_to_bytes p) = Ok s ->
    pk_Xn (us_issuer_parameters (su_user u)) = Y1 :: Ys ->
    snd (signal_obtain_finish u (Some s)) = Ok tt ->
    let q := presentation_publics (iss_system_parameters i) X1 (sk_x0 (kp_secret (iss_keypair i))) x1
               (pr_rerandomized_nonce (sc_presentation p)) (pr_rerandomized_mac_commitment (sc_presentation p)) C in
    let q' := issuance_publics (us_system_parameters (su_user u)) Y1 s in
    @challenge_collision E (extend show_transcript (vc_messages q (vc_recompute (pr_proof (sc_presentation p)) q)))
      (extend issuance_transcript (ir_messages q' (ir_recompute (is_proof s) q'))).
  Proof.
    intros i X1 Xs x1 p C u Y1 Ys s HX Hx Hw HC Hv Hs HY Ho q q'.
    apply wf_signal_presentation_iff in Hw as [(W1 & W2 & W3) W4].
    apply signal_verify_ok in Hv. rewrite (issuer_verify_ok1 i _ X1 Xs x1 C HX Hx W1 HC) in Hv. fold q in Hv.
    assert (V : vc_verify (pr_proof (sc_presentation p)) show_transcript q = Ok tt).
    { destruct (vc_verify _ _ _) as [[]| |]; congruence. }
    apply vc_verify_iff in V.
    assert (Ho' : snd (obtain_finish (su_user u) (Some s)) = Ok tt).
    { unfold signal_obtain_finish in Ho. destruct (obtain_finish (su_user u) (Some s)). exact Ho. }
    apply obtain_finish_ok in Ho' as (Z1 & Zs & HZ & V'). rewrite HY in HZ. injection HZ as <- <-. fold q' in V'. apply ir_verify_iff in V'.
    assert (He : ir_challenge (is_proof s) = vc_challenge (pr_proof (sc_presentation p))).
    { apply (issuance_iff L) in Hs as [[[S1 S2] S3] [rest Hs]].
      unfold signal_presentation_to_bytes, presentation_to_bytes, committed_to_bytes, commitment_to_bytes, issuance_to_bytes, commitment_to_bytes,
        credential_to_bytes, tag_to_bytes, ir_serialize, vc_serialize in Hs. rewrite W1, HC in Hs.
      destruct (cr_attributes (is_credential s)) as [|m [|]]; try discriminate S1. cbn [flat_map] in Hs.
      rewrite !app_nil_r, <- !app_assoc in Hs. cbn [app] in Hs.
      do 4 (apply app_inj_l in Hs as [_ Hs]; [|rewrite ?(compress_len L), ?scalar_to_bytes_length; reflexivity]).
      unfold bincode_serialize, ir_proof_scalars, vc_proof_scalars in Hs. cbn [flat_map] in Hs. rewrite <- !app_assoc in Hs.
      apply app_inj_l in Hs as [Hs _]; [|rewrite !bincode_scalar_length; reflexivity].
      unfold bincode_scalar in Hs. apply app_inj_l in Hs as [_ Hs]; [|reflexivity].
      
      assert (K1 : canonical (ir_challenge (is_proof s))) by (inversion S3; assumption).
      assert (K2 : canonical (vc_challenge (pr_proof (sc_presentation p)))) by (inversion W3; assumption).
      unfold scalar_serialize_bytes in Hs. apply le_encode_inj in Hs.
      - rewrite !Z.mod_small in Hs by assumption. symmetry. exact Hs.
      - apply canonical_256, mod_range.
      - apply canonical_256, mod_range. }
    split; [|rewrite <- V, <- V'; congruence].
    intros K. apply (f_equal fst) in K. discriminate K.
  Qed.
End confusion.

(** What is accepted as what, and what stops the program. *)
Theorem C105_table : forall E, ExtLaws E -> forall k w b, made E k b -> (taken E w b <-> table E k w b).
Proof. intros E L. exact (table_holds L). Qed.
Print Assumptions C105_table.
Theorem C105_crashes : forall E, ExtLaws E -> forall k w b, made E k b -> (crashes E w b <-> crash_table E k w b).
Proof. intros E L. exact (crash_table_holds L). Qed.
Print Assumptions C105_crashes.
(** The parameters passed for a roster entry: the call goes through, and so does the
    verification of the credential. *)
Theorem C105_show : forall E, ExtLaws E -> forall (i : Issuer E) (u : SignalUser E) c m r os, consistent i -> single_attribute i ->
  user_of i (su_user u) -> us_credential (su_user u) = Some c -> valid_credential i c m ->
  exists e p r' os', roster_from_bytes (system_parameters_to_bytes (iss_system_parameters i)) = Ok e /\
    signal_show u r os e = Ok (p, r', os') /\ signal_verify i p = Ok {| vs_presentation := p |} /\
    sc_roster_entry_commitment p = sp_g (iss_system_parameters i).
Proof. intros E L. exact (parameters_as_entry L). Qed.
Print Assumptions C105_show.
(** The parameters passed for the issuer's parameters: the user that comes out cannot
    be passed to any call. *)
Theorem C105_user : forall E, ExtLaws E -> forall (p : SystemParameters E) key number n, try_from_bytes number = Ok n ->
  exists k u, public_key_from_bytes (system_parameters_to_bytes p) = Ok k /\ signal_user_new p k key number = Ok u /\
    ~ taken E WUser (signal_user_to_bytes u).
Proof. intros E L. exact (parameters_as_issuer_parameters L). Qed.
Print Assumptions C105_user.
(** A presentation passed for an issuance: when the issuer accepts the first, the user
    accepts the second only with two transcripts that have one challenge. *)
Theorem C105_obtain : forall E, ExtLaws E -> forall (i : Issuer E) X1 Xs x1 p C (u : SignalUser E) Y1 Ys (s : CredentialIssuance E),
  pk_Xn (kp_public (iss_keypair i)) = X1 :: Xs -> sk_xn (kp_secret (iss_keypair i)) = [x1] ->
  wf_signal_presentation p -> pr_attributes_blinded (sc_presentation p) = [C] ->
  signal_verify i p = Ok {| vs_presentation := p |} ->
  issuance_from_bytes (signal_presentation_to_bytes p) = Ok s ->
  pk_Xn (us_issuer_parameters (su_user u)) = Y1 :: Ys ->
  snd (signal_obtain_finish u (Some s)) = Ok tt ->
  let q := presentation_publics (iss_system_parameters i) X1 (sk_x0 (kp_secret (iss_keypair i))) x1
             (pr_rerandomized_nonce (sc_presentation p)) (pr_rerandomized_mac_commitment (sc_presentation p)) C in
  let q' := issuance_publics (us_system_parameters (su_user u)) Y1 s in
  @challenge_collision E (extend show_transcript (vc_messages q (vc_recompute (pr_proof (sc_presentation p)) q)))
    (extend issuance_transcript (ir_messages q' (ir_recompute (is_proof s) q'))).
Proof. intros E L. exact (presentation_as_issuance L). Qed.
Print Assumptions C105_obtain.

(** Strings of six kinds, and entries of which one can be read as parameters and one cannot. *)
Definition small_entry (o : Z) : RosterEntryCommitment toy := {| re_commitment := pt 3317; re_opening := o |}.
Example C105_met :
  made toy KParameters (system_parameters_to_bytes sample_params) /\
  made toy KKeypair (keypair_to_bytes (iss_keypair sample_issuer)) /\
  made toy KIssuer (signal_issuer_to_bytes sample_issuer) /\
  made toy KUser (signal_user_to_bytes sample_signal_holder) /\
  made toy KIssuance (issuance_to_bytes (sample_issuance 7)) /\
  made toy KEntry (roster_to_bytes (small_entry 5)) /\ made toy KEntry (roster_to_bytes (small_entry (2 ^ 254))) /\
  is_ok (@system_parameters_from_bytes toy (roster_to_bytes (small_entry 5))) &&
  is_err (@system_parameters_from_bytes toy (roster_to_bytes (small_entry (2 ^ 254)))) &&
  is_ok (@roster_from_bytes toy (system_parameters_to_bytes sample_params)) &&
  is_ok (@keypair_from_bytes toy (signal_issuer_to_bytes sample_issuer)) &&
  is_err (@system_parameters_from_bytes toy (signal_issuer_to_bytes sample_issuer)) &&
  is_panic (@roster_from_bytes toy (issuance_to_bytes (sample_issuance 7))) &&
  is_panic (@issuance_from_bytes toy (roster_to_bytes (small_entry 5))) = true.
Proof.
  pose proof ell_gt_252 as Hell. assert (Hc : forall x, 0 <= x < 2 ^ 252 -> canonical x) by (intros x Hx; unfold canonical; lia).
  split; [eexists; reflexivity|].
  split; [eexists; split; [|reflexivity]; exists (pt 231), 5, 7; split; [reflexivity|split; apply Hc; cbn; lia]|].
  split; [eexists; split; [|reflexivity]; exists (pt 231), 5, 7; split; [reflexivity|split; apply Hc; cbn; lia]|].
  split.
  { exists sample_signal_holder. split; [|split; [cbv; split; [discriminate|reflexivity]|reflexivity]].
    split; [eexists; reflexivity|]. split; [discriminate|]. intros c [= <-]. split; [exists 100; split; [apply Hc; cbn; lia|reflexivity]|].
    intros (_ & _ & H). discriminate H. }
  split.
  { exists (sample_issuance 7). split; [|reflexivity]. split; [eexists; split; [|reflexivity]|split; [|repeat split]]; apply Hc; cbn; lia. }
  split; [eexists; split; [|reflexivity]; split; cbn; lia|].
  split; [eexists; split; [|reflexivity]; split; cbn; lia|].
  vm_compute. reflexivity.
Qed.

(** The toy group with a challenge that is always 0. *)
Definition toy_deaf : Ext := {|
  point := point toy; pzero := @pzero toy; padd := @padd toy; pneg := @pneg toy; peqb := @peqb toy;
  basepoint := @basepoint toy; compress := @compress toy; decompress := @decompress toy;
  tr_challenge _ _ n := zeros n; tr_rng := @tr_rng toy; chacha := @chacha toy; sha512 := @sha512 toy;
  debug_build := debug_build toy; usize_bits := usize_bits toy |}.
Lemma smul_toy_deaf k a : @smul toy_deaf k a = @smul toy k a.
Proof.
  assert (H : forall p (a : point toy), @pmul_pos toy_deaf p a = @pmul_pos toy p a).
  { induction p as [p IH|p IH|]; intros b; cbn [pmul_pos];
      [exact (f_equal (@padd toy b) (IH (@padd toy b b)))|exact (IH (@padd toy b b))|reflexivity]. }
  destruct k as [|p|p]; cbn [smul]; [reflexivity|apply H|]. exact (f_equal (@pneg toy) (H p a)).
Qed.
Lemma toy_deaf_laws : ExtLaws toy_deaf.
Proof.
  pose proof toy_laws as T. constructor.
  - exact (padd_assoc toy T).
  - exact (padd_comm toy T).
  - exact (padd_zero toy T).
  - exact (padd_pneg toy T).
  - intros a. rewrite smul_toy_deaf. apply (smul_ell toy T).
  - exact (basepoint_nonzero toy T).
  - intros a. destruct (basepoint_generates toy T a) as [k H]. exists k. rewrite smul_toy_deaf. exact H.
  - exact (peqb_spec toy T).
  - exact (compress_length toy T).
  - exact (decompress_compress toy T).
  - exact (compress_decompress toy T).
  - exact (compress_zero toy T).
  - right; reflexivity.
Qed.
(** Here the user takes a presentation for an issuance: the hypotheses of [C105_obtain]. *)
Definition deaf_presentation : SignalCredentialPresentation toy_deaf :=
  {| sc_roster_entry_commitment := (pt 3317 : point toy_deaf);
     sc_presentation := {| pr_rerandomized_mac_commitment := (pt 4 : point toy_deaf); pr_rerandomized_nonce := (pt 5 : point toy_deaf);
       pr_attributes_revealed := []; pr_attributes_blinded := [pt 6 : point toy_deaf];
       pr_proof := {| vc_challenge := 0; vc_responses := {| vcs_m0 := 6; vcs_z0 := 7; vcs_minus_zQ := 8 |} |} |};
     sc_roster_membership_proof := {| ce_challenge := 0; ce_responses := {| ces_m0 := 9; ces_z0 := 10; ces_z1 := 11 |} |} |}.
Definition deaf_params : SystemParameters toy_deaf := {| sp_g := (pt 1 : point toy_deaf); sp_h := (pt 33 : point toy_deaf) |}.
Definition deaf_issuer : Issuer toy_deaf := issuer_with toy_deaf deaf_params [pt 231 : point toy_deaf] 5 [7].
Definition deaf_user : SignalUser toy_deaf := {| su_phone_number := 100;
  su_user := {| us_system_parameters := deaf_params; us_issuer_parameters := {| pk_Xn := [pt 231 : point toy_deaf] |}; us_key := None; us_credential := None |} |}.
Example C105_met_obtain : ExtLaws toy_deaf /\ wf_signal_presentation deaf_presentation /\
  is_ok (signal_verify deaf_issuer deaf_presentation) = true /\
  exists s, issuance_from_bytes (signal_presentation_to_bytes deaf_presentation) = Ok s /\
    is_ok (snd (signal_obtain_finish deaf_user (Some s))) = true.
Proof.
  pose proof ell_gt_252 as Hell. assert (Hc : forall x, 0 <= x < 2 ^ 252 -> canonical x) by (intros x Hx; unfold canonical; lia).
  split; [apply toy_deaf_laws|]. split.
  { split; [split; [reflexivity|]; split; [eexists; reflexivity|]|]; (split; [|repeat split]); apply Hc; cbn; lia. }
  split; [vm_compute; reflexivity|]. apply run1. vm_compute. reflexivity.
Qed.
(** The hypotheses of [C105_show], and those of [C105_user]. *)
Example C105_met_show : consistent sample_issuer /\ single_attribute sample_issuer /\ user_of sample_issuer (su_user sample_signal_holder) /\
  us_credential (su_user sample_signal_holder) = Some sample_credential /\ valid_credential sample_issuer sample_credential 100 /\
  exists n, try_from_bytes (str "14155551234") = Ok n.
Proof.
  split; [apply sample_consistent|]. split; [apply sample_consistent|]. split; [split; reflexivity|]. split; [reflexivity|].
  split; [apply sample_valid|]. eexists. apply try_from_bytes_ok. cbn. lia.
Qed.
