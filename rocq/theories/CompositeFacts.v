(** Facts about the encodings of credentials, issuances, presentations, issuers
    and users. *)
From Verif Require Export CodecFacts.
From Coq Require Import ZifyNat.

(** Compute slices of a concatenation whose parts have known lengths. *)
Ltac slices k :=
  rewrite (slice_skip k) by (first [assumption | apply le_encode_length | lia]).

Lemma app_split_exact {A} (l : list A) n m : List.length l = (n + m)%nat ->
  exists x y, l = (x ++ y)%list /\ List.length x = n /\ List.length y = m.
Proof.
  intros H. destruct (app_split l n ltac:(lia)) as (x & y & -> & Hx). rewrite app_length in H.
  exists x, y. repeat split; lia.
Qed.
Lemma app_inj_l {A} (x y u v : list A) : (x ++ y)%list = (u ++ v)%list -> List.length u = List.length x -> x = u /\ y = v.
Proof.
  revert u; induction x as [|a x IH]; intros [|c u] H Hl; cbn in *; try discriminate; [auto|].
  injection H as -> H. destruct (IH u H) as [-> ->]; [congruence|]. auto.
Qed.
Lemma slice_short {A} a b (l : list A) : (a <= b)%nat -> (List.length l < b)%nat -> slice a b l = None.
Proof. intros H. apply slice_none, H. Qed.
Section composite.
  Context {E : Ext} (L : ExtLaws E).

  (** Attributes *)
  Lemma attribute_iff c s : List.length c = 32%nat ->
    (attribute_from_chunk c = Ok s <-> canonical s /\ c = scalar_to_bytes s).
  Proof.
    intros Hl. unfold attribute_from_chunk. rewrite (proj2 (to_array_some 32 c c) (conj eq_refl Hl)).
    cbn [or_panic bind]. rewrite ok_or_ok. split; [apply from_canonical_inv, Hl|].
    intros [Hs ->]. apply from_canonical_to_bytes, Hs.
  Qed.
  Lemma attribute_no_panic c : List.length c = 32%nat -> attribute_from_chunk c <> Panic.
  Proof.
    intros Hl. unfold attribute_from_chunk. rewrite (proj2 (to_array_some 32 c c) (conj eq_refl Hl)).
    cbn [or_panic bind]. apply ok_or_no_panic.
  Qed.
  Lemma attributes_iff b l : Nat.modulo (List.length b) 32 = 0%nat ->
    (try_map attribute_from_chunk (chunks 32 b) = Ok l <->
     Forall canonical l /\ b = flat_map scalar_to_bytes l).
  Proof.
    intros Hm. apply chunks_decode; [apply attribute_iff|apply scalar_to_bytes_length|exact Hm].
  Qed.
  Lemma chunks_all_32 b : Nat.modulo (List.length b) 32 = 0%nat ->
    Forall (fun c : bytes => List.length c = 32%nat) (chunks 32 b).
  Proof.
    intros Hm. destruct (chunks_exact 32 b (List.length b / 32)) as (_ & _ & H); [lia| |exact H].
    pose proof (Nat.div_mod (List.length b) 32 ltac:(lia)). lia.
  Qed.
  Lemma attributes_no_panic b : Nat.modulo (List.length b) 32 = 0%nat ->
    try_map attribute_from_chunk (chunks 32 b) <> Panic.
  Proof.
    intros Hm. apply try_map_panic. intros c Hc. apply attribute_no_panic.
    revert c Hc. apply Forall_forall, chunks_all_32, Hm.
  Qed.

  (** [CredentialRequest] *)
  Lemma request_iff b r : request_from_bytes b = Ok r <->
    Forall canonical (rq_attributes_revealed r) /\ b = request_to_bytes r.
  Proof.
    unfold request_from_bytes, request_to_bytes. split.
    - intros H. inv_ok. apply attributes_iff in H; assumption.
    - intros [Hc Hb]. assert (Hm : Nat.modulo (List.length b) 32 = 0%nat).
      { rewrite Hb, (flat_map_length32 scalar_to_bytes) by apply scalar_to_bytes_length. apply mod32. }
      rewrite Hm. cbn [Nat.eqb negb]. rewrite (proj2 (attributes_iff b _ Hm) (conj Hc Hb)).
      destruct r; reflexivity.
  Qed.
  Lemma request_no_panic b : request_from_bytes b <> Panic.
  Proof.
    unfold request_from_bytes. destruct (Nat.eqb_spec (Nat.modulo (List.length b) 32) 0) as [Hm|]; [|discriminate].
    cbn [negb]. intros H. apply bind_panic in H as [H|(? & _ & H)]; [|discriminate].
    exact (attributes_no_panic _ Hm H).
  Qed.

  (** [Credential] *)
  Definition credential_wf (c : Credential E) : Prop :=
    List.length (cr_attributes c) = 1%nat /\ Forall canonical (cr_attributes c).
  Lemma credential_length c : List.length (credential_to_bytes c) = (64 + 32 * List.length (@cr_attributes E c))%nat.
  Proof.
    unfold credential_to_bytes. rewrite app_length, (tag_length L), (flat_map_length32 scalar_to_bytes);
      [reflexivity|apply scalar_to_bytes_length].
  Qed.
  Lemma credential_eq t a : List.length t = 64%nat -> List.length a = 32%nat ->
    @credential_from_bytes E (t ++ a) =
    do mac <- map_err mac_to_credential_error (tag_from_bytes t);
    do attributes <- try_map attribute_from_chunk (chunks 32 a);
    Ok {| cr_mac := mac; cr_attributes := attributes |}.
  Proof.
    intros Ht Ha. unfold credential_from_bytes. rewrite app_length, Ht, Ha. unfold SIZEOF_CREDENTIAL.
    change (Nat.modulo (64 + 32) 32) with 0%nat. cbn [Nat.add Nat.eqb Nat.ltb Nat.leb negb orb].
    rewrite slice_app_l, slice_from_skip by assumption. reflexivity.
  Qed.
  Lemma credential_bad_length b : List.length b <> 96%nat -> @credential_from_bytes E b = Err WrongNumberOfBytes.
  Proof.
    intros H. unfold credential_from_bytes, SIZEOF_CREDENTIAL. apply Nat.eqb_neq in H. rewrite H, orb_true_r. reflexivity.
  Qed.
  Lemma credential_iff b c : credential_from_bytes b = Ok c <-> credential_wf c /\ b = @credential_to_bytes E c.
  Proof.
    destruct (Nat.eq_dec (List.length b) 96) as [Hl|Hl].
    - destruct (app_split_exact b 64 32 Hl) as (t & a & -> & Ht & Ha). rewrite credential_eq by assumption.
      assert (Hm : Nat.modulo (List.length a) 32 = 0%nat) by (rewrite Ha; reflexivity).
      split.
      + intros H. inv_ok. apply (tag_iff L) in H. apply attributes_iff in H0 as [Hc Hb]; [|exact Hm].
        split; [|unfold credential_to_bytes; cbn [cr_mac cr_attributes]; congruence].
        split; [|exact Hc]. cbn. rewrite Hb, (flat_map_length32 scalar_to_bytes) in Ha by apply scalar_to_bytes_length. lia.
      + intros [[_ Hc] Hb]. unfold credential_to_bytes in Hb.
        apply app_inj_l in Hb as [-> ->]; [|rewrite (tag_length L); congruence].
        rewrite (proj2 (tag_iff L _ _) eq_refl). cbn [map_err bind].
        rewrite (proj2 (attributes_iff _ (cr_attributes c) Hm) (conj Hc eq_refl)). destruct c; reflexivity.
    - rewrite credential_bad_length by exact Hl. split; [discriminate|].
      intros [[H1 _] Hb]. rewrite Hb, credential_length, H1 in Hl. elim Hl; reflexivity.
  Qed.
  Lemma credential_no_panic b : @credential_from_bytes E b <> Panic.
  Proof.
    destruct (Nat.eq_dec (List.length b) 96) as [Hl|Hl].
    - destruct (app_split_exact b 64 32 Hl) as (t & a & -> & Ht & Ha). rewrite credential_eq by assumption.
      intros H. apply bind_panic in H as [H|(? & _ & H)].
      + apply map_err_panic in H. exact (tag_no_panic _ H).
      + apply bind_panic in H as [H|(? & _ & H)]; [|discriminate]. revert H. apply attributes_no_panic. rewrite Ha; reflexivity.
    - rewrite credential_bad_length by exact Hl. discriminate.
  Qed.

  (** [CredentialIssuance] *)
  Definition issuance_wf (i : CredentialIssuance E) : Prop :=
    credential_wf (is_credential i) /\ ir_wf (is_proof i).
  Lemma issuance_length i : List.length (issuance_to_bytes i) =
    (32 + (64 + 32 * List.length (cr_attributes (@is_credential E i))) + 200)%nat.
  Proof.
    unfold issuance_to_bytes, commitment_to_bytes. rewrite !app_length, (compress_len L), credential_length, ir_serialize_length. lia.
  Qed.
  Lemma issuance_eq c k p : List.length c = 32%nat -> List.length k = 96%nat ->
    @issuance_from_bytes E (c ++ k ++ p) =
    do secret_key_commitment <- commitment_from_bytes c;
    do credential <- credential_from_bytes k;
    do proof <- ok_or MissingData (ir_deserialize p);
    Ok {| is_secret_key_commitment := secret_key_commitment; is_credential := credential; is_proof := proof |}.
  Proof.
    intros Hc Hk. unfold issuance_from_bytes, SIZEOF_CREDENTIAL. cbn [Nat.add].
    rewrite slice_app_l by exact Hc. slices 32%nat. cbn [Nat.sub]. rewrite slice_app_l by exact Hk. cbn [or_panic bind].
    replace (c ++ k ++ p)%list with ((c ++ k) ++ p)%list by (symmetry; apply app_assoc).
    rewrite slice_from_skip by (rewrite app_length; lia). reflexivity.
  Qed.
  Lemma issuance_short b : (List.length b < 32)%nat -> @issuance_from_bytes E b = Panic.
  Proof. intros H. unfold issuance_from_bytes. rewrite slice_short by lia. reflexivity. Qed.
  Lemma issuance_truncated c r : List.length c = 32%nat -> (List.length r < 96)%nat ->
    @issuance_from_bytes E (c ++ r) = do _ <- @commitment_from_bytes E c; Panic.
  Proof.
    intros Hc Hr. unfold issuance_from_bytes, SIZEOF_CREDENTIAL. rewrite slice_app_l by exact Hc. cbn [or_panic bind].
    rewrite slice_short by (rewrite ?app_length; lia). reflexivity.
  Qed.
  Lemma issuance_iff b i : issuance_from_bytes b = Ok i <->
    issuance_wf i /\ exists rest, b = (@issuance_to_bytes E i ++ rest)%list.
  Proof.
    split.
    - intros H. destruct (Nat.lt_ge_cases (List.length b) 128) as [Hl|Hl].
      + exfalso. destruct (Nat.lt_ge_cases (List.length b) 32) as [Hl'|Hl'].
        * rewrite issuance_short in H by exact Hl'. discriminate.
        * destruct (app_split b 32 Hl') as (c & r & -> & Hc). rewrite app_length in Hl.
          rewrite issuance_truncated in H by lia. apply bind_ok in H as (? & _ & H). discriminate.
      + destruct (app_split b 32 ltac:(lia)) as (c & r & -> & Hc). rewrite app_length in Hl.
        destruct (app_split r 96 ltac:(lia)) as (k & p & -> & Hk). rewrite issuance_eq in H by assumption. inv_ok.
        apply (commitment_exact_iff L) in H; [|exact Hc]. apply credential_iff in H0 as [Hw Hb].
        apply ir_deserialize_iff in H1 as [Hi [rest Hr]]. split; [split; assumption|].
        exists rest. unfold issuance_to_bytes, commitment_to_bytes.
        cbn [is_secret_key_commitment is_credential is_proof]. rewrite H, Hb, Hr, <- !app_assoc. reflexivity.
    - intros [[Hw Hi] [rest ->]]. unfold issuance_to_bytes, commitment_to_bytes. rewrite <- !app_assoc.
      rewrite issuance_eq by (rewrite ?credential_length, ?(proj1 Hw); try reflexivity; apply (compress_len L)).
      rewrite (proj2 (commitment_exact_iff L _ _ (compress_len L _)) eq_refl). cbn [bind].
      rewrite (proj2 (credential_iff _ _) (conj Hw eq_refl)). cbn [bind].
      rewrite (proj2 (ir_deserialize_iff _ (is_proof i))) by (split; [exact Hi|eexists; reflexivity]).
      destruct i; reflexivity.
  Qed.
  Lemma issuance_panic b : @issuance_from_bytes E b = Panic <->
    (List.length b < 32)%nat \/
    (List.length b < 128)%nat /\ exists P : point E, decompress (firstn 32 b) = Some P.
  Proof.
    destruct (Nat.lt_ge_cases (List.length b) 32) as [Hl|Hl].
    - rewrite issuance_short by exact Hl. tauto.
    - destruct (app_split b 32 Hl) as (c & r & -> & Hc). rewrite firstn_exact by exact Hc. rewrite app_length, Hc.
      destruct (Nat.lt_ge_cases (List.length r) 96) as [Hr|Hr].
      + rewrite issuance_truncated by assumption.
        destruct (commitment_from_bytes c) as [P| |] eqn:HP; cbn [bind].
        * apply (commitment_exact_iff L) in HP; [|exact Hc]. split; [|reflexivity]. intros _. right.
          split; [lia|]. exists P. apply (decompress_iff L), HP.
        * split; [discriminate|]. intros [H|[_ [P H]]]; [lia|].
          apply (decompress_iff L) in H. rewrite H, (proj2 (commitment_exact_iff L _ _ (compress_len L _)) eq_refl) in HP. discriminate.
        * apply commitment_panic in HP. lia.
      + destruct (app_split r 96 Hr) as (k & p & -> & Hk). rewrite issuance_eq by assumption. rewrite app_length in *.
        split; [|intros [H|[H _]]; lia]. intros H. exfalso.
        apply bind_panic in H as [H|(? & _ & H)]; [apply commitment_panic in H; lia|].
        apply bind_panic in H as [H|(? & _ & H)]; [exact (credential_no_panic _ H)|].
        apply bind_panic in H as [H|(? & _ & H)]; [exact (ok_or_no_panic _ _ H)|discriminate].
  Qed.

  (** [CredentialPresentation] *)
  Definition presentation_wf (p : CredentialPresentation E) : Prop :=
    pr_attributes_revealed p = [] /\ List.length (pr_attributes_blinded p) = 1%nat /\ vc_wf (pr_proof p).
  Lemma presentation_length p : List.length (presentation_to_bytes p) =
    (64 + 32 * List.length (@pr_attributes_revealed E p) + 32 * List.length (pr_attributes_blinded p) + 160)%nat.
  Proof.
    unfold presentation_to_bytes, commitment_to_bytes.
    rewrite !app_length, !(compress_len L), vc_serialize_length, (flat_map_length32 scalar_to_bytes), (flat_map_length32 compress);
      [lia|apply (compress_len L)|apply scalar_to_bytes_length].
  Qed.
  Lemma presentation_eq c n a p : List.length c = 32%nat -> List.length n = 32%nat -> List.length a = 32%nat ->
    Nat.modulo (List.length p) 32 = 0%nat ->
    @presentation_from_bytes E (c ++ n ++ a ++ p) =
    do mac_commitment <- commitment_from_bytes c;
    do nonce <- ok_or none_credential (decompress n);
    do blinded <- map_err (fun _ => PointDecompressionError) (commitment_from_bytes a);
    do proof <- ok_or MissingData (vc_deserialize p);
    Ok {| pr_rerandomized_mac_commitment := mac_commitment; pr_rerandomized_nonce := nonce;
          pr_attributes_revealed := []; pr_attributes_blinded := [blinded]; pr_proof := proof |}.
  Proof.
    intros Hc Hn Ha Hp. unfold presentation_from_bytes, PRESENTATION_NUMBER_OF_REVEALED_ATTRIBUTES, PRESENTATION_NUMBER_OF_BLINDED_ATTRIBUTES.
    cbv zeta. rewrite !app_length, Hc, Hn, Ha.
    replace (32 + (32 + (32 + List.length p)))%nat with (List.length p + 3 * 32)%nat by lia.
    rewrite Nat.mod_add, Hp by lia. cbn [Nat.eqb negb Nat.mul Nat.add].
    rewrite slice_app_l by exact Hc. cbn [or_panic bind].
    slices 32%nat. cbn [Nat.sub]. rewrite slice_app_l by exact Hn. cbn [or_panic bind].
    slices 32%nat. cbn [Nat.sub]. slices 32%nat. cbn [Nat.sub]. rewrite slice_app_l by exact Ha. cbn [or_panic bind].
    replace (c ++ n ++ a ++ p)%list with ((c ++ n ++ a) ++ p)%list by (rewrite <- !app_assoc; reflexivity).
    rewrite slice_from_skip by (rewrite !app_length; lia).
    assert (Hch : chunks 32 a = [a]).
    { rewrite <- (app_nil_r a) at 1. rewrite chunks_app, chunks_nil by (lia || assumption). reflexivity. }
    rewrite Hch. cbn [presentation_attributes].
    unfold PRESENTATION_NUMBER_OF_REVEALED_ATTRIBUTES. cbn [Nat.ltb Nat.leb].
    destruct (commitment_from_bytes c); cbn [bind]; try reflexivity.
    destruct (decompress n); cbn [ok_or bind]; try reflexivity.
    destruct (commitment_from_bytes a); cbn [map_err bind]; reflexivity.
  Qed.
  Lemma presentation_bad_length b : Nat.modulo (List.length b) 32 <> 0%nat ->
    @presentation_from_bytes E b = Err WrongNumberOfBytes.
  Proof. intros H. unfold presentation_from_bytes. apply Nat.eqb_neq in H. cbv zeta. rewrite H. reflexivity. Qed.
  Lemma presentation_empty b : List.length b = 0%nat -> @presentation_from_bytes E b = Panic.
  Proof. destruct b; [reflexivity|discriminate]. Qed.
  Lemma presentation_32 c : List.length c = 32%nat ->
    @presentation_from_bytes E c = do _ <- @commitment_from_bytes E c; Panic.
  Proof.
    intros Hc. unfold presentation_from_bytes. cbv zeta. rewrite Hc. change (Nat.modulo 32 32) with 0%nat. cbn [Nat.eqb negb].
    rewrite slice_all by exact Hc. cbn [or_panic bind]. rewrite slice_short by lia. reflexivity.
  Qed.
  Lemma presentation_64 c n : List.length c = 32%nat -> List.length n = 32%nat ->
    @presentation_from_bytes E (c ++ n) =
    do _ <- @commitment_from_bytes E c; do _ <- ok_or none_credential (@decompress E n); Panic.
  Proof.
    intros Hc Hn. unfold presentation_from_bytes. cbv zeta. rewrite app_length, Hc, Hn.
    change (Nat.modulo (32 + 32) 32) with 0%nat. cbn [Nat.eqb negb].
    rewrite slice_app_l by exact Hc. cbn [or_panic bind]. slices 32%nat. cbn [Nat.sub]. rewrite slice_all by exact Hn.
    cbn [or_panic bind]. rewrite slice_short; [reflexivity|cbn; lia|rewrite app_length, Hc, Hn; cbn; lia].
  Qed.
  (** The lengths a string of bytes can have. *)
  Lemma presentation_cases (b : bytes) :
    Nat.modulo (List.length b) 32 <> 0%nat \/ List.length b = 0%nat \/ List.length b = 32%nat \/
    (exists c n : bytes, b = (c ++ n)%list /\ List.length c = 32%nat /\ List.length n = 32%nat) \/
    (exists c n a p : bytes, b = (c ++ n ++ a ++ p)%list /\ List.length c = 32%nat /\ List.length n = 32%nat
       /\ List.length a = 32%nat /\ Nat.modulo (List.length p) 32 = 0%nat).
  Proof.
    destruct (Nat.eq_dec (Nat.modulo (List.length b) 32) 0) as [Hm|]; [|auto]. right.
    pose proof (Nat.div_mod (List.length b) 32 ltac:(lia)) as D. rewrite Hm, Nat.add_0_r in D.
    remember (List.length b / 32)%nat as q eqn:Hq. clear Hq.
    destruct q as [|[|[|q]]]; [left; lia|right; left; lia| |]; right; right.
    - left. apply app_split_exact. lia.
    - right. destruct (app_split_exact b 32 (32 * S (S q)) ltac:(lia)) as (c & b1 & -> & Hc & H1).
      destruct (app_split_exact b1 32 (32 * S q) ltac:(lia)) as (n & b2 & -> & Hn & H2).
      destruct (app_split_exact b2 32 (32 * q) ltac:(lia)) as (a & p & -> & Ha & H3).
      exists c, n, a, p. repeat split; try assumption. rewrite H3. apply mod32.
  Qed.
  Lemma presentation_iff b p : presentation_from_bytes b = Ok p <->
    presentation_wf p /\ exists rest, Nat.modulo (List.length rest) 32 = 0%nat /\ b = (@presentation_to_bytes E p ++ rest)%list.
  Proof.
    split.
    - intros H. destruct (presentation_cases b) as [Hb|[Hb|[Hb|[(c & n & -> & Hc & Hn)|(c & n & a & q & -> & Hc & Hn & Ha & Hq)]]]].
      + rewrite presentation_bad_length in H by exact Hb. discriminate.
      + rewrite presentation_empty in H by exact Hb. discriminate.
      + rewrite presentation_32 in H by exact Hb. apply bind_ok in H as (? & _ & H). discriminate.
      + rewrite presentation_64 in H by assumption. apply bind_ok in H as (? & _ & H). apply bind_ok in H as (? & _ & H). discriminate.
      + rewrite presentation_eq in H by assumption. inv_ok.
        apply (commitment_exact_iff L) in H, H1; [|assumption..]. apply (decompress_iff L) in H0.
        apply vc_deserialize_iff in H2 as [Hw [rest Hr]]. split.
        * split; [reflexivity|]. split; [reflexivity|exact Hw].
        * exists rest. split.
          { rewrite Hr, app_length, vc_serialize_length in Hq.
            replace (160 + List.length rest)%nat with (List.length rest + 5 * 32)%nat in Hq by lia. rewrite Nat.mod_add in Hq by lia. exact Hq. }
          unfold presentation_to_bytes, commitment_to_bytes.
          cbn [pr_rerandomized_mac_commitment pr_rerandomized_nonce pr_attributes_revealed pr_attributes_blinded pr_proof flat_map].
          rewrite H, H0, H1, Hr, <- !app_assoc. reflexivity.
    - intros [(Hr & Hb & Hw) (rest & Hm & ->)]. destruct p as [mc nn rv bl pf].
      cbn [pr_attributes_revealed pr_attributes_blinded pr_proof] in *. subst rv.
      destruct bl as [|P [|]]; [discriminate| |discriminate].
      unfold presentation_to_bytes, commitment_to_bytes.
      cbn [pr_rerandomized_mac_commitment pr_rerandomized_nonce pr_attributes_revealed pr_attributes_blinded pr_proof flat_map].
      rewrite app_nil_r. rewrite <- !app_assoc. cbn [app].
      rewrite presentation_eq; try apply (compress_len L).
      + rewrite !(proj2 (commitment_exact_iff L _ _ (compress_len L _)) eq_refl). cbn [bind map_err].
        rewrite (decompress_compress E L). cbn [ok_or bind].
        rewrite (proj2 (vc_deserialize_iff _ pf)) by (split; [exact Hw|eexists; reflexivity]). reflexivity.
      + rewrite app_length, vc_serialize_length. replace (160 + List.length rest)%nat with (List.length rest + 5 * 32)%nat by lia.
        rewrite Nat.mod_add by lia. exact Hm.
  Qed.
  Lemma commitment_exact_not_ok c : List.length c = 32%nat ->
    (exists P, @commitment_from_bytes E c = Ok P /\ decompress c = Some P) \/
    (exists e, @commitment_from_bytes E c = Err e /\ @decompress E c = None).
  Proof.
    intros Hc. destruct (commitment_from_bytes c) as [P|e|] eqn:H.
    - left. exists P. split; [reflexivity|]. apply (decompress_iff L). apply (commitment_exact_iff L) in H; assumption.
    - right. exists e. split; [reflexivity|]. destruct (decompress c) as [P|] eqn:HP; [|reflexivity].
      apply (decompress_iff L) in HP. apply (commitment_exact_iff L _ _ Hc) in HP. congruence.
    - apply commitment_panic in H. lia.
  Qed.
  Lemma presentation_panic b : @presentation_from_bytes E b = Panic <->
    List.length b = 0%nat \/
    (List.length b = 32%nat /\ exists P : point E, decompress b = Some P) \/
    (List.length b = 64%nat /\ (exists P : point E, decompress (firstn 32 b) = Some P)
                            /\ (exists P : point E, decompress (skipn 32 b) = Some P)).
  Proof.
    destruct (presentation_cases b) as [Hb|[Hb|[Hb|[(c & n & -> & Hc & Hn)|(c & n & a & q & -> & Hc & Hn & Ha & Hq)]]]].
    - rewrite presentation_bad_length by exact Hb. split; [discriminate|].
      intros [H|[[H _]|[H _]]]; rewrite H in Hb; elim Hb; reflexivity.
    - rewrite presentation_empty by exact Hb. split; auto.
    - rewrite presentation_32 by exact Hb. rewrite Hb.
      destruct (commitment_exact_not_ok b Hb) as [(P & H1 & H2)|(e & H1 & H2)]; rewrite H1, H2; cbn [bind].
      + split; [|reflexivity]. intros _. right. left. eauto.
      + split; [discriminate|]. intros [H|[[_ [P H]]|[H _]]]; discriminate.
    - rewrite presentation_64 by assumption. rewrite app_length, Hc, Hn, firstn_exact, skipn_exact by exact Hc.
      destruct (commitment_exact_not_ok c Hc) as [(P & H1 & H2)|(e & H1 & H2)]; rewrite H1, H2; cbn [bind].
      + destruct (decompress n) as [Q|]; cbn [ok_or bind].
        * split; [|reflexivity]. intros _. right. right. eauto.
        * split; [discriminate|]. intros [H|[[H _]|[_ [_ [R H]]]]]; discriminate.
      + split; [discriminate|]. intros [H|[[H _]|[_ [[R H] _]]]]; discriminate.
    - rewrite presentation_eq by assumption. rewrite !app_length, Hc, Hn, Ha.
      split; [|intros [H|[[H _]|[H _]]]; lia]. intros H. exfalso.
      destruct (commitment_exact_not_ok c Hc) as [(P & H1 & _)|(e & H1 & _)]; rewrite H1 in H; [|discriminate].
      cbn [bind] in H. apply bind_panic in H as [H|(? & _ & H)]; [exact (ok_or_no_panic _ _ H)|].
      destruct (commitment_exact_not_ok a Ha) as [(R & H2 & _)|(e & H2 & _)]; rewrite H2 in H; [|discriminate].
      cbn [map_err bind] in H. apply bind_panic in H as [H|(? & _ & H)]; [exact (ok_or_no_panic _ _ H)|discriminate].
  Qed.

  (** [Issuer] *)
  Definition issuer_wf (i : Issuer E) : Prop :=
    keypair_wf (iss_keypair i) /\ pk_Xn (kp_public (iss_keypair i)) <> [].
  Lemma issuer_length i : List.length (issuer_to_bytes i) =
    (64 + (32 * List.length (pk_Xn (kp_public (@iss_keypair E i))) + 32 * (1 + List.length (sk_xn (kp_secret (iss_keypair i))))))%nat.
  Proof. unfold issuer_to_bytes. rewrite app_length, (system_parameters_length L), (keypair_length L). reflexivity. Qed.
  Lemma issuer_eq s k : List.length s = 64%nat -> (96 <= List.length k)%nat ->
    @issuer_from_bytes E (s ++ k) =
    do params <- system_parameters_from_bytes s;
    do keypair <- map_err mac_to_credential_error (keypair_from_bytes k);
    Ok {| iss_system_parameters := params; iss_keypair := keypair |}.
  Proof.
    intros Hs Hk. unfold issuer_from_bytes. rewrite app_length.
    destruct (Nat.ltb_spec (List.length s + List.length k) (64 + 96)); [lia|].
    rewrite slice_app_l, slice_from_skip by exact Hs. reflexivity.
  Qed.
  Lemma issuer_short b : (List.length b < 160)%nat -> @issuer_from_bytes E b = Err MissingData.
  Proof. intros H. unfold issuer_from_bytes. apply Nat.ltb_lt in H. change (64 + 96)%nat with 160%nat. rewrite H. reflexivity. Qed.
  Lemma issuer_iff b i : issuer_from_bytes b = Ok i <-> issuer_wf i /\ b = @issuer_to_bytes E i.
  Proof.
    destruct (Nat.lt_ge_cases (List.length b) 160) as [Hl|Hl].
    - rewrite issuer_short by exact Hl. split; [discriminate|]. intros [[[_ Hn] H0] ->]. rewrite issuer_length in Hl.
      destruct (pk_Xn _); [congruence|]. cbn [List.length] in *. lia.
    - destruct (app_split b 64 ltac:(lia)) as (s & k & -> & Hs). rewrite app_length in Hl. rewrite issuer_eq by lia.
      split.
      + intros H. inv_ok. apply (system_parameters_iff L) in H. apply (keypair_iff L) in H0 as [Hw Hk].
        split; [|unfold issuer_to_bytes; cbn [iss_system_parameters iss_keypair]; congruence].
        split; [exact Hw|]. cbn [iss_keypair]. intros H0. rewrite Hk, (keypair_length L) in Hl. destruct Hw as [_ Hw].
        rewrite H0 in *. cbn [List.length] in *. lia.
      + intros [[Hw _] Hb]. unfold issuer_to_bytes in Hb. apply app_inj_l in Hb as [-> ->]; [|rewrite (system_parameters_length L); congruence].
        rewrite (proj2 (system_parameters_iff L _ _) eq_refl). cbn [bind].
        rewrite (proj2 (keypair_iff L _ _) (conj Hw eq_refl)). destruct i; reflexivity.
  Qed.
  Lemma issuer_no_panic b : @issuer_from_bytes E b <> Panic.
  Proof.
    destruct (Nat.lt_ge_cases (List.length b) 160) as [Hl|Hl]; [rewrite issuer_short by exact Hl; discriminate|].
    destruct (app_split b 64 ltac:(lia)) as (s & k & -> & Hs). rewrite app_length in Hl. rewrite issuer_eq by lia.
    intros H. apply bind_panic in H as [H|(? & _ & H)]; [exact (system_parameters_no_panic _ H)|].
    apply bind_panic in H as [H|(? & _ & H)]; [|discriminate]. apply map_err_panic in H.
    apply (keypair_panic L) in H. lia.
  Qed.

  (** [User] *)
  Definition key_bytes (k : option (ElgamalKeypair E)) : bytes :=
    match k with None => zeros 64 | Some k => elgamal_keypair_to_bytes k end.
  Definition credential_field (c : option (Credential E)) : bytes :=
    match c with None => zeros 96 | Some c => credential_to_bytes c end.
  Definition user_wf (u : User E) : Prop :=
    List.length (pk_Xn (us_issuer_parameters u)) = 1%nat /\
    match us_key u with
    | None => True | Some k => canonical (eg_secret k) /\ elgamal_keypair_to_bytes k <> zeros 64 end /\
    match us_credential u with
    | None => True | Some c => credential_wf c /\ credential_to_bytes c <> zeros 96 end.
  Lemma user_length u : user_wf u -> List.length (user_to_bytes u) = 256%nat.
  Proof.
    intros (H1 & H2 & H3). unfold user_to_bytes.
    rewrite !app_length, (system_parameters_length L), (public_key_length L), H1.
    destruct (us_key u); [rewrite (elgamal_keypair_length L)|rewrite zeros_length];
      (destruct (us_credential u) as [c|]; [rewrite credential_length, (proj1 (proj1 H3))|rewrite zeros_length]); reflexivity.
  Qed.
  Lemma user_eq s i k c : List.length s = 64%nat -> List.length i = 32%nat -> List.length k = 64%nat -> List.length c = 96%nat ->
    @user_from_bytes E (s ++ i ++ k ++ c) =
    do params <- system_parameters_from_bytes s;
    do issuer_params <- map_err mac_to_credential_error (public_key_from_bytes i);
    do key <- (if bytes_eqb k (zeros 64) then Ok None else do k <- elgamal_keypair_from_bytes k; Ok (Some k));
    do credential <- (if bytes_eqb c (zeros 96) then Ok None else do c <- credential_from_bytes c; Ok (Some c));
    Ok {| us_system_parameters := params; us_issuer_parameters := issuer_params;
          us_key := key; us_credential := credential |}.
  Proof.
    intros Hs Hi Hk Hc. unfold user_from_bytes. rewrite !app_length, Hs, Hi, Hk, Hc. cbn [Nat.add Nat.eqb negb].
    rewrite slice_app_l by exact Hs. cbn [or_panic bind].
    slices 64%nat. cbn [Nat.sub]. rewrite slice_app_l by exact Hi. cbn [or_panic bind].
    slices 64%nat. cbn [Nat.sub]. slices 32%nat. cbn [Nat.sub]. rewrite slice_app_l by exact Hk. cbn [or_panic bind].
    slices 64%nat. cbn [Nat.sub]. slices 32%nat. cbn [Nat.sub]. slices 64%nat. cbn [Nat.sub]. rewrite slice_all by exact Hc. cbn [or_panic bind].
    replace (s ++ i ++ k ++ c)%list with ((s ++ i ++ k) ++ c)%list by (rewrite <- !app_assoc; reflexivity).
    rewrite slice_from_skip by (rewrite !app_length; lia). reflexivity.
  Qed.
  Lemma user_bad_length b : List.length b <> 256%nat -> @user_from_bytes E b = Err MissingData.
  Proof. intros H. unfold user_from_bytes. apply Nat.eqb_neq in H. rewrite H. reflexivity. Qed.
  Lemma user_split (b : bytes) : List.length b = 256%nat ->
    exists s i k c, b = (s ++ i ++ k ++ c)%list /\ List.length s = 64%nat /\ List.length i = 32%nat
      /\ List.length k = 64%nat /\ List.length c = 96%nat.
  Proof.
    intros Hl. destruct (app_split_exact b 64 192 Hl) as (s & b1 & -> & Hs & H1).
    destruct (app_split_exact b1 32 160 H1) as (i & b2 & -> & Hi & H2).
    destruct (app_split_exact b2 64 96 H2) as (k & c & -> & Hk & Hc). exists s, i, k, c. auto.
  Qed.
  Lemma user_iff b u : user_from_bytes b = Ok u <-> user_wf u /\ b = @user_to_bytes E u.
  Proof.
    destruct (Nat.eq_dec (List.length b) 256) as [Hl|Hl].
    - destruct (user_split b Hl) as (s & i & k & c & -> & Hs & Hi & Hk & Hc). rewrite user_eq by assumption. split.
      + intros H. inv_ok. apply (system_parameters_iff L) in H. apply (public_key_iff L) in H0.
        unfold user_wf, user_to_bytes. cbn [us_system_parameters us_issuer_parameters us_key us_credential].
        assert (Hn : List.length (pk_Xn x0) = 1%nat).
        { rewrite H0, (public_key_length L) in Hi. lia. }
        assert (Hkey : match x1 with None => True | Some k => canonical (eg_secret k) /\ elgamal_keypair_to_bytes k <> zeros 64 end
          /\ k = match x1 with None => zeros 64 | Some k => elgamal_keypair_to_bytes k end).
        { destruct (bytes_eqb k (zeros 64)) eqn:Hz.
          - apply bytes_eqb_true in Hz. inv_ok. split; [exact I|reflexivity].
          - apply bytes_eqb_false in Hz. inv_ok. apply (elgamal_keypair_iff L) in H1 as [Hw Hb]. subst k. auto. }
        assert (Hcred : match x2 with None => True | Some c => credential_wf c /\ credential_to_bytes c <> zeros 96 end
          /\ c = match x2 with None => zeros 96 | Some c => credential_to_bytes c end).
        { destruct (bytes_eqb c (zeros 96)) eqn:Hz.
          - apply bytes_eqb_true in Hz. inv_ok. split; [exact I|reflexivity].
          - apply bytes_eqb_false in Hz. inv_ok. apply credential_iff in H2 as [Hw Hb]. subst c. auto. }
        destruct Hkey as [Hw1 <-], Hcred as [Hw2 <-]. split; [|congruence]. auto.
      + intros [(Hn & Hwk & Hwc) Hb]. unfold user_to_bytes in Hb.
        apply app_inj_l in Hb as [-> Hb]; [|rewrite (system_parameters_length L); congruence].
        apply app_inj_l in Hb as [-> Hb]; [|rewrite (public_key_length L); lia].
        apply app_inj_l in Hb as [-> ->];
          [|destruct (us_key u); [rewrite (elgamal_keypair_length L)|rewrite zeros_length]; congruence].
        rewrite (proj2 (system_parameters_iff L _ _) eq_refl). cbn [bind].
        rewrite (proj2 (public_key_iff L _ _) eq_refl). cbn [bind map_err].
        destruct u as [sp ip ky cr]. cbn [us_system_parameters us_issuer_parameters us_key us_credential] in *.
        apply bind_ok. exists ky. split.
        { destruct ky as [k|]; [|rewrite bytes_eqb_refl; reflexivity]. destruct Hwk as [Hk1 Hk2].
          apply bytes_eqb_false in Hk2. rewrite Hk2. rewrite (proj2 (elgamal_keypair_iff L _ _) (conj Hk1 eq_refl)). reflexivity. }
        apply bind_ok. exists cr. split; [|reflexivity].
        destruct cr as [c|]; [|rewrite bytes_eqb_refl; reflexivity]. destruct Hwc as [Hk1 Hk2].
        apply bytes_eqb_false in Hk2. rewrite Hk2. rewrite (proj2 (credential_iff _ _) (conj Hk1 eq_refl)). reflexivity.
    - rewrite user_bad_length by exact Hl. split; [discriminate|].
      intros [Hw ->]. rewrite user_length in Hl by exact Hw. elim Hl; reflexivity.
  Qed.
  Lemma user_no_panic b : @user_from_bytes E b <> Panic.
  Proof.
    destruct (Nat.eq_dec (List.length b) 256) as [Hl|Hl]; [|rewrite user_bad_length by exact Hl; discriminate].
    destruct (user_split b Hl) as (s & i & k & c & -> & Hs & Hi & Hk & Hc). rewrite user_eq by assumption.
    intros H. apply bind_panic in H as [H|(? & _ & H)]; [exact (system_parameters_no_panic _ H)|].
    apply bind_panic in H as [H|(? & _ & H)]; [apply map_err_panic in H; exact (public_key_no_panic _ H)|].
    apply bind_panic in H as [H|(? & _ & H)].
    { destruct (bytes_eqb k (zeros 64)); [discriminate|]. apply bind_panic in H as [H|(? & _ & H)]; [|discriminate].
      apply elgamal_keypair_panic in H. contradiction. }
    apply bind_panic in H as [H|(? & _ & H)]; [|discriminate].
    destruct (bytes_eqb c (zeros 96)); [discriminate|]. apply bind_panic in H as [H|(? & _ & H)]; [|discriminate].
    exact (credential_no_panic _ H).
  Qed.

  (** [PhoneNumber] *)
  Lemma phone_number_iff b n : phone_number_from_bytes b = Ok n <->
    List.length b = 32%nat /\ n = le_decode b mod 2 ^ 255.
  Proof.
    unfold phone_number_from_bytes, from_bits. destruct (Nat.eqb_spec (List.length b) 32) as [Hl|Hl]; cbn [negb].
    - rewrite slice_all by exact Hl. cbn [or_panic bind]. split; [intros H|intros [_ ->]; reflexivity].
      split; [exact Hl|congruence].
    - split; [discriminate|]. intros [H _]; contradiction.
  Qed.
  Lemma phone_number_no_panic b : phone_number_from_bytes b <> Panic.
  Proof.
    unfold phone_number_from_bytes. destruct (Nat.eqb_spec (List.length b) 32) as [Hl|Hl]; cbn [negb]; [|discriminate].
    rewrite slice_all by exact Hl. discriminate.
  Qed.

  (** [RosterEntryCommitment] *)
  Lemma roster_length e : List.length (@roster_to_bytes E e) = 64%nat.
  Proof. unfold roster_to_bytes, committed_to_bytes, commitment_to_bytes. rewrite app_length, (compress_len L), scalar_to_bytes_length. reflexivity. Qed.
  Lemma roster_eq c o : List.length c = 32%nat ->
    @roster_from_bytes E (c ++ o) =
    do commitment <- committed_from_bytes c;
    do tmp <- or_panic (to_array 32 o);
    Ok {| re_commitment := commitment; re_opening := from_bits tmp |}.
  Proof.
    intros Hc. unfold roster_from_bytes. rewrite slice_app_l, slice_from_skip by exact Hc. reflexivity.
  Qed.
  Lemma roster_iff b e : roster_from_bytes b = Ok e <->
    exists o, List.length o = 32%nat /\ b = (@compress E (re_commitment e) ++ o)%list /\ re_opening e = le_decode o mod 2 ^ 255.
  Proof.
    split.
    - intros H. destruct (Nat.lt_ge_cases (List.length b) 32) as [Hl|Hl].
      { unfold roster_from_bytes in H. rewrite slice_short in H by lia. discriminate. }
      destruct (app_split b 32 Hl) as (c & o & -> & Hc). rewrite roster_eq in H by exact Hc. inv_ok.
      apply to_array_some in H0 as [-> Ho]. unfold committed_from_bytes in H. apply map_err_ok in H.
      apply (commitment_exact_iff L) in H; [|exact Hc]. exists o. subst c. auto.
    - intros (o & Ho & -> & He). rewrite roster_eq by apply (compress_len L). unfold committed_from_bytes.
      rewrite (proj2 (commitment_exact_iff L _ _ (compress_len L _)) eq_refl). cbn [map_err bind].
      rewrite (proj2 (to_array_some 32 o o) (conj eq_refl Ho)). cbn [or_panic bind].
      destruct e as [P z]. cbn in *. subst z. reflexivity.
  Qed.
  Lemma roster_panic b : @roster_from_bytes E b = Panic <->
    (List.length b < 32)%nat \/
    (List.length b <> 64%nat /\ exists P : point E, decompress (firstn 32 b) = Some P).
  Proof.
    destruct (Nat.lt_ge_cases (List.length b) 32) as [Hl|Hl].
    { unfold roster_from_bytes. rewrite slice_short by lia. cbn. tauto. }
    destruct (app_split b 32 Hl) as (c & o & -> & Hc). rewrite roster_eq by exact Hc.
    rewrite firstn_exact, app_length, Hc by exact Hc. unfold committed_from_bytes.
    destruct (commitment_exact_not_ok c Hc) as [(P & H1 & H2)|(e & H1 & H2)]; rewrite H1, H2; cbn [map_err bind].
    - destruct (to_array 32 o) as [o'|] eqn:Ho; cbn [or_panic bind].
      + apply to_array_some in Ho as [_ Ho]. split; [discriminate|]. intros [H|[H _]]; lia.
      + apply to_array_none in Ho. split; [|reflexivity]. intros _. right. split; [lia|]. eauto.
    - split; [discriminate|]. intros [H|[_ [P H]]]; [lia|discriminate].
  Qed.

  (** [SignalCredentialPresentation] *)
  Definition signal_presentation_wf (p : SignalCredentialPresentation E) : Prop :=
    presentation_wf (sc_presentation p) /\ ce_wf (sc_roster_membership_proof p).
  Lemma signal_presentation_length p : presentation_wf (sc_presentation p) ->
    List.length (signal_presentation_to_bytes p) = 448%nat.
  Proof.
    intros (H1 & H2 & _). unfold signal_presentation_to_bytes, committed_to_bytes, commitment_to_bytes.
    rewrite !app_length, (compress_len L), presentation_length, H1, H2, ce_serialize_length. reflexivity.
  Qed.
  Lemma signal_presentation_eq r p q : List.length r = 32%nat -> List.length p = 256%nat ->
    @signal_presentation_from_bytes E (r ++ p ++ q) =
    do roster_entry_commitment <- map_err phone_to_credential_error (committed_from_bytes r);
    do presentation <- presentation_from_bytes p;
    do proof <- ok_or MissingData (ce_deserialize q);
    Ok {| sc_roster_entry_commitment := roster_entry_commitment; sc_presentation := presentation;
          sc_roster_membership_proof := proof |}.
  Proof.
    intros Hr Hp. unfold signal_presentation_from_bytes, SIZEOF_CREDENTIAL_PRESENTATION. cbn [Nat.add].
    rewrite !app_length, Hr, Hp. destruct (Nat.ltb_spec (32 + (256 + List.length q)) 288); [lia|].
    rewrite slice_app_l by exact Hr. slices 32%nat. cbn [Nat.sub]. rewrite slice_app_l by exact Hp. cbn [or_panic bind].
    replace (r ++ p ++ q)%list with ((r ++ p) ++ q)%list by (symmetry; apply app_assoc).
    rewrite slice_from_skip by (rewrite app_length; lia). reflexivity.
  Qed.
  Lemma signal_presentation_short b : (List.length b < 288)%nat -> @signal_presentation_from_bytes E b = Err MissingData.
  Proof.
    intros H. unfold signal_presentation_from_bytes, SIZEOF_CREDENTIAL_PRESENTATION. apply Nat.ltb_lt in H.
    change (32 + 256)%nat with 288%nat. rewrite H. reflexivity.
  Qed.
  Lemma signal_presentation_split (b : bytes) : (288 <= List.length b)%nat ->
    exists r p q : bytes, b = (r ++ p ++ q)%list /\ List.length r = 32%nat /\ List.length p = 256%nat.
  Proof.
    intros Hl. destruct (app_split b 32 ltac:(lia)) as (r & b1 & -> & Hr). rewrite app_length in Hl.
    destruct (app_split b1 256 ltac:(lia)) as (p & q & -> & Hp). exists r, p, q. auto.
  Qed.
  Lemma signal_presentation_iff b p : signal_presentation_from_bytes b = Ok p <->
    signal_presentation_wf p /\ exists rest, b = (@signal_presentation_to_bytes E p ++ rest)%list.
  Proof.
    split.
    - intros H. destruct (Nat.lt_ge_cases (List.length b) 288) as [Hl|Hl].
      { rewrite signal_presentation_short in H by exact Hl. discriminate. }
      destruct (signal_presentation_split b Hl) as (r & q & f & -> & Hr & Hq).
      rewrite signal_presentation_eq in H by assumption. unfold committed_from_bytes in H. inv_ok.
      apply (commitment_exact_iff L) in H; [|exact Hr]. apply presentation_iff in H0 as [Hw (rest & Hm & Hb)].
      apply ce_deserialize_iff in H1 as [Hc [rest' Hf]].
      assert (rest = []).
      { rewrite Hb, app_length, presentation_length in Hq. destruct Hw as (W1 & W2 & _). rewrite W1, W2 in Hq.
        cbn [List.length] in Hq. destruct rest; [reflexivity|cbn [List.length] in Hq; lia]. }
      subst rest. rewrite app_nil_r in Hb. split; [split; assumption|]. exists rest'.
      unfold signal_presentation_to_bytes, committed_to_bytes, commitment_to_bytes.
      cbn [sc_roster_entry_commitment sc_presentation sc_roster_membership_proof].
      rewrite H, Hb, Hf, <- !app_assoc. reflexivity.
    - intros [[Hw Hc] [rest ->]]. unfold signal_presentation_to_bytes, committed_to_bytes, commitment_to_bytes.
      rewrite <- !app_assoc. rewrite signal_presentation_eq; [|apply (compress_len L)|].
      + unfold committed_from_bytes. rewrite (proj2 (commitment_exact_iff L _ _ (compress_len L _)) eq_refl). cbn [map_err bind].
        rewrite (proj2 (presentation_iff _ (sc_presentation p))).
        * cbn [bind]. rewrite (proj2 (ce_deserialize_iff _ (sc_roster_membership_proof p))) by (split; [exact Hc|eexists; reflexivity]).
          destruct p; reflexivity.
        * split; [exact Hw|]. exists []. rewrite app_nil_r. split; reflexivity.
      + rewrite presentation_length. destruct Hw as (-> & -> & _). reflexivity.
  Qed.
  Lemma signal_presentation_no_panic b : @signal_presentation_from_bytes E b <> Panic.
  Proof.
    destruct (Nat.lt_ge_cases (List.length b) 288) as [Hl|Hl].
    { rewrite signal_presentation_short by exact Hl. discriminate. }
    destruct (signal_presentation_split b Hl) as (r & q & f & -> & Hr & Hq).
    rewrite signal_presentation_eq by assumption. unfold committed_from_bytes.
    intros H. apply bind_panic in H as [H|(? & _ & H)].
    { apply map_err_panic, map_err_panic, commitment_panic in H. lia. }
    apply bind_panic in H as [H|(? & _ & H)]; [apply presentation_panic in H; lia|].
    apply bind_panic in H as [H|(? & _ & H)]; [exact (ok_or_no_panic _ _ H)|discriminate].
  Qed.

  (** [SignalUser] *)
  Lemma signal_user_eq n u : List.length n = 32%nat ->
    @signal_user_from_bytes E (n ++ u) =
    do user <- user_from_bytes u; Ok {| su_phone_number := le_decode n mod 2 ^ 255; su_user := user |}.
  Proof.
    intros Hn. unfold signal_user_from_bytes. rewrite slice_app_l, slice_from_skip by exact Hn. cbn [or_panic bind].
    rewrite (proj2 (phone_number_iff n _) (conj Hn eq_refl)). reflexivity.
  Qed.
  Lemma signal_user_iff b u : signal_user_from_bytes b = Ok u <->
    exists n, List.length n = 32%nat /\ su_phone_number u = le_decode n mod 2 ^ 255 /\
      user_wf (su_user u) /\ b = (n ++ @user_to_bytes E (su_user u))%list.
  Proof.
    split.
    - intros H. destruct (Nat.lt_ge_cases (List.length b) 32) as [Hl|Hl].
      { unfold signal_user_from_bytes in H. rewrite slice_short in H by lia. discriminate. }
      destruct (app_split b 32 Hl) as (n & r & -> & Hn). rewrite signal_user_eq in H by exact Hn. inv_ok.
      apply user_iff in H as [Hw ->]. exists n. auto.
    - intros (n & Hn & Hp & Hw & ->). rewrite signal_user_eq by exact Hn.
      rewrite (proj2 (user_iff _ _) (conj Hw eq_refl)). destruct u as [p v]. cbn in *. subst p. reflexivity.
  Qed.
  Lemma signal_user_panic b : @signal_user_from_bytes E b = Panic <-> (List.length b < 32)%nat.
  Proof.
    destruct (Nat.lt_ge_cases (List.length b) 32) as [Hl|Hl].
    { unfold signal_user_from_bytes. rewrite slice_short by lia. cbn. tauto. }
    destruct (app_split b 32 Hl) as (n & r & -> & Hn). rewrite signal_user_eq by exact Hn.
    split; [|intros H; lia]. intros H. exfalso.
    apply bind_panic in H as [H|(? & _ & H)]; [exact (user_no_panic _ H)|discriminate].
  Qed.
End composite.
