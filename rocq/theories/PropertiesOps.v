(** C80: the operators and conversions. *)
From Verif Require Import MacFacts CodecFacts PropertiesMac PropertiesPhone Toy ModelOps.
From Coq Require Import ZifyNat.

(** ** Products *)
(** Every product of a nonce or commitment with something is the multiple, in
    whatever order and by whatever kind of reference it is written. *)
Theorem C80_products : forall E, ExtLaws E -> forall e k,
  let P := smul k (@basepoint E) in
  let product := smul (e * k) basepoint in
  ephemeral_mul_table e P = product /\ table_mul_ephemeral P e = product /\
  ref_point_mul_ref_ephemeral P e = product /\ ref_ephemeral_mul_ref_point e P = product /\
  point_mul_ref_ephemeral P e = product /\ ephemeral_mul_ref_point e P = product /\
  ref_ephemeral_mul_point e P = product /\ ref_point_mul_ephemeral P e = product /\
  ephemeral_mul_point e P = product /\ point_mul_ephemeral P e = product /\
  commitment_mul_scalar P e = product /\ scalar_mul_commitment e P = product /\
  padd (ephemeral_mul_point (ephemeral_neg e) P) product = pzero.
Proof.
  intros E L e k P product. assert (H : smul e P = product) by (symmetry; apply (smul_mul L)).
  unfold ephemeral_mul_table, table_mul_ephemeral, ref_point_mul_ref_ephemeral, ref_ephemeral_mul_ref_point,
    point_mul_ref_ephemeral, ephemeral_mul_ref_point, ref_ephemeral_mul_point, ref_point_mul_ephemeral, ephemeral_mul_point,
    point_mul_ephemeral, commitment_mul_scalar, scalar_mul_commitment, ephemeral_neg.
  repeat (split; [exact H|]). unfold product, P. clear H P product. to_base L. apply (smul_zero_iff L); [apply (basepoint_nonzero E L)|]. eqm_push. apply eqm_of_eq. zring.
Qed.
Print Assumptions C80_products.

(** Multiples and differences of commitments are commitments. *)
Theorem C80_commitments : forall E, ExtLaws E -> forall (v v' base : point E) n n' s,
  point_of_commitment (commitment_to v n base) = padd v (smul n base) /\
  commitment_open (scalar_mul_commitment s (commitment_to v n base)) (smul s v) (s * n) base = Ok tt /\
  commitment_open (commitment_mul_scalar (commitment_to v n base) s) (smul s v) (s * n) base = Ok tt /\
  commitment_open (point_sub_assign (commitment_to v n base) (commitment_to v' n' base)) (psub v v') (n - n') base = Ok tt.
Proof.
  intros E L v v' base n n' s. unfold scalar_mul_commitment, commitment_mul_scalar, point_sub_assign, point_of_commitment, commitment_to.
  split; [reflexivity|]. split; [|split]; apply (C30_opens_exactly E L); pring L.
Qed.
Print Assumptions C80_commitments.

(** Both ways of writing it are the rerandomisation of C07. *)
Theorem C80_rerandomization : forall E, ExtLaws E -> forall (t : Tag E) r k ms,
  tag_mul_rerandomization t r = apply_to_tag r t /\ rerandomization_mul_tag r t = apply_to_tag r t /\
  (mac_equation k ms t -> mac_equation k ms (tag_mul_rerandomization t r) /\ mac_equation k ms (rerandomization_mul_tag r t)).
Proof.
  intros E L t r k ms. split; [reflexivity|]. split; [reflexivity|]. intros H.
  split; apply (C07_rerandomised E L r k ms t), H.
Qed.
Print Assumptions C80_rerandomization.

(** ** Indices *)
Lemma index_outcome {A} (l : list A) i :
  ((exists x, or_panic (E := unit) (index l i) = Ok x) <-> (i < List.length l)%nat) /\
  (or_panic (E := unit) (index l i) = Panic <-> (List.length l <= i)%nat).
Proof.
  unfold index. destruct (nth_error l i) as [x|] eqn:H; cbn [or_panic].
  - assert (i < List.length l)%nat by (apply nth_error_Some; congruence).
    split; (split; [|]); try discriminate; try lia; eauto.
  - assert (List.length l <= i)%nat by (apply nth_error_None; assumption).
    split; (split; [|]); try lia; auto. intros [x Hx]. discriminate.
Qed.
Lemma le_encode_nth n z i : (i < n)%nat -> nth_error (le_encode n z) i = Some (zb (z / 256 ^ Z.of_nat i)).
Proof.
  revert z i. induction n as [|n IH]; intros z i H; [lia|]. destruct i as [|i]; cbn [le_encode nth_error].
  - change (256 ^ Z.of_nat 0) with 1. rewrite Z.div_1_r. reflexivity.
  - rewrite IH by lia. rewrite Zdiv_Zdiv by (try apply Z.pow_nonneg; lia).
    replace (256 * 256 ^ Z.of_nat i) with (256 ^ Z.of_nat (S i)); [reflexivity|].
    rewrite Nat2Z.inj_succ, Z.pow_succ_r by lia. reflexivity.
Qed.

(** An index is answered exactly if it is in range, with the item there, and
    panics otherwise. *)
Theorem C80_indices : forall (l : list scalar) (n : scalar) i,
  (nonces_index l i = Panic <-> (List.length l <= i)%nat) /\
  (forall x, nonces_index l i = Ok x <-> nth_error l i = Some x) /\
  (message_index l i = Panic <-> (List.length l <= i)%nat) /\
  (forall x, message_index l i = Ok x <-> nth_error l i = Some x) /\
  (phone_number_index n i = Panic <-> (32 <= i)%nat) /\
  ((i < 32)%nat -> phone_number_index n i = Ok (zb (n / 256 ^ Z.of_nat i))).
Proof.
  intros l n i. pose proof (index_outcome l i) as [_ H1].
  assert (H2 : forall x, or_panic (E := unit) (index l i) = Ok x <-> nth_error l i = Some x).
  { intros x. unfold index. destruct (nth_error l i); cbn; split; congruence. }
  split; [exact H1|]. split; [exact H2|]. split; [exact H1|]. split; [exact H2|].
  pose proof (index_outcome (scalar_to_bytes n) i) as [_ H3].
  assert (Hl : List.length (scalar_to_bytes n) = 32%nat) by apply le_encode_length.
  rewrite Hl in H3. split; [exact H3|]. intros H. unfold phone_number_index, index, scalar_to_bytes.
  rewrite le_encode_nth by exact H. reflexivity.
Qed.
Print Assumptions C80_indices.

(** The nonces drawn are those iterated over. *)
Theorem C80_nonces : forall (r : rng) size,
  List.length (nonces_iter (fst (nonces_new r size))) = size /\
  forall i, nonces_index (fst (nonces_new r size)) i = Panic <-> (size <= i)%nat.
Proof.
  intros r size.
  assert (H : forall r, List.length (fst (scalars_random size r)) = size).
  { induction size as [|n IH]; intros r'; [reflexivity|]. cbn [scalars_random]. destruct (scalar_random r') as [x r1].
    specialize (IH r1). destruct (scalars_random n r1). cbn [fst List.length] in *. lia. }
  split; [apply H|]. intros i. unfold nonces_index. rewrite (proj2 (index_outcome _ i)). unfold nonces_new. rewrite H. reflexivity.
Qed.
Print Assumptions C80_nonces.

(** ** Conversions *)
Theorem C80_conversions : forall E, ExtLaws E -> forall (s : scalar) (m : list scalar) secret nonce n,
  scalar_of_ephemeral (ephemeral_of_scalar s) = s /\
  (canonical s -> from_canonical_bytes (ephemeral_to_bytes (ephemeral_of_scalar s)) = Some s) /\
  vec_of_message (message_of_vec m) = m /\
  let kp := {| eg_secret := secret; eg_public := @elgamal_public_of_secret E secret |} in
  point_of_elgamal_public (eg_public kp) = smul (scalar_of_elgamal_secret (eg_secret kp)) basepoint /\
  (forall message, elgamal_decrypt secret (elgamal_keypair_encrypt kp message nonce) = message) /\
  map (elgamal_decrypt secret) (attributes_of_encrypted (phone_number_encrypt n kp nonce)) = [smul n basepoint].
Proof.
  intros E L s m secret nonce n. split; [reflexivity|]. split; [|split; [reflexivity|]].
  - intros H. unfold ephemeral_to_bytes, ephemeral_of_scalar, from_canonical_bytes, scalar_to_bytes.
    rewrite le_decode_encode_small by (unfold canonical in H; pose proof ell_lt_256; change (Z.of_nat 32) with 32; lia).
    destruct (Z.ltb_spec s ell); [reflexivity|unfold canonical in H; lia].
  - intros kp. split; [reflexivity|]. split.
    + intros message. apply (C31_decrypts E L).
    + cbn [attributes_of_encrypted map]. unfold phone_number_encrypt. f_equal. apply (C31_decrypts E L).
Qed.
Print Assumptions C80_conversions.

(** A key has as many parts as its encoding has blocks of 32 bytes, and a key
    made for [n] attributes has [n + 1] secret parts. *)
Theorem C80_lengths : forall E, ExtLaws E -> forall (p : PublicKey E) s (k : Keypair E) n (r : rng) (h : point E),
  List.length (public_key_to_bytes p) = (32 * public_key_len p)%nat /\
  List.length (secret_key_to_bytes s) = (32 * secret_key_len s)%nat /\
  List.length (keypair_to_bytes k) = (32 * keypair_len k)%nat /\
  secret_key_len (fst (secret_key_new n r)) = (n + 1)%nat /\
  public_key_len (get_public_key (fst (secret_key_new n r)) h) = n /\
  keypair_len (fst (keypair_new h r)) = 3%nat.
Proof.
  intros E L p s k n r h. unfold keypair_len, public_key_len, secret_key_len.
  rewrite (public_key_length L), secret_key_length, (keypair_length L). split; [lia|]. split; [lia|]. split; [lia|].
  assert (H : forall n r, List.length (sk_xn (fst (secret_key_new n r))) = n).
  { clear. intros n r. unfold secret_key_new. destruct (scalar_random r) as [x0 r1].
    pose proof (proj1 (C80_nonces r1 n)) as H. unfold nonces_iter, nonces_new in H.
    destruct (scalars_random n r1). cbn [fst sk_xn] in *. exact H. }
  assert (H' : forall n r, List.length (pk_Xn (get_public_key (E := E) (fst (secret_key_new n r)) h)) = n).
  { intros n' r'. unfold get_public_key. cbn [pk_Xn]. rewrite map_length. apply H. }
  split; [rewrite H; reflexivity|]. split; [apply H'|]. unfold keypair_new. specialize (H NUMBER_OF_ATTRIBUTES r). specialize (H' NUMBER_OF_ATTRIBUTES r).
  destruct (secret_key_new NUMBER_OF_ATTRIBUTES r) as [sk r1]. cbn [fst kp_public kp_secret] in *. rewrite H, H'. reflexivity.
Qed.
Print Assumptions C80_lengths.

(** The messages made from a scalar, a phone number and a string have one part,
    the scalar, the number and the reduced hash: a tag can be made for them with
    the keys for one attribute only, and it is the tag of that part. *)
Theorem C80_messages : forall E, ExtLaws E -> forall k r s b,
  (forall x, sk_xn k = [x] -> exists (t1 t2 : Tag E) r',
     mac k (message_of_scalar s) r = Ok (t1, r') /\ mac k (phone_number_message s) r = Ok (t1, r') /\
     mac k (message_of_string (E := E) b) r = Ok (t2, r') /\ tag_nonce t1 = tag_nonce t2 /\
     tag_mac t1 = smul (sk_x0 k + x * s) (tag_nonce t1) /\
     tag_mac t2 = smul (sk_x0 k + x * le_decode (@sha512 E b)) (tag_nonce t2)) /\
  (List.length (sk_xn k) <> 1%nat ->
   Forall (fun m => @mac E k m r = Err (MessageLengthError (List.length (sk_xn k))))
     [message_of_scalar s; phone_number_message s; message_of_string (E := E) b]).
Proof.
  intros E L k r s b. split.
  - intros x Hx. unfold mac, mac_with, phone_number_message, message_of_scalar, message_of_string. rewrite Hx.
    cbn [List.length Nat.eqb negb mac_exponent]. destruct (scalar_random r) as [n r1]. cbn [bind].
    eexists _, _, r1. split; [reflexivity|]. split; [reflexivity|]. split; [reflexivity|]. cbn [tag_nonce tag_mac]. split; [reflexivity|].
    split; apply (smul_eqm L); unfold s_add, s_mul, from_bytes_mod_order_wide; unfold Algebra.eqm; cbn.
    + rewrite Zmod_mod, Zplus_mod_idemp_r. reflexivity.
    + rewrite Zmod_mod, Zplus_mod_idemp_r, (Zplus_mod _ (x * _)), Zmult_mod_idemp_r, <- Zplus_mod. reflexivity.
  - intros H. unfold mac, phone_number_message, message_of_scalar, message_of_string.
    assert (K : (List.length (sk_xn k) =? 1)%nat = false) by (apply Nat.eqb_neq, H).
    repeat constructor; cbn [List.length]; rewrite K; reflexivity.
Qed.
Print Assumptions C80_messages.
Example C80_messages_met : exists x, sk_xn sample_key1 = [x] /\ Z.eqb (le_decode (@sha512 toy (str "123")) mod ell) 0 = false.
Proof. eexists. split; [reflexivity|]. vm_compute. reflexivity. Qed.

Example C80_met : map (fun i => match phone_number_index 258 i with Ok b => bz b | _ => -1 end) [0; 1; 2; 31; 32]%nat = [2; 1; 0; 0; -1] /\
  @commitment_open toy (scalar_mul_commitment 3 (commitment_to (pt 3) 10 (pt 100))) (pt 9) 30 (pt 100) = Ok tt /\
  mac_equation sample_key1 [100] (rerandomization_mul_tag 19 sample_tag1) /\
  rerandomization_mul_tag 19 sample_tag1 <> sample_tag1.
Proof.
  split; [vm_compute; reflexivity|]. split; [vm_compute; reflexivity|].
  destruct C07_met as [_ [H [H' _]]]. split; [exact H|exact H'].
Qed.

(** The example of the documentation of [try_from_string]; signal-credential/src/phone_number.rs:95-123. *)
Example C80_documented : forall n, try_from_string (str "0018006427676") = Ok n ->
  map (phone_number_index n) (seq 0 32) = map (fun z => Ok (zb z))
    [15; 15; 0; 0; 1; 8; 0; 0; 6; 4; 2; 7; 6; 7; 6; 15; 15; 13; 0; 0; 0; 0; 0; 0; 0; 0; 0; 0; 0; 0; 0; 0].
Proof. intros n H. vm_compute in H. injection H as <-. vm_compute. reflexivity. Qed.
