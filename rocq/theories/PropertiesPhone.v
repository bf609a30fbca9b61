(** Properties of phone numbers, roster entries, commitments, ElGamal encryption
    and parameter generation: signal-credential/src/phone_number.rs,
    aeonflux/src/pedersen.rs, elgamal.rs and parameters.rs
    (C26 - C31, C44, C58, C59). *)
From Verif Require Import PhoneFacts SignalFacts Toy.
Local Open Scope string_scope.

(** ** C26: phone number encoding is injective *)
Theorem C26_bytes_injective : forall b b' n,
  try_from_bytes b = Ok n -> try_from_bytes b' = Ok n -> b = b'.
Proof. exact try_from_bytes_inj. Qed.
Print Assumptions C26_bytes_injective.
Theorem C26_strings_injective : forall s s' n,
  decimal s -> decimal s' -> try_from_string s = Ok n -> try_from_string s' = Ok n -> s = s'.
Proof.
  intros s s' n Hs Hs' H H'. apply ascii_digits_inj; [assumption..|].
  assert (Hr : forall t, try_from_string t = Ok n -> try_from_bytes (map ascii_digit t) = Ok n).
  { intros t Ht. unfold try_from_string in Ht.
    destruct (Nat.le_gt_cases (List.length t) 27) as [Hl|Hl].
    - rewrite phone_number_encode_ok in Ht by exact Hl. rewrite try_from_bytes_ok by (rewrite map_length; exact Hl). exact Ht.
    - destruct (Nat.le_gt_cases (List.length t) 32) as [Hl'|Hl'].
      + rewrite phone_number_encode_panic in Ht by lia. discriminate.
      + rewrite phone_number_encode_err in Ht by lia. discriminate. }
  exact (try_from_bytes_inj _ _ n (Hr s H) (Hr s' H')).
Qed.
Print Assumptions C26_strings_injective.
(** Leading zeros, and a length where the encoding exceeds the group order. *)
Example C26_met :
  (exists n, try_from_bytes (str "14155551234") = Ok n) /\
  (exists n, try_from_string (str "014155551234") = Ok n) /\
  try_from_string (str "014155551234") <> try_from_string (str "14155551234") /\
  exists n, try_from_string (str "123456789012345678901234567") = Ok n.
Proof.
  split; [eexists; vm_compute; reflexivity|]. split; [eexists; vm_compute; reflexivity|].
  split; [vm_compute; discriminate|eexists; vm_compute; reflexivity].
Qed.

(** ** C27: over-long input *)
Theorem C27_outcomes : forall b,
  ((List.length b <= 27)%nat -> (exists n, try_from_bytes b = Ok n /\ canonical n) /\
                                exists n, try_from_string b = Ok n /\ canonical n) /\
  ((28 <= List.length b <= 32)%nat -> try_from_bytes b = Panic /\ try_from_string b = Panic) /\
  ((32 < List.length b)%nat -> try_from_bytes b = Err LengthExceeded /\ try_from_string b = Err LengthExceeded).
Proof.
  intros b. unfold try_from_bytes, try_from_string. split; [|split]; intros H.
  - rewrite !phone_number_encode_ok by exact H. split; (eexists; split; [reflexivity|apply mod_range]).
  - split; apply phone_number_encode_panic; exact H.
  - split; apply phone_number_encode_err; exact H.
Qed.
Print Assumptions C27_outcomes.
(** The promise of the documentation is false. *)
Theorem C27_never_panics_refuted :
  exists b, try_from_bytes b = Panic /\ try_from_string b = Panic /\ decimal b.
Proof.
  exists (str "1234567890123456789012345678"). split; [vm_compute; reflexivity|]. split; [vm_compute; reflexivity|].
  repeat (constructor; [vm_compute; split; discriminate|]). constructor.
Qed.
Print Assumptions C27_never_panics_refuted.
Example C27_met : is_ok (try_from_bytes (str "123456789012345678901234567")) &&
  is_panic (try_from_bytes (str "12345678901234567890123456789012")) &&
  is_err (try_from_bytes (str "123456789012345678901234567890123")) = true.
Proof. vm_compute. reflexivity. Qed.

(** ** C28: back to strings *)
Theorem C28_round_trip : forall s n, decimal s -> (1 <= List.length s <= 26)%nat ->
  try_from_string s = Ok n -> phone_number_to_string n = Ok s.
Proof.
  intros s n Hd Hl H. unfold try_from_string in H. rewrite phone_number_encode_ok in H by lia.
  assert (He : n = le_decode (number_layout (map ascii_digit s)) mod ell) by congruence. rewrite He.
  rewrite to_string_short by (rewrite map_length; exact Hl).
  rewrite shown_decimal by exact Hd. reflexivity.
Qed.
Print Assumptions C28_round_trip.
Example C28_met : decimal (str "0018005551234") /\
  exists n, try_from_string (str "0018005551234") = Ok n /\ phone_number_to_string n = Ok (str "0018005551234").
Proof.
  split; [repeat (constructor; [vm_compute; split; discriminate|]); constructor|].
  eexists. split; [vm_compute; reflexivity|vm_compute; reflexivity].
Qed.
(** No string of 27 digits comes back. *)
Theorem C28_27_digits_refuted : forall s n, List.length s = 27%nat -> try_from_string s = Ok n ->
  exists s', phone_number_to_string n = Ok s' /\ (List.length s' <= 11)%nat.
Proof.
  intros s n Hl H. unfold try_from_string in H. rewrite phone_number_encode_ok in H by lia.
  assert (He : n = le_decode (number_layout (map ascii_digit s)) mod ell) by congruence. rewrite He.
  apply to_string_long. rewrite map_length. exact Hl.
Qed.
Print Assumptions C28_27_digits_refuted.
Example C28_27_digits_met : exists n, try_from_string (str "123456789012345678901234567") = Ok n.
Proof. eexists. vm_compute. reflexivity. Qed.
Theorem C28_empty_refuted : exists n, try_from_string [] = Ok n /\
  phone_number_to_string n = Ok (str "0000000000000").
Proof. eexists. split; [vm_compute; reflexivity|vm_compute; reflexivity]. Qed.
Print Assumptions C28_empty_refuted.
(** [From<PhoneNumber> for String] panics exactly when the last non-zero byte
    exceeds 30. *)
Theorem C28_panics_exactly : forall n, phone_number_to_string n = Panic <->
  exists front b k, scalar_to_bytes n = (front ++ b :: zeros k)%list /\ 30 < bz b.
Proof.
  intros n. pose proof (to_string_outcome n) as Ho. cbv zeta in Ho. rewrite Ho.
  pose proof (last_nonzero_range (scalar_to_bytes n)) as Hr.
  assert (Hsplit : forall l, last_nonzero l <> 0 -> exists front b k, l = (front ++ b :: zeros k)%list /\ bz b = last_nonzero l).
  { induction l as [|x l IH]; [intros H; elim H; reflexivity|]. cbn [last_nonzero].
    destruct (Z.eqb_spec (last_nonzero l) 0) as [Hz|Hz]; intros Hx.
    - exists [], x, (List.length l). split; [|reflexivity]. cbn [app]. f_equal. clear - Hz.
      induction l as [|y l IH]; [reflexivity|]. cbn [last_nonzero] in Hz.
      destruct (Z.eqb_spec (last_nonzero l) 0) as [Hl|Hl]; [|contradiction].
      cbn [List.length]. unfold zeros. cbn [repeat]. f_equal; [|apply IH; exact Hl]. apply bz_inj. exact Hz.
    - destruct (IH Hz) as (f & b & k & Hl & Hb). exists (x :: f), b, k. split; [cbn [app]; f_equal; exact Hl|exact Hb]. }
  destruct (Nat.leb_spec (Z.to_nat (last_nonzero (scalar_to_bytes n))) 30) as [H|H].
  - split; [discriminate|]. intros (f & b & k & He & Hb). exfalso.
    assert (Hl : last_nonzero (scalar_to_bytes n) = bz b).
    { rewrite He. change (f ++ b :: zeros k)%list with (f ++ [b] ++ zeros k)%list.
      rewrite app_assoc, last_nonzero_app. apply last_nonzero_last. lia. }
    lia.
  - split; [intros _|reflexivity]. destruct (Hsplit (scalar_to_bytes n) ltac:(lia)) as (f & b & k & He & Hb).
    exists f, b, k. split; [exact He|lia].
Qed.
Print Assumptions C28_panics_exactly.
Theorem C28_decoded_panics_refuted : exists b n,
  phone_number_from_bytes b = Ok n /\ phone_number_to_string n = Panic.
Proof. exists (repeat xff 32). eexists. split; [vm_compute; reflexivity|vm_compute; reflexivity]. Qed.
Print Assumptions C28_decoded_panics_refuted.

(** ** C58: characters that are not digits are not rejected *)
(** Two strings that differ only in characters which are not digits. *)
Definition same_digits (s s' : bytes) : Prop :=
  Forall2 (fun a b => a = b \/ (~ 48 <= bz a <= 57) /\ (~ 48 <= bz b <= 57)) s s'.
Theorem C58_non_digits_confused : forall s s', same_digits s s' ->
  try_from_string s = try_from_string s'.
Proof.
  intros s s' H. assert (Hm : map ascii_digit s = map ascii_digit s' /\ List.length s = List.length s').
  { induction H as [|a b s s' Hab _ [IH1 IH2]]; [split; reflexivity|]. cbn [map List.length].
    split; [|f_equal; exact IH2]. f_equal; [|exact IH1]. destruct Hab as [->|[Ha Hb]]; [reflexivity|].
    assert (Hn : forall x, ~ 48 <= bz x <= 57 -> ascii_digit x = zb 15).
    { intros x Hx. unfold ascii_digit. destruct (Z.leb_spec 48 (bz x)), (Z.leb_spec (bz x) 57); cbn [andb]; try reflexivity. lia. }
    rewrite (Hn a Ha), (Hn b Hb). reflexivity. }
  destruct Hm as [Hm Hl]. unfold try_from_string.
  destruct (Nat.le_gt_cases (List.length s) 27) as [H27|H27].
  - rewrite !phone_number_encode_ok by (rewrite <- ?Hl; exact H27). rewrite Hm. reflexivity.
  - destruct (Nat.le_gt_cases (List.length s) 32).
    + rewrite !phone_number_encode_panic by (rewrite <- ?Hl; lia). reflexivity.
    + rewrite !phone_number_encode_err by (rewrite <- ?Hl; lia). reflexivity.
Qed.
Print Assumptions C58_non_digits_confused.
Theorem C58_non_digits_rejected_refuted : exists s s' n,
  s <> s' /\ ~ decimal s /\ ~ decimal s' /\ try_from_string s = Ok n /\ try_from_string s' = Ok n /\
  phone_number_to_string n = Ok (str "14155551234").
Proof.
  exists (str "+14155551234"), (str "x14155551234"). eexists. split; [discriminate|].
  split; [intros H; inversion H as [|? ? Ha]; vm_compute in Ha; destruct Ha as [Ha _]; elim Ha; reflexivity|].
  split; [intros H; inversion H as [|? ? Ha]; vm_compute in Ha; destruct Ha as [_ Ha]; elim Ha; reflexivity|].
  split; [vm_compute; reflexivity|]. split; [vm_compute; reflexivity|vm_compute; reflexivity].
Qed.
Print Assumptions C58_non_digits_rejected_refuted.
Example C58_met : same_digits (str "1-800-5551234") (str "1 800 5551234").
Proof.
  repeat (constructor; [first [left; reflexivity|right; vm_compute; split; intros [? ?]; congruence]|]). constructor.
Qed.

(** ** C59: the two encoders disagree *)
Lemma length_nonzero {A} (l : list A) : (1 <= List.length l)%nat -> l <> [].
Proof. destruct l; cbn; [lia|discriminate]. Qed.
(** A number that went through [try_from_bytes], as every number that is issued
    or put on a roster does, is never the one [try_from_string] makes of the
    same characters. *)
Theorem C59_encoders_agree_refuted : forall s n n', decimal s -> s <> [] ->
  try_from_string s = Ok n -> try_from_bytes s = Ok n' -> n <> n'.
Proof.
  intros s n n' Hd Hs H H' <-. pose proof (try_from_bytes_inv _ _ H') as Hl.
  unfold try_from_string in H. rewrite phone_number_encode_ok in H by exact Hl.
  rewrite try_from_bytes_ok in H' by exact Hl.
  assert (He : map ascii_digit s = s) by (apply number_value_inj; [rewrite map_length; exact Hl|exact Hl|congruence]).
  destruct s as [|b s]; [contradiction|]. cbn [map] in He. injection He as He _.
  inversion Hd as [|? ? Hb _]; subst. pose proof (ascii_digit_decimal b Hb) as Hab. rewrite He in Hab. lia.
Qed.
Print Assumptions C59_encoders_agree_refuted.
(** Nor can the digits be read back from it. *)
Theorem C59_issued_number_to_string_empty : forall s n, decimal s -> (1 <= List.length s <= 26)%nat ->
  try_from_bytes s = Ok n -> phone_number_to_string n = Ok [].
Proof.
  intros s n Hd Hl H. rewrite try_from_bytes_ok in H by lia.
  assert (He : n = le_decode (number_layout s) mod ell) by congruence. rewrite He. clear H He.
  rewrite to_string_short by exact Hl. f_equal. clear Hl.
  induction Hd as [|b s Hb _ IH]; [reflexivity|]. cbn [flat_map]. rewrite IH. unfold shown_digit.
  destruct (Z.leb_spec (bz b) 9); [lia|reflexivity].
Qed.
Print Assumptions C59_issued_number_to_string_empty.
Example C59_met : decimal (str "14155551234") /\
  (exists n, try_from_string (str "14155551234") = Ok n) /\ exists n, try_from_bytes (str "14155551234") = Ok n.
Proof.
  split; [repeat (constructor; [vm_compute; split; discriminate|]); constructor|].
  split; eexists; vm_compute; reflexivity.
Qed.

(** ** C30: commitments *)
Theorem C30_opens_exactly : forall E, ExtLaws E -> forall (c value : point E) nonce base,
  commitment_open c value nonce base = Ok tt <-> c = padd value (smul nonce base).
Proof.
  intros E L c v n B. unfold commitment_open. destruct (peqb v (psub c (smul n B))) eqn:He.
  - apply (peqb_true L) in He. split; [intros _|reflexivity]. rewrite He. generalize (smul n B); clear - L; intros; pring L.
  - apply (peqb_false L) in He. split; [discriminate|]. intros ->. elim He. generalize (smul n B); clear - L; intros; pring L.
Qed.
Print Assumptions C30_opens_exactly.
Theorem C30_rejects_otherwise : forall E, ExtLaws E -> forall (c value : point E) nonce base,
  c <> padd value (smul nonce base) -> commitment_open c value nonce base = Err tt.
Proof.
  intros E L c v n B H. rewrite <- (C30_opens_exactly E L) in H. unfold commitment_open in *.
  destruct (peqb _ _); [elim H|]; reflexivity.
Qed.
Print Assumptions C30_rejects_otherwise.
Theorem C30_hiding : forall E, ExtLaws E -> forall (value value' : point E) nonce base,
  base <> pzero ->
  exists! nonce', canonical nonce' /\ commitment_to value' nonce' base = commitment_to value nonce base.
Proof. intros E L v v' n B HB. exact (unique_opening L B v' (commitment_to v n B) HB). Qed.
Print Assumptions C30_hiding.
Theorem C30_binding : forall E, ExtLaws E -> forall (c : point E) n n' nonce nonce' g h,
  committed_open c n nonce g h = Ok tt -> committed_open c n' nonce' g h = Ok tt ->
  n mod ell <> n' mod ell ->
  h = smul ((nonce' - nonce) * s_inv (n - n')) g.
Proof.
  intros E L c n n' k k' g h H H' Hn. unfold committed_open in H, H'.
  apply (C30_opens_exactly E L) in H, H'. rewrite H in H'. clear H c.
  assert (Hd : ~ n - n' == 0) by (intros Hz; apply Hn, eqm_sub_0, Hz).
  dlogs L. to_base_in L H'. to_base L. apply (smul_base_iff L) in H'. apply (smul_base_iff L).
  apply (eqm_mul_cancel _ _ (n - n') Hd).
  match goal with |- ?a == (?k' - ?k) * s_inv ?d * ?g * ?e =>
    transitivity ((s_inv d * d) * ((k' - k) * g)); [rewrite (s_inv_spec d Hd)|apply eqm_of_eq; zring] end.
  apply eqm_sub_0 in H'. apply eqm_sub_0.
  match type of H' with ?a == _ => match goal with |- ?b == _ => assert (Hz : b == a) by (apply eqm_of_eq; zring) end end.
  rewrite Hz, H'. reflexivity.
Qed.
Print Assumptions C30_binding.
Example C30_met : @commitment_open toy (pt 1003) (pt 3) 10 (pt 100) = Ok tt /\
  @commitment_open toy (pt 1003) (pt 3) 11 (pt 100) = Err tt /\
  @committed_open toy (pt 55) 5 5 (pt 1) (pt 10) = Ok tt /\ @committed_open toy (pt 55) 4 15 (pt 1) (pt 10) = Ok tt.
Proof. vm_compute. auto. Qed.

(** ** C31: ElGamal *)
Theorem C31_decrypts : forall E, ExtLaws E -> forall s (m : point E) nonce,
  elgamal_decrypt s (elgamal_encrypt (elgamal_public_of_secret s) m nonce) = m.
Proof.
  intros E L s m n. unfold elgamal_decrypt, elgamal_encrypt, elgamal_public_of_secret. cbn. pring L.
Qed.
Print Assumptions C31_decrypts.
(** A generated key pair matches, and a phone number encrypted to it decrypts. *)
Theorem C31_generated_key_decrypts : forall E, ExtLaws E -> forall r n nonce,
  let kp := fst (@elgamal_keypair_generate E r) in
  elgamal_decrypt (eg_secret kp) (phone_number_encrypt n kp nonce) = smul n basepoint.
Proof.
  intros E L r n nonce kp. unfold phone_number_encrypt.
  assert (Hk : eg_public kp = elgamal_public_of_secret (eg_secret kp)).
  { unfold kp, elgamal_keypair_generate. destruct (elgamal_secret_generate r). reflexivity. }
  rewrite Hk. apply (C31_decrypts E L).
Qed.
Print Assumptions C31_generated_key_decrypts.
Theorem C31_homomorphic : forall E, ExtLaws E -> forall s (a b : Encryption E),
  elgamal_decrypt s (encryption_add a b) = padd (elgamal_decrypt s a) (elgamal_decrypt s b).
Proof.
  intros E L s [c1 e1] [c2 e2]. unfold elgamal_decrypt, encryption_add. cbn. pring L.
Qed.
Print Assumptions C31_homomorphic.
Theorem C31_wrong_key : forall E, ExtLaws E -> forall s s' (m : point E) nonce,
  s' mod ell <> s mod ell -> nonce mod ell <> 0 ->
  elgamal_decrypt s' (elgamal_encrypt (elgamal_public_of_secret s) m nonce) <> m.
Proof.
  intros E L s s' m n Hs Hn H. apply Hs.
  unfold elgamal_decrypt, elgamal_encrypt, elgamal_public_of_secret in H. cbn in H.
  dlogs L. to_base_in L H. apply (smul_base_iff L) in H. 
  assert (Hn' : ~ n == 0) by exact Hn.
  symmetry. apply (eqm_mul_cancel s s' n Hn'). apply eqm_sub_0 in H. apply eqm_sub_0.
  match type of H with ?a == _ => match goal with |- ?b == _ => assert (Hz : b == a) by (apply eqm_of_eq; zring) end end.
  rewrite Hz, H. reflexivity.
Qed.
Print Assumptions C31_wrong_key.
Example C31_met :
  let e := elgamal_encrypt (@elgamal_public_of_secret toy 7) (pt 1234) 9 in
  elgamal_decrypt 7 e = pt 1234 /\ elgamal_decrypt 8 e <> pt 1234.
Proof.
  split; [apply toy_eq; vm_compute; reflexivity|].
  intros H. apply (f_equal tv) in H. vm_compute in H. discriminate.
Qed.

(** ** C29: roster entries *)
Theorem C29_open_exactly : forall E, ExtLaws E -> forall (entry : RosterEntryCommitment E) b n params,
  try_from_bytes b = Ok n ->
  (roster_open entry b params = Ok tt <->
   re_commitment entry = padd (smul n (sp_h params)) (smul (re_opening entry) (sp_g params))) /\
  (roster_open entry b params = Ok tt \/ roster_open entry b params = Err InvalidPhoneNumber).
Proof.
  intros E L e b n params H. unfold roster_open. rewrite H. cbn [bind]. unfold committed_open.
  rewrite <- (C30_opens_exactly E L). unfold commitment_open. destruct (peqb _ _); cbn; split; auto; split; auto; discriminate.
Qed.
Print Assumptions C29_open_exactly.
Theorem C29_create_opens : forall E, ExtLaws E -> forall b (params : SystemParameters E) r,
  (List.length b <= 27)%nat ->
  exists entry r', roster_create b params r = Ok (entry, r') /\ roster_open entry b params = Ok tt.
Proof.
  intros E L b params r Hl. destruct (proj1 (C27_outcomes b) Hl) as [(n & Hn & _) _].
  unfold roster_create. destruct (ephemeral_new r) as [k r']. rewrite Hn. cbn [bind].
  eexists _, _. split; [reflexivity|]. apply (C29_open_exactly E L _ _ n params Hn). reflexivity.
Qed.
Print Assumptions C29_create_opens.
Theorem C29_one_number : forall E, ExtLaws E -> forall (entry : RosterEntryCommitment E) b b' params,
  sp_h params <> pzero ->
  roster_open entry b params = Ok tt -> roster_open entry b' params = Ok tt -> b = b'.
Proof.
  intros E L e b b' params Hh H H'.
  assert (Hn : exists n, try_from_bytes b = Ok n).
  { unfold roster_open in H. destruct (try_from_bytes b); try discriminate. eauto. }
  assert (Hn' : exists n, try_from_bytes b' = Ok n).
  { unfold roster_open in H'. destruct (try_from_bytes b'); try discriminate. eauto. }
  destruct Hn as [n Hn], Hn' as [n' Hn'].
  apply (C29_open_exactly E L e b n params Hn) in H. apply (C29_open_exactly E L e b' n' params Hn') in H'.
  rewrite H in H'. pose proof (try_from_bytes_canonical _ _ Hn). pose proof (try_from_bytes_canonical _ _ Hn').
  assert (Hs : smul n (sp_h params) = smul n' (sp_h params)).
  { revert H'. generalize (smul (re_opening e) (sp_g params)) (smul n (sp_h params)) (smul n' (sp_h params)).
    clear - L. intros P Q R Heq. rewrite !(padd_comm E L _ P) in Heq. exact (padd_cancel_l L _ _ _ Heq). }
  apply (smul_inj L n n' _ Hh) in Hs. apply eqm_canonical in Hs; [|assumption..]. subst n'.
  exact (try_from_bytes_inj _ _ _ Hn Hn').
Qed.
Print Assumptions C29_one_number.
Definition phone_params : SystemParameters toy := {| sp_g := pt 1; sp_h := pt 33 |}.
Example C29_met : exists x, roster_create (str "14155551234") phone_params (toy_stream 4) = Ok x /\
  is_ok (roster_open (fst x) (str "14155551234") phone_params) &&
  negb (is_ok (roster_open (fst x) (str "14155551235") phone_params)) = true.
Proof. apply run1. vm_compute. reflexivity. Qed.

(** ** C44: parameter search *)
(** The [k]-th 32-byte block an RNG produces. *)
Definition block (r : rng) (k : nat) : bytes := map (fun j => r (32 * k + j)%nat) (seq 0 32).
Definition usable {E : Ext} (b : bytes) (h : point E) : Prop :=
  decompress b = Some h /\ b <> compress (@basepoint E).
Lemma peck_spec {E : Ext} (b : bytes) (h : point E) : peck b = Some h <-> usable b h.
Proof.
  unfold peck, usable. destruct (bytes_eqb b (compress basepoint)) eqn:He.
  - apply bytes_eqb_true in He. split; [discriminate|]. intros [_ H]; contradiction.
  - split; [intros H; split; [exact H|]|tauto]. intros ->. rewrite bytes_eqb_refl in He. discriminate.
Qed.
Lemma block_0 r : fst (fill_bytes 32 r) = block r 0.
Proof. reflexivity. Qed.
Lemma block_shift r k : block (snd (fill_bytes 32 r)) k = block r (S k).
Proof.
  unfold block, fill_bytes. cbn [snd]. apply map_ext. intros j. f_equal. lia.
Qed.
Theorem C44_first_usable_block : forall E, ExtLaws E -> forall fuel r (params : SystemParameters E),
  (exists r', hunt_and_peck fuel r = Some (params, r')) <->
  exists k h, (k < fuel)%nat /\ params = {| sp_g := basepoint; sp_h := h |} /\ usable (block r k) h /\
              forall j h', (j < k)%nat -> ~ @usable E (block r j) h'.
Proof.
  intros E L fuel. induction fuel as [|f IH]; intros r params.
  - split; [intros [r' H]; discriminate|]. intros (k & h & Hk & _). lia.
  - cbn [hunt_and_peck].
    destruct (fill_bytes 32 r) as [tmp r1] eqn:Hf.
    assert (Htmp : tmp = block r 0) by (rewrite <- block_0, Hf; reflexivity).
    assert (Hr1 : forall k, block r1 k = block r (S k)) by (intros k; rewrite <- block_shift, Hf; reflexivity).
    destruct (peck tmp) as [h|] eqn:Hp.
    + apply peck_spec in Hp. rewrite Htmp in Hp. split.
      * intros [r' H]. injection H as <- <-. exists 0%nat, h. split; [lia|]. split; [reflexivity|]. split; [exact Hp|].
        intros j h' Hj; lia.
      * intros ([|k] & h' & Hk & -> & Hu & Hn).
        -- exists r1. destruct Hp as [Hp _], Hu as [Hu _]. rewrite Hp in Hu. injection Hu as <-. reflexivity.
        -- exfalso. exact (Hn 0%nat h ltac:(lia) Hp).
    + rewrite IH. split.
      * intros (k & h & Hk & Hpar & Hu & Hn). exists (S k), h. split; [lia|]. split; [exact Hpar|].
        split; [rewrite <- Hr1; exact Hu|]. intros [|j] h' Hj Hj'.
        -- rewrite <- Htmp in Hj'. apply peck_spec in Hj'. congruence.
        -- rewrite <- Hr1 in Hj'. exact (Hn j h' ltac:(lia) Hj').
      * intros ([|k] & h & Hk & Hpar & Hu & Hn).
        -- rewrite <- Htmp in Hu. apply peck_spec in Hu. congruence.
        -- exists k, h. split; [lia|]. split; [exact Hpar|]. split; [rewrite Hr1; exact Hu|].
           intros j h' Hj Hj'. rewrite Hr1 in Hj'. exact (Hn (S j) h' ltac:(lia) Hj').
Qed.
Print Assumptions C44_first_usable_block.
Theorem C44_h_is_not_g : forall E, ExtLaws E -> forall fuel r (params : SystemParameters E) r',
  hunt_and_peck fuel r = Some (params, r') -> sp_g params = basepoint /\ sp_h params <> sp_g params.
Proof.
  intros E L fuel r params r' H.
  destruct (proj1 (C44_first_usable_block E L fuel r params) (ex_intro _ r' H)) as (k & h & _ & -> & [Hu Hn] & _).
  cbn. split; [reflexivity|]. intros ->. apply Hn. symmetry. exact (compress_decompress E L _ _ Hu).
Qed.
Print Assumptions C44_h_is_not_g.
(** The search accepts the identity, for every group. *)
Theorem C44_identity_excluded_refuted : forall E, ExtLaws E -> exists r r',
  hunt_and_peck 1 r = Some ({| sp_g := @basepoint E; sp_h := pzero |}, r').
Proof.
  intros E L. exists (fun _ => x00). cbn [hunt_and_peck fill_bytes].
  assert (Hp : peck (map (fun _ : nat => x00) (seq 0 32)) = Some (@pzero E)).
  { apply peck_spec. change (map (fun _ : nat => x00) (seq 0 32)) with (zeros 32). rewrite <- (compress_zero E L).
    split; [apply (decompress_compress E L)|]. intros H. apply (compress_inj L) in H. symmetry in H.
    exact (basepoint_nonzero E L H). }
  rewrite Hp. eexists. reflexivity.
Qed.
Print Assumptions C44_identity_excluded_refuted.
(** With such parameters an entry opens to every number. *)
Theorem C44_identity_parameters_do_not_bind : forall E, ExtLaws E ->
  forall (entry : RosterEntryCommitment E) params b b',
  sp_h params = pzero -> (List.length b <= 27)%nat -> (List.length b' <= 27)%nat ->
  roster_open entry b params = Ok tt -> roster_open entry b' params = Ok tt.
Proof.
  intros E L e params b b' Hh Hl Hl' H.
  destruct (proj1 (C27_outcomes b) Hl) as [(n & Hn & _) _]. destruct (proj1 (C27_outcomes b') Hl') as [(n' & Hn' & _) _].
  apply (C29_open_exactly E L e b n params Hn) in H. apply (C29_open_exactly E L e b' n' params Hn').
  rewrite H, Hh, !(smul_pzero L). reflexivity.
Qed.
Print Assumptions C44_identity_parameters_do_not_bind.
Definition found_h (fuel : nat) (r : rng) : Z :=
  match @hunt_and_peck toy fuel r with Some (params, _) => tv (sp_h params) | None => 0 end.
Example C44_met : found_h 5 (toy_stream 1) = 4.
Proof. vm_compute. reflexivity. Qed.
(** The basepoint's encoding is skipped, and so is one that does not decode. *)
Example C44_skips :
  found_h 3 (fun i => if (i =? 0)%nat then x01 else if (i =? 63)%nat then xff else
                      if (i =? 64)%nat then x05 else x00) = 5.
Proof. vm_compute. reflexivity. Qed.
