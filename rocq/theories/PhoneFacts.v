(** Facts about signal-credential/src/phone_number.rs *)
From Verif Require Export ModelPhone BaseFacts Algebra.
From Coq Require Import ZifyNat.

(** The 32 bytes [try_from_string] and [try_from_bytes] build for digits [d]. *)
Definition number_layout (d : bytes) : bytes :=
  ([zb 15; zb 15] ++ d ++ [zb 15; zb 15; zb (Z.of_nat (List.length d))] ++ zeros (27 - List.length d))%list.

Lemma number_layout_length d : (List.length d <= 27)%nat -> List.length (number_layout d) = 32%nat.
Proof. intros H. unfold number_layout. rewrite !app_length, zeros_length. cbn [List.length]. lia. Qed.

Lemma array_set_app i v l1 x l2 : List.length l1 = i ->
  array_set i v (l1 ++ x :: l2)%list = Some (l1 ++ v :: l2)%list.
Proof.
  intros <-. unfold array_set. rewrite app_length. cbn [List.length].
  destruct (Nat.ltb_spec (List.length l1) (List.length l1 + S (List.length l2))); [|lia].
  rewrite firstn_app, Nat.sub_diag, firstn_all. cbn [firstn]. rewrite app_nil_r.
  rewrite skipn_app, (skipn_all2 l1) by lia. 
  replace (S (List.length l1) - List.length l1)%nat with 1%nat by lia. reflexivity.
Qed.
Lemma array_set_none i v l : (List.length l <= i)%nat -> array_set i v l = None.
Proof. intros H. unfold array_set. destruct (Nat.ltb_spec i (List.length l)); [lia|reflexivity]. Qed.
Lemma array_set_length i v l l' : array_set i v l = Some l' -> List.length l' = List.length l.
Proof.
  unfold array_set. destruct (Nat.ltb_spec i (List.length l)); [|discriminate]. intros H1.
  assert (Hl' : l' = (firstn i l ++ v :: skipn (S i) l)%list) by congruence. rewrite Hl', app_length. cbn [List.length]. rewrite firstn_length, skipn_length. lia.
Qed.

Lemma write_digits_app f b l1 l2 l3 : List.length l2 = List.length b ->
  write_digits f (List.length l1) b (l1 ++ l2 ++ l3)%list = Some (l1 ++ map f b ++ l3)%list.
Proof.
  revert l1 l2; induction b as [|d b IH]; intros l1 l2 Hl.
  - destruct l2; [|discriminate]. reflexivity.
  - destruct l2 as [|x l2]; [discriminate|]. cbn [write_digits app].
    rewrite array_set_app by reflexivity.
    specialize (IH (l1 ++ [f d])%list l2 ltac:(cbn in Hl; lia)).
    rewrite app_length in IH. cbn [List.length] in IH. rewrite Nat.add_1_r in IH.
    rewrite <- !app_assoc in IH. cbn [app] in IH. rewrite IH. reflexivity.
Qed.
Lemma write_digits_none f b i l : (List.length l < i + List.length b)%nat -> (i <= List.length l)%nat ->
  write_digits f i b l = None.
Proof.
  revert i l; induction b as [|d b IH]; intros i l H Hi; cbn in H; [lia|].
  cbn [write_digits]. destruct (array_set i (f d) l) as [l'|] eqn:Hs; [|reflexivity].
  apply array_set_length in Hs as Hl. apply IH; [lia|].
  unfold array_set in Hs. destruct (Nat.ltb_spec i (List.length l)); [lia|discriminate].
Qed.
Lemma zeros_app a b : zeros (a + b) = (zeros a ++ zeros b)%list.
Proof. unfold zeros. apply repeat_app. Qed.

Lemma encode_start : forall f b,
  (do bits <- @or_panic PhoneNumberError _ (array_set 0 (zb 15) (zeros 32));
   do bits <- or_panic (array_set 1 (zb 15) bits);
   or_panic (write_digits f 2 b bits)) =
  or_panic (write_digits f (List.length [zb 15; zb 15]) b ([zb 15; zb 15] ++ zeros 30)%list).
Proof. reflexivity. Qed.

Lemma phone_number_encode_ok f b : (List.length b <= 27)%nat ->
  phone_number_encode f b = Ok (le_decode (number_layout (map f b)) mod ell).
Proof.
  intros Hl. unfold phone_number_encode.
  destruct (Nat.ltb_spec 32 (List.length b)); [lia|]. cbv zeta.
  change (array_set 0 (zb 15) (zeros 32)) with (Some (zb 15 :: zeros 31)). cbn [or_panic bind].
  change (array_set 1 (zb 15) (zb 15 :: zeros 31)) with (Some ([zb 15; zb 15] ++ zeros 30)%list). cbn [or_panic bind].
  replace (zeros 30) with (zeros (List.length b) ++ zeros (30 - List.length b))%list
    by (rewrite <- zeros_app; f_equal; lia).
  change 2%nat with (List.length [zb 15; zb 15]) at 1.
  rewrite write_digits_app by apply zeros_length. cbn [or_panic bind].
  replace (30 - List.length b)%nat with (3 + (27 - List.length b))%nat by lia.
  rewrite zeros_app. change (zeros 3) with [x00; x00; x00]. cbn [app].
  set (pre := (zb 15 :: zb 15 :: map f b)%list).
  assert (Hp : List.length pre = (List.length b + 2)%nat) by (unfold pre; cbn [List.length]; rewrite map_length; lia).
  change (zb 15 :: zb 15 :: map f b ++ x00 :: x00 :: x00 :: zeros (27 - List.length b))%list
    with (pre ++ x00 :: x00 :: x00 :: zeros (27 - List.length b))%list.
  rewrite array_set_app by exact Hp. cbn [or_panic bind].
  change (pre ++ zb 15 :: x00 :: x00 :: zeros (27 - List.length b))%list
    with (pre ++ [zb 15] ++ x00 :: x00 :: zeros (27 - List.length b))%list.
  rewrite app_assoc.
  rewrite array_set_app by (rewrite app_length, Hp; cbn [List.length]; lia). cbn [or_panic bind].
  change ((pre ++ [zb 15]) ++ zb 15 :: x00 :: zeros (27 - List.length b))%list
    with ((pre ++ [zb 15]) ++ [zb 15] ++ x00 :: zeros (27 - List.length b))%list.
  rewrite app_assoc.
  rewrite array_set_app by (rewrite !app_length, Hp; cbn [List.length]; lia). cbn [or_panic bind].
  unfold from_bytes_mod_order, number_layout. rewrite map_length. unfold pre.
  rewrite <- !app_assoc. reflexivity.
Qed.
Lemma phone_number_encode_err f b : (32 < List.length b)%nat -> phone_number_encode f b = Err LengthExceeded.
Proof. intros H. unfold phone_number_encode. destruct (Nat.ltb_spec 32 (List.length b)); [reflexivity|lia]. Qed.
Lemma phone_number_encode_panic f b : (28 <= List.length b <= 32)%nat -> phone_number_encode f b = Panic.
Proof.
  intros [H1 H2]. unfold phone_number_encode.
  destruct (Nat.ltb_spec 32 (List.length b)); [lia|]. cbv zeta.
  change (array_set 0 (zb 15) (zeros 32)) with (Some (zb 15 :: zeros 31)). cbn [or_panic bind].
  change (array_set 1 (zb 15) (zb 15 :: zeros 31)) with (Some ([zb 15; zb 15] ++ zeros 30)%list). cbn [or_panic bind].
  destruct (Nat.le_gt_cases (List.length b) 30) as [Hb|Hb].
  - replace (zeros 30) with (zeros (List.length b) ++ zeros (30 - List.length b))%list
      by (rewrite <- zeros_app; f_equal; lia).
    change 2%nat with (List.length [zb 15; zb 15]) at 1.
    rewrite write_digits_app by apply zeros_length. cbn [or_panic bind].
    match goal with |- context [array_set _ _ ?l] => set (l0 := l) end.
    assert (Hl0 : List.length l0 = 32%nat).
    { unfold l0. rewrite !app_length, map_length, zeros_length. cbn [List.length]. lia. }
    destruct (array_set (List.length b + 2) (zb 15) l0) as [l1|] eqn:E1; [|reflexivity]. cbn [or_panic bind].
    apply array_set_length in E1.
    destruct (array_set (List.length b + 3) (zb 15) l1) as [l2|] eqn:E2; [|reflexivity]. cbn [or_panic bind].
    apply array_set_length in E2.
    rewrite array_set_none by lia. reflexivity.
  - rewrite write_digits_none; [reflexivity| |]; rewrite app_length, zeros_length; cbn [List.length]; lia.
Qed.

(** ** Injectivity *)
Lemma number_layout_nth d k : (List.length d <= 27)%nat -> (List.length d + 4 < k)%nat ->
  nth k (number_layout d) x00 = x00.
Proof.
  intros Hl Hk. unfold number_layout. 
  rewrite app_nth2 by (cbn [List.length]; lia). rewrite app_nth2 by (cbn [List.length]; lia). rewrite app_nth2 by (cbn [List.length]; lia).
  unfold zeros. cbn [List.length]. apply nth_repeat.
Qed.
Lemma number_layout_len d : (List.length d <= 27)%nat ->
  nth (List.length d + 4) (number_layout d) x00 = zb (Z.of_nat (List.length d)).
Proof.
  intros Hl. unfold number_layout.
  rewrite app_nth2 by (cbn [List.length]; lia). rewrite app_nth2 by (cbn [List.length]; lia). rewrite app_nth1 by (cbn [List.length]; lia).
  cbn [List.length]. replace (List.length d + 4 - 2 - List.length d)%nat with 2%nat by lia. reflexivity.
Qed.
Lemma zb_inj_small a b : 0 <= a < 256 -> 0 <= b < 256 -> zb a = zb b -> a = b.
Proof. intros Ha Hb H. apply (f_equal bz) in H. rewrite !bz_zb, !Z.mod_small in H by lia. exact H. Qed.
Lemma number_layout_inj d d' : (List.length d <= 27)%nat -> (List.length d' <= 27)%nat ->
  number_layout d = number_layout d' -> d = d'.
Proof.
  intros Hd Hd' H.
  assert (Hlen : List.length d = List.length d').
  { destruct (Nat.lt_trichotomy (List.length d) (List.length d')) as [Hlt|[He|Hlt]]; [|exact He|]; exfalso.
    - pose proof (number_layout_nth d (List.length d' + 4) Hd ltac:(lia)) as H1.
      rewrite H, (number_layout_len d' Hd') in H1. change x00 with (zb 0) in H1.
      apply zb_inj_small in H1; lia.
    - pose proof (number_layout_nth d' (List.length d + 4) Hd' ltac:(lia)) as H1.
      rewrite <- H, (number_layout_len d Hd) in H1. change x00 with (zb 0) in H1.
      apply zb_inj_small in H1; lia. }
  unfold number_layout in H. apply app_inv_head in H.
  apply (f_equal (firstn (List.length d))) in H.
  rewrite !firstn_app, Nat.sub_diag, firstn_all in H. cbn [firstn] in H. rewrite app_nil_r in H.
  rewrite Hlen, firstn_all, Nat.sub_diag in H. cbn [firstn] in H. rewrite app_nil_r in H. exact H.
Qed.

Lemma number_value_short d : (List.length d <= 26)%nat -> 0 <= le_decode (number_layout d) < 2 ^ 248.
Proof.
  intros Hl. unfold number_layout.
  replace (27 - List.length d)%nat with ((26 - List.length d) + 1)%nat by lia. rewrite zeros_app.
  rewrite !app_assoc. rewrite le_decode_app. change (le_decode (zeros 1)) with 0. rewrite Z.mul_0_r, Z.add_0_r.
  match goal with |- 0 <= le_decode ?l < _ => pose proof (le_decode_range l) as H; assert (Hn : List.length l = 31%nat) end.
  { rewrite !app_length, zeros_length. cbn [List.length]. lia. }
  rewrite Hn in H. change (256 ^ Z.of_nat 31) with (2 ^ 248) in H. exact H.
Qed.
Lemma number_value_long d : List.length d = 27%nat ->
  27 * 2 ^ 248 + 15 * 2 ^ 240 <= le_decode (number_layout d) < 28 * 2 ^ 248.
Proof.
  intros Hl. unfold number_layout. rewrite Hl.
  change ([zb 15; zb 15; zb (Z.of_nat 27)] ++ zeros (27 - 27))%list with ([zb 15] ++ [zb 15; zb 27])%list.
  rewrite !app_assoc. rewrite le_decode_app.
  match goal with |- _ <= le_decode ?l + _ < _ => pose proof (le_decode_range l) as H; assert (Hn : List.length l = 30%nat) end.
  { rewrite !app_length. cbn [List.length]. lia. }
  rewrite Hn in *. change (le_decode [zb 15; zb 27]) with (15 + 27 * 256).
  change (256 ^ Z.of_nat 30) with (2 ^ 240) in *. change (2 ^ 248) with (256 * 2 ^ 240). lia.
Qed.
Lemma ell_bounds : 16 * 2 ^ 248 < ell < 16 * 2 ^ 248 + 2 ^ 240.
Proof. vm_compute. auto. Qed.
Lemma number_short_mod d : (List.length d <= 26)%nat ->
  le_decode (number_layout d) mod ell = le_decode (number_layout d).
Proof.
  intros H. pose proof (number_value_short d H). pose proof ell_bounds.
  apply Z.mod_small. lia.
Qed.
Lemma number_long_mod d : List.length d = 27%nat ->
  le_decode (number_layout d) mod ell = le_decode (number_layout d) - ell.
Proof.
  intros H. pose proof (number_value_long d H). pose proof ell_bounds.
  symmetry. apply Z.mod_unique_pos with (q := 1); lia.
Qed.
Lemma number_value_inj d d' : (List.length d <= 27)%nat -> (List.length d' <= 27)%nat ->
  le_decode (number_layout d) mod ell = le_decode (number_layout d') mod ell -> d = d'.
Proof.
  intros Hd Hd' H. apply number_layout_inj; [assumption..|].
  apply le_decode_inj; [rewrite !number_layout_length by assumption; reflexivity|].
  pose proof ell_bounds.
  destruct (Nat.eq_dec (List.length d) 27) as [E|N], (Nat.eq_dec (List.length d') 27) as [E'|N'].
  - rewrite !number_long_mod in H by assumption. lia.
  - rewrite (number_long_mod d E), (number_short_mod d') in H by lia.
    pose proof (number_value_long d E). pose proof (number_value_short d' ltac:(lia)). lia.
  - rewrite (number_long_mod d' E'), (number_short_mod d) in H by lia.
    pose proof (number_value_long d' E'). pose proof (number_value_short d ltac:(lia)). lia.
  - rewrite !number_short_mod in H by lia. exact H.
Qed.

Lemma try_from_bytes_ok b : (List.length b <= 27)%nat ->
  try_from_bytes b = Ok (le_decode (number_layout b) mod ell).
Proof. intros H. unfold try_from_bytes. rewrite (phone_number_encode_ok (fun d => d)) by exact H. rewrite map_id. reflexivity. Qed.
Lemma try_from_bytes_canonical b n : try_from_bytes b = Ok n -> 0 <= n < ell.
Proof.
  intros H. destruct (Nat.le_gt_cases (List.length b) 27) as [Hl|Hl].
  - rewrite try_from_bytes_ok in H by exact Hl. injection H as <-. apply mod_range.
  - unfold try_from_bytes in H. destruct (Nat.le_gt_cases (List.length b) 32) as [Hl'|Hl'].
    + rewrite phone_number_encode_panic in H by lia. discriminate.
    + rewrite phone_number_encode_err in H by lia. discriminate.
Qed.
Lemma try_from_bytes_inv b n : try_from_bytes b = Ok n -> (List.length b <= 27)%nat.
Proof.
  intros H. destruct (Nat.le_gt_cases (List.length b) 27) as [Hl|Hl]; [exact Hl|].
  unfold try_from_bytes in H. destruct (Nat.le_gt_cases (List.length b) 32) as [Hl'|Hl'].
  - rewrite phone_number_encode_panic in H by lia. discriminate.
  - rewrite phone_number_encode_err in H by lia. discriminate.
Qed.
Lemma try_from_bytes_inj b b' n : try_from_bytes b = Ok n -> try_from_bytes b' = Ok n -> b = b'.
Proof.
  intros H H'. pose proof (try_from_bytes_inv _ _ H) as Hl. pose proof (try_from_bytes_inv _ _ H') as Hl'.
  rewrite try_from_bytes_ok in H, H' by assumption. apply number_value_inj; congruence.
Qed.

Definition decimal (s : bytes) : Prop := Forall (fun b => 48 <= bz b <= 57) s.
Lemma ascii_digit_decimal b : 48 <= bz b <= 57 -> bz (ascii_digit b) = bz b - 48.
Proof.
  intros H. unfold ascii_digit. destruct (Z.leb_spec 48 (bz b)), (Z.leb_spec (bz b) 57); try lia. cbn [andb].
  rewrite bz_zb. apply Z.mod_small. lia.
Qed.
Lemma ascii_digits_inj s s' : decimal s -> decimal s' -> map ascii_digit s = map ascii_digit s' -> s = s'.
Proof.
  intros H; revert s'; induction H as [|b s Hb _ IH]; intros [|b' s'] H' He; try discriminate; [reflexivity|].
  inversion H' as [|? ? Hb' Hs']; subst. cbn in He. injection He as Hd He. f_equal; [|apply IH; assumption].
  apply (f_equal bz) in Hd. rewrite !ascii_digit_decimal in Hd by assumption. apply bz_inj. lia.
Qed.

(** ** Back to strings *)
Lemma last_nonzero_app l n : last_nonzero (l ++ zeros n)%list = last_nonzero l.
Proof.
  assert (H : last_nonzero (zeros n) = 0) by (unfold zeros; induction n as [|n IH]; [reflexivity|]; cbn; rewrite IH; reflexivity).
  induction l as [|b l IH]; [exact H|]. cbn. rewrite IH. reflexivity.
Qed.
Lemma last_nonzero_last l b : bz b <> 0 -> last_nonzero (l ++ [b])%list = bz b.
Proof.
  intros Hb. induction l as [|x l IH]; [reflexivity|]. cbn. rewrite IH.
  destruct (Z.eqb_spec (bz b) 0); [contradiction|reflexivity].
Qed.
Lemma last_nonzero_range l : 0 <= last_nonzero l < 256.
Proof.
  induction l as [|b l IH]; cbn; [lia|]. destruct (last_nonzero l =? 0); [apply bz_range|exact IH].
Qed.
Definition shown_digit (d : byte) : bytes := if bz d <=? 9 then [zb (bz d + 48)] else [].
Lemma read_digits_some n i l : (i + n <= List.length l)%nat ->
  read_digits n i l = Some (flat_map shown_digit (firstn n (skipn i l))).
Proof.
  revert i; induction n as [|n IH]; intros i H; [reflexivity|]. cbn [read_digits].
  unfold index. destruct (nth_error l i) as [d|] eqn:Hd; [|apply nth_error_None in Hd; lia].
  rewrite IH by lia.
  assert (Hs : skipn i l = d :: skipn (S i) l).
  { clear - Hd. revert l Hd; induction i as [|i IH]; intros [|x l] Hd; cbn in *; try discriminate; [congruence|]. apply IH; exact Hd. }
  rewrite Hs. cbn [firstn flat_map]. set (t := flat_map _ _). unfold shown_digit. destruct (bz d <=? 9); reflexivity.
Qed.
Lemma read_digits_none n i l : (List.length l < i + n)%nat -> (0 < n)%nat -> read_digits n i l = None.
Proof.
  revert i; induction n as [|n IH]; intros i H Hn; [lia|]. cbn [read_digits]. unfold index.
  destruct (nth_error l i) as [d|] eqn:Hd; [|reflexivity].
  assert (i < List.length l)%nat by (apply nth_error_Some; congruence).
  rewrite IH by lia. reflexivity.
Qed.
Lemma to_string_outcome n :
  let b := scalar_to_bytes n in
  let len := Z.to_nat (last_nonzero b) in
  phone_number_to_string n =
  if (len <=? 30)%nat then Ok (flat_map shown_digit (firstn len (skipn 2 b))) else Panic.
Proof.
  cbv zeta. unfold phone_number_to_string.
  assert (Hl : List.length (scalar_to_bytes n) = 32%nat) by apply le_encode_length.
  destruct (Nat.leb_spec (Z.to_nat (last_nonzero (scalar_to_bytes n))) 30).
  - rewrite read_digits_some by lia. reflexivity.
  - rewrite read_digits_none by lia. reflexivity.
Qed.

Lemma scalar_to_bytes_short d : (List.length d <= 26)%nat ->
  scalar_to_bytes (le_decode (number_layout d) mod ell) = number_layout d.
Proof.
  intros H. rewrite number_short_mod by exact H. unfold scalar_to_bytes.
  rewrite <- (number_layout_length d) by lia. apply le_encode_decode.
Qed.
Lemma to_string_short d : (1 <= List.length d <= 26)%nat ->
  phone_number_to_string (le_decode (number_layout d) mod ell) = Ok (flat_map shown_digit d).
Proof.
  intros H. pose proof (to_string_outcome (le_decode (number_layout d) mod ell)) as Ho. cbv zeta in Ho.
  rewrite scalar_to_bytes_short in Ho by lia.
  assert (Hln : last_nonzero (number_layout d) = Z.of_nat (List.length d)).
  { unfold number_layout. 
    change [zb 15; zb 15; zb (Z.of_nat (List.length d))] with ([zb 15; zb 15] ++ [zb (Z.of_nat (List.length d))])%list.
    rewrite !app_assoc, last_nonzero_app, last_nonzero_last; rewrite bz_zb, Z.mod_small; lia. }
  rewrite Hln, Nat2Z.id in Ho. rewrite Ho.
  destruct (Nat.leb_spec (List.length d) 30); [|lia].
  f_equal. f_equal. unfold number_layout. cbn [skipn app].
  rewrite firstn_app, Nat.sub_diag, firstn_all. cbn [firstn]. apply app_nil_r.
Qed.
Lemma shown_decimal s : decimal s -> flat_map shown_digit (map ascii_digit s) = s.
Proof.
  induction 1 as [|b s Hb _ IH]; [reflexivity|]. cbn [map flat_map]. rewrite IH. unfold shown_digit.
  rewrite (ascii_digit_decimal b Hb). destruct (Z.leb_spec (bz b - 48) 9); [|lia]. cbn [app]. f_equal.
  rewrite <- (zb_bz b) at 2. f_equal. lia.
Qed.
Lemma shown_digits_length d : (List.length (flat_map shown_digit d) <= List.length d)%nat.
Proof.
  induction d as [|x d IH]; [reflexivity|]. cbn [flat_map]. rewrite app_length. cbn [List.length].
  unfold shown_digit at 1. destruct (bz x <=? 9); cbn [List.length]; lia.
Qed.
Lemma le_encode_app a b z : le_encode (a + b) z = (le_encode a z ++ le_encode b (z / 256 ^ Z.of_nat a))%list.
Proof.
  revert z; induction a as [|a IH]; intros z.
  - cbn [Nat.add le_encode app]. change (256 ^ Z.of_nat 0) with 1. rewrite Z.div_1_r. reflexivity.
  - cbn [Nat.add le_encode app]. rewrite IH. f_equal. f_equal. f_equal.
    rewrite pow256_succ. rewrite Z.div_div; [reflexivity|lia|apply pow256_pos].
Qed.
Lemma to_string_long d : List.length d = 27%nat ->
  exists s, phone_number_to_string (le_decode (number_layout d) mod ell) = Ok s /\ (List.length s <= 11)%nat.
Proof.
  intros H. pose proof (number_value_long d H) as Hv. pose proof ell_bounds as He.
  rewrite number_long_mod by exact H. set (w := le_decode (number_layout d) - ell).
  assert (Hw : 11 * 2 ^ 248 <= w < 12 * 2 ^ 248) by (unfold w; lia). clearbody w.
  pose proof (to_string_outcome w) as Ho. cbv zeta in Ho.
  assert (Hln : last_nonzero (scalar_to_bytes w) = 11).
  { unfold scalar_to_bytes. change 32%nat with (31 + 1)%nat. rewrite le_encode_app.
    change (256 ^ Z.of_nat 31) with (2 ^ 248).
    replace (w / 2 ^ 248) with 11; [apply (last_nonzero_last _ (zb 11)); discriminate|].
    apply Z.div_unique_pos with (r := w - 11 * 2 ^ 248); lia. }
  rewrite Hln in Ho. eexists. split; [exact Ho|].
  etransitivity; [apply shown_digits_length|]. rewrite firstn_length. apply Nat.le_min_l.
Qed.
