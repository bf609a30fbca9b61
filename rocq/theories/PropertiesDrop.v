(** Properties of the destructors of secrets (C54). *)
From Verif Require Import BaseFacts CodecFacts ModelDrop Toy.

(** ** The memory *)
Lemma cell_write h a x j : cell (write h a x) j = if (j =? a)%nat then x else cell h j.
Proof. reflexivity. Qed.
Lemma fold_clear l h j : cell (fold_left clear_scalar l h) j = if existsb (Nat.eqb j) l then 0 else cell h j.
Proof.
  revert h. induction l as [|a l IH]; intros h; [reflexivity|]. cbn [fold_left existsb]. rewrite IH.
  unfold clear_scalar. rewrite cell_write. destruct (j =? a)%nat, (existsb (Nat.eqb j) l); reflexivity.
Qed.
Lemma fold_clear_ephemeral l h j : cell (fold_left clear_ephemeral l h) j = if existsb (Nat.eqb j) l then 0 else cell h j.
Proof.
  revert h. induction l as [|a l IH]; intros h; [reflexivity|]. cbn [fold_left existsb]. rewrite IH.
  unfold clear_ephemeral, drop_ephemeral, clear_scalar. rewrite !cell_write.
  destruct (j =? a)%nat, (existsb (Nat.eqb j) l); reflexivity.
Qed.
Lemma drop_scalars l h : fold_left drop_scalar l h = h.
Proof. induction l as [|a l IH]; [reflexivity|exact IH]. Qed.
Lemma in_cells j v : existsb (Nat.eqb j) (vec_cells v) = true <-> (vec_base v <= j < vec_base v + vec_len v)%nat.
Proof.
  rewrite existsb_exists. unfold vec_cells. split.
  - intros (x & Hx & H). apply Nat.eqb_eq in H. subst x. apply in_seq in Hx. lia.
  - intros H. exists j. rewrite in_seq, Nat.eqb_refl. split; [lia|reflexivity].
Qed.
Lemma contents_app h v x : vec_contents (write h (vec_base v + vec_len v) x)
    {| vec_base := vec_base v; vec_len := S (vec_len v); vec_capacity := vec_capacity v |} = (vec_contents h v ++ [x])%list.
Proof.
  unfold vec_contents, vec_cells. cbn [vec_base vec_len]. rewrite seq_S, map_app. f_equal.
  - apply map_ext_in. intros j Hj. apply in_seq in Hj. rewrite cell_write. destruct (Nat.eqb_spec j (vec_base v + vec_len v)); [lia|reflexivity].
  - cbn [map]. rewrite cell_write, Nat.eqb_refl. reflexivity.
Qed.
(** Pushing within the capacity. *)
Lemma push_within h v x : (vec_len v < vec_capacity v)%nat ->
  vec_push h v x = ({| vec_base := vec_base v; vec_len := S (vec_len v); vec_capacity := vec_capacity v |},
                    write h (vec_base v + vec_len v) x).
Proof. intros H. unfold vec_push. apply Nat.ltb_lt in H. rewrite H. reflexivity. Qed.
Lemma push_random_spec n : forall h v r v' h' r' xs rx,
  (vec_len v + n <= vec_capacity v)%nat -> h_push_random n h v r = (v', h', r') -> scalars_random n r = (xs, rx) ->
  r' = rx /\ vec_base v' = vec_base v /\ vec_len v' = (vec_len v + n)%nat /\ next_cell h' = next_cell h /\
  vec_contents h' v' = (vec_contents h v ++ xs)%list /\
  (forall j, (j < vec_base v + vec_len v \/ vec_base v + vec_len v + n <= j)%nat -> cell h' j = cell h j).
Proof.
  induction n as [|n IH]; intros h v r v' h' r' xs rx Hc H Hs; cbn [h_push_random scalars_random] in *.
  - injection H as <- <- <-. injection Hs as <- <-. rewrite app_nil_r, Nat.add_0_r. auto 10.
  - destruct (scalar_random r) as [x r1]. destruct (scalars_random n r1) as [ys ry] eqn:Hy. injection Hs as <- <-.
    rewrite push_within in H by lia.
    apply (IH _ _ _ _ _ _ ys ry) in H; [|cbn [vec_len vec_capacity]; lia|exact Hy].
    cbn [vec_base vec_len] in H. destruct H as (-> & Hb & Hl & Hn & Hx & Hf).
    split; [reflexivity|]. split; [exact Hb|]. split; [lia|]. split; [exact Hn|]. split.
    + rewrite Hx, contents_app, <- app_assoc. reflexivity.
    + intros j Hj. rewrite Hf by lia. rewrite cell_write. destruct (Nat.eqb_spec j (vec_base v + vec_len v)); [lia|reflexivity].
Qed.

(** ** C54: what the destructors do *)
(** The cells of the key become zero, and no other changes. *)
Theorem C54_secret_key_drop : forall h k j,
  cell (drop_secret_key h k) j =
  if ((j =? hsk_x0 k)%nat || existsb (Nat.eqb j) (vec_cells (hsk_xn k)))%bool then 0 else cell h j.
Proof.
  intros h k j. unfold drop_secret_key, drop_scalar_vec. rewrite drop_scalars, fold_clear. unfold clear_scalar. rewrite cell_write.
  destruct (j =? hsk_x0 k)%nat, (existsb (Nat.eqb j) (vec_cells (hsk_xn k))); reflexivity.
Qed.
Print Assumptions C54_secret_key_drop.
Theorem C54_nonces_drop : forall h v j,
  cell (drop_nonces h v) j = if existsb (Nat.eqb j) (vec_cells v) then 0 else cell h j.
Proof.
  intros h v j. unfold drop_nonces.
  change (fold_left drop_ephemeral (vec_cells v)) with (fold_left clear_scalar (vec_cells v)).
  rewrite fold_clear, fold_clear_ephemeral. destruct (existsb _ _); reflexivity.
Qed.
Print Assumptions C54_nonces_drop.
Theorem C54_single_scalar_drop : forall h a,
  Forall (fun drop => forall j, cell (drop h a) j = if (j =? a)%nat then 0 else cell h j)
    [drop_ephemeral; drop_rerandomization; drop_elgamal_secret].
Proof. intros h a. repeat constructor. Qed.
Print Assumptions C54_single_scalar_drop.

(** Every cell which making the value allocated. *)
Definition erased (h h' h'' : heap) : Prop :=
  (forall j, (next_cell h <= j < next_cell h')%nat -> cell h'' j = 0) /\
  (forall j, (j < next_cell h \/ next_cell h' <= j)%nat -> cell h'' j = cell h j).

(** A new key holds the scalars drawn, and dropping it leaves no trace. *)
Theorem C54_secret_key_new : forall h n r k h' r',
  h_secret_key_new h n r = (k, h', r') ->
  secret_key_new n r = ({| sk_x0 := cell h' (hsk_x0 k); sk_xn := vec_contents h' (hsk_xn k) |}, r') /\
  erased h h' (drop_secret_key h' k).
Proof.
  intros h n r k h' r' H. unfold h_secret_key_new, vec_with_capacity, allocate in H. cbn [next_cell cell] in H.
  unfold secret_key_new. destruct (scalar_random r) as [s r1]. cbv beta iota zeta in H.
  destruct (scalars_random n r1) as [xs rx] eqn:Hs.
  match type of H with (let '_ := ?e in _) = _ => destruct e as [[v h2] r2] eqn:Hp end.
  injection H as <- <- <-. apply (fun L => push_random_spec _ _ _ _ _ _ _ _ _ L Hp) in Hs; [|cbn [vec_len vec_capacity]; lia].
  cbn [vec_base vec_len next_cell write cell] in Hs. destruct Hs as (-> & Hb & Hl & Hn & Hx & Hf).
  cbn [hsk_x0 hsk_xn]. split.
  - rewrite Hx. rewrite Hf by lia. rewrite Nat.eqb_refl. reflexivity.
  - unfold erased. rewrite Hn. split; intros j Hj; rewrite C54_secret_key_drop; cbn [hsk_x0 hsk_xn].
    + destruct (Nat.eqb_spec j (next_cell h + n)); [reflexivity|]. cbn [orb].
      destruct (existsb (Nat.eqb j) (vec_cells v)) eqn:He; [reflexivity|]. exfalso. apply not_true_iff_false in He.
      apply He, in_cells. lia.
    + destruct (Nat.eqb_spec j (next_cell h + n)); [lia|]. cbn [orb].
      destruct (existsb (Nat.eqb j) (vec_cells v)) eqn:He; [apply in_cells in He; lia|].
      rewrite Hf by lia. destruct (Nat.eqb_spec j (next_cell h + n)); [lia|reflexivity].
Qed.
Print Assumptions C54_secret_key_new.
Theorem C54_nonces_new : forall h n r v h' r',
  h_nonces_new h r n = (v, h', r') ->
  nonces_new r n = (vec_contents h' v, r') /\ erased h h' (drop_nonces h' v).
Proof.
  intros h n r v h' r' H. unfold h_nonces_new, vec_with_capacity, allocate in H. unfold nonces_new.
  destruct (scalars_random n r) as [xs rx] eqn:Hs.
  apply (fun L => push_random_spec _ _ _ _ _ _ _ _ _ L H) in Hs; [|cbn [vec_len vec_capacity]; lia].
  cbn [vec_base vec_len next_cell cell] in Hs. destruct Hs as (-> & Hb & Hl & Hn & Hx & Hf). split; [rewrite Hx; reflexivity|].
  unfold erased. rewrite Hn. split; intros j Hj; rewrite C54_nonces_drop;
    (destruct (existsb (Nat.eqb j) (vec_cells v)) eqn:He; [|]).
  - reflexivity.
  - exfalso. apply not_true_iff_false in He. apply He, in_cells. lia.
  - apply in_cells in He; lia.
  - rewrite Hf by lia. reflexivity.
Qed.
Print Assumptions C54_nonces_new.
Theorem C54_single_scalar_new : forall h r,
  Forall (fun nd => forall a h' r', fst nd h r = (a, h', r') ->
      scalar_random r = (cell h' a, r') /\ erased h h' (snd nd h' a))
    [(h_ephemeral_new, drop_ephemeral); (h_rerandomization_new, drop_rerandomization);
     (h_elgamal_secret_generate, drop_elgamal_secret)].
Proof.
  intros h r.
  assert (K : forall a h' r', h_ephemeral_new h r = (a, h', r') ->
    scalar_random r = (cell h' a, r') /\ erased h h' (drop_ephemeral h' a)).
  { intros a h' r'. unfold h_ephemeral_new, allocate. destruct (scalar_random r) as [s r1]. intros [= <- <- <-].
    cbn [cell write]. rewrite Nat.eqb_refl. split; [reflexivity|]. unfold erased, drop_ephemeral, clear_scalar.
    cbn [next_cell write]. split; intros j Hj; rewrite !cell_write; destruct (Nat.eqb_spec j (next_cell h)); try reflexivity; lia. }
  apply Forall_cons; [exact K|]. apply Forall_cons; [exact K|]. apply Forall_cons; [exact K|]. apply Forall_nil.
Qed.
Print Assumptions C54_single_scalar_new.

(** ** C54: decoded keys *)
Definition decode_chunks := try_map (fun chunk => ok_or MacScalarFormatError (from_canonical_bytes chunk)).
Lemma from_chunks_pushing cs : forall h x0 v, (x0 < vec_base v)%nat ->
  (vec_len v + List.length cs <= vec_capacity v)%nat -> (vec_base v + vec_capacity v <= next_cell h)%nat ->
  let (res, h') := h_from_chunks h x0 true v cs in
  next_cell h' = next_cell h /\
  (forall j, (j < vec_base v + vec_len v \/ vec_base v + vec_len v + List.length cs <= j)%nat -> cell h' j = cell h j) /\
  match decode_chunks cs, res with
  | Ok xs, Some (seen, v') => seen = true /\ vec_base v' = vec_base v /\
      vec_len v' = (vec_len v + List.length cs)%nat /\ vec_contents h' v' = (vec_contents h v ++ xs)%list
  | Err _, None => True
  | _, _ => False
  end.
Proof.
  induction cs as [|c cs IH]; intros h x0 v Hx Hc Hn; cbn [h_from_chunks].
  - cbn. rewrite app_nil_r, Nat.add_0_r. auto 10.
  - unfold decode_chunks. cbn [try_map List.length] in *. destruct (from_canonical_bytes c) as [x|]; cbn [ok_or bind].
    2: { unfold drop_scalar_vec. rewrite drop_scalars. auto. }
    rewrite push_within by lia.
    specialize (IH (write h (vec_base v + vec_len v) x) x0
      {| vec_base := vec_base v; vec_len := S (vec_len v); vec_capacity := vec_capacity v |} Hx ltac:(cbn [vec_len vec_capacity]; lia) Hn).
    destruct (h_from_chunks _ _ _ _ cs) as [res h']. cbn [vec_base vec_len vec_capacity next_cell write] in IH.
    destruct IH as (H1 & H2 & H3). split; [exact H1|]. split.
    { intros j Hj. rewrite H2 by lia. rewrite cell_write. destruct (Nat.eqb_spec j (vec_base v + vec_len v)); [lia|reflexivity]. }
    fold (decode_chunks cs). destruct (decode_chunks cs) as [xs|e|]; cbn [bind]; destruct res as [[seen v']|]; auto.
    destruct H3 as (-> & Hb & Hl & Hxs). split; [reflexivity|]. split; [exact Hb|]. split; [lia|].
    rewrite Hxs, contents_app, <- app_assoc. reflexivity.
Qed.

(** A decoded key holds what the bytes say, and dropping it leaves no trace;
    bytes which are rejected are rejected with the same error. *)
Theorem C54_secret_key_from_bytes : forall h b,
  let (res, h') := h_secret_key_from_bytes h b in
  match secret_key_from_bytes b, res with
  | Ok sk, Ok k => sk = {| sk_x0 := cell h' (hsk_x0 k); sk_xn := vec_contents h' (hsk_xn k) |} /\
      erased h h' (drop_secret_key h' k)
  | Err e, Err e' => e = e'
  | Panic, Panic => True
  | _, _ => False
  end.
Proof.
  intros h b. unfold h_secret_key_from_bytes, secret_key_from_bytes.
  destruct (Nat.eqb_spec (Nat.modulo (List.length b) 32) 0) as [Hm|Hm]; cbn [negb]; [|reflexivity].
  destruct (Nat.eqb_spec (List.length b) 0) as [Hz|Hz]; [exact I|].
  unfold allocate, vec_with_capacity, allocate. cbn [next_cell cell].
  apply Nat.mod_divides in Hm; [|lia]. destruct Hm as [k Hk].
  assert (Hd : (List.length b / 32 = k)%nat) by (rewrite Hk, Nat.mul_comm; apply Nat.div_mul; lia).
  destruct (chunks_exact 32 b k) as (_ & Hlen & _); [lia|lia|].
  change (@List.length (list Byte.byte) (chunks 32 b)) with (@List.length bytes (chunks 32 b)) in Hlen.
  rewrite Hd. fold (decode_chunks (chunks 32 b)).
  destruct (chunks 32 b) as [|c cs]; [cbn in Hlen; lia|]. cbn [h_from_chunks]. unfold decode_chunks. cbn [try_map List.length] in *.
  destruct (from_canonical_bytes c) as [x|]; cbn [ok_or bind]; [|reflexivity]. fold (decode_chunks cs).
  match goal with |- context [h_from_chunks ?h1 ?a true ?v cs] =>
    pose proof (from_chunks_pushing cs h1 a v ltac:(cbn; lia) ltac:(cbn [vec_len vec_capacity]; lia) ltac:(cbn [vec_base vec_capacity next_cell write]; lia)) as H;
    destruct (h_from_chunks h1 a true v cs) as [res h'] end.
  cbn [vec_base vec_len vec_capacity next_cell write] in H. destruct H as (Hn & Hf & Hr).
  destruct (decode_chunks cs) as [xs|e|] eqn:He; cbn [bind]; destruct res as [[seen v]|]; try contradiction.
  2: { unfold decode_chunks in He. clear - He. revert e He. induction cs as [|c' cs IH]; intros e He; [discriminate|].
       cbn [try_map] in He. destruct (from_canonical_bytes c'); cbn [ok_or bind] in He; [|congruence].
       match type of He with bind ?m _ = _ => destruct m end; cbn [bind] in He; [discriminate| |discriminate].
       apply IH. congruence. }
  destruct Hr as (-> & Hb & Hl & Hx). cbn [hsk_x0 hsk_xn]. split.
  - rewrite Hx, Hf by lia. rewrite cell_write. rewrite Nat.eqb_refl. reflexivity.
  - unfold erased. rewrite Hn. split; intros j Hj; rewrite C54_secret_key_drop; cbn [hsk_x0 hsk_xn].
    + destruct (Nat.eqb_spec j (next_cell h)); [reflexivity|]. cbn [orb].
      destruct (existsb (Nat.eqb j) (vec_cells v)) eqn:Hi; [reflexivity|]. exfalso. apply not_true_iff_false in Hi.
      apply Hi, in_cells. lia.
    + destruct (Nat.eqb_spec j (next_cell h)); [lia|]. cbn [orb].
      destruct (existsb (Nat.eqb j) (vec_cells v)) eqn:Hi; [apply in_cells in Hi; lia|].
      rewrite Hf by lia. rewrite cell_write. destruct (Nat.eqb_spec j (next_cell h)); [lia|reflexivity].
Qed.
Print Assumptions C54_secret_key_from_bytes.

(** But when a later scalar is rejected, the scalars decoded before it stay in
    memory which the program has given back: a [Vec<Scalar>] erases nothing. *)
Lemma from_chunks_leaves xs : forall h x0 v bad cs, Forall canonical xs -> from_canonical_bytes bad = None ->
  (vec_len v + List.length xs <= vec_capacity v)%nat ->
  exists h', h_from_chunks h x0 true v (map scalar_to_bytes xs ++ bad :: cs) = (None, h') /\
    (forall j, (j < vec_base v + vec_len v)%nat -> cell h' j = cell h j) /\
    map (cell h') (seq (vec_base v + vec_len v) (List.length xs)) = xs.
Proof.
  induction xs as [|x xs IH]; intros h x0 v bad cs Hc Hb Hl; cbn [map app h_from_chunks List.length seq] in *.
  - rewrite Hb. eexists. split; [reflexivity|]. unfold drop_scalar_vec. rewrite drop_scalars. split; reflexivity.
  - inversion_clear Hc. rewrite from_canonical_to_bytes by assumption. rewrite push_within by lia.
    destruct (IH (write h (vec_base v + vec_len v) x) x0
      {| vec_base := vec_base v; vec_len := S (vec_len v); vec_capacity := vec_capacity v |} bad cs) as (h' & H1 & H2 & H3);
      [assumption|assumption|cbn [vec_len vec_capacity]; lia|].
    cbn [vec_base vec_len] in *. exists h'. split; [exact H1|]. split.
    + intros j Hj. rewrite H2 by lia. rewrite cell_write. destruct (Nat.eqb_spec j (vec_base v + vec_len v)); [lia|reflexivity].
    + f_equal; [|rewrite <- plus_n_Sm in H3; exact H3]. rewrite H2 by lia. rewrite cell_write, Nat.eqb_refl. reflexivity.
Qed.
Theorem C54_rejected_key_left_in_memory_refuted : forall h xs bad rest,
  Forall canonical xs -> List.length bad = 32%nat -> from_canonical_bytes bad = None ->
  Nat.modulo (List.length rest) 32 = 0%nat ->
  exists h', h_secret_key_from_bytes h (flat_map scalar_to_bytes xs ++ bad ++ rest) = (Err MacScalarFormatError, h') /\
    map (cell h') (seq (next_cell h) (List.length xs)) = xs.
Proof.
  intros h xs bad rest Hx Hl Hb Hr. unfold h_secret_key_from_bytes.
  assert (Hlen : List.length (flat_map scalar_to_bytes xs ++ bad ++ rest)%list = (32 * List.length xs + (32 + List.length rest))%nat).
  { rewrite !app_length, Hl. f_equal. clear. induction xs as [|x xs IH]; [reflexivity|]. cbn [flat_map List.length].
    rewrite app_length, IH, scalar_to_bytes_length. lia. }
  apply Nat.mod_divides in Hr; [|lia]. destruct Hr as [k Hk]. rewrite Hk in Hlen.
  replace (32 * List.length xs + (32 + 32 * k))%nat with (32 * (List.length xs + 1 + k))%nat in Hlen by lia.
  rewrite Hlen. rewrite (Nat.mul_comm 32), Nat.mod_mul, Nat.div_mul by lia. cbn [negb Nat.eqb].
  destruct (Nat.eqb_spec ((List.length xs + 1 + k) * 32) 0) as [Hz|_]; [lia|].
  assert (Hch : chunks 32 (flat_map scalar_to_bytes xs ++ bad ++ rest) = (map scalar_to_bytes xs ++ bad :: chunks 32 rest)%list).
  { clear - Hl. induction xs as [|x xs IH]; cbn [flat_map map app]; [apply chunks_app; [lia|exact Hl]|].
    rewrite <- app_assoc, chunks_app by (lia || apply scalar_to_bytes_length). f_equal. exact IH. }
  rewrite Hch.
  unfold allocate, vec_with_capacity, allocate. cbn [next_cell cell].
  destruct xs as [|x xs]; cbn [map app h_from_chunks].
  - rewrite Hb. eexists. split; [reflexivity|]. reflexivity.
  - inversion_clear Hx. rewrite from_canonical_to_bytes by assumption.
    match goal with |- context [h_from_chunks ?h1 ?a true ?v _] =>
      destruct (from_chunks_leaves xs h1 a v bad (chunks 32 rest)) as (h' & H1 & H2 & H3) end;
      [assumption|assumption|cbn [vec_len vec_capacity List.length]; lia|].
    match goal with |- context [h_from_chunks ?h1 ?a true ?v ?l] =>
      replace (h_from_chunks h1 a true v l) with (@None (bool * hvec), h') by (symmetry; exact H1) end.
    exists h'. split; [reflexivity|]. cbn [vec_base vec_len] in *. cbn [List.length seq map]. f_equal.
    + rewrite H2 by lia. cbn [cell write]. rewrite Nat.eqb_refl. reflexivity.
    + replace (S (next_cell h)) with (next_cell h + 1 + 0)%nat by lia. exact H3.
Qed.
Print Assumptions C54_rejected_key_left_in_memory_refuted.

(** ElGamal keys: whether or not the bytes are accepted. *)
Theorem C54_elgamal_keypair_from_bytes : forall (E : Ext) h b,
  let (res, h') := h_elgamal_keypair_from_bytes (E := E) h b in
  match elgamal_keypair_from_bytes (E := E) b, res with
  | Ok k, Ok (a, p) => k = {| eg_secret := cell h' a; eg_public := p |} /\ erased h h' (drop_elgamal_secret h' a)
  | Err e, Err e' => e = e' /\ erased h h' h'
  | Panic, Panic => erased h h' h'
  | _, _ => False
  end.
Proof.
  intros E h b. unfold h_elgamal_keypair_from_bytes, elgamal_keypair_from_bytes.
  assert (Z : erased h h h) by (split; [lia|reflexivity]).
  destruct (Nat.eqb_spec (List.length b) 64) as [Hl|Hl]; cbn [negb]; [|exact Z].
  rewrite !slice_some by lia. change (skipn 0 b) with b. cbn [or_panic bind]. change (64 - 32)%nat with 32%nat. change (32 - 0)%nat with 32%nat.
  rewrite (firstn_all2 (skipn 32 b)) by (rewrite skipn_length; lia).
  unfold h_elgamal_secret_from_bytes, elgamal_secret_from_bytes. rewrite firstn_length, Hl. cbn [Nat.min Nat.eqb negb].
  destruct (from_canonical_bytes (firstn 32 b)) as [s|]; cbn [ok_or bind]; [|split; [reflexivity|exact Z]].
  unfold allocate. destruct (elgamal_public_from_bytes (skipn 32 b)) as [p|e|]; cbn [bind].
  - rewrite cell_write. cbn [next_cell]. rewrite Nat.eqb_refl. split; [reflexivity|].
    unfold drop_elgamal_secret, clear_scalar. split; cbn [next_cell write]; intros j Hj; rewrite !cell_write; cbn [next_cell cell] in *; destruct (Nat.eqb_spec j (next_cell h)); try reflexivity; lia.
  - split; [reflexivity|].
    unfold drop_elgamal_secret, clear_scalar. split; cbn [next_cell write]; intros j Hj; rewrite !cell_write; cbn [next_cell cell] in *; destruct (Nat.eqb_spec j (next_cell h)); try reflexivity; lia.
  - unfold drop_elgamal_secret, clear_scalar. split; cbn [next_cell write]; intros j Hj; rewrite !cell_write; cbn [next_cell cell] in *; destruct (Nat.eqb_spec j (next_cell h)); try reflexivity; lia.
Qed.
Print Assumptions C54_elgamal_keypair_from_bytes.

(** ** C54: why the capacity is asked for beforehand *)
Lemma cell_copy n : forall h from to j, (from + n <= to)%nat ->
  cell (copy_cells h from to n) j =
  if ((to <=? j) && (j <? to + n))%nat%bool then cell h (from + (j - to))%nat else cell h j.
Proof.
  induction n as [|n IH]; intros h from to j H; cbn [copy_cells].
  - destruct (Nat.leb_spec to j), (Nat.ltb_spec j (to + 0)); cbn [andb]; try reflexivity; lia.
  - rewrite IH by lia. rewrite !cell_write.
    destruct (Nat.leb_spec (S to) j), (Nat.ltb_spec j (S to + n)), (Nat.leb_spec to j), (Nat.ltb_spec j (to + S n)); cbn [andb];
      try lia; try (destruct (Nat.eqb_spec (S from + (j - S to)) to); [lia|]);
      try (destruct (Nat.eqb_spec j to); [subst j; f_equal; lia|]); try reflexivity; try lia; f_equal; lia.
Qed.
Lemma next_copy n : forall h from to, next_cell (copy_cells h from to n) = next_cell h.
Proof. induction n as [|n IH]; intros h from to; cbn [copy_cells]; [reflexivity|]. rewrite IH. reflexivity. Qed.
(** Pushing keeps what a vector holds and adds the scalar.  A full vector is copied, and what it
    held is still in the old block after the vector is erased and dropped. *)
Theorem C54_growth : forall h v x v' h',
  (vec_base v + vec_capacity v <= next_cell h)%nat -> (vec_len v <= vec_capacity v)%nat ->
  vec_push h v x = (v', h') ->
  vec_contents h' v' = (vec_contents h v ++ [x])%list /\
  (vec_len v < vec_capacity v -> vec_base v' = vec_base v /\ next_cell h' = next_cell h)%nat /\
  (vec_len v = vec_capacity v ->
   vec_contents (drop_nonces h' v') v = vec_contents h v /\
   forall a, vec_contents (drop_secret_key h' {| hsk_x0 := (next_cell h + a)%nat; hsk_xn := v' |}) v = vec_contents h v)%nat.
Proof.
  intros h v x v' h' Hb Hl H. destruct (Nat.lt_ge_cases (vec_len v) (vec_capacity v)) as [Hc|Hc].
  - rewrite push_within in H by exact Hc. injection H as <- <-. split; [apply contents_app|]. split; [auto|]. intros He. lia.
  - unfold vec_push in H. apply Nat.ltb_ge in Hc as Hc'. rewrite Hc' in H. unfold allocate in H. injection H as <- <-.
    assert (Hold : forall j, (j < next_cell h)%nat ->
      cell (write (copy_cells {| cell := cell h; next_cell := next_cell h + Nat.max (2 * vec_capacity v) (S (vec_len v)) |}
                     (vec_base v) (next_cell h) (vec_len v)) (next_cell h + vec_len v) x) j = cell h j).
    { intros j Hj. rewrite cell_write, cell_copy by lia. cbn [cell].
      destruct (Nat.eqb_spec j (next_cell h + vec_len v)); [lia|].
      destruct (Nat.leb_spec (next_cell h) j); [lia|reflexivity]. }
    split; [|split; [intros; lia|]].
    + unfold vec_contents, vec_cells. cbn [vec_base vec_len]. rewrite seq_S, map_app. f_equal.
      * apply (nth_ext _ _ 0 0); rewrite !map_length, !seq_length; [reflexivity|]; intros k Hk;
          rewrite !(nth_indep _ 0 (cell h 0)) by (rewrite map_length, seq_length; exact Hk).
        transitivity (cell h (vec_base v + k)%nat).
        -- rewrite (nth_indep _ (cell h 0) (cell (write (copy_cells {| cell := cell h; next_cell := next_cell h + Nat.max (2 * vec_capacity v) (S (vec_len v)) |}
                     (vec_base v) (next_cell h) (vec_len v)) (next_cell h + vec_len v) x) 0%nat)) by (rewrite map_length, seq_length; exact Hk).
           rewrite map_nth. rewrite seq_nth by exact Hk. rewrite cell_write, cell_copy by lia. cbn [cell].
           destruct (Nat.eqb_spec (next_cell h + k) (next_cell h + vec_len v)); [lia|].
           destruct (Nat.leb_spec (next_cell h) (next_cell h + k)), (Nat.ltb_spec (next_cell h + k) (next_cell h + vec_len v)); try lia.
           cbn [andb]. f_equal. lia.
        -- rewrite map_nth, seq_nth by exact Hk. reflexivity.
      * cbn [map]. rewrite cell_write, Nat.eqb_refl. reflexivity.
    + intros _. split; [|intros a]; unfold vec_contents at 1; unfold vec_contents; apply map_ext_in; intros j Hj; apply in_seq in Hj.
      * rewrite C54_nonces_drop. destruct (existsb _ _) eqn:He; [apply in_cells in He; cbn [vec_base] in He; lia|]. apply Hold. lia.
      * rewrite C54_secret_key_drop. cbn [hsk_x0 hsk_xn]. destruct (Nat.eqb_spec j (next_cell h + a)); [lia|]. cbn [orb].
        destruct (existsb _ _) eqn:He; [apply in_cells in He; cbn [vec_base] in He; lia|]. apply Hold. lia.
Qed.
Print Assumptions C54_growth.

(** Keys of four scalars in a memory which holds other things; a rejected key
    after two scalars; an ElGamal pair whose public key is rejected. *)
Definition busy_heap : heap := {| cell := fun j => Z.of_nat (7 + j); next_cell := 3 |}.
Example C54_met_new :
  (let '(k, h, _) := h_secret_key_new busy_heap 3 (toy_stream 1) in
   (hsk_x0 k, vec_cells (hsk_xn k), next_cell h, forallb (fun x => negb (x =? 0)) (map (cell h) (seq 0 7)),
    map (cell (drop_secret_key h k)) (seq 0 8))) = (6%nat, [3; 4; 5]%nat, 7%nat, true, [7; 8; 9; 0; 0; 0; 0; 14]%Z).
Proof. vm_compute. reflexivity. Qed.
Example C54_met_growth :
  (let v := {| vec_base := 1; vec_len := 2; vec_capacity := 2 |} in
   let (v', h) := vec_push busy_heap v 5 in
   (vec_contents h v', vec_contents (drop_nonces h v') v', vec_contents (drop_nonces h v') v)) = ([8; 9; 5], [0; 0; 0], [8; 9]).
Proof. vm_compute. reflexivity. Qed.
Example C54_met_nonces :
  (let '(v, h, _) := h_nonces_new busy_heap (toy_stream 1) 3 in
   (vec_cells v, next_cell h, map (cell (drop_nonces h v)) (seq 0 8))) = ([3; 4; 5]%nat, 6%nat, [7; 8; 9; 0; 0; 0; 13; 14]%Z).
Proof. vm_compute. reflexivity. Qed.
Example C54_met_decoded :
  (let (res, h) := h_secret_key_from_bytes busy_heap (flat_map scalar_to_bytes [21; 22; 23]%Z) in
   (map (cell h) (seq 0 8), match res with Ok k => map (cell (drop_secret_key h k)) (seq 0 8) | _ => [] end)) =
  ([7; 8; 9; 21; 22; 23; 13; 14]%Z, [7; 8; 9; 0; 0; 0; 13; 14]%Z).
Proof. vm_compute. reflexivity. Qed.
Example C54_met_rejected :
  (let (res, h) := h_secret_key_from_bytes busy_heap (flat_map scalar_to_bytes [21; 22]%Z ++ repeat Byte.xff 32 ++ repeat Byte.x00 32) in
   (is_err res, map (cell h) (seq 0 8))) = (true, [7; 8; 9; 21; 22; 12; 13; 14]%Z).
Proof. vm_compute. reflexivity. Qed.
Example C54_met_elgamal :
  (let (res, h) := h_elgamal_keypair_from_bytes (E := toy) busy_heap (scalar_to_bytes 21 ++ repeat Byte.xff 32) in
   (is_err res, map (cell h) (seq 0 5))) = (true, [7; 8; 9; 0; 11]%Z).
Proof. vm_compute. reflexivity. Qed.
