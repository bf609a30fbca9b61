(** Facts about the encodings: from_bytes and to_bytes of every type. *)
From Verif Require Export PhoneFacts SignalFacts.
From Coq Require Import ZifyNat.

(** Take a successful decoder apart. *)
Ltac inv_ok :=
  repeat match goal with
  | H : bind _ _ = Ok _ |- _ => apply bind_ok in H as (? & ? & ?)
  | H : or_panic _ = Ok _ |- _ => apply or_panic_ok in H
  | H : ok_or _ _ = Ok _ |- _ => apply ok_or_ok in H
  | H : map_err _ _ = Ok _ |- _ => apply map_err_ok in H
  | H : (if negb (?a =? ?b)%nat then _ else _) = Ok _ |- _ =>
      destruct (Nat.eqb_spec a b); cbn [negb] in H; [|discriminate]
  | H : (if (?a <? ?b)%nat then _ else _) = Ok _ |- _ =>
      destruct (Nat.ltb_spec a b); [discriminate|]
  | H : Ok _ = Ok _ |- _ => injection H as H; subst
  end.

Lemma app_split {A} (l : list A) n : (n <= List.length l)%nat ->
  exists x y, l = (x ++ y)%list /\ List.length x = n.
Proof.
  intros H. exists (firstn n l), (skipn n l). rewrite firstn_skipn, firstn_length. split; [reflexivity|lia].
Qed.

Lemma firstn_exact {A} n (x y : list A) : List.length x = n -> firstn n (x ++ y) = x.
Proof. intros <-. rewrite firstn_app, Nat.sub_diag, firstn_all. apply app_nil_r. Qed.
Lemma skipn_exact {A} n (x y : list A) : List.length x = n -> skipn n (x ++ y) = y.
Proof. intros <-. rewrite skipn_app, Nat.sub_diag, skipn_all. reflexivity. Qed.

(** ** Scalars *)
Lemma scalar_to_bytes_length s : List.length (scalar_to_bytes s) = 32%nat.
Proof. apply le_encode_length. Qed.
Lemma canonical_256 s : canonical s -> 0 <= s < 256 ^ Z.of_nat 32.
Proof. unfold canonical. pose proof ell_lt_256. change (Z.of_nat 32) with 32. lia. Qed.
Lemma from_canonical_to_bytes s : canonical s -> from_canonical_bytes (scalar_to_bytes s) = Some s.
Proof.
  intros H. unfold from_canonical_bytes, scalar_to_bytes. rewrite le_decode_encode_small by (apply canonical_256, H).
  destruct (Z.ltb_spec s ell); [reflexivity|unfold canonical in H; lia].
Qed.
Lemma from_canonical_inv b s : List.length b = 32%nat -> from_canonical_bytes b = Some s ->
  canonical s /\ b = scalar_to_bytes s.
Proof.
  intros Hl. unfold from_canonical_bytes. destruct (Z.ltb_spec (le_decode b) ell); [|discriminate].
  intros Hs. assert (s = le_decode b) by congruence. subst s. split.
  - unfold canonical. pose proof (le_decode_range b). lia.
  - unfold scalar_to_bytes. rewrite <- Hl. symmetry. apply le_encode_decode.
Qed.
Lemma scalar_serialize_canonical s : canonical s -> scalar_serialize_bytes s = scalar_to_bytes s.
Proof. intros H. unfold scalar_serialize_bytes. rewrite Z.mod_small by exact H. reflexivity. Qed.

(** A list of 32-byte items. *)
Lemma chunks_decode {B X} (f : bytes -> outcome X B) (g : B -> bytes) (P : B -> Prop) b ys :
  (forall c y, List.length c = 32%nat -> (f c = Ok y <-> P y /\ c = g y)) ->
  (forall y, List.length (g y) = 32%nat) ->
  Nat.modulo (List.length b) 32 = 0%nat ->
  (try_map f (chunks 32 b) = Ok ys <-> Forall P ys /\ b = flat_map g ys).
Proof.
  intros Hf Hg Hm. split.
  - intros H. apply try_map_ok in H.
    destruct (chunks_exact 32 b (List.length b / 32)) as (Hc & _ & Hall); [lia| |].
    { pose proof (Nat.div_mod (List.length b) 32 ltac:(lia)). lia. }
    rewrite <- Hc. clear Hc Hm. induction H as [|c y cs ys Hcy H IH]; [split; constructor|].
    inversion Hall as [|? ? Hlc Hall']; subst. apply Hf in Hcy as [HP ->]; [|exact Hlc].
    destruct (IH Hall') as [H1 H2]. split; [constructor; assumption|].
    cbn [List.concat flat_map]. f_equal. exact H2.
  - intros [HP ->]. rewrite chunks_flat_map by (try lia; intros; apply Hg).
    apply try_map_map. intros y Hy. rewrite Forall_forall in HP. apply Hf; [apply Hg|]. split; [apply HP, Hy|reflexivity].
Qed.
Lemma flat_map_length32 {B} (g : B -> bytes) l : (forall y, List.length (g y) = 32%nat) ->
  List.length (flat_map g l) = (32 * List.length l)%nat.
Proof.
  intros Hg. induction l as [|y l IH]; [reflexivity|]. cbn [flat_map List.length]. rewrite app_length, Hg, IH. lia.
Qed.
Lemma mod32 k : Nat.modulo (32 * k) 32 = 0%nat.
Proof. rewrite Nat.mul_comm. apply Nat.mod_mul. lia. Qed.

(** ** bincode *)
Lemma bincode_scalar_length s : List.length (bincode_scalar s) = 40%nat.
Proof. unfold bincode_scalar, scalar_serialize_bytes. rewrite app_length, le_encode_length, scalar_to_bytes_length. reflexivity. Qed.
Lemma bincode_read_scalar_iff b s rest :
  bincode_read_scalar b = Some (s, rest) <-> canonical s /\ b = (bincode_scalar s ++ rest)%list.
Proof.
  split.
  - unfold bincode_read_scalar. destruct (Nat.ltb_spec (List.length b) 8) as [|H8]; [discriminate|].
    destruct (app_split b 8 H8) as (x & y & -> & Hx). cbv zeta.
    rewrite firstn_exact, skipn_exact by exact Hx.
    destruct (Z.eqb_spec (le_decode x) 32) as [Hd|]; [|discriminate]. cbn [negb].
    destruct (Nat.ltb_spec (List.length y) 32) as [|H32]; [discriminate|].
    destruct (app_split y 32 H32) as (u & v & -> & Hu).
    rewrite firstn_exact, skipn_exact by exact Hu.
    destruct (from_canonical_bytes u) as [s'|] eqn:Hs; [|discriminate]. intros H.
    assert (s' = s /\ v = rest) as [-> ->] by (split; congruence).
    apply from_canonical_inv in Hs as [Hc ->]; [|exact Hu]. split; [exact Hc|].
    unfold bincode_scalar. rewrite scalar_serialize_canonical by exact Hc.
    rewrite <- app_assoc. f_equal. rewrite <- (le_encode_decode x), Hx, Hd. reflexivity.
  - intros [Hc ->]. unfold bincode_read_scalar, bincode_scalar. rewrite scalar_serialize_canonical by exact Hc.
    set (x := le_encode 8 32). assert (Hx : List.length x = 8%nat) by apply le_encode_length.
    assert (Hd : le_decode x = 32) by reflexivity. clearbody x.
    rewrite <- app_assoc. rewrite app_length, Hx.
    destruct (Nat.ltb_spec (8 + List.length (scalar_to_bytes s ++ rest)) 8); [lia|]. cbv zeta.
    rewrite firstn_exact, skipn_exact by exact Hx.
    rewrite Hd. cbn [Z.eqb Pos.eqb negb]. rewrite app_length, scalar_to_bytes_length.
    destruct (Nat.ltb_spec (32 + List.length rest) 32); [lia|].
    rewrite firstn_exact, skipn_exact by apply scalar_to_bytes_length.
    rewrite from_canonical_to_bytes by exact Hc. reflexivity.
Qed.
Lemma bincode_read_scalars_iff n b l rest :
  bincode_read_scalars n b = Some (l, rest) <->
  List.length l = n /\ Forall canonical l /\ b = (bincode_serialize l ++ rest)%list.
Proof.
  revert b l; induction n as [|n IH]; intros b l; cbn [bincode_read_scalars].
  - split.
    + intros H. assert (l = [] /\ rest = b) as [-> ->] by (split; congruence). repeat split; constructor.
    + intros (Hl & _ & ->). destruct l; [|discriminate]. reflexivity.
  - split.
    + destruct (bincode_read_scalar b) as [[s b']|] eqn:Hs; [|discriminate].
      destruct (bincode_read_scalars n b') as [[l' b'']|] eqn:Hl; [|discriminate].
      intros H. assert (l = s :: l' /\ b'' = rest) as [-> ->] by (split; congruence).
      apply bincode_read_scalar_iff in Hs as [Hc ->]. apply IH in Hl as (Hl & Hall & ->).
      split; [cbn; congruence|]. split; [constructor; assumption|].
      unfold bincode_serialize. cbn [flat_map]. rewrite <- app_assoc. reflexivity.
    + intros (Hl & Hall & ->). destruct l as [|s l]; [discriminate|]. inversion Hall as [|? ? Hc Hall']; subst.
      change (bincode_serialize (s :: l)) with (bincode_scalar s ++ bincode_serialize l)%list. rewrite <- app_assoc.
      rewrite (proj2 (bincode_read_scalar_iff _ s _) (conj Hc eq_refl)).
      rewrite (proj2 (IH _ l) (conj (eq_add_S _ _ Hl) (conj Hall' eq_refl))). reflexivity.
Qed.
Lemma bincode_deserialize_iff n b l :
  bincode_deserialize n b = Some l <->
  List.length l = n /\ Forall canonical l /\ exists rest, b = (bincode_serialize l ++ rest)%list.
Proof.
  unfold bincode_deserialize. split.
  - destruct (bincode_read_scalars n b) as [[l' rest]|] eqn:H; [|discriminate]. intros [= <-].
    apply bincode_read_scalars_iff in H as (H1 & H2 & H3). eauto.
  - intros (H1 & H2 & rest & H3). rewrite (proj2 (bincode_read_scalars_iff n b l rest) (conj H1 (conj H2 H3))). reflexivity.
Qed.
Lemma bincode_serialize_length l : List.length (bincode_serialize l) = (40 * List.length l)%nat.
Proof.
  unfold bincode_serialize. induction l as [|s l IH]; [reflexivity|]. cbn [flat_map List.length].
  rewrite app_length, bincode_scalar_length, IH. lia.
Qed.

(** The proofs that are sent: all their scalars are canonical. *)
Definition ir_wf (p : ir_Proof) : Prop := Forall canonical (ir_proof_scalars p).
Definition vc_wf (p : vc_Proof) : Prop := Forall canonical (vc_proof_scalars p).
Definition ce_wf (p : ce_Proof) : Prop := Forall canonical (ce_proof_scalars p).

Lemma ir_of_scalars l p : ir_proof_of_scalars l = Some p <-> l = ir_proof_scalars p.
Proof.
  split.
  - destruct l as [|? [|? [|? [|? [|? [|]]]]]]; cbn; try discriminate. intros [= <-]. reflexivity.
  - intros ->. destruct p as [c [? ? ? ?]]; reflexivity.
Qed.
Lemma vc_of_scalars l p : vc_proof_of_scalars l = Some p <-> l = vc_proof_scalars p.
Proof.
  split.
  - destruct l as [|? [|? [|? [|? [|]]]]]; cbn; try discriminate. intros [= <-]. reflexivity.
  - intros ->. destruct p as [c [? ? ?]]; reflexivity.
Qed.
Lemma ce_of_scalars l p : ce_proof_of_scalars l = Some p <-> l = ce_proof_scalars p.
Proof.
  split.
  - destruct l as [|? [|? [|? [|? [|]]]]]; cbn; try discriminate. intros [= <-]. reflexivity.
  - intros ->. destruct p as [c [? ? ?]]; reflexivity.
Qed.
Lemma ir_deserialize_iff b p :
  ir_deserialize b = Some p <-> ir_wf p /\ exists rest, b = (ir_serialize p ++ rest)%list.
Proof.
  unfold ir_deserialize. split.
  - destruct (bincode_deserialize 5 b) as [l|] eqn:H; [|discriminate]. intros Hp. apply ir_of_scalars in Hp. subst l.
    apply bincode_deserialize_iff in H as (_ & H1 & H2). split; assumption.
  - intros [H1 H2]. rewrite (proj2 (bincode_deserialize_iff 5 b (ir_proof_scalars p))); [apply ir_of_scalars; reflexivity|].
    split; [reflexivity|]. split; assumption.
Qed.
Lemma vc_deserialize_iff b p :
  vc_deserialize b = Some p <-> vc_wf p /\ exists rest, b = (vc_serialize p ++ rest)%list.
Proof.
  unfold vc_deserialize. split.
  - destruct (bincode_deserialize 4 b) as [l|] eqn:H; [|discriminate]. intros Hp. apply vc_of_scalars in Hp. subst l.
    apply bincode_deserialize_iff in H as (_ & H1 & H2). split; assumption.
  - intros [H1 H2]. rewrite (proj2 (bincode_deserialize_iff 4 b (vc_proof_scalars p))); [apply vc_of_scalars; reflexivity|].
    split; [reflexivity|]. split; assumption.
Qed.
Lemma ce_deserialize_iff b p :
  ce_deserialize b = Some p <-> ce_wf p /\ exists rest, b = (ce_serialize p ++ rest)%list.
Proof.
  unfold ce_deserialize. split.
  - destruct (bincode_deserialize 4 b) as [l|] eqn:H; [|discriminate]. intros Hp. apply ce_of_scalars in Hp. subst l.
    apply bincode_deserialize_iff in H as (_ & H1 & H2). split; assumption.
  - intros [H1 H2]. rewrite (proj2 (bincode_deserialize_iff 4 b (ce_proof_scalars p))); [apply ce_of_scalars; reflexivity|].
    split; [reflexivity|]. split; assumption.
Qed.
Lemma ir_serialize_length p : List.length (ir_serialize p) = 200%nat.
Proof. unfold ir_serialize. rewrite bincode_serialize_length. reflexivity. Qed.
Lemma vc_serialize_length p : List.length (vc_serialize p) = 160%nat.
Proof. unfold vc_serialize. rewrite bincode_serialize_length. reflexivity. Qed.
Lemma ce_serialize_length p : List.length (ce_serialize p) = 160%nat.
Proof. unfold ce_serialize. rewrite bincode_serialize_length. reflexivity. Qed.

(** ** The types of aeonflux *)
Section codec.
  Context {E : Ext} (L : ExtLaws E).

  Lemma decompress_iff b (P : point E) : decompress b = Some P <-> b = compress P.
  Proof.
    split; [intros H; symmetry; exact (compress_decompress E L _ _ H)|intros ->; apply (decompress_compress E L)].
  Qed.
  Lemma compress_len (P : point E) : List.length (compress P) = 32%nat.
  Proof. apply (compress_length E L). Qed.

  (** [SystemParameters] *)
  Lemma system_parameters_iff b p :
    system_parameters_from_bytes b = Ok p <-> b = @system_parameters_to_bytes E p.
  Proof.
    unfold system_parameters_from_bytes, system_parameters_to_bytes. split.
    - intros H. inv_ok. repeat match goal with H : decompress _ = Some _ |- _ => apply decompress_iff in H; subst end.
      cbn. symmetry. apply slice_whole. rewrite e. eapply slice_split; eassumption.
    - intros ->. rewrite app_length, !compress_len. cbn [Nat.add Nat.eqb negb].
      rewrite slice_app_l by apply compress_len. cbn [or_panic bind].
      rewrite (slice_skip 32) by (try apply compress_len; lia).
      rewrite slice_all by apply compress_len. cbn [or_panic bind].
      rewrite !(decompress_compress E L). destruct p; reflexivity.
  Qed.
  Lemma system_parameters_no_panic b : @system_parameters_from_bytes E b <> Panic.
  Proof.
    unfold system_parameters_from_bytes. destruct (Nat.eqb_spec (List.length b) 64) as [e|]; [|discriminate].
    cbn [negb]. rewrite !slice_some by lia. cbn [or_panic bind].
    destruct (decompress _); [|discriminate]. cbn [ok_or bind]. destruct (decompress _); discriminate.
  Qed.
  Lemma system_parameters_length p : List.length (@system_parameters_to_bytes E p) = 64%nat.
  Proof. unfold system_parameters_to_bytes. rewrite app_length, !compress_len. reflexivity. Qed.

  (** [Tag] *)
  Lemma tag_iff b t : tag_from_bytes b = Ok t <-> b = @tag_to_bytes E t.
  Proof.
    unfold tag_from_bytes, tag_to_bytes. split.
    - intros H. inv_ok. repeat match goal with H : decompress _ = Some _ |- _ => apply decompress_iff in H; subst end.
      cbn. symmetry. apply slice_whole. rewrite e. eapply slice_split; eassumption.
    - intros ->. rewrite app_length, !compress_len. cbn [Nat.add Nat.eqb negb].
      rewrite slice_app_l by apply compress_len. cbn [or_panic bind].
      rewrite (slice_skip 32) by (try apply compress_len; lia).
      rewrite slice_all by apply compress_len. cbn [or_panic bind].
      rewrite !(decompress_compress E L). destruct t; reflexivity.
  Qed.
  Lemma tag_no_panic b : @tag_from_bytes E b <> Panic.
  Proof.
    unfold tag_from_bytes. destruct (Nat.eqb_spec (List.length b) 64) as [e|]; [|discriminate].
    cbn [negb]. rewrite !slice_some by lia. cbn [or_panic bind].
    destruct (decompress _); [|discriminate]. cbn [ok_or bind]. destruct (decompress _); discriminate.
  Qed.
  Lemma tag_length t : List.length (@tag_to_bytes E t) = 64%nat.
  Proof. unfold tag_to_bytes. rewrite app_length, !compress_len. reflexivity. Qed.

  (** [PublicKey] *)
  Lemma public_key_length k : List.length (@public_key_to_bytes E k) = (32 * List.length (pk_Xn k))%nat.
  Proof. apply flat_map_length32, compress_len. Qed.
  Lemma public_key_iff b k : public_key_from_bytes b = Ok k <-> b = @public_key_to_bytes E k.
  Proof.
    unfold public_key_from_bytes.
    assert (Hf : forall (c : bytes) (P : point E), List.length c = 32%nat ->
      (@ok_or MacError _ MacPointDecompressionError (decompress c) = Ok P <-> True /\ c = compress P)).
    { intros c P _. rewrite ok_or_ok, decompress_iff. tauto. }
    split.
    - intros H. inv_ok.
      match goal with H : try_map _ _ = Ok _ |- _ => apply (chunks_decode _ compress (fun _ => True)) in H as [_ ->] end;
        try assumption; [reflexivity|apply compress_len].
    - intros ->. rewrite public_key_length. rewrite mod32. cbn [Nat.eqb negb].
      rewrite (proj2 (chunks_decode _ compress (fun _ => True) (public_key_to_bytes k) (pk_Xn k) Hf compress_len
        ltac:(rewrite public_key_length; apply mod32))); [destruct k; reflexivity|].
      split; [apply Forall_forall; auto|reflexivity].
  Qed.
  Lemma public_key_no_panic b : @public_key_from_bytes E b <> Panic.
  Proof.
    unfold public_key_from_bytes. destruct (Nat.modulo (List.length b) 32 =? 0)%nat; [|discriminate]. cbn [negb].
    intros H. apply bind_panic in H as [H|(? & _ & H)]; [|discriminate].
    revert H. apply try_map_panic. intros c _. apply ok_or_no_panic.
  Qed.

  (** [SecretKey] *)
  Definition secret_key_wf (k : SecretKey) : Prop := canonical (sk_x0 k) /\ Forall canonical (sk_xn k).
  Lemma secret_key_length k : List.length (secret_key_to_bytes k) = (32 * (1 + List.length (sk_xn k)))%nat.
  Proof.
    unfold secret_key_to_bytes. rewrite app_length, scalar_to_bytes_length, (flat_map_length32 scalar_to_bytes).
    - lia.
    - apply scalar_to_bytes_length.
  Qed.
  Lemma secret_key_iff b k : secret_key_from_bytes b = Ok k <-> secret_key_wf k /\ b = secret_key_to_bytes k.
  Proof.
    unfold secret_key_from_bytes.
    assert (Hf : forall (c : bytes) s, List.length c = 32%nat ->
      (@ok_or MacError _ MacScalarFormatError (from_canonical_bytes c) = Ok s <-> canonical s /\ c = scalar_to_bytes s)).
    { intros c s Hl. rewrite ok_or_ok. split; [apply from_canonical_inv; exact Hl|].
      intros [Hs ->]. apply from_canonical_to_bytes, Hs. }
    split.
    - intros H. inv_ok. destruct (Nat.eqb_spec (List.length b) 0); [discriminate|]. inv_ok.
      match goal with H : try_map _ _ = Ok _ |- _ => apply (chunks_decode _ scalar_to_bytes canonical) in H as [Hc Hb] end;
        try assumption; try apply scalar_to_bytes_length.
      destruct x as [|x0 xn]; [discriminate|]. inv_ok.
      inversion Hc; subst. split; [split; assumption|reflexivity].
    - intros [[H0 Hn] ->]. rewrite secret_key_length, mod32. cbn [Nat.eqb negb].
      destruct (Nat.eqb_spec (32 * (1 + List.length (sk_xn k))) 0); [lia|].
      rewrite (proj2 (chunks_decode _ scalar_to_bytes canonical (secret_key_to_bytes k) (sk_x0 k :: sk_xn k) Hf
        scalar_to_bytes_length ltac:(rewrite secret_key_length; apply mod32))); [destruct k; reflexivity|].
      split; [constructor; assumption|reflexivity].
  Qed.
  Lemma secret_key_panic b : secret_key_from_bytes b = Panic <-> b = [].
  Proof.
    unfold secret_key_from_bytes. split; [|intros ->; reflexivity].
    destruct (Nat.modulo (List.length b) 32 =? 0)%nat; [|discriminate]. cbn [negb].
    destruct (Nat.eqb_spec (List.length b) 0) as [H0|]; [destruct b; [reflexivity|discriminate]|].
    intros H. exfalso. apply bind_panic in H as [H|([|] & _ & H)]; [|discriminate..].
    revert H. apply try_map_panic. intros c _. apply ok_or_no_panic.
  Qed.

  (** [Keypair] *)
  Definition keypair_wf (k : Keypair E) : Prop :=
    secret_key_wf (kp_secret k) /\ List.length (pk_Xn (kp_public k)) = List.length (sk_xn (kp_secret k)).
  Lemma keypair_length k :
    List.length (@keypair_to_bytes E k) =
    (32 * List.length (pk_Xn (kp_public k)) + 32 * (1 + List.length (sk_xn (kp_secret k))))%nat.
  Proof. unfold keypair_to_bytes. rewrite app_length, public_key_length, secret_key_length. reflexivity. Qed.
  (** What the length computations come to. *)
  Lemma keypair_short b : (List.length b < 32)%nat ->
    @keypair_from_bytes E b = if debug_build E then Panic else Err KeypairDeserialisation.
  Proof.
    intros Hl. unfold keypair_from_bytes. cbv zeta.
    replace (Z.of_nat (List.length b) <? 32) with true by (symmetry; apply Z.ltb_lt; lia).
    destruct (debug_build E); [reflexivity|]. cbn [andb].
    assert (Hm : (Z.of_nat (List.length b) - 32 + 2 ^ usize_bits E) / 2 mod 32 <> 0).
    { set (n := Z.of_nat (List.length b)). assert (Hn : 0 <= n < 32) by lia. clearbody n.
      assert (He : exists k, 2 ^ usize_bits E = 64 * k).
      { destruct (usize_bits_cases E L) as [-> | ->]; [exists (2 ^ 26)|exists (2 ^ 58)]; reflexivity. }
      destruct He as [k ->]. 
      replace (n - 32 + 64 * k) with (n + (32 * k - 16) * 2) by lia. rewrite Z.div_add by lia.
      replace (n / 2 + (32 * k - 16)) with (n / 2 + 16 + (k - 1) * 32) by lia. rewrite Z.mod_add by lia.
      assert (0 <= n / 2 < 16) by (split; [apply Z.div_pos; lia|apply Z.div_lt_upper_bound; lia]).
      rewrite Z.mod_small by lia. lia. }
    apply Z.eqb_neq in Hm. rewrite Hm. reflexivity.
  Qed.
  Lemma keypair_long b : (32 <= List.length b)%nat ->
    @keypair_from_bytes E b =
    if (Nat.modulo (List.length b) 64 =? 32)%nat then
      do public <- public_key_from_bytes (firstn ((List.length b - 32) / 2) b);
      do secret <- secret_key_from_bytes (skipn ((List.length b - 32) / 2) b);
      Ok {| kp_public := public; kp_secret := secret |}
    else Err KeypairDeserialisation.
  Proof.
    intros Hl. unfold keypair_from_bytes. cbv zeta.
    set (n := List.length b) in *.
    replace (Z.of_nat n <? 32) with false by (symmetry; apply Z.ltb_ge; lia).
    rewrite andb_false_r.
    assert (Hk : (Z.of_nat n - 32) / 2 = Z.of_nat ((n - 32) / 2)).
    { rewrite Nat2Z.inj_div. f_equal. lia. }
    rewrite Hk. set (k := ((n - 32) / 2)%nat).
    assert (Hkn : (2 * k <= n - 32 <= 2 * k + 1)%nat).
    { unfold k. pose proof (Nat.div_mod (n - 32) 2 ltac:(lia)). pose proof (Nat.mod_upper_bound (n - 32) 2 ltac:(lia)). lia. }
    clearbody k. replace (Z.of_nat n <? Z.of_nat k) with false by (symmetry; apply Z.ltb_ge; lia).
    replace (Z.of_nat k <=? Z.of_nat n) with true by (symmetry; apply Z.leb_le; lia).
    rewrite Nat2Z.id. rewrite slice_some, slice_from_some by (fold n; lia). rewrite Nat.sub_0_r. cbn [skipn or_panic bind].
    assert (Hc : negb (Z.of_nat k mod 32 =? 0) || negb ((Z.of_nat n - Z.of_nat k) mod 32 =? 0) =
                 negb (Nat.modulo n 64 =? 32)%nat).
    { change 32 with (Z.of_nat 32). rewrite <- Nat2Z.inj_sub by lia. rewrite <- !Nat2Z.inj_mod.
      destruct (Nat.eqb_spec (Nat.modulo n 64) 32) as [Hm|Hm]; cbn [negb].
      - assert (Hn : exists a, n = (64 * a + 32)%nat).
        { exists (n / 64)%nat. pose proof (Nat.div_mod n 64 ltac:(lia)). lia. }
        destruct Hn as [a Hn]. assert (Ha : k = (32 * a)%nat) by lia. rewrite Ha, mod32.
        replace (n - 32 * a)%nat with (32 * (a + 1))%nat by lia. rewrite mod32. reflexivity.
      - destruct (Z.eqb_spec (Z.of_nat (Nat.modulo k 32)) 0) as [H1|]; [|reflexivity].
        destruct (Z.eqb_spec (Z.of_nat (Nat.modulo (n - k) 32)) 0) as [H2|]; [|reflexivity].
        exfalso. apply Hm.
        pose proof (Nat.div_mod k 32 ltac:(lia)) as D1. pose proof (Nat.div_mod (n - k) 32 ltac:(lia)) as D2.
        set (a := (k / 32)%nat) in *. set (c := ((n - k) / 32)%nat) in *.
        assert (Hn : n = (32 + a * 64)%nat) by lia. rewrite Hn, Nat.mod_add by lia. reflexivity. }
    rewrite Hc. destruct (Nat.eqb_spec (Nat.modulo n 64) 32); reflexivity.
  Qed.
  Lemma keypair_iff b k : keypair_from_bytes b = Ok k <-> keypair_wf k /\ b = @keypair_to_bytes E k.
  Proof.
    destruct (Nat.lt_ge_cases (List.length b) 32) as [Hs|Hs].
    - rewrite keypair_short by exact Hs. split; [destruct (debug_build E); discriminate|].
      intros [_ ->]. rewrite keypair_length in Hs. lia.
    - rewrite keypair_long by exact Hs. split.
      + destruct (Nat.eqb_spec (Nat.modulo (List.length b) 64) 32) as [Hm|]; [|discriminate].
        intros H. inv_ok.
        repeat match goal with
        | H : public_key_from_bytes _ = Ok _ |- _ => apply public_key_iff in H
        | H : secret_key_from_bytes _ = Ok _ |- _ => apply secret_key_iff in H as [Hwf H]
        end.
        rename H0 into H1. rename H into H0.
        assert (Hb : b = @keypair_to_bytes E {| kp_public := x; kp_secret := x0 |}).
        { unfold keypair_to_bytes. cbn [kp_public kp_secret]. rewrite <- H0, <- H1. symmetry. apply firstn_skipn. }
        split; [|exact Hb]. split; [assumption|]. cbn.
        apply (f_equal (@List.length byte)) in H0. rewrite firstn_length, public_key_length in H0.
        apply (f_equal (@List.length byte)) in H1. rewrite skipn_length, secret_key_length in H1.
        assert (Hn : exists a, List.length b = (64 * a + 32)%nat).
        { exists (List.length b / 64)%nat. pose proof (Nat.div_mod (List.length b) 64 ltac:(lia)). lia. }
        destruct Hn as [a Hn]. rewrite Hn in *. replace (64 * a + 32 - 32)%nat with (32 * a * 2)%nat in * by lia.
        rewrite Nat.div_mul in * by lia. lia.
      + intros [[Hw Hl] Hb].
        assert (Hn : List.length b = (32 + List.length (pk_Xn (kp_public k)) * 64)%nat).
        { rewrite Hb, keypair_length. lia. }
        rewrite Hn, Nat.mod_add by lia. cbn [Nat.modulo Nat.divmod snd Nat.sub Nat.eqb].
        replace ((32 + List.length (pk_Xn (kp_public k)) * 64 - 32) / 2)%nat
          with (32 * List.length (pk_Xn (kp_public k)))%nat.
        * rewrite Hb. unfold keypair_to_bytes. rewrite firstn_exact, skipn_exact by apply public_key_length.
          rewrite (proj2 (public_key_iff _ _) eq_refl). cbn [bind].
          rewrite (proj2 (secret_key_iff _ _) (conj Hw eq_refl)). destruct k; reflexivity.
        * replace (32 + List.length (pk_Xn (kp_public k)) * 64 - 32)%nat
            with (32 * List.length (pk_Xn (kp_public k)) * 2)%nat by lia. rewrite Nat.div_mul by lia. reflexivity.
  Qed.
  Lemma keypair_panic b : @keypair_from_bytes E b = Panic <-> debug_build E = true /\ (List.length b < 32)%nat.
  Proof.
    destruct (Nat.lt_ge_cases (List.length b) 32) as [Hs|Hs].
    - rewrite keypair_short by exact Hs. destruct (debug_build E); split; try discriminate; auto. intros [? _]; discriminate.
    - rewrite keypair_long by exact Hs. split; [|intros [_ H]; lia].
      destruct (Nat.eqb_spec (Nat.modulo (List.length b) 64) 32) as [Hm|]; [|discriminate].
      intros H. exfalso. apply bind_panic in H as [H|(? & _ & H)]; [exact (public_key_no_panic _ H)|].
      apply bind_panic in H as [H|(? & _ & H)]; [|discriminate].
      apply secret_key_panic in H. apply (f_equal (@List.length byte)) in H. rewrite skipn_length in H. change (@List.length byte []) with 0%nat in H.
      pose proof (Nat.div_mod (List.length b - 32) 2 ltac:(lia)). lia.
  Qed.

  (** [Commitment] *)
  Lemma commitment_iff b c : commitment_from_bytes b = Ok c <-> exists rest, b = (@compress E c ++ rest)%list.
  Proof.
    unfold commitment_from_bytes. split.
    - intros H. inv_ok. apply decompress_iff in H0. subst.
      pose proof (slice_length _ _ _ _ H) as [_ Hl]. destruct (app_split b 32 ltac:(lia)) as (x & y & -> & Hx).
      rewrite slice_app_l in H by exact Hx. exists y. congruence.
    - intros [rest ->]. rewrite slice_app_l by apply compress_len. cbn [or_panic bind].
      rewrite (decompress_compress E L). reflexivity.
  Qed.
  Lemma commitment_exact_iff b c : List.length b = 32%nat ->
    (commitment_from_bytes b = Ok c <-> b = @compress E c).
  Proof.
    intros Hl. rewrite commitment_iff. split; [|intros ->; exists []; symmetry; apply app_nil_r].
    intros [rest ->]. rewrite app_length, compress_len in Hl. destruct rest; [apply app_nil_r|cbn in Hl; lia].
  Qed.
  Lemma commitment_panic b : @commitment_from_bytes E b = Panic <-> (List.length b < 32)%nat.
  Proof.
    unfold commitment_from_bytes. rewrite <- (slice_none 0 32 b) by lia. destruct (slice 0 32 b) as [x|]; cbn [or_panic bind].
    - split; [intros H; elim (ok_or_no_panic _ _ H)|discriminate].
    - split; reflexivity.
  Qed.

  (** ElGamal keys *)
  Lemma elgamal_public_iff b k : elgamal_public_from_bytes b = Ok k <-> b = @compress E k.
  Proof.
    unfold elgamal_public_from_bytes. split.
    - intros H. inv_ok. apply decompress_iff. exact H.
    - intros ->. rewrite compress_len. cbn [Nat.eqb negb]. rewrite (decompress_compress E L). reflexivity.
  Qed.
  Lemma elgamal_public_panic b : @elgamal_public_from_bytes E b = Panic <-> List.length b <> 32%nat.
  Proof.
    unfold elgamal_public_from_bytes. destruct (Nat.eqb_spec (List.length b) 32); cbn [negb].
    - split; [intros H; elim (ok_or_no_panic _ _ H)|contradiction].
    - split; auto.
  Qed.
  Lemma elgamal_secret_iff b s : elgamal_secret_from_bytes b = Ok s <-> canonical s /\ b = scalar_to_bytes s.
  Proof.
    unfold elgamal_secret_from_bytes. split.
    - intros H. inv_ok. apply from_canonical_inv; assumption.
    - intros [Hs ->]. rewrite scalar_to_bytes_length. cbn [Nat.eqb negb]. rewrite from_canonical_to_bytes by exact Hs. reflexivity.
  Qed.
  Lemma elgamal_secret_panic b : elgamal_secret_from_bytes b = Panic <-> List.length b <> 32%nat.
  Proof.
    unfold elgamal_secret_from_bytes. destruct (Nat.eqb_spec (List.length b) 32); cbn [negb].
    - split; [intros H; elim (ok_or_no_panic _ _ H)|contradiction].
    - split; auto.
  Qed.
  Lemma elgamal_keypair_length k : List.length (@elgamal_keypair_to_bytes E k) = 64%nat.
  Proof.
    unfold elgamal_keypair_to_bytes, elgamal_secret_to_bytes, elgamal_public_to_bytes.
    rewrite app_length, scalar_to_bytes_length, compress_len. reflexivity.
  Qed.
  Lemma elgamal_keypair_iff b k : elgamal_keypair_from_bytes b = Ok k <->
    canonical (eg_secret k) /\ b = @elgamal_keypair_to_bytes E k.
  Proof.
    unfold elgamal_keypair_from_bytes. split.
    - intros H. inv_ok.
      repeat match goal with
      | H : elgamal_secret_from_bytes _ = Ok _ |- _ => apply elgamal_secret_iff in H as [? H]
      | H : elgamal_public_from_bytes _ = Ok _ |- _ => apply elgamal_public_iff in H
      end. subst. cbn [eg_secret]. split; [assumption|]. symmetry.
      unfold elgamal_keypair_to_bytes, elgamal_secret_to_bytes, elgamal_public_to_bytes. cbn [eg_secret eg_public].
      apply slice_whole. rewrite e.
      eapply slice_split; eassumption.
    - intros [Hs ->]. rewrite elgamal_keypair_length. cbn [Nat.eqb negb].
      unfold elgamal_keypair_to_bytes, elgamal_secret_to_bytes, elgamal_public_to_bytes.
      rewrite slice_app_l by apply scalar_to_bytes_length. cbn [or_panic bind].
      rewrite (proj2 (elgamal_secret_iff _ _) (conj Hs eq_refl)). cbn [bind].
      rewrite (slice_skip 32) by (try apply scalar_to_bytes_length; lia).
      rewrite slice_all by apply compress_len. cbn [or_panic bind].
      rewrite (proj2 (elgamal_public_iff _ _) eq_refl). destruct k; reflexivity.
  Qed.
  Lemma elgamal_keypair_panic b : @elgamal_keypair_from_bytes E b = Panic <-> List.length b <> 64%nat.
  Proof.
    unfold elgamal_keypair_from_bytes. destruct (Nat.eqb_spec (List.length b) 64); cbn [negb]; [|split; auto].
    split; [|contradiction]. rewrite !slice_some by lia. cbn [or_panic bind]. intros H. exfalso.
    apply bind_panic in H as [H|(? & _ & H)].
    - apply elgamal_secret_panic in H. apply H. rewrite firstn_length, skipn_length. lia.
    - apply bind_panic in H as [H|(? & _ & H)]; [|discriminate].
      apply elgamal_public_panic in H. apply H. rewrite firstn_length, skipn_length. lia.
  Qed.
End codec.
