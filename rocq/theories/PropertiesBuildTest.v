(** Properties of the crates under build-test (C73). *)
From Verif Require Import Algebra PropertiesFfi Toy CreatedFacts FfiFacts PropertiesUniform ModelFfi ModelBuildTest.
Local Open Scope Z_scope.

(** The block [malloc] answers with is new and as long as asked for. *)
Definition malloc_meets (size : nat) (answer : malloc_answer) : Prop :=
  match answer with None => True | Some held => List.length held = size end.

(** The buffer is null exactly if the size cannot be counted or there is no memory; otherwise it is live,
    holds the bytes and a terminating zero, and nothing else changed. *)
Theorem C73_buffer : forall E m answer b,
  malloc_meets (List.length b + 1) answer ->
  let (p, m') := @allocate_buffer_for_bytes E m answer b in
  (p = Null /\ m' = m /\ (2 ^ usize_bits E <= Z.of_nat (List.length b) + 1 \/ answer = None)) \/
  (p = Block (mem_next m) 0 /\ mem_block m' (mem_next m) = Live (b ++ [x00]) /\
   (forall id, id <> mem_next m -> mem_block m' id = mem_block m id) /\
   Z.of_nat (List.length b) + 1 < 2 ^ usize_bits E /\ answer <> None).
Proof.
  intros E m answer b Ha. unfold allocate_buffer_for_bytes.
  destruct (Z.leb_spec (2 ^ usize_bits E) (Z.of_nat (List.length b) + 1)) as [Hs|Hs]; [left; auto|].
  destruct answer as [held|]; [|left; auto]. cbn [malloc_meets] in Ha. right. split; [reflexivity|].
  cbn [mem_block]. unfold mem_set. split; [|split; [|split; [exact Hs|discriminate]]].
  - rewrite Nat.eqb_refl. f_equal. rewrite firstn_app, firstn_all, Nat.sub_diag, skipn_app.
    rewrite (skipn_all2 b) by lia. replace (List.length b + 1 - List.length b)%nat with 1%nat by lia.
    cbn [firstn]. rewrite app_nil_r. f_equal. f_equal. cbn [app]. apply skipn_all2. rewrite skipn_length. lia.
  - intros id Hid. destruct (Nat.eqb_spec id (mem_next m)); [contradiction|reflexivity].
Qed.
Print Assumptions C73_buffer.
Example C73_buffer_met : malloc_meets (3 + 1) (Some (zeros 4)) /\
  read (snd (@allocate_buffer_for_bytes toy (blocks [str "ab"]) (Some (repeat xff 4)) (str "123"))) (Block 1 0) 4 = Some (str "123" ++ [x00])%list.
Proof. split; reflexivity. Qed.

(** What is in the buffer can be read, unlike the buffers of the C API (C47); it is not freed. *)
Theorem C73_swift : forall E, ExtLaws E -> forall m answer (os : rng), malloc_meets 33 answer ->
  match answer with
  | None => @doThings E m answer os = SwiftTraps
  | Some _ => exists m', @doThings E m answer os = SwiftReturns (fst (@do_things_with_maths E os)) m' /\
      List.length (fst (@do_things_with_maths E os)) = 32%nat /\
      (forall id, id <> mem_next m -> mem_block m' id = mem_block m id)
  end.
Proof.
  intros E L m answer os Ha. unfold doThings, c_do_things_with_maths.
  assert (Hl : List.length (fst (@do_things_with_maths E os)) = 32%nat).
  { unfold do_things_with_maths. destruct (scalar_random os) as [a o1]. destruct (scalar_random o1) as [k o2]. apply (compress_length E L). }
  destruct (do_things_with_maths os) as [b o]. cbn [fst] in *.
  pose proof (C73_buffer E m answer b) as Hb. rewrite Hl in Hb. specialize (Hb Ha).
  destruct (allocate_buffer_for_bytes m answer b) as [p m'].
  assert (Hs : Z.of_nat 32 + 1 < 2 ^ usize_bits E) by (destruct (usize_bits_cases E L) as [-> | ->]; reflexivity).
  destruct Hb as [(-> & -> & [K|K])|(-> & Hm & Ho & _ & Hn)]; [lia|subst answer; reflexivity|].
  destruct answer as [held|]; [|contradiction]. exists m'. cbn [is_null read Nat.eqb]. rewrite Hm.
  rewrite slice_app_l by exact Hl. auto.
Qed.
Print Assumptions C73_swift.
(** The comment says that Swift can free the bytes; the code does not, so each call leaves one more live block. *)
Theorem C73_freed_refuted : forall E, ExtLaws E -> forall m held (os : rng), List.length held = 33%nat ->
  exists data m' c, @doThings E m (Some held) os = SwiftReturns data m' /\
    mem_block m' (mem_next m) = Live c /\ mem_next m' = S (mem_next m).
Proof.
  intros E L m held os Hh. destruct (C73_swift E L m (Some held) os Hh) as (m' & H & Hl & _).
  exists (fst (@do_things_with_maths E os)), m', (fst (@do_things_with_maths E os) ++ [x00])%list. split; [exact H|].
  revert H. unfold doThings, c_do_things_with_maths. destruct (do_things_with_maths os) as [b o]. cbn [fst] in *.
  pose proof (C73_buffer E m (Some held) b) as Hb. rewrite Hl in Hb. specialize (Hb Hh).
  unfold allocate_buffer_for_bytes in *. destruct (2 ^ usize_bits E <=? _); [intros K; discriminate|].
  destruct Hb as [(K & _)|(_ & Hm & _)]; [discriminate|]. cbn [is_null].
  destruct (read _ _ _); intros K; [|discriminate]. injection K as _ <-. split; [exact Hm|reflexivity].
Qed.
Print Assumptions C73_freed_refuted.

(** The bytes computed encode (1 + blinding * number) * k * g; the test fails exactly if this is the identity. *)
Theorem C73_maths : forall E, ExtLaws E -> forall (os : rng),
  let blinding := from_bytes_mod_order_wide (block 0%nat os) in
  let k := from_bytes_mod_order_wide (block 1%nat os) in
  fst (@do_things_with_maths E os) = compress (smul ((1 + blinding * 4155551234) * k) (@basepoint E)) /\
  (@test_do_things_with_maths E os = Ok tt <-> k <> 0 /\ (1 + blinding * 4155551234) mod ell <> 0) /\
  (@test_do_things_with_maths E os = Ok tt \/ @test_do_things_with_maths E os = Panic).
Proof.
  intros E L os blinding k.
  assert (H : fst (@do_things_with_maths E os) = compress (smul ((1 + blinding * 4155551234) * k) (@basepoint E))).
  { unfold do_things_with_maths. rewrite !scalar_random_block. cbn [fst].
    change (from_bytes_mod_order_wide (block 0 (fun j => os (64 + j)%nat))) with k. fold blinding. f_equal.
    clearbody blinding k. clear - L. pring L. }
  split; [exact H|]. unfold test_do_things_with_maths. rewrite H. split; [|destruct (bytes_eqb _ _); auto].
  destruct (bytes_eqb (compress (smul ((1 + blinding * 4155551234) * k) basepoint)) (compress pzero)) eqn:Hb.
  - split; [discriminate|]. intros [Hk He]. exfalso. apply bytes_eqb_true in Hb.
    assert (Hp : smul ((1 + blinding * 4155551234) * k) (@basepoint E) = pzero).
    { pose proof (decompress_compress E L (smul ((1 + blinding * 4155551234) * k) basepoint)) as K. rewrite Hb, (decompress_compress E L) in K. congruence. }
    rewrite <- (smul_0 (@basepoint E)), (smul_base_iff L) in Hp. apply eqm_mul_0 in Hp as [Hp|Hp].
    + apply He. unfold eqm in Hp. etransitivity; [exact Hp|]. apply Z.mod_0_l. pose proof ell_pos; lia.
    + apply Hk. apply eqm_canonical; [apply mod_range|split; [lia|apply ell_pos]|exact Hp].
  - split; [intros _|reflexivity]. apply bytes_eqb_false in Hb. split; intros K; apply Hb; f_equal.
    + rewrite K, Z.mul_0_r. apply smul_0.
    + rewrite <- (smul_0 (@basepoint E)). apply (smul_eqm L).
      assert (K' : 1 + blinding * 4155551234 == 0) by (rewrite <- eqm_mod, K; reflexivity).
      rewrite K'. apply eqm_of_eq. ring.
Qed.
Print Assumptions C73_maths.
Example C73_maths_met : @test_do_things_with_maths toy (toy_stream 5) = Ok tt /\ @test_do_things_with_maths toy (fun _ => x00) = Panic.
Proof. split; vm_compute; reflexivity. Qed.
