(** Properties of the algebraic MAC of aeonflux/src/amacs.rs (C03 - C08). *)
From Verif Require Import MacFacts IssueFacts Toy.
Local Open Scope string_scope.

(** ** C03: a MAC made by a key verifies under that key *)
Theorem C03_mac_succeeds : forall E, ExtLaws E -> forall k ms r,
  (exists t r', mac (E := E) k ms r = Ok (t, r')) <-> List.length ms = List.length (sk_xn k).
Proof.
  intros E L k ms r. split.
  - intros (t & r' & H). apply (mac_spec L) in H as (_ & _ & H & _). exact H.
  - intros H. destruct (mac_ok (E := E) k ms r H) as [t Ht]. eauto.
Qed.
Print Assumptions C03_mac_succeeds.
Theorem C03_mac_fails : forall E, ExtLaws E -> forall k ms r,
  List.length ms <> List.length (sk_xn k) ->
  mac (E := E) k ms r = Err (MessageLengthError (List.length (sk_xn k))).
Proof. intros E L. exact (mac_err (E := E)). Qed.
Print Assumptions C03_mac_fails.
Theorem C03_mac_verifies : forall E, ExtLaws E -> forall k ms r t r',
  mac (E := E) k ms r = Ok (t, r') ->
  mac_equation k ms t /\
  tag_nonce t = smul (fst (scalar_random r)) basepoint /\
  (tag_nonce t <> basepoint -> mac_verify k t ms = Ok tt) /\
  (tag_nonce t = basepoint -> mac_verify k t ms = Err AuthenticationError) /\
  (tag_nonce t = basepoint <-> fst (scalar_random r) mod ell = 1).
Proof.
  intros E L k ms r t r' H. pose proof (mac_spec L _ _ _ _ _ H) as (H1 & _ & H2).
  split; [exact H2|]. split; [exact H1|]. split; [|split].
  - intros Hb. apply (mac_verify_iff L). split; [exact Hb|apply H2].
  - intros Hb. apply (mac_verify_err L). left; exact Hb.
  - rewrite H1, (base_iff_1 L). unfold Algebra.eqm. rewrite (Z.mod_small 1) by (pose proof ell_gt_1; lia). reflexivity.
Qed.
Print Assumptions C03_mac_verifies.

Definition sample_key : SecretKey := {| sk_x0 := 5; sk_xn := [7; 11] |}.
Definition sample_message : Message := [100; 200].
Example C03_met : exists t r', mac (E := toy) sample_key sample_message (toy_stream 3) = Ok (t, r') /\
  tag_nonce t <> basepoint /\ mac_verify sample_key t sample_message = Ok tt.
Proof.
  eexists _, _. split; [reflexivity|]. split; [|vm_compute; reflexivity].
  intros H. apply (f_equal tv) in H. vm_compute in H. discriminate.
Qed.
Example C03_met_fail : mac (E := toy) sample_key [1] (toy_stream 3) = Err (MessageLengthError 2).
Proof. reflexivity. Qed.
(** A random source for which the nonce is the basepoint: the MAC is made and refused. *)
Example C03_met_basepoint : exists t r',
  mac (E := toy) sample_key sample_message (fun i => if Nat.eqb i 0 then x01 else x00) = Ok (t, r') /\
  tag_nonce t = basepoint /\ mac_verify sample_key t sample_message = Err AuthenticationError.
Proof.
  eexists _, _. split; [reflexivity|]. split; [|vm_compute; reflexivity].
  apply toy_eq. vm_compute. reflexivity.
Qed.

(** ** C04: MAC verification pins down the message *)
Theorem C04_verify_exact : forall E, ExtLaws E -> forall k (t : Tag E) ms,
  List.length ms = List.length (sk_xn k) ->
  (mac_verify k t ms = Ok tt <-> tag_nonce t <> basepoint /\ mac_equation k ms t) /\
  (mac_verify k t ms = Ok tt \/ mac_verify k t ms = Err AuthenticationError).
Proof.
  intros E L k t ms Hl. split; [|apply mac_verify_cases].
  rewrite (mac_verify_iff L). unfold mac_equation. tauto.
Qed.
Print Assumptions C04_verify_exact.
Theorem C04_verify_pins_sum : forall E, ExtLaws E -> forall k (t : Tag E) ms ms',
  tag_nonce t <> pzero -> mac_verify k t ms = Ok tt ->
  (mac_verify k t ms' = Ok tt <-> dot (sk_xn k) ms == dot (sk_xn k) ms').
Proof. intros E L. exact (mac_verify_unique L). Qed.
Print Assumptions C04_verify_pins_sum.
Theorem C04_verify_pins_attribute : forall E, ExtLaws E -> forall k (t : Tag E) x m m',
  tag_nonce t <> pzero -> sk_xn k = [x] -> x mod ell <> 0 ->
  mac_verify k t [m] = Ok tt -> mac_verify k t [m'] = Ok tt -> m mod ell = m' mod ell.
Proof.
  intros E L k t x m m' Hn Hx Hx0. apply (mac_verify_unique1 L k t x m m' Hn Hx).
  intros H. apply Hx0. unfold Algebra.eqm in H. rewrite H. apply Z.mod_0_l. pose proof ell_pos; lia.
Qed.
Print Assumptions C04_verify_pins_attribute.
Definition sample_tag1 : Tag toy := {| tag_nonce := pt 3; tag_mac := pt ((5 + 7 * 100) * 3) |}.
Definition sample_key1 : SecretKey := {| sk_x0 := 5; sk_xn := [7] |}.
Example C04_met : tag_nonce sample_tag1 <> pzero /\ 7 mod ell <> 0 /\
  mac_verify sample_key1 sample_tag1 [100] = Ok tt /\
  mac_verify sample_key1 sample_tag1 [100 + ell] = Ok tt /\
  mac_verify sample_key1 sample_tag1 [101] = Err AuthenticationError.
Proof.
  split; [intros H; apply (f_equal tv) in H; vm_compute in H; discriminate|].
  split; [vm_compute; discriminate|]. vm_compute. auto.
Qed.

(** ** C05: the identity tag is accepted for every key and message *)
Theorem C05_identity_tag_accepted_refuted : forall E, ExtLaws E -> forall k ms,
  mac_verify (E := E) k {| tag_nonce := pzero; tag_mac := pzero |} ms = Ok tt.
Proof.
  intros E L k ms. apply (mac_verify_iff L). cbn [tag_nonce tag_mac]. split.
  - intros H. exact (basepoint_nonzero E L (eq_sym H)).
  - symmetry. apply (smul_pzero L).
Qed.
Print Assumptions C05_identity_tag_accepted_refuted.
Example C05_met : mac_verify (E := toy) sample_key {| tag_nonce := pzero; tag_mac := pzero |} [1; 2] = Ok tt /\
  mac_verify (E := toy) sample_key {| tag_nonce := pt 2; tag_mac := pt 2 |} [1; 2] = Err AuthenticationError.
Proof. vm_compute. auto. Qed.

(** ** C06: the message length is not checked *)
Theorem C06_longer_message_accepted_refuted : forall E, ExtLaws E -> forall k (t : Tag E) ms extra,
  List.length ms = List.length (sk_xn k) ->
  mac_verify k t (ms ++ extra)%list = mac_verify k t ms.
Proof.
  intros E L k t ms extra Hl.
  assert (H : mac_verify k t (ms ++ extra)%list = Ok tt <-> mac_verify k t ms = Ok tt).
  { rewrite !(mac_verify_iff L).
    replace (dot (sk_xn k) (ms ++ extra)%list) with (dot (sk_xn k) ms); [reflexivity|].
    symmetry. apply dot_app. apply Nat.eq_le_incl. symmetry. exact Hl. }
  destruct (mac_verify_cases k t ms) as [H1|H1], (mac_verify_cases k t (ms ++ extra)%list) as [H2|H2];
    rewrite H1, H2 in *; try reflexivity; exfalso; destruct H as [Ha Hb]; [specialize (Hb eq_refl)|specialize (Ha eq_refl)]; discriminate.
Qed.
Print Assumptions C06_longer_message_accepted_refuted.
Theorem C06_shorter_message_accepted_refuted : forall E, ExtLaws E -> forall k (t : Tag E) ms n,
  mac_verify k t (ms ++ repeat 0 n)%list = Ok tt -> mac_verify k t ms = Ok tt.
Proof.
  intros E L k t ms n H. apply (mac_verify_iff L) in H. destruct H as [H1 H2].
  apply (mac_verify_iff L). split; [exact H1|]. rewrite H2. f_equal. f_equal. apply dot_zeros.
Qed.
Print Assumptions C06_shorter_message_accepted_refuted.
Example C06_met :
  List.length [100] = List.length (sk_xn sample_key1) /\
  mac_verify sample_key1 sample_tag1 [100; 1; 2; 3] = Ok tt /\
  mac_verify sample_key1 {| tag_nonce := pt 3; tag_mac := pt 15 |} ([] ++ repeat 0 1)%list = Ok tt /\
  mac_verify (E := toy) sample_key1 {| tag_nonce := pt 3; tag_mac := pt 15 |} [] = Ok tt.
Proof. vm_compute. auto. Qed.

(** ** C07: re-randomisation *)
Theorem C07_rerandomised : forall E, ExtLaws E -> forall s k ms (t : Tag E),
  let t' := apply_to_tag s t in
  tag_nonce t' = smul s (tag_nonce t) /\ tag_mac t' = smul s (tag_mac t) /\
  (mac_equation k ms t -> mac_equation k ms t') /\
  (s mod ell <> 0 -> mac_equation k ms t' -> mac_equation k ms t).
Proof.
  intros E L s k ms t. cbv zeta. split; [reflexivity|]. split; [reflexivity|]. split.
  - apply (apply_to_tag_equation L).
  - intros Hs. apply (apply_to_tag_equation_iff L). intros H. apply Hs.
    unfold Algebra.eqm in H. rewrite H. apply Z.mod_0_l. pose proof ell_pos; lia.
Qed.
Print Assumptions C07_rerandomised.
Example C07_met : mac_equation sample_key1 [100] sample_tag1 /\
  mac_equation sample_key1 [100] (apply_to_tag 19 sample_tag1) /\
  apply_to_tag 19 sample_tag1 <> sample_tag1 /\
  ~ mac_equation sample_key1 [101] (apply_to_tag 19 sample_tag1).
Proof.
  split; [split; [reflexivity|apply toy_eq; vm_compute; reflexivity]|].
  split; [split; [reflexivity|apply toy_eq; vm_compute; reflexivity]|].
  split.
  - intros H. apply (f_equal (fun t : Tag toy => tv (tag_nonce t))) in H. vm_compute in H. discriminate.
  - intros [_ H]. apply (f_equal tv) in H. vm_compute in H. discriminate.
Qed.

(** ** C08: two tags with one nonce *)
Theorem C08_interpolation : forall E, ExtLaws E -> forall k m1 m2 (t1 t2 : Tag E),
  tag_nonce t1 = tag_nonce t2 -> m1 mod ell <> m2 mod ell ->
  mac_equation k [m1] t1 -> mac_equation k [m2] t2 ->
  forall m, mac_equation k [m] (interpolate m1 m2 m t1 t2).
Proof. intros E L k m1 m2 t1 t2 Hn Hm H1 H2 m. exact (interpolate_spec L k m1 m2 m t1 t2 Hn Hm H1 H2). Qed.
Print Assumptions C08_interpolation.
(** Issuing twice from one state of the caller's random source. *)
Theorem C08_same_seed_same_nonce : forall E, ExtLaws E ->
  forall (i : Issuer E) rq1 rq2 r os1 os2 iss1 r1 os1' iss2 r2 os2',
  issue i rq1 r os1 = Ok (iss1, r1, os1') -> issue i rq2 r os2 = Ok (iss2, r2, os2') ->
  tag_nonce (cr_mac (is_credential iss1)) = tag_nonce (cr_mac (is_credential iss2)).
Proof.
  intros E L i rq1 rq2 r os1 os2 iss1 r1 os1' iss2 r2 os2' H1 H2.
  apply (issue_inv L) in H1 as (? & ? & ? & ? & ? & ? & ? & ? & ? & H1).
  apply (issue_inv L) in H2 as (? & ? & ? & ? & ? & ? & ? & ? & ? & H2). cbv zeta in H1, H2.
  destruct H1 as (_ & _ & _ & _ & _ & Hn1 & _ & -> & _), H2 as (_ & _ & _ & _ & _ & Hn2 & _ & -> & _).
  cbn. congruence.
Qed.
Print Assumptions C08_same_seed_same_nonce.
Theorem C08_same_seed_forges_everything : forall E, ExtLaws E ->
  forall (i : Issuer E) m1 m2 r os1 os2 iss1 r1 os1' iss2 r2 os2',
  m1 mod ell <> m2 mod ell ->
  issue i {| rq_attributes_revealed := [m1] |} r os1 = Ok (iss1, r1, os1') ->
  issue i {| rq_attributes_revealed := [m2] |} r os2 = Ok (iss2, r2, os2') ->
  forall m, valid_credential i
    {| cr_mac := interpolate m1 m2 m (cr_mac (is_credential iss1)) (cr_mac (is_credential iss2));
       cr_attributes := [m] |} m.
Proof.
  intros E L i m1 m2 r os1 os2 iss1 r1 os1' iss2 r2 os2' Hm H1 H2 m.
  split; [reflexivity|]. cbn [cr_mac].
  pose proof (C08_same_seed_same_nonce E L _ _ _ _ _ _ _ _ _ _ _ _ H1 H2) as Hn.
  apply (C08_interpolation E L); [exact Hn|exact Hm| |].
  - apply (issue_inv L) in H1 as (? & ? & ? & ? & ? & ? & ? & ? & ? & H1). cbv zeta in H1.
    destruct H1 as (_ & _ & Hr & _ & He & _ & _ & -> & _). cbn in *. rewrite Hr. exact He.
  - apply (issue_inv L) in H2 as (? & ? & ? & ? & ? & ? & ? & ? & ? & H2). cbv zeta in H2.
    destruct H2 as (_ & _ & Hr & _ & He & _ & _ & -> & _). cbn in *. rewrite Hr. exact He.
Qed.
Print Assumptions C08_same_seed_forges_everything.
Definition sample_params : SystemParameters toy := {| sp_g := pt 1; sp_h := pt 33 |}.
Definition sample_issuer : Issuer toy :=
  {| iss_system_parameters := sample_params;
     iss_keypair := {| kp_public := {| pk_Xn := [pt 231] |}; kp_secret := sample_key1 |} |}.
Example C08_met : 100 mod ell <> 101 mod ell /\
  (exists iss1 r1 os1, issue sample_issuer {| rq_attributes_revealed := [100] |} (toy_stream 1) (toy_stream 2)
                       = Ok (iss1, r1, os1)) /\
  (exists iss2 r2 os2, issue sample_issuer {| rq_attributes_revealed := [101] |} (toy_stream 1) (toy_stream 3)
                       = Ok (iss2, r2, os2)).
Proof.
  split; [vm_compute; discriminate|].
  split; eexists _, _, _; reflexivity.
Qed.
Example C08_met_interpolation :
  let t1 : Tag toy := {| tag_nonce := pt 3; tag_mac := pt ((5 + 7 * 100) * 3) |} in
  let t2 : Tag toy := {| tag_nonce := pt 3; tag_mac := pt ((5 + 7 * 101) * 3) |} in
  mac_equation sample_key1 [100] t1 /\ mac_equation sample_key1 [101] t2.
Proof. split; (split; [reflexivity|apply toy_eq; vm_compute; reflexivity]). Qed.
