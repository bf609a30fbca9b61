(** What the page of build-test/electron shows, and the derived traits of the errors (C111). *)
From Verif Require Import PropertiesUniform ModelElectron SpecDerived PropertiesDerived PropertiesDisplay PropertiesBuildTest PropertiesMemory Algebra Toy.
From Verif Require Import ModelBuildTest ModelDerived ModelDisplay ModelMemory.
From Verif Require PropertiesPhone.
From Coq Require Import String Ascii Permutation.
Local Open Scope string_scope.
Local Open Scope Z_scope.

(** ** The text of an encoding *)

(** Characters below 128. *)
Definition plain (t : string) : Prop := Forall (fun b => bz b < 128) (text_bytes t).

Lemma text_bytes_app a b : text_bytes (a ++ b) = (text_bytes a ++ text_bytes b)%list.
Proof. unfold text_bytes, list_byte_of_string. rewrite <- map_app. f_equal. induction a as [|x a IH]; [reflexivity|]. cbn [append list_ascii_of_string app]. rewrite IH. reflexivity. Qed.
Lemma plain_app a b : plain a -> plain b -> plain (a ++ b).
Proof. unfold plain. rewrite text_bytes_app. intros. apply Forall_app. split; assumption. Qed.
Lemma plain_byte b : plain (byte_text b).
Proof. destruct b; repeat constructor. Qed.
Lemma plain_join l : Forall plain l -> plain (join l).
Proof.
  unfold join. induction l as [|a l IH]; intros H; [constructor|]. inversion H as [|? ? Ha Hl]; subst.
  destruct l as [|b l]; cbn [String.concat]; [exact Ha|]. apply plain_app; [exact Ha|]. apply plain_app; [repeat constructor|]. apply IH, Hl.
Qed.
Lemma plain_text b : plain (compressed_debug b).
Proof.
  unfold compressed_debug, debug_list. apply plain_app; [repeat constructor|]. apply plain_app; [repeat constructor|].
  apply plain_app; [|repeat constructor]. apply plain_join, Forall_map, Forall_forall. intros x _. apply plain_byte.
Qed.

Lemma string_length_app a b : String.length (a ++ b) = (String.length a + String.length b)%nat.
Proof. induction a as [|x a IH]; [reflexivity|]. cbn [append String.length]. rewrite IH. reflexivity. Qed.
Lemma text_bytes_length t : List.length (text_bytes t) = String.length t.
Proof. unfold text_bytes, list_byte_of_string. rewrite map_length. induction t as [|c t IH]; [reflexivity|]. cbn [list_ascii_of_string List.length String.length]. rewrite IH. reflexivity. Qed.
Lemma byte_text_length b : (1 <= String.length (byte_text b) <= 3)%nat.
Proof. destruct b; cbv; lia. Qed.
Lemma join_length (l : list byte) : l <> [] ->
  (3 * List.length l - 2 <= String.length (join (map byte_text l)) <= 5 * List.length l - 2)%nat.
Proof.
  unfold join. induction l as [|a l IH]; intros H; [congruence|]. pose proof (byte_text_length a).
  destruct l as [|b l]; [cbn [map String.concat List.length]; lia|].
  specialize (IH ltac:(discriminate)). cbn [map String.concat] in *. rewrite !string_length_app. cbn [List.length] in *. change (String.length ", ") with 2%nat. lia.
Qed.

(** ** C111: what is shown *)

(** The alert is the text of the point, and the memory is as before. *)
Theorem C111_shown : forall E (A : allocator) (decode : bytes -> string), lawful A ->
  (forall t, plain t -> decode (text_bytes t) = t) ->
  forall s (os : rng) shown s' os', sound (mem s) ->
  @electron_do_things E A decode s os = (Some shown, s', os') ->
  shown = compressed_debug (fst (@do_things_with_maths E os)) /\
  os' = snd (@do_things_with_maths E os) /\
  sound (mem s') /\ Permutation (allocated (mem s')) (allocated (mem s)) /\ kept (allocated (mem s)) (mem s) (mem s').
Proof.
  intros E A decode LA Hd s os shown s' os' Hs H. unfold electron_do_things in H.
  destruct (@do_things_with_maths E os) as [point os1]. cbn [fst snd].
  set (text := text_bytes (compressed_debug point)) in *.
  destruct (malloc A (mem s) (List.length text)) as [[ptr m]|] eqn:Hm; [|discriminate].
  destruct (malloc_law A LA _ _ _ _ Hs Hm) as (S1 & P1 & K1).
  change {| cells := overwrite (cells m) ptr text; buffer := buffer m; allocated := allocated m |} with (written m ptr text) in H.
  unfold get_string in H. cbn [mem view] in H. set (v := get_memory_view (written m ptr text) (view s)) in *.
  assert (Hv : Nat.eqb v (buffer (written m ptr text)) = true).
  { unfold v, get_memory_view. destruct (view s) as [b|]; [|apply Nat.eqb_refl]. destruct (Nat.eqb b (buffer (written m ptr text))) eqn:Hb; [exact Hb|apply Nat.eqb_refl]. }
  rewrite Hv in H. apply pair_equal_spec in H as [H H3]. apply pair_equal_spec in H as [H1 H2]. subst os' s'.
  assert (Hin : In (ptr, List.length text) (allocated m)).
  { apply Permutation_in with ((ptr, List.length text) :: allocated (mem s)); [apply Permutation_sym; exact P1|left; reflexivity]. }
  assert (Hfit : (ptr + List.length text <= List.length (cells m))%nat).
  { destruct S1 as [_ S1]. rewrite Forall_forall in S1. exact (S1 _ Hin). }
  split; [|split; [reflexivity|]].
  - injection H1 as <-. rewrite written_here by exact Hfit. apply Hd, plain_text.
  - cbn [mem].
    destruct (free_law A LA (written m ptr text) ptr (List.length text) (written_sound _ _ _ S1) Hin) as (S2 & P2 & K2).
    cbn [allocated written] in P2.
    assert (P3 : Permutation (allocated (free A (written m ptr text) ptr (List.length text))) (allocated (mem s))).
    { apply Permutation_cons_inv with (ptr, List.length text). transitivity (allocated m); [symmetry; exact P2|exact P1]. }
    split; [exact S2|]. split; [exact P3|].
    intros p Hp. rewrite K2 by (apply Permutation_in with (allocated (mem s)); [symmetry; exact P3|exact Hp]).
    rewrite written_elsewhere; [apply K1, Hp|exact Hfit|].
    destruct S1 as [S1 _]. apply (pairs_perm _ _ P1) in S1. inversion S1 as [|? ? Hx _]; subst. rewrite Forall_forall in Hx. apply Hx, Hp.
Qed.
Print Assumptions C111_shown.

(** The text tells the 32 bytes, has only plain characters and from 117 to 181 of them. *)
Theorem C111_text : forall b b' : bytes, List.length b = 32%nat ->
  (compressed_debug b = compressed_debug b' <-> b = b') /\ plain (compressed_debug b) /\
  (117 <= String.length (compressed_debug b) <= 181)%nat.
Proof.
  intros b b' Hb. split; [|split; [apply plain_text|]].
  - split; [|intros ->; reflexivity]. intros H. unfold compressed_debug in H. apply app_strip in H.
    refine (reads_tells _ _ (reads_list _ _ reads_byte) b b' _ _ H); apply Forall_forall; auto.
  - unfold compressed_debug, debug_list. rewrite !string_length_app.
    pose proof (join_length b ltac:(intros ->; discriminate)) as Hj. rewrite Hb in Hj.
    change (String.length "CompressedRistretto: ") with 21%nat. change (String.length "[") with 1%nat. change (String.length "]") with 1%nat. lia.
Qed.
Print Assumptions C111_text.

(** Two runs show the same exactly if they computed the same point. *)
Theorem C111_tells : forall E, ExtLaws E -> forall (os os2 : rng),
  let exponent r := (1 + from_bytes_mod_order_wide (block 0%nat r) * 4155551234) * from_bytes_mod_order_wide (block 1%nat r) in
  compressed_debug (fst (@do_things_with_maths E os)) = compressed_debug (fst (@do_things_with_maths E os2)) <->
  exponent os mod ell = exponent os2 mod ell.
Proof.
  intros E L os os2 exponent.
  destruct (C73_maths E L os) as (H1 & _). destruct (C73_maths E L os2) as (H2 & _). cbv zeta in H1, H2.
  assert (Hl : List.length (fst (@do_things_with_maths E os)) = 32%nat) by (rewrite H1; apply (compress_length E L)).
  rewrite (proj1 (C111_text _ _ Hl)), H1, H2.
  fold (exponent os) (exponent os2). split.
  - intros H. apply (compress_inj L) in H. apply (smul_base_iff L) in H. exact H.
  - intros H. f_equal. apply (smul_base_iff L). exact H.
Qed.
Print Assumptions C111_tells.

(** There is no alert exactly if there is no memory for the text. *)
Theorem C111_no_memory : forall E (A : allocator) decode s (os : rng),
  fst (fst (@electron_do_things E A decode s os)) = None <->
  malloc A (mem s) (String.length (compressed_debug (fst (@do_things_with_maths E os)))) = None.
Proof.
  intros E A decode s os. unfold electron_do_things. destruct (@do_things_with_maths E os) as [point os1]. cbn [fst].
  rewrite text_bytes_length. destruct (malloc A (mem s) _) as [[ptr m]|]; [|split; reflexivity].
  destruct (get_string decode _ _ _) as [shown s1]. cbn [fst]. split; discriminate.
Qed.
Print Assumptions C111_no_memory.

(** ** Errors *)

(** The derived texts and comparisons tell all errors apart. *)
Theorem C111_errors :
  decides mac_error_eqb /\ decides credential_error_eqb /\ decides phone_error_eqb /\
  (forall e e', debug_mac_error e = debug_mac_error e' -> e = e') /\
  (forall e e', debug_credential_error e = debug_credential_error e' -> e = e') /\
  (forall e e', debug_phone_error e = debug_phone_error e' -> e = e').
Proof.
  split; [|split; [|split; [|split; [|split]]]].
  - intros [| | |l|] [| | |l'|]; cbn; try (split; [discriminate|discriminate]); try (split; reflexivity).
    rewrite Nat.eqb_eq. split; [intros ->; reflexivity|intros H; injection H as ->; reflexivity].
  - intros [] []; cbn; split; (reflexivity || discriminate).
  - intros [] []; cbn; split; (reflexivity || discriminate).
  - intros [| | |l|] [| | |l'|] H; try reflexivity; try discriminate H.
    unfold debug_mac_error, debug_struct, join in H. cbn [map fst snd String.concat] in H.
    rewrite !app_assoc' in H. do 4 apply app_strip in H. apply append_cancel_r, usize_text_inj in H. congruence.
  - intros [] [] H; try reflexivity; discriminate H.
  - intros [] [] H; try reflexivity; discriminate H.
Qed.
Print Assumptions C111_errors.

(** A number is refused with an error only for being longer than 32 bytes, and the name says so;
    every error converted from the other crate is shown as an invalid number. *)
Theorem C111_names :
  (forall b e, try_from_bytes b = Err e \/ try_from_string b = Err e ->
     debug_phone_error e = "LengthExceeded" /\ (32 < List.length b)%nat) /\
  (forall e, debug_phone_error (credential_to_phone_error e) = "InvalidPhoneNumber").
Proof.
  split; [|reflexivity]. intros b e H. destruct (PropertiesPhone.C27_outcomes b) as (H1 & H2 & H3).
  destruct (Nat.le_gt_cases (List.length b) 27) as [Hl|Hl].
  - destruct (H1 Hl) as [(n & K & _) (n' & K' & _)]. rewrite K, K' in H. destruct H as [H|H]; discriminate H.
  - destruct (Nat.le_gt_cases (List.length b) 32) as [Hm|Hm].
    + destruct (H2 (conj Hl Hm)) as [K K']. rewrite K, K' in H. destruct H as [H|H]; discriminate H.
    + destruct (H3 Hm) as [K K']. rewrite K, K' in H. split; [|exact Hm]. destruct H as [H|H]; injection H as <-; reflexivity.
Qed.
Print Assumptions C111_names.
Example C111_met_names : exists e, try_from_bytes (repeat x00 33) = Err e /\ debug_phone_error e = "LengthExceeded".
Proof. exists LengthExceeded. split; reflexivity. Qed.

(** A point that is not decoded has one name for both types and the same text, a key that is
    not decoded another: the names are not kept by the conversion. *)
Theorem C111_conversion_refuted :
  (forall e e' : CredentialError, credential_to_phone_error e = credential_to_phone_error e') /\
  (forall e, phone_to_credential_error (credential_to_phone_error e) = MissingData) /\
  (exists e, debug_mac_error e = debug_credential_error PointDecompressionError /\
     mac_error_text e = credential_error_text PointDecompressionError /\
     mac_to_credential_error e <> PointDecompressionError /\
     debug_credential_error (mac_to_credential_error e) = "NoIssuerParameters").
Proof.
  split; [reflexivity|]. split; [reflexivity|]. exists MacPointDecompressionError. repeat split. discriminate.
Qed.
Print Assumptions C111_conversion_refuted.

(** ** Examples *)

Example C111_met_text : compressed_debug (map zb [226; 242; 0; 10]) = "CompressedRistretto: [226, 242, 0, 10]" /\
  debug_mac_error (MessageLengthError 32) = "MessageLengthError { length: 32 }".
Proof. split; reflexivity. Qed.

(** The allocator and the page of C75: the memory grows, and the view of it is stale. *)
Example C111_met : lawful growing /\ sound (mem stale_page) /\
  (forall t, plain t -> string_of_list_byte (text_bytes t) = t) /\
  match @electron_do_things toy growing string_of_list_byte stale_page (toy_stream 5) with
  | (Some shown, s, _) => substring 0 22 shown = "CompressedRistretto: [" /\ allocated (mem s) = allocated (mem stale_page)
  | _ => False
  end.
Proof.
  split; [exact growing_lawful|]. split; [exact stale_sound|]. split; [intros t _; apply string_of_list_byte_of_string|].
  vm_compute. split; reflexivity.
Qed.
