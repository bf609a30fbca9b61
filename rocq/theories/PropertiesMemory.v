(** C75: byte arrays and text in the memory of the WebAssembly API *)
From Verif Require Import PropertiesGlue PropertiesPhone PhoneFacts Spec Toy ModelMemory.
Require Import Coq.micromega.Lia Coq.Arith.Arith Coq.Sorting.Permutation.

(** *** What is expected of the allocator *)

Definition disjoint (p q : nat * nat) : Prop :=
  snd p = 0%nat \/ snd q = 0%nat \/ (fst p + snd p <= fst q)%nat \/ (fst q + snd q <= fst p)%nat.

(** The allocated blocks are in the memory and do not overlap. *)
Definition sound (m : memory) : Prop :=
  ForallOrdPairs disjoint (allocated m) /\
  Forall (fun p => (fst p + snd p <= List.length (cells m))%nat) (allocated m).

Definition contents (m : memory) (p : nat * nat) : bytes := mem_slice m (fst p) (snd p).

(** Each block of the list has the same contents in both memories. *)
Definition kept (l : list (nat * nat)) (m m' : memory) : Prop := forall p, In p l -> contents m' p = contents m p.

(** The memory may grow, and the bytes outside the blocks may change. *)
Record lawful (A : allocator) : Prop := {
  malloc_law : forall m n ptr m', sound m -> malloc A m n = Some (ptr, m') ->
    sound m' /\ Permutation (allocated m') ((ptr, n) :: allocated m) /\ kept (allocated m) m m';
  free_law : forall m ptr n, sound m -> In (ptr, n) (allocated m) ->
    sound (free A m ptr n) /\ Permutation (allocated m) ((ptr, n) :: allocated (free A m ptr n)) /\
    kept (allocated (free A m ptr n)) m (free A m ptr n) }.

(** What the compiled Rust may do: allocate and free, but not the arrays at [ps],
    which it has borrowed.  [rest] are the blocks it leaves. *)
Definition well_behaved (work : memory -> memory) (ps : list (nat * nat)) (rest : list (nat * nat)) (m : memory) : Prop :=
  sound (work m) /\ Permutation (allocated (work m)) (ps ++ rest).

(** *** Writing to the memory *)

Lemma nth_ext {T} : forall (l l' : list T), (forall i, nth_error l i = nth_error l' i) -> l = l'.
Proof.
  induction l as [|x l IH]; intros [|y l'] H; [reflexivity|specialize (H 0%nat); discriminate..|].
  pose proof (H 0%nat) as H0. cbn in H0. injection H0 as ->. f_equal. apply IH. intros i. exact (H (S i)).
Qed.

Lemma nth_firstn {T} : forall n (l : list T) i, nth_error (firstn n l) i = if (i <? n)%nat then nth_error l i else None.
Proof.
  induction n as [|n IH]; intros l i; [destruct i; reflexivity|]. destruct l as [|x l], i as [|i]; cbn; try reflexivity.
  - match goal with |- context [if ?c then _ else _] => destruct c end; reflexivity.
  - rewrite IH. reflexivity.
Qed.

Lemma nth_skipn {T} : forall n (l : list T) i, nth_error (skipn n l) i = nth_error l (n + i).
Proof. induction n as [|n IH]; intros l i; [reflexivity|]. destruct l as [|x l]; [destruct i; reflexivity|]. exact (IH l i). Qed.

Lemma nth_slice : forall m p n i, nth_error (mem_slice m p n) i = if (i <? n)%nat then nth_error (cells m) (p + i) else None.
Proof. intros m p n i. unfold mem_slice. rewrite nth_firstn, nth_skipn. reflexivity. Qed.

Lemma overwrite_length : forall l p b, List.length (overwrite l p b) = List.length l.
Proof.
  induction l as [|x l IH]; intros p b; [destruct p, b; reflexivity|]. destruct p as [|p]; cbn [overwrite]; [|cbn; rewrite IH; reflexivity].
  destruct b as [|y b]; [reflexivity|]. cbn. rewrite IH. reflexivity.
Qed.

Lemma nth_overwrite : forall l p b i, (p + List.length b <= List.length l)%nat ->
  nth_error (overwrite l p b) i = if (p <=? i)%nat && (i <? p + List.length b)%nat then nth_error b (i - p) else nth_error l i.
Proof.
  induction l as [|x l IH]; intros p b i H.
  - cbn in H. destruct b as [|y b]; [|cbn in H; lia]. destruct p; [|cbn in H; lia]. destruct i; reflexivity.
  - destruct p as [|p]; cbn [overwrite].
    + destruct b as [|y b]; [destruct i; reflexivity|]. destruct i as [|i]; [reflexivity|]. cbn [nth_error List.length] in *.
      rewrite IH by lia. cbn. rewrite Nat.sub_0_r. reflexivity.
    + destruct i as [|i]; [reflexivity|]. cbn [nth_error List.length] in *. rewrite IH by lia. cbn. reflexivity.
Qed.

Lemma nth_none {T} : forall (l : list T) i, (List.length l <= i)%nat -> nth_error l i = None.
Proof. intros l i H. apply nth_error_None. exact H. Qed.

Definition written (m : memory) (p : nat) (b : bytes) : memory :=
  {| cells := overwrite (cells m) p b; buffer := buffer m; allocated := allocated m |}.

Lemma written_here : forall m p b, (p + List.length b <= List.length (cells m))%nat ->
  mem_slice (written m p b) p (List.length b) = b.
Proof.
  intros m p b H. apply nth_ext. intros i. rewrite nth_slice. cbn [cells written].
  destruct (Nat.ltb_spec i (List.length b)) as [Hi|Hi]; [|symmetry; apply nth_none; lia].
  rewrite nth_overwrite by exact H.
  replace (p <=? p + i)%nat with true by (symmetry; apply Nat.leb_le; lia).
  replace (p + i <? p + List.length b)%nat with true by (symmetry; apply Nat.ltb_lt; lia).
  cbn. f_equal. lia.
Qed.

Lemma written_elsewhere : forall m p b q, (p + List.length b <= List.length (cells m))%nat ->
  disjoint (p, List.length b) q -> contents (written m p b) q = contents m q.
Proof.
  intros m p b [q n] H D. unfold contents. cbn [fst snd]. apply nth_ext. intros i. rewrite !nth_slice. cbn [cells written].
  destruct (Nat.ltb_spec i n) as [Hi|Hi]; [|reflexivity]. rewrite nth_overwrite by exact H.
  destruct (Nat.leb_spec p (q + i)), (Nat.ltb_spec (q + i) (p + List.length b)); try reflexivity.
  unfold disjoint in D. cbn [fst snd] in D. lia.
Qed.

Lemma written_sound : forall m p b, sound m -> sound (written m p b).
Proof. intros m p b [D B]. split; [exact D|]. cbn [allocated cells written]. rewrite overwrite_length. exact B. Qed.

(** *** Lists of blocks *)

Lemma disjoint_sym : forall p q, disjoint p q -> disjoint q p.
Proof. unfold disjoint. intros. lia. Qed.

Lemma pairs_perm : forall l l', Permutation l l' -> ForallOrdPairs disjoint l -> ForallOrdPairs disjoint l'.
Proof.
  intros l l' P. induction P as [|x l l' P IH|x y l|l l1 l2 P1 IH1 P2 IH2]; intros H; auto.
  - inversion H as [|? ? Hx Hl]; subst. constructor; [|auto]. rewrite Forall_forall in *. intros q Hq. apply Hx.
    apply Permutation_in with l'; [apply Permutation_sym; exact P|exact Hq].
  - inversion H as [|? ? Hy Hl]; subst. inversion Hl as [|? ? Hx Hl']; subst. inversion Hy as [|? ? Hyx Hyl]; subst.
    constructor; [constructor; [apply disjoint_sym; exact Hyx|exact Hx]|]. constructor; assumption.
Qed.

Lemma sound_cons : forall m p l, sound m -> Permutation (allocated m) (p :: l) ->
  (fst p + snd p <= List.length (cells m))%nat /\ Forall (disjoint p) l.
Proof.
  intros m p l [D B] P. split.
  - rewrite Forall_forall in B. apply B. apply Permutation_in with (p :: l); [apply Permutation_sym; exact P|left; reflexivity].
  - pose proof (pairs_perm _ _ P D) as D'. inversion D'. assumption.
Qed.

Lemma kept_trans : forall l m m' m'', kept l m m' -> kept l m' m'' -> kept l m m''.
Proof. intros l m m' m'' H H' p Hp. rewrite (H' p Hp). exact (H p Hp). Qed.
Lemma kept_incl : forall l l' m m', incl l l' -> kept l' m m' -> kept l m m'.
Proof. intros l l' m m' I H p Hp. apply H, I, Hp. Qed.

Lemma view_current : forall m c, get_memory_view m c = buffer m.
Proof. intros m [b|]; unfold get_memory_view; [|reflexivity]. destruct (Nat.eqb_spec b (buffer m)); congruence. Qed.

Lemma as_bytes_bz : forall b, as_bytes (map bz b) = b.
Proof. intros b. unfold as_bytes. rewrite map_map. transitivity (map (fun x => x) b); [|apply map_id]. apply map_ext. exact zb_bz. Qed.
Lemma as_bytes_length : forall l, List.length (as_bytes l) = List.length l.
Proof. intros l. apply map_length. Qed.

(** *** Passing arrays *)

(** Whatever view of the memory is cached, an array arrives in a block of its own,
    each element modulo 256.  Nothing else changes.  It only throws if no memory
    can be had. *)
Theorem C75_pass : forall A, lawful A -> forall s l, sound (mem s) ->
  match pass_array A s (Some l) with
  | (Some (ptr, len), s') => len = List.length l /\ mem_slice (mem s') ptr len = map zb l /\
      sound (mem s') /\ Permutation (allocated (mem s')) ((ptr, len) :: allocated (mem s)) /\
      kept (allocated (mem s)) (mem s) (mem s')
  | (None, s') => malloc A (mem s) (List.length l) = None /\ s' = s
  end.
Proof.
  intros A L s l S. unfold pass_array. destruct (malloc A (mem s) (List.length l)) as [[ptr m]|] eqn:Em; [|auto].
  destruct (malloc_law A L _ _ _ _ S Em) as (S1 & P1 & K1). rewrite view_current. unfold view_set. rewrite Nat.eqb_refl. cbn [negb].
  destruct (sound_cons m _ _ S1 P1) as [B1 D1]. cbn [fst snd] in B1. rewrite as_bytes_length.
  destruct (Nat.ltb_spec (List.length (cells m)) (ptr + List.length l)) as [Hl|_]; [lia|]. cbn [mem].
  fold (written m ptr (as_bytes l)). assert (B : (ptr + List.length (as_bytes l) <= List.length (cells m))%nat) by (rewrite as_bytes_length; exact B1).
  split; [reflexivity|]. split; [rewrite <- (as_bytes_length l) at 1; exact (written_here m ptr (as_bytes l) B)|].
  split; [apply written_sound; exact S1|]. split; [exact P1|]. eapply kept_trans; [exact K1|].
  intros p Hp. apply written_elsewhere; [exact B|]. rewrite as_bytes_length. rewrite Forall_forall in D1. apply D1. exact Hp.
Qed.
Print Assumptions C75_pass.

(** All arrays of a call arrive: a later one does not disturb an earlier one. *)
Theorem C75_arrays_arrive : forall A, lawful A -> forall ls s ps s', sound (mem s) ->
  pass_arrays A s (map Some ls) = (Some ps, s') ->
  map (contents (mem s')) ps = map (map zb) ls /\ map snd ps = map (@List.length Z) ls /\
  sound (mem s') /\ Permutation (allocated (mem s')) (ps ++ allocated (mem s)) /\ kept (allocated (mem s)) (mem s) (mem s').
Proof.
  intros A L. induction ls as [|l ls IH]; intros s ps s' S H; cbn [pass_arrays map] in H.
  - injection H as <- <-. split; [reflexivity|]. split; [reflexivity|]. split; [exact S|]. split; [reflexivity|]. intros p _. reflexivity.
  - pose proof (C75_pass A L s l S) as Hp. destruct (pass_array A s (Some l)) as [[[ptr len]|] s1]; [|discriminate H].
    destruct Hp as (-> & C1 & S1 & P1 & K1). destruct (pass_arrays A s1 (map Some ls)) as [[qs|] s2] eqn:E; [|discriminate H].
    injection H as <- <-. destruct (IH _ _ _ S1 E) as (C2 & L2 & S2 & P2 & K2).
    assert (I1 : incl ((ptr, List.length l) :: allocated (mem s)) (allocated (mem s1))).
    { intros p Hp. apply Permutation_in with ((ptr, List.length l) :: allocated (mem s)); [apply Permutation_sym; exact P1|exact Hp]. }
    split; [|split; [|split; [exact S2|split]]].
    + cbn [map]. f_equal; [|exact C2]. rewrite (K2 (ptr, List.length l)); [exact C1|apply I1; left; reflexivity].
    + cbn [map snd]. f_equal. exact L2.
    + rewrite P2, P1. cbn [app]. rewrite <- Permutation_middle. reflexivity.
    + eapply kept_trans; [exact K1|]. eapply kept_incl; [|exact K2]. intros p Hp. apply I1. right. exact Hp.
Qed.
Print Assumptions C75_arrays_arrive.

Lemma with_own_arrays : forall f, with_arrays f (js_arrays f) = Some f.
Proof. intros []; reflexivity. Qed.

Lemma contents_map : forall m ps, map (fun p => mem_slice m (fst p) (snd p)) ps = map (contents m) ps.
Proof. reflexivity. Qed.

(** [Uint8Array]s for all the byte arrays of a call. *)
Definition uint8_arrays (f : js_function) : list array_like := map (fun b => Some (map bz b)) (js_arrays f).

Lemma uint8_arrays_arrive : forall A, lawful A -> forall f s ps s', sound (mem s) ->
  pass_arrays A s (uint8_arrays f) = (Some ps, s') -> map (contents (mem s')) ps = js_arrays f.
Proof.
  intros A L f s ps s' S H. unfold uint8_arrays in H. rewrite <- (map_map (map bz) Some) in H.
  destruct (C75_arrays_arrive A L _ _ _ _ S H) as (C & _). rewrite C, map_map. transitivity (map (fun b => b) (js_arrays f)); [|apply map_id].
  apply map_ext. exact as_bytes_bz.
Qed.

(** A call with [Uint8Array]s is the call of ModelGlue.v with their bytes. *)
Theorem C75_call : forall A, lawful A -> forall E fuel os work s g f ps s', sound (mem s) ->
  pass_arrays A s (uint8_arrays f) = (Some ps, s') -> exists s'',
  @page_call A E fuel os work s g f (uint8_arrays f) = (fst (@glue_call E fuel os g f), s'', snd (@glue_call E fuel os g f)).
Proof.
  intros A L E fuel os work s g f ps s' S H. unfold page_call. rewrite H, contents_map, (uint8_arrays_arrive A L f s ps s' S H), with_own_arrays.
  destruct (@glue_call E fuel os g f) as [[v o| | |] g']; eexists; reflexivity.
Qed.
Print Assumptions C75_call.

Lemma free_all : forall A, lawful A -> forall ps rest m, sound m -> Permutation (allocated m) (ps ++ rest) ->
  sound (free_arrays A m ps) /\ Permutation (allocated (free_arrays A m ps)) rest /\ kept rest m (free_arrays A m ps).
Proof.
  intros A L. induction ps as [|[ptr len] ps IH]; intros rest m S P; cbn [free_arrays].
  - split; [exact S|]. split; [exact P|]. intros p _. reflexivity.
  - assert (I : In (ptr, len) (allocated m)) by (apply Permutation_in with ((ptr, len) :: ps ++ rest); [apply Permutation_sym; exact P|left; reflexivity]).
    destruct (free_law A L m ptr len S I) as (S1 & P1 & K1).
    assert (P2 : Permutation (allocated (free A m ptr len)) (ps ++ rest)).
    { apply Permutation_cons_inv with (ptr, len). rewrite <- P1. exact P. }
    destruct (IH rest _ S1 P2) as (S2 & P3 & K2). split; [exact S2|]. split; [exact P3|]. eapply kept_trans; [|exact K2].
    eapply kept_incl; [|exact K1]. intros p Hp. apply Permutation_in with (ps ++ rest)%list; [apply Permutation_sym; exact P2|].
    apply in_or_app. right. exact Hp.
Qed.

(** However a call ends, returning or panicking, its arrays are freed, with the
    addresses and sizes they were allocated with, and what Rust left in the
    memory is still there. *)
Theorem C75_arrays_freed : forall A, lawful A -> forall E fuel os work s g f ls ps s' rest r s'' g', sound (mem s) ->
  pass_arrays A s (map Some ls) = (Some ps, s') -> well_behaved work ps rest (mem s') ->
  List.length ls = List.length (js_arrays f) ->
  @page_call A E fuel os work s g f (map Some ls) = (r, s'', g') -> r <> GRunning ->
  sound (mem s'') /\ Permutation (allocated (mem s'')) rest /\ kept rest (work (mem s')) (mem s'').
Proof.
  intros A L E fuel os work s g f ls ps s' rest r s'' g' S H (Sw & Pw) Hl Hc Hr. unfold page_call in Hc. rewrite H in Hc.
  assert (F : exists f', with_arrays f (map (fun p => mem_slice (mem s') (fst p) (snd p)) ps) = Some f').
  { destruct (C75_arrays_arrive A L _ _ _ _ S H) as (_ & Hs & _). apply (f_equal (@List.length nat)) in Hs. rewrite !map_length in Hs.
    rewrite Hl in Hs. destruct f, ps as [|p1 [|p2 [|p3 ps]]]; cbn in Hs; try discriminate Hs; eexists; reflexivity. }
  destruct F as [f' F]. rewrite F in Hc. pose proof (free_all A L ps rest _ Sw Pw) as K.
  destruct (@glue_call E fuel os g f') as [[v o| | |] k]; injection Hc as <- <- <-; try exact K. congruence.
Qed.
Print Assumptions C75_arrays_freed.


(** The arrays are passed before the [try]: if the second argument is missing, the
    first stays in the memory. *)
Theorem C75_missing_array_leaks_refuted : forall A, lawful A -> forall E fuel os work s g issuer number seed l ptr m, sound (mem s) ->
  malloc A (mem s) (List.length l) = Some (ptr, m) -> exists s',
  @page_call A E fuel os work s g (JsIssuerIssue issuer number seed) [Some l; None] = (GThrows, s', g) /\
  Permutation (allocated (mem s')) ((ptr, List.length l) :: allocated (mem s)) /\ contents (mem s') (ptr, List.length l) = map zb l.
Proof.
  intros A L E fuel os work s g issuer number seed l ptr m S Em. pose proof (C75_pass A L s l S) as Hp.
  unfold page_call. cbn [pass_arrays]. assert (Hq : forall q s', pass_array A s (Some l) = (Some q, s') -> q = (ptr, List.length l)).
  { intros q s' H. unfold pass_array in H. rewrite Em in H. destruct (view_set _ _ _ _); [injection H as <- _; reflexivity|discriminate]. }
  destruct (pass_array A s (Some l)) as [[q|] s1]; [|destruct Hp; congruence].
  pose proof (Hq q s1 eq_refl) as ->. destruct Hp as (_ & C & _ & P & _). cbn [pass_array]. exists s1. auto.
Qed.
Print Assumptions C75_missing_array_leaks_refuted.

(** *** Numbers which are passed as strings *)

(** The elements of a JavaScript string of digits are strings, which are converted
    to numbers: the digits themselves. *)
Definition string_elements (s : bytes) : list Z := map (fun b => bz b - 48) s.

(** A phone number is accepted both as a string and as the array of its
    characters, and the two are different attributes. *)
Theorem C75_string_number_refuted : forall A, lawful A -> forall E fuel os work s g issuer number (seed : bytes) ps1 s1 ps2 s2,
  sound (mem s) -> decimal number -> (1 <= List.length number <= 27)%nat ->
  pass_arrays A s [Some (string_elements number); Some (map bz seed)] = (Some ps1, s1) ->
  pass_arrays A s [Some (map bz number); Some (map bz seed)] = (Some ps2, s2) ->
  exists d s1' s2' n n',
  @page_call A E fuel os work s g (JsIssuerIssue issuer number seed) [Some (string_elements number); Some (map bz seed)] =
    (fst (@glue_call E fuel os g (JsIssuerIssue issuer d seed)), s1', snd (@glue_call E fuel os g (JsIssuerIssue issuer d seed))) /\
  @page_call A E fuel os work s g (JsIssuerIssue issuer number seed) [Some (map bz number); Some (map bz seed)] =
    (fst (@glue_call E fuel os g (JsIssuerIssue issuer number seed)), s2', snd (@glue_call E fuel os g (JsIssuerIssue issuer number seed))) /\
  try_from_bytes d = Ok n /\ try_from_string number = Ok n /\ try_from_bytes number = Ok n' /\ n <> n'.
Proof.
  intros A L E fuel os work s g issuer number seed ps1 s1 ps2 s2 S Hd Hl H1 H2.
  assert (Hdig : map zb (string_elements number) = map ascii_digit number).
  { unfold string_elements. rewrite map_map. clear - Hd. induction Hd as [|b number Hb _ IH]; [reflexivity|]. cbn [map]. f_equal; [|exact IH].
    unfold ascii_digit. cbv beta in Hb. destruct (Z.leb_spec 48 (bz b)), (Z.leb_spec (bz b) 57); try lia. reflexivity. }
  exists (map ascii_digit number).
  destruct (C75_call A L E fuel os work s g (JsIssuerIssue issuer number seed) ps2 s2 S H2) as [s2' Hc2].
  assert (Hc1 : exists s1', @page_call A E fuel os work s g (JsIssuerIssue issuer number seed) [Some (string_elements number); Some (map bz seed)] =
    (fst (@glue_call E fuel os g (JsIssuerIssue issuer (map ascii_digit number) seed)), s1',
     snd (@glue_call E fuel os g (JsIssuerIssue issuer (map ascii_digit number) seed)))).
  { unfold page_call. rewrite H1, contents_map.
    destruct (C75_arrays_arrive A L [string_elements number; map bz seed] _ _ _ S H1) as (C & _).
    rewrite C. cbn [map]. fold (as_bytes (map bz seed)). rewrite Hdig, as_bytes_bz. cbn [with_arrays].
    destruct (@glue_call E fuel os g (JsIssuerIssue issuer (map ascii_digit number) seed)) as [[v o| | |] g']; eexists; reflexivity. }
  destruct Hc1 as [s1' Hc1]. destruct (C27_outcomes number) as [Hn _]. destruct (Hn (proj2 Hl)) as [(n' & Hn' & _) _].
  destruct (C27_outcomes (map ascii_digit number)) as [Hm _]. rewrite map_length in Hm. destruct (Hm (proj2 Hl)) as [(n & Hn1 & _) _].
  assert (Hs : try_from_string number = Ok n).
  { unfold try_from_string. rewrite phone_number_encode_ok by (apply (proj2 Hl)).
    rewrite try_from_bytes_ok in Hn1 by (rewrite map_length; exact (proj2 Hl)). exact Hn1. }
  exists s1', s2', n, n'. split; [exact Hc1|]. split; [exact Hc2|]. split; [exact Hn1|]. split; [exact Hs|]. split; [exact Hn'|].
  apply (C59_encoders_agree_refuted number n n' Hd); [apply length_nonzero; exact (proj1 Hl)|exact Hs|exact Hn'].
Qed.
Print Assumptions C75_string_number_refuted.

(** *** Text *)

(** Rust is given the text of the value a handle holds, in a block of its own;
    its address is where Rust asked for it. *)
Theorem C75_serialize : forall A, lawful A -> forall stringify s view32 g idx ptrptr v ptr m, sound (mem s) ->
  holds g idx v -> malloc A (mem s) (List.length (stringify v)) = Some (ptr, m) ->
  (ptrptr mod 4 = 0)%nat -> In (ptrptr, 4%nat) (allocated (mem s)) ->
  exists s' w, json_serialize_to A stringify s view32 g idx ptrptr = (Some (List.length (stringify v)), s', w) /\
  mem_slice (mem s') ptrptr 4 = le_encode 4 (Z.of_nat ptr) /\
  mem_slice (mem s') ptr (List.length (stringify v)) = stringify v /\
  sound (mem s') /\ Permutation (allocated (mem s')) ((ptr, List.length (stringify v)) :: allocated (mem s)) /\
  forall p, In p (allocated (mem s)) -> disjoint (ptrptr, 4%nat) p -> contents (mem s') p = contents (mem s) p.
Proof.
  intros A L stringify s view32 g idx ptrptr v ptr m S [_ Hg] Em Hm Hin. set (t := stringify v) in *.
  pose proof (C75_pass A L s (map bz t) S) as Hp. unfold json_serialize_to. rewrite Hg. fold t. unfold pass_string.
  rewrite map_length in Hp.
  assert (Hq : forall q s', pass_array A s (Some (map bz t)) = (Some q, s') -> q = (ptr, List.length t)).
  { intros q s' H. unfold pass_array in H. rewrite map_length, Em in H. destruct (view_set _ _ _ _); [injection H as <- _; reflexivity|discriminate]. }
  destruct (pass_array A s (Some (map bz t))) as [[q|] s1]; [|destruct Hp; congruence].
  pose proof (Hq q s1 eq_refl) as ->. destruct Hp as (_ & C & S1 & P & K). fold (as_bytes (map bz t)) in C. rewrite as_bytes_bz in C.
  rewrite view_current, Nat.eqb_refl. eexists. eexists. split; [reflexivity|]. cbn [mem]. unfold store_pointer.
  rewrite Hm. cbn [Nat.eqb negb].
  destruct (sound_cons _ _ _ S1 P) as [B D]. rewrite Forall_forall in D. cbn [fst snd] in B.
  assert (B4 : (ptrptr + 4 <= List.length (cells (mem s1)))%nat).
  { destruct S1 as [_ S1]. rewrite Forall_forall in S1. apply (S1 (ptrptr, 4%nat)).
    apply Permutation_in with ((ptr, List.length t) :: allocated (mem s)); [apply Permutation_sym; exact P|right; exact Hin]. }
  destruct (Nat.ltb_spec (List.length (cells (mem s1))) (ptrptr + 4)) as [Hlt|_]; [lia|].
  fold (written (mem s1) ptrptr (le_encode 4 (Z.of_nat ptr))).
  assert (L4 : List.length (le_encode 4 (Z.of_nat ptr)) = 4%nat) by apply le_encode_length.
  assert (B4' : (ptrptr + List.length (le_encode 4 (Z.of_nat ptr)) <= List.length (cells (mem s1)))%nat) by (rewrite L4; exact B4).
  split; [rewrite <- L4 at 1; exact (written_here _ _ _ B4')|].
  assert (W : forall p, disjoint (ptrptr, 4%nat) p -> contents (written (mem s1) ptrptr (le_encode 4 (Z.of_nat ptr))) p = contents (mem s1) p).
  { intros p Hd. apply written_elsewhere; [exact B4'|]. rewrite L4. exact Hd. }
  split; [etransitivity; [exact (W (ptr, List.length t) (disjoint_sym _ _ (D _ Hin)))|exact C]|].
  split; [apply written_sound; exact S1|]. split; [exact P|]. intros p Hp Hd. rewrite W by exact Hd. apply K. exact Hp.
Qed.
Print Assumptions C75_serialize.

(** A value made from text Rust wrote is the value Rust meant, under a new handle. *)
Theorem C75_parse : forall stringify parse s g v ptr, parse (stringify v) = Some v -> reachable g ->
  mem_slice (mem s) ptr (List.length (stringify v)) = stringify v -> exists h g',
  fst (json_parse_from parse s g ptr (List.length (stringify v))) = Some (h, g') /\ get_object g h = None /\ holds g' h v /\
  mem (snd (json_parse_from parse s g ptr (List.length (stringify v)))) = mem s.
Proof.
  intros stringify parse s g v ptr P R H. unfold json_parse_from. rewrite H, P. destruct (C65_add g v R) as (h & g' & Ha & Hn & Hh & _).
  exists h, g'. cbn [fst snd mem]. auto.
Qed.
Print Assumptions C75_parse.

(** *** Examples *)

(** An allocator which lets the memory grow for each block. *)
Fixpoint remove_block (p : nat * nat) (l : list (nat * nat)) : list (nat * nat) :=
  match l with
  | [] => []
  | q :: l' => if (fst p =? fst q)%nat && (snd p =? snd q)%nat then l' else q :: remove_block p l'
  end.
Definition growing : allocator := {|
  malloc m n := Some (List.length (cells m),
    {| cells := cells m ++ zeros n; buffer := S (buffer m); allocated := (List.length (cells m), n) :: allocated m |});
  free m ptr n := {| cells := cells m; buffer := buffer m; allocated := remove_block (ptr, n) (allocated m) |} |}.

Lemma remove_block_perm : forall p l, In p l -> Permutation l (p :: remove_block p l).
Proof.
  intros [a b]. induction l as [|[c d] l IH]; intros H; [destruct H|]. cbn [remove_block fst snd].
  destruct (Nat.eqb_spec a c) as [->|Hac]; [destruct (Nat.eqb_spec b d) as [->|Hbd]|]; cbn [andb]; [reflexivity|..];
    (destruct H as [H|H]; [congruence|]); (etransitivity; [apply perm_skip; exact (IH H)|apply perm_swap]).
Qed.

Lemma growing_lawful : lawful growing.
Proof.
  constructor.
  - intros m n ptr m' [D B] H. cbn in H. injection H as <- <-. rewrite Forall_forall in B.
    split; [split|split; [reflexivity|]]; cbn [allocated cells].
    + constructor; [|exact D]. apply Forall_forall. intros q Hq. specialize (B q Hq). unfold disjoint. cbn [fst snd]. lia.
    + rewrite app_length, zeros_length. constructor; [cbn [fst snd]; lia|]. apply Forall_forall. intros q Hq. specialize (B q Hq). lia.
    + intros [q k] Hq. specialize (B _ Hq). cbn [fst snd] in B. unfold contents, mem_slice. cbn [fst snd cells].
      rewrite skipn_app, firstn_app. replace (k - List.length (skipn q (cells m)))%nat with 0%nat by (rewrite skipn_length; lia).
      cbn [firstn]. apply app_nil_r.
  - intros m ptr n [D B] H. pose proof (remove_block_perm _ _ H) as P. cbn [free growing]. split; [split|split; [exact P|]]; cbn [allocated cells].
    + pose proof (pairs_perm _ _ P D) as D'. inversion D'. assumption.
    + rewrite Forall_forall in *. intros q Hq. apply B. apply Permutation_in with ((ptr, n) :: remove_block (ptr, n) (allocated m));
        [apply Permutation_sym; exact P|right; exact Hq].
    + intros q _. reflexivity.
Qed.

(** A page whose view is of a buffer which is no longer the memory. *)
Definition stale_page : page := {| mem := {| cells := zeros 16; buffer := 3; allocated := [(8, 4)]%nat |}; view := Some 1%nat |}.
Lemma stale_sound : sound (mem stale_page).
Proof. split; cbn [mem stale_page allocated cells]; repeat constructor; cbn; lia. Qed.

Example C75_met : lawful growing /\ sound (mem stale_page) /\
  match pass_arrays growing stale_page [Some [1; 2; 300]; Some []; Some [7]] with
  | (Some ps, s') => ps = [(16, 3); (19, 0); (19, 1)]%nat /\ view s' = Some 6%nat /\
      map (fun p => map bz (contents (mem s') p)) ps = [[1; 2; 44]; []; [7]]
  | _ => False
  end.
Proof. split; [exact growing_lawful|]. split; [exact stale_sound|]. vm_compute. auto. Qed.

(** A call which returns and a call which panics, with Rust allocating a block in
    the meantime. *)
Definition sample_work (m : memory) : memory := match malloc growing m 5 with Some (_, m') => m' | None => m end.
Lemma sample_work_behaves : forall s ps rest, sound (mem s) -> Permutation (allocated (mem s)) (ps ++ rest) ->
  well_behaved sample_work ps ((List.length (cells (mem s)), 5%nat) :: rest) (mem s).
Proof.
  intros s ps rest S P. destruct (malloc_law _ growing_lawful (mem s) 5 _ _ S eq_refl) as (S1 & P1 & _). split; [exact S1|].
  etransitivity; [exact P1|]. rewrite P. apply Permutation_middle.
Qed.
Example C75_met_freed : forall E, ExtLaws E -> forall (os : rng),
  (exists s' g', @page_call growing E 0 os sample_work stale_page glue_init (JsUserShow (JNumber 1) (JNumber 2) []) [Some []] =
     (GReturns (Some js_zero) os, s', g') /\ allocated (mem s') = [(16, 5); (8, 4)]%nat) /\
  (exists s' g', @page_call growing E 0 os sample_work stale_page glue_init leaking_call [Some (map bz (zeros 32))] =
     (GThrows, s', g') /\ allocated (mem s') = [(48, 5); (8, 4)]%nat).
Proof.
  intros E L os. split; [eexists; eexists; split; reflexivity|].
  change [Some (map bz (zeros 32))] with (uint8_arrays leaking_call).
  destruct (pass_arrays growing stale_page (uint8_arrays leaking_call)) as [ps s'] eqn:Ep.
  destruct (C65_panic_leaks_refuted E 0 os glue_init leaking_call reach_init (leaking_call_traps E L os)) as (hs & g' & Hc & _).
  unfold page_call. rewrite Ep. vm_compute in Ep. injection Ep as <- <-.
  match goal with |- context [with_arrays leaking_call ?b] => replace (with_arrays leaking_call b) with (Some leaking_call) by (vm_compute; reflexivity) end.
  rewrite Hc. eexists. eexists. split; [reflexivity|]. vm_compute. reflexivity.
Qed.

(** The second array missing. *)
Example C75_met_leak : exists m, malloc growing (mem stale_page) 3 = Some (16%nat, m).
Proof. eexists. reflexivity. Qed.

(** A number as a string and as bytes. *)
Example C75_met_string : decimal (str "14155551234") /\
  string_elements (str "14155551234") = [1; 4; 1; 5; 5; 5; 5; 1; 2; 3; 4] /\
  (exists ps s, pass_arrays growing stale_page [Some (string_elements (str "14155551234")); Some (map bz (zeros 32))] = (Some ps, s)) /\
  (exists ps s, pass_arrays growing stale_page [Some (map bz (str "14155551234")); Some (map bz (zeros 32))] = (Some ps, s)).
Proof.
  split; [repeat constructor; vm_compute; discriminate|]. split; [reflexivity|].
  split; eexists; eexists; vm_compute; reflexivity.
Qed.

(** Rust asks for the text [7], with room for the address at 8. *)
Example C75_met_serialize : exists s' w, holds {| slab := slab glue_init ++ [SLive (JNumber 7) 1]; slab_next := Some 5%nat |} 8 (JNumber 7) /\
  json_serialize_to growing (fun _ => str "7") stale_page (Some 3%nat) {| slab := slab glue_init ++ [SLive (JNumber 7) 1]; slab_next := Some 5%nat |} 8 8
    = (Some 1%nat, s', w) /\ mem_slice (mem s') 16 1 = str "7" /\ map bz (mem_slice (mem s') 8 4) = [16; 0; 0; 0].
Proof. eexists. eexists. split; [split; [lia|reflexivity]|]. split; [reflexivity|]. split; vm_compute; reflexivity. Qed.

Example C75_met_parse : let s := {| mem := {| cells := str "[7]"; buffer := 0; allocated := [] |}; view := None |} in
  mem_slice (mem s) 1 1 = str "7" /\
  match json_parse_from (fun b => if bytes_eqb b (str "7") then Some (JNumber 7) else None) s glue_init 1 1 with
  | (Some (h, g), s') => h = 8%nat /\ get_object g 8 = Some (JNumber 7) /\ view s' = Some 0%nat
  | _ => False
  end.
Proof. vm_compute. auto. Qed.

(** Its address is not a multiple of four: nothing is stored there. *)
Example C75_unaligned : forall m ptr, store_pointer m 9 ptr = m.
Proof. reflexivity. Qed.
