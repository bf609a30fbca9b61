(** What the derived traits do (C96). *)
From Verif Require Import ModelDerived SpecDerived PropertiesCodec PropertiesMac MacFacts.
From Verif Require Import Toy.
From Coq Require Import String Ascii.
Local Open Scope string_scope.
Local Open Scope Z_scope.

(** ** Texts *)
Lemma app_assoc' (a b c : string) : ((a ++ b) ++ c = a ++ (b ++ c))%string.
Proof. induction a as [|x a IH]; [reflexivity|]. cbn [append]. rewrite IH. reflexivity. Qed.
Lemma app_nil (a : string) : (a ++ "" = a)%string.
Proof. induction a as [|x a IH]; [reflexivity|]. cbn [append]. rewrite IH. reflexivity. Qed.

Lemma contains_refl a : contains a a.
Proof. exists ""%string, ""%string. cbn [append]. rewrite app_nil. reflexivity. Qed.
Lemma contains_trans a b c : contains a b -> contains b c -> contains a c.
Proof. intros (p & q & ->) (r & s & ->). exists (r ++ p)%string, (q ++ s)%string. rewrite !app_assoc'. reflexivity. Qed.
Lemma contains_left a b c : contains a b -> contains a (b ++ c).
Proof. intros H. apply (contains_trans _ _ _ H). exists ""%string, c. reflexivity. Qed.
Lemma contains_right a b c : contains a c -> contains a (b ++ c).
Proof. intros H. apply (contains_trans _ _ _ H). exists b, ""%string. rewrite app_nil. reflexivity. Qed.
Lemma contains_join a l : In a l -> contains a (join l).
Proof.
  unfold join. induction l as [|b l IH]; [contradiction|]. intros [->|H].
  - destruct l; cbn [String.concat]; [apply contains_refl|]. apply contains_left, contains_refl.
  - destruct l as [|c l]; [contradiction|]. cbn [String.concat] in *. apply contains_right, contains_right, IH, H.
Qed.
Lemma contains_list a l : In a l -> contains a (debug_list l).
Proof. intros H. unfold debug_list. apply contains_right, contains_left, contains_join, H. Qed.
Lemma contains_struct a n (l : list (string * string)) :
  (exists f t, In (f, t) l /\ contains a t) -> contains a (debug_struct n l).
Proof.
  intros (f & t & H & Ht). unfold debug_struct. apply contains_right, contains_right, contains_left.
  apply (contains_trans _ (f ++ ": " ++ t)); [apply contains_right, contains_right, Ht|].
  apply contains_join. apply in_map_iff. exists (f, t). split; [reflexivity|exact H].
Qed.
Lemma contains_tuple a n t : contains a t -> contains a (debug_tuple n t).
Proof. intros H. unfold debug_tuple. apply contains_right, contains_right, contains_left, H. Qed.

Lemma forall_list {A} (ds : A -> string) l :
  Forall (fun s => contains (ds s) (debug_list (map ds l))) l.
Proof. apply Forall_forall. intros s H. apply contains_list, in_map, H. Qed.
Lemma forall_struct {A} (ds : A -> string) n fields l t f :
  In (f, t) fields -> Forall (fun s => contains (ds s) t) l -> Forall (fun s => contains (ds s) (debug_struct n fields)) l.
Proof.
  intros H. apply Forall_impl. intros s Hs. apply contains_struct. exists f, t. split; assumption.
Qed.
Lemma forall_tuple {A} (ds : A -> string) n l t :
  Forall (fun s => contains (ds s) t) l -> Forall (fun s => contains (ds s) (debug_tuple n t)) l.
Proof. apply Forall_impl. intros s. apply contains_tuple. Qed.
Lemma forall_self {A} (ds : A -> string) s : Forall (fun s' => contains (ds s') (ds s)) [s].
Proof. constructor; [apply contains_refl|constructor]. Qed.

Section shows.
  Context {E : Ext} (ds : scalar -> string) (dp : point E -> string).
  Notation shown l text := (Forall (fun s => contains (ds s) text) l).
  Ltac field f := eapply (forall_struct _ _ _ _ _ f); [repeat (first [left; reflexivity|right])|].

  Lemma shown_app l m text : shown l text -> shown m text -> shown (l ++ m)%list text.
  Proof. intros Hl Hm. apply Forall_app. split; assumption. Qed.
  Lemma shown_cons s (l : list scalar) text : shown [s] text -> shown l text -> shown (s :: l) text.
  Proof. intros Hs Hl. inversion Hs. constructor; assumption. Qed.
  Lemma shown_key k : shown (key_scalars k) (debug_secret_key ds k).
  Proof. apply shown_cons; [field "x0"%string; apply forall_self|field "xn"%string; apply forall_list]. Qed.
  Lemma shown_proof c l : shown (c :: map snd l) (debug_proof ds c l).
  Proof.
    apply shown_cons; [field "challenge"%string; apply forall_self|]. field "responses"%string.
    apply Forall_forall. intros s H. apply in_map_iff in H as ((f & s') & Hs & H). cbn [snd] in Hs. subst s'.
    apply contains_struct. exists f, (ds s). split; [|apply contains_refl]. apply in_map_iff. exists (f, s). split; [reflexivity|exact H].
  Qed.
  Lemma shown_credential (c : Credential E) : shown (cr_attributes c) (debug_credential ds dp c).
  Proof. field "attributes"%string. apply forall_list. Qed.
  Lemma shown_issuance i : shown (issuance_scalars i) (debug_issuance ds dp i).
  Proof.
    apply shown_app; [field "credential"%string; apply shown_credential|]. field "proof"%string. apply shown_proof.
  Qed.
  Lemma shown_presentation p : shown (presentation_scalars p) (debug_presentation ds dp p).
  Proof.
    apply shown_app; [field "attributes_revealed"%string; apply forall_list|]. field "proof"%string. apply shown_proof.
  Qed.
  Lemma shown_signal_presentation p : shown (signal_presentation_scalars p) (debug_signal_presentation ds dp p).
  Proof.
    apply shown_app; [field "presentation"%string; apply shown_presentation|].
    field "roster_membership_proof"%string. apply shown_proof.
  Qed.
  Lemma shown_elgamal_keypair (k : ElgamalKeypair E) : shown [eg_secret k] (debug_elgamal_keypair ds dp k).
  Proof. field "secret"%string. apply forall_tuple, forall_self. Qed.
  Lemma shown_user u : shown (user_scalars u) (debug_user ds dp u).
  Proof.
    apply shown_app.
    - field "key"%string. destruct (us_key u); [|constructor]. apply forall_tuple, shown_elgamal_keypair.
    - field "credential"%string. destruct (us_credential u); [|constructor]. apply forall_tuple, shown_credential.
  Qed.
End shows.

(** The text of a value shows every scalar in it: keys, attributes, nonces. *)
Theorem C96_debug_shows_refuted : forall E (ds : scalar -> string) (dp : point E -> string),
  let shown l text := Forall (fun s => contains (ds s) text) l in
  (forall k, shown (key_scalars k) (debug_secret_key ds k)) /\
  (forall k : Keypair E, shown (key_scalars (kp_secret k)) (debug_keypair ds dp k)) /\
  (forall s, shown [s] (debug_elgamal_secret_key ds s)) /\
  (forall k : ElgamalKeypair E, shown [eg_secret k] (debug_elgamal_keypair ds dp k)) /\
  (forall s, shown [s] (debug_rerandomization ds s)) /\
  (forall s, shown [s] (debug_ephemeral ds s)) /\
  (forall l, shown l (debug_nonces ds l)) /\
  (forall m, shown m (debug_message ds m)) /\
  (forall n, shown [n] (debug_phone_number ds n)) /\
  (forall r, shown (rq_attributes_revealed r) (debug_request ds r)) /\
  (forall c : Credential E, shown (cr_attributes c) (debug_credential ds dp c)) /\
  (forall i : CredentialIssuance E, shown (issuance_scalars i) (debug_issuance ds dp i)) /\
  (forall p : CredentialPresentation E, shown (presentation_scalars p) (debug_presentation ds dp p)) /\
  (forall p : SignalCredentialPresentation E, shown (signal_presentation_scalars p) (debug_signal_presentation ds dp p)) /\
  (forall u : User E, shown (user_scalars u) (debug_user ds dp u)) /\
  (forall u : SignalUser E, shown (signal_user_scalars u) (debug_signal_user ds dp u)).
Proof.
  intros E ds dp shown. repeat split; unfold shown; clear shown.
  - apply shown_key.
  - intros k. eapply (forall_struct _ _ _ _ _ "secret"); [repeat (first [left; reflexivity|right])|]. apply shown_key.
  - intros s. apply forall_tuple, forall_self.
  - apply shown_elgamal_keypair.
  - intros s. apply forall_tuple, forall_self.
  - intros s. apply forall_tuple, forall_self.
  - intros l. apply forall_tuple. apply Forall_forall. intros s H.
    apply (contains_trans _ (debug_ephemeral ds s)); [apply contains_tuple, contains_refl|]. apply contains_list, in_map, H.
  - intros m. apply forall_tuple, forall_list.
  - intros n. apply forall_tuple, forall_self.
  - intros r. eapply (forall_struct _ _ _ _ _ "attributes_revealed"); [repeat (first [left; reflexivity|right])|]. apply forall_list.
  - apply shown_credential.
  - apply shown_issuance.
  - apply shown_presentation.
  - apply shown_signal_presentation.
  - apply shown_user.
  - intros u. apply shown_cons.
    + eapply (forall_struct _ _ _ _ _ "phone_number"); [repeat (first [left; reflexivity|right])|]. apply forall_tuple, forall_self.
    + eapply (forall_struct _ _ _ _ _ "user"); [repeat (first [left; reflexivity|right])|]. apply shown_user.
Qed.
Print Assumptions C96_debug_shows_refuted.

(** ** Reading the texts back *)
Definition reads {A} (good : A -> Prop) (f : A -> string) : Prop :=
  forall a b x y, good a -> good b -> (f a ++ x = f b ++ y)%string -> a = b /\ x = y.
Definition ends (x : string) : Prop := exists t, x = String ","%char t \/ x = String "]"%char t.
Definition reads_item {A} (good : A -> Prop) (f : A -> string) : Prop :=
  (forall a b x y, good a -> good b -> ends x -> ends y -> (f a ++ x = f b ++ y)%string -> a = b /\ x = y) /\
  (forall a, good a -> exists c t, f a = String c t /\ c <> "]"%char).
Lemma legible_item {A} (good : A -> Prop) f : legible good f -> reads_item good f.
Proof. intros [H S]. split; [|exact S]. intros a b x y Ha Hb _ _. apply H; assumption. Qed.
Lemma app_strip (s x y : string) : (s ++ x = s ++ y)%string -> x = y.
Proof. induction s as [|c s IH]; [exact (fun H => H)|]. cbn [append]. intros H. injection H as H. exact (IH H). Qed.
Lemma legible_of {A} (good : A -> Prop) f c : c <> "]"%char -> (forall a, good a -> exists t, f a = String c t) -> reads good f -> legible good f.
Proof. intros Hc Hs Hr. split; [exact Hr|]. intros a Ha. destruct (Hs a Ha) as [t Ht]. exists c, t. split; assumption. Qed.

(** The items of a list from some place on, with what follows. *)
Lemma reads_tail {A} (good : A -> Prop) (f : A -> string) : reads_item good f ->
  forall l m x y, Forall good l -> Forall good m -> forall a b, good a -> good b ->
  (join (map f (a :: l)) ++ String "]"%char x = join (map f (b :: m)) ++ String "]"%char y)%string -> a :: l = b :: m /\ x = y.
Proof.
  intros [R _]. induction l as [|a' l IH]; intros m x y Hl Hm a b Ha Hb H; destruct m as [|b' m]; unfold join in H; cbn [map String.concat] in H;
    rewrite ?app_assoc' in H; apply R in H as [-> H]; try assumption; try (eexists; left; reflexivity); try (eexists; right; reflexivity); try discriminate.
  - injection H as ->. split; reflexivity.
  - apply app_strip in H. inversion Hl; subst. inversion Hm; subst. apply IH in H as [H ->]; try assumption. rewrite H. split; reflexivity.
Qed.
Lemma reads_list {A} (good : A -> Prop) (f : A -> string) : reads_item good f -> reads (Forall good) (fun l => debug_list (map f l)).
Proof.
  intros R l m x y Hl Hm H. unfold debug_list in H. rewrite !app_assoc' in H. apply app_strip in H.
  change ("]" ++ x)%string with (String "]"%char x) in H. change ("]" ++ y)%string with (String "]"%char y) in H.
  destruct l as [|a l], m as [|b m].
  - cbn in H. injection H as ->. split; reflexivity.
  - exfalso. inversion Hm; subst. destruct R as [_ S]. destruct (S b) as (c & t & Ht & Hc); [assumption|].
    unfold join in H. destruct m; cbn [map String.concat] in H; rewrite Ht in H; cbn [append] in H; injection H as H _; apply Hc; symmetry; exact H.
  - exfalso. inversion Hl; subst. destruct R as [_ S]. destruct (S a) as (c & t & Ht & Hc); [assumption|].
    unfold join in H. destruct l; cbn [map String.concat] in H; rewrite Ht in H; cbn [append] in H; injection H as H _; apply Hc; exact H.
  - inversion Hl; subst. inversion Hm; subst. apply (reads_tail _ _ R) in H; assumption.
Qed.
Lemma reads_option {A} (good : A -> Prop) (f : A -> string) : reads good f ->
  reads (fun o => match o with Some a => good a | None => True end) (fun o => debug_option (option_map f o)).
Proof.
  intros R [a|] [b|] x y Ha Hb H; cbn [option_map debug_option] in H; try discriminate.
  - unfold debug_tuple in H. rewrite !app_assoc' in H. do 2 apply app_strip in H. apply R in H as [-> H]; try assumption.
    apply app_strip in H. split; [reflexivity|exact H].
  - apply app_strip in H. split; [reflexivity|exact H].
Qed.
Lemma reads_tuple {A} (good : A -> Prop) (f : A -> string) n : reads good f -> reads good (fun a => debug_tuple n (f a)).
Proof.
  intros R a b x y Ha Hb H. unfold debug_tuple in H. rewrite !app_assoc' in H. do 2 apply app_strip in H.
  apply R in H as [-> H]; try assumption. apply app_strip in H. split; [reflexivity|exact H].
Qed.
Lemma reads_tells {A} (good : A -> Prop) (f : A -> string) : reads good f -> forall a b, good a -> good b -> f a = f b -> a = b.
Proof. intros R a b Ha Hb H. apply (R a b "" "")%string in Ha as [Hab _]; [exact Hab|exact Hb|]. rewrite H. reflexivity. Qed.

Ltac open_text H := unfold debug_struct, debug_proof, debug_struct, join in H; cbn [map fst snd String.concat] in H; rewrite !app_assoc' in H.
Ltac scalars_of :=
  repeat match goal with
  | H : Forall _ (_ ++ _)%list |- _ => apply Forall_app in H as [? ?]
  | H : Forall _ (_ :: _) |- _ => apply Forall_cons_iff in H as [? ?]
  end.
Section reading.
  Context {E : Ext} (good : scalar -> Prop) (ds : scalar -> string) (dp : point E -> string).
  Hypothesis (S : legible good ds) (P : legible (fun _ => True) dp).
  Let rs : reads good ds := proj1 S.
  Let rp : reads (fun _ => True) dp := proj1 P.
  Let rls : reads (Forall good) (fun l => debug_list (map ds l)) := reads_list _ _ (legible_item _ _ S).
  Let rlp : forall l m x y, (debug_list (map dp l) ++ x = debug_list (map dp m) ++ y)%string -> l = m /\ x = y.
  Proof. intros l m x y. apply (reads_list _ _ (legible_item _ _ P)); apply Forall_forall; auto. Qed.
  Let rlc : forall l m x y, (debug_list (map (debug_commitment dp) l) ++ x = debug_list (map (debug_commitment dp) m) ++ y)%string -> l = m /\ x = y.
  Proof.
    intros l m x y. apply (reads_list (fun _ => True) (debug_commitment dp)); [|apply Forall_forall; auto..].
    apply legible_item, (legible_of _ _ "C"%char); [discriminate|intros a _; eexists; reflexivity|]. apply reads_tuple, rp.
  Qed.
  Ltac next H :=
    first [apply app_strip in H | apply rs in H as [-> H]; [|assumption..] | apply rp in H as [-> H]; [|exact I..]
          | apply rls in H as [-> H]; [|assumption..] | apply rlp in H as [-> H] | apply rlc in H as [-> H]].
  Ltac read H := open_text H; repeat next H; split; [reflexivity|exact H].

  Lemma reads_secret_key : reads (fun k => Forall good (key_scalars k)) (debug_secret_key ds).
  Proof.
    intros [a l] [b m] x y Ha Hb H. unfold debug_secret_key, key_scalars in *. cbn [sk_x0 sk_xn] in *. scalars_of. read H.
  Qed.
  Lemma reads_public_key : reads (fun _ => True) (debug_public_key dp).
  Proof. intros [l] [m] x y _ _ H. unfold debug_public_key in H. cbn [pk_Xn] in H. read H. Qed.
  Lemma reads_tag : reads (fun _ => True) (debug_tag dp).
  Proof. intros [p q] [p' q'] x y _ _ H. unfold debug_tag in H. cbn [tag_nonce tag_mac] in H. read H. Qed.
  Lemma reads_encryption : reads (fun _ => True) (debug_encryption dp).
  Proof. intros [p q] [p' q'] x y _ _ H. unfold debug_encryption in H. cbn [enc_commitment enc_encryption] in H. read H. Qed.
  Lemma reads_system_parameters : reads (fun _ => True) (debug_system_parameters dp).
  Proof. intros [p q] [p' q'] x y _ _ H. unfold debug_system_parameters in H. cbn [sp_g sp_h] in H. read H. Qed.
  Lemma reads_commitment : reads (fun _ => True) (debug_commitment dp).
  Proof. apply reads_tuple, rp. Qed.
  Lemma reads_keypair : reads (fun k => Forall good (key_scalars (kp_secret k))) (debug_keypair ds dp).
  Proof.
    intros [p s] [p' s'] x y Ha Hb H. unfold debug_keypair in H. cbn [kp_public kp_secret] in *. open_text H. repeat next H.
    apply reads_public_key in H as [-> H]; [|exact I..]. repeat next H. apply reads_secret_key in H as [-> H]; [|assumption..].
    repeat next H. split; [reflexivity|exact H].
  Qed.
  Lemma reads_elgamal_keypair : reads (fun k => good (eg_secret k)) (debug_elgamal_keypair ds dp).
  Proof.
    intros [p q] [p' q'] x y Ha Hb H. unfold debug_elgamal_keypair, debug_elgamal_secret_key, debug_elgamal_public_key, debug_tuple in H.
    cbn [eg_secret eg_public] in *. read H.
  Qed.
  Lemma reads_ir : reads (fun p => Forall good (ir_scalars p)) (debug_ir_proof ds).
  Proof.
    intros [c [a1 a2 a3 a4]] [c' [b1 b2 b3 b4]] x y Ha Hb H. unfold ir_scalars, debug_ir_proof in *.
    cbn [ir_challenge ir_responses irs_x0 irs_x1 irs_x0_tilde irs_m1x1] in *. scalars_of. read H.
  Qed.
  Lemma reads_vc : reads (fun p => Forall good (vc_scalars p)) (debug_vc_proof ds).
  Proof.
    intros [c [a1 a2 a3]] [c' [b1 b2 b3]] x y Ha Hb H. unfold vc_scalars, debug_vc_proof in *.
    cbn [vc_challenge vc_responses vcs_m0 vcs_z0 vcs_minus_zQ] in *. scalars_of. read H.
  Qed.
  Lemma reads_ce : reads (fun p => Forall good (ce_scalars p)) (debug_ce_proof ds).
  Proof.
    intros [c [a1 a2 a3]] [c' [b1 b2 b3]] x y Ha Hb H. unfold ce_scalars, debug_ce_proof in *.
    cbn [ce_challenge ce_responses ces_m0 ces_z0 ces_z1] in *. scalars_of. read H.
  Qed.
  Lemma reads_credential : reads (fun c => Forall good (cr_attributes c)) (debug_credential ds dp).
  Proof.
    intros [t l] [t' l'] x y Ha Hb H. unfold debug_credential in H. cbn [cr_mac cr_attributes] in *. open_text H. repeat next H.
    apply reads_tag in H as [-> H]; [|exact I..]. repeat next H. split; [reflexivity|exact H].
  Qed.
  Lemma reads_request : reads (fun r => Forall good (rq_attributes_revealed r)) (debug_request ds).
  Proof. intros [l] [l'] x y Ha Hb H. unfold debug_request in H. cbn [rq_attributes_revealed] in *. read H. Qed.
  Lemma reads_issuance : reads (fun i => Forall good (issuance_scalars i)) (debug_issuance ds dp).
  Proof.
    intros [c d p] [c' d' p'] x y Ha Hb H. unfold debug_issuance, issuance_scalars in *.
    cbn [is_secret_key_commitment is_credential is_proof] in *. scalars_of. open_text H. repeat next H.
    apply reads_commitment in H as [-> H]; [|exact I..]. repeat next H. apply reads_credential in H as [-> H]; [|assumption..]. repeat next H.
    apply reads_ir in H as [-> H]; [|assumption..]. repeat next H. split; [reflexivity|exact H].
  Qed.
  Lemma reads_presentation : reads (fun p => Forall good (presentation_scalars p)) (debug_presentation ds dp).
  Proof.
    intros [c q l m p] [c' q' l' m' p'] x y Ha Hb H. unfold debug_presentation, presentation_scalars in *.
    cbn [pr_rerandomized_mac_commitment pr_rerandomized_nonce pr_attributes_revealed pr_attributes_blinded pr_proof] in *.
    scalars_of. open_text H. repeat next H.
    apply reads_commitment in H as [-> H]; [|exact I..]. repeat next H.
    apply reads_vc in H as [-> H]; [|assumption..]. repeat next H. split; [reflexivity|exact H].
  Qed.
  Lemma reads_signal_presentation : reads (fun p => Forall good (signal_presentation_scalars p)) (debug_signal_presentation ds dp).
  Proof.
    intros [c q p] [c' q' p'] x y Ha Hb H. unfold debug_signal_presentation, debug_committed_phone_number, debug_tuple, signal_presentation_scalars in *.
    cbn [sc_roster_entry_commitment sc_presentation sc_roster_membership_proof] in *.
    scalars_of. open_text H. repeat next H.
    apply reads_commitment in H as [-> H]; [|exact I..]. repeat next H. apply reads_presentation in H as [-> H]; [|assumption..]. repeat next H.
    apply reads_ce in H as [-> H]; [|assumption..]. repeat next H. split; [reflexivity|exact H].
  Qed.
  Lemma reads_user : reads (fun u => Forall good (user_scalars u)) (debug_user ds dp).
  Proof.
    intros [p k key c] [p' k' key' c'] x y Ha Hb H. unfold debug_user, user_scalars in *.
    cbn [us_system_parameters us_issuer_parameters us_key us_credential] in *. scalars_of. open_text H. repeat next H.
    apply reads_system_parameters in H as [-> H]; [|exact I..]. repeat next H. apply reads_public_key in H as [-> H]; [|exact I..]. repeat next H.
    apply (reads_option _ _ reads_elgamal_keypair) in H as [-> H];
      [|destruct key as [k0|]; [scalars_of; assumption|exact I]|destruct key' as [k0|]; [scalars_of; assumption|exact I]].
    repeat next H. apply (reads_option _ _ reads_credential) in H as [-> H]; [|destruct c; [assumption|exact I]|destruct c'; [assumption|exact I]].
    repeat next H. split; [reflexivity|exact H].
  Qed.
  Lemma reads_signal_user : reads (fun u => Forall good (signal_user_scalars u)) (debug_signal_user ds dp).
  Proof.
    intros [n u] [n' u'] x y Ha Hb H. unfold debug_signal_user, debug_phone_number, debug_tuple, signal_user_scalars in *.
    cbn [su_phone_number su_user] in *. scalars_of. open_text H. repeat next H.
    apply reads_user in H as [-> H]; [|assumption..]. repeat next H. split; [reflexivity|exact H].
  Qed.
  Lemma reads_nonces : reads (Forall good) (debug_nonces ds).
  Proof.
    unfold debug_nonces. apply reads_tuple, reads_list, legible_item, (legible_of _ _ "E"%char); [discriminate|intros a _; eexists; reflexivity|].
    apply reads_tuple, rs.
  Qed.
End reading.

(** If the texts of scalars and points can be read back, so can all the others: the
    text of a value tells the value. *)
Theorem C96_debug_tells : forall E good ds (dp : point E -> string), legible good ds -> legible (fun _ => True) dp ->
  let tells {A} (scalars : A -> list scalar) (text : A -> string) :=
    forall a b, Forall good (scalars a) -> Forall good (scalars b) -> text a = text b -> a = b in
  let none {A} := fun _ : A => @nil scalar in
  tells key_scalars (debug_secret_key ds) /\
  tells (fun k => key_scalars (kp_secret k)) (debug_keypair ds dp) /\
  tells none (debug_public_key dp) /\ tells none (debug_tag dp) /\ tells none (debug_encryption dp) /\
  tells none (debug_system_parameters dp) /\ tells none (debug_commitment dp) /\
  tells (fun k => [eg_secret k]) (debug_elgamal_keypair ds dp) /\
  tells (fun l => l) (debug_nonces ds) /\ tells (fun m => m) (debug_message ds) /\
  tells (fun n => [n]) (debug_phone_number ds) /\
  tells rq_attributes_revealed (debug_request ds) /\
  tells cr_attributes (debug_credential ds dp) /\
  tells issuance_scalars (debug_issuance ds dp) /\
  tells presentation_scalars (debug_presentation ds dp) /\
  tells signal_presentation_scalars (debug_signal_presentation ds dp) /\
  tells user_scalars (debug_user ds dp) /\
  tells signal_user_scalars (debug_signal_user ds dp).
Proof.
  intros E good ds dp S P tells none. unfold tells, none. clear tells none.
  repeat split.
  - exact (reads_tells _ _ (reads_secret_key good ds S)).
  - exact (reads_tells _ _ (reads_keypair good ds dp S P)).
  - intros a b _ _. exact (reads_tells _ _ (reads_public_key dp P) a b I I).
  - intros a b _ _. exact (reads_tells _ _ (reads_tag dp P) a b I I).
  - intros a b _ _. exact (reads_tells _ _ (reads_encryption dp P) a b I I).
  - intros a b _ _. exact (reads_tells _ _ (reads_system_parameters dp P) a b I I).
  - intros a b _ _. exact (reads_tells _ _ (reads_commitment dp P) a b I I).
  - intros a b Ha Hb. scalars_of. apply (reads_tells _ _ (reads_elgamal_keypair good ds dp S P)); assumption.
  - exact (reads_tells _ _ (reads_nonces good ds S)).
  - exact (reads_tells _ _ (reads_tuple _ _ "Message" (reads_list _ _ (legible_item _ _ S)))).
  - intros a b Ha Hb. scalars_of. apply (reads_tells _ _ (reads_tuple _ _ "PhoneNumber" (proj1 S))); assumption.
  - exact (reads_tells _ _ (reads_request good ds S)).
  - exact (reads_tells _ _ (reads_credential good ds dp S P)).
  - exact (reads_tells _ _ (reads_issuance good ds dp S P)).
  - exact (reads_tells _ _ (reads_presentation good ds dp S P)).
  - exact (reads_tells _ _ (reads_signal_presentation good ds dp S P)).
  - exact (reads_tells _ _ (reads_user good ds dp S P)).
  - exact (reads_tells _ _ (reads_signal_user good ds dp S P)).
Qed.
Print Assumptions C96_debug_tells.

(** The digits a text begins with, as a number, and the rest. *)
Definition digit (c : ascii) : option nat :=
  let n := nat_of_ascii c in if ((48 <=? n) && (n <=? 57))%nat then Some (n - 48)%nat else None.
Fixpoint read_number (acc : nat) (s : string) : nat * string :=
  match s with
  | String c s' => match digit c with Some d => read_number (10 * acc + d) s' | None => (acc, s) end
  | EmptyString => (acc, s)
  end.
Lemma read_byte b x : ends x -> read_number 0 (byte_text b ++ x) = (Z.to_nat (bz b), x).
Proof. intros (t & [->| ->]); destruct b; reflexivity. Qed.
Lemma byte_text_starts b : exists c t, byte_text b = String c t /\ c <> "]"%char.
Proof. destruct b; (eexists; eexists; split; [reflexivity|discriminate]). Qed.

(** The text of a scalar can be read back. *)
Lemma reads_byte : reads_item (fun _ => True) byte_text.
Proof.
  split; [|intros b _; apply byte_text_starts]. intros a b x y _ _ Hx Hy H. apply (f_equal (read_number 0)) in H.
  rewrite !read_byte in H by assumption. injection H as Hab ->. split; [|reflexivity].
  apply bz_inj. pose proof (bz_range a). pose proof (bz_range b). lia.
Qed.
Theorem C96_scalar_legible : legible bits256 scalar_debug.
Proof.
  apply (legible_of _ _ "S"%char); [discriminate|intros a _; eexists; reflexivity|].
  intros a b x y Ha Hb H. unfold scalar_debug in H. rewrite !app_assoc' in H. do 4 apply app_strip in H.
  apply (reads_list _ _ reads_byte) in H as [H Hxy]; [|apply Forall_forall; auto..].
  do 3 apply app_strip in Hxy. split; [|exact Hxy]. unfold scalar_to_bytes in H. apply le_encode_inj in H; [exact H|..]; assumption.
Qed.
Print Assumptions C96_scalar_legible.

(** ** Comparisons *)
Section equality.
  Context {E : Ext} (L : ExtLaws E).
  Lemma list_decides {A} (eqb : A -> A -> bool) : decides eqb -> decides (list_eqb eqb).
  Proof.
    intros D a. induction a as [|x a IH]; intros [|y b]; cbn [list_eqb]; try (split; [discriminate|discriminate]); [split; reflexivity|].
    rewrite Bool.andb_true_iff, (D x y), (IH b). split; [intros [-> ->]; reflexivity|intros H; injection H as -> ->; split; reflexivity].
  Qed.
  Lemma option_decides {A} (eqb : A -> A -> bool) : decides eqb -> decides (option_eqb eqb).
  Proof.
    intros D [a|] [b|]; cbn [option_eqb]; try (split; discriminate); [|split; reflexivity].
    rewrite (D a b). split; [intros ->; reflexivity|intros H; injection H as ->; reflexivity].
  Qed.
  Lemma scalar_decides : decides scalar_eqb.
  Proof. intros a b. apply Z.eqb_eq. Qed.
  Lemma point_decides : decides (@peqb E).
  Proof. intros a b. apply (peqb_true L). Qed.
  Ltac fields := rewrite ?Bool.andb_true_iff; split;
    [intros H; decompose [and] H; subst; reflexivity|intros H; injection H as; subst; repeat split; reflexivity].
  Ltac dec :=
    repeat match goal with |- context [scalar_eqb ?a ?b = true] => rewrite (scalar_decides a b) end;
    repeat match goal with |- context [peqb ?a ?b = true] => rewrite (point_decides a b) end;
    repeat match goal with |- context [list_eqb scalar_eqb ?a ?b = true] => rewrite (list_decides _ scalar_decides a b) end;
    repeat match goal with |- context [list_eqb peqb ?a ?b = true] => rewrite (list_decides _ point_decides a b) end.
  Lemma system_parameters_decides : decides (@system_parameters_eqb E).
  Proof. intros [a b] [c d]. unfold system_parameters_eqb. cbn [sp_g sp_h]. rewrite ?Bool.andb_true_iff. dec. fields. Qed.
  Lemma tag_decides : decides (@tag_eqb E).
  Proof. intros [a b] [c d]. unfold tag_eqb. cbn [tag_nonce tag_mac]. rewrite ?Bool.andb_true_iff. dec. fields. Qed.
  Lemma public_key_decides : decides (@public_key_eqb E).
  Proof. intros [a] [b]. unfold public_key_eqb. cbn [pk_Xn]. dec. fields. Qed.
  Lemma encryption_decides : decides (@encryption_eqb E).
  Proof. intros [a b] [c d]. unfold encryption_eqb. cbn [enc_commitment enc_encryption]. rewrite ?Bool.andb_true_iff. dec. fields. Qed.
  Lemma elgamal_keypair_decides : decides (@elgamal_keypair_eqb E).
  Proof. intros [a b] [c d]. unfold elgamal_keypair_eqb. cbn [eg_secret eg_public]. rewrite ?Bool.andb_true_iff. dec. fields. Qed.
  Lemma credential_decides : decides (@credential_eqb E).
  Proof.
    intros [a b] [c d]. unfold credential_eqb. cbn [cr_mac cr_attributes]. rewrite ?Bool.andb_true_iff, (tag_decides a c). dec. fields.
  Qed.
  Lemma request_decides : decides request_eqb.
  Proof. intros [a] [b]. unfold request_eqb. cbn [rq_attributes_revealed]. dec. fields. Qed.
  Lemma ir_decides : decides ir_proof_eqb.
  Proof.
    intros [c [a1 a2 a3 a4]] [c' [b1 b2 b3 b4]]. unfold ir_proof_eqb. cbn [ir_challenge ir_responses irs_x0 irs_x1 irs_x0_tilde irs_m1x1].
    rewrite ?Bool.andb_true_iff. dec. fields.
  Qed.
  Lemma ab_decides : decides ab_proof_eqb.
  Proof.
    intros [c [a1 a2 a3 a4]] [c' [b1 b2 b3 b4]]. unfold ab_proof_eqb. cbn [ab_challenge ab_responses abs_d abs_e0 abs_m0 abs_nonce].
    rewrite ?Bool.andb_true_iff. dec. fields.
  Qed.
  Lemma ib_decides : decides ib_proof_eqb.
  Proof.
    intros [c [a1 a2 a3 a4 a5 a6]] [c' [b1 b2 b3 b4 b5 b6]]. unfold ib_proof_eqb.
    cbn [ib_challenge ib_responses ibs_x0_tilde ibs_x0 ibs_x1 ibs_s ibs_b ibs_t0].
    rewrite ?Bool.andb_true_iff. dec. fields.
  Qed.
  Lemma vc_decides : decides vc_proof_eqb.
  Proof.
    intros [c [a1 a2 a3]] [c' [b1 b2 b3]]. unfold vc_proof_eqb. cbn [vc_challenge vc_responses vcs_m0 vcs_z0 vcs_minus_zQ].
    rewrite ?Bool.andb_true_iff. dec. fields.
  Qed.
  Lemma ce_decides : decides ce_proof_eqb.
  Proof.
    intros [c [a1 a2 a3]] [c' [b1 b2 b3]]. unfold ce_proof_eqb. cbn [ce_challenge ce_responses ces_m0 ces_z0 ces_z1].
    rewrite ?Bool.andb_true_iff. dec. fields.
  Qed.
  Lemma issuance_decides : decides (@issuance_eqb E).
  Proof.
    intros [a b c] [d e f]. unfold issuance_eqb. cbn [is_secret_key_commitment is_credential is_proof].
    rewrite ?Bool.andb_true_iff, (credential_decides b e), (ir_decides c f). dec. fields.
  Qed.
  Lemma presentation_decides : decides (@presentation_eqb E).
  Proof.
    intros [a b c d p] [a' b' c' d' p']. unfold presentation_eqb.
    cbn [pr_rerandomized_mac_commitment pr_rerandomized_nonce pr_attributes_revealed pr_attributes_blinded pr_proof].
    rewrite ?Bool.andb_true_iff, (vc_decides p p'). dec. fields.
  Qed.
  Lemma signal_presentation_decides : decides (@signal_presentation_eqb E).
  Proof.
    intros [a b c] [a' b' c']. unfold signal_presentation_eqb.
    cbn [sc_roster_entry_commitment sc_presentation sc_roster_membership_proof].
    rewrite ?Bool.andb_true_iff, (presentation_decides b b'), (ce_decides c c'). dec. fields.
  Qed.
  Lemma verified_decides : decides (@verified_eqb E).
  Proof. intros [a] [b]. unfold verified_eqb. cbn [vf_presentation]. rewrite (presentation_decides a b). fields. Qed.
  Lemma verified_signal_decides : decides (@verified_signal_eqb E).
  Proof. intros [a] [b]. unfold verified_signal_eqb. cbn [vs_presentation]. rewrite (signal_presentation_decides a b). fields. Qed.
  Lemma user_decides : decides (@user_eqb E).
  Proof.
    intros [a [b] c d] [a' [b'] c' d']. unfold user_eqb. cbn [us_system_parameters us_issuer_parameters us_key us_credential pk_Xn].
    rewrite ?Bool.andb_true_iff, (system_parameters_decides a a'), (option_decides _ elgamal_keypair_decides c c'), (option_decides _ credential_decides d d').
    dec. fields.
  Qed.
  Lemma signal_user_decides : decides (@signal_user_eqb E).
  Proof.
    intros [a b] [a' b']. unfold signal_user_eqb. cbn [su_phone_number su_user].
    rewrite ?Bool.andb_true_iff, (user_decides b b'). dec. fields.
  Qed.
  Lemma compares {Er A} (eqb : A -> A -> bool) write (read : bytes -> outcome Er A) : decides eqb -> compares_bytes eqb write read.
  Proof.
    intros D a b Ha Hb. rewrite (D a b). split; [intros ->; reflexivity|]. intros H. rewrite H, Hb in Ha. injection Ha as ->. reflexivity.
  Qed.
End equality.

(** [==] is equality. *)
Theorem C96_eq : forall E, ExtLaws E ->
  decides (@system_parameters_eqb E) /\ decides (@tag_eqb E) /\ decides (@public_key_eqb E) /\ decides (@encryption_eqb E) /\
  decides (@elgamal_keypair_eqb E) /\ decides (@credential_eqb E) /\ decides request_eqb /\
  decides ir_proof_eqb /\ decides ab_proof_eqb /\ decides ib_proof_eqb /\ decides vc_proof_eqb /\ decides ce_proof_eqb /\
  decides (@issuance_eqb E) /\ decides (@presentation_eqb E) /\ decides (@signal_presentation_eqb E) /\
  decides (@verified_eqb E) /\ decides (@verified_signal_eqb E) /\ decides (@user_eqb E) /\ decides (@signal_user_eqb E).
Proof.
  intros E L. exact (conj (system_parameters_decides L) (conj (tag_decides L) (conj (public_key_decides L) (conj (encryption_decides L)
    (conj (elgamal_keypair_decides L) (conj (credential_decides L) (conj request_decides (conj ir_decides (conj ab_decides (conj ib_decides
    (conj vc_decides (conj ce_decides (conj (issuance_decides L) (conj (presentation_decides L) (conj (signal_presentation_decides L)
    (conj (verified_decides L) (conj (verified_signal_decides L) (conj (user_decides L) (signal_user_decides L))))))))))))))))))).
Qed.
Print Assumptions C96_eq.

(** Of values that are read back from their bytes, it is equality of the bytes. *)
Theorem C96_eq_bytes : forall E, ExtLaws E ->
  compares_bytes (@system_parameters_eqb E) system_parameters_to_bytes system_parameters_from_bytes /\
  compares_bytes (@tag_eqb E) tag_to_bytes tag_from_bytes /\
  compares_bytes (@public_key_eqb E) public_key_to_bytes public_key_from_bytes /\
  compares_bytes (@elgamal_keypair_eqb E) elgamal_keypair_to_bytes elgamal_keypair_from_bytes /\
  compares_bytes (@credential_eqb E) credential_to_bytes credential_from_bytes /\
  compares_bytes request_eqb request_to_bytes request_from_bytes /\
  compares_bytes (@issuance_eqb E) issuance_to_bytes issuance_from_bytes /\
  compares_bytes (@presentation_eqb E) presentation_to_bytes presentation_from_bytes /\
  compares_bytes (@signal_presentation_eqb E) signal_presentation_to_bytes signal_presentation_from_bytes /\
  compares_bytes (@verified_eqb E) verified_to_bytes verified_from_bytes /\
  compares_bytes (@verified_signal_eqb E) verified_signal_to_bytes verified_signal_from_bytes /\
  compares_bytes (@user_eqb E) user_to_bytes user_from_bytes /\
  compares_bytes scalar_eqb phone_number_to_bytes phone_number_from_bytes /\
  compares_bytes (@signal_user_eqb E) signal_user_to_bytes signal_user_from_bytes.
Proof.
  intros E L. repeat match goal with |- _ /\ _ => split end; apply compares.
  - exact (system_parameters_decides L).
  - exact (tag_decides L).
  - exact (public_key_decides L).
  - exact (elgamal_keypair_decides L).
  - exact (credential_decides L).
  - exact request_decides.
  - exact (issuance_decides L).
  - exact (presentation_decides L).
  - exact (signal_presentation_decides L).
  - exact (verified_decides L).
  - exact (verified_signal_decides L).
  - exact (user_decides L).
  - exact scalar_decides.
  - exact (signal_user_decides L).
Qed.
Print Assumptions C96_eq_bytes.

(** Other values may differ and have the same bytes: a user with the key pair or the
    credential that is all zeros, and one with none. *)
Theorem C96_eq_user_refuted : forall E, ExtLaws E -> forall (p : SystemParameters E) X key credential,
  let user key credential := {| us_system_parameters := p; us_issuer_parameters := X; us_key := key; us_credential := credential |} in
  let zero_key := {| eg_secret := 0; eg_public := pzero |} in
  let zero_credential := {| cr_mac := {| tag_nonce := pzero; tag_mac := pzero |}; cr_attributes := [0] |} in
  (user_eqb (user (Some zero_key) credential) (user None credential) = false /\
   user_to_bytes (user (Some zero_key) credential) = user_to_bytes (user None credential)) /\
  (user_eqb (user key (Some zero_credential)) (user key None) = false /\
   user_to_bytes (user key (Some zero_credential)) = user_to_bytes (user key None)).
Proof.
  intros E L p X key credential user zero_key zero_credential.
  assert (Z : compress (@pzero E) = zeros 32) by apply (compress_zero E L).
  repeat split.
  - apply Bool.not_true_iff_false. intros H. apply (user_decides L) in H. discriminate H.
  - unfold user_to_bytes, user, elgamal_keypair_to_bytes, elgamal_public_to_bytes. cbn [us_key us_system_parameters us_issuer_parameters us_credential zero_key eg_secret eg_public].
    rewrite Z. reflexivity.
  - apply Bool.not_true_iff_false. intros H. apply (user_decides L) in H. discriminate H.
  - unfold user_to_bytes, user, credential_to_bytes, tag_to_bytes. cbn [us_key us_system_parameters us_issuer_parameters us_credential zero_credential cr_mac cr_attributes tag_nonce tag_mac].
    rewrite Z. reflexivity.
Qed.
Print Assumptions C96_eq_user_refuted.

(** Different phone numbers, each read from bytes, that the rest of the code
    does not tell apart. *)
Theorem C96_eq_number_refuted : forall E, ExtLaws E -> forall n k, 0 <= n < ell -> 0 < k < 7 ->
  let other := n + k * ell in
  scalar_eqb other n = false /\
  phone_number_from_bytes (phone_number_to_bytes other) = Ok other /\ phone_number_from_bytes (phone_number_to_bytes n) = Ok n /\
  (forall nonce (g h : point E), committed_from_phone_number other nonce g h = committed_from_phone_number n nonce g h) /\
  (forall c nonce (g h : point E), committed_open c other nonce g h = committed_open c n nonce g h).
Proof.
  intros E L n k Hn Hk other. pose proof ell_pos.
  destruct (C34_phone_number_refuted E L n Hn k) as (H1 & _ & H3 & H4); [lia|].
  destruct (C34_phone_number_refuted E L n Hn 0) as (H0 & _); [lia|]. rewrite Z.mul_0_l, Z.add_0_r in H0.
  repeat split; [|exact H1|exact H0|exact H3|exact H4]. apply Z.eqb_neq. unfold other. nia.
Qed.
Print Assumptions C96_eq_number_refuted.

(** ** Defaults *)
(** The values of [default()] are of no use: the MAC key takes every message for
    one tag, the rerandomisation makes the tag every key takes for every message,
    the elGamal key and the nonces hide nothing, and with no nonces [show]
    panics. *)
Theorem C96_default_refuted : forall E, ExtLaws E ->
  (forall (t : Tag E) m, mac_verify secret_key_default t m = Ok tt <-> tag_nonce t <> basepoint /\ tag_mac t = pzero) /\
  (forall m r, (exists x, mac (E := E) secret_key_default m r = Ok x) <-> m = []) /\
  (forall (t : Tag E) k m, mac_verify k (apply_to_tag rerandomization_default t) m = Ok tt) /\
  (forall e : Encryption E, elgamal_decrypt elgamal_secret_key_default e = enc_encryption e) /\
  (forall message nonce, enc_encryption (elgamal_encrypt (E := E) (elgamal_public_of_secret elgamal_secret_key_default) message nonce) = message) /\
  (forall k message, enc_encryption (elgamal_encrypt (E := E) k message ephemeral_default) = message) /\
  (forall value base, commitment_to (E := E) value ephemeral_default base = value) /\
  (forall (u : User E) r os, us_credential u <> None -> show u nonces_default r os = Panic).
Proof.
  intros E L.
  assert (Zb : forall P : point E, smul 0 P = pzero) by (intros P; apply smul_0).
  assert (Zr : forall P : point E, padd P pzero = P) by (intros P; pring L).
  assert (Zs : forall P : point E, psub P pzero = P) by (intros P; pring L).
  repeat match goal with |- _ /\ _ => split end.
  - intros t m. unfold mac_verify, secret_key_default. cbn [sk_x0 sk_xn].
    replace (verify_exponent 0 [] m) with 0 by (destruct m; reflexivity). rewrite Zb.
    destruct (peqb (tag_nonce t) basepoint) eqn:Hb.
    + apply (peqb_true L) in Hb. split; [discriminate|intros [H _]; contradiction].
    + apply (peqb_false L) in Hb. destruct (peqb (tag_mac t) pzero) eqn:Hm.
      * apply (peqb_true L) in Hm. split; [intros _; split; assumption|reflexivity].
      * apply (peqb_false L) in Hm. split; [discriminate|intros [_ H]; contradiction].
  - intros m r. unfold mac, secret_key_default. cbn [sk_xn List.length]. destruct m as [|s m]; cbn [List.length Nat.eqb negb].
    + split; [reflexivity|intros _]. destruct (scalar_random r) as [nonce r']. eexists. reflexivity.
    + split; [intros [x H]; discriminate H|discriminate].
  - intros t k m. unfold apply_to_tag, rerandomization_default. rewrite !Zb. apply (C05_identity_tag_accepted_refuted E L).
  - intros e. unfold elgamal_decrypt, elgamal_secret_key_default. rewrite Zb. apply Zs.
  - intros message nonce. unfold elgamal_encrypt, elgamal_public_of_secret, elgamal_secret_key_default. cbn [enc_encryption].
    rewrite Zb, (smul_pzero L). apply Zr.
  - intros k message. unfold elgamal_encrypt, ephemeral_default. cbn [enc_encryption]. rewrite Zb. apply Zr.
  - intros value base. unfold commitment_to, ephemeral_default. rewrite Zb. apply Zr.
  - intros u r os H. unfold show, nonces_default. destruct (us_credential u) as [c|]; [|contradiction]. cbn [ok_or bind].
    destruct (reseed _ _ r) as [csprng r']. destruct (scalar_random csprng) as [z csprng']. destruct (ephemeral_new csprng') as [zQ c''].
    unfold show_statement. cbn [show_error_factor bind]. destruct (Base.index (cr_attributes c) 0); reflexivity.
Qed.
Print Assumptions C96_default_refuted.

Example C96_met_text :
  scalar_debug 258 = ("Scalar{" ++ newline ++ tab ++ "bytes: [2, 1, 0, 0, 0, 0, 0, 0, 0, 0, 0, 0, 0, 0, 0, 0, 0, 0, 0, 0, 0, 0, 0, 0, 0, 0, 0, 0, 0, 0, 0, 0]," ++ newline ++ "}")%string /\
  debug_secret_key (fun _ => "#"%string) {| sk_x0 := 1; sk_xn := [2; 3] |} = "SecretKey { x0: #, xn: [#, #] }"%string /\
  debug_user (E := toy) (fun _ => "#"%string) (fun _ => "*"%string) (sample_user_coded sample_coded) =
    ("User { system_parameters: SystemParameters { g: *, h: * }, issuer_parameters: PublicKey { Xn: [*] }, " ++
     "key: Some(Keypair { secret: SecretKey(#), public: PublicKey(*) }), " ++
     "credential: Some(Credential { mac: Tag { nonce: *, mac: * }, attributes: [#] }) }")%string.
Proof. repeat split; vm_compute; reflexivity. Qed.
(** Texts of points that can be read back. *)
Example C96_met_legible : legible (fun _ => True) (fun P : point toy => scalar_debug (tv P)) /\
  Forall bits256 (signal_user_scalars {| su_phone_number := 7; su_user := sample_user_coded sample_coded |}).
Proof.
  split.
  - destruct C96_scalar_legible as [R S].
    assert (B : forall P : toy_point, bits256 (tv P)).
    { intros P. pose proof (tv_range P). split; [lia|]. apply (Z.lt_trans _ ell); [lia|]. vm_compute. reflexivity. }
    split; [intros a b x y _ _ H; apply R in H as [H ->]; [split; [apply toy_eq, H|reflexivity]|apply B|apply B]|].
    intros a _. apply S, B.
  - cbn. repeat constructor; vm_compute; first [reflexivity|discriminate].
Qed.
Example C96_met_eq :
  user_eqb (sample_user_coded sample_coded) (sample_user_coded sample_coded) = true /\
  user_eqb (sample_user_coded sample_coded) (set_credential (sample_user_coded sample_coded)
    {| cr_mac := cr_mac sample_coded; cr_attributes := [259] |}) = false /\
  mac_verify (E := toy) secret_key_default {| tag_nonce := pt 5; tag_mac := pzero |} [1; 2; 3] = Ok tt /\
  mac_verify (E := toy) secret_key_default {| tag_nonce := pt 5; tag_mac := pt 5 |} [1; 2; 3] = Err AuthenticationError /\
  us_credential (sample_user_coded sample_coded) <> None.
Proof. split; [|split; [|split; [|split]]]; [vm_compute; reflexivity..|discriminate]. Qed.
