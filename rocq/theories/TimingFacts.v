(** Facts about timed computations: their results, and relating two runs. *)
From Verif Require Export BaseFacts ModelTiming.

(** ** Results *)
Lemma snd_tbind {A B} (m : timed A) (k : A -> timed B) : snd (tbind m k) = snd (k (snd m)).
Proof. reflexivity. Qed.
Lemma snd_pass {Er A B} (m : timed (outcome Er A)) (k : A -> timed (outcome Er B)) :
  snd (pass m k) = bind (snd m) (fun a => snd (k a)).
Proof. unfold pass. rewrite snd_tbind. destruct (snd m); reflexivity. Qed.
Lemma snd_attempt {Er A} (m : timed (outcome Er A)) : snd (attempt m) = snd m.
Proof. reflexivity. Qed.
Lemma snd_now {A} (a : A) : snd (now a) = a. Proof. reflexivity. Qed.
Lemma snd_seen {A} e (a : A) : snd (seen e a) = a. Proof. reflexivity. Qed.
Lemma snd_t_if b : snd (t_if b) = b. Proof. reflexivity. Qed.
Lemma snd_t_or a b : snd (t_or a b) = a || b.
Proof. unfold t_or. rewrite snd_tbind, snd_t_if. destruct a; reflexivity. Qed.
Lemma snd_t_map_err {Er F A} (f : Er -> F) (m : timed (outcome Er A)) : snd (t_map_err f m) = map_err f (snd m).
Proof. reflexivity. Qed.
Lemma snd_t_index {Er A} (l : list A) i : snd (@t_index Er A l i) = or_panic (index l i).
Proof. reflexivity. Qed.
Lemma snd_t_array_set {Er} i v l : snd (@t_array_set Er i v l) = or_panic (array_set i v l).
Proof. reflexivity. Qed.
Lemma snd_t_bytes_eqb a b : snd (t_bytes_eqb a b) = bytes_eqb a b.
Proof. reflexivity. Qed.
Lemma bind_same {Er A B} (x : outcome Er A) (f g : A -> outcome Er B) :
  (forall a, f a = g a) -> bind x f = bind x g.
Proof. intros H. destruct x; cbn; auto. Qed.
Lemma bind_equal {Er A B} (x y : outcome Er A) (f g : A -> outcome Er B) :
  x = y -> (forall a, f a = g a) -> bind x f = bind y g.
Proof. intros ->. apply bind_same. Qed.
Lemma snd_t_try_map {Er A B} (f : A -> timed (outcome Er B)) g l :
  (forall x, snd (f x) = g x) -> snd (t_try_map f l) = try_map g l.
Proof.
  intros H. induction l as [|x l IH]; [reflexivity|]. cbn [t_try_map try_map].
  rewrite snd_tbind, snd_pass, H. apply bind_same. intros y. rewrite snd_pass, IH. apply bind_same.
  intros ys. reflexivity.
Qed.

#[global] Hint Rewrite @snd_tbind @snd_pass @snd_attempt @snd_now @snd_seen snd_t_if snd_t_or @snd_t_map_err
  @snd_t_index @snd_t_array_set snd_t_bytes_eqb : timed.

(** Follows a timed function and its model side by side. *)
Ltac same_step :=
  first
  [ reflexivity
  | progress autorewrite with timed
  | match goal with |- bind ?x _ = bind ?x _ => apply bind_same; intros end
  | match goal with |- context [let (_, _) := ?p in _] => destruct p end
  | match goal with |- context [if ?c then _ else _] => destruct c end ].
Ltac same_result := repeat same_step.

(** ** Traces *)
Lemma fst_tbind {A B} (m : timed A) (k : A -> timed B) : fst (tbind m k) = (fst m ++ fst (k (snd m)))%list.
Proof. reflexivity. Qed.
Lemma fst_pass {Er A B} (m : timed (outcome Er A)) (k : A -> timed (outcome Er B)) :
  fst (pass m k) = (fst m ++ match snd m with Ok a => fst (k a) | _ => [] end)%list.
Proof. unfold pass. rewrite fst_tbind. destruct (snd m); reflexivity. Qed.
Lemma fst_attempt {Er A} (m : timed (outcome Er A)) : fst (attempt m) = (fst m ++ [Branch (is_ok (snd m))])%list.
Proof. unfold attempt. rewrite !fst_tbind. reflexivity. Qed.

(** ** Two runs: the same trace, and related results. *)
Definition alike {A B} (R : A -> B -> Prop) (m1 : timed A) (m2 : timed B) : Prop :=
  fst m1 = fst m2 /\ R (snd m1) (snd m2).

Definition both {Er A B} (R : A -> B -> Prop) (o1 : outcome Er A) (o2 : outcome Er B) : Prop :=
  match o1, o2 with
  | Ok a, Ok b => R a b
  | Ok _, _ | _, Ok _ => False
  | _, _ => True
  end.

Definition any {A B} (_ : A) (_ : B) : Prop := True.

Lemma alike_bind {A B A' B'} (R : A -> B -> Prop) (R' : A' -> B' -> Prop) m1 m2 k1 k2 :
  alike R m1 m2 -> (forall a b, R a b -> alike R' (k1 a) (k2 b)) -> alike R' (tbind m1 k1) (tbind m2 k2).
Proof.
  intros [H1 H2] Hk. destruct (Hk _ _ H2) as [K1 K2]. split; [|exact K2].
  rewrite !fst_tbind, H1, K1. reflexivity.
Qed.
Lemma alike_now {A B} (R : A -> B -> Prop) a b : R a b -> alike R (now a) (now b).
Proof. intros H. split; [reflexivity|exact H]. Qed.
Lemma alike_seen {A B} (R : A -> B -> Prop) e a b : R a b -> alike R (seen e a) (seen e b).
Proof. intros H. split; [reflexivity|exact H]. Qed.
Lemma alike_if b : alike eq (t_if b) (t_if b).
Proof. split; reflexivity. Qed.
Lemma alike_or a b : alike eq (t_or a b) (t_or a b).
Proof. split; reflexivity. Qed.
Lemma alike_pass {Er A B A' B'} (R : A -> B -> Prop) (R' : A' -> B' -> Prop)
    (m1 : timed (outcome Er A)) (m2 : timed (outcome Er B)) k1 k2 :
  alike (both R) m1 m2 -> (forall a b, R a b -> alike (both R') (k1 a) (k2 b)) ->
  alike (both R') (pass m1 k1) (pass m2 k2).
Proof.
  intros H Hk. apply (alike_bind _ _ _ _ _ _ H). intros [a|e|] [b|e'|] K; cbn in K; try contradiction; auto;
  split; cbn; auto.
Qed.
Lemma alike_attempt {Er A B} (R : A -> B -> Prop) (m1 : timed (outcome Er A)) (m2 : timed (outcome Er B)) :
  alike (both R) m1 m2 -> alike (both R) (attempt m1) (attempt m2).
Proof.
  intros [H1 H2]. split; [|exact H2]. rewrite !fst_attempt, H1. f_equal. f_equal. f_equal.
  destruct (snd m1), (snd m2); cbn in *; tauto.
Qed.
Lemma alike_map_err {Er F A B} (R : A -> B -> Prop) (f g : Er -> F) m1 m2 :
  alike (both R) m1 m2 -> alike (both R) (t_map_err f m1) (t_map_err g m2).
Proof.
  intros [H1 H2]. split; [unfold t_map_err; rewrite !fst_tbind, H1; reflexivity|].
  rewrite !snd_t_map_err. destruct (snd m1), (snd m2); cbn in *; tauto.
Qed.
Lemma index_both {Er A B} (l1 : list A) (l2 : list B) i : List.length l1 = List.length l2 ->
  @both Er _ _ any (or_panic (index l1 i)) (or_panic (index l2 i)).
Proof.
  intros H. unfold index, any. destruct (nth_error l1 i) eqn:H1, (nth_error l2 i) eqn:H2; cbn; auto.
  - apply nth_error_None in H2. assert (nth_error l1 i <> None) as K by congruence. apply nth_error_Some in K. lia.
  - apply nth_error_None in H1. assert (nth_error l2 i <> None) as K by congruence. apply nth_error_Some in K. lia.
Qed.
Lemma nth_both {Er A B} (e e' : Er) (l1 : list A) (l2 : list B) i : List.length l1 = List.length l2 ->
  both any (ok_or e (nth_error l1 i)) (ok_or e' (nth_error l2 i)).
Proof.
  intros H. pose proof (@index_both Er _ _ l1 l2 i H) as K. unfold index in K.
  destruct (nth_error l1 i), (nth_error l2 i); cbn in *; tauto.
Qed.
Lemma alike_index {Er A B} (l1 : list A) (l2 : list B) i : List.length l1 = List.length l2 ->
  alike (both any) (@t_index Er A l1 i) (@t_index Er B l2 i).
Proof. intros H. apply alike_attempt, alike_seen, index_both, H. Qed.

Lemma alike_weaken {A B} (R R' : A -> B -> Prop) m1 m2 : (forall a b, R a b -> R' a b) ->
  alike R m1 m2 -> alike R' m1 m2.
Proof. intros H [H1 H2]. split; auto. Qed.

(** ** Two runs which both succeed. *)
Definition sure {Er A B} (R : A -> B -> Prop) (m1 : timed (outcome Er A)) (m2 : timed (outcome Er B)) : Prop :=
  forall a b, snd m1 = Ok a -> snd m2 = Ok b -> fst m1 = fst m2 /\ R a b.

Lemma sure_pass {Er A B A' B'} (R : A -> B -> Prop) (R' : A' -> B' -> Prop)
    (m1 : timed (outcome Er A)) (m2 : timed (outcome Er B)) k1 k2 :
  sure R m1 m2 -> (forall a b, R a b -> sure R' (k1 a) (k2 b)) -> sure R' (pass m1 k1) (pass m2 k2).
Proof.
  intros H Hk a b. rewrite !snd_pass, !fst_pass.
  destruct (snd m1) as [x| |] eqn:H1; cbn; try discriminate.
  destruct (snd m2) as [y| |] eqn:H2; cbn; try discriminate.
  intros K1 K2. destruct (H x y H1 H2) as [T HR]. destruct (Hk x y HR a b K1 K2) as [T' HR'].
  rewrite T, T'. auto.
Qed.
Lemma sure_attempt {Er A B} (R : A -> B -> Prop) (m1 : timed (outcome Er A)) (m2 : timed (outcome Er B)) :
  sure R m1 m2 -> sure R (attempt m1) (attempt m2).
Proof.
  intros H a b H1 H2. rewrite snd_attempt in H1. rewrite snd_attempt in H2. destruct (H a b H1 H2) as [T HR]. split; [|exact HR].
  rewrite !fst_attempt, T, H1, H2. reflexivity.
Qed.
Lemma sure_now {Er A B} (o1 : outcome Er A) (o2 : outcome Er B) :
  sure (fun a b => o1 = Ok a /\ o2 = Ok b) (now o1) (now o2).
Proof. intros a b H1 H2. cbn in *. auto. Qed.
Lemma sure_ok {Er A B} (R : A -> B -> Prop) a b : R a b -> sure (Er := Er) R (now (Ok a)) (now (Ok b)).
Proof. intros H x y H1 H2. cbn in *. split; [reflexivity|]. congruence. Qed.
Lemma sure_bind {Er A B A' B'} (R : A -> B -> Prop) (R' : A' -> B' -> Prop) m1 m2
    (k1 : A -> timed (outcome Er A')) (k2 : B -> timed (outcome Er B')) :
  alike R m1 m2 -> (forall a b, R a b -> sure R' (k1 a) (k2 b)) -> sure R' (tbind m1 k1) (tbind m2 k2).
Proof.
  intros [H1 H2] Hk a b K1 K2. destruct (Hk _ _ H2 a b K1 K2) as [T HR]. split; [|exact HR].
  rewrite !fst_tbind, H1, T. reflexivity.
Qed.
Lemma sure_map_err {Er F A B} (R : A -> B -> Prop) (f g : Er -> F) m1 m2 :
  sure R m1 m2 -> sure R (t_map_err f m1) (t_map_err g m2).
Proof.
  intros H a b. rewrite !snd_t_map_err. destruct (snd m1) eqn:H1, (snd m2) eqn:H2; cbn; try discriminate.
  intros K1 K2. injection K1 as ->. injection K2 as ->. destruct (H a b H1 H2) as [T HR]. split; [|exact HR].
  rewrite T. reflexivity.
Qed.
Lemma sure_try_map {Er A B A' B'} (f1 : A -> timed (outcome Er A')) (f2 : B -> timed (outcome Er B')) l1 l2 :
  List.length l1 = List.length l2 -> (forall x y, sure any (f1 x) (f2 y)) ->
  sure any (t_try_map f1 l1) (t_try_map f2 l2).
Proof.
  intros H Hf. revert l2 H. induction l1 as [|x l1 IH]; intros [|y l2] H; try discriminate H.
  - intros a b _ _. split; [reflexivity|exact I].
  - cbn [t_try_map]. apply (sure_bind eq); [apply alike_if|]. intros _ _ _.
    apply (sure_pass any); [apply Hf|]. intros u v _. apply (sure_pass any); [apply IH; now injection H|].
    intros us vs _. apply sure_ok. exact I.
Qed.
Lemma sure_weaken {Er A B} (R R' : A -> B -> Prop) (m1 : timed (outcome Er A)) (m2 : timed (outcome Er B)) :
  (forall a b, R a b -> R' a b) -> sure R m1 m2 -> sure R' m1 m2.
Proof. intros H K a b H1 H2. destruct (K a b H1 H2). auto. Qed.
