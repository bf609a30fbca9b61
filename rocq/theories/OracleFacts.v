(** Facts about the forgery game with proofs of issuance: they are of no use to
    the adversary, which could have made them up itself. *)
From Verif Require Export SpecOracle GameFacts ProofFacts PropertiesGame.
From Coq Require Import Setoid.
Local Open Scope Z_scope.

(** ** Counting *)
Section fibres.
  Context {A B : Type} (B_dec : forall x y : B, {x = y} + {x <> y}).
  Definition fibre (f : A -> B) (b : B) (l : list A) : list A := filter (fun a => if B_dec (f a) b then true else false) l.
  Lemma in_fibre f b l a : In a (fibre f b l) <-> In a l /\ f a = b.
  Proof. unfold fibre. rewrite filter_In. destruct (B_dec (f a) b); intuition congruence. Qed.
  Lemma fibre_bound (f : A -> B) (T : list B) D : 0 <= D ->
    forall l, (forall a, In a l -> In (f a) T) ->
    (forall b, In b T -> Z.of_nat (List.length (fibre f b l)) * ell <= D) ->
    Z.of_nat (List.length l) * ell <= Z.of_nat (List.length T) * D.
  Proof.
    intros HD. pose proof ell_pos as Hell. induction T as [|b T IH]; intros l Hin HT.
    - destruct l as [|a l]; [cbn; lia|]. destruct (Hin a (or_introl eq_refl)).
    - set (rest := filter (fun a => if B_dec (f a) b then false else true) l).
      assert (Hl : List.length l = (List.length (fibre f b l) + List.length rest)%nat).
      { unfold fibre, rest. clear. induction l as [|a l IHl]; [reflexivity|]. cbn [filter].
        destruct (B_dec (f a) b); cbn [List.length]; lia. }
      assert (Hr : Z.of_nat (List.length rest) * ell <= Z.of_nat (List.length T) * D).
      { apply IH.
        - intros a Ha. unfold rest in Ha. apply filter_In in Ha as [Ha Hn]. destruct (B_dec (f a) b) as [|Hne]; [discriminate|].
          destruct (Hin a Ha) as [He|He]; [congruence|exact He].
        - intros b' Hb'. etransitivity; [|apply (HT b' (or_intror Hb'))]. apply Z.mul_le_mono_nonneg_r; [lia|]. apply inj_le.
          clear. unfold rest, fibre. clear rest. induction l as [|a l IHl]; [cbn; lia|]. cbn [filter].
          destruct (B_dec (f a) b); cbn [filter]; destruct (B_dec (f a) b'); cbn [List.length]; lia. }
      specialize (HT b (or_introl eq_refl)). rewrite Hl. cbn [List.length]. nia.
  Qed.
End fibres.

(** Lists of elements of [U]. *)
Section lists.
  Context {A : Type} (U : list A).
  Fixpoint lists (n : nat) : list (list A) :=
    match n with
    | O => [[]]
    | S n' => flat_map (fun u => map (cons u) (lists n')) U
    end.
  Lemma in_lists n v : In v (lists n) <-> List.length v = n /\ Forall (fun u => In u U) v.
  Proof.
    revert v; induction n as [|n IH]; intros v; cbn [lists].
    - split; [intros [<-|[]]; auto|]. intros [H _]. destruct v; [left; reflexivity|discriminate].
    - rewrite in_flat_map. split.
      + intros (u & Hu & H). apply in_map_iff in H as (w & <- & Hw). apply IH in Hw as [Hl Hf].
        split; [cbn; congruence|]. constructor; assumption.
      + intros [Hl Hf]. destruct v as [|u v]; [discriminate|]. inversion Hf; subst.
        exists u. split; [assumption|]. apply in_map. apply IH. split; [cbn in Hl; congruence|assumption].
  Qed.
  Lemma flat_map_length {B} (g : A -> list B) (n : nat) (V : list A) : (forall u, In u V -> List.length (g u) = n) ->
    List.length (flat_map g V) = (List.length V * n)%nat.
  Proof.
    induction V as [|u V IH]; intros H; [reflexivity|]. cbn [flat_map List.length]. rewrite app_length, IH, (H u); [reflexivity|left; reflexivity|].
    intros; apply H; right; assumption.
  Qed.
  Lemma lists_length n : Z.of_nat (List.length (lists n)) = Z.of_nat (List.length U) ^ Z.of_nat n.
  Proof.
    induction n as [|n IH]; [reflexivity|]. cbn [lists].
    rewrite (flat_map_length _ (List.length (lists n))) by (intros; apply map_length).
    rewrite Nat2Z.inj_mul, IH, Nat2Z.inj_succ, Z.pow_succ_r by lia. reflexivity.
  Qed.
  Lemma count_flat_map {B} (f : B -> bool) (g : A -> list B) (V : list A) z D :
    (forall u, In u V -> count f (g u) * z <= D) -> count f (flat_map g V) * z <= Z.of_nat (List.length V) * D.
  Proof.
    induction V as [|u V IH]; intros H; [cbn; lia|]. cbn [flat_map List.length]. rewrite count_app.
    pose proof (H u (or_introl eq_refl)). specialize (IH (fun u Hu => H u (or_intror Hu))). lia.
  Qed.
  (** Elements that are [bad] count in full. *)
  Lemma count_flat_map_bad {B} (f : B -> bool) (g : A -> list B) (bad : A -> bool) (V : list A) z D F : 0 <= D ->
    (forall u, In u V -> count f (g u) * z <= F) -> (forall u, In u V -> bad u = false -> count f (g u) * z <= D) ->
    count f (flat_map g V) * z <= count bad V * F + Z.of_nat (List.length V) * D.
  Proof.
    intros HD. induction V as [|u V IH]; intros HF H; [cbn; lia|]. cbn [flat_map List.length]. rewrite count_app, count_cons.
    pose proof (HF u (or_introl eq_refl)). pose proof (H u (or_introl eq_refl)).
    specialize (IH (fun u Hu => HF u (or_intror Hu)) (fun u Hu => H u (or_intror Hu))).
    destruct (bad u); [|specialize (H1 eq_refl)]; lia.
  Qed.
End lists.

(** Pairs of lists. *)
Section pairs_of_lists.
  Context {A B : Type} (U : list A) (V : list B).
  Definition all_pairs (n m : nat) : list (list A * list B) := list_prod (lists U n) (lists V m).
  Lemma all_pairs_length n m : Z.of_nat (List.length (all_pairs n m)) =
    Z.of_nat (List.length U) ^ Z.of_nat n * Z.of_nat (List.length V) ^ Z.of_nat m.
  Proof. unfold all_pairs. rewrite prod_length, Nat2Z.inj_mul, !lists_length. reflexivity. Qed.
  Lemma in_all_pairs n m a b : In (a, b) (all_pairs n m) <->
    (List.length a = n /\ Forall (fun u => In u U) a) /\ (List.length b = m /\ Forall (fun v => In v V) b).
  Proof. unfold all_pairs. rewrite in_prod_iff, !in_lists. reflexivity. Qed.
  Lemma list_prod_app {X Y} (l l' : list X) (m : list Y) : list_prod (l ++ l') m = (list_prod l m ++ list_prod l' m)%list.
  Proof. induction l as [|x l IH]; [reflexivity|]. cbn [app list_prod]. rewrite IH, app_assoc. reflexivity. Qed.
  Lemma list_prod_map {X Y Z'} (g : X -> Y) (l : list X) (m : list Z') :
    list_prod (map g l) m = map (fun p => (g (fst p), snd p)) (list_prod l m).
  Proof. induction l as [|x l IH]; [reflexivity|]. cbn [map list_prod]. rewrite IH, map_app, map_map. reflexivity. Qed.
  Lemma first_coins n m : all_pairs (S n) m = flat_map (fun u => map (fun p => (u :: fst p, snd p)) (all_pairs n m)) U.
  Proof.
    unfold all_pairs. cbn [lists]. generalize (lists U n) (lists V m). intros l l'. induction U as [|u U' IH]; [reflexivity|].
    cbn [flat_map]. rewrite list_prod_app, list_prod_map, IH. reflexivity.
  Qed.
  Lemma count_prod_app {X Y} (f : X * Y -> bool) (l : list X) (m m' : list Y) :
    count f (list_prod l (m ++ m')) = count f (list_prod l m) + count f (list_prod l m').
  Proof.
    induction l as [|x l IH]; [reflexivity|]. cbn [list_prod]. rewrite !count_app, map_app, count_app, IH. lia.
  Qed.
  Lemma count_prod_nil {X Y} (f : X * Y -> bool) (l : list X) : count f (list_prod l []) = 0.
  Proof. induction l as [|x l IH]; [reflexivity|]. exact IH. Qed.
  Lemma count_prod_map {X Y Z'} (f : X * Z' -> bool) (g : Y -> Z') (l : list X) (m : list Y) :
    count f (list_prod l (map g m)) = count (fun p => f (fst p, g (snd p))) (list_prod l m).
  Proof.
    induction l as [|x l IH]; [reflexivity|]. cbn [list_prod]. rewrite !count_app, IH, !count_map. reflexivity.
  Qed.
  Lemma first_value (f : list A * list B -> bool) n m z D :
    (forall v, In v V -> count (fun p => f (fst p, v :: snd p)) (all_pairs n m) * z <= D) ->
    count f (all_pairs n (S m)) * z <= Z.of_nat (List.length V) * D.
  Proof.
    unfold all_pairs. cbn [lists]. generalize (lists U n) (lists V m). intros l l'. induction V as [|v V' IH]; intros H.
    - cbn [flat_map List.length]. rewrite count_prod_nil. lia.
    - cbn [flat_map List.length]. rewrite count_prod_app, count_prod_map.
      pose proof (H v (or_introl eq_refl)). specialize (IH (fun v Hv => H v (or_intror Hv))). lia.
  Qed.
End pairs_of_lists.

Lemma count_one (f : Z -> bool) (l : list Z) : NoDup l -> (forall x y, In x l -> In y l -> f x = true -> f y = true -> x = y) -> count f l <= 1.
Proof.
  intros Hnd. induction Hnd as [|a l Hn Hnd IH]; intros H; [cbn; lia|]. rewrite count_cons. destruct (f a) eqn:Ha.
  - rewrite count_false; [lia|]. intros b Hb. apply Bool.not_true_iff_false. intros Hf. apply Hn.
    rewrite (H a b (or_introl eq_refl) (or_intror Hb) Ha Hf). exact Hb.
  - apply IH. intros x y Hx Hy. apply H; right; assumption.
Qed.
Lemma count_exists {A} (f : A -> Z -> bool) (T : list A) (l : list Z) :
  (forall e, In e T -> count (f e) l <= 1) -> count (fun x => existsb (fun e => f e x) T) l <= Z.of_nat (List.length T).
Proof.
  induction T as [|e T IH]; intros H.
  - rewrite count_false; [cbn; lia|reflexivity].
  - pose proof (H e (or_introl eq_refl)) as He. specialize (IH (fun e He => H e (or_intror He))).
    pose proof (count_or (fun x => existsb (fun e => f e x) (e :: T)) (f e) (fun x => existsb (fun e => f e x) T) l) as Hor.
    cbn [List.length]. etransitivity; [apply Hor|lia]. intros x _. cbn [existsb]. apply Bool.orb_true_iff.
Qed.

(** ** Combinations *)
Fixpoint add_comb (a b : list scalar) : list scalar :=
  match a, b with
  | [], _ => b
  | _, [] => a
  | x :: a', y :: b' => (x + y) :: add_comb a' b'
  end.
Definition scale_comb (z : scalar) (a : list scalar) : list scalar := map (Z.mul z) a.
Definition diff_comb (a b : list scalar) : list scalar := add_comb a (scale_comb (-1) b).

Section combinations.
  Context {E : Ext} (L : ExtLaws E).
  Implicit Types held : list (point E).

  Lemma add_comb_hd a b : hd 0 (add_comb a b) = hd 0 a + hd 0 b.
  Proof. destruct a as [|x a], b as [|y b]; cbn; zring. Qed.
  Lemma add_comb_tl a b : tl (add_comb a b) = add_comb (tl a) (tl b).
  Proof. destruct a as [|x a], b as [|y b]; cbn; try reflexivity. destruct a; reflexivity. Qed.
  Lemma combination_add a b held : combination (add_comb a b) held = padd (combination a held) (combination b held).
  Proof.
    revert a b; induction held as [|P held IH]; intros a b; cbn [combination].
    - symmetry. apply (padd_zero_r L).
    - rewrite add_comb_hd, add_comb_tl, IH. generalize (hd 0 a) (hd 0 b) (combination (tl a) held) (combination (tl b) held).
      intros x y U V. dlogs L. to_base L. apply (smul_base_iff L). apply eqm_of_eq; zring.
  Qed.
  Lemma combination_scale z a held : combination (scale_comb z a) held = smul z (combination a held).
  Proof.
    revert a; induction held as [|P held IH]; intros a; cbn [combination].
    - symmetry. apply (smul_pzero L).
    - replace (hd 0 (scale_comb z a)) with (z * hd 0 a) by (destruct a; cbn; zring).
      replace (tl (scale_comb z a)) with (scale_comb z (tl a)) by (destruct a; reflexivity).
      rewrite IH. generalize (hd 0 a) (combination (tl a) held). intros x V. dlogs L. to_base L.
      apply (smul_base_iff L). apply eqm_of_eq; zring.
  Qed.
  Lemma combination_diff a b held : combination (diff_comb a b) held = pzero <-> combination a held = combination b held.
  Proof.
    unfold diff_comb. rewrite combination_add, combination_scale.
    destruct (basepoint_generates E L (combination a held)) as [u ->].
    destruct (basepoint_generates E L (combination b held)) as [v ->].
    to_base L. rewrite !(smul_base_iff L). rewrite (eqm_sub_0 u v). replace (u + -1 * v) with (u - v) by zring. reflexivity.
  Qed.
  Lemma combination_firstn c held new : combination (firstn (List.length held) c) (held ++ new) = combination c held.
  Proof.
    revert c; induction held as [|P held IH]; intros c; cbn [List.length firstn app].
    - apply (combination_nil L).
    - cbn [combination]. destruct c as [|x c]; cbn [hd tl].
      + rewrite (combination_nil L), (combination_nil L). reflexivity.
      + rewrite IH. reflexivity.
  Qed.
  Lemma combination_firstn_same c held : combination (firstn (List.length held) c) held = combination c held.
  Proof. rewrite <- (combination_firstn c held []), app_nil_r. reflexivity. Qed.
  Lemma combination_short c held new : (List.length c <= List.length held)%nat -> combination c (held ++ new) = combination c held.
  Proof. intros H. rewrite <- (combination_firstn c held new), firstn_all2 by exact H. reflexivity. Qed.
  Lemma at_place_length j (c : scalar) : List.length (at_place j c) = S j.
  Proof. induction j as [|j IH]; [reflexivity|]. cbn [at_place List.length]. rewrite IH. reflexivity. Qed.
  Lemma add_comb_length a b : List.length (add_comb a b) = Nat.max (List.length a) (List.length b).
  Proof. revert b; induction a as [|x a IH]; intros [|y b]; cbn [add_comb List.length]; try lia. rewrite IH. lia. Qed.

  Lemma points_eqb_iff (u v : list (point E)) : points_eqb u v = true <-> u = v.
  Proof.
    revert v; induction u as [|P u IH]; intros [|Q v]; cbn [points_eqb]; try (split; [discriminate|discriminate]); [tauto|].
    rewrite Bool.andb_true_iff, IH. split.
    - intros [H ->]. apply (peqb_true L) in H. rewrite H. reflexivity.
    - intros [= -> ->]. split; [apply (peqb_true L); reflexivity|reflexivity].
  Qed.
End combinations.

(** ** Making up the proofs *)

(** The points hashed for a proof, as combinations; [n] points are held before. *)
Definition made_up (n : nat) (c : scalar) (s : ir_Scalars) : list (list scalar) :=
  [at_place n 1; at_place (1 + n) 1; at_place (2 + n) 1; at_place 1 1; at_place 2 1; at_place 3 1;
   add_comb (at_place n (irs_x0 s + irs_m1x1 s)) (at_place (1 + n) (-c));
   add_comb (at_place 1 (irs_x0 s)) (add_comb (at_place 2 (irs_x0_tilde s)) (at_place (2 + n) (-c)));
   add_comb (at_place 2 (irs_x1 s)) (at_place 3 (-c))].

(** Looking for points in the table, with tests. *)
Fixpoint equal_tests (u v : list (list scalar)) (yes no : adversary) : adversary :=
  match u, v with
  | [], [] => yes
  | a :: u', b :: v' => Test (diff_comb a b) (equal_tests u' v' yes no) no
  | _, _ => no
  end.
Fixpoint search (table : list (list (list scalar) * scalar)) (u : list (list scalar)) (found : scalar -> adversary) (not_found : adversary)
  : adversary :=
  match table with
  | [] => not_found
  | (v, c) :: table' => equal_tests v u (found c) (search table' u found not_found)
  end.

(** The adversary without proofs: it is given responses and values of the hash
    beforehand. *)
Fixpoint strip (n : nat) (responses : list ir_Scalars) (values : list scalar) (table : list (list (list scalar) * scalar))
    (o : observer) : adversary :=
  match o with
  | OStop => Stop
  | OAsk m next =>
    match responses, values with
    | s :: responses', c :: values' =>
      Ask [m] (strip (3 + n) responses' values' ((made_up n c s, c) :: table) (next c s))
    | _, _ => Stop
    end
  | OHash points next =>
    if Nat.eqb (List.length points) 9 then
      search table (map (firstn n) points)
        (fun c => strip n responses values table (next c))
        (match values with
         | [] => Stop
         | c :: values' => strip n responses values' ((map (firstn n) points, c) :: table) (next c)
         end)
    else Stop
  | OTest c yes no => Test c (strip n responses values table yes) (strip n responses values table no)
  | OTry cP cQ m yes no => Try cP cQ m (strip n responses values table yes) (strip n responses values table no)
  end.

Lemma equal_tests_checks u v yes no : (checks (equal_tests u v yes no) <= List.length v + Nat.max (checks yes) (checks no))%nat.
Proof.
  revert v; induction u as [|a u IH]; intros [|b v]; cbn [equal_tests checks List.length]; try lia.
  specialize (IH v). lia.
Qed.
Lemma search_checks table u found not_found d : (forall c, checks (found c) <= d)%nat -> (checks not_found <= d)%nat ->
  (checks (search table u found not_found) <= List.length u * List.length table + d)%nat.
Proof.
  intros Hf Hn. induction table as [|[v c] table IH]; cbn [search List.length]; [lia|].
  etransitivity; [apply equal_tests_checks|]. specialize (Hf c). nia.
Qed.
Lemma strip_checks q h o M : within q h o -> forall n responses values table,
  (List.length table + List.length values <= M)%nat ->
  (checks (strip n responses values table o) <= q + 9 * M * h)%nat.
Proof.
  induction 1 as [q h|q h m next _ IH|q h points next _ IH|q h c yes no _ IH1 _ IH2|q h cP cQ m yes no _ IH1 _ IH2];
    intros n responses values table HM; cbn [strip].
  - cbn. lia.
  - destruct responses as [|s responses], values as [|c values]; cbn [checks]; try lia.
    apply IH. cbn [List.length] in *. lia.
  - destruct (Nat.eqb_spec (List.length points) 9) as [Hl|Hl]; [|cbn; lia].
    etransitivity; [apply (search_checks _ _ _ _ (q + 9 * M * h))|].
    + intros c. apply IH. exact HM.
    + destruct values as [|c values]; [cbn; lia|]. apply IH. cbn [List.length] in *. lia.
    + rewrite map_length, Hl. nia.
  - cbn [checks]. specialize (IH1 n responses values table HM). specialize (IH2 n responses values table HM). lia.
  - cbn [checks]. specialize (IH1 n responses values table HM). specialize (IH2 n responses values table HM). lia.
Qed.

Lemma option_map_none {A B} (f : A -> B) w :
  match option_map f w with Some _ => false | None => true end = true ->
  match w with Some _ => false | None => true end = true.
Proof. destruct w; cbn; congruence. Qed.
Lemma some_inv {A} (a b : A) : Some a = Some b -> a = b.
Proof. congruence. Qed.
Lemma cons_inv {A} (a b : A) l m : a :: l = b :: m -> a = b /\ l = m.
Proof. intros [= -> ->]. auto. Qed.

Section seeing.
  Context {E : Ext} (L : ExtLaws E) (params : SystemParameters E).

  Section one_key.
  Context (x0 x1 : scalar).
  Let k : SecretKey := {| sk_x0 := x0; sk_xn := [x1] |}.

  (** A run of the game: [None] if the points of a proof had been hashed before,
      else the responses, and the scalars of the proofs not made. *)
  Fixpoint watch (coins : list (scalar * scalar * ir_Scalars)) (table : list (list (point E) * scalar)) (values : list scalar)
      (o : observer) (held : list (point E)) (asked : list (list scalar)) : option (list ir_Scalars) :=
    match o with
    | OStop => Some (map snd coins)
    | OAsk m next =>
      match coins with
      | [] => Some []
      | (b, y, r) :: coins' =>
        match mac_with k [m] b with
        | Ok t =>
          let p := issued_statement x0 x1 params t y in
          let u := hashed_points p (ir_image p r) in
          match find (fun e => points_eqb (fst e) u) table with
          | Some _ => None
          | None =>
            match values with
            | [] => Some (map snd coins)
            | c :: values' =>
              let s := respond c (issued_secrets x0 x1 m y) r in
              option_map (cons s) (watch coins' ((u, c) :: table) values' (next c s) (held ++ issued_points k params t y) (asked ++ [[m]]))
            end
          end
        | _ => Some (map snd coins)
        end
      end
    | OHash points next =>
      if Nat.eqb (List.length points) 9 then
        match hash table values (map (fun c => combination c held) points) with
        | None => Some (map snd coins)
        | Some (c, table', values') => watch coins table' values' (next c) held asked
        end
      else Some (map snd coins)
    | OTest c yes no =>
      if peqb (combination c held) pzero
      then watch coins table values yes held asked
      else watch coins table values no held asked
    | OTry cP cQ m yes no =>
      let tag := {| tag_nonce := combination cP held; tag_mac := combination cQ held |} in
      match mac_verify k tag m with
      | Ok _ =>
        if Nat.eqb (List.length m) 1 && fresh m asked && negb (peqb (tag_nonce tag) pzero) then Some (map snd coins)
        else watch coins table values yes held asked
      | _ => watch coins table values no held asked
      end
    end.

  Definition eval_table (held : list (point E)) (sym : list (list (list scalar) * scalar)) : list (list (point E) * scalar) :=
    map (fun e => (map (fun c => combination c held) (fst e), snd e)) sym.
  Definition short (n : nat) (sym : list (list (list scalar) * scalar)) : Prop :=
    Forall (fun e => Forall (fun c => List.length c <= n)%nat (fst e)) sym.
  Definition has_public (held : list (point E)) : Prop :=
    nth_error held 1 = Some (sp_g params) /\ nth_error held 2 = Some (sp_h params) /\ nth_error held 3 = Some (smul x1 (sp_h params)).

  Lemma eval_table_grow held new sym : short (List.length held) sym -> eval_table (held ++ new) sym = eval_table held sym.
  Proof.
    intros H. unfold eval_table. apply map_ext_in. intros [e c] He. cbn [fst snd]. f_equal. apply map_ext_in. intros a Ha.
    apply (combination_short L). unfold short in H. rewrite Forall_forall in H. specialize (H _ He). cbn [fst] in H.
    rewrite Forall_forall in H. apply H, Ha.
  Qed.
  Lemma short_grow n n' sym : (n <= n')%nat -> short n sym -> short n' sym.
  Proof.
    intros Hn. unfold short. apply Forall_impl. intros e. apply Forall_impl. intros c. lia.
  Qed.
  Lemma equal_tests_spec coins u v yes no held asked :
    forges k params coins (equal_tests u v yes no) held asked =
    if points_eqb (map (fun c => combination c held) u) (map (fun c => combination c held) v)
    then forges k params coins yes held asked else forges k params coins no held asked.
  Proof.
    revert v; induction u as [|a u IH]; intros [|b v]; try reflexivity.
    cbn [equal_tests forges map points_eqb]. rewrite IH.
    assert (He : peqb (combination (diff_comb a b) held) pzero = peqb (combination a held) (combination b held)).
    { apply Bool.eq_true_iff_eq. rewrite !(peqb_true L). apply (combination_diff L). }
    rewrite He. destruct (peqb (combination a held) (combination b held)); reflexivity.
  Qed.
  Lemma search_spec coins sym u found not_found held asked :
    forges k params coins (search sym u found not_found) held asked =
    match find (fun e => points_eqb (fst e) (map (fun c => combination c held) u)) (eval_table held sym) with
    | Some e => forges k params coins (found (snd e)) held asked
    | None => forges k params coins not_found held asked
    end.
  Proof.
    induction sym as [|[v c] sym IH]; [reflexivity|]. cbn [search eval_table map find fst snd].
    rewrite equal_tests_spec, IH. fold (eval_table held sym).
    destruct (points_eqb (map (fun c => combination c held) v) (map (fun c => combination c held) u)); reflexivity.
  Qed.

  Lemma mac_one m b : exists t, mac_with (E := E) k [m] b = Ok t.
  Proof. unfold mac_with, k. cbn [sk_xn List.length Nat.eqb negb]. eexists. reflexivity. Qed.
  Lemma issued_relation m b y t : mac_with k [m] b = Ok t ->
    ir_relation (issued_statement x0 x1 params t y) (issued_secrets x0 x1 m y).
  Proof.
    intros H. apply (mac_with_spec L) in H as (_ & _ & H). unfold ir_relation, issued_statement, issued_secrets, commitment_to.
    cbn [irp_P irp_Q irp_Cx0 irp_B irp_A irp_X1 irs_x0 irs_x1 irs_x0_tilde irs_m1x1].
    split; [|split; reflexivity]. rewrite H. unfold k. cbn [sk_x0 sk_xn dot]. clear - L.
    unfold s_mul. generalize (tag_nonce t). intros P. dlogs L. to_base L. apply (smul_base_iff L). eqm_push. apply eqm_of_eq; zring.
  Qed.
  Lemma made_up_spec held m b y r c t : has_public held -> mac_with k [m] b = Ok t ->
    let p := issued_statement x0 x1 params t y in
    map (fun a => combination a (held ++ issued_points k params t y))
      (made_up (List.length held) c (respond c (issued_secrets x0 x1 m y) r)) = hashed_points p (ir_image p r).
  Proof.
    intros (Hg & Hh & HX) Ht p. pose proof (issued_relation m b y t Ht) as Hrel. fold p in Hrel.
    pose proof (ir_recompute_spec L p (issued_secrets x0 x1 m y) r c Hrel) as Hrec.
    set (s := respond c (issued_secrets x0 x1 m y) r).
    change (ir_recompute {| ir_challenge := c; ir_responses := s |} p = ir_image p r) in Hrec. rewrite <- Hrec.
    set (all := (held ++ issued_points k params t y)%list).
    assert (HP : forall z, combination (at_place (List.length held) z) all = smul z (irp_P p)).
    { intros z. apply (combination_at L). unfold all. rewrite nth_error_app2, Nat.sub_diag by lia. reflexivity. }
    assert (HQ : forall z, combination (at_place (1 + List.length held) z) all = smul z (irp_Q p)).
    { intros z. apply (combination_at L). unfold all. rewrite nth_error_app2 by lia.
      replace (1 + List.length held - List.length held)%nat with 1%nat by lia. reflexivity. }
    assert (HC : forall z, combination (at_place (2 + List.length held) z) all = smul z (irp_Cx0 p)).
    { intros z. apply (combination_at L). unfold all. rewrite nth_error_app2 by lia.
      replace (2 + List.length held - List.length held)%nat with 2%nat by lia. reflexivity. }
    assert (Hlift : forall j P, nth_error held j = Some P -> nth_error all j = Some P).
    { intros j P H. unfold all. rewrite nth_error_app1; [exact H|]. apply nth_error_Some. congruence. }
    assert (HB : forall z, combination (at_place 1 z) all = smul z (irp_B p)) by (intros z; apply (combination_at L), Hlift, Hg).
    assert (HA : forall z, combination (at_place 2 z) all = smul z (irp_A p)) by (intros z; apply (combination_at L), Hlift, Hh).
    assert (HX1 : forall z, combination (at_place 3 z) all = smul z (irp_X1 p)) by (intros z; apply (combination_at L), Hlift, HX).
    unfold made_up, hashed_points. cbn [map]. rewrite !(combination_add L), !HP, !HQ, !HC, !HB, !HA, !HX1, !smul_1.
    unfold ir_recompute. cbn [irc_Q irc_Cx0 irc_X1 ir_challenge ir_responses multiscalar_mul].
    clear - L. unfold s_neg. generalize (irp_P p) (irp_Q p) (irp_Cx0 p) (irp_B p) (irp_A p) (irp_X1 p). intros P Q C B A X.
    do 6 f_equal. f_equal; [|f_equal; [|f_equal]]; rewrite (padd_zero_r L); dlogs L; to_base L;
      apply (smul_base_iff L); eqm_push; apply eqm_of_eq; zring.
  Qed.
  Lemma made_up_short n c s : (3 <= n)%nat -> Forall (fun a => List.length a <= 3 + n)%nat (made_up n c s).
  Proof.
    intros Hn. unfold made_up.
    repeat (apply Forall_cons; [rewrite ?add_comb_length, !at_place_length; lia|]). apply Forall_nil.
  Qed.

  Lemma seeing_is_nothing o : forall coins values sym held asked ss,
    has_public held -> short (List.length held) sym ->
    watch coins (eval_table held sym) values o held asked = Some ss ->
    forges_seeing x0 x1 params coins (eval_table held sym) values o held asked =
    forges k params (map fst coins) (strip (List.length held) ss values sym o) held asked.
  Proof.
    induction o as [|m next IH|points next IH|c yes IHy no IHn|cP cQ m yes IHy no IHn];
      intros coins values sym held asked ss Hpub Hs Hw; cbn [forges_seeing strip]; fold k.
    - reflexivity.
    - cbn [watch] in Hw. destruct coins as [|[[b y] r] coins].
      { cbn [map]. destruct ss, values; reflexivity. }
      destruct (mac_one m b) as [t Ht]. fold k. rewrite Ht in Hw |- *. cbv zeta in Hw |- *.
      set (p := issued_statement x0 x1 params t y) in *. set (u := hashed_points p (ir_image p r)) in *.
      unfold hash. destruct (find (fun e => points_eqb (fst e) u) (eval_table held sym)) eqn:Hfind; [discriminate|].
      destruct values as [|c values]; [destruct ss; reflexivity|].
      set (s := respond c (issued_secrets x0 x1 m y) r) in *.
      destruct (watch coins _ values (next c s) _ _) as [ss'|] eqn:Hw'; [|discriminate].
      cbn [option_map] in Hw. injection Hw as <-.
      cbn [map forges fst]. rewrite Ht.
      assert (Hlen : List.length (held ++ issued_points k params t y) = (3 + List.length held)%nat).
      { rewrite app_length. cbn [issued_points List.length]. lia. }
      assert (H3 : (3 < List.length held)%nat) by (apply nth_error_Some; destruct Hpub as (_ & _ & Hp); rewrite Hp; discriminate).
      assert (Htab : (u, c) :: eval_table held sym = eval_table (held ++ issued_points k params t y) ((made_up (List.length held) c s, c) :: sym)).
      { cbn [eval_table map fst snd]. fold (eval_table (held ++ issued_points k params t y) sym). rewrite eval_table_grow by exact Hs.
        unfold s. rewrite (made_up_spec held m b y r c t Hpub Ht). reflexivity. }
      rewrite Htab in Hw' |- *. rewrite <- Hlen. apply IH; [| |exact Hw'].
      + destruct Hpub as (P1 & P2 & P3). unfold has_public. rewrite !nth_error_app1 by lia. auto.
      + rewrite Hlen. constructor; [apply made_up_short; lia|]. apply (short_grow (List.length held)); [lia|exact Hs].
    - cbn [watch] in Hw. destruct (Nat.eqb_spec (List.length points) 9) as [Hl|Hl]; [|reflexivity].
      rewrite search_spec.
      assert (He : map (fun c => combination c held) (map (firstn (List.length held)) points) = map (fun c => combination c held) points).
      { rewrite map_map. apply map_ext. intros c. apply (combination_firstn_same L). }
      rewrite He. unfold hash in Hw |- *.
      destruct (find (fun e => points_eqb (fst e) (map (fun c => combination c held) points)) (eval_table held sym)) as [[u c]|] eqn:Hfind.
      + apply IH; assumption.
      + destruct values as [|c values]; [reflexivity|].
        assert (Htab : (map (fun c => combination c held) points, c) :: eval_table held sym =
          eval_table held ((map (firstn (List.length held)) points, c) :: sym)).
        { cbn [eval_table map fst snd]. rewrite He. reflexivity. }
        rewrite Htab in Hw |- *. apply IH; [exact Hpub| |exact Hw].
        constructor; [|exact Hs]. cbn [fst]. apply Forall_map, Forall_forall. intros a _. rewrite firstn_length. lia.
    - cbn [watch] in Hw. cbn [forges]. destruct (peqb (combination c held) pzero); [apply IHy|apply IHn]; assumption.
    - cbn [watch] in Hw. cbn [forges]. cbv zeta in Hw |- *. cbn [sk_xn k List.length] in Hw |- *.
      destruct (mac_verify k _ m) as [?|?|]; [|apply IHn; assumption|apply IHn; assumption].
      change (List.length (sk_xn k)) with 1%nat.
      destruct (_ && _); [reflexivity|apply IHy; assumption].
  Qed.

  (** The scalars of the proofs can be had back from the responses. *)
  Lemma respond_inj c s r r' : ir_canonical r -> ir_canonical r' -> respond c s r = respond c s r' -> r = r'.
  Proof.
    assert (G : forall a b b', canonical b -> canonical b' -> s_add a b = s_add a b' -> b = b').
    { intros a b b' Hb Hb' H. apply eqm_canonical; [exact Hb|exact Hb'|]. apply eqm_sub_0.
      assert (H' : a + b == a + b') by exact H. apply eqm_sub_0 in H'. rewrite <- H'. apply eqm_of_eq; zring. }
    destruct r as [a1 a2 a3 a4], r' as [b1 b2 b3 b4]. unfold ir_canonical, respond. cbn [irs_x0 irs_x1 irs_x0_tilde irs_m1x1].
    intros (A1 & A2 & A3 & A4) (B1 & B2 & B3 & B4) H. injection H as H1 H2 H3 H4.
    apply G in H1, H2, H3, H4; auto. congruence.
  Qed.
  Lemma watch_inj o : forall coins coins' table values held asked ss,
    map fst coins = map fst coins' ->
    Forall (fun u => ir_canonical (snd u)) coins -> Forall (fun u => ir_canonical (snd u)) coins' ->
    watch coins table values o held asked = Some ss -> watch coins' table values o held asked = Some ss -> coins = coins'.
  Proof.
    assert (G : forall (l l' : list (scalar * scalar * ir_Scalars)) ss, map fst l = map fst l' -> Some (map snd l) = Some ss -> Some (map snd l') = Some ss -> l = l').
    { intros l l' ss Hf H1 H2. assert (Hs : map snd l = map snd l') by congruence. clear ss H1 H2.
      revert l' Hf Hs; induction l as [|[u r] l IH]; intros [|[u' r'] l'] Hf Hs; try discriminate; [reflexivity|].
      injection Hf as He Hf. injection Hs as Hr Hs. cbn [fst snd] in *. rewrite (IH l' Hf Hs). congruence. }
    induction o as [|m next IH|points next IH|c yes IHy no IHn|cP cQ m yes IHy no IHn];
      intros coins coins' table values held asked ss Hf Hc Hc' Hw Hw'; cbn [watch] in Hw, Hw'.
    - eapply G; eassumption.
    - destruct coins as [|[[b y] r] coins], coins' as [|[[b' y'] r'] coins']; try discriminate; [reflexivity|].
      pose proof Hf as Hf0. cbn [map fst] in Hf. injection Hf as <- <- Hf.
      destruct (mac_one m b) as [t Ht]. rewrite Ht in Hw, Hw'. cbv zeta in Hw, Hw'.
      destruct (find _ table); [discriminate|]. destruct (find _ table); [discriminate|].
      destruct values as [|c values]; [eapply G; eassumption|].
      destruct (watch coins _ values _ _ _) as [ss1|] eqn:Hw1; [|discriminate].
      destruct (watch coins' _ values _ _ _) as [ss2|] eqn:Hw2; [|discriminate].
      cbn [option_map] in Hw, Hw'. apply some_inv in Hw, Hw'. rewrite <- Hw in Hw'. apply cons_inv in Hw' as [Hr ->].
      inversion Hc as [|? ? Hcr Hcs]; subst. inversion Hc' as [|? ? Hcr' Hcs']; subst. cbn [snd] in Hcr, Hcr'.
      apply respond_inj in Hr; [|exact Hcr'|exact Hcr]. subst r'. f_equal.
      eapply IH; eassumption.
    - destruct (Nat.eqb (List.length points) 9); [|eapply G; eassumption].
      destruct (hash table values _) as [[[c table'] values']|]; [|eapply G; eassumption].
      eapply IH; eassumption.
    - destruct (peqb (combination c held) pzero); [eapply IHy|eapply IHn]; eassumption.
    - cbv zeta in Hw, Hw'. destruct (mac_verify k _ m) as [?|?|]; [|eapply IHn; eassumption|eapply IHn; eassumption].
      destruct (_ && _); [eapply G; eassumption|eapply IHy; eassumption].
  Qed.
  Lemma watch_length o : forall coins table values held asked ss,
    watch coins table values o held asked = Some ss -> List.length ss = List.length coins.
  Proof.
    assert (G : forall (l : list (scalar * scalar * ir_Scalars)) ss, Some (map snd l) = Some ss -> List.length ss = List.length l).
    { intros l ss [= <-]. apply map_length. }
    induction o as [|m next IH|points next IH|c yes IHy no IHn|cP cQ m yes IHy no IHn];
      intros coins table values held asked ss Hw; cbn [watch] in Hw.
    - apply G, Hw.
    - destruct coins as [|[[b y] r] coins]; [injection Hw as <-; reflexivity|].
      destruct (mac_one m b) as [t Ht]. rewrite Ht in Hw. cbv zeta in Hw.
      destruct (find _ table); [discriminate|].
      destruct values as [|c values]; [apply G, Hw|].
      destruct (watch coins _ values _ _ _) as [ss1|] eqn:Hw1; [|discriminate].
      cbn [option_map] in Hw. injection Hw as <-. cbn [List.length]. f_equal. eapply IH, Hw1.
    - destruct (Nat.eqb (List.length points) 9); [|apply G, Hw].
      destruct (hash table values _) as [[[c table'] values']|]; [|apply G, Hw].
      eapply IH; eassumption.
    - destruct (peqb (combination c held) pzero); [eapply IHy|eapply IHn]; eassumption.
    - cbv zeta in Hw. destruct (mac_verify k _ m) as [?|?|]; [|eapply IHn; eassumption|eapply IHn; eassumption].
      destruct (_ && _); [apply G, Hw|eapply IHy; eassumption].
  Qed.
  Lemma respond_canonical c s r : ir_canonical (respond c s r).
  Proof. unfold ir_canonical, respond, s_add, canonical. cbn [irs_x0 irs_x1 irs_x0_tilde irs_m1x1]. pose proof ell_pos. repeat split; apply Z.mod_pos_bound; lia. Qed.
  Lemma watch_canonical o : forall coins table values held asked ss, Forall (fun u => ir_canonical (snd u)) coins ->
    watch coins table values o held asked = Some ss -> Forall ir_canonical ss.
  Proof.
    assert (G : forall (l : list (scalar * scalar * ir_Scalars)) ss, Forall (fun u => ir_canonical (snd u)) l -> Some (map snd l) = Some ss -> Forall ir_canonical ss).
    { intros l ss Hl [= <-]. apply Forall_map. exact Hl. }
    induction o as [|m next IH|points next IH|c yes IHy no IHn|cP cQ m yes IHy no IHn];
      intros coins table values held asked ss Hc Hw; cbn [watch] in Hw.
    - exact (G _ _ Hc Hw).
    - destruct coins as [|[[b y] r] coins]; [injection Hw as <-; constructor|].
      destruct (mac_one m b) as [t Ht]. rewrite Ht in Hw. cbv zeta in Hw.
      destruct (find _ table); [discriminate|].
      destruct values as [|c values]; [exact (G _ _ Hc Hw)|].
      destruct (watch coins _ values _ _ _) as [ss1|] eqn:Hw1; [|discriminate].
      cbn [option_map] in Hw. injection Hw as <-. inversion Hc; subst. constructor; [apply respond_canonical|]. eapply IH; eassumption.
    - destruct (Nat.eqb (List.length points) 9); [|exact (G _ _ Hc Hw)].
      destruct (hash table values _) as [[[c table'] values']|]; [|exact (G _ _ Hc Hw)].
      eapply IH; eassumption.
    - destruct (peqb (combination c held) pzero); [eapply IHy|eapply IHn]; eassumption.
    - cbv zeta in Hw. destruct (mac_verify k _ m) as [?|?|]; [|eapply IHn; eassumption|eapply IHn; eassumption].
      destruct (_ && _); [exact (G _ _ Hc Hw)|eapply IHy; eassumption].
  Qed.
  End one_key.

  (** ** How often the points of a proof had been hashed before *)
  Section hits.
    Context (R : list Z) (R_nodup : NoDup R) (R_all : forall x, In x R <-> 0 <= x < ell)
            (R_length : Z.of_nat (List.length R) = ell) (Hh : sp_h params <> pzero).

    (** What the issuer draws for a credential. *)
    Definition coin_of (v : list Z) : scalar * scalar * ir_Scalars :=
      (nth 4 v 0, nth 5 v 0, {| irs_x1 := nth 0 v 0; irs_x0 := nth 1 v 0; irs_x0_tilde := nth 2 v 0; irs_m1x1 := nth 3 v 0 |}).
    Definition all_coins : list (scalar * scalar * ir_Scalars) := map coin_of (tuples R 6).
    Lemma all_coins_length : Z.of_nat (List.length all_coins) = ell ^ 6.
    Proof. unfold all_coins. rewrite map_length, (tuples_length R R_length). reflexivity. Qed.
    Lemma in_all_coins b y r : canonical b -> canonical y -> ir_canonical r -> In (b, y, r) all_coins.
    Proof.
      intros Hb Hy (H1 & H2 & H3 & H4). unfold all_coins. apply in_map_iff. destruct r as [a1 a2 a3 a4].
      exists [a2; a1; a3; a4; b; y]. split; [reflexivity|]. apply (in_tuples R R_all). split; [reflexivity|].
      repeat constructor; assumption || apply H1 || apply H2 || apply H3 || apply H4 || apply Hb || apply Hy.
    Qed.

    Context (x0 x1 : scalar).
    Definition hit (table : list (list (point E) * scalar)) (o : observer) (held : list (point E)) (asked : list (list scalar))
        (p : list (scalar * scalar * ir_Scalars) * list scalar) : bool :=
      match watch x0 x1 (fst p) table (snd p) o held asked with None => true | Some _ => false end.

    Definition clash (m : scalar) (table : list (list (point E) * scalar)) (u : scalar * scalar * ir_Scalars) : bool :=
      let '(b, y, r) := u in
      match mac_with {| sk_x0 := x0; sk_xn := [x1] |} [m] b with
      | Ok t =>
        let p := issued_statement x0 x1 params t y in
        match find (fun e => points_eqb (fst e) (hashed_points p (ir_image p r))) table with Some _ => true | None => false end
      | _ => false
      end.
    Lemma few_clashes m table : count (clash m table) all_coins * ell <= Z.of_nat (List.length table) * ell ^ 6.
    Proof.
      unfold all_coins. rewrite count_map. change (tuples R 6) with (flat_map (fun v => map (fun x => x :: v) R) (tuples R 5)).
      pose proof ell_pos as Hell.
      assert (H : count (fun a => clash m table (coin_of a)) (flat_map (fun v => map (fun x => x :: v) R) (tuples R 5)) * 1 <=
                  Z.of_nat (List.length (tuples R 5)) * Z.of_nat (List.length table)).
      { apply count_flat_map. intros v _. rewrite count_map, Z.mul_1_r.
        set (on := fun (e : list (point E) * scalar) (x : Z) => match fst e with
                   | [_; _; _; _; _; _; _; _; P] => peqb P (smul x (sp_h params)) | _ => false end).
        etransitivity; [|apply (count_exists on table R)].
        - apply count_le. intros x _. unfold clash, coin_of. cbn [nth].
          destruct (mac_with _ [m] _) as [t|?|]; [|discriminate|discriminate]. cbv zeta.
          destruct (find _ table) as [e|] eqn:Hfind; [|discriminate]. intros _.
          apply find_some in Hfind as [Hin He]. apply (points_eqb_iff L) in He. apply existsb_exists. exists e. split; [exact Hin|].
          unfold on. rewrite He. unfold hashed_points. cbn [irc_X1 ir_image irs_x1 irp_A issued_statement]. apply (peqb_true L). reflexivity.
        - intros e _. apply count_one; [exact R_nodup|]. intros a b Ha Hb Ea Eb. unfold on in Ea, Eb.
          destruct (fst e) as [|p1 [|p2 [|p3 [|p4 [|p5 [|p6 [|p7 [|p8 [|p9 [|]]]]]]]]]]; try discriminate.
          apply (peqb_true L) in Ea, Eb. rewrite Ea in Eb. apply R_all in Ha, Hb. apply eqm_canonical; [exact Ha|exact Hb|].
          exact (proj1 (smul_inj L _ _ _ Hh) Eb). }
      rewrite (tuples_length R R_length) in H. change (ell ^ 6) with (ell ^ Z.succ (Z.of_nat 5)). rewrite Z.pow_succ_r by lia.
      set (l := ell ^ Z.of_nat 5) in *. set (T := Z.of_nat (List.length table)) in *. set (C := count _ _) in *. nia.
    Qed.

    Lemma few_hits o : forall N M table held asked,
      count (hit table o held asked) (all_pairs all_coins R N M) * ell <=
      Z.of_nat N * (Z.of_nat (List.length table) + Z.of_nat M) * (ell ^ (6 * Z.of_nat N) * ell ^ Z.of_nat M).
    Proof.
      pose proof ell_pos as Hell.
      assert (Hpow : forall N M : nat, 0 <= ell ^ (6 * Z.of_nat N) * ell ^ Z.of_nat M).
      { intros N M. apply Z.mul_nonneg_nonneg; apply Z.pow_nonneg; lia. }
      assert (Hnone : forall N M table o held asked, (forall p, In p (all_pairs all_coins R N M) -> hit table o held asked p = false) ->
        count (hit table o held asked) (all_pairs all_coins R N M) * ell <=
        Z.of_nat N * (Z.of_nat (List.length table) + Z.of_nat M) * (ell ^ (6 * Z.of_nat N) * ell ^ Z.of_nat M)).
      { intros N M table o' held asked H. rewrite count_false by exact H. specialize (Hpow N M). rewrite Z.mul_0_l.
        apply Z.mul_nonneg_nonneg; [lia|exact Hpow]. }
      assert (Hext : forall (f g : list (scalar * scalar * ir_Scalars) * list scalar -> bool) l, (forall p, f p = g p) -> count f l = count g l).
      { intros f g l H. unfold count. f_equal. f_equal. apply filter_ext. exact H. }
      induction o as [|m next IH|points next IH|c yes IHy no IHn|cP cQ m yes IHy no IHn]; intros N M table held asked.
      - apply Hnone. reflexivity.
      - destruct N as [|N].
        { apply Hnone. intros [cs vs] Hp. apply in_all_pairs in Hp as [[Hl _] _]. destruct cs; [|discriminate]. reflexivity. }
        rewrite first_coins.
        set (T := Z.of_nat (List.length table)) in *.
        assert (HT : 0 <= T) by (unfold T; lia).
        set (D := Z.of_nat N * (T + Z.of_nat M) * (ell ^ (6 * Z.of_nat N) * ell ^ Z.of_nat M)).
        set (F := ell ^ (6 * Z.of_nat N) * ell ^ Z.of_nat M * ell).
        assert (H6 : ell ^ (6 * Z.of_nat (S N)) = ell ^ 6 * ell ^ (6 * Z.of_nat N)).
        { rewrite <- Z.pow_add_r by lia. f_equal. lia. }
        etransitivity; [apply (count_flat_map_bad _ _ (clash m table) _ ell D F)|].
        + unfold D. specialize (Hpow N M). apply Z.mul_nonneg_nonneg; [lia|exact Hpow].
        + intros u _. unfold F. apply Z.mul_le_mono_nonneg_r; [lia|]. rewrite count_map. etransitivity; [apply count_all|].
          rewrite all_pairs_length, all_coins_length, R_length, <- Z.pow_mul_r by lia. lia.
        + intros [[b y] r] _ Hcl. rewrite count_map. destruct (mac_one x0 x1 m b) as [t Ht]. unfold clash in Hcl. rewrite Ht in Hcl. cbv zeta in Hcl.
          set (p := issued_statement x0 x1 params t y) in *. set (u := hashed_points p (ir_image p r)) in *.
          destruct (find (fun e => points_eqb (fst e) u) table) as [?|] eqn:Hfind; [discriminate|].
          destruct M as [|M].
          { rewrite count_false.
            - unfold D. specialize (Hpow N 0%nat). rewrite Z.mul_0_l. apply Z.mul_nonneg_nonneg; [lia|exact Hpow].
            - intros [cs vs] Hp. apply in_all_pairs in Hp as [_ [Hl _]]. destruct vs; [|discriminate].
              unfold hit. cbn [fst snd watch]. rewrite Ht. cbv zeta. fold p u. rewrite Hfind. reflexivity. }
          unfold D. replace (ell ^ (6 * Z.of_nat N) * ell ^ Z.of_nat (S M)) with (ell * (ell ^ (6 * Z.of_nat N) * ell ^ Z.of_nat M)).
          2: { rewrite Nat2Z.inj_succ, Z.pow_succ_r by lia. ring. }
          replace (Z.of_nat N * (T + Z.of_nat (S M)) * (ell * (ell ^ (6 * Z.of_nat N) * ell ^ Z.of_nat M)))
            with (Z.of_nat (List.length R) * (Z.of_nat N * (T + Z.of_nat (S M)) * (ell ^ (6 * Z.of_nat N) * ell ^ Z.of_nat M)))
            by (rewrite R_length; ring).
          apply first_value. intros c _. cbn [fst snd].
          set (s := respond c (issued_secrets x0 x1 m y) r).
          specialize (IH c s N M ((u, c) :: table) (held ++ issued_points {| sk_x0 := x0; sk_xn := [x1] |} params t y)%list (asked ++ [[m]])%list).
          change (Z.of_nat (List.length ((u, c) :: table))) with (Z.of_nat (S (List.length table))) in IH.
          rewrite Nat2Z.inj_succ in IH. fold T in IH. replace (T + Z.of_nat (S M)) with (Z.succ T + Z.of_nat M) by lia.
          etransitivity; [|exact IH]. apply Z.mul_le_mono_nonneg_r; [lia|]. apply count_le. intros [cs vs] _.
          unfold hit. cbn [fst snd watch]. rewrite Ht. cbv zeta. fold p u. rewrite Hfind. fold s.
          exact (option_map_none _ _).
        + rewrite all_coins_length, H6. pose proof (few_clashes m table) as Hc. fold T in Hc. unfold D, F.
          set (cl := count (clash m table) all_coins) in *. set (l6 := ell ^ 6) in *.
          set (w := ell ^ (6 * Z.of_nat N)) in *. set (v := ell ^ Z.of_nat M) in *.
          assert (Hw : 0 <= w * v) by (specialize (Hpow N M); exact Hpow).
          assert (S1 : cl * ell * (w * v) <= T * l6 * (w * v)) by (apply Z.mul_le_mono_nonneg_r; assumption).
          assert (S2 : T * l6 * (w * v) <= (T + Z.of_nat M) * l6 * (w * v)).
          { apply Z.mul_le_mono_nonneg_r; [exact Hw|]. apply Z.mul_le_mono_nonneg_r; [unfold l6; apply Z.pow_nonneg; lia|lia]. }
          rewrite Nat2Z.inj_succ. nia.
      - destruct (Nat.eqb (List.length points) 9) eqn:Hl.
        2: { apply Hnone. intros p _. unfold hit. cbn [watch]. rewrite Hl. reflexivity. }
        set (u := map (fun c => combination c held) points).
        destruct (find (fun e => points_eqb (fst e) u) table) as [e|] eqn:Hfind.
        + rewrite (Hext _ (hit table (next (snd e)) held asked)); [apply IH|].
          intros p. unfold hit. cbn [watch]. rewrite Hl. unfold hash. fold u. rewrite Hfind. reflexivity.
        + destruct M as [|M].
          { apply Hnone. intros [cs vs] Hp. apply in_all_pairs in Hp as [_ [Hlv _]]. destruct vs; [|discriminate].
            unfold hit. cbn [watch fst snd]. rewrite Hl. unfold hash. fold u. rewrite Hfind. reflexivity. }
          replace (ell ^ (6 * Z.of_nat N) * ell ^ Z.of_nat (S M)) with (ell * (ell ^ (6 * Z.of_nat N) * ell ^ Z.of_nat M)).
          2: { rewrite Nat2Z.inj_succ, Z.pow_succ_r by lia. ring. }
          replace (Z.of_nat N * (Z.of_nat (List.length table) + Z.of_nat (S M)) * (ell * (ell ^ (6 * Z.of_nat N) * ell ^ Z.of_nat M)))
            with (Z.of_nat (List.length R) * (Z.of_nat N * (Z.of_nat (List.length table) + Z.of_nat (S M)) * (ell ^ (6 * Z.of_nat N) * ell ^ Z.of_nat M)))
            by (rewrite R_length; ring).
          apply first_value. intros c _. cbn [fst snd].
          specialize (IH c N M ((u, c) :: table) held asked).
          change (Z.of_nat (List.length ((u, c) :: table))) with (Z.of_nat (S (List.length table))) in IH.
          rewrite Nat2Z.inj_succ in IH. replace (Z.of_nat (List.length table) + Z.of_nat (S M)) with (Z.succ (Z.of_nat (List.length table)) + Z.of_nat M) by lia.
          etransitivity; [|exact IH]. apply Z.mul_le_mono_nonneg_r; [lia|]. apply count_le. intros [cs vs] _.
          unfold hit. cbn [fst snd watch]. rewrite Hl. unfold hash. fold u. rewrite Hfind. auto.
      - rewrite (Hext _ (hit table (if peqb (combination c held) pzero then yes else no) held asked)).
        + destruct (peqb (combination c held) pzero); [apply IHy|apply IHn].
        + intros p. unfold hit. cbn [watch]. destruct (peqb (combination c held) pzero); reflexivity.
      - set (tag := {| tag_nonce := combination cP held; tag_mac := combination cQ held |}).
        destruct (mac_verify {| sk_x0 := x0; sk_xn := [x1] |} tag m) as [?|?|] eqn:Hv.
        + destruct (Nat.eqb (List.length m) 1 && fresh m asked && negb (peqb (tag_nonce tag) pzero)) eqn:Hb.
          * apply Hnone. intros p _. unfold hit. cbn [watch]. cbv zeta. fold tag. rewrite Hv, Hb. reflexivity.
          * rewrite (Hext _ (hit table yes held asked)); [apply IHy|].
            intros p. unfold hit. cbn [watch]. cbv zeta. fold tag. rewrite Hv, Hb. reflexivity.
        + rewrite (Hext _ (hit table no held asked)); [apply IHn|].
          intros p. unfold hit. cbn [watch]. cbv zeta. fold tag. rewrite Hv. reflexivity.
        + rewrite (Hext _ (hit table no held asked)); [apply IHn|].
          intros p. unfold hit. cbn [watch]. cbv zeta. fold tag. rewrite Hv. reflexivity.
    Qed.
  End hits.
End seeing.
