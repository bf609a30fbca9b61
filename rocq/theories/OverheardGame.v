(** The game in which the adversary overhears honest users, with proofs that are
    made up. *)
From Verif Require Export OverheardFacts.
From Coq Require Import Setoid.
Local Open Scope Z_scope.

Fixpoint triples (w : list Z) : list (Z * Z * Z) :=
  match w with
  | p :: z :: q :: w' => (p, z, q) :: triples w'
  | _ => []
  end.

Section simulated.
  Context {E : Ext}.
  Definition in_table (table : list (list (point E) * scalar)) (u : list (point E)) : bool :=
    match find (fun e => points_eqb (fst e) u) table with Some _ => true | None => false end.

  (** The challenges and the responses come from one stream.  The game is won also
      if the points of a proof had been hashed before. *)
  Fixpoint sim (t x0 x1 : scalar) (cs : list (scalar * scalar)) (ss : list (scalar * scalar * scalar))
      (table : list (list (point E) * scalar)) (stream : list scalar)
      (o : impostor) (held : list (point E)) (asked : list (list scalar)) (seen : list (sighting E)) : bool :=
    let params := params_at t in
    let k := {| sk_x0 := x0; sk_xn := [x1] |} in
    match o with
    | IStop => false
    | IAsk m next =>
      match cs with
      | [] => false
      | (b, y) :: cs' =>
        match mac_with k [m] b with
        | Ok tag =>
          match stream with
          | c :: a0 :: a2 :: a3 :: a1 :: stream' =>
            let s := {| irs_x0 := a0; irs_x1 := a1; irs_x0_tilde := a2; irs_m1x1 := a3 |} in
            let p := issued_statement x0 x1 params tag y in
            let u := hashed_points p (ir_recompute {| ir_challenge := c; ir_responses := s |} p) in
            in_table table u ||
            sim t x0 x1 cs' ss ((u, c) :: table) stream' (next c s) (held ++ issued_points k params tag y)%list (asked ++ [[m]])%list seen
          | _ => false
          end
        | _ => false
        end
      end
    | IOverhear n r next =>
      match ss with
      | [] => false
      | (b, z, zQ) :: ss' =>
        match mac_with k [n] b with
        | Ok tag =>
          let P := tag_nonce tag in
          let Q := commitment_to (tag_mac tag) zQ (sp_h params) in
          let C := commitment_to (smul n P) z (sp_h params) in
          let p := sighting_publics t x0 x1 P Q C in
          let q := sighting_entry t P C n r in
          match stream with
          | c :: a0 :: a1 :: a2 :: stream1 =>
            let pf := {| vc_challenge := c; vc_responses := {| vcs_m0 := a0; vcs_z0 := a1; vcs_minus_zQ := a2 |} |} in
            let u := show_points p (vc_recompute pf p) in
            in_table table u ||
            match stream1 with
            | c' :: d0 :: d1 :: d2 :: stream2 =>
              let pf' := {| ce_challenge := c'; ce_responses := {| ces_m0 := d0; ces_z0 := d1; ces_z1 := d2 |} |} in
              let u' := member_points q (ce_recompute pf' q) in
              in_table ((u, c) :: table) u' ||
              sim t x0 x1 cs ss' ((u', c') :: (u, c) :: table) stream2 (next pf pf') (held ++ [P; Q; C])%list asked
                (seen ++ [{| sg_nonce := P; sg_mac := Q; sg_blinded := C; sg_proof := pf;
                             sg_number := n; sg_opening := r; sg_membership := pf' |}])%list
            | _ => false
            end
          | _ => false
          end
        | _ => false
        end
      end
    | IHash points next =>
      match hash table stream (map (fun c => combination c held) points) with
      | None => false
      | Some (c, table', stream') => sim t x0 x1 cs ss table' stream' (next c) held asked seen
      end
    | ITest c yes no =>
      if peqb (combination c held) pzero
      then sim t x0 x1 cs ss table stream yes held asked seen
      else sim t x0 x1 cs ss table stream no held asked seen
    | IShow cP cQ cC pf n r pf' next =>
      let s := {| sg_nonce := combination cP held; sg_mac := combination cQ held; sg_blinded := combination cC held;
                  sg_proof := pf; sg_number := n; sg_opening := r; sg_membership := pf' |} in
      let p := sighting_publics t x0 x1 (sg_nonce s) (sg_mac s) (sg_blinded s) in
      let q := sighting_entry t (sg_nonce s) (sg_blinded s) n r in
      match hash table stream (show_points p (vc_recompute pf p)) with
      | None => false
      | Some (c, table1, stream1) =>
        match hash table1 stream1 (member_points q (ce_recompute pf' q)) with
        | None => false
        | Some (c', table2, stream2) =>
          let ok := scalar_eqb c (vc_challenge pf) in
          let member := scalar_eqb c' (ce_challenge pf') in
          if ok && negb (peqb (sg_nonce s) pzero) &&
             (match asked with [] => true | _ => false end && negb (existsb (same_shown s) seen) ||
              member && fresh [n] asked && negb (existsb (same_sighting s) seen))
          then true
          else sim t x0 x1 cs ss table2 stream2 (next ok member) held asked seen
        end
      end
    end.
End simulated.

(** ** The points hashed for a proof of issuance *)
Definition p_issue (i : nat) (m c a0 a2 a3 a1 : Z) : list pexp :=
  [PV i; PMul (PV i) (p_exponent m); PAdd (PV 1) (PMul (PV 0) (PV (S i))); PC 1; p_h; p_X1;
   PAdd (PMul (PC (a0 + a3)) (PV i)) (PMul (PC (- c)) (PMul (PV i) (p_exponent m)));
   PAdd (PAdd (PC a0) (PMul (PC a2) p_h)) (PMul (PC (- c)) (PAdd (PV 1) (PMul (PV 0) (PV (S i)))));
   PAdd (PMul (PC a1) p_h) (PMul (PC (- c)) p_X1)].

Section at_v.
  Context {E : Ext} (L : ExtLaws E).
  Lemma issued_at v i m tag :
    mac_with {| sk_x0 := nth 1 v 0; sk_xn := [nth 2 v 0] |} [m] (nth i v 0) = Ok tag ->
    issued_points {| sk_x0 := nth 1 v 0; sk_xn := [nth 2 v 0] |} (params_at (E := E) (nth 0 v 0)) tag (nth (S i) v 0) =
    map (pt_at v) [PV i; PMul (PV i) (p_exponent m); PAdd (PV 1) (PMul (PV 0) (PV (S i)))].
  Proof.
    intros Hmac. apply (mac_with_spec L) in Hmac as (H1 & _ & H3). unfold issued_points. rewrite H3, H1.
    cbn [app map]. unfold p_exponent, pt_at, commitment_to, params_at. cbn [ev sp_g sp_h sk_x0 sk_xn dot].
    generalize (nth 0 v 0) (nth 1 v 0) (nth 2 v 0) (nth i v 0) (nth (S i) v 0). clear v tag H1 H3. intros t x0 x1 b y.
    repeat (apply (f_equal2 cons); [to_base L; apply (smul_base_iff L); apply eqm_of_eq; zring|]). reflexivity.
  Qed.
  Lemma issue_at v i m tag c a0 a2 a3 a1 :
    mac_with {| sk_x0 := nth 1 v 0; sk_xn := [nth 2 v 0] |} [m] (nth i v 0) = Ok tag ->
    let p := issued_statement (nth 1 v 0) (nth 2 v 0) (params_at (E := E) (nth 0 v 0)) tag (nth (S i) v 0) in
    hashed_points p (ir_recompute {| ir_challenge := c;
      ir_responses := {| irs_x0 := a0; irs_x1 := a1; irs_x0_tilde := a2; irs_m1x1 := a3 |} |} p) =
    map (pt_at v) (p_issue i m c a0 a2 a3 a1).
  Proof.
    intros Hmac p. apply (mac_with_spec L) in Hmac as (H1 & _ & H3). unfold p. clear p.
    unfold hashed_points, ir_recompute, issued_statement, p_issue, p_exponent, p_h, p_X1, pt_at, commitment_to, params_at.
    cbn [irp_P irp_Q irp_Cx0 irp_B irp_A irp_X1 irc_Q irc_Cx0 irc_X1 ir_challenge ir_responses irs_x0 irs_x1 irs_x0_tilde irs_m1x1
         sp_g sp_h map ev multiscalar_mul]. rewrite H3, H1. cbn [sk_x0 sk_xn dot]. rewrite !(padd_zero_r L).
    generalize (nth 0 v 0) (nth 1 v 0) (nth 2 v 0) (nth i v 0) (nth (S i) v 0). clear v tag H1 H3. intros t x0 x1 b y. unfold s_neg.
    to_base L.
    repeat (apply (f_equal2 cons); [first [reflexivity|symmetry; apply smul_1|apply (smul_base_iff L); eqm_push; apply eqm_of_eq; zring]|]). reflexivity.
  Qed.
  Lemma overheard_at v j number tag :
    mac_with {| sk_x0 := nth 1 v 0; sk_xn := [nth 2 v 0] |} [number] (nth j v 0) = Ok tag ->
    tag_nonce tag = pt_at (E := E) v (PV j) /\
    commitment_to (tag_mac tag) (nth (2 + j) v 0) (sp_h (params_at (nth 0 v 0))) = pt_at v (e_Q j number) /\
    commitment_to (smul number (tag_nonce tag)) (nth (1 + j) v 0) (sp_h (params_at (nth 0 v 0))) = pt_at v (e_C j number).
  Proof.
    intros Hmac. apply (mac_with_spec L) in Hmac as (H1 & _ & H3). rewrite H3, H1.
    unfold e_Q, e_C, p_exponent, p_h, pt_at, commitment_to, params_at. cbn [ev sp_g sp_h sk_x0 sk_xn dot].
    generalize (nth 0 v 0) (nth 1 v 0) (nth 2 v 0) (nth j v 0) (nth (1 + j) v 0) (nth (2 + j) v 0). clear v tag H1 H3. intros t x0 x1 b y w.
    split; [|split]; to_base L; apply (smul_base_iff L); apply eqm_of_eq; zring.
  Qed.

  Lemma few_in_table (R : list Z) (table : list (list (point E) * scalar)) (U : Z -> list (point E)) : NoDup R ->
    (forall x y, In x R -> In y R -> U x = U y -> x = y) -> count (fun x => in_table table (U x)) R <= Z.of_nat (List.length table).
  Proof.
    intros Hnd Hinj. etransitivity; [|apply (count_exists (fun e x => points_eqb (fst e) (U x)) table R)].
    - apply count_le. intros x _ H. unfold in_table in H. destruct (find _ table) as [e|] eqn:Hf; [|discriminate].
      apply find_some in Hf as [Hin He]. apply existsb_exists. exists e. auto.
    - intros e _. apply count_one; [exact Hnd|]. intros x y Hx Hy Ex Ey. apply (points_eqb_iff L) in Ex, Ey. apply Hinj; congruence.
  Qed.
  Lemma times_t t a b : ~ t == 0 -> 0 <= a < ell -> 0 <= b < ell -> a * t == b * t -> a = b.
  Proof.
    intros Ht Ha Hb H. apply eqm_canonical; [exact Ha|exact Hb|]. apply eqm_sub_0. apply eqm_sub_0 in H.
    assert (H' : (a - b) * t == 0) by (etransitivity; [|exact H]; apply eqm_of_eq; ring).
    apply eqm_mul_0 in H' as [H'|H']; [exact H'|contradiction].
  Qed.
End at_v.

Section count_sim.
  Context {E : Ext} (L : ExtLaws E).
  Context (R : list Z) (R_nodup : NoDup R) (R_all : forall x, In x R <-> 0 <= x < ell)
          (R_length : Z.of_nat (List.length R) = ell) (N K : nat).
  Let j0 := (3 + 2 * N)%nat.
  Let n := (3 + 2 * N + 3 * K)%nat.

  Lemma other_lucky u c : List.length u <> 7%nat -> List.length u <> 8%nat -> unlucky R n u c = false.
  Proof.
    intros H7 H8. unfold unlucky. replace (existsb (frel R n 0 1 u) (tuples R 3)) with true; [apply Bool.andb_false_r|].
    symmetry. apply existsb_exists. exists (repeat 0 3). split; [apply (in_tuples R R_all); apply scalars_zeros|].
    apply frel_iff. intros v _. unfold zrel.
    do 7 (destruct u as [|? u]; [reflexivity|]). destruct u as [|? u]; [cbn in H7; congruence|].
    destruct u as [|? u]; [cbn in H8; congruence|reflexivity].
  Qed.

  Definition sim_at (o : impostor) (evs : list event) (table : list (list (point E) * scalar)) (stream : list scalar) (v : list Z) : bool :=
    negb (zero_at (PV 0) v) &&
    sim (nth 0 v 0) (nth 1 v 0) (nth 2 v 0)
      (pairs (firstn (2 * (N - List.length (asked_of evs))) (skipn (3 + 2 * List.length (asked_of evs)) v)))
      (triples (skipn (j0 + 3 * List.length (seen_of evs)) v)) table stream o
      (map (pt_at v) (p_all j0 evs)) (as_messages (asked_of evs)) (seen_at v j0 (seen_of evs)).

  Lemma low_comb_all evs c : (deg (sym_comb c (p_all j0 evs)) <= 2)%nat.
  Proof. apply sym_comb_deg, p_all_deg. Qed.
  Lemma low_p_show P Q C pf : (deg P <= 2)%nat -> (deg Q <= 2)%nat -> (deg C <= 2)%nat -> low (p_show P Q C pf).
  Proof.
    intros. unfold p_show, p_reply, p_V, p_h, p_X1. repeat (apply Forall_cons; [cbn [deg]; lia|]). constructor.
  Qed.
  Lemma low_p_member P C number r pf : (deg P <= 2)%nat -> (deg C <= 2)%nat -> low (p_member P C number r pf).
  Proof.
    intros. unfold p_member, p_reply, p_entry, p_h. repeat (apply Forall_cons; [cbn [deg]; lia|]). constructor.
  Qed.
  Lemma fair_grow H H' S : fair_table R n H S -> fair_table R n (H ++ H') S.
  Proof.
    apply Forall_impl. intros e [Hl [Hu|Hi]]; (split; [exact Hl|]); [left; exact Hu|right; apply in_or_app; left; exact Hi].
  Qed.
  Lemma t_nonzero v : negb (zero_at (PV 0) v) = true -> ~ nth 0 v 0 == 0.
  Proof. intros H Hz. apply Bool.negb_true_iff, Bool.not_true_iff_false in H. apply H. apply zero_at_iff. exact Hz. Qed.
  (** How likely it is that the points of a made up proof had been hashed. *)
  Lemma few_issue_hits S i m c a0 a2 a3 v : negb (zero_at (PV 0) v) = true ->
    count (fun a1 => in_table (table_at (E := E) v S) (map (pt_at v) (p_issue i m c a0 a2 a3 a1))) R <= Z.of_nat (List.length S).
  Proof.
    intros Ht. apply t_nonzero in Ht. rewrite <- (map_length (fun e => (map (pt_at (E := E) v) (fst e), snd e)) S). apply (few_in_table L); [exact R_nodup|].
    intros x y Hx Hy H. unfold p_issue in H. cbn [map] in H. injection H as H. unfold pt_at in H. apply (smul_base_iff L) in H. cbn [ev p_h p_X1] in H.
    apply R_all in Hx, Hy. apply (times_t (nth 0 v 0)); auto. apply eqm_sub_0. apply eqm_sub_0 in H. etransitivity; [|exact H]. apply eqm_of_eq; ring.
  Qed.
  Lemma few_show_hits S P Q C c a0 a1 v : negb (zero_at (PV 0) v) = true ->
    count (fun a2 => in_table (table_at (E := E) v S) (map (pt_at v) (p_show P Q C
      {| vc_challenge := c; vc_responses := {| vcs_m0 := a0; vcs_z0 := a1; vcs_minus_zQ := a2 |} |}))) R <= Z.of_nat (List.length S).
  Proof.
    intros Ht. apply t_nonzero in Ht. rewrite <- (map_length (fun e => (map (pt_at (E := E) v) (fst e), snd e)) S). apply (few_in_table L); [exact R_nodup|].
    intros x y Hx Hy H. unfold p_show in H. cbn [map vc_responses vc_challenge vcs_m0 vcs_z0 vcs_minus_zQ] in H. injection H as H.
    unfold pt_at in H. apply (smul_base_iff L) in H. unfold p_reply in H. cbn [ev p_h p_X1] in H.
    apply R_all in Hx, Hy. apply (times_t (nth 0 v 0)); auto. apply eqm_sub_0. apply eqm_sub_0 in H. etransitivity; [|exact H]. apply eqm_of_eq; ring.
  Qed.
  Lemma few_member_hits S P C number r c a0 a1 v : negb (zero_at (PV 0) v) = true ->
    count (fun a2 => in_table (table_at (E := E) v S) (map (pt_at v) (p_member P C number r
      {| ce_challenge := c; ce_responses := {| ces_m0 := a0; ces_z0 := a1; ces_z1 := a2 |} |}))) R <= Z.of_nat (List.length S).
  Proof.
    intros _. rewrite <- (map_length (fun e => (map (pt_at (E := E) v) (fst e), snd e)) S). apply (few_in_table L); [exact R_nodup|].
    intros x y Hx Hy H. unfold p_member in H. cbn [map ce_responses ce_challenge ces_m0 ces_z0 ces_z1] in H. injection H as H.
    unfold pt_at in H. apply (smul_base_iff L) in H. unfold p_reply in H. cbn [ev p_h] in H.
    apply R_all in Hx, Hy. apply eqm_canonical; auto. apply eqm_sub_0. apply eqm_sub_0 in H. etransitivity; [|exact H]. apply eqm_of_eq; ring.
  Qed.

  Definition left (evs : list event) (h : nat) : nat :=
    (h + (N - List.length (asked_of evs)) + 2 * (K - List.length (seen_of evs)))%nat.

  (** One more credential. *)
  Lemma sim_ask m next evs table stream v : List.length v = n -> (List.length (asked_of evs) < N)%nat ->
    let i := (3 + 2 * List.length (asked_of evs))%nat in
    sim_at (IAsk m next) evs table stream v = true ->
    match stream with
    | c :: a0 :: a2 :: a3 :: a1 :: rest =>
      let u := p_issue i m c a0 a2 a3 a1 in
      negb (zero_at (PV 0) v) && (in_table table (map (pt_at v) u) ||
        sim_at (next c {| irs_x0 := a0; irs_x1 := a1; irs_x0_tilde := a2; irs_m1x1 := a3 |}) (evs ++ [EAsk m])
          ((map (pt_at v) u, c) :: table) rest v)
    | _ => false
    end = true.
  Proof.
    intros Hlv Ha i H. unfold sim_at in H. cbn [sim] in H.
    replace (2 * (N - List.length (asked_of evs)))%nat with (S (S (2 * (N - S (List.length (asked_of evs)))))) in H by lia.
    fold i in H. rewrite (GameFacts.skipn_cons i), (GameFacts.skipn_cons (S i)) in H by (unfold n in Hlv; lia). cbn [firstn pairs] in H.
    destruct (mac_one (E := E) (nth 1 v 0) (nth 2 v 0) m (nth i v 0)) as [tag Hmac]. rewrite Hmac in H.
    destruct stream as [|c [|a0 [|a2 [|a3 [|a1 rest]]]]]; try (rewrite Bool.andb_false_r in H; discriminate). cbv zeta.
    rewrite (issue_at L v i m tag c a0 a2 a3 a1 Hmac) in H. pose proof (issued_at L v i m tag Hmac) as Hi. unfold scalar in *. rewrite Hi in H.
    apply andb_prop in H as [Ht H]. rewrite Ht. cbn [andb]. apply Bool.orb_prop in H as [H|H]; [rewrite H; reflexivity|].
    apply Bool.orb_true_iff. right. unfold sim_at. rewrite Ht. cbn [andb].
    rewrite asked_of_app, seen_of_app, p_all_app. cbn [asked_of seen_of p_events]. rewrite !app_nil_r, app_length. cbn [List.length].
    replace (2 * (N - (List.length (asked_of evs) + 1)))%nat with (2 * (N - S (List.length (asked_of evs))))%nat by lia.
    replace (3 + 2 * (List.length (asked_of evs) + 1))%nat with (S (S i)) by (unfold i; lia).
    unfold as_messages. rewrite !map_app. exact H.
  Qed.
  Lemma sim_ask_none m next evs table stream v : List.length (asked_of evs) = N -> sim_at (IAsk m next) evs table stream v = false.
  Proof. intros Ha. unfold sim_at. cbn [sim]. rewrite Ha, Nat.sub_diag. cbn [Nat.mul firstn pairs]. apply Bool.andb_false_r. Qed.

  (** One more presentation. *)
  Lemma sim_overhear number r next evs table stream v : List.length v = n -> (List.length (seen_of evs) < K)%nat ->
    let j := (j0 + 3 * List.length (seen_of evs))%nat in
    sim_at (IOverhear number r next) evs table stream v = true ->
    match stream with
    | c :: a0 :: a1 :: a2 :: stream1 =>
      let pf := {| vc_challenge := c; vc_responses := {| vcs_m0 := a0; vcs_z0 := a1; vcs_minus_zQ := a2 |} |} in
      let u := p_show (PV j) (e_Q j number) (e_C j number) pf in
      negb (zero_at (PV 0) v) && (in_table table (map (pt_at v) u) ||
      match stream1 with
      | c' :: d0 :: d1 :: d2 :: stream2 =>
        let pf' := {| ce_challenge := c'; ce_responses := {| ces_m0 := d0; ces_z0 := d1; ces_z1 := d2 |} |} in
        let u' := p_member (PV j) (e_C j number) number r pf' in
        negb (zero_at (PV 0) v) && (in_table ((map (pt_at v) u, c) :: table) (map (pt_at v) u') ||
        sim_at (next pf pf') (evs ++ [ESeen number r pf pf']) ((map (pt_at v) u', c') :: (map (pt_at v) u, c) :: table) stream2 v)
      | _ => false
      end)
    | _ => false
    end = true.
  Proof.
    intros Hlv Hs j H. unfold sim_at in H. cbn [sim] in H.
    fold j in H. rewrite (GameFacts.skipn_cons j), (GameFacts.skipn_cons (S j)), (GameFacts.skipn_cons (S (S j))) in H by (unfold n in Hlv; unfold j, j0; lia).
    cbn [triples] in H.
    destruct (mac_one (E := E) (nth 1 v 0) (nth 2 v 0) number (nth j v 0)) as [tag Hmac]. rewrite Hmac in H.
    destruct (overheard_at L v j number tag Hmac) as (HP & HQ & HC).
    change (nth (S (S j)) v 0) with (nth (2 + j) v 0) in H. change (nth (S j) v 0) with (nth (1 + j) v 0) in H. cbv zeta in H.
    rewrite HQ, HC, HP in H. unfold sighting_publics, sighting_entry in H.
    destruct stream as [|c [|a0 [|a1 [|a2 stream1]]]]; try (rewrite Bool.andb_false_r in H; discriminate). cbv zeta.
    rewrite (show_at L) in H. apply andb_prop in H as [Ht H]. rewrite Ht. cbn [andb].
    apply Bool.orb_prop in H as [H|H]; [rewrite H; reflexivity|]. apply Bool.orb_true_iff. right.
    destruct stream1 as [|c' [|d0 [|d1 [|d2 stream2]]]]; try discriminate. rewrite (member_at L) in H.
    apply Bool.orb_prop in H as [H|H]; [rewrite H; reflexivity|]. apply Bool.orb_true_iff. right. unfold sim_at. rewrite Ht. cbn [andb].
    rewrite asked_of_app, seen_of_app, p_all_app, seen_at_app. cbn [asked_of seen_of p_events seen_at]. rewrite !app_nil_r, app_length. cbn [List.length].
    replace (j0 + 3 * (List.length (seen_of evs) + 1))%nat with (S (S (S j))) by (unfold j; lia).
    fold j. rewrite map_app. cbn [map]. exact H.
  Qed.
  Lemma sim_overhear_none number r next evs table stream v : List.length v = n -> List.length (seen_of evs) = K ->
    sim_at (IOverhear number r next) evs table stream v = false.
  Proof.
    intros Hlv Hs. unfold sim_at. cbn [sim]. rewrite Hs. rewrite (skipn_all2 (n := j0 + 3 * K)) by (rewrite Hlv; unfold n, j0; lia).
    cbn [triples]. apply Bool.andb_false_r.
  Qed.

  Theorem few_sim q h o : impostor_within q h o -> forall evs S M, room N K evs -> fair_table R n (honest j0 (seen_of evs)) S ->
    count (fun p => sim_at o evs (table_at (snd p) S) (fst p) (snd p)) (space R n M) * ell <= bound q (left evs h) (List.length S) * full n M.
  Proof.
    pose proof ell_pos as Hell.
    assert (Hmono : forall (f g : list Z * list Z -> bool) B B' M, B <= B' ->
      (forall p, In p (space R n M) -> f p = true -> g p = true) ->
      count g (space R n M) * ell <= B * full n M -> count f (space R n M) * ell <= B' * full n M).
    { intros f g B B' M HB Hfg Hc. pose proof (count_le f g _ Hfg) as Hle. assert (0 <= full n M) by apply full_nonneg.
      assert (count f (space R n M) * ell <= count g (space R n M) * ell) by (apply Z.mul_le_mono_nonneg_r; lia).
      assert (B * full n M <= B' * full n M) by (apply Z.mul_le_mono_nonneg_r; lia). lia. }
    assert (Hb0 : forall q t s, 0 <= bound q t s) by (intros; unfold bound; lia).
    induction 1 as [q h|q h m next Hn IH|q h number r next Hn IH|q h points next Hn IH|q h c yes no Hy IHy Hno IHn|q h cP cQ cC pf number r pf' next Hn IH];
      intros evs S M Hroom HS.
    - rewrite count_false; [|intros; unfold sim_at; cbn [sim]; apply Bool.andb_false_r].
      apply Z.mul_nonneg_nonneg; [apply Hb0|apply full_nonneg].
    - destruct Hroom as [Hra Hrs]. destruct (Nat.eq_dec (List.length (asked_of evs)) N) as [He|He].
      { rewrite count_false; [apply Z.mul_nonneg_nonneg; [apply Hb0|apply full_nonneg]|]. intros p _. apply sim_ask_none. exact He. }
      set (i := (3 + 2 * List.length (asked_of evs))%nat).
      set (D := bound q (left (evs ++ [EAsk m]) h) (1 + List.length S)).
      assert (Hleft : left evs h = Datatypes.S (left (evs ++ [EAsk m]) h)).
      { unfold left. rewrite asked_of_app, seen_of_app. cbn [asked_of seen_of]. rewrite !app_length. cbn [List.length]. lia. }
      refine (Hmono _ (fun p => match fst p with [] => false | c :: l => match l with [] => false | a0 :: l => match l with [] => false | a2 :: l =>
                match l with [] => false | a3 :: l => match l with [] => false | a1 :: rest =>
                  negb (zero_at (PV 0) (snd p)) && (in_table (table_at (snd p) S) (map (pt_at (snd p)) (p_issue i m c a0 a2 a3 a1)) ||
                  sim_at (next c {| irs_x0 := a0; irs_x1 := a1; irs_x0_tilde := a2; irs_m1x1 := a3 |}) (evs ++ [EAsk m])
                    (table_at (snd p) ((p_issue i m c a0 a2 a3 a1, c) :: S)) rest (snd p)) end end end end end)
              (Z.of_nat (List.length S) + D) _ _ _ _ _).
      + unfold D. rewrite Hleft. unfold bound. nia.
      + intros [stream v] Hp. apply in_space in Hp. cbn [fst snd] in *. apply (in_tuples R R_all) in Hp as [Hlv _]. intros H.
        apply sim_ask in H; [|exact Hlv|lia]. exact H.
      + set (body := fun c a0 a2 a3 a1 rest v => negb (zero_at (PV 0) v) && (in_table (E := E) (table_at v S) (map (pt_at v) (p_issue i m c a0 a2 a3 a1)) ||
                  sim_at (next c {| irs_x0 := a0; irs_x1 := a1; irs_x0_tilde := a2; irs_m1x1 := a3 |}) (evs ++ [EAsk m])
                    (table_at v ((p_issue i m c a0 a2 a3 a1, c) :: S)) rest v)).
        refine (draw_step R R_all R_length n M _ (fun c l v => match l with [] => false | a0 :: l => match l with [] => false | a2 :: l =>
                match l with [] => false | a3 :: l => match l with [] => false | a1 :: rest => body c a0 a2 a3 a1 rest v end end end end) _ _); [unfold D; pose proof (Hb0 q (left (evs ++ [EAsk m]) h) (1 + List.length S)%nat); lia|]. intros c M1.
        refine (draw_step R R_all R_length n M1 _ (fun a0 l v => match l with [] => false | a2 :: l =>
                match l with [] => false | a3 :: l => match l with [] => false | a1 :: rest => body c a0 a2 a3 a1 rest v end end end) _ _); [unfold D; pose proof (Hb0 q (left (evs ++ [EAsk m]) h) (1 + List.length S)%nat); lia|]. intros a0 M2.
        refine (draw_step R R_all R_length n M2 _ (fun a2 l v =>
                match l with [] => false | a3 :: l => match l with [] => false | a1 :: rest => body c a0 a2 a3 a1 rest v end end) _ _); [unfold D; pose proof (Hb0 q (left (evs ++ [EAsk m]) h) (1 + List.length S)%nat); lia|]. intros a2 M3.
        refine (draw_step R R_all R_length n M3 _ (fun a3 l v => match l with [] => false | a1 :: rest => body c a0 a2 a3 a1 rest v end) _ _); [unfold D; pose proof (Hb0 q (left (evs ++ [EAsk m]) h) (1 + List.length S)%nat); lia|]. intros a3 M4.
        refine (draw_check R R_all R_length n M4 D (Z.of_nat (List.length S)) (fun v => negb (zero_at (PV 0) v))
          (fun a1 v => in_table (table_at v S) (map (pt_at v) (p_issue i m c a0 a2 a3 a1)))
          (fun a1 rest v => sim_at (next c {| irs_x0 := a0; irs_x1 := a1; irs_x0_tilde := a2; irs_m1x1 := a3 |}) (evs ++ [EAsk m])
                    (table_at v ((p_issue i m c a0 a2 a3 a1, c) :: S)) rest v) _ _ _ _).
        * apply Hb0.
        * lia.
        * intros v _ Ht. apply few_issue_hits. exact Ht.
        * intros a1 M5. refine (Hmono _ _ _ _ _ _ _ (IH c _ (evs ++ [EAsk m]) ((p_issue i m c a0 a2 a3 a1, c) :: S) M5 _ _)).
          -- unfold D. cbn [List.length Nat.add]. lia.
          -- intros p _ H. apply andb_prop in H as [_ H]. exact H.
          -- split; rewrite ?asked_of_app, ?seen_of_app; cbn [asked_of seen_of]; rewrite app_length; cbn [List.length]; lia.
          -- rewrite seen_of_app. cbn [seen_of]. rewrite app_nil_r. constructor; [|exact HS]. cbn [fst snd]. split.
             ++ unfold p_issue, p_exponent, p_h, p_X1. repeat (apply Forall_cons; [cbn [deg]; lia|]). constructor.
             ++ left. apply other_lucky; discriminate.
    - destruct Hroom as [Hra Hrs]. destruct (Nat.eq_dec (List.length (seen_of evs)) K) as [He|He].
      { rewrite count_false; [apply Z.mul_nonneg_nonneg; [apply Hb0|apply full_nonneg]|]. intros p Hp. apply in_space in Hp.
        apply (in_tuples R R_all) in Hp as [Hlv _]. apply sim_overhear_none; assumption. }
      set (j := (j0 + 3 * List.length (seen_of evs))%nat).
      set (mk := fun c a0 a1 a2 => {| vc_challenge := c; vc_responses := {| vcs_m0 := a0; vcs_z0 := a1; vcs_minus_zQ := a2 |} |}).
      set (mk' := fun c a0 a1 a2 => {| ce_challenge := c; ce_responses := {| ces_m0 := a0; ces_z0 := a1; ces_z1 := a2 |} |}).
      set (u := fun pf => p_show (PV j) (e_Q j number) (e_C j number) pf).
      set (u' := fun pf' => p_member (PV j) (e_C j number) number r pf').
      set (rest2 := fun pf pf' l v => sim_at (next pf pf') (evs ++ [ESeen number r pf pf']) (table_at v ((u' pf', ce_challenge pf') :: (u pf, vc_challenge pf) :: S)) l v).
      set (T := (h + (N - List.length (asked_of evs)) + 2 * (K - Datatypes.S (List.length (seen_of evs))))%nat).
      assert (Hleft : left evs h = Datatypes.S (Datatypes.S T)) by (unfold left, T; lia).
      set (D2 := bound q T (2 + List.length S)).
      set (D1 := Z.of_nat (1 + List.length S) + D2).
      assert (HD2 : 0 <= D2) by apply Hb0. assert (HD1 : 0 <= D1) by (unfold D1; lia).
      refine (Hmono _ (fun p => match fst p with [] => false | c :: l => match l with [] => false | a0 :: l => match l with [] => false | a1 :: l =>
                match l with [] => false | a2 :: l =>
                  negb (zero_at (PV 0) (snd p)) && (in_table (table_at (snd p) S) (map (pt_at (snd p)) (u (mk c a0 a1 a2))) ||
                  match l with [] => false | c' :: l => match l with [] => false | d0 :: l => match l with [] => false | d1 :: l =>
                  match l with [] => false | d2 :: l =>
                    negb (zero_at (PV 0) (snd p)) && (in_table (table_at (snd p) ((u (mk c a0 a1 a2), c) :: S)) (map (pt_at (snd p)) (u' (mk' c' d0 d1 d2))) ||
                    rest2 (mk c a0 a1 a2) (mk' c' d0 d1 d2) l (snd p)) end end end end) end end end end)
              (Z.of_nat (List.length S) + D1) _ _ _ _ _).
      + unfold D1, D2. rewrite Hleft. unfold bound. nia.
      + intros [stream v] Hp. apply in_space in Hp. cbn [fst snd] in *. apply (in_tuples R R_all) in Hp as [Hlv _]. intros H.
        apply sim_overhear in H; [|exact Hlv|lia]. exact H.
      + set (body2 := fun pf c c' d0 d1 d2 l v => negb (zero_at (PV 0) v) && (in_table (E := E) (table_at v ((u pf, c) :: S)) (map (pt_at v) (u' (mk' c' d0 d1 d2))) ||
                    rest2 pf (mk' c' d0 d1 d2) l v)).
        set (body1 := fun c a0 a1 a2 l v => negb (zero_at (PV 0) v) && (in_table (E := E) (table_at v S) (map (pt_at v) (u (mk c a0 a1 a2))) ||
                  match l with [] => false | c' :: l => match l with [] => false | d0 :: l => match l with [] => false | d1 :: l =>
                  match l with [] => false | d2 :: l => body2 (mk c a0 a1 a2) c c' d0 d1 d2 l v end end end end)).
        refine (draw_step R R_all R_length n M _ (fun c l v => match l with [] => false | a0 :: l => match l with [] => false | a1 :: l =>
                match l with [] => false | a2 :: l => body1 c a0 a1 a2 l v end end end) _ _); [lia|]. intros c M1.
        refine (draw_step R R_all R_length n M1 _ (fun a0 l v => match l with [] => false | a1 :: l =>
                match l with [] => false | a2 :: l => body1 c a0 a1 a2 l v end end) _ _); [lia|]. intros a0 M2.
        refine (draw_step R R_all R_length n M2 _ (fun a1 l v => match l with [] => false | a2 :: l => body1 c a0 a1 a2 l v end) _ _); [lia|]. intros a1 M3.
        refine (draw_check R R_all R_length n M3 D1 (Z.of_nat (List.length S)) (fun v => negb (zero_at (PV 0) v))
          (fun a2 v => in_table (table_at v S) (map (pt_at v) (u (mk c a0 a1 a2))))
          (fun a2 l v => match l with [] => false | c' :: l => match l with [] => false | d0 :: l => match l with [] => false | d1 :: l =>
                  match l with [] => false | d2 :: l =>
                    negb (zero_at (PV 0) v) && (in_table (table_at v ((u (mk c a0 a1 a2), c) :: S)) (map (pt_at v) (u' (mk' c' d0 d1 d2))) ||
                    rest2 (mk c a0 a1 a2) (mk' c' d0 d1 d2) l v) end end end end) HD1 _ _ _).
        * lia.
        * intros v _ Ht. apply few_show_hits. exact Ht.
        * intros a2 M4. set (pf := mk c a0 a1 a2).
          refine (Hmono _ (fun p => match fst p with [] => false | c' :: l => match l with [] => false | d0 :: l => match l with [] => false | d1 :: l =>
                  match l with [] => false | d2 :: l =>
                    negb (zero_at (PV 0) (snd p)) && (in_table (table_at (snd p) ((u pf, c) :: S)) (map (pt_at (snd p)) (u' (mk' c' d0 d1 d2))) ||
                    rest2 pf (mk' c' d0 d1 d2) l (snd p)) end end end end) D1 _ _ (Z.le_refl D1) _ _).
          { intros p _ H. apply andb_prop in H as [_ H]. exact H. }
          refine (draw_step R R_all R_length n M4 _ (fun c' l v => match l with [] => false | d0 :: l => match l with [] => false | d1 :: l =>
                  match l with [] => false | d2 :: l => body2 pf c c' d0 d1 d2 l v end end end) _ _); [lia|]. intros c' M5.
          refine (draw_step R R_all R_length n M5 _ (fun d0 l v => match l with [] => false | d1 :: l =>
                  match l with [] => false | d2 :: l => body2 pf c c' d0 d1 d2 l v end end) _ _); [lia|]. intros d0 M6.
          refine (draw_step R R_all R_length n M6 _ (fun d1 l v => match l with [] => false | d2 :: l => body2 pf c c' d0 d1 d2 l v end) _ _); [lia|]. intros d1 M7.
          refine (draw_check R R_all R_length n M7 D2 (Z.of_nat (1 + List.length S)) (fun v => negb (zero_at (PV 0) v))
            (fun d2 v => in_table (table_at v ((u pf, c) :: S)) (map (pt_at v) (u' (mk' c' d0 d1 d2))))
            (fun d2 l v => rest2 pf (mk' c' d0 d1 d2) l v) HD2 _ _ _).
          -- lia.
          -- intros v _ Ht. apply few_member_hits. exact Ht.
          -- intros d2 M8. set (pf' := mk' c' d0 d1 d2).
             refine (Hmono _ _ _ _ _ _ _ (IH pf pf' (evs ++ [ESeen number r pf pf']) ((u' pf', ce_challenge pf') :: (u pf, vc_challenge pf) :: S) M8 _ _)).
             ++ unfold D2. replace (left (evs ++ [ESeen number r pf pf']) h) with T; [cbn [List.length Nat.add]; lia|].
                unfold left, T. rewrite asked_of_app, seen_of_app. cbn [asked_of seen_of]. rewrite !app_length. cbn [List.length]. lia.
             ++ intros p _ H. apply andb_prop in H as [_ H]. exact H.
             ++ split; rewrite ?asked_of_app, ?seen_of_app; cbn [asked_of seen_of]; rewrite app_length; cbn [List.length]; lia.
             ++ rewrite seen_of_app, honest_app. cbn [seen_of honest]. fold j. fold (u pf) (u' pf').
                constructor; [|constructor; [|apply fair_grow; exact HS]]; cbn [fst snd]; (split; [|right; apply in_or_app; right; cbn; auto]).
                ** apply low_p_member; unfold e_C, p_h; cbn [deg]; lia.
                ** apply low_p_show; unfold e_C, e_Q, p_exponent, p_h; cbn [deg]; lia.
    - set (u := map (fun c => sym_comb c (p_all j0 evs)) points).
      assert (Hu : low u). { unfold low, u. apply Forall_map, Forall_forall. intros c _. pose proof (low_comb_all evs c). lia. }
      pose proof (hash_step_all L R R_nodup R_all R_length n (honest j0 (seen_of evs)) S u M (fun c table values v => sim_at (next c) evs table values v)
        (bound q (left evs h) (1 + List.length S)) ltac:(apply Hb0) HS Hu) as Hs.
      assert (Hleft : left evs (Datatypes.S h) = Datatypes.S (left evs h)) by (unfold left; lia).
      refine (Hmono _ _ _ _ _ _ _ (Hs _)).
      + rewrite Hleft. unfold bound. nia.
      + intros [values v] Hp. cbn [fst snd]. unfold sim_at at 1. cbn [sim].
        replace (map (fun c => combination c (map (pt_at v) (p_all j0 evs))) points) with (map (pt_at (E := E) v) u).
        2:{ unfold u. rewrite map_map. apply map_ext. intros c. symmetry. apply (comb_at L). }
        destruct (hash (table_at v S) values (map (pt_at v) u)) as [[[c table] values']|]; [|rewrite Bool.andb_false_r; discriminate].
        exact (fun H => H).
      + intros c S' M' _ HS' Hl'. refine (Hmono _ _ _ _ _ _ (fun p _ H => H) (IH c evs S' M' Hroom HS')). unfold bound. nia.
    - set (e := sym_comb c (p_all j0 evs)). pose proof (low_comb_all evs c) as Hd. fold e in Hd.
      assert (Hf : forall values v, sim_at (ITest c yes no) evs (table_at v S) values v =
        if zero_at e v then sim_at yes evs (table_at v S) values v else sim_at no evs (table_at v S) values v).
      { intros values v. unfold sim_at. cbn [sim]. rewrite (comb_at L), (zero_iff L). fold e. destruct (zero_at e v); reflexivity. }
      destruct (vanishes R n e) eqn:Hvan.
      + refine (Hmono _ _ _ _ _ _ _ (IHy evs S M Hroom HS)); [unfold bound; nia|]. intros [values v] Hp. apply in_space in Hp. cbn [fst snd] in *.
        rewrite Hf, (proj2 (zero_at_iff e v) (proj1 (vanishes_true R n e) Hvan v Hp)). exact (fun H => H).
      + pose proof (count_values R R_all R_length n (zero_at e) 2 M) as Hz.
        assert (Hz' : count (zero_at e) (tuples R n) * ell <= 2 * ell ^ Z.of_nat n).
        { etransitivity; [apply (few_zeros R R_nodup R_all R_length n e Hvan)|]. apply Z.mul_le_mono_nonneg_r; [apply Z.pow_nonneg; lia|lia]. }
        specialize (Hz Hz'). pose proof (IHn evs S M Hroom HS) as Hc.
        pose proof (count_or (fun p => sim_at (ITest c yes no) evs (table_at (snd p) S) (fst p) (snd p)) (fun p : list Z * list Z => zero_at e (snd p))
          (fun p => sim_at no evs (table_at (snd p) S) (fst p) (snd p)) (space R n M)) as Hor.
        assert (Hb : bound (Datatypes.S q) (left evs h) (List.length S) * full n M = 2 * full n M + bound q (left evs h) (List.length S) * full n M).
        { unfold bound. rewrite Nat2Z.inj_succ. ring. }
        rewrite Hb. etransitivity; [apply Z.mul_le_mono_nonneg_r; [lia|apply Hor]|].
        * intros [values v] _. cbn [fst snd]. rewrite Hf. destruct (zero_at e v); auto.
        * rewrite Z.mul_add_distr_r. apply Z.add_le_mono; assumption.
    - set (P := sym_comb cP (p_all j0 evs)). set (Q := sym_comb cQ (p_all j0 evs)). set (C := sym_comb cC (p_all j0 evs)).
      set (u := p_show P Q C pf). set (u' := p_member P C number r pf').
      assert (Hu : low u) by (apply low_p_show; apply low_comb_all).
      assert (Hu' : low u') by (apply low_p_member; apply low_comb_all).
      set (s := fun v => sighting_at (E := E) v P Q C pf number r pf').
      set (after := fun c c' => next (scalar_eqb c (vc_challenge pf)) (scalar_eqb c' (ce_challenge pf'))).
      set (wins := fun c c' v => scalar_eqb c (vc_challenge pf) && negb (zero_at P v) &&
        (match as_messages (asked_of evs) with [] => true | _ => false end && negb (existsb (same_shown (s v)) (seen_at v j0 (seen_of evs))) ||
         scalar_eqb c' (ce_challenge pf') && fresh [number] (as_messages (asked_of evs)) && negb (existsb (same_sighting (s v)) (seen_at v j0 (seen_of evs))))).
      set (second := fun c c' table values v => negb (zero_at (PV 0) v) && (wins c c' v || sim_at (after c c') evs table values v)).
      assert (Hleft : left evs (Datatypes.S (Datatypes.S h)) = Datatypes.S (Datatypes.S (left evs h))) by (unfold left; lia).
      pose proof (hash_step_all L R R_nodup R_all R_length n (honest j0 (seen_of evs)) S u M
        (fun c table values v => match hash table values (map (pt_at v) u') with
                                 | None => false | Some (c', table', values') => second c c' table' values' v end)
        (bound q (1 + left evs h) (1 + List.length S)) ltac:(apply Hb0) HS Hu) as Hs.
      refine (Hmono _ _ _ _ _ _ _ (Hs _)).
      + rewrite Hleft. unfold bound. nia.
      + intros [values v] Hp. apply in_space in Hp. cbn [fst snd] in *. unfold sim_at. cbn [sim sg_nonce sg_mac sg_blinded]. unfold sighting_publics, sighting_entry.
        rewrite !(comb_at L). fold P Q C. rewrite (show_at L), (member_at L). fold u u'.
        destruct (hash (table_at v S) values (map (pt_at v) u)) as [[[c table] values1]|]; [|rewrite Bool.andb_false_r; discriminate].
        destruct (hash table values1 (map (pt_at v) u')) as [[[c' table'] values2]|]; [|rewrite Bool.andb_false_r; discriminate].
        unfold second, sim_at. rewrite (zero_iff L). fold (sighting_at (E := E) v P Q C pf number r pf'). fold (s v).
        destruct (negb (zero_at (PV 0) v)); [|discriminate]. cbn [andb]. unfold after. intros H.
        match type of H with (if ?b then _ else _) = true => change b with (wins c c' v) in H end.
        destruct (wins c c' v); [reflexivity|]. exact H.
      + intros c S1 M1 Hk HS1 Hl1.
        pose proof (hash_step_all L R R_nodup R_all R_length n (honest j0 (seen_of evs)) S1 u' M1 (fun c' table values v => second c c' table values v)
          (bound q (left evs h) (1 + List.length S1)) ltac:(apply Hb0) HS1 Hu') as Hs1.
        refine (Hmono _ _ _ _ _ _ (fun p _ H => H) (Hs1 _)); [unfold bound; nia|].
        intros c' S2 M2 Hk' HS2 Hl2.
        refine (Hmono _ _ _ _ _ _ _ (IH (scalar_eqb c (vc_challenge pf)) (scalar_eqb c' (ce_challenge pf')) evs S2 M2 Hroom HS2)); [unfold bound; nia|].
        intros [values v] Hp. apply in_space in Hp. cbn [fst snd] in *. unfold second.
        destruct (zero_at (PV 0) v) eqn:Ht; [discriminate|]. cbn [negb andb].
        assert (Hw : wins c c' v = false) by exact (no_pass_all L R R_all N K evs cP cQ cC pf number r pf' c c' Hroom Hk Hk' v Hp Ht).
        rewrite Hw. cbn [orb]. exact (fun H => H).
  Qed.
End count_sim.
