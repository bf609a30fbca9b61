(** What is drawn in the game of SpecOverheard.v, in the order of the simulated
    game. *)
From Verif Require Export OverheardGame.
From Coq Require Import Setoid.
Local Open Scope Z_scope.

(** ** Responses *)
Definition ir_flat (s : ir_Scalars) : list Z := [irs_x0 s; irs_x0_tilde s; irs_m1x1 s; irs_x1 s].
Definition vc_flat (s : vc_Scalars) : list Z := [vcs_m0 s; vcs_z0 s; vcs_minus_zQ s].
Definition ce_flat (s : ce_Scalars) : list Z := [ces_m0 s; ces_z0 s; ces_z1 s].

Lemma add_inj a b b' : canonical b -> canonical b' -> s_add a b = s_add a b' -> b = b'.
Proof.
  intros Hb Hb' H. apply eqm_canonical; [exact Hb|exact Hb'|]. apply eqm_sub_0.
  assert (H' : a + b == a + b') by exact H. apply eqm_sub_0 in H'. rewrite <- H'. apply eqm_of_eq; zring.
Qed.
Lemma vc_respond_inj c s r r' : vc_canonical r -> vc_canonical r' -> vc_respond c s r = vc_respond c s r' -> r = r'.
Proof.
  destruct r as [a1 a2 a3], r' as [b1 b2 b3]. unfold vc_canonical, vc_respond. cbn [vcs_m0 vcs_z0 vcs_minus_zQ].
  intros (A1 & A2 & A3) (B1 & B2 & B3) H. injection H as H1 H2 H3. apply add_inj in H1, H2, H3; auto. congruence.
Qed.
Lemma ce_respond_inj c s r r' : ce_canonical r -> ce_canonical r' -> ce_respond c s r = ce_respond c s r' -> r = r'.
Proof.
  destruct r as [a1 a2 a3], r' as [b1 b2 b3]. unfold ce_canonical, ce_respond. cbn [ces_m0 ces_z0 ces_z1].
  intros (A1 & A2 & A3) (B1 & B2 & B3) H. injection H as H1 H2 H3. apply add_inj in H1, H2, H3; auto. congruence.
Qed.
Lemma sum_canonical a b : canonical (s_add a b).
Proof. apply mod_range. Qed.
Lemma ir_flat_canonical s : ir_canonical s -> Forall canonical (ir_flat s).
Proof. intros (A & B & C & D). repeat (constructor; [assumption|]). constructor. Qed.
Lemma vc_flat_canonical s : vc_canonical s -> Forall canonical (vc_flat s).
Proof. intros (A & B & C). repeat (constructor; [assumption|]). constructor. Qed.
Lemma ce_flat_canonical s : ce_canonical s -> Forall canonical (ce_flat s).
Proof. intros (A & B & C). repeat (constructor; [assumption|]). constructor. Qed.
Lemma vc_respond_canonical c s r : vc_canonical (vc_respond c s r).
Proof. repeat split; apply sum_canonical. Qed.
Lemma ce_respond_canonical c s r : ce_canonical (ce_respond c s r).
Proof. repeat split; apply sum_canonical. Qed.
Lemma ir_flat_inj s s' l l' : ir_flat s ++ l = ir_flat s' ++ l' -> s = s' /\ l = l'.
Proof. destruct s, s'. cbn. intros H. injection H. intros. subst. auto. Qed.
Lemma vc_flat_inj s s' l l' : vc_flat s ++ l = vc_flat s' ++ l' -> s = s' /\ l = l'.
Proof. destruct s, s'. cbn. intros H. injection H. intros. subst. auto. Qed.
Lemma ce_flat_inj s s' l l' : ce_flat s ++ l = ce_flat s' ++ l' -> s = s' /\ l = l'.
Proof. destruct s, s'. cbn. intros H. injection H. intros. subst. auto. Qed.

(** ** What was not used *)
Definition flat_coins (coins : list (scalar * scalar * ir_Scalars)) : list Z := flat_map (fun c => ir_flat (snd c)) coins.
Definition flat_shows (shows : list show_coins) : list Z := flat_map (fun c => vc_flat (fst (snd c)) ++ ce_flat (snd (snd c))) shows.
Definition unused (coins : list (scalar * scalar * ir_Scalars)) (shows : list show_coins) (values : list scalar) : list scalar :=
  (values ++ flat_coins coins ++ flat_shows shows)%list.
Definition coins_ok (coins : list (scalar * scalar * ir_Scalars)) : Prop := Forall (fun u => ir_canonical (snd u)) coins.
Definition shows_ok (shows : list show_coins) : Prop := Forall (fun u => vc_canonical (fst (snd u)) /\ ce_canonical (snd (snd u))) shows.

Lemma flat_coins_inj coins : forall coins' l l', map fst coins = map fst coins' -> flat_coins coins ++ l = flat_coins coins' ++ l' -> coins = coins' /\ l = l'.
Proof.
  induction coins as [|[u r] coins IH]; intros [|[u' r'] coins'] l l' Hm H; try discriminate Hm; [auto|].
  cbn [map fst] in Hm. injection Hm as -> Hm. cbn [flat_coins flat_map snd] in H. rewrite <- !app_assoc in H.
  apply ir_flat_inj in H as [-> H]. destruct (IH _ _ _ Hm H) as [-> ->]. auto.
Qed.
Lemma flat_shows_inj shows : forall shows' l l', map fst shows = map fst shows' -> flat_shows shows ++ l = flat_shows shows' ++ l' -> shows = shows' /\ l = l'.
Proof.
  induction shows as [|[u [r s]] shows IH]; intros [|[u' [r' s']] shows'] l l' Hm H; try discriminate Hm; [auto|].
  cbn [map fst] in Hm. injection Hm as -> Hm. cbn [flat_shows flat_map fst snd] in H. rewrite <- !app_assoc in H.
  apply vc_flat_inj in H as [-> H]. apply ce_flat_inj in H as [-> H]. destruct (IH _ _ _ Hm H) as [-> ->]. auto.
Qed.
Lemma app_inj {A} (l : list A) : forall l' m m', List.length l = List.length l' -> l ++ m = l' ++ m' -> l = l' /\ m = m'.
Proof.
  induction l as [|x l IH]; intros [|y l'] m m' Hl H; try discriminate Hl; [auto|]. cbn in H. injection H as -> H. injection Hl as Hl.
  destruct (IH _ _ _ Hl H) as [-> ->]. auto.
Qed.
Lemma unused_inj coins coins' shows shows' values values' : map fst coins = map fst coins' -> map fst shows = map fst shows' ->
  List.length values = List.length values' -> unused coins shows values = unused coins' shows' values' ->
  coins = coins' /\ shows = shows' /\ values = values'.
Proof.
  intros Hc Hs Hv H. unfold unused in H. apply app_inj in H as [-> H]; [|exact Hv]. apply flat_coins_inj in H as [-> H]; [|exact Hc].
  rewrite <- (app_nil_r (flat_shows shows)), <- (app_nil_r (flat_shows shows')) in H. apply flat_shows_inj in H as [-> _]; auto.
Qed.
Lemma unused_length coins shows values :
  List.length (unused coins shows values) = (List.length values + 4 * List.length coins + 6 * List.length shows)%nat.
Proof.
  assert (Hc : List.length (flat_coins coins) = (4 * List.length coins)%nat).
  { induction coins as [|u coins IH]; [reflexivity|]. cbn [flat_coins flat_map]. rewrite app_length. cbn [ir_flat List.length]. unfold flat_coins in IH. lia. }
  assert (Hs : List.length (flat_shows shows) = (6 * List.length shows)%nat).
  { induction shows as [|u shows IH]; [reflexivity|]. cbn [flat_shows flat_map]. rewrite !app_length. cbn [vc_flat ce_flat List.length]. unfold flat_shows in IH. lia. }
  unfold unused. rewrite !app_length. unfold scalar in *. lia.
Qed.
Lemma unused_canonical coins shows values : coins_ok coins -> shows_ok shows -> Forall canonical values -> Forall canonical (unused coins shows values).
Proof.
  intros Hc Hs Hv. unfold unused. apply Forall_app. split; [exact Hv|]. apply Forall_app. split.
  - induction Hc as [|u coins Hu _ IH]; [constructor|]. cbn [flat_coins flat_map]. apply Forall_app. split; [apply ir_flat_canonical; exact Hu|exact IH].
  - induction Hs as [|u shows [Hu Hu'] _ IH]; [constructor|]. cbn [flat_shows flat_map]. apply Forall_app. split; [|exact IH].
    apply Forall_app. split; [apply vc_flat_canonical|apply ce_flat_canonical]; assumption.
Qed.

Section trace.
  Context {E : Ext}.
  (** The value drawn for a hash, if one is. *)
  Definition drawn (table : list (list (point E) * scalar)) (u : list (point E)) (c : scalar) : list scalar :=
    if in_table table u then [] else [c].
  Fixpoint trace (t x0 x1 : scalar) (coins : list (scalar * scalar * ir_Scalars)) (shows : list show_coins)
      (table : list (list (point E) * scalar)) (values : list scalar) (o : impostor) (held : list (point E)) : list scalar :=
    let params := params_at t in
    let k := {| sk_x0 := x0; sk_xn := [x1] |} in
    match o with
    | IStop => unused coins shows values
    | IAsk m next =>
      match coins with
      | [] => unused coins shows values
      | (b, y, r) :: coins' =>
        match mac_with k [m] b with
        | Ok tag =>
          match values with
          | [] => unused coins shows values
          | c :: values' =>
            let p := issued_statement x0 x1 params tag y in
            let u := hashed_points p (ir_image p r) in
            let s := respond c (issued_secrets x0 x1 m y) r in
            c :: (ir_flat s ++
            (if in_table table u then unused coins' shows values'
             else trace t x0 x1 coins' shows ((u, c) :: table) values' (next c s) (held ++ issued_points k params tag y)))%list
          end
        | _ => unused coins shows values
        end
      end
    | IOverhear n r next =>
      match shows with
      | [] => unused coins shows values
      | ((b, z, zQ), (v, w)) :: shows' =>
        match mac_with k [n] b with
        | Ok tag =>
          match values with
          | [] => unused coins shows values
          | c :: values1 =>
            let P := tag_nonce tag in
            let Q := commitment_to (tag_mac tag) zQ (sp_h params) in
            let C := commitment_to (smul n P) z (sp_h params) in
            let p := sighting_publics t x0 x1 P Q C in
            let q := sighting_entry t P C n r in
            let u := show_points p (vc_image p v) in
            let u' := member_points q (ce_image q w) in
            let a := vc_respond c {| vcs_m0 := n; vcs_z0 := z; vcs_minus_zQ := s_neg zQ |} v in
            c :: (vc_flat a ++
            (if in_table table u then ce_flat w ++ unused coins shows' values1
             else
               match values1 with
               | [] => ce_flat w ++ unused coins shows' values1
               | c' :: values2 =>
                 let d := ce_respond c' {| ces_m0 := n; ces_z0 := z; ces_z1 := r |} w in
                 c' :: (ce_flat d ++
                 (if in_table ((u, c) :: table) u' then unused coins shows' values2
                  else trace t x0 x1 coins shows' ((u', c') :: (u, c) :: table) values2
                    (next {| vc_challenge := c; vc_responses := a |} {| ce_challenge := c'; ce_responses := d |}) (held ++ [P; Q; C])))
               end))%list
          end
        | _ => unused coins shows values
        end
      end
    | IHash points next =>
      let u := map (fun c => combination c held) points in
      match hash table values u with
      | None => unused coins shows values
      | Some (c, table', values') => (drawn table u c ++ trace t x0 x1 coins shows table' values' (next c) held)%list
      end
    | ITest c yes no =>
      if peqb (combination c held) pzero
      then trace t x0 x1 coins shows table values yes held
      else trace t x0 x1 coins shows table values no held
    | IShow cP cQ cC pf n r pf' next =>
      let P := combination cP held in
      let C := combination cC held in
      let p := sighting_publics t x0 x1 P (combination cQ held) C in
      let q := sighting_entry t P C n r in
      let u := show_points p (vc_recompute pf p) in
      let u' := member_points q (ce_recompute pf' q) in
      match hash table values u with
      | None => unused coins shows values
      | Some (c, table1, values1) =>
        (drawn table u c ++
        match hash table1 values1 u' with
        | None => unused coins shows values1
        | Some (c', table2, values2) =>
          drawn table1 u' c' ++ trace t x0 x1 coins shows table2 values2 (next (scalar_eqb c (vc_challenge pf)) (scalar_eqb c' (ce_challenge pf'))) held
        end)%list
      end
    end.
End trace.

Section facts.
  Context {E : Ext} (L : ExtLaws E) (t x0 x1 : scalar).
  Let k := {| sk_x0 := x0; sk_xn := [x1] |}.

  Lemma hash_drawn (table : list (list (point E) * scalar)) values u c table' values' : hash table values u = Some (c, table', values') ->
    forall X, hash table (drawn table u c ++ X) u = Some (c, table', X).
  Proof.
    unfold hash, drawn, in_table. destruct (find _ table) as [e|]; intros H X.
    - injection H as <- <- _. reflexivity.
    - destruct values as [|d values]; [discriminate|]. injection H as -> <- _. reflexivity.
  Qed.
  Lemma hash_length (table : list (list (point E) * scalar)) values u c table' values' : hash table values u = Some (c, table', values') ->
    (List.length (drawn table u c) + List.length values')%nat = List.length values.
  Proof.
    unfold hash, drawn, in_table. destruct (find _ table) as [e|]; intros H.
    - injection H as _ _ <-. reflexivity.
    - destruct values as [|d values]; [discriminate|]. injection H as _ _ <-. reflexivity.
  Qed.
  Lemma hash_canonical (table : list (list (point E) * scalar)) values u c table' values' : hash table values u = Some (c, table', values') ->
    Forall canonical values -> Forall canonical (drawn table u c) /\ Forall canonical values'.
  Proof.
    unfold hash, drawn, in_table. destruct (find _ table) as [e|]; intros H Hv.
    - injection H as _ _ <-. auto.
    - destruct values as [|d values]; [discriminate|]. injection H as <- _ <-. inversion Hv; subst. auto.
  Qed.
  Lemma hash_short (table : list (list (point E) * scalar)) values u c table' values' : hash table values u = Some (c, table', values') ->
    (List.length values <= S (List.length values'))%nat.
  Proof. intros H. apply hash_length in H. unfold drawn in H. destruct (in_table table u); cbn in H; lia. Qed.
  Lemma hash_same (table : list (list (point E) * scalar)) values values' u : List.length values = List.length values' ->
    match hash table values u, hash table values' u with
    | None, None => True
    | Some (c, table1, values1), Some (c', table1', values1') =>
      List.length values1 = List.length values1' /\
      (forall X X', drawn table u c ++ X = drawn table u c' ++ X' -> c = c' /\ table1 = table1' /\ X = X' /\ (values1 = values1' -> values = values'))
    | _, _ => False
    end.
  Proof.
    intros Hl. unfold hash, drawn, in_table. destruct (find _ table) as [e|].
    - split; [exact Hl|]. intros X X' H. cbn in H. auto.
    - destruct values as [|c values], values' as [|c' values']; try discriminate Hl; [exact I|]. injection Hl as Hl. split; [exact Hl|].
      intros X X' H. cbn in H. injection H as -> ->. repeat split; auto. intros ->. reflexivity.
  Qed.

  Lemma overheard_relation n r b z zQ tag : mac_with k [n] b = Ok tag ->
    let P := tag_nonce tag in
    let Q := commitment_to (tag_mac tag) zQ (sp_h (params_at (E := E) t)) in
    let C := commitment_to (smul n P) z (sp_h (params_at t)) in
    vc_relation (sighting_publics t x0 x1 P Q C) {| vcs_m0 := n; vcs_z0 := z; vcs_minus_zQ := s_neg zQ |} /\
    ce_relation (sighting_entry t P C n r) {| ces_m0 := n; ces_z0 := z; ces_z1 := r |}.
  Proof.
    intros H P Q C. apply (mac_with_spec L) in H as (_ & _ & H). unfold k in H. cbn [sk_x0 sk_xn dot] in H. split.
    - unfold vc_relation, sighting_publics, presentation_publics, Q, C, P, commitment_to, params_at.
      cbn [vcp_B vcp_A vcp_X0 vcp_P vcp_V vcp_Cm0 vcs_m0 vcs_z0 vcs_minus_zQ sp_g sp_h]. split; [reflexivity || idtac|]; try reflexivity;
        rewrite ?H; clear H; unfold s_neg; generalize (tag_nonce tag); intros P'; dlogs L; to_base L; apply (smul_base_iff L); eqm_push; apply eqm_of_eq; zring.
    - split; reflexivity.
  Qed.

  Lemma trace_length o : forall coins shows (table : list (list (point E) * scalar)) values held,
    List.length (trace t x0 x1 coins shows table values o held) = (List.length values + 4 * List.length coins + 6 * List.length shows)%nat.
  Proof.
    induction o as [|m next IH|n r next IH|points next IH|c yes IHy no IHn|cP cQ cC pf n r pf' next IH]; intros coins shows table values held;
      cbn [trace].
    - apply unused_length.
    - destruct coins as [|[[b y] r] coins]; [apply unused_length|].
      destruct (mac_with _ [m] b) as [tag| |]; [|apply unused_length|apply unused_length]. destruct values as [|c values]; [apply unused_length|].
      cbv zeta. cbn [List.length ir_flat app]. destruct (in_table _ _); [rewrite unused_length|rewrite IH]; lia.
    - destruct shows as [|[[[b z] zQ] [v w]] shows]; [apply unused_length|].
      destruct (mac_with _ [n] b) as [tag| |]; [|apply unused_length|apply unused_length]. destruct values as [|c values]; [apply unused_length|].
      cbv zeta. cbn [List.length vc_flat app]. destruct (in_table table _); [cbn [List.length ce_flat app]; rewrite unused_length; lia|].
      destruct values as [|c' values]; [cbn [List.length ce_flat app]; rewrite unused_length; cbn [List.length]; lia|].
      cbn [List.length ce_flat app]. destruct (in_table (_ :: table) _); [rewrite unused_length|rewrite IH]; lia.
    - cbv zeta. destruct (hash table values _) as [[[c table'] values']|] eqn:Hh; [|apply unused_length].
      apply hash_length in Hh. rewrite app_length, IH. lia.
    - destruct (peqb _ _); [apply IHy|apply IHn].
    - cbv zeta. destruct (hash table values _) as [[[c table'] values']|] eqn:Hh; [|apply unused_length].
      apply hash_length in Hh. rewrite app_length.
      destruct (hash table' values' _) as [[[c' table''] values'']|] eqn:Hh'; [|rewrite unused_length; lia].
      apply hash_length in Hh'. rewrite app_length, IH. lia.
  Qed.

  Lemma trace_canonical o : forall coins shows (table : list (list (point E) * scalar)) values held,
    coins_ok coins -> shows_ok shows -> Forall canonical values -> Forall canonical (trace t x0 x1 coins shows table values o held).
  Proof.
    induction o as [|m next IH|n r next IH|points next IH|c yes IHy no IHn|cP cQ cC pf n r pf' next IH]; intros coins shows table values held Hc Hs Hv;
      cbn [trace].
    - apply unused_canonical; assumption.
    - destruct coins as [|[[b y] r] coins]; [apply unused_canonical; assumption|].
      destruct (mac_with _ [m] b) as [tag| |]; [|apply unused_canonical; assumption|apply unused_canonical; assumption].
      destruct values as [|c values]; [apply unused_canonical; assumption|].
      cbv zeta. inversion Hv; subst. inversion Hc; subst. constructor; [assumption|]. apply Forall_app. split; [apply ir_flat_canonical, respond_canonical|].
      destruct (in_table _ _); [apply unused_canonical|apply IH]; assumption.
    - destruct shows as [|[[[b z] zQ] [v w]] shows]; [apply unused_canonical; assumption|].
      destruct (mac_with _ [n] b) as [tag| |]; [|apply unused_canonical; assumption|apply unused_canonical; assumption].
      destruct values as [|c values]; [apply unused_canonical; assumption|].
      cbv zeta. inversion Hv as [|? ? Hcc Hvs]; subst. inversion Hs as [|? ? [Hvc Hce] Hss]; subst. cbn [fst snd] in Hvc, Hce.
      constructor; [assumption|]. apply Forall_app. split; [apply vc_flat_canonical, vc_respond_canonical|].
      destruct (in_table table _); [apply Forall_app; split; [apply ce_flat_canonical; assumption|apply unused_canonical; assumption]|].
      destruct values as [|c' values]; [apply Forall_app; split; [apply ce_flat_canonical; assumption|apply unused_canonical; assumption]|].
      inversion Hvs; subst. constructor; [assumption|]. apply Forall_app. split; [apply ce_flat_canonical, ce_respond_canonical|].
      destruct (in_table (_ :: table) _); [apply unused_canonical|apply IH]; assumption.
    - cbv zeta. destruct (hash table values _) as [[[c table'] values']|] eqn:Hh; [|apply unused_canonical; assumption].
      apply hash_canonical in Hh as [H1 H2]; [|exact Hv]. apply Forall_app. split; [exact H1|]. apply IH; assumption.
    - destruct (peqb _ _); [apply IHy|apply IHn]; assumption.
    - cbv zeta. destruct (hash table values _) as [[[c table'] values']|] eqn:Hh; [|apply unused_canonical; assumption].
      apply hash_canonical in Hh as [H1 H2]; [|exact Hv]. apply Forall_app. split; [exact H1|].
      destruct (hash table' values' _) as [[[c' table''] values'']|] eqn:Hh'; [|apply unused_canonical; assumption].
      apply hash_canonical in Hh' as [H3 H4]; [|exact H2]. apply Forall_app. split; [exact H3|]. apply IH; assumption.
  Qed.

  (** Nothing is lost. *)
  Lemma trace_inj o : forall coins coins' shows shows' (table : list (list (point E) * scalar)) values values' held,
    map fst coins = map fst coins' -> map fst shows = map fst shows' -> List.length values = List.length values' ->
    coins_ok coins -> coins_ok coins' -> shows_ok shows -> shows_ok shows' ->
    trace t x0 x1 coins shows table values o held = trace t x0 x1 coins' shows' table values' o held ->
    coins = coins' /\ shows = shows' /\ values = values'.
  Proof.
    induction o as [|m next IH|n r next IH|points next IH|c yes IHy no IHn|cP cQ cC pf n r pf' next IH];
      intros coins coins' shows shows' table values values' held Hc Hs Hl Oc Oc' Os Os' H; cbn [trace] in H.
    - apply unused_inj; assumption.
    - destruct coins as [|[u r] coins], coins' as [|[u' r'] coins']; try discriminate Hc.
      { apply unused_inj; assumption. }
      cbn [map fst] in Hc. injection Hc as <- Hc. destruct u as [b y].
      destruct (mac_one (E := E) x0 x1 m b) as [tag Ht]. rewrite Ht in H.
      destruct values as [|c values], values' as [|c' values']; try discriminate Hl.
      { apply unused_inj; try assumption. cbn [map fst]. rewrite Hc. reflexivity. }
      injection Hl as Hl. cbv zeta in H. apply cons_inv in H as [<- H]. apply ir_flat_inj in H as [Hr H].
      inversion Oc as [|? ? Or Oc1]; subst. inversion Oc' as [|? ? Or' Oc1']; subst. cbn [snd] in Or, Or'.
      apply respond_inj in Hr; [|exact Or|exact Or']. subst r'. destruct (in_table table _).
      + destruct (unused_inj _ _ _ _ _ _ Hc Hs Hl H) as (-> & -> & ->). auto.
      + destruct (IH _ _ _ _ _ _ _ _ _ _ Hc Hs Hl Oc1 Oc1' Os Os' H) as (-> & -> & ->). auto.
    - destruct shows as [|[u [v w]] shows], shows' as [|[u' [v' w']] shows']; try discriminate Hs.
      { apply unused_inj; assumption. }
      cbn [map fst] in Hs. injection Hs as <- Hs. destruct u as [[b z] zQ].
      destruct (mac_one (E := E) x0 x1 n b) as [tag Ht]. rewrite Ht in H.
      destruct values as [|c values], values' as [|c' values']; try discriminate Hl.
      { apply unused_inj; try assumption. cbn [map fst]. rewrite Hs. reflexivity. }
      injection Hl as Hl. cbv zeta in H. apply cons_inv in H as [<- H]. apply vc_flat_inj in H as [Hr H].
      inversion Os as [|? ? [Ov Ow] Os1]; subst. inversion Os' as [|? ? [Ov' Ow'] Os1']; subst. cbn [fst snd] in Ov, Ov', Ow, Ow'.
      apply vc_respond_inj in Hr; [|exact Ov|exact Ov']. subst v'.
      assert (Hstop : ce_flat w ++ unused coins shows values = ce_flat w' ++ unused coins' shows' values' ->
        coins = coins' /\ ((b, z, zQ), (v, w)) :: shows = ((b, z, zQ), (v, w')) :: shows' /\ c :: values = c :: values').
      { intros H'. apply ce_flat_inj in H' as [-> H']. destruct (unused_inj _ _ _ _ _ _ Hc Hs Hl H') as (-> & -> & ->). auto. }
      destruct (in_table table _); [exact (Hstop H)|].
      destruct values as [|d values], values' as [|d' values']; try discriminate Hl; [exact (Hstop H)|]. clear Hstop.
      injection Hl as Hl. apply cons_inv in H as [<- H]. apply ce_flat_inj in H as [Hr H].
      apply ce_respond_inj in Hr; [|exact Ow|exact Ow']. subst w'. destruct (in_table (_ :: table) _).
      + destruct (unused_inj _ _ _ _ _ _ Hc Hs Hl H) as (-> & -> & ->). auto.
      + destruct (IH _ _ _ _ _ _ _ _ _ _ Hc Hs Hl Oc Oc' Os1 Os1' H) as (-> & -> & ->). auto.
    - cbv zeta in H. set (u := map _ points) in H. pose proof (hash_same table values values' u Hl) as Hh.
      destruct (hash table values u) as [[[c table1] values1]|], (hash table values' u) as [[[c' table1'] values1']|]; try contradiction;
        [|apply unused_inj; assumption].
      destruct Hh as [Hl1 Hh]. apply Hh in H as (<- & <- & H & Hv). clear Hh.
      destruct (IH _ _ _ _ _ _ _ _ _ Hc Hs Hl1 Oc Oc' Os Os' H) as (-> & -> & ->). auto.
    - destruct (peqb _ _); [eapply IHy|eapply IHn]; eassumption.
    - cbv zeta in H.
      match type of H with context [hash table values ?u] => pose proof (hash_same table values values' u Hl) as Hh;
        destruct (hash table values u) as [[[c table1] values1]|], (hash table values' u) as [[[c' table1'] values1']|] end; try contradiction;
        [|apply unused_inj; assumption].
      destruct Hh as [Hl1 Hh]. apply Hh in H as (<- & <- & H & Hv). clear Hh.
      match type of H with context [hash table1 values1 ?u] => pose proof (hash_same table1 values1 values1' u Hl1) as Hh;
        destruct (hash table1 values1 u) as [[[d table2] values2]|], (hash table1 values1' u) as [[[d' table2'] values2']|] end; try contradiction.
      + destruct Hh as [Hl2 Hh]. apply Hh in H as (<- & <- & H & Hv'). clear Hh.
        destruct (IH _ _ _ _ _ _ _ _ _ _ Hc Hs Hl2 Oc Oc' Os Os' H) as (-> & -> & ->). auto.
      + destruct (unused_inj _ _ _ _ _ _ Hc Hs Hl1 H) as (-> & -> & ->). auto.
  Qed.

  (** Whoever wins the game wins the simulated one. *)
  Lemma trace_wins q h o : impostor_within q h o -> forall coins shows (table : list (list (point E) * scalar)) values held asked seen,
    (h + List.length coins + 2 * List.length shows <= List.length values)%nat ->
    impersonates t x0 x1 coins shows table values o held asked seen = true ->
    sim t x0 x1 (map fst coins) (map fst shows) table (trace t x0 x1 coins shows table values o held) o held asked seen = true.
  Proof.
    induction 1 as [q h|q h m next Hn IH|q h n r next Hn IH|q h points next Hn IH|q h c yes no Hy IHy Hno IHn|q h cP cQ cC pf n r pf' next Hn IH];
      intros coins shows table values held asked seen Hl H; cbn [impersonates] in H; cbn [sim trace].
    - discriminate.
    - destruct coins as [|[[b y] r] coins]; [discriminate|]. cbn [map fst].
      destruct (mac_one (E := E) x0 x1 m b) as [tag Ht]. rewrite Ht in H |- *. cbv zeta in H |- *.
      destruct values as [|c values]; [cbn [List.length] in Hl; lia|]. cbn [ir_flat app].
      set (p := issued_statement x0 x1 (params_at t) tag y) in *.
      pose proof (ir_recompute_spec L p (issued_secrets x0 x1 m y) r c (issued_relation L (params_at t) x0 x1 m b y tag Ht)) as Hrec.
      match goal with |- context [ir_recompute ?a p] => change (ir_recompute a p = ir_image p r) in Hrec; rewrite Hrec end.
      match goal with |- context [next c ?a] => change a with (respond c (issued_secrets x0 x1 m y) r) end.
      set (u := hashed_points p (ir_image p r)) in *. unfold hash in H. fold (in_table table u).
      unfold in_table at 1 2. destruct (find (fun e => points_eqb (fst e) u) table) eqn:Hf; [reflexivity|]. cbn [orb].
      apply IH; [|exact H]. cbn [List.length] in Hl. lia.
    - destruct shows as [|[[[b z] zQ] [v w]] shows]; [discriminate|]. cbn [map fst].
      destruct (mac_one (E := E) x0 x1 n b) as [tag Ht]. rewrite Ht in H |- *. cbv zeta in H |- *.
      destruct values as [|c values]; [cbn [List.length] in Hl; lia|]. cbn [vc_flat app].
      destruct (overheard_relation n r b z zQ tag Ht) as [Hvc Hce]. cbv zeta in Hvc, Hce.
      set (P := tag_nonce tag) in *. set (Q := commitment_to (tag_mac tag) zQ (sp_h (params_at t))) in *.
      set (C := commitment_to (smul n P) z (sp_h (params_at t))) in *.
      set (p := sighting_publics t x0 x1 P Q C) in *. set (p' := sighting_entry t P C n r) in *.
      pose proof (vc_recompute_spec L p _ v c Hvc) as Hrec.
      match goal with |- context [vc_recompute ?a p] => change (vc_recompute a p = vc_image p v) in Hrec; rewrite Hrec end.
      set (u := show_points p (vc_image p v)) in *. unfold hash in H at 1.
      unfold in_table at 1 2. destruct (find (fun e => points_eqb (fst e) u) table) eqn:Hf; [reflexivity|]. cbn [orb].
      destruct values as [|c' values]; [cbn [List.length] in Hl; lia|]. cbn [ce_flat app].
      pose proof (ce_recompute_spec L p' _ w c' Hce) as Hrec'.
      match goal with |- context [ce_recompute ?a p'] => change (ce_recompute a p' = ce_image p' w) in Hrec'; rewrite Hrec' end.
      set (u' := member_points p' (ce_image p' w)) in *. unfold hash in H.
      unfold in_table. destruct (find (fun e => points_eqb (fst e) u') ((u, c) :: table)) eqn:Hf'; [reflexivity|]. cbn [orb].
      apply IH; [|exact H]. cbn [List.length] in Hl. lia.
    - destruct (hash table values _) as [[[c table1] values1]|] eqn:Hh; [|discriminate].
      pose proof (hash_short _ _ _ _ _ _ Hh) as Hs. cbv zeta. rewrite (hash_drawn _ _ _ _ _ _ Hh). apply IH; [lia|exact H].
    - destruct (peqb _ _); [apply IHy|apply IHn]; assumption.
    - cbv zeta in H |- *. cbn [sg_nonce sg_mac sg_blinded] in H |- *.
      destruct (hash table values _) as [[[c table1] values1]|] eqn:Hh; [|discriminate].
      pose proof (hash_short _ _ _ _ _ _ Hh) as Hs. rewrite (hash_drawn _ _ _ _ _ _ Hh). 
      destruct (hash table1 values1 _) as [[[c' table2] values2]|] eqn:Hh'; [|discriminate].
      pose proof (hash_short _ _ _ _ _ _ Hh') as Hs'. rewrite (hash_drawn _ _ _ _ _ _ Hh').
      match type of H with (if ?b then _ else _) = true => destruct b; [reflexivity|] end. apply IH; [lia|exact H].
  Qed.

  (** More values of the hash do no harm. *)
  Lemma hash_more (table : list (list (point E) * scalar)) values u c table' values' more : hash table values u = Some (c, table', values') ->
    hash table (values ++ more) u = Some (c, table', values' ++ more).
  Proof.
    unfold hash. destruct (find _ table) as [e|]; intros H.
    - injection H as <- <- <-. reflexivity.
    - destruct values as [|d values]; [discriminate|]. injection H as <- <- <-. reflexivity.
  Qed.
  Lemma wins_more more o : forall coins shows (table : list (list (point E) * scalar)) values held asked seen,
    impersonates t x0 x1 coins shows table values o held asked seen = true ->
    impersonates t x0 x1 coins shows table (values ++ more) o held asked seen = true.
  Proof.
    induction o as [|m next IH|n r next IH|points next IH|c yes IHy no IHn|cP cQ cC pf n r pf' next IH];
      intros coins shows table values held asked seen H; cbn [impersonates] in H |- *.
    - discriminate.
    - destruct coins as [|[[b y] r] coins]; [discriminate|]. destruct (mac_with _ [m] b); try discriminate. cbv zeta in H |- *.
      destruct (hash table values _) as [[[c table1] values1]|] eqn:Hh; [|discriminate]. rewrite (hash_more _ _ _ _ _ _ _ Hh). apply IH, H.
    - destruct shows as [|[[[b z] zQ] [v w]] shows]; [discriminate|]. destruct (mac_with _ [n] b); try discriminate. cbv zeta in H |- *.
      destruct (hash table values _) as [[[c table1] values1]|] eqn:Hh; [|discriminate]. rewrite (hash_more _ _ _ _ _ _ _ Hh).
      destruct (hash table1 values1 _) as [[[c' table2] values2]|] eqn:Hh'; [|discriminate]. rewrite (hash_more _ _ _ _ _ _ _ Hh'). apply IH, H.
    - destruct (hash table values _) as [[[c table1] values1]|] eqn:Hh; [|discriminate]. rewrite (hash_more _ _ _ _ _ _ _ Hh). apply IH, H.
    - destruct (peqb _ _); [apply IHy|apply IHn]; assumption.
    - cbv zeta in H |- *. destruct (hash table values _) as [[[c table1] values1]|] eqn:Hh; [|discriminate]. rewrite (hash_more _ _ _ _ _ _ _ Hh).
      destruct (hash table1 values1 _) as [[[c' table2] values2]|] eqn:Hh'; [|discriminate]. rewrite (hash_more _ _ _ _ _ _ _ Hh').
      match type of H with (if ?b then _ else _) = true => destruct b; [reflexivity|] end. apply IH, H.
  Qed.
End facts.
