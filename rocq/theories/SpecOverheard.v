(** The game of SpecPresent.v in which the adversary sees everything.

    It also sees the proof of issuance which comes with each of its credentials, as
    in SpecOracle.v, and it overhears honest users: it names the number and the
    opening of the roster entry, and is given a presentation for them.  One random
    function is used for all proofs: of nine points for issuance, of eight and of
    seven for a presentation.  Presentations reveal no attribute (C76). *)
From Verif Require Export SpecPresent.

Inductive impostor : Type :=
| IStop
| IAsk (m : scalar) (next : scalar -> ir_Scalars -> impostor)
| IOverhear (number opening : scalar) (next : vc_Proof -> ce_Proof -> impostor)
| IHash (points : list (list scalar)) (next : scalar -> impostor)
| ITest (c : list scalar) (yes no : impostor)
| IShow (cP cQ cC : list scalar) (proof : vc_Proof) (number opening : scalar) (membership : ce_Proof)
        (next : bool -> bool -> impostor).

(** On each path there are at most [q] tests and [h] hashes; checking a
    presentation takes two. *)
Inductive impostor_within : nat -> nat -> impostor -> Prop :=
| iw_stop q h : impostor_within q h IStop
| iw_ask q h m next : (forall c s, impostor_within q h (next c s)) -> impostor_within q h (IAsk m next)
| iw_overhear q h n r next : (forall pf pf', impostor_within q h (next pf pf')) -> impostor_within q h (IOverhear n r next)
| iw_hash q h points next : (forall c, impostor_within q h (next c)) -> impostor_within q (S h) (IHash points next)
| iw_test q h c yes no : impostor_within q h yes -> impostor_within q h no -> impostor_within (S q) h (ITest c yes no)
| iw_show q h cP cQ cC pf n r pf' next : (forall ok member, impostor_within q h (next ok member)) ->
    impostor_within q (S (S h)) (IShow cP cQ cC pf n r pf' next).

(** What an honest user draws for a presentation: the logarithm of the nonce, the
    two scalars that hide the number and the tag, and three for each proof. *)
Definition show_coins : Type := (scalar * scalar * scalar) * (vc_Scalars * ce_Scalars).

Definition vc_respond (c : scalar) (s r : vc_Scalars) : vc_Scalars := {|
  vcs_m0 := s_add (s_mul c (vcs_m0 s)) (vcs_m0 r);
  vcs_z0 := s_add (s_mul c (vcs_z0 s)) (vcs_z0 r);
  vcs_minus_zQ := s_add (s_mul c (vcs_minus_zQ s)) (vcs_minus_zQ r) |}.
Definition ce_respond (c : scalar) (s r : ce_Scalars) : ce_Scalars := {|
  ces_m0 := s_add (s_mul c (ces_m0 s)) (ces_m0 r);
  ces_z0 := s_add (s_mul c (ces_z0 s)) (ces_z0 r);
  ces_z1 := s_add (s_mul c (ces_z1 s)) (ces_z1 r) |}.

(** All scalars drawn are canonical. *)
Definition coins_canonical (coins : list (scalar * scalar * ir_Scalars)) : Prop :=
  Forall (fun '(b, y, r) => canonical b /\ canonical y /\ ir_canonical r) coins.
Definition shows_canonical (shows : list show_coins) : Prop :=
  Forall (fun '(b, z, zQ, (v, w)) => canonical b /\ canonical z /\ canonical zQ /\ vc_canonical v /\ ce_canonical w) shows.

Section overhearing.
  Context {E : Ext}.

  (** A presentation, with the number and the opening of its roster entry. *)
  Record sighting : Type := {
    sg_nonce : point E;
    sg_mac : point E;
    sg_blinded : point E;
    sg_proof : vc_Proof;
    sg_number : scalar;
    sg_opening : scalar;
    sg_membership : ce_Proof
  }.

  (** Whether two presentations are the same; scalars are read modulo the order of
      the group. *)
  Definition same_scalar (a b : scalar) : bool := a mod ell =? b mod ell.
  Definition same_shown (a b : sighting) : bool :=
    let s := vc_responses (sg_proof a) in let s' := vc_responses (sg_proof b) in
    peqb (sg_nonce a) (sg_nonce b) && peqb (sg_mac a) (sg_mac b) && peqb (sg_blinded a) (sg_blinded b) &&
    same_scalar (vc_challenge (sg_proof a)) (vc_challenge (sg_proof b)) &&
    same_scalar (vcs_m0 s) (vcs_m0 s') && same_scalar (vcs_z0 s) (vcs_z0 s') && same_scalar (vcs_minus_zQ s) (vcs_minus_zQ s').
  Definition same_sighting (a b : sighting) : bool :=
    let s := ce_responses (sg_membership a) in let s' := ce_responses (sg_membership b) in
    same_shown a b && same_scalar (sg_number a) (sg_number b) && same_scalar (sg_opening a) (sg_opening b) &&
    same_scalar (ce_challenge (sg_membership a)) (ce_challenge (sg_membership b)) &&
    same_scalar (ces_m0 s) (ces_m0 s') && same_scalar (ces_z0 s) (ces_z0 s') && same_scalar (ces_z1 s) (ces_z1 s').

  (** The statements of the two proofs of a presentation. *)
  Definition sighting_publics (t x0 x1 : scalar) (P Q C : point E) : vc_Publics E :=
    presentation_publics (params_at t) (smul x1 (sp_h (params_at t))) x0 x1 P Q C.
  Definition sighting_entry (t : scalar) (P C : point E) (n r : scalar) : ce_Publics E :=
    roster_publics (params_at t) P C (padd (smul n (sp_h (params_at t))) (smul r (sp_g (params_at t)))).

  (** Whether the adversary has a presentation accepted whose nonce is not the
      identity (C19 and C20 are about that) and
      - it has not asked for any credential, and what it shows is not what it
        overheard, or
      - the presentation shows membership under an entry for a number which it
        has not asked a credential for, and the whole is not one it overheard.
      [seen] are the presentations overheard so far. *)
  Fixpoint impersonates (t x0 x1 : scalar) (coins : list (scalar * scalar * ir_Scalars)) (shows : list show_coins)
      (table : list (list (point E) * scalar)) (values : list scalar)
      (o : impostor) (held : list (point E)) (asked : list (list scalar)) (seen : list sighting) : bool :=
    let params := params_at t in
    let k := {| sk_x0 := x0; sk_xn := [x1] |} in
    match o with
    | IStop => false
    | IAsk m next =>
      match coins with
      | [] => false
      | (b, y, r) :: coins' =>
        match mac_with k [m] b with
        | Ok tag =>
          let p := issued_statement x0 x1 params tag y in
          match hash table values (hashed_points p (ir_image p r)) with
          | None => false
          | Some (c, table', values') =>
            impersonates t x0 x1 coins' shows table' values' (next c (respond c (issued_secrets x0 x1 m y) r))
              (held ++ issued_points k params tag y)%list (asked ++ [[m]])%list seen
          end
        | _ => false
        end
      end
    | IOverhear n r next =>
      match shows with
      | [] => false
      | ((b, z, zQ), (v, w)) :: shows' =>
        match mac_with k [n] b with
        | Ok tag =>
          let P := tag_nonce tag in
          let Q := commitment_to (tag_mac tag) zQ (sp_h params) in
          let C := commitment_to (smul n P) z (sp_h params) in
          let p := sighting_publics t x0 x1 P Q C in
          let q := sighting_entry t P C n r in
          match hash table values (show_points p (vc_image p v)) with
          | None => false
          | Some (c, table1, values1) =>
            match hash table1 values1 (member_points q (ce_image q w)) with
            | None => false
            | Some (c', table2, values2) =>
              let pf := {| vc_challenge := c;
                           vc_responses := vc_respond c {| vcs_m0 := n; vcs_z0 := z; vcs_minus_zQ := s_neg zQ |} v |} in
              let pf' := {| ce_challenge := c';
                            ce_responses := ce_respond c' {| ces_m0 := n; ces_z0 := z; ces_z1 := r |} w |} in
              impersonates t x0 x1 coins shows' table2 values2 (next pf pf') (held ++ [P; Q; C])%list asked
                (seen ++ [{| sg_nonce := P; sg_mac := Q; sg_blinded := C; sg_proof := pf;
                             sg_number := n; sg_opening := r; sg_membership := pf' |}])%list
            end
          end
        | _ => false
        end
      end
    | IHash points next =>
      match hash table values (map (fun c => combination c held) points) with
      | None => false
      | Some (c, table', values') => impersonates t x0 x1 coins shows table' values' (next c) held asked seen
      end
    | ITest c yes no =>
      if peqb (combination c held) pzero
      then impersonates t x0 x1 coins shows table values yes held asked seen
      else impersonates t x0 x1 coins shows table values no held asked seen
    | IShow cP cQ cC pf n r pf' next =>
      let s := {| sg_nonce := combination cP held; sg_mac := combination cQ held; sg_blinded := combination cC held;
                  sg_proof := pf; sg_number := n; sg_opening := r; sg_membership := pf' |} in
      let p := sighting_publics t x0 x1 (sg_nonce s) (sg_mac s) (sg_blinded s) in
      let q := sighting_entry t (sg_nonce s) (sg_blinded s) n r in
      match hash table values (show_points p (vc_recompute pf p)) with
      | None => false
      | Some (c, table1, values1) =>
        match hash table1 values1 (member_points q (ce_recompute pf' q)) with
        | None => false
        | Some (c', table2, values2) =>
          let ok := scalar_eqb c (vc_challenge pf) in
          let member := scalar_eqb c' (ce_challenge pf') in
          if ok && negb (peqb (sg_nonce s) pzero) &&
             (match asked with [] => true | _ => false end && negb (existsb (same_shown s) seen) ||
              member && fresh [n] asked && negb (existsb (same_sighting s) seen))
          then true
          else impersonates t x0 x1 coins shows table2 values2 (next ok member) held asked seen
        end
      end
    end.

  Definition game_overhearing (o : impostor) (t x0 x1 : scalar) (coins : list (scalar * scalar * ir_Scalars))
      (shows : list show_coins) (values : list scalar) : bool :=
    impersonates t x0 x1 coins shows [] values o (public_points {| sk_x0 := x0; sk_xn := [x1] |} (params_at t)) [] [].
End overhearing.
Arguments sighting E : clear implicits.
