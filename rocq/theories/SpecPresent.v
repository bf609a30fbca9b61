(** The game in which an adversary tries to have a presentation accepted which it
    should not be able to make.

    The adversary is generic, as in SpecGame.v, and the hash is a random function,
    as in SpecOracle.v: here of the points hashed by [verify] (eight) and by
    [verify_roster_membership] (seven).  The adversary may have presentations
    checked as often as it likes.  It does not see presentations by others, which
    it could repeat, and its presentations reveal no attribute (C76).  The second
    generator [h] is [t] times the first, and [t] is drawn like the key: whoever
    knows it opens a roster entry to every number. *)
From Verif Require Export SpecOracle.

Inductive presenter : Type :=
| PStop
| PAsk (m : scalar) (next : presenter)
| PHash (points : list (list scalar)) (next : scalar -> presenter)
| PTest (c : list scalar) (yes no : presenter)
| PShow (cP cQ cC : list scalar) (proof : vc_Proof) (number opening : scalar) (membership : ce_Proof)
        (next : bool -> bool -> presenter).

(** On each path there are at most [q] tests and [h] hashes; checking a
    presentation takes two. *)
Inductive presents_within : nat -> nat -> presenter -> Prop :=
| pw_stop q h : presents_within q h PStop
| pw_ask q h m next : presents_within q h next -> presents_within q h (PAsk m next)
| pw_hash q h points next : (forall c, presents_within q h (next c)) -> presents_within q (S h) (PHash points next)
| pw_test q h c yes no : presents_within q h yes -> presents_within q h no -> presents_within (S q) h (PTest c yes no)
| pw_show q h cP cQ cC pf n r pf' next : (forall ok member, presents_within q h (next ok member)) ->
    presents_within q (S (S h)) (PShow cP cQ cC pf n r pf' next).

Section presenting.
  Context {E : Ext}.

  (** What is hashed; aeonflux/src/proofs.rs:688-720 and 814-845. *)
  Definition show_points (p : vc_Publics E) (c : vc_Commitments E) : list (point E) :=
    [vcp_B p; vcp_A p; vcp_X0 p; vcp_P p; vcp_V p; vcp_Cm0 p; vcc_Cm0 c; vcc_V c].
  Definition member_points (p : ce_Publics E) (c : ce_Commitments E) : list (point E) :=
    [cep_B p; cep_A p; cep_P p; cep_Cm0 p; cep_Cm1 p; cec_Cm0 c; cec_Cm1 c].

  (** The first generator is the basepoint. *)
  Definition params_at (t : scalar) : SystemParameters E := {| sp_g := basepoint; sp_h := smul t basepoint |}.

  (** Whether the adversary has a presentation accepted whose nonce is not the
      identity (C19 and C20 are about that) and
      - it has not asked for any credential, or
      - the presentation shows membership under an entry for a number which it
        has not asked a credential for.
      It chooses the opening of the entry itself.  [coins] are as in [forges],
      [table] and [values] as in [forges_seeing]. *)
  Fixpoint passes (t x0 x1 : scalar) (coins : list (scalar * scalar))
      (table : list (list (point E) * scalar)) (values : list scalar)
      (o : presenter) (held : list (point E)) (asked : list (list scalar)) : bool :=
    let params := params_at t in
    let k := {| sk_x0 := x0; sk_xn := [x1] |} in
    match o with
    | PStop => false
    | PAsk m next =>
      match coins with
      | [] => false
      | (b, y) :: coins' =>
        match mac_with k [m] b with
        | Ok tag => passes t x0 x1 coins' table values next (held ++ issued_points k params tag y)%list (asked ++ [[m]])%list
        | _ => false
        end
      end
    | PHash points next =>
      match hash table values (map (fun c => combination c held) points) with
      | None => false
      | Some (c, table', values') => passes t x0 x1 coins table' values' (next c) held asked
      end
    | PTest c yes no =>
      if peqb (combination c held) pzero
      then passes t x0 x1 coins table values yes held asked
      else passes t x0 x1 coins table values no held asked
    | PShow cP cQ cC pf n r pf' next =>
      let P := combination cP held in
      let C := combination cC held in
      let p := presentation_publics params (smul x1 (sp_h params)) x0 x1 P (combination cQ held) C in
      let q := roster_publics params P C (padd (smul n (sp_h params)) (smul r (sp_g params))) in
      match hash table values (show_points p (vc_recompute pf p)) with
      | None => false
      | Some (c, table1, values1) =>
        match hash table1 values1 (member_points q (ce_recompute pf' q)) with
        | None => false
        | Some (c', table2, values2) =>
          let ok := scalar_eqb c (vc_challenge pf) in
          let member := scalar_eqb c' (ce_challenge pf') in
          if ok && negb (peqb P pzero) &&
             (match asked with [] => true | _ => false end || member && fresh [n] asked)
          then true
          else passes t x0 x1 coins table2 values2 (next ok member) held asked
        end
      end
    end.

  Definition game_presenting (o : presenter) (t x0 x1 : scalar) (coins : list (scalar * scalar)) (values : list scalar) : bool :=
    passes t x0 x1 coins [] values o (public_points {| sk_x0 := x0; sk_xn := [x1] |} (params_at t)) [].
End presenting.
