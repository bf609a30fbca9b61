(** The game of SpecGame.v with the proofs of issuance.

    The adversary now also sees the proof that comes with each credential: its
    challenge and its responses (aeonflux/src/issuer.rs:157-194, aeonflux/src/proofs.rs:36-178).
    The challenge is a hash.  The hash is a random function which the adversary may
    evaluate too: its values are drawn when first needed.  Only the hashes made in
    proofs of issuance are needed here: they are of nine points.  The other uses of
    the hash have other labels (C38).  The key is for one attribute: with more, the
    proof does not verify (C46). *)
From Verif Require Export SpecGame SpecProofs.

Inductive observer : Type :=
| OStop
| OAsk (m : scalar) (next : scalar -> ir_Scalars -> observer)
| OHash (points : list (list scalar)) (next : scalar -> observer)
| OTest (c : list scalar) (yes no : observer)
| OTry (cP cQ : list scalar) (m : list scalar) (yes no : observer).

(** On each path there are at most [q] tests and verifications and [h] hashes. *)
Inductive within : nat -> nat -> observer -> Prop :=
| within_stop q h : within q h OStop
| within_ask q h m next : (forall c r, within q h (next c r)) -> within q h (OAsk m next)
| within_hash q h points next : (forall c, within q h (next c)) -> within q (S h) (OHash points next)
| within_test q h c yes no : within q h yes -> within q h no -> within (S q) h (OTest c yes no)
| within_try q h cP cQ m yes no : within q h yes -> within q h no -> within (S q) h (OTry cP cQ m yes no).

Section oracle.
  Context {E : Ext}.

  (** What is hashed; aeonflux/src/proofs.rs:87-135. *)
  Definition hashed_points (p : ir_Publics E) (c : ir_Commitments E) : list (point E) :=
    [irp_P p; irp_Q p; irp_Cx0 p; irp_B p; irp_A p; irp_X1 p; irc_Q c; irc_Cx0 c; irc_X1 c].
  Fixpoint points_eqb (u v : list (point E)) : bool :=
    match u, v with
    | [], [] => true
    | P :: u', Q :: v' => peqb P Q && points_eqb u' v'
    | _, _ => false
    end.

  (** The random function: what has been hashed so far, and values still to be
      used. *)
  Definition hash (table : list (list (point E) * scalar)) (values : list scalar) (u : list (point E))
    : option (scalar * list (list (point E) * scalar) * list scalar) :=
    match find (fun e => points_eqb (fst e) u) table with
    | Some e => Some (snd e, table, values)
    | None =>
      match values with
      | [] => None
      | c :: values' => Some (c, (u, c) :: table, values')
      end
    end.

  (** What the responses of a proof are. *)
  Definition respond (c : scalar) (s r : ir_Scalars) : ir_Scalars := {|
    irs_x0 := s_add (s_mul c (irs_x0 s)) (irs_x0 r);
    irs_x1 := s_add (s_mul c (irs_x1 s)) (irs_x1 r);
    irs_x0_tilde := s_add (s_mul c (irs_x0_tilde s)) (irs_x0_tilde r);
    irs_m1x1 := s_add (s_mul c (irs_m1x1 s)) (irs_m1x1 r) |}.

  (** The statement of the proof of issuance, and its secrets. *)
  Definition issued_statement (x0 x1 : scalar) (params : SystemParameters E) (t : Tag E) (y : scalar) : ir_Publics E := {|
    irp_P := tag_nonce t; irp_Q := tag_mac t;
    irp_Cx0 := commitment_to (smul x0 (sp_g params)) y (sp_h params);
    irp_B := sp_g params; irp_A := sp_h params; irp_X1 := smul x1 (sp_h params) |}.
  Definition issued_secrets (x0 x1 m y : scalar) : ir_Scalars :=
    {| irs_x0 := x0; irs_x1 := x1; irs_x0_tilde := y; irs_m1x1 := s_mul m x1 |}.

  (** Whether the adversary has a tag verified which it should not be able to
      make, as in [forges].  The issuer draws six scalars for each credential: the
      nonce, the one which hides [x0], and four for the proof.  With no value of
      the random function left, the game is over. *)
  Fixpoint forges_seeing (x0 x1 : scalar) (params : SystemParameters E)
      (coins : list (scalar * scalar * ir_Scalars)) (table : list (list (point E) * scalar)) (values : list scalar)
      (o : observer) (held : list (point E)) (asked : list (list scalar)) : bool :=
    let k := {| sk_x0 := x0; sk_xn := [x1] |} in
    match o with
    | OStop => false
    | OAsk m next =>
      match coins with
      | [] => false
      | (b, y, r) :: coins' =>
        match mac_with k [m] b with
        | Ok t =>
          let p := issued_statement x0 x1 params t y in
          match hash table values (hashed_points p (ir_image p r)) with
          | None => false
          | Some (c, table', values') =>
            forges_seeing x0 x1 params coins' table' values' (next c (respond c (issued_secrets x0 x1 m y) r))
              (held ++ issued_points k params t y)%list (asked ++ [[m]])%list
          end
        | _ => false
        end
      end
    | OHash points next =>
      if Nat.eqb (List.length points) 9 then
        match hash table values (map (fun c => combination c held) points) with
        | None => false
        | Some (c, table', values') => forges_seeing x0 x1 params coins table' values' (next c) held asked
        end
      else false
    | OTest c yes no =>
      if peqb (combination c held) pzero
      then forges_seeing x0 x1 params coins table values yes held asked
      else forges_seeing x0 x1 params coins table values no held asked
    | OTry cP cQ m yes no =>
      let tag := {| tag_nonce := combination cP held; tag_mac := combination cQ held |} in
      match mac_verify k tag m with
      | Ok _ =>
        if Nat.eqb (List.length m) 1 && fresh m asked && negb (peqb (tag_nonce tag) pzero) then true
        else forges_seeing x0 x1 params coins table values yes held asked
      | _ => forges_seeing x0 x1 params coins table values no held asked
      end
    end.

  Definition game_seeing (params : SystemParameters E) (o : observer) (x0 x1 : scalar)
      (coins : list (scalar * scalar * ir_Scalars)) (values : list scalar) : bool :=
    let k := {| sk_x0 := x0; sk_xn := [x1] |} in
    forges_seeing x0 x1 params coins [] values o (public_points k params) [].
End oracle.
