(** The declarations of the five proof systems in
    aeonflux/src/proofs_macros.rs, and what [create_nipk!] of the zkp crate
    makes of a declaration

    proofs_macros.rs is not compiled into the crate; proofs.rs was made from
    it with zkp-expand/Makefile. *)
From Verif Require Export ModelProofs.
Local Open Scope string_scope.

(** [create_nipk!(name, (secrets), (publics) : relations)]; a relation is a
    left-hand side and the terms [point * scalar] of its sum. *)
Record nipk : Type := {
  np_name : string;
  np_secrets : list string;
  np_publics : list string;
  np_relations : list (string * list (string * string));
}.

(** aeonflux/src/proofs_macros.rs:43-50 *)
Definition issuance_revealed_nipk : nipk := {|
  np_name := "issuance_revealed";
  np_secrets := ["x0"; "x1"; "x0_tilde"; "m1x1"];
  np_publics := ["P"; "Q"; "Cx0"; "B"; "A"; "X1"];
  np_relations := [("Q", [("P", "x0"); ("P", "m1x1")]);
                   ("Cx0", [("B", "x0"); ("A", "x0_tilde")]);
                   ("X1", [("A", "x1")])];
|}.

(** aeonflux/src/proofs_macros.rs:72-79 *)
Definition attributes_blinded_nipk : nipk := {|
  np_name := "attributes_blinded";
  np_secrets := ["d"; "e0"; "m0"; "nonce"];
  np_publics := ["B"; "A"; "D"; "encrypted_attribute_0_0"; "encrypted_attribute_0_1"];
  np_relations := [("D", [("B", "d")]);
                   ("encrypted_attribute_0_0", [("B", "e0")]);
                   ("encrypted_attribute_0_1", [("B", "m0"); ("D", "e0")])];
|}.

(** aeonflux/src/proofs_macros.rs:87-102 *)
Definition issuance_blinded_nipk : nipk := {|
  np_name := "issuance_blinded";
  np_secrets := ["x0_tilde"; "x0"; "x1"; "s"; "b"; "t0"];
  np_publics := ["B"; "A"; "X0"; "X1"; "D"; "P"; "T0_0"; "T0_1"; "EQ_commitment"; "EQ_encryption";
                 "encrypted_attribute_0_0"; "encrypted_attribute_0_1"];
  np_relations := [("X0", [("B", "x0"); ("A", "x0_tilde")]);
                   ("X1", [("A", "x1")]);
                   ("P", [("B", "b")]);
                   ("T0_0", [("X0", "b")]);
                   ("T0_1", [("A", "t0")]);
                   ("EQ_commitment", [("B", "s"); ("encrypted_attribute_0_0", "t0")]);
                   ("EQ_encryption", [("D", "s"); ("encrypted_attribute_0_1", "t0")])];
|}.

(** aeonflux/src/proofs_macros.rs:104-110 *)
Definition valid_credential_nipk : nipk := {|
  np_name := "valid_credential";
  np_secrets := ["m0"; "z0"; "minus_zQ"];
  np_publics := ["B"; "A"; "X0"; "P"; "V"; "Cm0"];
  np_relations := [("Cm0", [("P", "m0"); ("A", "z0")]);
                   ("V", [("X0", "z0"); ("A", "minus_zQ")])];
|}.

(** aeonflux/src/proofs_macros.rs:114-121 *)
Definition committed_values_equal_nipk : nipk := {|
  np_name := "committed_values_equal";
  np_secrets := ["m0"; "z0"; "z1"];
  np_publics := ["B"; "A"; "P"; "Cm0"; "Cm1"];
  np_relations := [("Cm0", [("P", "m0"); ("A", "z0")]);
                   ("Cm1", [("A", "m0"); ("B", "z1")])];
|}.

(** ** [create_nipk!] *)

(** The value of a name; every name which occurs is bound. *)
Definition value {A} (default : A) (l : list (string * A)) (name : string) : A :=
  match find (fun x => String.eqb (fst x) name) l with
  | Some x => snd x
  | None => default
  end.

Section nipk.
  Context {E : Ext}.

  Definition nipk_absorb (d : nipk) (t : transcript) (publics : list (string * point E)) : transcript :=
    fold_left (fun t n => commit_bytes t n (compress (value pzero publics n))) (np_publics d)
              (commit_bytes t "domain-sep" (str (np_name d))).

  Definition nipk_commit (t : transcript) (commitments : list (string * point E)) : transcript :=
    fold_left (fun t c => commit_bytes t ("com " ++ fst c) (compress (snd c))) commitments t.

  Fixpoint nipk_draw (names : list string) (r : rng) : list (string * scalar) :=
    match names with
    | [] => []
    | n :: names' => let (x, r) := scalar_random r in (n, x) :: nipk_draw names' r
    end.

  Definition nipk_create (d : nipk) (t : transcript) (publics : list (string * point E))
      (secrets : list (string * scalar)) (os : rng) : scalar * list (string * scalar) * rng :=
    let t := nipk_absorb d t publics in
    let (r, os) := @reseed E t (map (fun n => (n, scalar_to_bytes (value 0 secrets n))) (np_secrets d)) os in
    let rand := nipk_draw (np_secrets d) r in
    let commitments := map (fun rel => (fst rel,
        multiscalar_mul (map (fun term => value 0 rand (snd term)) (snd rel))
                        (map (fun term => value pzero publics (fst term)) (snd rel)))) (np_relations d) in
    let challenge := @get_challenge E (nipk_commit t commitments) in
    (challenge, map (fun n => (n, s_add (s_mul challenge (value 0 secrets n)) (value 0 rand n))) (np_secrets d), os).

  (** The commitments the verifier recomputes. *)
  Definition nipk_recompute (d : nipk) (challenge : scalar) (responses : list (string * scalar))
      (publics : list (string * point E)) : list (string * point E) :=
    let minus_c := s_neg challenge in
    map (fun rel => (fst rel,
        multiscalar_mul (map (fun term => value 0 responses (snd term)) (snd rel) ++ [minus_c])
                        (map (fun term => value pzero publics (fst term)) (snd rel) ++ [value pzero publics (fst rel)])))
        (np_relations d).

  Definition nipk_verify (d : nipk) (challenge : scalar) (responses : list (string * scalar)) (t : transcript)
      (publics : list (string * point E)) : outcome unit unit :=
    let commitments := nipk_recompute d challenge responses publics in
    let t := nipk_commit (nipk_absorb d t publics) commitments in
    if scalar_eqb (@get_challenge E t) challenge then Ok tt else Err tt.
End nipk.
