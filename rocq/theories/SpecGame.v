(** The game in which an adversary tries to forge a MAC.

    The adversary is generic: it holds points, forms linear combinations of them
    with coefficients it chooses, and learns which combinations are the identity.
    It never sees an encoding of a point.  It may ask the issuer for credentials
    on messages of its choice, and may have tags of its own making verified.  What
    it does next may depend on everything it has learned.  This is a tree, fixed
    before the keys are drawn. *)
From Verif Require Export Spec.

Inductive adversary : Type :=
| Stop
| Ask (m : list scalar) (next : adversary)
| Test (c : list scalar) (yes no : adversary)
| Try (cP cQ : list scalar) (m : list scalar) (yes no : adversary).

(** The most tests and verifications on a path. *)
Fixpoint checks (a : adversary) : nat :=
  match a with
  | Stop => 0
  | Ask _ next => checks next
  | Test _ yes no => S (Nat.max (checks yes) (checks no))
  | Try _ _ _ yes no => S (Nat.max (checks yes) (checks no))
  end.

(** The same attributes, as scalars modulo [ell]. *)
Fixpoint same_message (m m' : list scalar) : bool :=
  match m, m' with
  | [], [] => true
  | a :: m1, a' :: m1' => (a mod ell =? a' mod ell) && same_message m1 m1'
  | _, _ => false
  end.
Definition fresh (m : list scalar) (asked : list (list scalar)) : bool :=
  forallb (fun m' => negb (same_message m m')) asked.

Section game.
  Context {E : Ext}.

  (** [c1 P1 + c2 P2 + ...]; coefficients not given are zero. *)
  Fixpoint combination (c : list scalar) (held : list (point E)) : point E :=
    match held with
    | [] => pzero
    | P :: held' => padd (smul (hd 0 c) P) (combination (tl c) held')
    end.

  (** What is public before anything is issued. *)
  Definition public_points (k : SecretKey) (params : SystemParameters E) : list (point E) :=
    basepoint :: sp_g params :: sp_h params :: pk_Xn (get_public_key k (sp_h params)).

  (** The points of an issuance: the tag, and the commitment to [x0] made with
      [y] (aeonflux/src/issuer.rs:157-182). *)
  Definition issued_points (k : SecretKey) (params : SystemParameters E) (t : Tag E) (y : scalar) : list (point E) :=
    [tag_nonce t; tag_mac t; commitment_to (smul (sk_x0 k) (sp_g params)) y (sp_h params)].

  (** Whether the adversary has a tag verified which it should not be able to
      make: on attributes it did not ask for, as many as the key has (C06 is
      about other lengths), the nonce not being the identity (C05 is about that).
      [coins] are the scalars drawn by the issuer, two for each credential. *)
  Fixpoint forges (k : SecretKey) (params : SystemParameters E) (coins : list (scalar * scalar))
      (a : adversary) (held : list (point E)) (asked : list (list scalar)) : bool :=
    match a with
    | Stop => false
    | Ask m next =>
      match coins with
      | [] => false
      | (b, y) :: coins' =>
        match mac_with k m b with
        | Ok t => forges k params coins' next (held ++ issued_points k params t y)%list (asked ++ [m])%list
        | _ => forges k params coins next held asked
        end
      end
    | Test c yes no =>
      if peqb (combination c held) pzero
      then forges k params coins yes held asked
      else forges k params coins no held asked
    | Try cP cQ m yes no =>
      let tag := {| tag_nonce := combination cP held; tag_mac := combination cQ held |} in
      match mac_verify k tag m with
      | Ok _ =>
        if Nat.eqb (List.length m) (List.length (sk_xn k)) && fresh m asked && negb (peqb (tag_nonce tag) pzero) then true
        else forges k params coins yes held asked
      | _ => forges k params coins no held asked
      end
    end.

  (** The whole game, for the key [x0], [xs]. *)
  Definition game (params : SystemParameters E) (a : adversary) (x0 : scalar) (xs : list scalar)
      (coins : list (scalar * scalar)) : bool :=
    let k := {| sk_x0 := x0; sk_xn := xs |} in
    forges k params coins a (public_points k params) [].
End game.
