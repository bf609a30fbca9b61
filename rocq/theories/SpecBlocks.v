(** The games of SpecOracle.v and SpecOverheard.v played on random bytes.

    Everything drawn is made from bytes.  A scalar is 64 bytes reduced modulo the
    order of the group, whether it belongs to the key, to a credential, to a proof
    or is a challenge.  The second generator is made from 32 bytes. *)
From Verif Require Export SpecOverheard.

Definition reduced (w : list bytes) : list scalar := map from_bytes_mod_order_wide w.

(** The first [n] pieces of length [k]. *)
Fixpoint pieces {A : Type} (k n : nat) (v : list A) : list (list A) :=
  match n with
  | O => []
  | S n' => firstn k v :: pieces k n' (skipn k v)
  end.

(** Six scalars for a credential and nine for a presentation. *)
Definition credential_coins (u : list scalar) : scalar * scalar * ir_Scalars :=
  (nth 0 u 0, nth 1 u 0,
   {| irs_x0 := nth 2 u 0; irs_x1 := nth 3 u 0; irs_x0_tilde := nth 4 u 0; irs_m1x1 := nth 5 u 0 |}).
Definition presentation_coins (u : list scalar) : show_coins :=
  ((nth 0 u 0, nth 1 u 0, nth 2 u 0),
   ({| vcs_m0 := nth 3 u 0; vcs_z0 := nth 4 u 0; vcs_minus_zQ := nth 5 u 0 |},
    {| ces_m0 := nth 6 u 0; ces_z0 := nth 7 u 0; ces_z1 := nth 8 u 0 |})).

Section blocks.
  Context {E : Ext}.

  (** The first two blocks are the key, the next ones are for [N] credentials,
      and the rest are the values of the hash. *)
  Definition forges_on_blocks (params : SystemParameters E) (o : observer) (N : nat) (w : list bytes) : bool :=
    let v := reduced w in
    game_seeing params o (nth 0 v 0) (nth 1 v 0) (map credential_coins (pieces 6 N (skipn 2 v))) (skipn (2 + 6 * N) v).

  (** The same with [K] presentations, and with the bytes that give the second
      generator; aeonflux/src/parameters.rs:102-124. *)
  Definition impersonates_on_bytes (o : impostor) (N K : nat) (h_bytes : bytes) (w : list bytes) : Prop :=
    let v := reduced w in
    exists t, canonical t /\ peck h_bytes = Some (smul t (@basepoint E)) /\
      game_overhearing (E := E) o t (nth 0 v 0) (nth 1 v 0) (map credential_coins (pieces 6 N (skipn 2 v)))
        (map presentation_coins (pieces 9 K (skipn (2 + 6 * N) v))) (skipn (2 + 6 * N + 9 * K) v) = true.
End blocks.
