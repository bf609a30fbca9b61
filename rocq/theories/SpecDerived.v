(** What texts show, and what comparisons decide. *)
From Verif Require Export SpecCodec.
From Coq Require Import String Ascii.
Local Open Scope string_scope.

(** A text contains another. *)
Definition contains (part text : string) : Prop := exists before after, text = before ++ part ++ after.

(** Where a text begins with that of a value, one can tell of which value, and
    where its text ends; and none begins like the end of a list. *)
Definition legible {A} (good : A -> Prop) (f : A -> string) : Prop :=
  (forall a b x y, good a -> good b -> f a ++ x = f b ++ y -> a = b /\ x = y) /\
  (forall a, good a -> exists c t, f a = String c t /\ c <> "]"%char).

(** A comparison is equality. *)
Definition decides {A} (eqb : A -> A -> bool) : Prop := forall a b, eqb a b = true <-> a = b.
(** A comparison is equality of the encodings, for the values that are read back
    from theirs. *)
Definition compares_bytes {Er A} (eqb : A -> A -> bool) (write : A -> bytes) (read : bytes -> outcome Er A) : Prop :=
  forall a b, read (write a) = Ok a -> read (write b) = Ok b -> (eqb a b = true <-> write a = write b).

(** Values of 256 bits, as a [Scalar] holds. *)
Definition bits256 (s : scalar) : Prop := 0 <= s < 2 ^ 256.

(** The scalars in a value. *)
Section scalars.
  Context {E : Ext}.
  Definition key_scalars (k : SecretKey) : list scalar := sk_x0 k :: sk_xn k.
  Definition ir_scalars (p : ir_Proof) : list scalar :=
    [ir_challenge p; irs_x0 (ir_responses p); irs_x1 (ir_responses p); irs_x0_tilde (ir_responses p); irs_m1x1 (ir_responses p)].
  Definition vc_scalars (p : vc_Proof) : list scalar :=
    [vc_challenge p; vcs_m0 (vc_responses p); vcs_z0 (vc_responses p); vcs_minus_zQ (vc_responses p)].
  Definition ce_scalars (p : ce_Proof) : list scalar :=
    [ce_challenge p; ces_m0 (ce_responses p); ces_z0 (ce_responses p); ces_z1 (ce_responses p)].
  Definition issuance_scalars (i : CredentialIssuance E) : list scalar :=
    (cr_attributes (is_credential i) ++ ir_scalars (is_proof i))%list.
  Definition presentation_scalars (p : CredentialPresentation E) : list scalar :=
    (pr_attributes_revealed p ++ vc_scalars (pr_proof p))%list.
  Definition signal_presentation_scalars (p : SignalCredentialPresentation E) : list scalar :=
    (presentation_scalars (sc_presentation p) ++ ce_scalars (sc_roster_membership_proof p))%list.
  Definition user_scalars (u : User E) : list scalar :=
    (match us_key u with Some k => [eg_secret k] | None => [] end ++
     match us_credential u with Some c => cr_attributes c | None => [] end)%list.
  Definition signal_user_scalars (u : SignalUser E) : list scalar := su_phone_number u :: user_scalars (su_user u).
End scalars.
