(** Where the arguments of a JavaScript function have the generator [g]. *)
From Verif Require Export SpecCalls.

(** The argument, and the place of [g] in it: system parameters and issuers begin
    with [g], users with their number. *)
Definition where_g (f : js_function) : option (json * nat) :=
  match f with
  | JsSystemParametersCreate _ => None
  | JsIssuerCreate p _ | JsIssuerNew p _ | JsUserObtainFinish _ p _ _ => Some (p, 0%nat)
  | JsIssuerGetIssuerParameters i | JsIssuerIssue i _ _ | JsIssuerVerify i _ | JsIssuerVerifyRosterMembership i _ => Some (i, 0%nat)
  | JsUserShow u _ _ => Some (u, 32%nat)
  end.
(** The value [v] is a string that has the encoding of [g] at [n]. *)
Definition has_at {E : Ext} (v : json) (n : nat) (g : point E) : Prop :=
  exists s, v = JString s /\ firstn 32 (skipn n (utf8 s)) = compress g.

(** The arguments of a call that JavaScript passes as values; entries are not made
    or opened from JavaScript. *)
Definition values_of (a : api_call) : option (list bytes) :=
  match a with
  | MakeParameters _ => Some []
  | MakeKeypair p _ => Some [p]
  | MakeIssuer p k => Some [p; k]
  | GetParameters i => Some [i]
  | Issue i _ _ => Some [i]
  | Verify i p => Some [i; p]
  | VerifyRoster i v => Some [i; v]
  | Obtain _ p ip s => Some [p; ip; s]
  | Show u e _ => Some [u; e]
  | MakeEntry _ _ _ | RemoveOpening _ => None
  end.
Definition is_text (b : bytes) : Prop := exists s, b = utf8 s.
