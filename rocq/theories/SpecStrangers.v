(** A service among strangers.

    The history of SpecHistory, and messages that come from nobody: anybody may
    send any bytes to a user, as a credential or as an entry of the roster, and to
    an issuer, as a presentation. *)
From Verif Require Export SpecHistory.

Section strangers.
  Context {E : Ext}.

  Inductive open_event : Type :=
  | Own (e : event E)
  | SendIssuance (user : nat) (b : bytes)
  | SendEntry (user : nat) (b : bytes) (r os : rng)
  | SendPresentation (issuer : nat) (b : bytes)
  | SendMember (issuer : nat) (b : bytes).

  (** The receiver reads the bytes and calls the function they are for. *)
  Definition open_step (params : SystemParameters E) (s : service E) (x : open_event) : service E * answer :=
    match x with
    | Own e => step params s e
    | SendIssuance n b =>
      match nth_error (sv_users s) n with
      | None => (s, Nobody)
      | Some u =>
        match issuance_from_bytes b with
        | Ok iss => let (u', o) := signal_obtain_finish u (Some iss) in (with_users s (put n u' (sv_users s)), answer_of o)
        | Err e => (s, Failed e)
        | Panic => (s, Crashed)
        end
      end
    | SendEntry n b r os =>
      match nth_error (sv_users s) n with
      | None => (s, Nobody)
      | Some u =>
        match roster_from_bytes b with
        | Ok entry => (s, answer_of (signal_show u r os entry))
        | Err e => (s, FailedNumber e)
        | Panic => (s, Crashed)
        end
      end
    | SendPresentation j b =>
      match nth_error (sv_issuers s) j with
      | None => (s, Nobody)
      | Some i => (s, answer_of (do p <- signal_presentation_from_bytes b; signal_verify i p))
      end
    | SendMember j b =>
      match nth_error (sv_issuers s) j with
      | None => (s, Nobody)
      | Some i => (s, answer_of (do p <- signal_presentation_from_bytes b; do v <- signal_verify i p; verify_roster_membership i v))
      end
    end.
  Fixpoint open_answers (params : SystemParameters E) (s : service E) (h : list open_event) : list answer :=
    match h with
    | [] => []
    | x :: h' => snd (open_step params s x) :: open_answers params (fst (open_step params s x)) h'
    end.

  (** Which of the credentials on their way these bytes repeat, whatever comes
      after them. *)
  Definition repeats (iss : CredentialIssuance E) (b : bytes) : bool :=
    same_bytes (firstn (List.length (issuance_to_bytes iss)) b) (issuance_to_bytes iss).
  Fixpoint copied (l : list (CredentialIssuance E)) (b : bytes) : option nat :=
    match l with
    | [] => None
    | iss :: l' => if repeats iss b then Some O else option_map S (copied l' b)
    end.

  (** The events that are the service's own; passing on what an issuer sent is
      delivering it. *)
  Definition own_part (s : service E) (x : open_event) : list (event E) :=
    match x with
    | Own e => [e]
    | SendIssuance n b => match copied (sv_issuances s) b with Some k => [Deliver k n] | None => [] end
    | _ => []
    end.
  Fixpoint own_events (params : SystemParameters E) (s : service E) (h : list open_event) : list (event E) :=
    match h with
    | [] => []
    | x :: h' => own_part s x ++ own_events params (fst (open_step params s x)) h'
    end.
  (** The answers to these. *)
  Fixpoint own_answers (params : SystemParameters E) (s : service E) (h : list open_event) : list answer :=
    match h with
    | [] => []
    | x :: h' =>
      (if own_part s x then [] else [snd (open_step params s x)]) ++ own_answers params (fst (open_step params s x)) h'
    end.

  (** No user takes what no issuer made. *)
  Fixpoint no_forgery (params : SystemParameters E) (s : service E) (h : list open_event) : Prop :=
    match h with
    | [] => True
    | x :: h' =>
      match x with
      | SendIssuance n b => snd (open_step params s x) = Done -> copied (sv_issuances s) b <> None
      | _ => True
      end /\ no_forgery params (fst (open_step params s x)) h'
    end.

  Definition sound_open (x : open_event) : Prop := match x with Own e => sound_event e | _ => True end.

  (** After a history. *)
  Definition service_after (params : SystemParameters E) (h : list (event E)) (s : service E) : service E :=
    fold_left (fun s e => fst (step params s e)) h s.
  Definition expected_after (h : list (event E)) (l : ledger) : ledger := fold_left (fun l e => fst (expected l e)) h l.

  (** A credential with another attribute. *)
  Definition with_attribute (iss : CredentialIssuance E) (m : scalar) : CredentialIssuance E :=
    {| is_secret_key_commitment := is_secret_key_commitment iss;
       is_credential := {| cr_mac := cr_mac (is_credential iss); cr_attributes := [m] |};
       is_proof := is_proof iss |}.
End strangers.
Arguments open_event : clear implicits.
