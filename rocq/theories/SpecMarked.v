(** An issuer who does not keep to one key: whoever made the key [x0] of the users
    different for each user, and the same [x1], the one in the issuer parameters.

    Users register, get credentials from this issuer, and present them; the issuer then
    tries the keys it has used on a presentation it has heard. *)
From Verif Require Export Spec SpecProofs SpecCodec ModelSignal.

Section marking.
  Context {E : Ext}.

  (** The issuer with another [x0].  The parameters it publishes are the same. *)
  Definition keyed (i : Issuer E) (x0 : scalar) : Issuer E :=
    {| iss_system_parameters := iss_system_parameters i;
       iss_keypair := {| kp_public := kp_public (iss_keypair i);
                         kp_secret := {| sk_x0 := x0; sk_xn := sk_xn (kp_secret (iss_keypair i)) |} |} |}.

  (** What happens: somebody registers with a phone number; the issuer gives the user
      with this index a credential for a number; a user presents the credential with
      some entry of a roster. *)
  Inductive deed : Type :=
  | Registers (key : option (ElgamalKeypair E)) (number : bytes)
  | Enrols (user : nat) (number : bytes) (r os : rng)
  | Appears (user : nat) (entry : RosterEntryCommitment E) (r os : rng).

  (** The users, and the presentations heard so far, each with who made it. *)
  Record scene : Type := {
    sn_users : list (SignalUser E);
    sn_heard : list (nat * SignalCredentialPresentation E)
  }.
  Fixpoint replaced {A : Type} (k : nat) (u : A) (us : list A) : list A :=
    match us, k with
    | [], _ => []
    | _ :: us, O => u :: us
    | v :: us, S k => v :: replaced k u us
    end.

  (** What is answered to whom: the user learns whether it could be made, whether it took
      the credential, whether it could present and was accepted.  [None]: no such user. *)
  Definition reply : Type := option (outcome CredentialError unit).

  Definition happens (i : Issuer E) (x0 : nat -> scalar) (s : scene) (d : deed) : scene * reply :=
    match d with
    | Registers key number =>
      match signal_user_new (iss_system_parameters i) (get_issuer_parameters i) key number with
      | Ok u => ({| sn_users := sn_users s ++ [u]; sn_heard := sn_heard s |}%list, Some (Ok tt))
      | Err e => (s, Some (Err e))
      | Panic => (s, Some Panic)
      end
    | Enrols k number r os =>
      match nth_error (sn_users s) k with
      | None => (s, None)
      | Some u =>
        match signal_issue (keyed i (x0 k)) number r os with
        | Ok (issuance, _, _) =>
          let '(u', answer) := signal_obtain_finish u (Some issuance) in
          ({| sn_users := replaced k u' (sn_users s); sn_heard := sn_heard s |}, Some answer)
        | Err e => (s, Some (Err e))
        | Panic => (s, Some Panic)
        end
      end
    | Appears k entry r os =>
      match nth_error (sn_users s) k with
      | None => (s, None)
      | Some u =>
        match signal_show u r os entry with
        | Ok (p, _, _) =>
          ({| sn_users := sn_users s; sn_heard := sn_heard s ++ [(k, p)] |}%list,
           Some (do _ <- signal_verify (keyed i (x0 k)) p; Ok tt))
        | Err e => (s, Some (Err e))
        | Panic => (s, Some Panic)
        end
      end
    end.

  Fixpoint goes_on (i : Issuer E) (x0 : nat -> scalar) (s : scene) (h : list deed) : scene * list reply :=
    match h with
    | [] => (s, [])
    | d :: h =>
      let '(s, a) := happens i x0 s d in
      let '(s, l) := goes_on i x0 s h in
      (s, a :: l)
    end.
  Definition opening : scene := {| sn_users := []; sn_heard := [] |}.
  Definition comes_to (i : Issuer E) (x0 : nat -> scalar) (h : list deed) : scene := fst (goes_on i x0 opening h).
  Definition replies (i : Issuer E) (x0 : nat -> scalar) (h : list deed) : list reply := snd (goes_on i x0 opening h).

  (** The replies nobody needs a key for: the encoding of the number decides who can be
      registered and enrolled, and whoever was enrolled can present and is accepted. *)
  Definition encodable (number : bytes) : outcome CredentialError unit :=
    if (List.length number <=? 27)%nat then Ok tt
    else if (List.length number <=? 32)%nat then Panic else Err MissingData.
  Definition promised (enrolled : list bool) (d : deed) : list bool * reply :=
    match d with
    | Registers _ number =>
      (match encodable number with Ok _ => enrolled ++ [false] | _ => enrolled end, Some (encodable number))%list
    | Enrols k number _ _ =>
      match nth_error enrolled k with
      | None => (enrolled, None)
      | Some _ => (match encodable number with Ok _ => replaced k true enrolled | _ => enrolled end, Some (encodable number))
      end
    | Appears k _ _ _ =>
      match nth_error enrolled k with
      | None => (enrolled, None)
      | Some b => (enrolled, Some (if b then Ok tt else Err MissingData))
      end
    end.
  Fixpoint promises (enrolled : list bool) (h : list deed) : list reply :=
    match h with
    | [] => []
    | d :: h => snd (promised enrolled d) :: promises (fst (promised enrolled d)) h
    end.

  (** Whom the issuer names, of the first [n] users: those under whose key it accepts. *)
  Definition named (i : Issuer E) (x0 : nat -> scalar) (n : nat) (p : SignalCredentialPresentation E) : list nat :=
    filter (fun k => match signal_verify (keyed i (x0 k)) p with Ok _ => true | _ => false end) (seq 0 n).

  (** Credentials for a list of numbers, made by somebody who does not know [x0]: it
      knows [x1] and has two points for each number. *)
  Definition made_from (x1 : scalar) (l : list (scalar * (point E * point E))) : list (scalar * Credential E) :=
    map (fun '(m, (R, Z)) =>
      (m, {| cr_mac := {| tag_nonce := R; tag_mac := padd Z (smul (m * x1) R) |}; cr_attributes := [m] |})) l.
End marking.
Arguments deed : clear implicits.
Arguments scene : clear implicits.
