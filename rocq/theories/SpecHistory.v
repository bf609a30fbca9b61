(** A service in operation.

    [step] is any number of issuers with the same parameters, users, credentials
    on their way, a roster and presentations, and what the functions of
    signal-credential do with them.  [expected] is what everybody may rely on; it
    knows who is who but has no keys, no proofs and no randomness. *)
From Verif Require Export Spec PropertiesIssue PropertiesShow PropertiesSignal.
From Coq Require Import Bool Arith.

Section history.
  Context {E : Ext}.

  (** What happens.  Participants and things are numbered in the order in which
      they came. *)
  Inductive event : Type :=
  | OpenIssuer (r : rng)
  | Register (issuer : nat) (key : option (ElgamalKeypair E)) (number : bytes)
  | IssueTo (issuer : nat) (number : bytes) (r os : rng)
  | Deliver (issuance user : nat)
  | Enter (number : bytes) (r : rng)
  | OpenEntry (entry : nat) (number : bytes)
  | Present (user entry : nat) (r os : rng)
  | CheckPresentation (issuer presentation : nat)
  | CheckMember (issuer presentation : nat)
  | ReloadIssuer (issuer : nat)
  | ReloadUser (user : nat)
  | ReloadIssuance (issuance : nat)
  | ReloadEntry (entry : nat)
  | ReloadPresentation (presentation : nat).

  Inductive answer : Type :=
  | Done
  | Failed (e : CredentialError)
  | FailedNumber (e : PhoneNumberError)
  | Crashed
  | Nobody.
  Definition answer_of {A} (o : outcome CredentialError A) : answer :=
    match o with Ok _ => Done | Err e => Failed e | Panic => Crashed end.
  Definition answer_of_number {A} (o : outcome PhoneNumberError A) : answer :=
    match o with Ok _ => Done | Err e => FailedNumber e | Panic => Crashed end.

  (** A presentation, and the attribute, blinding and opening its prover used. *)
  Record showing : Type := { sh_presentation : SignalCredentialPresentation E; sh_number : scalar; sh_blinding : scalar; sh_opening : scalar }.

  Record service : Type := {
    sv_issuers : list (Issuer E);
    sv_users : list (SignalUser E);
    sv_issuances : list (CredentialIssuance E);
    sv_entries : list (RosterEntryCommitment E);
    sv_shown : list showing;
  }.
  Definition service_start : service := {| sv_issuers := []; sv_users := []; sv_issuances := []; sv_entries := []; sv_shown := [] |}.

  Fixpoint put {A} (n : nat) (x : A) (l : list A) : list A :=
    match n, l with
    | _, [] => []
    | O, _ :: l' => x :: l'
    | S n', y :: l' => y :: put n' x l'
    end.
  Definition with_issuers (s : service) x := {| sv_issuers := x; sv_users := sv_users s; sv_issuances := sv_issuances s; sv_entries := sv_entries s; sv_shown := sv_shown s |}.
  Definition with_users (s : service) x := {| sv_issuers := sv_issuers s; sv_users := x; sv_issuances := sv_issuances s; sv_entries := sv_entries s; sv_shown := sv_shown s |}.
  Definition with_issuances (s : service) x := {| sv_issuers := sv_issuers s; sv_users := sv_users s; sv_issuances := x; sv_entries := sv_entries s; sv_shown := sv_shown s |}.
  Definition with_entries (s : service) x := {| sv_issuers := sv_issuers s; sv_users := sv_users s; sv_issuances := sv_issuances s; sv_entries := x; sv_shown := sv_shown s |}.
  Definition with_shown (s : service) x := {| sv_issuers := sv_issuers s; sv_users := sv_users s; sv_issuances := sv_issuances s; sv_entries := sv_entries s; sv_shown := x |}.

  (** The functions called; a thing is reloaded by writing it to bytes and
      reading these. *)
  Definition step (params : SystemParameters E) (s : service) (e : event) : service * answer :=
    match e with
    | OpenIssuer r => (with_issuers s (sv_issuers s ++ [fst (signal_issuer_create params r)]), Done)
    | Register j key number =>
      match nth_error (sv_issuers s) j with
      | None => (s, Nobody)
      | Some i =>
        let o := signal_user_new params (get_issuer_parameters i) key number in
        (match o with Ok u => with_users s (sv_users s ++ [u]) | _ => s end, answer_of o)
      end
    | IssueTo j number r os =>
      match nth_error (sv_issuers s) j with
      | None => (s, Nobody)
      | Some i =>
        let o := signal_issue i number r os in
        (match o with Ok (iss, _, _) => with_issuances s (sv_issuances s ++ [iss]) | _ => s end, answer_of o)
      end
    | Deliver k n =>
      match nth_error (sv_issuances s) k, nth_error (sv_users s) n with
      | Some iss, Some u =>
        let (u', o) := signal_obtain_finish u (Some iss) in (with_users s (put n u' (sv_users s)), answer_of o)
      | _, _ => (s, Nobody)
      end
    | Enter number r =>
      let o := roster_create number params r in
      (match o with Ok (entry, _) => with_entries s (sv_entries s ++ [entry]) | _ => s end, answer_of_number o)
    | OpenEntry k number =>
      match nth_error (sv_entries s) k with
      | None => (s, Nobody)
      | Some entry => (s, answer_of_number (roster_open entry number params))
      end
    | Present n k r os =>
      match nth_error (sv_users s) n, nth_error (sv_entries s) k with
      | Some u, Some entry =>
        let o := signal_show u r os entry in
        (match o, us_credential (su_user u) with
         | Ok (p, _, _), Some c =>
           with_shown s (sv_shown s ++ [{| sh_presentation := p; sh_number := hd 0 (cr_attributes c);
                                           sh_blinding := fst (scalar_random r); sh_opening := re_opening entry |}])
         | _, _ => s
         end, answer_of o)
      | _, _ => (s, Nobody)
      end
    | CheckPresentation j k =>
      match nth_error (sv_issuers s) j, nth_error (sv_shown s) k with
      | Some i, Some x => (s, answer_of (signal_verify i (sh_presentation x)))
      | _, _ => (s, Nobody)
      end
    | CheckMember j k =>
      match nth_error (sv_issuers s) j, nth_error (sv_shown s) k with
      | Some i, Some x => (s, answer_of (do v <- signal_verify i (sh_presentation x); verify_roster_membership i v))
      | _, _ => (s, Nobody)
      end
    | ReloadIssuer j =>
      match nth_error (sv_issuers s) j with
      | None => (s, Nobody)
      | Some i =>
        let o := signal_issuer_from_bytes (signal_issuer_to_bytes i) in
        (match o with Ok i' => with_issuers s (put j i' (sv_issuers s)) | _ => s end, answer_of o)
      end
    | ReloadUser n =>
      match nth_error (sv_users s) n with
      | None => (s, Nobody)
      | Some u =>
        let o := signal_user_from_bytes (signal_user_to_bytes u) in
        (match o with Ok u' => with_users s (put n u' (sv_users s)) | _ => s end, answer_of o)
      end
    | ReloadIssuance k =>
      match nth_error (sv_issuances s) k with
      | None => (s, Nobody)
      | Some iss =>
        let o := issuance_from_bytes (issuance_to_bytes iss) in
        (match o with Ok iss' => with_issuances s (put k iss' (sv_issuances s)) | _ => s end, answer_of o)
      end
    | ReloadEntry k =>
      match nth_error (sv_entries s) k with
      | None => (s, Nobody)
      | Some entry =>
        let o := roster_from_bytes (roster_to_bytes entry) in
        (match o with Ok entry' => with_entries s (put k entry' (sv_entries s)) | _ => s end, answer_of_number o)
      end
    | ReloadPresentation k =>
      match nth_error (sv_shown s) k with
      | None => (s, Nobody)
      | Some x =>
        let o := signal_presentation_from_bytes (signal_presentation_to_bytes (sh_presentation x)) in
        (match o with
         | Ok p => with_shown s (put k {| sh_presentation := p; sh_number := sh_number x; sh_blinding := sh_blinding x; sh_opening := sh_opening x |} (sv_shown s))
         | _ => s
         end, answer_of o)
      end
    end.

  (** The answers given. *)
  Fixpoint answers (params : SystemParameters E) (s : service) (h : list event) : list answer :=
    match h with
    | [] => []
    | e :: h' => snd (step params s e) :: answers params (fst (step params s e)) h'
    end.

  (** ** What to expect *)
  Record ledger : Type := {
    lg_issuers : nat;
    lg_users : list (nat * option bytes);         (* whose user; the number of the credential held *)
    lg_issuances : list (nat * bytes);            (* by whom; for which number *)
    lg_entries : list bytes;                      (* for which number *)
    lg_shown : list (nat * bytes * bytes);        (* of whose credential; for which number; with an entry for which number *)
  }.
  Definition ledger_start : ledger := {| lg_issuers := 0; lg_users := []; lg_issuances := []; lg_entries := []; lg_shown := [] |}.
  Definition same_bytes (a b : bytes) : bool := if list_eq_dec Byte.byte_eq_dec a b then true else false.

  (** What becomes of a number: up to 27 bytes are fine, more than 32 an error,
      and between the program crashes (C27). *)
  Definition fits (number : bytes) : bool := (List.length number <=? 27)%nat.
  Definition crashes (number : bytes) : bool := (28 <=? List.length number)%nat && (List.length number <=? 32)%nat.
  Definition unfit (number : bytes) : answer :=
    if crashes number then Crashed else Failed MissingData.
  Definition unfit_number (number : bytes) : answer :=
    if crashes number then Crashed else FailedNumber LengthExceeded.

  Definition expected (l : ledger) (e : event) : ledger * answer :=
    match e with
    | OpenIssuer _ =>
      ({| lg_issuers := S (lg_issuers l); lg_users := lg_users l; lg_issuances := lg_issuances l; lg_entries := lg_entries l; lg_shown := lg_shown l |}, Done)
    | Register j _ number =>
      if negb (j <? lg_issuers l)%nat then (l, Nobody) else
      if fits number
      then ({| lg_issuers := lg_issuers l; lg_users := lg_users l ++ [(j, None)]; lg_issuances := lg_issuances l; lg_entries := lg_entries l; lg_shown := lg_shown l |}, Done)
      else (l, unfit number)
    | IssueTo j number _ _ =>
      if negb (j <? lg_issuers l)%nat then (l, Nobody) else
      if fits number
      then ({| lg_issuers := lg_issuers l; lg_users := lg_users l; lg_issuances := lg_issuances l ++ [(j, number)]; lg_entries := lg_entries l; lg_shown := lg_shown l |}, Done)
      else (l, unfit number)
    | Deliver k n =>
      match nth_error (lg_issuances l) k, nth_error (lg_users l) n with
      | Some (j, number), Some (j', _) =>
        if (j =? j')%nat
        then ({| lg_issuers := lg_issuers l; lg_users := put n (j', Some number) (lg_users l); lg_issuances := lg_issuances l; lg_entries := lg_entries l; lg_shown := lg_shown l |}, Done)
        else (l, Failed CredentialIssuanceError)
      | _, _ => (l, Nobody)
      end
    | Enter number _ =>
      if fits number
      then ({| lg_issuers := lg_issuers l; lg_users := lg_users l; lg_issuances := lg_issuances l; lg_entries := lg_entries l ++ [number]; lg_shown := lg_shown l |}, Done)
      else (l, unfit_number number)
    | OpenEntry k number =>
      match nth_error (lg_entries l) k with
      | None => (l, Nobody)
      | Some number' =>
        (l, if fits number then if same_bytes number number' then Done else FailedNumber InvalidPhoneNumber else unfit_number number)
      end
    | Present n k _ _ =>
      match nth_error (lg_users l) n, nth_error (lg_entries l) k with
      | Some (j, Some number), Some number' =>
        ({| lg_issuers := lg_issuers l; lg_users := lg_users l; lg_issuances := lg_issuances l; lg_entries := lg_entries l; lg_shown := lg_shown l ++ [(j, number, number')] |}, Done)
      | Some (_, None), Some _ => (l, Failed MissingData)
      | _, _ => (l, Nobody)
      end
    | CheckPresentation j k =>
      match nth_error (lg_shown l) k with
      | Some (j', _, _) =>
        if negb (j <? lg_issuers l)%nat then (l, Nobody) else
        (l, if (j =? j')%nat then Done else Failed MacVerification)
      | None => (l, Nobody)
      end
    | CheckMember j k =>
      match nth_error (lg_shown l) k with
      | Some (j', number, number') =>
        if negb (j <? lg_issuers l)%nat then (l, Nobody) else
        (l, if (j =? j')%nat then if same_bytes number number' then Done else Failed VerificationFailure else Failed MacVerification)
      | None => (l, Nobody)
      end
    | ReloadIssuer j => (l, if (j <? lg_issuers l)%nat then Done else Nobody)
    | ReloadUser n => (l, if nth_error (lg_users l) n then Done else Nobody)
    | ReloadIssuance k => (l, if nth_error (lg_issuances l) k then Done else Nobody)
    | ReloadEntry k => (l, if nth_error (lg_entries l) k then Done else Nobody)
    | ReloadPresentation k => (l, if nth_error (lg_shown l) k then Done else Nobody)
    end.
  Fixpoint expectations (l : ledger) (h : list event) : list answer :=
    match h with
    | [] => []
    | e :: h' => snd (expected l e) :: expectations (fst (expected l e)) h'
    end.

  (** Keys given to users can be written down (C33). *)
  Definition sound_event (e : event) : Prop :=
    match e with
    | Register _ (Some k) _ => canonical (eg_secret k) /\ ~ (eg_secret k = 0 /\ eg_public k = pzero)
    | _ => True
    end.

  (** What must not happen by chance when somebody is to be refused: the two
      issuers have one public key, or the transcript that the verifier hashes has
      the challenge of the transcript that the right one would hash; in a proof
      of membership, the challenge is zero or that of another transcript. *)
  Definition mishap_delivering (params : SystemParameters E) (l : ledger) (s : service) (k n : nat) : Prop :=
    exists iss number held j j' i i' X1 X1',
      nth_error (sv_issuances s) k = Some iss /\ nth_error (lg_issuances l) k = Some (j, number) /\
      nth_error (lg_users l) n = Some (j', held) /\ j <> j' /\
      nth_error (sv_issuers s) j = Some i /\ nth_error (sv_issuers s) j' = Some i' /\
      pk_Xn (kp_public (iss_keypair i)) = [X1] /\ pk_Xn (kp_public (iss_keypair i')) = [X1'] /\
      (X1 = X1' \/ @challenge_collision E (issuance_hashed params X1 iss) (issuance_hashed params X1' iss)).
  Definition mishap_checking (params : SystemParameters E) (l : ledger) (s : service) (j' k : nat) : Prop :=
    exists x number number' j i i' x1 x1' C,
      nth_error (sv_shown s) k = Some x /\ nth_error (lg_shown l) k = Some (j, number, number') /\ j <> j' /\
      nth_error (sv_issuers s) j = Some i /\ nth_error (sv_issuers s) j' = Some i' /\
      sk_xn (kp_secret (iss_keypair i)) = [x1] /\ sk_xn (kp_secret (iss_keypair i')) = [x1'] /\
      pr_attributes_blinded (sc_presentation (sh_presentation x)) = [C] /\
      (kp_public (iss_keypair i) = kp_public (iss_keypair i') \/
       @challenge_collision E
         (presentation_hashed i (smul x1 (sp_h params)) x1 (sc_presentation (sh_presentation x)) C)
         (presentation_hashed i' (smul x1' (sp_h params)) x1' (sc_presentation (sh_presentation x)) C)).
  Definition mishap_membership (params : SystemParameters E) (l : ledger) (s : service) (j k : nat) : Prop :=
    exists x number number',
      nth_error (sv_shown s) k = Some x /\ nth_error (lg_shown l) k = Some (j, number, number') /\ number <> number' /\
      (ce_challenge (sc_roster_membership_proof (sh_presentation x)) = 0 \/
       membership_collision params (sh_presentation x) (sh_number x) (sh_blinding x) (sh_opening x)).
  Definition mishap (params : SystemParameters E) (l : ledger) (s : service) (e : event) : Prop :=
    match e with
    | Deliver k n => mishap_delivering params l s k n
    | CheckPresentation j k => mishap_checking params l s j k
    | CheckMember j k => mishap_checking params l s j k \/ mishap_membership params l s j k
    | _ => False
    end.
  (** At some event of the history. *)
  Fixpoint some_mishap (params : SystemParameters E) (l : ledger) (s : service) (h : list event) : Prop :=
    match h with
    | [] => False
    | e :: h' => mishap params l s e \/ some_mishap params (fst (expected l e)) (fst (step params s e)) h'
    end.

  (** The answers by which somebody is refused. *)
  Definition refusal (a : answer) : Prop :=
    a = Failed CredentialIssuanceError \/ a = Failed MacVerification \/ a = Failed VerificationFailure.
  (** An event without its randomness and without the key of a user. *)
  Definition bare (e : event) : event :=
    let z : rng := fun _ => Byte.x00 in
    match e with
    | OpenIssuer _ => OpenIssuer z
    | Register j _ number => Register j None number
    | IssueTo j number _ _ => IssueTo j number z z
    | Enter number _ => Enter number z
    | Present n k _ _ => Present n k z z
    | _ => e
    end.
End history.
Arguments event : clear implicits.
Arguments service : clear implicits.
