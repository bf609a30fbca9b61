(** Calls with handles to generators

    [rng] and [thread_rng] are handles; [a] and [b] say to which generators of the
    pool.  All handles of [thread_rng] in a thread read one generator, so they are
    one if the caller hands over [thread_rng].  Unlike in [ModelIssuer], [ModelUser],
    [ModelPhone] and [ModelSignal], it is also said how far the generators have been
    read when a call fails. *)
From Verif Require Export ModelSignal.
From Coq Require Import Arith.

Definition pool : Type := nat -> rng.
Definition set (g : pool) (a : nat) (r : rng) : pool := fun n => if (n =? a)%nat then r else g n.
Definition or_stop {Er A B} (g : pool) (o : outcome Er A) (k : A -> outcome Er B * pool) : outcome Er B * pool :=
  match o with Ok x => k x | Err e => (Err e, g) | Panic => (Panic, g) end.

Section pool.
  Context {E : Ext}.

  (** [SignalIssuer::create]; signal-credential/src/issuer.rs:63-73. *)
  Definition create_pool (params : SystemParameters E) (g : pool) (a : nat) : Issuer E * pool :=
    let (i, r) := signal_issuer_create params (g a) in (i, set g a r).

  (** [Issuer::issue]; aeonflux/src/issuer.rs:136-195. *)
  Definition issue_pool (i : Issuer E) (request : CredentialRequest) (g : pool) (a b : nat)
    : outcome CredentialError (CredentialIssuance E) * pool :=
    or_stop g (ok_or NoIssuerParameters (nth_error (pk_Xn (kp_public (iss_keypair i))) 0)) (fun X1 =>
    or_stop g (ok_or NoIssuerKey (nth_error (sk_xn (kp_secret (iss_keypair i))) 0)) (fun x1 =>
    let attributes := rq_attributes_revealed request in
    let t := transcript_new "AEONFLUX ISSUANCE" in
    let (csprng, r) := @reseed E t [] (g a) in
    let g := set g a r in
    or_stop g (map_err (fun _ => MacCreation) (mac (kp_secret (iss_keypair i)) attributes csprng)) (fun '(tag, csprng) =>
    let (x0_tilde, csprng) := ephemeral_new csprng in
    or_stop g (issue_statement i X1 x1 attributes tag x0_tilde) (fun '(publics, secrets) =>
    let (proof, os) := ir_create t publics secrets (g b) in
    (Ok {| is_secret_key_commitment := irp_Cx0 publics;
           is_credential := {| cr_mac := tag; cr_attributes := attributes |};
           is_proof := proof |}, set g b os))))).

  (** [SignalIssuer::issue]; signal-credential/src/issuer.rs:130-147. *)
  Definition signal_issue_pool (i : Issuer E) (phone_number : bytes) (g : pool) (a b : nat)
    : outcome CredentialError (CredentialIssuance E) * pool :=
    or_stop g (map_err phone_to_credential_error (try_from_bytes phone_number)) (fun number =>
    issue_pool i {| rq_attributes_revealed := [number] |} g a b).

  (** [RosterEntryCommitment::create]; signal-credential/src/phone_number.rs:351-366. *)
  Definition roster_create_pool (phone_number : bytes) (params : SystemParameters E) (g : pool) (a : nat)
    : outcome PhoneNumberError (RosterEntryCommitment E) * pool :=
    let (opening, r) := ephemeral_new (g a) in
    let g := set g a r in
    or_stop g (try_from_bytes phone_number) (fun number =>
    (Ok {| re_commitment := committed_from_phone_number number opening (sp_g params) (sp_h params);
           re_opening := opening |}, g)).

  (** [User::show]; aeonflux/src/user.rs:176-251. *)
  Definition show_pool (u : User E) (nonces : list scalar) (g : pool) (a b : nat)
    : outcome CredentialError (CredentialPresentation E) * pool :=
    or_stop g (ok_or MissingData (us_credential u)) (fun credential =>
    let t := transcript_new "AEONFLUX SHOW" in
    let (csprng, r) := @reseed E t [] (g a) in
    let g := set g a r in
    let (rerandomization, csprng) := scalar_random csprng in
    let (zQ, csprng) := ephemeral_new csprng in
    or_stop g (show_statement u credential nonces rerandomization zQ) (fun '(CQ, commitments, publics, secrets) =>
    let (proof, os) := vc_create t publics secrets (g b) in
    (Ok (show_presentation CQ commitments publics proof), set g b os))).

  (** [SignalUser::show]; signal-credential/src/user.rs:99-140. *)
  Definition signal_show_pool (u : SignalUser E) (entry : RosterEntryCommitment E) (g : pool) (a b : nat)
    : outcome CredentialError (SignalCredentialPresentation E) * pool :=
    or_stop g (ok_or MissingData (us_credential (su_user u))) (fun credential =>
    let (nonces, r) := nonces_new (g a) NUMBER_OF_ATTRIBUTES in
    let g := set g a r in
    let (o, g) := show_pool (su_user u) nonces g a b in
    or_stop g o (fun presentation =>
    let t := transcript_new "SIGNAL GROUP MEMBERSHIP" in
    or_stop g (roster_statement u credential nonces presentation entry) (fun '(publics, secrets) =>
    let (proof, os) := ce_create t publics secrets (g b) in
    (Ok {| sc_roster_entry_commitment := re_commitment entry;
           sc_presentation := presentation;
           sc_roster_membership_proof := proof |}, set g b os)))).
End pool.
