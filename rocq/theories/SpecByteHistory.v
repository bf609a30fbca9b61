(** A service in operation whose participants keep nothing but bytes, and call
    the functions of the C interface, or others like them (SpecCalls.v).

    [byte_step] is the service, [byte_expected] what everybody may rely on. *)
From Verif Require Export SpecCalls SpecHistory.
From Coq Require Import Arith.

(** What happens; the strings [seed] have 32 bytes. *)
Inductive byte_event : Type :=
| BOpen (seed : bytes)
| BIssue (issuer : nat) (number seed : bytes)
| BObtain (issuer issuance : nat) (number : bytes)
| BEnter (number seed : bytes)
| BShow (user entry : nat) (seed : bytes)
| BVerify (issuer presentation : nat)
| BRoster (issuer verified : nat).
(** What can be an argument: not empty, and fewer than 2^32 bytes. *)
Definition short (b : bytes) : Prop := b <> [] /\ Z.of_nat (List.length b) < 2 ^ 32.
Definition sendable_event (e : byte_event) : Prop :=
  match e with
  | BOpen seed | BShow _ _ seed => List.length seed = 32%nat
  | BIssue _ number seed | BEnter number seed => short number /\ List.length seed = 32%nat
  | BObtain _ _ number => short number
  | _ => True
  end.
Definition sendable (a : api_call) : Prop := seeded a /\ Forall short (strings_of a).

Record holdings : Type := {
  bs_issuers : list bytes; bs_issuances : list bytes; bs_users : list bytes;
  bs_entries : list bytes; bs_shown : list bytes; bs_verified : list bytes
}.
Definition holdings_start : holdings :=
  {| bs_issuers := []; bs_issuances := []; bs_users := []; bs_entries := []; bs_shown := []; bs_verified := [] |}.

(** Bytes, or nothing; or there is no such participant or thing. *)
Inductive reply : Type := Gave (ser : bytes) | GaveNothing | NoOne.

(** An interface: the result of a call and the rest of the operating system's
    randomness. *)
Definition interface : Type := rng -> api_call -> option (bytes * rng).
(** It computes what it should. *)
Definition computes (E : Ext) (fuel : nat) (api : interface) : Prop :=
  forall os a ser os', sendable a -> (api os a = Some (ser, os') <-> gives E fuel os a ser os').

Section machine.
  Context (api : interface) (params : bytes).

  Definition chain (os : rng) (a : api_call) (k : rng -> bytes -> option (bytes * rng)) : option (bytes * rng) :=
    match api os a with Some (ser, os') => k os' ser | None => None end.
  Definition concluded (s : holdings) (os : rng) (o : option (bytes * rng)) (add : bytes -> holdings) : holdings * reply * rng :=
    match o with Some (ser, os') => (add ser, Gave ser, os') | None => (s, GaveNothing, os) end.

  Definition byte_step (s : holdings) (os : rng) (e : byte_event) : holdings * reply * rng :=
    match e with
    | BOpen seed =>
      concluded s os (chain os (MakeKeypair params seed) (fun os keys => api os (MakeIssuer params keys)))
        (fun i => {| bs_issuers := bs_issuers s ++ [i]; bs_issuances := bs_issuances s; bs_users := bs_users s;
                     bs_entries := bs_entries s; bs_shown := bs_shown s; bs_verified := bs_verified s |})
    | BIssue j number seed =>
      match nth_error (bs_issuers s) j with
      | None => (s, NoOne, os)
      | Some i =>
        concluded s os (api os (SpecCalls.Issue i number seed))
          (fun x => {| bs_issuers := bs_issuers s; bs_issuances := bs_issuances s ++ [x]; bs_users := bs_users s;
                       bs_entries := bs_entries s; bs_shown := bs_shown s; bs_verified := bs_verified s |})
      end
    | BObtain j k number =>
      match nth_error (bs_issuers s) j, nth_error (bs_issuances s) k with
      | Some i, Some x =>
        concluded s os (chain os (GetParameters i) (fun os ip => api os (SpecCalls.Obtain number params ip x)))
          (fun u => {| bs_issuers := bs_issuers s; bs_issuances := bs_issuances s; bs_users := bs_users s ++ [u];
                       bs_entries := bs_entries s; bs_shown := bs_shown s; bs_verified := bs_verified s |})
      | _, _ => (s, NoOne, os)
      end
    | BEnter number seed =>
      concluded s os (api os (MakeEntry number params seed))
        (fun x => {| bs_issuers := bs_issuers s; bs_issuances := bs_issuances s; bs_users := bs_users s;
                     bs_entries := bs_entries s ++ [x]; bs_shown := bs_shown s; bs_verified := bs_verified s |})
    | BShow n k seed =>
      match nth_error (bs_users s) n, nth_error (bs_entries s) k with
      | Some u, Some x =>
        concluded s os (api os (SpecCalls.Show u x seed))
          (fun p => {| bs_issuers := bs_issuers s; bs_issuances := bs_issuances s; bs_users := bs_users s;
                       bs_entries := bs_entries s; bs_shown := bs_shown s ++ [p]; bs_verified := bs_verified s |})
      | _, _ => (s, NoOne, os)
      end
    | BVerify j k =>
      match nth_error (bs_issuers s) j, nth_error (bs_shown s) k with
      | Some i, Some p =>
        concluded s os (api os (SpecCalls.Verify i p))
          (fun v => {| bs_issuers := bs_issuers s; bs_issuances := bs_issuances s; bs_users := bs_users s;
                       bs_entries := bs_entries s; bs_shown := bs_shown s; bs_verified := bs_verified s ++ [v] |})
      | _, _ => (s, NoOne, os)
      end
    | BRoster j k =>
      match nth_error (bs_issuers s) j, nth_error (bs_verified s) k with
      | Some i, Some v => concluded s os (api os (VerifyRoster i v)) (fun _ => s)
      | _, _ => (s, NoOne, os)
      end
    end.
End machine.

(** ** What to expect *)
Record register : Type := {
  rg_issuers : nat;
  rg_issuances : list (nat * bytes);    (* by whom; for which number *)
  rg_users : list (nat * bytes);        (* with whose credential; for which number *)
  rg_entries : list bytes;              (* for which number *)
  rg_shown : list (nat * bytes * nat);  (* of whose credential; for which number; with which entry *)
  rg_verified : list nat;               (* of which presentation *)
}.
Definition register_start : register :=
  {| rg_issuers := 0; rg_issuances := []; rg_users := []; rg_entries := []; rg_shown := []; rg_verified := [] |}.
(** Some bytes; or those of the commitment in the entry with this number; or nothing. *)
Inductive expectation : Type := Something | Commitment (entry : nat) | Nothing | NotThere.

Definition byte_expected (l : register) (e : byte_event) : register * expectation :=
  match e with
  | BOpen _ =>
    ({| rg_issuers := S (rg_issuers l); rg_issuances := rg_issuances l; rg_users := rg_users l;
        rg_entries := rg_entries l; rg_shown := rg_shown l; rg_verified := rg_verified l |}, Something)
  | BIssue j number _ =>
    if negb (j <? rg_issuers l)%nat then (l, NotThere) else
    if SpecHistory.fits number
    then ({| rg_issuers := rg_issuers l; rg_issuances := rg_issuances l ++ [(j, number)]; rg_users := rg_users l;
             rg_entries := rg_entries l; rg_shown := rg_shown l; rg_verified := rg_verified l |}, Something)
    else (l, Nothing)
  | BObtain j k number =>
    if negb (j <? rg_issuers l)%nat then (l, NotThere) else
    match nth_error (rg_issuances l) k with
    | None => (l, NotThere)
    | Some (j', number') =>
      if SpecHistory.fits number && (j' =? j)%nat
      then ({| rg_issuers := rg_issuers l; rg_issuances := rg_issuances l; rg_users := rg_users l ++ [(j, number')];
               rg_entries := rg_entries l; rg_shown := rg_shown l; rg_verified := rg_verified l |}, Something)
      else (l, Nothing)
    end
  | BEnter number _ =>
    if SpecHistory.fits number
    then ({| rg_issuers := rg_issuers l; rg_issuances := rg_issuances l; rg_users := rg_users l;
             rg_entries := rg_entries l ++ [number]; rg_shown := rg_shown l; rg_verified := rg_verified l |}, Something)
    else (l, Nothing)
  | BShow n k _ =>
    match nth_error (rg_users l) n, nth_error (rg_entries l) k with
    | Some (j, number), Some _ =>
      ({| rg_issuers := rg_issuers l; rg_issuances := rg_issuances l; rg_users := rg_users l;
          rg_entries := rg_entries l; rg_shown := rg_shown l ++ [(j, number, k)]; rg_verified := rg_verified l |}, Something)
    | _, _ => (l, NotThere)
    end
  | BVerify j k =>
    if negb (j <? rg_issuers l)%nat then (l, NotThere) else
    match nth_error (rg_shown l) k with
    | None => (l, NotThere)
    | Some (j', _, _) =>
      if (j' =? j)%nat
      then ({| rg_issuers := rg_issuers l; rg_issuances := rg_issuances l; rg_users := rg_users l;
               rg_entries := rg_entries l; rg_shown := rg_shown l; rg_verified := rg_verified l ++ [k] |}, Something)
      else (l, Nothing)
    end
  | BRoster j v =>
    if negb (j <? rg_issuers l)%nat then (l, NotThere) else
    match nth_error (rg_verified l) v with
    | None => (l, NotThere)
    | Some k =>
      match nth_error (rg_shown l) k with
      | Some (_, number, entry) =>
        match nth_error (rg_entries l) entry with
        | Some number' => (l, if same_bytes number number' then Commitment entry else Nothing)
        | None => (l, NotThere)
        end
      | None => (l, NotThere)
      end
    end
  end.

(** A reply is as expected: the bytes of the commitment are those that the
    interface makes of the entry, without its opening. *)
Definition as_expected (api : interface) (s : holdings) (os : rng) (r : reply) (x : expectation) : Prop :=
  match r, x with
  | Gave _, Something | GaveNothing, Nothing | NoOne, NotThere => True
  | Gave ser, Commitment k => exists entry, nth_error (bs_entries s) k = Some entry /\ api os (RemoveOpening entry) = Some (ser, os)
  | _, _ => False
  end.

(** ** What must not happen by chance *)
(** The register as a ledger (SpecHistory.v), and the objects of which the
    participants keep the bytes. *)
Definition ledger_of (l : register) : ledger :=
  {| lg_issuers := rg_issuers l; lg_users := map (fun a => (fst a, Some (snd a))) (rg_users l);
     lg_issuances := rg_issuances l; lg_entries := rg_entries l;
     lg_shown := map (fun a => (fst (fst a), snd (fst a), nth (snd a) (rg_entries l) [])) (rg_shown l) |}.

Section mishaps.
  Context {E : Ext} (params : SystemParameters E).

  Definition objects (s : service E) (os : rng) (e : byte_event) : service E :=
    match e with
    | BOpen seed => fst (step params s (OpenIssuer (@chacha E seed)))
    | BIssue j number seed => fst (step params s (IssueTo j number (@chacha E seed) os))
    | BObtain j k number =>
      match step params (fst (step params s (Register j None number))) (Deliver k (List.length (sv_users s))) with
      | (s', Done) => s'
      | _ => s
      end
    | BEnter number seed => fst (step params s (Enter number (@chacha E seed)))
    | BShow n k seed => fst (step params s (Present n k (@chacha E seed) os))
    | _ => s
    end.
  Definition byte_mishap (l : register) (s : service E) (e : byte_event) : Prop :=
    match e with
    | BObtain j k number =>
      mishap params (fst (expected (ledger_of l) (@Register E j None number))) (fst (step params s (Register j None number)))
        (Deliver k (List.length (sv_users s)))
    | BVerify j k => mishap_checking params (ledger_of l) s j k
    | BRoster j v => (j < rg_issuers l)%nat /\ exists k j', nth_error (rg_verified l) v = Some k /\ mishap_membership params (ledger_of l) s j' k
    | _ => False
    end.

  (** Along a history, every reply is as expected until, possibly, there is an excuse. *)
  Context (api : interface) (pb : bytes) (excuse : register -> service E -> byte_event -> Prop).
  Fixpoint goes_well (l : register) (s : service E) (b : holdings) (os : rng) (h : list byte_event) : Prop :=
    match h with
    | [] => True
    | e :: h' =>
      let '(b', r, os') := byte_step api pb b os e in
      let (l', x) := byte_expected l e in
      (as_expected api b os r x /\ goes_well l' (objects s os e) b' os' h') \/ excuse l s e
    end.
End mishaps.

(** The expectations. *)
Fixpoint hopes (l : register) (h : list byte_event) : list expectation :=
  match h with
  | [] => []
  | e :: h' => snd (byte_expected l e) :: hopes (fst (byte_expected l e)) h'
  end.

(** ** The C functions as an interface *)
(** Memory in which the strings [bs] are in blocks 0, 1, 2, .. *)
Definition loaded (bs : list bytes) : memory :=
  {| mem_block := fun id => match nth_error bs id with Some b => Live b | None => Absent end; mem_next := List.length bs |}.
Definition argument (id : nat) : pointer := Block id 0.
(** The call [a] with its strings, and then its seed, in these blocks. *)
Definition c_of (a : api_call) : list bytes * c_function :=
  match a with
  | MakeParameters s => ([s], SystemParametersCreate (argument 0))
  | MakeKeypair p s => ([p; s], IssuerCreate (argument 0) (len p) (argument 1))
  | MakeIssuer p k => ([p; k], IssuerNew (argument 0) (len p) (argument 1) (len k))
  | GetParameters i => ([i], IssuerGetIssuerParameters (argument 0) (len i))
  | SpecCalls.Issue i n s => ([i; n; s], IssuerIssue (argument 0) (len i) (argument 1) (len n) (argument 2))
  | SpecCalls.Verify i p => ([i; p], IssuerVerify (argument 0) (len i) (argument 1) (len p))
  | VerifyRoster i v => ([i; v], IssuerVerifyRosterMembership (argument 0) (len i) (argument 1) (len v))
  | SpecCalls.Obtain n p ip x =>
    ([n; p; ip; x], UserObtainFinish (argument 0) (len n) (argument 1) (len p) (argument 2) (len ip) (argument 3) (len x))
  | SpecCalls.Show u e s => ([u; e; s], UserShow (argument 0) (len u) (argument 1) (len e) (argument 2))
  | MakeEntry n p s => ([n; p; s], RosterEntryCommitmentCreate (argument 0) (len n) (argument 1) (len p) (argument 2))
  | RemoveOpening e => ([e], RosterEntryCommitmentRemoveOpening (argument 0) (len e))
  end.
(** Who calls takes the bytes that were last where the result points to (it has
    been freed, C47). *)
Definition c_interface (E : Ext) (fuel : nat) : interface := fun os a =>
  match @c_run E fuel (loaded (fst (c_of a))) os (snd (c_of a)) with
  | Returns b m' os' =>
    match last_contents m' (buf_ptr b) (buf_len b) with Some ser => Some (ser, os') | None => None end
  | _ => None
  end.
