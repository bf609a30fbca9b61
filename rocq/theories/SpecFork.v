(** Provers that ask a random function, and running one twice.

    A prover may compute anything from the answers it gets; everything else that it
    depends on, its own random choices, keys, the messages of others, is fixed. *)
From Verif Require Export Spec SpecProofs.

Section proving.
  Context {Q A : Type} (Q_eq : forall x y : Q, {x = y} + {x <> y}).

  Inductive prover : Type :=
  | PDone (a : A)
  | PAsk (x : Q) (next : scalar -> prover).

  Fixpoint answer (table : list (Q * scalar)) (x : Q) : option scalar :=
    match table with
    | [] => None
    | (y, c) :: table' => if Q_eq x y then Some c else answer table' x
    end.

  (** The output, and the table of questions and answers in the order in which they
      were asked first.  The values of the function at new questions are taken from a
      list. *)
  Fixpoint prove (p : prover) (values : list scalar) (table : list (Q * scalar)) : option (A * list (Q * scalar)) :=
    match p with
    | PDone a => Some (a, table)
    | PAsk x next =>
      match answer table x with
      | Some c => prove (next c) values table
      | None =>
        match values with
        | [] => None
        | c :: values' => prove (next c) values' (table ++ [(x, c)])%list
        end
      end
    end.

  (** The verifier asks what it has to, at the end. *)
  Fixpoint asking (question : A -> Q) (p : prover) : prover :=
    match p with
    | PDone a => PAsk (question a) (fun _ => PDone a)
    | PAsk x next => PAsk x (fun c => asking question (next c))
    end.
  (** The output with the answer to its question. *)
  Definition proved (question : A -> Q) (p : prover) (values : list scalar) : option (A * scalar) :=
    match prove (asking question p) values [] with
    | Some (a, table) => match answer table (question a) with Some c => Some (a, c) | None => None end
    | None => None
    end.

  (** How many questions were asked before that of the output. *)
  Fixpoint position (table : list (Q * scalar)) (x : Q) : nat :=
    match table with
    | [] => 0
    | (y, _) :: table' => if Q_eq x y then 0 else S (position table' x)
    end.
  Definition asked_at (question : A -> Q) (p : prover) (values : list scalar) : nat :=
    match prove (asking question p) values [] with
    | Some (a, table) => position table (question a)
    | None => 0
    end.

  (** The values of the second run: those of the first before the question with
      number [k], and others from then on. *)
  Definition forked (k : nat) (values others : list scalar) : list scalar :=
    (firstn k values ++ skipn k others)%list.
End proving.
Arguments prover : clear implicits.
