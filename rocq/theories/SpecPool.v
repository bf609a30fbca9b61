(** A service in operation whose calls share generators

    Every call of the service of [SpecHistory] draws from two generators out of a
    pool: the one that the caller hands over, and the [thread_rng] of the thread
    it runs in.  The two may be one. *)
From Verif Require Export SpecHistory SpecReads ModelPool.
From Coq Require Import Bool Arith.

Section pool.
  Context {E : Ext}.

  (** What happens, and which generators are used; the streams in the event are
      not. *)
  Record call : Type := { c_event : event E; c_rng : nat; c_thread : nat }.

  Definition pool_step (params : SystemParameters E) (s : service E) (g : pool) (c : call) : service E * pool * answer :=
    match c_event c with
    | OpenIssuer _ =>
      let (i, g') := create_pool params g (c_rng c) in
      (with_issuers s (sv_issuers s ++ [i]), g', Done)
    | IssueTo j number _ _ =>
      match nth_error (sv_issuers s) j with
      | None => (s, g, Nobody)
      | Some i =>
        let (o, g') := signal_issue_pool i number g (c_rng c) (c_thread c) in
        (match o with Ok iss => with_issuances s (sv_issuances s ++ [iss]) | _ => s end, g', answer_of o)
      end
    | Enter number _ =>
      let (o, g') := roster_create_pool number params g (c_rng c) in
      (match o with Ok entry => with_entries s (sv_entries s ++ [entry]) | _ => s end, g', answer_of_number o)
    | Present n k _ _ =>
      match nth_error (sv_users s) n, nth_error (sv_entries s) k with
      | Some u, Some entry =>
        let (o, g') := signal_show_pool u entry g (c_rng c) (c_thread c) in
        (match o, us_credential (su_user u) with
         | Ok p, Some cr =>
           with_shown s (sv_shown s ++ [{| sh_presentation := p; sh_number := hd 0 (cr_attributes cr);
                                           sh_blinding := fst (scalar_random (g (c_rng c))); sh_opening := re_opening entry |}])
         | _, _ => s
         end, g', answer_of o)
      | _, _ => (s, g, Nobody)
      end
    | e => (fst (step params s e), g, snd (step params s e))
    end.
  Fixpoint pool_answers (params : SystemParameters E) (s : service E) (g : pool) (h : list call) : list answer :=
    match h with
    | [] => []
    | c :: h' => let '(s', g', an) := pool_step params s g c in an :: pool_answers params s' g' h'
    end.
  Fixpoint pool_after (params : SystemParameters E) (s : service E) (g : pool) (h : list call) : service E * pool :=
    match h with
    | [] => (s, g)
    | c :: h' => let '(s', g', _) := pool_step params s g c in pool_after params s' g' h'
    end.
  Fixpoint service_after (params : SystemParameters E) (s : service E) (h : list (event E)) : service E :=
    match h with
    | [] => s
    | e :: h' => service_after params (fst (step params s e)) h'
    end.

  (** ** Who reads what *)
  (** What a call reads of the caller's generator and of [thread_rng], going by
      its answer; an entry draws its opening before it looks at the number. *)
  Definition cost (e : event E) (an : answer) : nat * nat :=
    match e, an with
    | OpenIssuer _, _ => (128, 0)%nat
    | IssueTo _ _ _ _, Done => (32, 32)%nat
    | IssueTo _ _ _ _, Failed MacCreation => (32, 0)%nat
    | Enter _ _, _ => (64, 0)%nat
    | Present _ _ _ _, Done => (96, 64)%nat
    | Present _ _ _ _, Crashed => (96, 0)%nat
    | _, _ => (0, 0)%nat
    end.
  (** How far each generator has been read. *)
  Definition read_on (u : nat -> nat) (c : call) (an : answer) : nat -> nat := fun n =>
    (u n + (if (n =? c_rng c)%nat then fst (cost (c_event c) an) else 0)
         + (if (n =? c_thread c)%nat then snd (cost (c_event c) an) else 0))%nat.
  Fixpoint read_after (u : nat -> nat) (h : list call) (ans : list answer) : nat -> nat :=
    match h, ans with
    | c :: h', an :: ans' => read_after (read_on u c an) h' ans'
    | _, _ => u
    end.
  (** Where a call finds [thread_rng]. *)
  Definition thread_at (u : nat -> nat) (c : call) (an : answer) : nat :=
    (u (c_thread c) + (if (c_thread c =? c_rng c)%nat then fst (cost (c_event c) an) else 0))%nat.
  (** The event, with streams of its own. *)
  Definition dealt (g : pool) (u : nat -> nat) (c : call) (an : answer) : event E :=
    let r := after (u (c_rng c)) (g (c_rng c)) in
    let os := after (thread_at u c an) (g (c_thread c)) in
    match c_event c with
    | OpenIssuer _ => OpenIssuer r
    | IssueTo j number _ _ => IssueTo j number r os
    | Enter number _ => Enter number r
    | Present n k _ _ => Present n k r os
    | e => e
    end.
  Fixpoint deal (g : pool) (u : nat -> nat) (h : list call) (ans : list answer) : list (event E) :=
    match h, ans with
    | c :: h', an :: ans' => dealt g u c an :: deal g (read_on u c an) h' ans'
    | _, _ => []
    end.
  (** The stretches read: of which generator, from where, how many bytes. *)
  Fixpoint stretches (u : nat -> nat) (h : list call) (ans : list answer) : list (nat * nat * nat) :=
    match h, ans with
    | c :: h', an :: ans' =>
      (c_rng c, u (c_rng c), fst (cost (c_event c) an)) :: (c_thread c, thread_at u c an, snd (cost (c_event c) an)) ::
      stretches (read_on u c an) h' ans'
    | _, _ => []
    end.
  Definition start : nat -> nat := fun _ => O.
End pool.
Arguments call : clear implicits.
