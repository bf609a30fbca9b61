(** The crates under build-test: maths, alloc, and ios with its Swift class. *)
From Verif Require Import ModelFfi.
Local Open Scope Z_scope.

Section build_test.
  Context {E : Ext}.

  (** [do_things_with_maths]; build-test/maths/src/lib.rs:20-28.  [os] is [thread_rng]. *)
  Definition do_things_with_maths (os : rng) : bytes * rng :=
    let phone_number : scalar := 4155551234 in
    let (blinding, os) := scalar_random os in
    let (k, os) := scalar_random os in
    let nonce := smul k (@basepoint E) in
    let exponent := s_add 1 (s_mul blinding phone_number) in
    (compress (smul exponent nonce), os).

  (** [test_do_things_with_maths]; build-test/maths/src/lib.rs:37-44. *)
  Definition test_do_things_with_maths (os : rng) : outcome unit unit :=
    if bytes_eqb (fst (do_things_with_maths os)) (compress (@pzero E)) then Panic else Ok tt.

  (** [malloc(n)]: [None] when it returns null; otherwise what the block happens to hold. *)
  Definition malloc_answer : Type := option bytes.

  (** [allocate_buffer_for_bytes]; build-test/alloc/src/lib.rs:22-47.  [answer] is malloc's
      answer, should it be called. *)
  Definition allocate_buffer_for_bytes (m : memory) (answer : malloc_answer) (b : bytes) : pointer * memory :=
    let size := List.length b in
    if 2 ^ usize_bits E <=? Z.of_nat size + 1 then (Null, m) else
    match answer with
    | None => (Null, m)
    | Some held =>
      let id := mem_next m in
      (* ptr::copy_nonoverlapping *)
      let held := (b ++ skipn size held)%list in
      (* s[size] = 0 *)
      let held := (firstn size held ++ x00 :: skipn (size + 1) held)%list in
      (Block id 0, {| mem_block := mem_set m id (Live held); mem_next := S id |})
    end.

  (** [do_things_with_maths]; build-test/ios/src/lib.rs:18-28. *)
  Definition c_do_things_with_maths (m : memory) (answer : malloc_answer) (os : rng) : pointer * memory * rng :=
    let (point, os) := do_things_with_maths os in
    (allocate_buffer_for_bytes m answer point, os).

  (** [DoThingsWithMaths.doThings]; build-test/ios/xcode/BuildTest.swift:11-18: [result!] traps
      on null; [Data.init(bytes:count:)] copies; the call of [free] is commented out. *)
  Inductive swift_end : Type := SwiftReturns (data : bytes) (m : memory) | SwiftTraps | SwiftUndefined.
  Definition doThings (m : memory) (answer : malloc_answer) (os : rng) : swift_end :=
    let '(result, m, _) := c_do_things_with_maths m answer os in
    if is_null result then SwiftTraps else
    match read m result 32 with
    | Some data => SwiftReturns data m
    | None => SwiftUndefined
    end.
End build_test.
