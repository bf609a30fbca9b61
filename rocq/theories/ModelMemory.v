(** wasm/src/credential.js: how byte arrays and text cross into WebAssembly

    [wasm.memory.buffer] is one array of bytes.  When the memory grows it becomes
    another object, and views of the old one can no longer be used.  The exported
    [__wbindgen_malloc] and [__wbindgen_free] belong to the wasm-bindgen crate and
    are external. *)
From Verif Require Export ModelGlue.

(** The memory: its bytes, the number of times it has grown, and the blocks which
    are allocated, as address and size. *)
Record memory : Type := {
  cells : bytes;
  buffer : nat;
  allocated : list (nat * nat) }.

Definition mem_slice (m : memory) (ptr len : nat) : bytes := firstn len (skipn ptr (cells m)).

Fixpoint overwrite (l : bytes) (ptr : nat) (b : bytes) : bytes :=
  match l, ptr with
  | [], _ => []
  | x :: l', S ptr' => x :: overwrite l' ptr' b
  | x :: l', O => match b with [] => l | y :: b' => y :: overwrite l' O b' end
  end.

(** [__wbindgen_malloc]; [None]: it throws.  [__wbindgen_free]. *)
Record allocator : Type := {
  malloc : memory -> nat -> option (nat * memory);
  free : memory -> nat -> nat -> memory }.

(** The cached view of the memory: which buffer it is of.  [None]: [null]. *)
Record page : Type := { mem : memory; view : option nat }.

(** [getUint8Memory]; wasm/src/credential.js:6-12.  [getUint32Memory] (wasm/src/credential.js:363-369)
    is the same with a cache of its own. *)
Definition get_memory_view (m : memory) (cache : option nat) : nat :=
  match cache with
  | Some b => if (b =? buffer m)%nat then b else buffer m
  | None => buffer m
  end.

(** [TypedArray.prototype.set]; [None]: it throws, as the buffer is detached or
    the array does not fit. *)
Definition view_set (v : nat) (m : memory) (b : bytes) (ptr : nat) : option memory :=
  if negb (v =? buffer m)%nat then None else
  if (List.length (cells m) <? ptr + List.length b)%nat then None else
  Some {| cells := overwrite (cells m) ptr b; buffer := buffer m; allocated := allocated m |}.

(** What is passed where a [Uint8Array] is expected: something with a length and
    elements which are integers, or something without, such as [undefined].  An
    element is stored modulo 256. *)
Definition array_like : Type := option (list Z).
Definition as_bytes (l : list Z) : bytes := List.map zb l.

Section memory.
  Context (A : allocator).

  (** [passArray8ToWasm]; wasm/src/credential.js:14-18.  The page is also changed if it throws. *)
  Definition pass_array (s : page) (arg : array_like) : option (nat * nat) * page :=
    match arg with
    | None => (None, s)
    | Some l =>
      match malloc A (mem s) (List.length l) with
      | None => (None, s)
      | Some (ptr, m) =>
        let v := get_memory_view m (view s) in
        match view_set v m (as_bytes l) ptr with
        | None => (None, {| mem := m; view := Some v |})
        | Some m' => (Some (ptr, List.length l), {| mem := m'; view := Some v |})
        end
      end
    end.

  (** The [const [ptr, len] = passArray8ToWasm(arg)] lines, before the [try]. *)
  Fixpoint pass_arrays (s : page) (args : list array_like) : option (list (nat * nat)) * page :=
    match args with
    | [] => (Some [], s)
    | a :: args' =>
      match pass_array s a with
      | (None, s') => (None, s')
      | (Some p, s') =>
        match pass_arrays s' args' with
        | (None, s'') => (None, s'')
        | (Some ps, s'') => (Some (p :: ps), s'')
        end
      end
    end.

  (** The [finally] block. *)
  Fixpoint free_arrays (m : memory) (ps : list (nat * nat)) : memory :=
    match ps with
    | [] => m
    | (ptr, len) :: ps' => free_arrays (free A m ptr len) ps'
    end.

  (** The byte arrays of a call, in the order in which they are passed. *)
  Definition js_arrays (f : js_function) : list bytes :=
    match f with
    | JsSystemParametersCreate seed => [seed]
    | JsIssuerCreate _ seed => [seed]
    | JsIssuerIssue _ number seed => [number; seed]
    | JsUserObtainFinish number _ _ _ => [number]
    | JsUserShow _ _ seed => [seed]
    | _ => []
    end.
  Definition with_arrays (f : js_function) (bs : list bytes) : option js_function :=
    match f, bs with
    | JsSystemParametersCreate _, [seed] => Some (JsSystemParametersCreate seed)
    | JsIssuerCreate p _, [seed] => Some (JsIssuerCreate p seed)
    | JsIssuerIssue i _ _, [number; seed] => Some (JsIssuerIssue i number seed)
    | JsUserObtainFinish _ p ip i, [number] => Some (JsUserObtainFinish number p ip i)
    | JsUserShow u e _, [seed] => Some (JsUserShow u e seed)
    | JsIssuerGetIssuerParameters _, [] | JsIssuerNew _ _, []
    | JsIssuerVerify _ _, [] | JsIssuerVerifyRosterMembership _ _, [] => Some f
    | _, _ => None
    end.

  (** The exported functions; wasm/src/credential.js:74-333.  [f] is the function with its
      [JsValue] arguments; [arrays] is passed in place of its byte arrays.  [work]
      is what the WebAssembly code does to the memory, including what it does
      through the imported functions below. *)
  Definition page_call {E : Ext} (fuel : nat) (os : rng) (work : memory -> memory) (s : page) (g : glue)
      (f : js_function) (arrays : list array_like) : glue_result * page * glue :=
    match pass_arrays s arrays with
    | (None, s) => (GThrows, s, g)
    | (Some ps, s) =>
      match with_arrays f (List.map (fun p => mem_slice (mem s) (fst p) (snd p)) ps) with
      | None => (GThrows, s, g)
      | Some f' =>
        match @glue_call E fuel os g f' with
        | (GRunning, g) => (GRunning, s, g)
        | (r, g) => (r, {| mem := free_arrays (work (mem s)) ps; view := view s |}, g)
        end
      end
    end.

  (** [passStringToWasm] on the text [b]; wasm/src/credential.js:355-361. *)
  Definition pass_string (s : page) (b : bytes) : option (nat * nat) * page := pass_array s (Some (List.map bz b)).

  (** [getUint32Memory()[ptrptr / 4] = ptr].  If [ptrptr / 4] is not the number of
      an element nothing is stored. *)
  Definition store_pointer (m : memory) (ptrptr ptr : nat) : memory :=
    if negb (ptrptr mod 4 =? 0)%nat then m else
    if (List.length (cells m) <? ptrptr + 4)%nat then m else
    {| cells := overwrite (cells m) ptrptr (le_encode 4 (Z.of_nat ptr)); buffer := buffer m; allocated := allocated m |}.

  (** [__wbindgen_json_serialize]; wasm/src/credential.js:371-375.  [stringify] is
      [JSON.stringify], in UTF-8; [view32] the cache of [getUint32Memory].  [None]:
      it throws, or the value has no JSON form. *)
  Definition json_serialize_to (stringify : json -> bytes) (s : page) (view32 : option nat) (g : glue) (idx ptrptr : nat)
    : option nat * page * option nat :=
    match get_object g idx with
    | None => (None, s, view32)
    | Some v =>
      match pass_string s (stringify v) with
      | (None, s) => (None, s, view32)
      | (Some (ptr, len), s) =>
        let w := get_memory_view (mem s) view32 in
        let m := if (w =? buffer (mem s))%nat then store_pointer (mem s) ptrptr ptr else mem s in
        (Some len, {| mem := m; view := view s |}, Some w)
      end
    end.

  (** [__wbindgen_json_parse]; wasm/src/credential.js:343-351.  [parse] is [JSON.parse];
      [None]: it throws. *)
  Definition json_parse_from (parse : bytes -> option json) (s : page) (g : glue) (ptr len : nat) : option (nat * glue) * page :=
    let s' := {| mem := mem s; view := Some (get_memory_view (mem s) (view s)) |} in
    match parse (mem_slice (mem s) ptr len) with
    | None => (None, s')
    | Some v => (add_heap_object g v, s')
    end.
End memory.
