(** wasm/src/credential.js: the JavaScript side of the WebAssembly API

    A JavaScript value crosses into WebAssembly as a handle into [slab].  The
    linear memory in which byte arrays and text are passed is in ModelMemory.v.
    [stack] is never pushed to, so an odd handle reads [undefined]. *)
From Verif Require Export ModelWasm.

(** An element of [slab]: one of the four constants, an object with its count,
    or the number of the next free element. *)
Inductive slot : Type :=
| SConst (v : option json)
| SLive (v : json) (cnt : nat)
| SFree (next : nat).

(** [slab_next = None]: not a number; see [add_heap_object]. *)
Record glue : Type := { slab : list slot; slab_next : option nat }.

(** wasm/src/credential.js:22, 35 *)
Definition glue_init : glue := {|
  slab := [SConst None; SConst (Some JNull); SConst (Some (JBool true)); SConst (Some (JBool false))];
  slab_next := Some 4%nat |}.

Fixpoint set_slot (l : list slot) (i : nat) (s : slot) : list slot :=
  match l, i with
  | [], _ => []
  | _ :: l', O => s :: l'
  | x :: l', S i' => x :: set_slot l' i' s
  end.

(** [getObject]; wasm/src/credential.js:24-33.  [None]: [undefined], or a [TypeError]
    outside the slab. *)
Definition get_object (g : glue) (idx : nat) : option json :=
  if Nat.odd idx then None else
  match nth_error (slab g) (Nat.div2 idx) with
  | Some (SLive v _) => Some v
  | Some (SConst v) => v
  | _ => None
  end.

(** [dropRef]; wasm/src/credential.js:37-49.  On a free element, which is a number,
    [obj.cnt -= 1] does nothing and [obj.cnt > 0] is false.  [None]: a
    [TypeError], or [slab_next] is not a number, which is not modelled further. *)
Definition drop_ref (g : glue) (idx : nat) : option glue :=
  let i := Nat.div2 idx in
  if (i <? 4)%nat then Some g else
  match nth_error (slab g) i, slab_next g with
  | Some (SLive v cnt), Some next =>
    if (1 <? cnt)%nat then Some {| slab := set_slot (slab g) i (SLive v (cnt - 1)); slab_next := Some next |}
    else Some {| slab := set_slot (slab g) i (SFree next); slab_next := Some i |}
  | Some (SFree _), Some next | Some (SConst _), Some next =>
    Some {| slab := set_slot (slab g) i (SFree next); slab_next := Some i |}
  | _, _ => None
  end.

(** [takeObject]; wasm/src/credential.js:51-55. *)
Definition take_object (g : glue) (idx : nat) : option (option json * glue) :=
  match drop_ref g idx with
  | None => None
  | Some g' => Some (get_object g idx, g')
  end.

(** [addHeapObject]; wasm/src/credential.js:86-95.  If [slab_next] is the number of an
    element in use, [slab_next] becomes that element, which is not a number; from
    then on [idx << 1] is 0 and the object is stored where no handle leads.
    [None]: [slab_next] is beyond the slab, which is not modelled further. *)
Definition add_heap_object (g : glue) (v : json) : option (nat * glue) :=
  match slab_next g with
  | None => Some (0%nat, g)
  | Some idx =>
    let s := if (idx =? List.length (slab g))%nat then (slab g ++ [SFree (List.length (slab g) + 1)])%list else slab g in
    match nth_error s idx with
    | Some (SFree next) => Some (2 * idx, {| slab := set_slot s idx (SLive v 1); slab_next := Some next |})%nat
    | Some _ => Some (2 * idx, {| slab := set_slot s idx (SLive v 1); slab_next := None |})%nat
    | None => None
    end
  end.

(** [addHeapObject] on each argument, from left to right. *)
Fixpoint add_arguments (g : glue) (vs : list json) : option (list nat * glue) :=
  match vs with
  | [] => Some ([], g)
  | v :: vs' =>
    match add_heap_object g v with
    | None => None
    | Some (h, g) =>
      match add_arguments g vs' with
      | None => None
      | Some (hs, g) => Some (h :: hs, g)
      end
    end
  end.

(** The destructors of the [JsValue] arguments, which call
    [__wbindgen_object_drop_ref]; wasm/src/credential.js:335-337. *)
Fixpoint drop_arguments (g : glue) (hs : list nat) : option glue :=
  match hs with
  | [] => Some g
  | h :: hs' =>
    match drop_arguments g hs' with
    | None => None
    | Some g => drop_ref g h
    end
  end.

(** The values Rust reads through the handles, with
    [__wbindgen_json_serialize]; wasm/src/credential.js:371-375. *)
Fixpoint read_arguments (g : glue) (hs : list nat) : option (list json) :=
  match hs with
  | [] => Some []
  | h :: hs' =>
    match get_object g h, read_arguments g hs' with
    | Some v, Some vs => Some (v :: vs)
    | _, _ => None
    end
  end.

(** A call with other values for its [JsValue] arguments. *)
Definition with_arguments (f : js_function) (vs : list json) : option js_function :=
  match f, vs with
  | JsSystemParametersCreate s, [] => Some (JsSystemParametersCreate s)
  | JsIssuerCreate _ s, [p] => Some (JsIssuerCreate p s)
  | JsIssuerGetIssuerParameters _, [i] => Some (JsIssuerGetIssuerParameters i)
  | JsIssuerNew _ _, [p; k] => Some (JsIssuerNew p k)
  | JsIssuerIssue _ n s, [i] => Some (JsIssuerIssue i n s)
  | JsIssuerVerify _ _, [i; p] => Some (JsIssuerVerify i p)
  | JsIssuerVerifyRosterMembership _ _, [i; v] => Some (JsIssuerVerifyRosterMembership i v)
  | JsUserObtainFinish n _ _ _, [p; ip; i] => Some (JsUserObtainFinish n p ip i)
  | JsUserShow _ _ s, [u; e] => Some (JsUserShow u e s)
  | _, _ => None
  end.

(** How a call from JavaScript ends. *)
Inductive glue_result : Type :=
| GReturns (v : option json) (os : rng)
| GThrows            (* the trap of the WebAssembly module *)
| GRunning
| GCorrupt.          (* a slab which is not modelled further *)

(** The exported functions; wasm/src/credential.js:74-333.  The value returned, made by
    [__wbindgen_json_parse] or [__wbindgen_number_new] (wasm/src/credential.js:339-341,
    349-351), enters the slab before the arguments are dropped. *)
Definition glue_call {E : Ext} (fuel : nat) (os : rng) (g : glue) (f : js_function) : glue_result * glue :=
  match add_arguments g (js_arguments f) with
  | None => (GCorrupt, g)
  | Some (hs, g) =>
    match read_arguments g hs with
    | None => (GCorrupt, g)
    | Some vs =>
      match with_arguments f vs with
      | None => (GCorrupt, g)
      | Some f' =>
        match @js_run E fuel os f' with
        | JsTraps => (GThrows, g)
        | JsRunning => (GRunning, g)
        | JsReturns v os' =>
          match add_heap_object g v with
          | None => (GCorrupt, g)
          | Some (h, g) =>
            match drop_arguments g hs with
            | None => (GCorrupt, g)
            | Some g =>
              match take_object g h with
              | None => (GCorrupt, g)
              | Some (r, g) => (GReturns r os', g)
              end
            end
          end
        end
      end
    end
  end.
