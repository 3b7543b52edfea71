(* Model: the contexts of WASM plugins: /repo/pkg/proxywasm/context.go, properties.go 33-58 (propertyHolderWrapper), and what plugin_manager.go 140-150 and
   plugin.go 208-225, 231-245 keep in them.

   The registry is one for the whole process.  Contexts are numbered in the order they are made.
   Simplified: property stores are maps from keys to values (the paths within them are M_Dotn, C43); loggers are left out. *)
From Coq Require Import String List Ascii Bool Arith ZArith.
From Verif Require Import M_GoStr.
Import ListNotations.
Open Scope list_scope.
Open Scope Z_scope.

(* atomic.AddInt32 wraps *)
Definition i32 (x : Z) : Z := (x + 2 ^ 31) mod 2 ^ 32 - 2 ^ 31.
Inductive value := VStr (s : gstr) | VInt (n : Z) | VRef (n : nat).
Definition props := gstr -> option value.
(* 29-38; the parent: that whose properties it can see *)
Record ctx := mkctx { x_name : gstr; x_id : Z; x_latest : Z; x_parent : option nat; x_props : props }.
Record st := mkst { heap : list ctx; registry : gstr -> option nat }.
Definition init : st := mkst [] (fun _ => None).
Definition register (n : gstr) (i : nat) (r : gstr -> option nat) : gstr -> option nat := fun x => if geqb x n then Some i else r x.
Definition at_ (s : st) (i : nat) : option ctx := nth_error (heap s) i.
Fixpoint put (l : list ctx) (i : nat) (f : ctx -> ctx) : list ctx := match l, i with [], _ => [] | x :: r, O => f x :: r | x :: r, S k => x :: put r k f end.
Definition change (s : st) (i : nat) (f : ctx -> ctx) : st := mkst (put (heap s) i f) (registry s).
Definition none : props := fun _ => None.

(* 50-65 NewContext *)
Definition new_context (s : st) (name : gstr) : st * nat :=
  (mkst (heap s ++ [mkctx name 1 1 None none]) (register name (length (heap s)) (registry s)), length (heap s)).
(* 42-48 *)
Definition get_base (s : st) (name : gstr) : st * nat := match registry s name with Some i => (s, i) | None => new_context s name end.
(* 70-72 *)
Definition next_id (s : st) (c : nat) : st * Z :=
  match at_ s c with
  | Some x => let n := i32 (x_latest x + 1) in (change s c (fun x => mkctx (x_name x) (x_id x) n (x_parent x) (x_props x)), n)
  | None => (s, 0)
  end.
(* 75 *)
Definition join (parent child : gstr) : gstr := parent ++ lit "." ++ child.
(* 84-95 newContext, after NewContext *)
Definition adopt (s : st) (c i : nat) : st := let '(s1, n) := next_id s c in change s1 i (fun x => mkctx (x_name x) n n (Some c) none).
(* 74-82 *)
Definition child (s : st) (c : nat) (root : gstr) : st * nat :=
  match at_ s c with
  | None => (s, O)
  | Some x =>
      let name := join (x_name x) root in
      match registry s name with Some i => (s, i) | None => let '(s1, i) := new_context s name in (adopt s1 c i, i) end
  end.
(* properties.go 56-58 *)
Definition set_prop (s : st) (c : nat) (k : gstr) (v : value) : st :=
  change s c (fun x => mkctx (x_name x) (x_id x) (x_latest x) (x_parent x) (fun y => if geqb y k then Some v else x_props x y)).
(* properties.go 44-54; a parent is older than its children *)
Fixpoint get_from (s : st) (fuel : nat) (c : nat) (k : gstr) : option value :=
  match fuel with
  | O => None
  | S f => match at_ s c with None => None | Some x => match x_props x k with Some v => Some v | None => match x_parent x with Some p => get_from s f p k | None => None end end end
  end.
Definition get_prop (s : st) (c : nat) (k : gstr) : option value := get_from s (S c) c k.

(* ---- any use of them ---- *)
Inductive op := Base (name : gstr) | New (name : gstr) | Child (c : nat) (root : gstr) | NextId (c : nat) | SetProp (c : nat) (k : gstr) (v : value).
Inductive out := OCtx (i : nat) | OId (n : Z) | ONone.
Definition step (s : st) (o : op) : st * out :=
  match o with
  | Base n => let '(s', i) := get_base s n in (s', OCtx i)
  | New n => let '(s', i) := new_context s n in (s', OCtx i)
  | Child c r => match at_ s c with Some _ => let '(s', i) := child s c r in (s', OCtx i) | None => (s, ONone) end
  | NextId c => match at_ s c with Some _ => let '(s', n) := next_id s c in (s', OId n) | None => (s, ONone) end
  | SetProp c k v => (set_prop s c k v, ONone)
  end.
Definition run (s : st) (l : list op) : st := fold_left (fun x o => fst (step x o)) l s.

(* ---- what a plugin keeps in its context: plugin_manager.go 140-150, plugin.go 208-225 ---- *)
Record plugin := mkpl { p_root : gstr; p_name : gstr; p_vm : gstr; p_self : nat; p_config : gstr }.
Definition k_root : gstr := lit "plugin_root_id".
Definition k_vm : gstr := lit "plugin_vm_id".
Definition k_name : gstr := lit "plugin_name".
Definition k_plugin : gstr := lit "plugin".
Definition k_bytes : gstr := lit "plugin_config.bytes".
Definition k_size : gstr := lit "plugin_config.size".
Definition sets (s : st) (c : nat) (l : list (gstr * value)) : st := fold_left (fun s p => set_prop s c (fst p) (snd p)) l s.
Definition plugin_props (p : plugin) : list (gstr * value) :=
  [(k_root, VStr (p_root p)); (k_vm, VStr (p_vm p)); (k_name, VStr (p_name p)); (k_plugin, VRef (p_self p)); (k_bytes, VStr []); (k_size, VInt 0);
   (k_bytes, VStr (p_config p)); (k_size, VInt (Z.of_nat (length (p_config p))))].
Definition add_plugin (s : st) (base : nat) (p : plugin) : st * nat := let '(s1, c) := child s base (p_root p) in (sets s1 c (plugin_props p), c).

(* ---- two goroutines: the steps of GetOrCreateContext ---- *)
Inductive pc := Looking (name : gstr) | Missed (name : gstr) | Made (i : nat) | Returned (i : nat).
(* one step of a call on the context c *)
Definition advance (s : st) (c : nat) (p : pc) : st * pc :=
  match p with
  | Looking n => match registry s n with Some i => (s, Returned i) | None => (s, Missed n) end
  | Missed n => let '(s', i) := new_context s n in (s', Made i)
  | Made i => (adopt s c i, Returned i)
  | Returned i => (s, Returned i)
  end.
Fixpoint two (s : st) (c : nat) (p q : pc) (sched : list bool) : st * pc * pc :=
  match sched with
  | [] => (s, p, q)
  | true :: r => let '(s', p') := advance s c p in two s' c p' q r
  | false :: r => let '(s', q') := advance s c q in two s' c p q' r
  end.
