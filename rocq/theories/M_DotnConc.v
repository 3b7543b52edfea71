(* Model of the attribute store with a lock (pkg/dotn/dotn_concurrent.go), on top of the model of the plain store. *)
From Coq Require Import List Bool Arith ZArith.
From Verif Require Import M_GoStr M_Dotn.
Import ListNotations.

(* /repo/pkg/dotn/dotn_concurrent.go:23-26: the data and the lock. [data] is [None] for a nil map. The sync.RWMutex is what can be seen of it between two calls:
   [readers] read locks that were never released, [writer] a write lock never released, [waiting] a goroutine blocked in Lock (which makes every later RLock wait, as package sync documents).
   Simplification: a critical section that ends is one step (the lock excludes writers from one another and from readers, and reading changes nothing), so a history is the order in which the lock is asked for.
   Clone (61-63) reads without the lock and is left out. *)
Record cstore := mkCS { data : option store; readers : nat; writer : bool; waiting : bool }.
Definition fresh_store (d : option store) : cstore := mkCS d 0 false false. (* 28-40: NewConcurrent is [fresh_store (Some [])]; NewConcurrentWithData keeps the map it is given, which may be nil *)

Inductive call := CGet (k : gstr) | CSet (k : gstr) (v : dval) | CReset (d : option store). (* 42-59 *)
Inductive answer := AFound (v : dval) | AMissing | ADone | APanics | ABlocks.

Section Conc.
Variable parse_int8 : gstr -> option Z. (* strconv.ParseInt(p, 0, 8), as in M_Dotn *)

(* 54-59: RLock; the plain Get (a nil map reads as an empty one); RUnlock without defer: a panic in between leaves the read lock taken *)
Definition do_get (k : gstr) (s : cstore) : cstore * answer :=
  if writer s || waiting s then (s, ABlocks)
  else match dotn_get parse_int8 (match data s with Some m => m | None => [] end) k with
       | GSome v => (s, AFound v)
       | GNone => (s, AMissing)
       | GPanic => (mkCS (data s) (S (readers s)) (writer s) (waiting s), APanics)
       end.
(* asking for the write lock: sync.RWMutex.Lock *)
Definition write_blocks (s : cstore) : bool := writer s || waiting s || (0 <? readers s).
Definition blocked_writer (s : cstore) : cstore := mkCS (data s) (readers s) (writer s) true.
(* 42-46: Lock; the plain Set, whose first assignment panics when the map is nil; Unlock without defer *)
Definition do_set (k : gstr) (v : dval) (s : cstore) : cstore * answer :=
  if write_blocks s then (blocked_writer s, ABlocks)
  else match data s with
       | Some m => (mkCS (Some (dotn_set m k v)) (readers s) (writer s) (waiting s), ADone)
       | None => (mkCS None (readers s) true (waiting s), APanics)
       end.
(* 48-52 *)
Definition do_reset (d : option store) (s : cstore) : cstore * answer :=
  if write_blocks s then (blocked_writer s, ABlocks) else (mkCS d (readers s) (writer s) (waiting s), ADone).
Definition do_call (c : call) (s : cstore) : cstore * answer :=
  match c with CGet k => do_get k s | CSet k v => do_set k v s | CReset d => do_reset d s end.
Fixpoint calls (h : list call) (s : cstore) : cstore * list answer :=
  match h with
  | [] => (s, [])
  | c :: r => let (s1, a) := do_call c s in let (s2, l) := calls r s1 in (s2, a :: l)
  end.
End Conc.
