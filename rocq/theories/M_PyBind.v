(* Model: the Python bindings: the pool of HTTP transports and the memory of answers.
   File: /repo/experimental/python/nasp/nasp.go.

   Strings are lists of bytes.  The hash (FNV-1, 64 bit) is an arbitrary function; what the transport does with a request is an arbitrary function.
   Calls that run at the same time are steps of a transition system; each access to the pool, which a mutex protects, and each access to refCount is
   one step. *)
From Coq Require Import List Bool Arith ZArith.
Import ListNotations.

Definition str := list nat.
(* a transport: 209-214.  t_stopped: its context, the one its handler runs under, is cancelled *)
Record tr := mktr { t_ref : nat; t_stopped : bool }.
Definition trs := list tr.               (* all transports ever made; a transport is its index *)
Definition upd {A} (l : list A) (i : nat) (f : A -> A) : list A := map (fun p => if Nat.eqb (fst p) i then f (snd p) else snd p) (combine (seq 0 (length l)) l).
Definition pool := list (nat * nat).     (* id -> transport *)
Definition lookup (id : nat) (p : pool) : option nat := match find (fun e => Nat.eqb (fst e) id) p with Some e => Some (snd e) | None => None end.
Definition remove (id : nat) (p : pool) : pool := filter (fun e => negb (Nat.eqb (fst e) id)) p.
Definition set (id t : nat) (p : pool) : pool := (id, t) :: remove id p.
Definition ref_of (l : trs) (t : nat) : nat := match nth_error l t with Some x => t_ref x | None => 0 end.
(* refCount is a uint32 that is 1 at least when it is decremented (a transport in the pool); at 0 it would wrap *)
Definition dec (n : nat) : nat := match n with O => Nat.pow 2 32 - 1 | S k => k end.

Section Hash.
Variable hash : str -> nat.
(* 120-125: what is hashed is the concatenation *)
Definition transport_id (url token : str) : nat := hash (url ++ token).
End Hash.

(* ---- calls one after the other ---- *)
Record st := mkst { s_trs : trs; s_pool : pool }.
Definition init : st := mkst [] [].
Definition incr (l : trs) (t : nat) : trs := upd l t (fun x => mktr (S (t_ref x)) (t_stopped x)).
Definition stop (l : trs) (t : nat) : trs := upd l t (fun x => mktr (t_ref x) true).
(* 116-171 NewHTTPTransport (Get 262, Set 284-292); made: whether the handler could be made, started and connected.  The deferred cancel (141-142) runs when the function returns *)
Definition new_transport (made : bool) (id : nat) (s : st) : option nat * st :=
  match lookup id (s_pool s) with
  | Some t => (Some id, mkst (incr (s_trs s) t) (s_pool s))
  | None => if made then let t := length (s_trs s) in (Some id, mkst (s_trs s ++ [mktr 1 true]) (set id t (s_pool s))) else (None, s)
  end.
(* 270-282 GetAndDelete, 201-207 CloseHTTPTransport.  refCount, a uint32, does not wrap as long as fewer than 2^32 handles are open *)
Definition get_and_delete (id : nat) (s : st) : option nat * st :=
  match lookup id (s_pool s) with
  | None => (None, s)
  | Some t => let l := upd (s_trs s) t (fun x => mktr (dec (t_ref x)) (t_stopped x)) in
      (Some t, mkst l (if Nat.eqb (ref_of l t) 0 then remove id (s_pool s) else s_pool s))
  end.
Definition close_transport (id : nat) (s : st) : st :=
  match get_and_delete id s with
  | (None, s') => s'
  | (Some t, s') => if Nat.eqb (ref_of (s_trs s') t) 0 then mkst (stop (s_trs s') t) (s_pool s') else s'
  end.
(* 174-198: which transport serves a request; None: "transport not found" *)
Definition served_by (id : nat) (s : st) : option nat := lookup id (s_pool s).

(* ---- calls at the same time: NewHTTPTransport 127-131 (Get, then refCount++ without the lock), 141-170 (make, then Set), 201-207 (GetAndDelete, then Close) ---- *)
Inductive pc := PGet (id : nat) | PIncr (id t : nat) | PMake (id : nat) | PSet (id t : nat) | PNew (id : nat) (* has a handle *) | PClosing (t : nat) | PEnd.
Record cst := mkc { c_st : st; c_pcs : list pc }.
Inductive cstep (s : cst) : cst -> Prop :=
| CFound : forall i id t, nth_error (c_pcs s) i = Some (PGet id) -> lookup id (s_pool (c_st s)) = Some t -> cstep s (mkc (c_st s) (upd (c_pcs s) i (fun _ => PIncr id t)))
| CMissing : forall i id, nth_error (c_pcs s) i = Some (PGet id) -> lookup id (s_pool (c_st s)) = None -> cstep s (mkc (c_st s) (upd (c_pcs s) i (fun _ => PMake id)))
| CIncr : forall i id t, nth_error (c_pcs s) i = Some (PIncr id t) -> cstep s (mkc (mkst (incr (s_trs (c_st s)) t) (s_pool (c_st s))) (upd (c_pcs s) i (fun _ => PNew id)))
| CMake : forall i id, nth_error (c_pcs s) i = Some (PMake id) -> cstep s (mkc (mkst (s_trs (c_st s) ++ [mktr 1 false]) (s_pool (c_st s))) (upd (c_pcs s) i (fun _ => PSet id (length (s_trs (c_st s))))))
| CSet : forall i id t, nth_error (c_pcs s) i = Some (PSet id t) -> cstep s (mkc (mkst (stop (s_trs (c_st s)) t) (set id t (s_pool (c_st s)))) (upd (c_pcs s) i (fun _ => PNew id)))
(* a holder closes its handle *)
| CClose : forall i id t s', nth_error (c_pcs s) i = Some (PNew id) -> get_and_delete id (c_st s) = (Some t, s') -> cstep s (mkc s' (upd (c_pcs s) i (fun _ => PClosing t)))
| CCloseNone : forall i id s', nth_error (c_pcs s) i = Some (PNew id) -> get_and_delete id (c_st s) = (None, s') -> cstep s (mkc s' (upd (c_pcs s) i (fun _ => PEnd)))
| CClosed : forall i t, nth_error (c_pcs s) i = Some (PClosing t) ->
    cstep s (mkc (if Nat.eqb (ref_of (s_trs (c_st s)) t) 0 then mkst (stop (s_trs (c_st s)) t) (s_pool (c_st s)) else c_st s) (upd (c_pcs s) i (fun _ => PEnd))).
Inductive creach (callers : list nat) : cst -> Prop :=
| CInit : creach callers (mkc init (map PGet callers))
| CNext : forall s s', creach callers s -> cstep s s' -> creach callers s'.

(* ---- what crosses the language border ---- *)
(* C.GoString, C.CString: a C string ends at the first zero byte *)
Fixpoint c_string (l : str) : str := match l with [] => [] | 0 :: _ => [] | b :: r => b :: c_string r end.
(* strings.Join(v, ",") *)
Fixpoint join (l : list str) : str := match l with [] => [] | [x] => x | x :: r => x ++ 44 :: join r end.
Record resp := mkresp { status : nat; version : str; headers : list (str * list str); body : str }.
(* 188-197, 310-338: what the caller reads *)
Definition delivered (r : resp) : resp := mkresp (status r) (c_string (version r)) (map (fun h => (c_string (fst h), [c_string (join (snd h))])) (headers r)) (c_string (body r)).

(* memory: the blocks that are allocated, and the next address *)
Record mem := mkmem { live : list nat; next : nat; double_free : bool }.
Definition malloc (m : mem) : nat * mem := (next m, mkmem (next m :: live m) (S (next m)) (double_free m)).
Definition free (a : nat) (m : mem) : mem :=
  if existsb (Nat.eqb a) (live m) then mkmem (List.remove Nat.eq_dec a (live m)) (next m) (double_free m) else mkmem (live m) (next m) true.
Record hdrs := mkhdrs { h_items : option nat; h_cells : list (nat * nat) }.
Record cresp := mkcresp { r_self : nat; r_version : nat; r_headers : hdrs; r_body : nat }.
Fixpoint alloc_cells (n : nat) (m : mem) : list (nat * nat) * mem :=
  match n with
  | O => ([], m)
  | S k => let '(a, m1) := malloc m in let '(b, m2) := malloc m1 in let '(r, m3) := alloc_cells k m2 in ((a, b) :: r, m3)
  end.
(* 310-338 cGoHTTPResponse with n headers *)
Definition alloc_response (n : nat) (m : mem) : cresp * mem :=
  let '(items, m0) := if Nat.eqb n 0 then (None, m) else let '(a, m') := malloc m in (Some a, m') in
  let '(cells, m1) := alloc_cells n m0 in
  let '(v, m2) := malloc m1 in
  let '(b, m3) := malloc m2 in
  let '(p, m4) := malloc m3 in
  (mkcresp p v (mkhdrs items cells) b, m4).
(* 95-106 free_http_headers, 345-354 FreeGoHTTPResponse *)
Definition free_headers (h : hdrs) (m : mem) : mem :=
  match h_items h with
  | None => m
  | Some a => free a (fold_left (fun m c => free (snd c) (free (fst c) m)) (h_cells h) m)
  end.
Definition free_response (r : cresp) (m : mem) : mem := free (r_self r) (free (r_body r) (free_headers (r_headers r) (free (r_version r) m))).
(* 294-308 an error: its struct and its message *)
Definition alloc_error (m : mem) : (nat * nat) * mem := let '(msg, m1) := malloc m in let '(p, m2) := malloc m1 in ((p, msg), m2).
Definition free_error (e : nat * nat) (m : mem) : mem := free (fst e) (free (snd e) m).
