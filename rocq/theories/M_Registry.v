(* Model: pool registry, /repo/pkg/network/pool/syncmap_registry.go.

   Pools are numbers with a set of closed ones.  Every atomic operation of sync.Map and sync/atomic is one step;
   goroutines between two such operations are listed in r_jobs.  Not modelled: logging, the ticker period (a cleanup round
   may start at any time), the data race on cleanupCheckCancelFunc itself (reads and writes of it are steps). *)
From Coq Require Import List String Bool ZArith.
From Verif Require Import M_GoMap.
Import ListNotations.
Open Scope Z_scope.

Inductive rjob :=
| RAdd1            (* AddPool stored the pool, before atomic.AddUint64(&r.count, 1), :140 *)
| RAdd2            (* before the load and comparison with 1, :142 *)
| RRem1            (* RemovePool deleted the entry, before atomic.AddUint64(&r.count, ^0), :119 *)
| RRem2            (* before the load and comparison with 0, :121 *)
| RStart           (* goroutine of startCleanupCheck, not yet run, :143 *)
| RLoop            (* cleanup loop waiting for the ticker or ctx.Done, :180-190 *)
| RVisit (id : string) (* cleanup found the pool of id closed, before RemovePool(id), :171-173 *)
| REnd.
Record registry := mkreg { r_store : gmap nat; r_count : Z; r_pclosed : list nat; r_jobs : list rjob;
  r_cancel : option nat (* the loop that cleanupCheckCancelFunc cancels *); r_cancelled : list nat }.
Definition new_registry : registry := mkreg [] 0 [] [] None [].
Definition two64 : Z := 2 ^ 64.
Fixpoint rset (l : list rjob) (j : nat) (x : rjob) : list rjob :=
  match l, j with [], _ => [] | _ :: r, O => x :: r | y :: r, S j' => y :: rset r j' x end.
Definition pclosed (r : registry) (p : nat) : bool := existsb (Nat.eqb p) (r_pclosed r).
Definition rupd (r : registry) (st : gmap nat) (c : Z) (js : list rjob) : registry := mkreg st c (r_pclosed r) js (r_cancel r) (r_cancelled r).
(* stopCleanupCheck, :152-158 *)
Definition rstop (r : registry) : list nat := match r_cancel r with Some j => j :: r_cancelled r | None => r_cancelled r end.

Inductive rlabel := RLAdd (id : string) (p : nat) | RLRemove (id : string) | RLPoolCloses (p : nat) | RLJob (j : nat) | RLCleanup (j : nat) (id : string).
Inductive rstep : registry -> rlabel -> registry -> Prop :=
(* AddPool, :133-146 *)
| R_add_closed : forall r id p, pclosed r p = true -> rstep r (RLAdd id p) r
| R_add_present : forall r id p q, pclosed r p = false -> mget id (r_store r) = Some q -> rstep r (RLAdd id p) r
| R_add_store : forall r id p, pclosed r p = false -> mget id (r_store r) = None ->
    rstep r (RLAdd id p) (rupd r (mset id p (r_store r)) (r_count r) (r_jobs r ++ [RAdd1]))
| R_add_count : forall r j, nth_error (r_jobs r) j = Some RAdd1 ->
    rstep r (RLJob j) (rupd r (r_store r) ((r_count r + 1) mod two64) (rset (r_jobs r) j RAdd2))
| R_add_cmp : forall r j, nth_error (r_jobs r) j = Some RAdd2 ->
    rstep r (RLJob j) (rupd r (r_store r) (r_count r) (rset (r_jobs r) j REnd ++ (if r_count r =? 1 then [RStart] else [])))
(* RemovePool, :116-125 *)
| R_rem_absent : forall r id, mget id (r_store r) = None -> rstep r (RLRemove id) r
| R_rem : forall r id q, mget id (r_store r) = Some q -> rstep r (RLRemove id) (rupd r (mdel id (r_store r)) (r_count r) (r_jobs r ++ [RRem1]))
| R_rem_count : forall r j, nth_error (r_jobs r) j = Some RRem1 ->
    rstep r (RLJob j) (rupd r (r_store r) ((r_count r - 1) mod two64) (rset (r_jobs r) j RRem2))
| R_rem_cmp : forall r j, nth_error (r_jobs r) j = Some RRem2 ->
    rstep r (RLJob j) (mkreg (r_store r) (r_count r) (r_pclosed r) (rset (r_jobs r) j REnd) (r_cancel r) (if r_count r =? 0 then rstop r else r_cancelled r))
(* a pool is closed (by its user or its idle timeout) *)
| R_pool_closes : forall r p, rstep r (RLPoolCloses p) (mkreg (r_store r) (r_count r) (p :: r_pclosed r) (r_jobs r) (r_cancel r) (r_cancelled r))
(* startCleanupCheck, :160-190 *)
| R_start : forall r j, nth_error (r_jobs r) j = Some RStart ->
    rstep r (RLJob j) (mkreg (r_store r) (r_count r) (r_pclosed r) (rset (r_jobs r) j RLoop) (Some j) (rstop r))
| R_loop_stop : forall r j, nth_error (r_jobs r) j = Some RLoop -> In j (r_cancelled r) ->
    rstep r (RLJob j) (rupd r (r_store r) (r_count r) (rset (r_jobs r) j REnd))
| R_visit : forall r j id p, nth_error (r_jobs r) j = Some RLoop -> mget id (r_store r) = Some p -> pclosed r p = true ->
    rstep r (RLJob j) (rupd r (r_store r) (r_count r) (rset (r_jobs r) j (RVisit id)))
(* RemovePool(id) called by the cleanup; its counting part runs as a job of its own *)
| R_clean : forall r j id, nth_error (r_jobs r) j = Some (RVisit id) ->
    rstep r (RLCleanup j id) (rupd r (mdel id (r_store r)) (r_count r) (rset (r_jobs r) j RLoop ++ (match mget id (r_store r) with Some _ => [RRem1] | None => [] end))).
Inductive rsteps : registry -> list rlabel -> registry -> Prop :=
| RS_nil : forall r, rsteps r [] r
| RS_cons : forall r l r1 ls r2, rstep r l r1 -> rsteps r1 ls r2 -> rsteps r (l :: ls) r2.
(* Len, :148-150, with int(uint64) *)
Definition reg_len (r : registry) : Z := if r_count r <? 2 ^ 63 then r_count r else r_count r - two64.
(* GetPool, :82-89; HasPool, :127-131 *)
Definition get_pool (id : string) (r : registry) : option nat := mget id (r_store r).
Definition has_pool (id : string) (r : registry) : bool := match mget id (r_store r) with Some _ => true | None => false end.

(* Close, :91-110, called with no other operation running: the entries are visited in the order of sync.Map.Range (the list
   order); perr tells whether closing the pool fails.  Result: the remaining store, the pools closed, and whether Close
   returned nil and set r.closed. *)
Fixpoint reg_close (perr : nat -> bool) (visit : gmap nat) (store : gmap nat) : gmap nat * list nat * bool :=
  match visit with
  | [] => (store, [], true)
  | (id, p) :: r => if perr p then (store, [p], false) else let '(s, c, ok) := reg_close perr r (mdel id store) in (s, p :: c, ok)
  end.
