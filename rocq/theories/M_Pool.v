(* Model: connection pool, /repo/pkg/network/pool/channel.go and conn.go, as a small-step relation over goroutines.

   A raw connection is a number; every poolConnection wrapper has its own number.  An item (wid, raw) is a wrapper.
   Blocking points and everything outside the pool's mutex are separate steps; pure code between them is merged.
   Not modelled: deadlines, logging, errors of the connection factory, lastUsedAt (Close by idle timeout is a Close at any
   time).  initialCap only changes the initial content of the channel. *)
From Coq Require Import List Bool Arith.
Import ListNotations.

Definition item := (nat * nat)%type.
Inductive kind := KGet | KPut (raw : nat) | KLen.
(* where a goroutine inside a pool operation is *)
Inductive job :=
| JStart (k : kind)                             (* waiting for c.mu (channel.go:192, 262) *)
| JPurge (k : kind) (n : nat) (hand : option item) (* holding c.mu, in the loop of removeClosedConnections, channel.go:273-286;
                                                     n iterations to go, hand: received and not yet sent back *)
| JSelect (nonnil : bool)                       (* Get after releasing c.mu: the select of channel.go:164-180 *)
| JTaken (i : item)                             (* Get received i, before conn.Acquire() *)
| JPush (raw : nat)                             (* Put holding c.mu, after the purge, channel.go:197-215 *)
| JRelease (i : item)                           (* Put holding c.mu, sent i, before wc.Release() *)
| JDrain                                        (* Close after releasing c.mu, channel.go:237-243 *)
| JEnd.
Record pool := mkpool {
  p_cap : nat; p_chan : list item; p_open : bool (* c.conns != nil *); p_chclosed : bool (* close(conns) done *);
  p_lock : option nat (* job holding c.mu *); p_jobs : list job;
  p_held : list item (* handed out by Get and not closed by the user *); p_past : list item (* closed by the user *);
  p_shut : list nat (* wrappers with closed = true *); p_timers : list nat (* wrappers whose idle timer is armed *);
  p_nraw : nat; p_nwrap : nat }.

Fixpoint jset (l : list job) (j : nat) (x : job) : list job :=
  match l, j with [], _ => [] | _ :: r, O => x :: r | y :: r, S j' => y :: jset r j' x end.
Fixpoint del_item (i : item) (l : list item) : list item :=
  match l with [] => [] | x :: r => if (Nat.eqb (fst i) (fst x) && Nat.eqb (snd i) (snd x))%bool then r else x :: del_item i r end.
Definition del_nat (w : nat) (l : list nat) : list nat := filter (fun x => negb (Nat.eqb w x)) l.
Definition memn (w : nat) (l : list nat) : bool := existsb (Nat.eqb w) l.

Definition with_jobs (p : pool) (js : list job) (lk : option nat) (ch : list item) := mkpool (p_cap p) ch (p_open p) (p_chclosed p) lk js (p_held p) (p_past p) (p_shut p) (p_timers p) (p_nraw p) (p_nwrap p).

Inductive plabel :=
| PSpawn (k : kind)      (* a goroutine calls Get or Len (Put comes from the user closing a wrapper) *)
| PJob (j : nat)         (* a step of goroutine j other than the next two *)
| PTake (j : nat) (busy : bool)   (* Get receives from the channel; busy: some goroutine holds c.mu *)
| PRelease (j : nat) (late : bool) (* Release arms the idle timer; late: the wrapper already left the channel *)
| PUserClose | PUserReclose | PTimer (w : nat) | PClosePool.

Inductive pstep : pool -> plabel -> pool -> Prop :=
| P_spawn : forall p k, (forall r, k <> KPut r) -> pstep p (PSpawn k) (with_jobs p (p_jobs p ++ [JStart k]) (p_lock p) (p_chan p))
| P_lock : forall p j k, nth_error (p_jobs p) j = Some (JStart k) -> p_lock p = None ->
    pstep p (PJob j) (with_jobs p (jset (p_jobs p) j (JPurge k (if p_open p then length (p_chan p) else 0) None)) (Some j) (p_chan p))
| P_recv : forall p j k n i r, nth_error (p_jobs p) j = Some (JPurge k (S n) None) -> p_chan p = i :: r ->
    pstep p (PJob j) (with_jobs p (jset (p_jobs p) j (JPurge k (S n) (Some i))) (p_lock p) r)
| P_drop : forall p j k n i, nth_error (p_jobs p) j = Some (JPurge k (S n) (Some i)) -> memn (fst i) (p_shut p) = true ->
    pstep p (PJob j) (with_jobs p (jset (p_jobs p) j (JPurge k n None)) (p_lock p) (p_chan p))
| P_keep : forall p j k n i, nth_error (p_jobs p) j = Some (JPurge k (S n) (Some i)) -> memn (fst i) (p_shut p) = false -> length (p_chan p) < p_cap p ->
    pstep p (PJob j) (with_jobs p (jset (p_jobs p) j (JPurge k n None)) (p_lock p) (p_chan p ++ [i]))
| P_purged : forall p j k, nth_error (p_jobs p) j = Some (JPurge k 0 None) ->
    pstep p (PJob j) (match k with
      | KGet => with_jobs p (jset (p_jobs p) j (JSelect (p_open p))) None (p_chan p)
      | KLen => with_jobs p (jset (p_jobs p) j JEnd) None (p_chan p)
      | KPut r => with_jobs p (jset (p_jobs p) j (JPush r)) (p_lock p) (p_chan p)
      end)
| P_get_nil : forall p j, nth_error (p_jobs p) j = Some (JSelect false) -> pstep p (PJob j) (with_jobs p (jset (p_jobs p) j JEnd) (p_lock p) (p_chan p))
| P_take : forall p j i r, nth_error (p_jobs p) j = Some (JSelect true) -> p_chan p = i :: r ->
    pstep p (PTake j (match p_lock p with Some _ => true | None => false end)) (with_jobs p (jset (p_jobs p) j (JTaken i)) (p_lock p) r)
| P_get_closed : forall p j, nth_error (p_jobs p) j = Some (JSelect true) -> p_chan p = [] -> p_chclosed p = true ->
    pstep p (PJob j) (with_jobs p (jset (p_jobs p) j JEnd) (p_lock p) (p_chan p))
| P_create : forall p j, nth_error (p_jobs p) j = Some (JSelect true) -> p_chan p = [] -> p_chclosed p = false ->
    pstep p (PJob j) (mkpool (p_cap p) (p_chan p) (p_open p) (p_chclosed p) (p_lock p) (jset (p_jobs p) j JEnd)
      ((p_nwrap p, p_nraw p) :: p_held p) (p_past p) (p_shut p) (p_timers p) (S (p_nraw p)) (S (p_nwrap p)))
| P_acquire : forall p j i, nth_error (p_jobs p) j = Some (JTaken i) ->   (* conn.go:76-81 *)
    pstep p (PJob j) (mkpool (p_cap p) (p_chan p) (p_open p) (p_chclosed p) (p_lock p) (jset (p_jobs p) j JEnd)
      (i :: p_held p) (p_past p) (p_shut p) (del_nat (fst i) (p_timers p)) (p_nraw p) (p_nwrap p))
| P_push : forall p j r, nth_error (p_jobs p) j = Some (JPush r) -> p_open p = true -> length (p_chan p) < p_cap p ->
    pstep p (PJob j) (mkpool (p_cap p) (p_chan p ++ [(p_nwrap p, r)]) (p_open p) (p_chclosed p) (p_lock p) (jset (p_jobs p) j (JRelease (p_nwrap p, r)))
      (p_held p) (p_past p) (p_shut p) (p_timers p) (p_nraw p) (S (p_nwrap p)))
| P_push_refused : forall p j r, nth_error (p_jobs p) j = Some (JPush r) -> p_open p = false \/ p_cap p <= length (p_chan p) ->
    pstep p (PJob j) (with_jobs p (jset (p_jobs p) j JEnd) None (p_chan p))  (* conn.Close() on the raw connection *)
| P_release : forall p j i, nth_error (p_jobs p) j = Some (JRelease i) ->   (* conn.go:84-91 *)
    pstep p (PRelease j (negb (memn (fst i) (map fst (p_chan p))))) (mkpool (p_cap p) (p_chan p) (p_open p) (p_chclosed p) None (jset (p_jobs p) j JEnd)
      (p_held p) (p_past p) (p_shut p) (fst i :: p_timers p) (p_nraw p) (p_nwrap p))
(* poolConnection.Close by a user, conn.go:37-43: Put, or Discard if a read failed *)
| P_user_put : forall p i, In i (p_held p) ->
    pstep p PUserClose (mkpool (p_cap p) (p_chan p) (p_open p) (p_chclosed p) (p_lock p) (p_jobs p ++ [JStart (KPut (snd i))])
      (del_item i (p_held p)) (i :: p_past p) (p_shut p) (p_timers p) (p_nraw p) (p_nwrap p))
| P_user_discard : forall p i, In i (p_held p) ->
    pstep p PUserClose (mkpool (p_cap p) (p_chan p) (p_open p) (p_chclosed p) (p_lock p) (p_jobs p)
      (del_item i (p_held p)) (i :: p_past p) (fst i :: p_shut p) (del_nat (fst i) (p_timers p)) (p_nraw p) (p_nwrap p))
(* a second Close of the same wrapper *)
| P_user_reclose : forall p i, In i (p_past p) ->
    pstep p PUserReclose (with_jobs p (p_jobs p ++ [JStart (KPut (snd i))]) (p_lock p) (p_chan p))
(* the idle timer of a wrapper fires: Discard (conn.go:59-68, 100-102) *)
| P_timer : forall p w, In w (p_timers p) ->
    pstep p (PTimer w) (mkpool (p_cap p) (p_chan p) (p_open p) (p_chclosed p) (p_lock p) (p_jobs p) (p_held p) (p_past p) (w :: p_shut p) (del_nat w (p_timers p)) (p_nraw p) (p_nwrap p))
(* Close, channel.go:220-246 *)
| P_close : forall p, p_open p = true -> p_lock p = None ->
    pstep p PClosePool (mkpool (p_cap p) (p_chan p) false (p_chclosed p) None (p_jobs p ++ [JDrain]) (p_held p) (p_past p) (p_shut p) (p_timers p) (p_nraw p) (p_nwrap p))
| P_drain_close : forall p j, nth_error (p_jobs p) j = Some JDrain ->
    pstep p (PJob j) (mkpool (p_cap p) (p_chan p) (p_open p) true (p_lock p) (p_jobs p) (p_held p) (p_past p) (p_shut p) (p_timers p) (p_nraw p) (p_nwrap p))
| P_drain : forall p j i r, nth_error (p_jobs p) j = Some JDrain -> p_chclosed p = true -> p_chan p = i :: r ->
    pstep p (PJob j) (mkpool (p_cap p) r (p_open p) true (p_lock p) (p_jobs p) (p_held p) (p_past p) (fst i :: p_shut p) (del_nat (fst i) (p_timers p)) (p_nraw p) (p_nwrap p))
| P_drain_end : forall p j, nth_error (p_jobs p) j = Some JDrain -> p_chclosed p = true ->  (* channel empty, or an error ended the loop *)
    pstep p (PJob j) (with_jobs p (jset (p_jobs p) j JEnd) (p_lock p) (p_chan p)).

Inductive psteps : pool -> list plabel -> pool -> Prop :=
| PS_nil : forall p, psteps p [] p
| PS_cons : forall p l p1 ls p2, pstep p l p1 -> psteps p1 ls p2 -> psteps p (l :: ls) p2.
(* NewChannelPool, channel.go:111-151: initialCap <= maxCap connections, not released so without idle timer *)
Definition new_pool (initial cap : nat) : pool :=
  mkpool cap (map (fun n => (n, n)) (seq 0 initial)) true false None [] [] [] [] [] initial initial.
