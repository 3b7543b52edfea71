(* Model: the Java bindings: selector, asynchronous connections, listener, dialer.
   File: /repo/experimental/java/main.go.

   The selector is a function of its queue and of what the registered checks answer.  A connection is a transition system of the reading
   goroutine, the writing goroutine, the application and the network.  Simplified: one thread calls Select; sync.Map.Range visits the keys in
   an arbitrary order, given as a list; a Read returns at least one byte or an error. *)
From Coq Require Import List Bool Arith NArith.
Import ListNotations.

(* ---- keys: 102-119 ---- *)
Definition OP_READ : N := 1. Definition OP_WRITE : N := 4. Definition OP_CONNECT : N := 8. Definition OP_ACCEPT : N := 16. Definition OP_WAKEUP : N := 32.
(* & and << have the same precedence in Go *)
Definition new_key (op id : N) : N := N.lor (N.shiftl (N.land op 255) 32) id.
Definition operation (k : N) : N := N.land (N.shiftr k 32) 255.
Definition key_id (k : N) : N := N.land k (N.ones 32).

(* ---- selector: 121-206 ---- *)
Definition CAP : nat := 64.
(* 150-153: select with default *)
Definition offer (q : list N) (k : N) : list N := if length q <? CAP then q ++ [k] else q.
Definition fill (op : N) (checks : list (N * bool)) (q : list N) : list N :=
  fold_left (fun q c => if snd c : bool then offer q (new_key op (fst c)) else q) checks q.
Fixpoint merge (k : N) (sel : list (N * N)) : list (N * N) :=
  match sel with
  | [] => [(key_id k, k)]
  | (i, v) :: r => if N.eqb i (key_id k) then (i, N.lor v k) :: r else (i, v) :: merge k r
  end.
(* 175-193 *)
Definition collect (q : list N) : list N :=
  map snd (fold_left (fun sel k => if N.eqb (operation k) OP_WAKEUP then sel else merge k sel) q []).
(* the answer: nothing, or keys.  [late]: what is in the queue when Select, waiting, gets its first key; empty: the timeout comes first *)
Definition select (zero_timeout : bool) (rs ws : list (N * bool)) (late q : list N) : option (list N) * list N (* queue after *) :=
  let q1 := fill OP_WRITE ws (fill OP_READ rs q) in
  match q1 with
  | [] => if zero_timeout then (None, []) else match late with [] => (None, []) | _ => (Some (collect late), []) end
  | _ => (Some (collect q1), [])
  end.

(* ---- a connection: 89-101, 368-560 ---- *)
Definition byte := nat.
Inductive rpc := RRun | RDone.
Inductive wpc := WIdle | WHave (b : list byte) | WDone.
Inductive apc := AIdle | AChecked (b : list byte).
Record cst := mkcs
  { peer_sent : list byte;      (* all that the peer sent *)
    net : list byte;            (* of it, not yet read *)
    peer_end : bool;            (* the peer ended or reset the connection *)
    buf : list byte;            (* readBuffer *)
    got : list byte;            (* what AsyncRead returned *)
    eof : bool; term : bool;
    chan : list (list byte);    (* writeChannel; it is closed when eof is set *)
    acc : list byte;            (* the bytes AsyncWrite accepted *)
    out : list byte;            (* the bytes written to the connection *)
    rd : rpc; wr : wpc; ap : apc;
    crashed : bool }.
Definition new_conn : cst := mkcs [] [] false [] [] false false [] [] [] RDone WDone AIdle false.
Definition upd_rd (s : cst) (net' buf' got' : list byte) (rd' : rpc) (eof' : bool) : cst :=
  mkcs (peer_sent s) net' (peer_end s) buf' got' eof' (term s) (chan s) (acc s) (out s) rd' (wr s) (ap s) (crashed s).
Definition upd_wr (s : cst) (chan' : list (list byte)) (acc' out' : list byte) (wr' : wpc) (ap' : apc) (eof' crashed' : bool) : cst :=
  mkcs (peer_sent s) (net s) (peer_end s) (buf s) (got s) eof' (term s) chan' acc' out' (rd s) wr' ap' crashed'.
Inductive ev :=
| PeerSend (b : list byte) | PeerEnd
| StartRead | StartWrite
| RRead (n : nat) | RStop | ROther      (* the reading goroutine: data; an end; another error, after which it reads again *)
| AsyncRead (m : nat) (r : option (list byte)) (* None: -1 *)
| Check (b : list byte)                 (* 530-534 AsyncWrite up to the select; only if there was no eof *)
| Refuse (b : list byte)                (* 530-532: 0, the end was seen *)
| Push (accepted : bool)                (* 536-541 *)
| WTake | WEnd | WWrite (n : nat) | WFail (n : nat) (is_eof : bool)
| Close.
Inductive step (s : cst) : ev -> cst -> Prop :=
| SPeerSend : forall b, peer_end s = false -> step s (PeerSend b) (mkcs (peer_sent s ++ b) (net s ++ b) false (buf s) (got s) (eof s) (term s) (chan s) (acc s) (out s) (rd s) (wr s) (ap s) (crashed s))
| SPeerEnd : step s PeerEnd (mkcs (peer_sent s) (net s) true (buf s) (got s) (eof s) (term s) (chan s) (acc s) (out s) (rd s) (wr s) (ap s) (crashed s))
(* 368-388: once at a time *)
| SStartRead : rd s = RDone -> step s StartRead (upd_rd s (net s) (buf s) (got s) RRun (eof s))
| SStartWrite : wr s = WDone -> step s StartWrite (upd_wr s (chan s) (acc s) (out s) WIdle (ap s) (eof s) (crashed s))
(* 414-424 *)
| SRRead : forall n, rd s = RRun -> term s = false -> 0 < n -> n <= 1024 -> n <= length (net s) ->
    step s (RRead n) (upd_rd s (skipn n (net s)) (buf s ++ firstn n (net s)) (got s) RRun (eof s))
(* 399-413, 533-537 setEofReceived *)
| SRStop : rd s = RRun -> (term s = true \/ peer_end s = true) -> step s RStop (upd_rd s (net s) (buf s) (got s) RDone true)
| SROther : rd s = RRun -> term s = false -> step s ROther s
(* 437-446 *)
| SAsyncReadEof : forall m, eof s = true -> step s (AsyncRead m None) s
| SAsyncRead : forall m, eof s = false -> step s (AsyncRead m (Some (firstn m (buf s)))) (upd_rd s (net s) (skipn m (buf s)) (got s ++ firstn m (buf s)) (rd s) false)
| SCheck : forall b, ap s = AIdle -> eof s = false -> step s (Check b) (upd_wr s (chan s) (acc s) (out s) (wr s) (AChecked b) (eof s) (crashed s))
| SRefuse : forall b, ap s = AIdle -> eof s = true -> step s (Refuse b) s
(* a send on a closed channel panics *)
| SPush : forall b, ap s = AChecked b -> eof s = false -> length (chan s) < CAP -> step s (Push true) (upd_wr s (chan s ++ [b]) (acc s ++ b) (out s) (wr s) AIdle false (crashed s))
| SPushFull : forall b, ap s = AChecked b -> eof s = false -> CAP <= length (chan s) -> step s (Push false) (upd_wr s (chan s) (acc s) (out s) (wr s) AIdle false (crashed s))
| SPushPanic : forall b, ap s = AChecked b -> eof s = true -> step s (Push false) (upd_wr s (chan s) (acc s) (out s) (wr s) AIdle true true)
(* 468-497 *)
| SWTake : forall b r, wr s = WIdle -> chan s = b :: r -> step s WTake (upd_wr s r (acc s) (out s) (WHave b) (ap s) (eof s) (crashed s))
| SWEnd : wr s = WIdle -> chan s = [] -> eof s = true -> step s WEnd (upd_wr s [] (acc s) (out s) WDone (ap s) true (crashed s))
| SWWrite : forall n b, wr s = WHave b -> term s = false -> n <= length b ->
    step s (WWrite n) (upd_wr s (chan s) (acc s) (out s ++ firstn n b) (if n =? length b then WIdle else WHave (skipn n b)) (ap s) (eof s) (crashed s))
(* an error after n bytes; io.EOF ends it, as does a closed connection; otherwise all of b is written again *)
| SWFail : forall n b e, wr s = WHave b -> n <= length b -> (term s = true -> n = 0) ->
    step s (WFail n e) (upd_wr s (chan s) (acc s) (out s ++ firstn n b) (if term s || e then WDone else WHave b) (ap s) (if term s then eof s else e || eof s) (crashed s))
(* 516-527 *)
| SClose : step s Close (mkcs (peer_sent s) (net s) (peer_end s) (buf s) (got s) true true (chan s) (acc s) (out s) (rd s) (wr s) (ap s) (crashed s)).
Inductive run : list ev -> cst -> Prop :=
| RunNil : run [] new_conn
| RunStep : forall es s e s', run es s -> step s e s' -> run (es ++ [e]) s'.
(* the checks the selector calls: 384-386, 456-462 *)
Definition readable (s : cst) : bool := negb (length (buf s) =? 0).
Definition writable (s : cst) : bool := length (chan s) <? CAP.

(* ---- accepting: 301-345.  The channel holds one connection ---- *)
Inductive lpc := LAccept | LPush (c : nat) | LEvent.
Record lst := mkl { l_pc : lpc; l_chan : list nat; l_queued : nat (* ACCEPT events in the selector's queue *); l_owed : nat (* reports the application has not acted on *); l_accepted : list nat; l_taken : list nat }.
Inductive lstep (s : lst) : lst -> Prop :=
| LSAccept : forall c, l_pc s = LAccept -> lstep s (mkl (LPush c) (l_chan s) (l_queued s) (l_owed s) (l_accepted s ++ [c]) (l_taken s))
| LSPush : forall c, l_pc s = LPush c -> l_chan s = [] -> lstep s (mkl LEvent [c] (l_queued s) (l_owed s) (l_accepted s) (l_taken s))
| LSEvent : l_pc s = LEvent -> lstep s (mkl LAccept (l_chan s) (S (l_queued s)) (l_owed s) (l_accepted s) (l_taken s))
(* a Select reports all the queued events of a key as one *)
| LSReport : 0 < l_queued s -> lstep s (mkl (l_pc s) (l_chan s) 0 (S (l_owed s)) (l_accepted s) (l_taken s))
(* 338-345: AsyncAccept, once for a report *)
| LSTake : 0 < l_owed s -> lstep s (mkl (l_pc s) [] (l_queued s) (l_owed s - 1) (l_accepted s) (l_taken s ++ l_chan s)).
Inductive lreach : lst -> Prop :=
| LInit : lreach (mkl LAccept [] 0 0 [] [])
| LNext : forall s s', lreach s -> lstep s s' -> lreach s'.

(* ---- dialing: 575-613 ---- *)
Definition dial_done (c : nat) (l : list nat) : list nat := l ++ [c].
Definition async_dial (l : list nat) : option nat * list nat := match l with [] => (None, []) | c :: r => (Some c, r) end.
