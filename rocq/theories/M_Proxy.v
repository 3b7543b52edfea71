(* Model: the bidirectional proxy between two connections.
   File: /repo/pkg/network/proxy/proxy.go; used by pkg/network/tunnel/server/session.go:248 and components/bifrost/pkg/commands/client.go:234.

   Two goroutines copy, each from one connection (its source) to the other.  What the network does is a sequence of events: bytes arrive,
   a peer ends its stream, reads and writes succeed, are short or fail.  Simplified: a Read returns at least one byte or an end or
   both (io.Reader discourages anything else); the fast paths of io.CopyBuffer (WriterTo, ReaderFrom) do the same as its loop; the
   results of CloseWrite and Close are dropped, as in the code. *)
From Coq Require Import List Bool Arith.
Import ListNotations.

Definition byte := nat.
Inductive side := L | R.
Definition other (s : side) : side := match s with L => R | R => L end.
Lemma side_dec : forall a b : side, {a = b} + {a <> b}. Proof. decide equality. Defined.
Inductive ending := Eof | Broken.
(* a connection: what its peer sent and nobody read yet, whether more can come, all that ever arrived, what was written to the peer, what the
   proxy called *)
Record conn := mkc { unread : list byte; ended : option ending; arrived : list byte; sent : list byte; half : bool (* has CloseWrite *);
                     close_writes : nat; closes : nat }.
(* a goroutine: about to read; with bytes to write and the error of the read; about to close its destination; finished *)
Inductive pc := Reading | Writing (b : list byte) (e : option ending) | Closing | Done | Crashed.
Record state := mkst { conn_of : side -> conn; pc_of : side (* its source *) -> pc; write_failed : side (* its source *) -> bool }.
Definition upd {A} (f : side -> A) (s : side) (x : A) : side -> A := fun t => if side_dec t s then x else f t.

(* proxy.go:42-60 New and 62-84 Start: the two goroutines; io.CopyBuffer panics on an empty buffer, make on a negative size *)
Definition start (size : nat) (halfL halfR : bool) : state :=
  let c h := mkc [] None [] [] h 0 0 in
  mkst (fun s => match s with L => c halfL | R => c halfR end) (fun _ => if size =? 0 then Crashed else Reading) (fun _ => false).

Definition closed (c : conn) : bool := negb (closes c =? 0).
Definition read_closed (c : conn) : bool := closed c.
Definition write_closed (c : conn) : bool := closed c || negb (close_writes c =? 0).
Inductive event :=
| Arrive (s : side) (b : list byte)         (* the peer of s sends *)
| End (s : side) (e : ending)               (* the peer of s ends its stream, or the connection breaks *)
| Read (s : side) (n : nat) (e : option ending)   (* the goroutine with source s reads n bytes *)
| Write (s : side) (n : nat)                (* it writes the first n of them to the other side, without error if n is all *)
| Close (s : side).                         (* it closes the other side *)
Definition set_conn (st : state) (s : side) (c : conn) : state := mkst (upd (conn_of st) s c) (pc_of st) (write_failed st).
Definition set_pc (st : state) (s : side) (p : pc) : state := mkst (conn_of st) (upd (pc_of st) s p) (write_failed st).
Definition fail_write (st : state) (s : side) : state := mkst (conn_of st) (pc_of st) (upd (write_failed st) s true).

(* io.CopyBuffer (95), one Read: at most the size of the buffer.  The end is given once everything arrived is read; a read of a closed connection
   fails (net.ErrClosed) *)
Definition read_ok (size : nat) (c : conn) (n : nat) (e : option ending) : Prop :=
  n <= size /\ n <= length (unread c) /\ (n = 0 -> e <> None) /\
  (read_closed c = true -> n = 0 /\ e = Some Broken) /\
  (read_closed c = false -> match e with None => True | Some x => ended c = Some x /\ (x = Eof -> n = length (unread c)) end).
Definition take_in (c : conn) (n : nat) : conn := mkc (skipn n (unread c)) (ended c) (arrived c) (sent c) (half c) (close_writes c) (closes c).
Definition put_out (c : conn) (b : list byte) : conn := mkc (unread c) (ended c) (arrived c) (sent c ++ b) (half c) (close_writes c) (closes c).
(* 86-92 close *)
Definition close_conn (c : conn) : conn :=
  if half c then mkc (unread c) (ended c) (arrived c) (sent c) (half c) (S (close_writes c)) (closes c)
  else mkc (unread c) (ended c) (arrived c) (sent c) (half c) (close_writes c) (S (closes c)).

(* what is possible at all, and what it does *)
Inductive step (size : nat) (st : state) : event -> state -> Prop :=
| SArrive : forall s b, ended (conn_of st s) = None -> b <> [] ->
    step size st (Arrive s b) (set_conn st s (let c := conn_of st s in mkc (unread c ++ b) None (arrived c ++ b) (sent c) (half c) (close_writes c) (closes c)))
| SEnd : forall s e, ended (conn_of st s) = None ->
    step size st (End s e) (set_conn st s (let c := conn_of st s in mkc (unread c) (Some e) (arrived c) (sent c) (half c) (close_writes c) (closes c)))
| SRead : forall s n e, pc_of st s = Reading -> read_ok size (conn_of st s) n e ->
    step size st (Read s n e) (set_pc (set_conn st s (take_in (conn_of st s) n)) s
      (match firstn n (unread (conn_of st s)) with [] => Closing | b => Writing b e end))
| SWrite : forall s n b e, pc_of st s = Writing b e -> n <= length b -> (write_closed (conn_of st (other s)) = true -> n = 0) ->
    step size st (Write s n)
      (let st' := set_conn st (other s) (put_out (conn_of st (other s)) (firstn n b)) in
       if n =? length b then set_pc st' s (match e with None => Reading | Some _ => Closing end)
       else set_pc (fail_write st' s) s Closing)
| SClose : forall s, pc_of st s = Closing ->
    step size st (Close s) (set_pc (set_conn st (other s) (close_conn (conn_of st (other s)))) s Done).

Inductive run (size : nat) (hl hr : bool) : list event -> state -> Prop :=
| RNil : run size hl hr [] (start size hl hr)
| RStep : forall es st ev st', run size hl hr es st -> step size st ev st' -> run size hl hr (es ++ [ev]) st'.
(* 83: Start returns *)
Definition returned (st : state) : Prop := pc_of st L = Done /\ pc_of st R = Done.
