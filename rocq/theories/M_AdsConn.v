(* Model: the connection of the discovery client: the loop that connects again, and the three goroutines of a connection.
   Files: /repo/pkg/ads/api.go 173-198 (Connect), /repo/pkg/ads/client.go 125-226 (reset, connectToStream), 280-296 (handleStream),
   313-406 (handleStreamReceive, handleStreamSend), 489-506 (apiResultsRefresher).

   What responses mean, what is subscribed and what API users get is in M_Ads.v and its neighbours; here a response is the number of
   requests (beside its answer) that it leads to, or one of an unsupported type.  Time is left out (15 s between attempts).  A done
   context is taken to be a cancelled one; one whose deadline has passed ends the loop in the same place (backoff.WithContext).
   Refresh returns in the end, but need not: it is an event.  gRPC: Send fails once the stream has ended and ends it if it fails;
   Recv returns the messages that have come and then the status of the stream; both fail when the context of the stream, that of the
   user, is done.  backoff.Retry ends on nil and when its context is done. *)
From Coq Require Import List Bool Arith.
Import ListNotations.

(* api.go 187: context.Canceled or a status with code Canceled; anything else *)
Inductive err := Canceled | Other.
(* handleStreamReceive 324-364: before the select; in recv; with requests to enqueue; sending on resourcesUpdatedChan; returned *)
Inductive receiver := Top | Recv | Enq (n : nat) | Notify | RDone (r : option err).
(* handleStreamSend 382-404: in select; in Send; returned (never with nil) *)
Inductive sender := Idle | Sending | SDone.
(* apiResultsRefresher: in select; refreshing; returned (never with nil) *)
Inductive refresher := Waits | Refreshing | FDone.

(* 195 requestsChan: its capacity *)
Definition capacity : nat := 100.
(* a connection; [first]: the first error of the errgroup, which ends its context *)
Record att := mka { broken : option err; rc : receiver; sn : sender; rf : refresher; queue : nat; first : option err }.
Inductive phase := Connecting | Up (a : att) | Waiting | Stopped.
Record st := mkst { ph : phase; ctx_done : bool }.
Definition start : st := mkst Connecting false.
(* 209-223: three subscriptions are enqueued before the goroutines start *)
Definition fresh : att := mka None Top Idle Waits 3 None.

Inductive event :=
| Cancel                        (* the user's context *)
| ConnFail | ConnOk             (* 145-190 *)
| Break (e : err)               (* the stream ends *)
| ReadTop                       (* 325-328 *)
| Response (r : option nat)     (* 329-345: of a known type, followed by that many requests; or of another type *)
| RecvFails                     (* 330-332 *)
| Enqueue                       (* 348, or in onClustersUpdated, onListenersUpdated *)
| Hand                          (* 362 meets 494 *)
| Refreshed                     (* 495-503 end *)
| RefreshStop                   (* 492-493 *)
| Take | Sent | SendFails       (* 385; 387-403 *)
| SendStop                      (* 383-384 *)
| WaitReturns                   (* 295: the group is done; then api.go 184-194 *)
| Timer | CtxWake.              (* between two attempts *)

Definition group_done (s : st) (a : att) : bool := ctx_done s || match first a with Some _ => true | None => false end.
(* errgroup: only the first error counts *)
Definition note (a : att) (e : err) : option err := match first a with Some x => Some x | None => Some e end.
Definition up (s : st) (a : att) : st := mkst (Up a) (ctx_done s).

Definition step_up (s : st) (a : att) (e : event) : st :=
  match e with
  | Break e => match broken a with None => up s (mka (Some e) (rc a) (sn a) (rf a) (queue a) (first a)) | Some _ => s end
  | ReadTop => match rc a with
               | Top => if group_done s a then up s (mka (broken a) (RDone (Some Canceled)) (sn a) (rf a) (queue a) (note a Canceled))
                        else up s (mka (broken a) Recv (sn a) (rf a) (queue a) (first a))
               | _ => s end
  | Response r => match rc a with
                  | Recv => up s (mka (broken a) (match r with Some n => Enq (S n) | None => RDone None end) (sn a) (rf a) (queue a) (first a))
                  | _ => s end
  | RecvFails => match rc a, (if ctx_done s then Some Canceled else broken a) with
                 | Recv, Some e => up s (mka (broken a) (RDone (Some e)) (sn a) (rf a) (queue a) (note a e))
                 | _, _ => s end
  | Enqueue => match rc a with
               | Enq n => if queue a <? capacity then up s (mka (broken a) (match n with S (S m) => Enq (S m) | _ => Notify end) (sn a) (rf a) (S (queue a)) (first a)) else s
               | _ => s end
  | Hand => match rc a, rf a with
            | Notify, Waits => up s (mka (broken a) Top (sn a) Refreshing (queue a) (first a))
            | _, _ => s end
  | Refreshed => match rf a with Refreshing => up s (mka (broken a) (rc a) (sn a) Waits (queue a) (first a)) | _ => s end
  | RefreshStop => match rf a with
                   | Waits => if group_done s a then up s (mka (broken a) (rc a) (sn a) FDone (queue a) (note a Canceled)) else s
                   | _ => s end
  | Take => match sn a, queue a with Idle, S q => up s (mka (broken a) (rc a) Sending (rf a) q (first a)) | _, _ => s end
  | Sent => match sn a, broken a with
            | Sending, None => if ctx_done s then s else up s (mka None (rc a) Idle (rf a) (queue a) (first a))
            | _, _ => s end
  | SendFails => match sn a with
                 | Sending => up s (mka (match broken a with Some e => Some e | None => Some Other end) (rc a) SDone (rf a) (queue a) (note a Other))
                 | _ => s end
  | SendStop => match sn a with
                | Idle => if group_done s a then up s (mka (broken a) (rc a) SDone (rf a) (queue a) (note a Canceled)) else s
                | _ => s end
  | WaitReturns => match rc a, sn a, rf a with
                   | RDone _, SDone, FDone =>
                       match first a with
                       | Some Other => if ctx_done s then mkst Stopped (ctx_done s) else mkst Waiting (ctx_done s)
                       | _ => mkst Stopped (ctx_done s)
                       end
                   | _, _, _ => s end
  | _ => s
  end.
Definition step (s : st) (e : event) : st :=
  match e with
  | Cancel => mkst (ph s) true
  | _ => match ph s with
         | Up a => step_up s a e
         | Connecting => match e with
                         | ConnFail => mkst (if ctx_done s then Stopped else Waiting) (ctx_done s)
                         | ConnOk => if ctx_done s then s else up s fresh
                         | _ => s end
         | Waiting => match e with
                      | Timer => mkst Connecting (ctx_done s)
                      | CtxWake => if ctx_done s then mkst Stopped (ctx_done s) else s
                      | _ => s end
         | Stopped => s
         end
  end.
Definition run (s : st) (h : list event) : st := fold_left step h s.
