(* Model: the ticks of WASM filters: /repo/pkg/proxywasm/host.go 240-301 (SetTickPeriodMilliseconds, Done) and common_properties.go 18-44
   (tickerDoneChannelProperty, whose Get sends on the channel itself and then reports that there is none).

   One WASM instance, with its lock (a mutex: pkg/proxywasm/filter.go 83-89, plugin.go 284, 300), the filters of any number of streams on it, and the
   goroutines that SetTickPeriodMilliseconds starts.  Host functions are called by WASM code, and by StopWasmContext (utils.go 26-54, under
   stream.go 339-353 and plugin.go 281-296), always by the owner of the lock.  A holder is a property holder: that of a stream, which all its filters
   share, or that of the instance.

   Simplifications: time is left out, a ticker may fire whenever it waits; the error of a tick is only logged, so a tick is one that ends. *)
From Coq Require Import List Arith ZArith.
Import ListNotations.
Open Scope list_scope.

(* a goroutine of host.go:262-288: not started yet; in its select; between the tick and the lock; in proxy_on_tick; returned *)
Inductive tstate := Starting (period : Z) | Waiting | WantLock | InTick | Stopped.
Inductive who := Ticker (t : nat) | Caller (c : nat).
Record st := mkst {
  tickers : list (tstate * nat);     (* with the holder whose property it sets *)
  chan : nat -> option nat;          (* the property ticker.done_channel of a holder: the ticker whose channel it is *)
  lock : option who;
  sending : option nat;              (* the owner of the lock is in done <- true, on the channel of that ticker *)
  crashed : bool }.
Definition init : st := mkst [] (fun _ => None) None None false.
Definition upd (f : nat -> option nat) (h : nat) (v : option nat) : nat -> option nat := fun x => if x =? h then v else f x.
Fixpoint put (l : list (tstate * nat)) (t : nat) (x : tstate) : list (tstate * nat) :=
  match l, t with [], _ => [] | (_, h) :: r, O => (x, h) :: r | a :: r, S k => a :: put r k x end.
Definition is (s : st) (t : nat) (x : tstate) : Prop := exists h, nth_error (tickers s) t = Some (x, h).

Inductive ev :=
| Enter (c : nat)                 (* a goroutine locks the instance *)
| Leave (c : nat)
| SetPeriod (h : nat) (period : Z) (* the owner of the lock calls SetTickPeriodMilliseconds; the call returns at once, with WasmResultOk *)
| Begin (t : nat)                 (* host.go:263-273 *)
| Fire (t : nat)                  (* the select takes ticker.C *)
| TickBegin (t : nat) | TickEnd (t : nat)
| Overwrite (h : nat)             (* the filter sets the property ticker.done_channel itself *)
| DoneNone (h : nat)              (* Done finds no channel and returns *)
| DoneCall (h : nat)              (* Done finds a channel *)
| DoneEnd (t : nat).              (* the select takes the value; Done returns *)

Inductive step : st -> ev -> st -> Prop :=
| S_enter s c : crashed s = false -> lock s = None -> step s (Enter c) (mkst (tickers s) (chan s) (Some (Caller c)) (sending s) false)
| S_leave s c : crashed s = false -> lock s = Some (Caller c) -> sending s = None -> step s (Leave c) (mkst (tickers s) (chan s) None None false)
| S_set s h p w : crashed s = false -> lock s = Some w -> sending s = None ->
    step s (SetPeriod h p) (mkst (tickers s ++ [(Starting p, h)]) (chan s) (lock s) None false)
(* time.NewTicker panics if the period is not positive, in a goroutine of its own: the process ends *)
| S_begin s t p h : crashed s = false -> nth_error (tickers s) t = Some (Starting p, h) ->
    step s (Begin t) (if (0 <? p)%Z then mkst (put (tickers s) t Waiting) (upd (chan s) h (Some t)) (lock s) (sending s) false
                      else mkst (tickers s) (chan s) (lock s) (sending s) true)
| S_fire s t : crashed s = false -> is s t Waiting -> step s (Fire t) (mkst (put (tickers s) t WantLock) (chan s) (lock s) (sending s) false)
| S_tick s t : crashed s = false -> is s t WantLock -> lock s = None -> step s (TickBegin t) (mkst (put (tickers s) t InTick) (chan s) (Some (Ticker t)) (sending s) false)
| S_end s t : crashed s = false -> is s t InTick -> lock s = Some (Ticker t) -> sending s = None ->
    step s (TickEnd t) (mkst (put (tickers s) t Waiting) (chan s) None None false)
| S_overwrite s h w : crashed s = false -> lock s = Some w -> sending s = None -> step s (Overwrite h) (mkst (tickers s) (upd (chan s) h None) (lock s) None false)
| S_none s h w : crashed s = false -> lock s = Some w -> sending s = None -> chan s h = None -> step s (DoneNone h) s
| S_call s h w t : crashed s = false -> lock s = Some w -> sending s = None -> chan s h = Some t ->
    step s (DoneCall h) (mkst (tickers s) (chan s) (lock s) (Some t) false)
| S_done s t : crashed s = false -> sending s = Some t -> is s t Waiting -> step s (DoneEnd t) (mkst (put (tickers s) t Stopped) (chan s) (lock s) None false).

Inductive run : st -> list ev -> st -> Prop :=
| R_nil s : run s [] s
| R_snoc s tr u e v : run s tr u -> step u e v -> run s (tr ++ [e]) v.

(* host.go:242-258: without the context or the plugin of the instance nothing is started *)
Inductive result := ResultOk | ResultInternalFailure.
Definition set_tick_result (root plugin : bool) : result * bool := if root then if plugin then (ResultOk, true) else (ResultInternalFailure, false) else (ResultInternalFailure, false).
