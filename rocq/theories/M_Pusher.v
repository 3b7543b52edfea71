(* Model: pushing metrics to a Pushgateway that several instances share, /repo/pkg/istio/istio.go 141-160, 286-310, 552-560, 673-711.

   The gateway keeps one group of metrics per grouping key, without expiry; PUT replaces the group, DELETE removes it
   (prometheus/client_golang/prometheus/push: Pusher.PushContext, Pusher.Delete).  A request reaches the gateway some time after it is
   sent, or never; PushContext returns when it is answered or its context is done, and sends nothing if the context is done
   already.  Delete has no context: it waits for its answer.  Metrics are a number. *)
From Coq Require Import List String Bool Arith ZArith.
From Verif Require Import M_GoStr M_Integration.
Import ListNotations.

(* 673-685 createMetricsPusher: the grouping key: the job and the value of the instance label, if one is used *)
Definition key : Type := gstr * option gstr.
Definition key_of (node : gstr) (use_unique : bool) (uuid : gstr) : key := (job_name node, if use_unique then Some uuid else None).
Definition keqb (a b : key) : bool :=
  geqb (fst a) (fst b) && match snd a, snd b with None, None => true | Some x, Some y => geqb x y | _, _ => false end.

(* 153-160 SetDefaults, 691 time.NewTicker: whether the goroutine gets into its loop or panics *)
Definition with_default (interval : Z) : Z := if Z.eqb interval 0 then 5000000000 else interval.
Definition ticker_starts (interval : Z) : bool := Z.ltb 0 (with_default interval).

(* the goroutine of an instance: in select, in PushContext, returned (after Delete), or its process has ended *)
Inductive pc := Selecting | Pushing | Returned | Ended.
Record st := mkst { groups : key -> option (nat * Z) (* who pushed what *); flying : list (nat * Z) (* requests on their way *); cancelled : nat -> bool; pcs : nat -> pc }.
Definition start : st := mkst (fun _ => None) [] (fun _ => false) (fun _ => Selecting).
Definition upd {X} (f : nat -> X) (i : nat) (x : X) : nat -> X := fun j => if Nat.eqb j i then x else f j.
Definition set_group (f : key -> option (nat * Z)) (k : key) (x : option (nat * Z)) : key -> option (nat * Z) := fun q => if keqb q k then x else f q.

Inductive event :=
| Tick (i : nat) (v : Z)          (* 704-705: a tick; the request is sent unless the context is done *)
| Arrives (j : nat)               (* the j-th request reaches the gateway *)
| Lost (j : nat)                  (* it never will *)
| Answer (i : nat)                (* PushContext returns: the request is answered or failed, or the context is done *)
| Cancel (i : nat)                (* the context of instance i *)
| Delete (i : nat) (ok : bool)    (* 696-703; an error is only logged *)
| Exit (i : nat).                 (* the process ends: nobody waits for this goroutine (556-559) *)

Fixpoint drop {X} (j : nat) (l : list X) : list X := match l, j with [], _ => [] | _ :: r, O => r | x :: r, S k => x :: drop k r end.
Definition in_flight (i : nat) (l : list (nat * Z)) : bool := existsb (fun p => Nat.eqb (fst p) i) l.
Section Run.
Variable keys : nat -> key.
Definition step (s : st) (e : event) : st :=
  match e with
  | Tick i v => match pcs s i with
                | Selecting => if cancelled s i then s else mkst (groups s) (flying s ++ [(i, v)]) (cancelled s) (upd (pcs s) i Pushing)
                | _ => s end
  | Arrives j => match nth_error (flying s) j with
                 | Some (i, v) => mkst (set_group (groups s) (keys i) (Some (i, v))) (drop j (flying s)) (cancelled s) (pcs s)
                 | None => s end
  | Lost j => mkst (groups s) (drop j (flying s)) (cancelled s) (pcs s)
  | Answer i => match pcs s i with
                | Pushing => if cancelled s i || negb (in_flight i (flying s)) then mkst (groups s) (flying s) (cancelled s) (upd (pcs s) i Selecting) else s
                | _ => s end
  | Cancel i => mkst (groups s) (flying s) (upd (cancelled s) i true) (pcs s)
  | Delete i ok => match pcs s i with
                   | Selecting => if cancelled s i then mkst (if ok then set_group (groups s) (keys i) None else groups s) (flying s) (cancelled s) (upd (pcs s) i Returned) else s
                   | _ => s end
  | Exit i => mkst (groups s) (flying s) (cancelled s) (upd (pcs s) i Ended)
  end.
Definition run (s : st) (h : list event) : st := fold_left step h s.
End Run.
