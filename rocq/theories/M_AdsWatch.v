(* Model: API watches.  /repo/pkg/ads/api_result.go, the goroutine of GetListenerProperties / GetTCPClientPropertiesByHost
   / GetHTTPClientPropertiesByHost (api_tcp_client.go:129-153 and the same text in the two other files) and the
   refresher goroutine (client.go:487-506).

   One observable, inputs are numbers; a small-step relation interleaves the refresher, the watch goroutines and their
   consumers.  Critical sections of registerForUpdates and cancel contain no blocking operation and are one step; Refresh
   blocks inside its critical section and is several steps.  The channels resultUpdated and ch have capacity 1.
   Simplification: during Refresh the response of a registered input is not nil (the client is initialised). *)
From Coq Require Import List Bool Arith.
Import ListNotations.

(* an API response: DeepEqual is equality of [r_val]; [r_err]: Error() is not nil *)
Record resp := mkresp { r_val : nat; r_err : bool }.
Definition resp_eqb (a b : resp) : bool := (Nat.eqb (r_val a) (r_val b) && Bool.eqb (r_err a) (r_err b))%bool.

(* where a watch goroutine is *)
Inductive phase :=
| PSelect                (* the select of its loop *)
| PGot                   (* received from resultUpdated, before get() (api_result.go:102-108) *)
| PDrain (v : resp)      (* sendLatest: evaluating len(ch) > 0 (api_result.go:142) *)
| PDrainRecv (v : resp)  (* sendLatest: in the select of the drain loop, lines 143-147 *)
| PSend (v : resp)       (* sendLatest: final select, lines 149-153 *)
| PCancel                (* returned from the loop; deferred cancel() not done *)
| PDone.
Record watch := mkwatch {
  w_input : nat;
  w_once : bool;          (* TCP and HTTP watches end after the first response without error *)
  w_reg : bool;           (* its channel is in observerChansByInput[input] *)
  w_tok : bool;           (* resultUpdated holds an element *)
  w_phase : phase;
  w_ctx : bool;           (* the watch's context is done *)
  w_out : option resp;    (* content of ch *)
  w_got : option resp }.  (* the value the consumer received last *)
Inductive engine :=
| EIdle                                       (* r.mu free *)
| ERefresh (inputs : list nat) (sends : list nat). (* in Refresh, holding r.mu: inputs to visit, watches to notify *)
Record wstate := mkws { s_truth : nat -> option resp; s_results : nat -> option resp; s_watches : list watch; s_eng : engine; s_done : bool }.

Fixpoint wset (l : list watch) (k : nat) (w : watch) : list watch :=
  match l, k with
  | [], _ => []
  | _ :: r, O => w :: r
  | x :: r, S j => x :: wset r j w
  end.
Definition setr (f : nat -> option resp) (i : nat) (v : option resp) : nat -> option resp := fun j => if Nat.eqb j i then v else f j.
Definition with_phase (w : watch) (p : phase) := mkwatch (w_input w) (w_once w) (w_reg w) (w_tok w) p (w_ctx w) (w_out w) (w_got w).
Definition with_tok (w : watch) (t : bool) (p : phase) := mkwatch (w_input w) (w_once w) (w_reg w) t p (w_ctx w) (w_out w) (w_got w).
Definition with_out (w : watch) (o : option resp) (p : phase) := mkwatch (w_input w) (w_once w) (w_reg w) (w_tok w) p (w_ctx w) o (w_got w).
(* api_tcp_client.go:143-147: return after a response without error *)
Definition after_send (w : watch) (v : resp) : phase := if (w_once w && negb (r_err v))%bool then PCancel else PSelect.
(* the watches notified for an input, in registration order (api_result.go:127) *)
Fixpoint observers (i : nat) (k : nat) (ws : list watch) : list nat :=
  match ws with
  | [] => []
  | w :: r => if (w_reg w && Nat.eqb (w_input w) i)%bool then k :: observers i (S k) r else observers i (S k) r
  end.

(* steps of one watch goroutine, given whether r.mu is free and the stored results *)
Inductive wstep (free : bool) (results : nat -> option resp) : watch -> watch -> Prop :=
| W_token : forall w, w_phase w = PSelect -> w_tok w = true -> wstep free results w (with_tok w false PGot)
| W_ctx : forall w, w_phase w = PSelect -> w_ctx w = true -> wstep free results w (with_phase w PCancel)
| W_get : forall w, w_phase w = PGot -> free = true ->
    wstep free results w (with_phase w (match results (w_input w) with Some v => PDrain v | None => PSelect end))
| W_drain_empty : forall w v, w_phase w = PDrain v -> w_out w = None -> wstep free results w (with_phase w (PSend v))
| W_drain_full : forall w v x, w_phase w = PDrain v -> w_out w = Some x -> wstep free results w (with_phase w (PDrainRecv v))
| W_drain_recv : forall w v x, w_phase w = PDrainRecv v -> w_out w = Some x -> wstep free results w (with_out w None (PDrain v))
| W_drain_ctx : forall w v, w_phase w = PDrainRecv v -> w_ctx w = true -> wstep free results w (with_phase w (after_send w v))
| W_send : forall w v, w_phase w = PSend v -> w_out w = None -> wstep free results w (with_out w (Some v) (after_send w v))
| W_send_ctx : forall w v, w_phase w = PSend v -> w_ctx w = true -> wstep free results w (with_phase w (after_send w v))
| W_cancel : forall w, w_phase w = PCancel -> free = true ->   (* api_result.go:80-100 *)
    wstep free results w (mkwatch (w_input w) (w_once w) false (w_tok w) PDone (w_ctx w) (w_out w) (w_got w)).

Definition is_idle (e : engine) : bool := match e with EIdle => true | ERefresh _ _ => false end.

Inductive label := LUpdate | LRegister (i : nat) (once : bool) | LEngine | LWatch (k : nat) | LConsume (k : nat) | LCancelCtx (k : nat) | LStop.
Inductive sstep : wstate -> label -> wstate -> Prop :=
(* the resource caches change, so the response of an input does *)
| S_update : forall s i v, sstep s LUpdate (mkws (setr (s_truth s) i (Some v)) (s_results s) (s_watches s) (s_eng s) (s_done s))
(* registerForUpdates, api_result.go:51-79 *)
| S_register : forall s i once, s_eng s = EIdle ->
    sstep s (LRegister i once) (mkws (s_truth s)
      (match s_truth s i with Some v => setr (s_results s) i (Some v) | None => s_results s end)
      (s_watches s ++ [mkwatch i once true (match s_truth s i with Some _ => true | None => false end) PSelect false None None])
      EIdle (s_done s))
(* Refresh, api_result.go:110-136: lock; the inputs are visited in any order *)
| S_refresh : forall s inputs, s_eng s = EIdle -> (forall i, In i inputs <-> exists w, In w (s_watches s) /\ w_input w = i) -> NoDup inputs ->
    sstep s LEngine (mkws (s_truth s) (s_results s) (s_watches s) (ERefresh inputs []) (s_done s))
| S_same : forall s i r, s_eng s = ERefresh (i :: r) [] -> s_truth s i = s_results s i ->
    sstep s LEngine (mkws (s_truth s) (s_results s) (s_watches s) (ERefresh r []) (s_done s))
| S_changed : forall s i r v, s_eng s = ERefresh (i :: r) [] -> s_truth s i = Some v -> s_results s i <> Some v ->
    sstep s LEngine (mkws (s_truth s) (setr (s_results s) i (Some v)) (s_watches s) (ERefresh r (observers i 0 (s_watches s))) (s_done s))
| S_notify : forall s r k ks w, s_eng s = ERefresh r (k :: ks) -> nth_error (s_watches s) k = Some w -> w_tok w = false ->
    sstep s LEngine (mkws (s_truth s) (s_results s) (wset (s_watches s) k (with_tok w true (w_phase w))) (ERefresh r ks) (s_done s))
| S_abort : forall s r k ks, s_eng s = ERefresh r (k :: ks) -> s_done s = true ->
    sstep s LEngine (mkws (s_truth s) (s_results s) (s_watches s) EIdle (s_done s))
| S_unlock : forall s, s_eng s = ERefresh [] [] -> sstep s LEngine (mkws (s_truth s) (s_results s) (s_watches s) EIdle (s_done s))
(* the watch goroutines *)
| S_watch : forall s k w w', nth_error (s_watches s) k = Some w -> wstep (is_idle (s_eng s)) (s_results s) w w' ->
    sstep s (LWatch k) (mkws (s_truth s) (s_results s) (wset (s_watches s) k w') (s_eng s) (s_done s))
(* the consumer receives from ch *)
| S_consume : forall s k w v, nth_error (s_watches s) k = Some w -> w_out w = Some v ->
    sstep s (LConsume k) (mkws (s_truth s) (s_results s)
      (wset (s_watches s) k (mkwatch (w_input w) (w_once w) (w_reg w) (w_tok w) (w_phase w) (w_ctx w) None (Some v))) (s_eng s) (s_done s))
(* the contexts of a watch and of the client end *)
| S_ctx : forall s k w, nth_error (s_watches s) k = Some w ->
    sstep s (LCancelCtx k) (mkws (s_truth s) (s_results s)
      (wset (s_watches s) k (mkwatch (w_input w) (w_once w) (w_reg w) (w_tok w) (w_phase w) true (w_out w) (w_got w))) (s_eng s) (s_done s))
| S_stop : forall s, sstep s LStop (mkws (s_truth s) (s_results s) (s_watches s) (s_eng s) true).

Inductive ssteps : wstate -> list label -> wstate -> Prop :=
| SS_nil : forall s, ssteps s [] s
| SS_cons : forall s l s1 ls s2, sstep s l s1 -> ssteps s1 ls s2 -> ssteps s (l :: ls) s2.
Definition winit : wstate := mkws (fun _ => None) (fun _ => None) [] EIdle false.
