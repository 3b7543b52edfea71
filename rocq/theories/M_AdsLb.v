(* Model: endpoint statistics, load distribution, load balancers and weighted cluster selection.
   Paths are relative to /repo/pkg/ads/ unless said otherwise.

   float64 arithmetic is a parameter [arith]; [go_float] is IEEE-754 binary64 (Coq's SpecFloat, without fused
   operations), [exact] is the same program over the rationals.  uint32 counters wrap modulo 2^32.  The mutexes of the
   statistics make each of their operations atomic.  net.TCPAddr.String of an endpoint's socket address is the
   endpoint's address text (None: not a socket address). *)
From Coq Require Import List String Bool NArith ZArith QArith Qround SpecFloat.
From Verif Require Import M_GoMap.
Import ListNotations.
Close Scope Q_scope.
Open Scope N_scope.
Open Scope string_scope.

Record arith := mkarith {
  F : Type;
  f_of : N -> F;                       (* float64(n) of a uint32 *)
  fmul : F -> F -> F; fdiv : F -> F -> F; fadd : F -> F -> F; fsub : F -> F -> F;
  fltb : F -> F -> bool; fleb : F -> F -> bool; feqb : F -> F -> bool;
  fmax : F;                            (* math.MaxFloat64 *)
  fround_even : F -> F;                (* math.RoundToEven *)
  fround : F -> F;                     (* math.Round: half away from zero *)
  fpow : F -> F -> F }.                (* math.Pow *)

Definition u32 (n : N) : N := (n mod 4294967296)%N.

(* internal/endpoint/stats.go:22-31 Stats *)
Record stats := mkstats { st_rr : N; st_active : N }.
Definition estats := gmap stats.
(* stats.go:33-48, 66-77: 0 for an address without entry *)
Definition rr_count (s : estats) (a : string) : N := match mget a s with Some x => st_rr x | None => 0%N end.
Definition active_count (s : estats) (a : string) : N := match mget a s with Some x => st_active x | None => 0%N end.
Definition on_entry (s : estats) (a : string) (f : stats -> stats) : estats := match mget a s with Some x => mset a (f x) s | None => s end.
(* stats.go:56-63, 112-119 *)
Definition inc_rr (s : estats) (a : string) := on_entry s a (fun x => mkstats (u32 (st_rr x + 1)) (st_active x)).
Definition reset_rr (s : estats) (a : string) := on_entry s a (fun x => mkstats 0 (st_active x)).
(* stats.go:87-104: uint32 ++ and --; client.go:88-98 *)
Definition inc_active (s : estats) (a : string) := on_entry s a (fun x => mkstats (st_rr x) (u32 (st_active x + 1))).
Definition dec_active (s : estats) (a : string) := on_entry s a (fun x => mkstats (st_rr x) (u32 (st_active x + 4294967295))).
(* clusterloadassignments.go:88-125 onEndpointsUpdated for the socket addresses [addrs] of all cluster load
   assignments; internal/util/util.go:62-78 Keep *)
Definition endpoints_updated (addrs : list string) (s : estats) : estats :=
  filter (fun e => mem (fst e) addrs) (fold_left (fun s a => match mget a s with Some _ => s | None => mset a (mkstats 0 0) s end) addrs s).

(* /repo/pkg/istio/discovery/connection_wrappers.go:50-105.  A connection is closed through a close wrapper which runs
   the decrement at most once (sync.Once).  istio/tcp/dialer.go:71-91 creates one wrapper per dialer, http/transport.go
   one per request; connections are numbered by their wrapper.  [fired]: wrappers that already ran. *)
Record tracker := mktracker { tr_stats : estats; tr_fired : list nat }.
Inductive tev :=
| TDialed (a : string)               (* AfterDial(addr) *)
| TClosed (wrapper : nat) (a : string) (* BeforeClose of a connection whose original address is a *)
| TEndpoints (addrs : list string).
Definition tstep (t : tracker) (e : tev) : tracker :=
  match e with
  | TDialed a => mktracker (inc_active (tr_stats t) a) (tr_fired t)
  | TClosed w a =>
      if existsb (Nat.eqb w) (tr_fired t) then t else mktracker (dec_active (tr_stats t) a) (w :: tr_fired t)
  | TEndpoints addrs => mktracker (endpoints_updated addrs (tr_stats t)) (tr_fired t)
  end.
Definition trun (t : tracker) (es : list tev) : tracker := fold_left tstep es t.

(* envoy LbEndpoint: address text, health status (0 UNKNOWN 1 HEALTHY 2 UNHEALTHY 3 DRAINING 4 TIMEOUT 5 DEGRADED) and
   load balancing weight; LocalityLbEndpoints: locality text, priority, weight *)
Record lbep := mklbep { e_addr : option string; e_health : N; e_weight : option N }.
Record locality := mklocality { lo_name : string; lo_prio : N; lo_weight : option N; lo_eps : list lbep }.
(* internal/endpoint/endpoint.go:164-177 *)
Definition is_healthy (e : lbep) : bool := (N.eqb (e_health e) 0 || N.eqb (e_health e) 1 || N.eqb (e_health e) 5)%bool.
(* endpoint.go:364-372, 428-436 *)
Definition weight_of (w : option N) : N := match w with Some w => w | None => 1%N end.
(* endpoint.go:114-162 Filter with HasSocketAddress and WithHealthyStatus: addresses in order *)
Definition eligible_addrs (ls : list locality) : list string :=
  flat_map (fun l => flat_map (fun e => match e_addr e with Some a => if is_healthy e then [a] else [] | None => [] end) (lo_eps l)) ls.

Section Lb.
Variable A : arith.
Notation "x * y" := (fmul A x y). Notation "x / y" := (fdiv A x y).

(* one endpoint in the loop of internal/loadbalancer/lb_wrr.go:61-99.  State: minLoad and the selected (address, load) *)
Definition wrr_visit (loads : gmap (F A)) (st : estats) (total : N) (acc : F A * option (string * F A)) (a : string) : F A * option (string * F A) :=
  match mget a loads with
  | None => acc
  | Some load =>
      let max_select := load * f_of A total in
      let count := f_of A (rr_count st a) in
      if fleb A max_select count then acc
      else
        let rel := count / max_select in
        let (min_load, sel) := acc in
        if fltb A rel min_load then (rel, Some (a, load))
        else if feqb A min_load rel then
          match sel with
          | Some (_, l0) => if fltb A l0 load then (min_load, Some (a, load)) else acc
          | None => if fltb A (f_of A 0) load then (min_load, Some (a, load))
                    else if feqb A load (f_of A 0) then (min_load, Some (a, f_of A 0)) else acc
          end
        else acc
  end.
(* lb_wrr.go:44-54 *)
Definition wrr_total (loads : gmap (F A)) (st : estats) : N :=
  u32 (fold_left (fun n e => u32 (n + rr_count st (fst e))) loads 0 + 1).
(* lb_wrr.go:42-104 *)
Definition wrr_next (endpoints : list string) (loads : gmap (F A)) (st : estats) : option string * estats :=
  match snd (fold_left (wrr_visit loads st (wrr_total loads st)) endpoints (fmax A, None)) with
  | Some (a, _) => (Some a, inc_rr st a)
  | None => (None, inc_rr st "<nil>")
  end.

(* internal/cluster/cluster.go:65-117; the map is visited in list order.  State: minLoad, selected name, its weight *)
Definition sel_visit (total_weight total : N) (st : gmap N) (acc : F A * (string * N)) (e : string * N) : F A * (string * N) :=
  let (name, w) := e in
  let count := f_of A (match mget name st with Some c => c | None => 0%N end) in
  let max_load := f_of A w / f_of A total_weight * f_of A total in
  if fleb A max_load count then acc
  else
    let load := count / max_load in
    let '(min_load, (sel, sw)) := acc in
    if fltb A load min_load then (load, (name, w))
    else if feqb A min_load load then
      if (N.ltb sw w || N.eqb w sw && String.eqb sel "")%bool then (min_load, (name, w)) else acc
    else acc.
Definition select_cluster (ws : gmap N) (st : gmap N) : string * gmap N :=
  match ws with
  | [] => ("", st)
  | _ =>
      let tw := fold_left (fun n e => u32 (n + snd e)) ws 0%N in
      let total := u32 (fold_left (fun n e => u32 (n + match mget (fst e) st with Some c => c | None => 0 end)) ws 0 + 1)%N in
      let sel := fst (snd (fold_left (sel_visit tw total st) ws (fmax A, ("", 0%N)))) in
      (sel, match mget sel st with Some c => mset sel (u32 (c + 1)) st | None => st end)
  end.

(* endpoint.go:181-203; the loops do not see nil endpoints in decoded messages *)
Definition health_score (eps : list lbep) : F A :=
  match eps with
  | [] => f_of A 0
  | _ => f_of A (N.of_nat (List.length (filter is_healthy eps))) / f_of A (N.of_nat (List.length eps))
  end.
Definition fmin1 (x : F A) : F A := if fltb A (f_of A 1) x then f_of A 1 else x.
Definition round4 (x : F A) : F A := fround A (x * f_of A 10000) / f_of A 10000.
(* distinct priorities in increasing order (endpoint.go:216-246) *)
Fixpoint ninsert (x : N) (l : list N) : list N :=
  match l with [] => [x] | y :: r => if N.eqb x y then l else if N.ltb x y then x :: l else y :: ninsert x r end.
Definition priorities (ls : list locality) : list N := fold_right ninsert [] (map lo_prio ls).
(* endpoint.go:205-263.  The sum over priority levels is taken in increasing order; the code takes it in map order *)
Definition priority_loads (ls : list locality) (over : F A) : list (N * F A) :=
  let score p := fmin1 (over * health_score (flat_map (fun l => if N.eqb (lo_prio l) p then lo_eps l else []) ls)) in
  let ps := priorities ls in
  let total := fmin1 (fold_left (fun s p => fadd A s (score p)) ps (f_of A 0)) in
  fst (fold_left (fun acc p =>
         let rest := fsub A (f_of A 1) (snd acc) in
         let l0 := score p / total in
         let l := round4 (if fltb A rest l0 then rest else l0) in
         ((fst acc ++ [(p, l)])%list, fadd A (snd acc) l)) ps ([], f_of A 0)).
Fixpoint nget (p : N) (m : list (N * F A)) : F A :=
  match m with [] => f_of A 0 | (q, x) :: r => if N.eqb p q then x else nget p r end.
Definition getF (k : string) (m : gmap (F A)) : F A := match mget k m with Some x => x | None => f_of A 0 end.
(* endpoint.go:265-306 *)
Definition locality_loads (ls : list locality) (over : F A) : gmap (F A) :=
  let pl := priority_loads ls over in
  let acc := fold_left (fun acc l =>
    let avail := fmin1 (over * health_score (flat_map (fun l' => if String.eqb (lo_name l') (lo_name l) then lo_eps l' else []) ls)) in
    let w := f_of A (weight_of (lo_weight l)) * avail * nget (lo_prio l) pl in
    (mset (lo_name l) w (fst acc), fadd A (snd acc) w)) ls ([], f_of A 0) in
  fold_left (fun m l => mset (lo_name l) (round4 (getF (lo_name l) (fst acc) / snd acc)) m) ls [].
(* endpoint.go:308-362; [bias] < 0 means no adjustment *)
Definition ep_weight (st : estats) (bias : option (F A)) (e : lbep) (a : string) : F A :=
  let w := if is_healthy e then f_of A (weight_of (e_weight e)) else f_of A 0 in
  match bias with Some b => w / fpow A (f_of A (u32 (active_count st a + 1))) b | None => w end.
Definition load_distribution (ls : list locality) (st : estats) (over : F A) (bias : option (F A)) : gmap (F A) :=
  let totals := fold_left (fun m l => fold_left (fun m e =>
      match e_addr e with
      | Some a => if is_healthy e then mset (lo_name l) (fadd A (getF (lo_name l) m) (ep_weight st bias e a)) m else m
      | None => m
      end) (lo_eps l) m) ls [] in
  let lls := locality_loads ls over in
  fold_left (fun m l => fold_left (fun m e =>
      match e_addr e with
      | Some a => mset a (fround_even A (ep_weight st bias e a / getF (lo_name l) totals * getF (lo_name l) lls * f_of A 100) / f_of A 100) m
      | None => m
      end) (lo_eps l) m) ls [].
End Lb.

(* internal/loadbalancer/lb_random.go:35-47; [draw] is the value of rand.Intn, below its argument *)
Definition random_next (draw : nat) (endpoints : list string) : option string :=
  match endpoints with
  | [] => None
  | [a] => Some a
  | _ => nth_error endpoints (Nat.modulo draw (List.length endpoints))
  end.

(* sort.SliceStable by address *)
Fixpoint ins_addr (x : string) (l : list string) : list string :=
  match l with [] => [x] | y :: r => if String.ltb y x then y :: ins_addr x r else x :: l end.
Definition sort_addrs (l : list string) : list string := fold_right ins_addr [] l.
Fixpoint lupd {X} (l : list X) (i : nat) (x : X) : list X :=
  match l, i with
  | [], _ => []
  | _ :: r, O => x :: r
  | y :: r, S j => y :: lupd r j x
  end.
Definition lswap (l : list string) (i j : nat) : list string :=
  match nth_error l i, nth_error l j with Some a, Some b => lupd (lupd l i b) j a | _, _ => l end.
(* internal/loadbalancer/lb_wlr.go:79-86: [draw i] is the i-th random value, reduced by Int31n; None: Int31n panics on a
   non-positive argument *)
Fixpoint p2c_pick (draw : nat -> nat) (l : list string) (i n : nat) : option (list string) :=
  match n with
  | O => Some l
  | S n' =>
      match (List.length l - i)%nat with
      | O => None
      | m => p2c_pick draw (lswap l (Nat.modulo (draw i) m) (List.length l - i - 1)%nat) (S i) n'
      end
  end.
Inductive outcome := Picked (a : option string) | Panics.
(* lb_wlr.go:88-112 *)
Definition p2c_best (st : estats) (l : list string) : option string :=
  fold_left (fun sel a =>
    match sel with
    | None => Some a
    | Some b => if N.ltb (active_count st a) (active_count st b) then Some a else sel
    end) l None.
(* lb_wlr.go:64-113 *)
Definition p2c_next (draw : nat -> nat) (choice : nat) (endpoints : list string) (st : estats) : outcome :=
  match endpoints with
  | [] => Picked None
  | [a] => Picked (Some a)
  | _ =>
      match p2c_pick draw (sort_addrs endpoints) 0%nat choice with
      | None => Panics
      | Some l => Picked (p2c_best st (skipn (List.length l - choice)%nat l))
      end
  end.

(* endpoint.go:374-426 *)
Definition all_eq (l : list N) : bool := match l with [] => true | x :: r => forallb (N.eqb x) r end.
Definition weights_equal (ls : list locality) : bool :=
  match ls with
  | [] | [_] => true
  | _ => forallb (fun p =>
           let g := filter (fun l => N.eqb (lo_prio l) p) ls in
           all_eq (map (fun l => weight_of (lo_weight l)) g) && all_eq (map (fun l => N.of_nat (List.length (lo_eps l))) g)
           && forallb (fun l => all_eq (map (fun e => weight_of (e_weight e)) (lo_eps l))) g)
         (priorities ls)
  end.

(* api_tcp_client.go:335-393, the choice of the endpoint address in newClientProperties; then
   endpoint.GetFilterMetadata (endpoint.go:89-104) calls endpointAddress.String() for every endpoint with a socket
   address, which panics if no address was chosen *)
Inductive policy := PRandom | PRoundRobin | PLeast (choice : nat) | POther.
Definition choose_address (A : arith) (over bias : F A) (draw : nat -> nat) (p : policy) (ls : list locality) (st : estats) : outcome * estats :=
  let eps := eligible_addrs ls in
  match p with
  | PRandom => (Picked (random_next (draw 0%nat) eps), st)
  | PRoundRobin => let (a, st') := wrr_next A eps (load_distribution A ls st over None) st in (Picked a, st')
  | PLeast choice =>
      if weights_equal ls then (p2c_next draw choice eps st, st)
      else let (a, st') := wrr_next A eps (load_distribution A ls st over (Some bias)) st in (Picked a, st')
  | POther => (Picked (hd_error eps), st)
  end.
Definition client_address (A : arith) (over bias : F A) (draw : nat -> nat) (p : policy) (ls : list locality) (st : estats) : outcome * estats :=
  match choose_address A over bias draw p ls st with
  | (Picked None, st') => (if existsb (fun l => existsb (fun e => match e_addr e with Some _ => true | None => false end) (lo_eps l)) ls then Panics else Picked None, st')
  | x => x
  end.

(* --- arithmetic instances --- *)
Definition f64 := spec_float.
Definition f64_of_Z (z : Z) : f64 := binary_normalize 53 1024 z 0 false.
(* round a finite value to an integer: [tie q] decides what to do with a remainder of exactly one half *)
Definition f64_round (tie : Z -> bool) (x : f64) : f64 :=
  match x with
  | S754_finite s m e =>
      if (0 <=? e)%Z then x
      else
        let d := Z.pow 2 (- e) in
        let q := Z.div (Zpos m) d in
        let r := (2 * Z.modulo (Zpos m) d)%Z in
        let q' := if (d <? r)%Z then (q + 1)%Z else if (r =? d)%Z then if tie q then (q + 1)%Z else q else q in
        if (q' =? 0)%Z then S754_zero s else binary_normalize 53 1024 (if s then - q' else q') 0 s
  | _ => x
  end.
Definition go_float (pow : f64 -> f64 -> f64) : arith :=
  mkarith f64 (fun n => f64_of_Z (Z.of_N n)) (SFmul 53 1024) (SFdiv 53 1024) (SFadd 53 1024) (SFsub 53 1024) SFltb SFleb SFeqb
    (S754_finite false 9007199254740991 971) (f64_round Z.odd) (f64_round (fun _ => true)) pow.

Definition Q_of (n : N) : Q := inject_Z (Z.of_N n).
Definition Qfloor_half (tie : Z -> bool) (x : Q) : Q :=
  let q := Qfloor x in
  let r := (x - inject_Z q)%Q in
  inject_Z (if Qle_bool r (1 # 2) then if Qeq_bool r (1 # 2) then if tie q then (q + 1)%Z else q else q else (q + 1)%Z).
Definition exact (pow : Q -> Q -> Q) : arith :=
  mkarith Q Q_of Qmult Qdiv Qplus Qminus (fun x y => negb (Qle_bool y x)) Qle_bool Qeq_bool
    (inject_Z (Z.pow 2 1024 - Z.pow 2 971)) (Qfloor_half Z.odd) (Qfloor_half (fun _ => true)) pow.
