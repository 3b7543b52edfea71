(* pkg/proxywasm/metrics.go, the prometheus metric handler, and pkg/proxywasm/host.go:304-345. Metric names (after
   ParseEnvoyStatTag and the replacement of dots, metrics.go:77-79) and label names and values are numbers; a label set is a
   list of pairs in a fixed order of the keys, so that reflect.DeepEqual is equality. Float rounding is not modelled. *)
From Coq Require Import List Arith ZArith Bool.
Import ListNotations.
Open Scope list_scope.
Definition labels := list (nat * nat).
Definition labels_eq_dec : forall a b : labels, {a = b} + {a <> b}.
Proof. repeat decide equality. Defined.
Inductive kind := Counter | Gauge | Histogram.
(* a *prometheus.XxxVec: registered once under its name, created with the label names of the first definition *)
Record vec := mkvec { vc_kind : kind; vc_name : nat; vc_labelnames : list nat }.
(* metrics.go:52-57 *)
Record metric := mkm { m_id : Z; m_name : nat; m_vec : vec; m_labels : labels }.
(* metrics.go:41-50, with the registry (names taken) and the values of the collectors' children; histogram children are
   represented by the sum of their observations, as exported in _sum *)
Record handler := mkh { h_byid : Z -> option metric; h_byname : nat -> option metric; h_latest : Z; h_registry : list nat; h_vals : nat -> labels -> Z }.
Definition i32 (z : Z) : Z := ((z + 2 ^ 31) mod 2 ^ 32 - 2 ^ 31)%Z.
(* metrics.go:167-182 addMetric *)
Definition add_metric (n : nat) (v : vec) (l : labels) (h : handler) : Z * handler :=
  let id := i32 (h_latest h + 1) in let m := mkm id n v l in
  (id, mkh (fun i => if (i =? id)%Z then Some m else h_byid h i) (fun k => if (k =? n)%nat then Some m else h_byname h k) id (h_registry h) (h_vals h)).
(* metrics.go:163-205 Add; valid says whether the registry accepts the name. A registry refuses a second collector of the
   same name. *)
Definition add (valid : nat -> bool) (n : nat) (v : vec) (l : labels) (h : handler) : Z * handler :=
  match h_byname h n with
  | Some e => if labels_eq_dec (m_labels e) l then (m_id e, h) else add_metric (m_name e) (m_vec e) l h
  | None => if valid n && negb (existsb (Nat.eqb n) (h_registry h)) then add_metric n v l (mkh (h_byid h) (h_byname h) (h_latest h) (n :: h_registry h) (h_vals h)) else ((-1)%Z, h)
  end.
(* metrics.go:76-108 DefineMetric; an unknown type leaves the return value 0 *)
Definition define (valid : nat -> bool) (ty : Z) (n : nat) (l : labels) (h : handler) : Z * handler :=
  match ty with
  | 0%Z => add valid n (mkvec Counter n (map fst l)) l h
  | 1%Z => add valid n (mkvec Gauge n (map fst l)) l h
  | 2%Z => add valid n (mkvec Histogram n (map fst l)) l h
  | _ => (0%Z, h)
  end.
Inductive mres := MOk | MErr | MPanic.
Definition bump (n : nat) (l : labels) (v : Z) (h : handler) : handler :=
  mkh (h_byid h) (h_byname h) (h_latest h) (h_registry h) (fun n' l' => if (n' =? n)%nat then if labels_eq_dec l' l then (h_vals h n' l' + v)%Z else h_vals h n' l' else h_vals h n' l').
(* metrics.go:110-161 RecordMetric and IncrementMetric are the same: With panics when the label names are not those of the
   collector, and a counter panics when a negative number is added *)
Definition add_value (id v : Z) (h : handler) : mres * handler :=
  match h_byid h id with
  | None => (MErr, h)
  | Some m =>
      if list_eq_dec Nat.eq_dec (map fst (m_labels m)) (vc_labelnames (m_vec m)) then
        match vc_kind (m_vec m) with
        | Counter => if (v <? 0)%Z then (MPanic, h) else (MOk, bump (vc_name (m_vec m)) (m_labels m) v h)
        | Gauge | Histogram => (MOk, bump (vc_name (m_vec m)) (m_labels m) v h)
        end
      else (MPanic, h)
  end.
Definition record_metric (id v : Z) (h : handler) := add_value id v h.
Definition increment_metric (id v : Z) (h : handler) := add_value id v h.
(* metrics.go:207-216 Remove *)
Definition remove_metric (id : Z) (h : handler) : handler :=
  match h_byid h id with
  | None => h
  | Some m => mkh (fun i => if (i =? id)%Z then None else h_byid h i) (fun k => if (k =? m_name m)%nat then None else h_byname h k) (h_latest h) (h_registry h) (h_vals h)
  end.
(* metrics.go:59-67; names the registry already had from elsewhere *)
Definition new_handler (taken : list nat) : handler := mkh (fun _ => None) (fun _ => None) 0 taken (fun _ _ => 0%Z).
(* host.go:304-315: a negative id is reported as an internal failure, anything else as success *)
Definition host_define (id : Z) : option Z := if (id <? 0)%Z then None else Some id.
Inductive mop := ODefine (ty : Z) (n : nat) (l : labels) | ORecord (id v : Z) | OIncrement (id v : Z) | ORemove (id : Z).
Inductive mev := EDefine (ty : Z) (n : nat) (l : labels) (id : Z) | EAdd (id v : Z) (r : mres) | ERemove (id : Z).
Definition mstep (valid : nat -> bool) (o : mop) (h : handler) : mev * handler :=
  match o with
  | ODefine ty n l => let '(id, h') := define valid ty n l h in (EDefine ty n l id, h')
  | ORecord id v => let '(r, h') := record_metric id v h in (EAdd id v r, h')
  | OIncrement id v => let '(r, h') := increment_metric id v h in (EAdd id v r, h')
  | ORemove id => (ERemove id, remove_metric id h)
  end.
Fixpoint mrun (valid : nat -> bool) (ops : list mop) (h : handler) : list mev * handler :=
  match ops with [] => ([], h) | o :: r => let '(e, h1) := mstep valid o h in let '(es, h2) := mrun valid r h1 in (e :: es, h2) end.
