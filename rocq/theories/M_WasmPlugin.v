(* pkg/proxywasm/plugin.go, plugin_manager.go, vm.go, vm_store.go, stream.go, filter.go *)
From Coq Require Import List Arith ZArith Bool.
Import ListNotations.
Open Scope list_scope.
(* ================= plugin instances (plugin.go) ================= *)
Definition u32 (z : Z) : Z := (z mod 2 ^ 32)%Z.
(* plugin.go:29-50: instances (None is a nil slot) with the capacity of the slice, instancesIndex, instanceCount,
   borrowedInstancesCount and the borrowedInstances map as a function (None: no entry). Instances are numbered. *)
Record plugin := mkpl { p_inst : list (option nat); p_cap : nat; p_index : Z; p_count : Z; p_bcount : Z; p_borrowed : nat -> option Z }.
Definition upd {A} (f : nat -> A) (i : nat) (v : A) : nat -> A := fun j => if (j =? i)%nat then v else f j.
Inductive gres := GInst (i : nat) | GFail | GPanic.
(* plugin.go:76-96 GetInstance; alive says whether instance.Acquire() succeeds; calling it on a nil slot panics *)
Fixpoint get_tries (alive : nat -> bool) (p : plugin) (tries : nat) : gres * plugin :=
  match tries with
  | O => (GFail, p)
  | S k =>
      let idx := Z.to_nat (p_index p mod Z.of_nat (length (p_inst p))) in
      let p' := mkpl (p_inst p) (p_cap p) (u32 (p_index p + 1)) (p_count p) (p_bcount p) (p_borrowed p) in
      match nth idx (p_inst p) None with
      | None => (GPanic, p')
      | Some i => if alive i then (GInst i, mkpl (p_inst p) (p_cap p) (p_index p') (p_count p) (u32 (p_bcount p + 1)) (upd (p_borrowed p) i (Some (u32 (match p_borrowed p i with Some b => b | None => 0 end + 1)))))
                  else get_tries alive p' k
      end
  end.
Definition get_instance (alive : nat -> bool) (p : plugin) : gres * plugin := get_tries alive p (length (p_inst p)).
(* plugin.go:98-111 ReleaseInstance *)
Definition release_instance (i : nat) (p : plugin) : plugin :=
  mkpl (p_inst p) (p_cap p) (u32 (p_index p - 1)) (p_count p) (u32 (p_bcount p - 1)) (match p_borrowed p i with Some b => upd (p_borrowed p) i (Some (u32 (b - 1))) | None => p_borrowed p end).
(* plugin.go:148-206 EnsureInstances after the unlocked read of the instance count (actual); news are the instances that
   could be created and started out of the desired - actual attempts. None: the slice expression panics. *)
Definition ensure_locked (actual desired : nat) (news : list nat) (p : plugin) : option plugin :=
  if (desired <? actual)%nat then
    if (p_cap p <? desired)%nat then None
    else Some (mkpl (firstn desired (p_inst p) ++ repeat None (desired - length (p_inst p))) (p_cap p) (p_index p) (Z.of_nat desired) (p_bcount p) (p_borrowed p))
  else
    let inst := p_inst p ++ map Some news in
    Some (mkpl inst (Nat.max (p_cap p) (length inst)) (p_index p) (u32 (p_count p + Z.of_nat (length news))) (p_bcount p) (p_borrowed p)).
Definition ensure (desired : nat) (news : list nat) (p : plugin) : option plugin :=
  let actual := Z.to_nat (p_count p) in if (actual =? desired)%nat then Some p else ensure_locked actual desired news p.
Definition new_plugin : plugin := mkpl [] 0 0 0 0 (fun _ => None).
(* plugin_manager.go:98-157 Add: the default instance count is stored in plugin.config, but EnsureInstances gets
   config.InstanceCount *)
Definition add_plugin (instance_count num_cpu : nat) (create : nat -> list nat) : option plugin :=
  let plugin_config_count := if (instance_count <=? 0)%nat then num_cpu else instance_count in
  let _ := plugin_config_count in
  ensure instance_count (create instance_count) new_plugin.
Inductive pop := PGet | PRelease (i : nat).
(* a history of hand-outs and releases; result: the instances handed out *)
Fixpoint prun (alive : nat -> bool) (ops : list pop) (p : plugin) : list gres * plugin :=
  match ops with
  | [] => ([], p)
  | PGet :: r => let '(g, p1) := get_instance alive p in let '(gs, p2) := prun alive r p1 in (g :: gs, p2)
  | PRelease i :: r => prun alive r (release_instance i p)
  end.
(* ================= locking of the plugin manager (plugin_manager.go) ================= *)
(* an operation as what it does with m.mu; IWork is everything else, assumed to return *)
Inductive instr := ILock | IUnlock | IWork.
(* plugin_manager.go:68-79 *)
Definition op_get : list instr := [ILock; IWork; IUnlock].
(* plugin_manager.go:98-157 *)
Definition op_add : list instr := [ILock; IWork; IUnlock].
(* plugin_manager.go:81-96 *)
Definition op_get_or_create (hit : bool) : list instr := if hit then [ILock; IWork; IUnlock] else [ILock; IWork; IUnlock] ++ op_add.
(* plugin_manager.go:52-66: Delete holds m.mu and calls Get *)
Definition op_delete (found : bool) : list instr := ILock :: op_get ++ (if found then [IWork; IUnlock] else [IUnlock]).
(* threads and the mutex (a Go mutex is not reentrant) *)
Record lstate := mkls { l_holder : option nat; l_prog : list (list instr) }.
Fixpoint lset (l : list (list instr)) (i : nat) (p : list instr) : list (list instr) := match l, i with [], _ => [] | _ :: r, O => p :: r | x :: r, S k => x :: lset r k p end.
Inductive lstep : lstate -> lstate -> Prop :=
| LS_lock : forall ps i r, nth_error ps i = Some (ILock :: r) -> lstep (mkls None ps) (mkls (Some i) (lset ps i r))
| LS_unlock : forall h ps i r, nth_error ps i = Some (IUnlock :: r) -> lstep (mkls h ps) (mkls None (lset ps i r))
| LS_work : forall h ps i r, nth_error ps i = Some (IWork :: r) -> lstep (mkls h ps) (mkls h (lset ps i r)).
Inductive lsteps : lstate -> lstate -> Prop := L_nil : forall s, lsteps s s | L_cons : forall a b c, lstep a b -> lsteps b c -> lsteps a c.
(* ================= VM reference counting (vm.go, vm_store.go) ================= *)
(* vm.go:23-31; users are numbered *)
Record vm := mkvm { v_users : list nat; v_ref : Z; v_closing : bool }.
Definition mem (u : nat) (l : list nat) : bool := existsb (Nat.eqb u) l.
(* vm.go:57-69 *)
Definition vm_acquire (u : nat) (v : vm) : vm := if v_closing v then v else if mem u (v_users v) then v else mkvm (u :: v_users v) (u32 (v_ref v + 1)) false.
(* vm.go:71-83 *)
Definition vm_release (u : nat) (v : vm) : vm := if v_closing v then v else if mem u (v_users v) then mkvm (remove Nat.eq_dec u (v_users v)) (u32 (v_ref v - 1)) false else v.
(* vm.go:41-55; the users' own Close calls find closing set and return *)
Definition vm_close (v : vm) : vm := fold_left (fun v u => mkvm (remove Nat.eq_dec u (v_users v)) (u32 (v_ref v - 1)) true) (v_users v) (mkvm (v_users v) (v_ref v) true).
Definition new_vm : vm := mkvm [] 0 false.
Inductive vop := VAcquire (u : nat) | VRelease (u : nat) | VClose.
Definition vapply (v : vm) (o : vop) : vm := match o with VAcquire u => vm_acquire u v | VRelease u => vm_release u v | VClose => vm_close v end.
(* vm_store.go:44-78 GetOrCreateVM with a known runtime: a key that is stored is returned, otherwise a new VM is stored *)
Definition vmstore := list (nat * vm).
Fixpoint vget (k : nat) (s : vmstore) : option vm := match s with [] => None | (k', v) :: r => if (k =? k')%nat then Some v else vget k r end.
Fixpoint vput (k : nat) (v : vm) (s : vmstore) : vmstore := match s with [] => [(k, v)] | (k', w) :: r => if (k =? k')%nat then (k, v) :: r else (k', w) :: vput k v r end.
Definition get_or_create (k : nat) (s : vmstore) : vmstore := match vget k s with Some _ => s | None => vput k new_vm s end.
Inductive sop := SGetOrCreate (k : nat) | SOn (k : nat) (o : vop).
Definition sapply (s : vmstore) (o : sop) : vmstore := match o with SGetOrCreate k => get_or_create k s | SOn k o => match vget k s with Some v => vput k (vapply v o) s | None => s end end.
(* plugin_manager.go:116-137: Add acquires the VM; the following steps (reading the code, loading the module, the plugin
   configuration) may fail, and Add then returns without releasing it *)
Definition add_to_vm (user : nat) (fails : bool) (v : vm) : vm * bool := (vm_acquire user v, negb fails).
(* ================= filter chains (stream.go) ================= *)
Inductive action := AContinue | APause | AError.
(* stream.go:250-302 HandleDownstreamData / HandleUpstreamData: the filters called, in order, and the result (Some done or
   None for an error); a filter is its number and its answer to (n, endOfStream) *)
Definition filter := (nat * (Z -> bool -> action))%type.
Fixpoint handle_data (fs : list filter) (n : Z) (eos : bool) : list nat * option bool :=
  match fs with
  | [] => ([], Some true)
  | (i, f) :: r => match f n eos with AError => ([i], None) | APause => ([i], Some false) | AContinue => let '(l, res) := handle_data r n eos in (i :: l, res) end
  end.
(* stream.go:131-186 HandleHTTPRequest, the body loop: chunks are the successive reads of the original body (the last one
   is the one that reports EOF); each filter sees every chunk; result: the new body and whether an error was returned.
   body_ok says whether filter i accepts chunk number k *)
Fixpoint body_filters (fs : list nat) (ok : nat -> bool) : bool := match fs with [] => true | i :: r => ok i && body_filters r ok end.
Fixpoint http_body (fs : list nat) (ok : nat -> nat -> bool) (k : nat) (chunks : list (list Z)) (body : list Z) : list Z * bool :=
  match chunks with
  | [] => (body, true)
  | c :: r => let body' := body ++ c in if body_filters fs (ok k) then http_body fs ok (S k) r body' else (body', false)
  end.
(* filter.go:33-71 NewFilterContext: getting an instance fails, creating the context fails, or it works *)
Inductive cres := CNoInstance | CCreateFails | COk.
(* stream.go:82-129 NewStream over the plugins' results: the number of instances borrowed, and of contexts in the stream
   (None: an error is returned) *)
Fixpoint new_stream (rs : list cres) : nat * option nat :=
  match rs with
  | [] => (0, Some 0)
  | CNoInstance :: _ => (0, None)
  | CCreateFails :: _ => (1, None)
  | COk :: r => let '(b, n) := new_stream r in (S b, match n with Some k => Some (S k) | None => None end)
  end.
(* stream.go:352-367 Close: each context is closed and releases its instance, even if stopping it fails; the first failure
   ends the loop. Result: instances released. *)
Fixpoint close_stream (stops : list bool) : nat := match stops with [] => 0 | true :: r => S (close_stream r) | false :: _ => 1 end.
