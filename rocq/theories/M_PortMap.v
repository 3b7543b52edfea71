(* Model: how the ports that tunnel clients expose get into the config map of a Bifrost server.
   Files: /repo/pkg/network/tunnel/server/port.go 70-145 (Listen), /repo/components/bifrost/pkg/commands/server.go 106-131,
   /repo/components/bifrost/pkg/controllers/configmap.go 59-77, 92-168.

   The event bus (werbenhu/eventbus, not in /repo) has a queue and a goroutine for each topic: events of one topic are handled in the
   order in which they are published, events of two topics in any order.  The config map is the function from ports to entries that
   was written last; that configmap.go groups it by session (122-133) and writes YAML is left out, as are the pod lookup and the
   owner.  TriggerReconcile (92-101) hands over an event that is kept until a reconciliation succeeds (controller-runtime); one that
   fails (113-119, 156-160) is tried again.  Only the address of a port can be bound once at a time (net.Listen). *)
From Coq Require Import List String Bool Arith.
From Verif Require Import M_GoStr M_Identity M_Run.
Import ListNotations.
Open Scope list_scope.

(* port.go 77-87: what a listen event tells: PortData and SessionID *)
Record opened := mko { o_name : gstr; o_address : gstr; o_target : nat; o_user : lmap; o_meta : lmap; o_session : gstr }.
(* configmap.go 65-77; a missing map entry is "" *)
Record pconf := mkpc { pc_name : gstr; pc_address : gstr; pc_port : nat; pc_target : nat; pc_svc_name : gstr; pc_svc_ns : gstr; pc_session : gstr }.
Definition val (m : lmap) (k : gstr) : gstr := match m k with Some v => v | None => [] end.
(* server.go 112-123 *)
Definition conf_of (p : nat) (o : opened) : pconf :=
  mkpc (o_name o) (o_address o) p (o_target o) (val (o_meta o) service_label) (val (o_user o) (lit "namespace")) (o_session o).

(* ports that are listening; the queues of the topics port.listen and port.release; the ports map; the config map; whether a
   reconciliation is due *)
Record st := mkst { live : nat -> option opened; opens : list (nat * opened); releases : list nat; table : nat -> option pconf; cm : nat -> option pconf; due : bool }.
Definition start : st := mkst (fun _ => None) [] [] (fun _ => None) (fun _ => None) false.
Inductive event :=
| Open (p : nat) (o : opened)   (* port.go 74-90 *)
| Close (p : nat)               (* 93-110, then the deferred l.Close *)
| Broken (p : nat)              (* 117-120: SetDeadline fails; l.Close *)
| HandleOpen                    (* server.go 111-125 *)
| HandleRelease                 (* 127-130 *)
| Reconcile (ok : bool).
Definition step (s : st) (e : event) : st :=
  match e with
  | Open p o => match live s p with
                | None => mkst (upd (live s) p (Some o)) (opens s ++ [(p, o)]) (releases s) (table s) (cm s) (due s)
                | Some _ => s end
  | Close p => match live s p with
               | Some _ => mkst (upd (live s) p None) (opens s) (releases s ++ [p]) (table s) (cm s) (due s)
               | None => s end
  | Broken p => mkst (upd (live s) p None) (opens s) (releases s) (table s) (cm s) (due s)
  | HandleOpen => match opens s with
                  | (p, o) :: r => mkst (live s) r (releases s) (upd (table s) p (Some (conf_of p o))) (cm s) true
                  | [] => s end
  | HandleRelease => match releases s with
                     | p :: r => mkst (live s) (opens s) r (upd (table s) p None) (cm s) true
                     | [] => s end
  | Reconcile ok => if due s && ok then mkst (live s) (opens s) (releases s) (table s) (table s) false else s
  end.
Definition run (s : st) (h : list event) : st := fold_left step h s.
