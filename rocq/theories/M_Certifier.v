(* Model: the certifier of Heimdall's webhook configuration: /repo/components/heimdall/pkg/cert/webhook_certifier.go, in the loop of the renewer
   (renewer.go 72-137; the decision whether to renew is M_Ca, C54).

   Simplified: the API server keeps the configurations of one name: of the kind that was loaded.  It answers every Get and Update, or fails it,
   arbitrarily; the patch library (k8s-objectmatcher) is a test whether a patch is empty, for the current and the wanted configuration; the cache of
   the manager's client is up to date.  An Update is refused if the configuration does not exist. *)
From Coq Require Import String List Ascii Bool Arith.
From Verif Require Import M_GoStr.
Import ListNotations.
Open Scope list_scope.

Inductive policy := Ignore | Fail.
(* a webhook: its service (none: it has a URL), its name and namespace; its failure policy and CA bundle; whatever else it says *)
Record webhook := mkwh { w_service : option (gstr * gstr); w_policy : option policy; w_ca : option nat; w_rest : nat }.
(* a configuration: its webhooks, and whatever else it says (its labels, annotations, ...) *)
Record config := mkcf { c_hooks : list webhook; c_rest : nat }.
Inductive kind := Mutating | Validating.

(* webhook_certifier.go:170-215 loadWebhookConfiguration: what the two Gets answer *)
Definition load (mutating validating : option config) : option (kind * config) :=
  match mutating with Some c => Some (Mutating, c) | None => match validating with Some c => Some (Validating, c) | None => None end end.
(* webhook_certifier.go:134-167 dnsNames; None: the panic at a nil Service *)
Fixpoint dns_names (l : list webhook) : option (list gstr) :=
  match l with
  | [] => Some []
  | w :: r => match w_service w with None => None | Some (n, ns) => match dns_names r with None => None | Some k => Some ((n ++ lit "." ++ ns ++ lit ".svc") :: k) end end
  end.
(* webhook_certifier.go:97-112: the configuration in memory gets the policy and the bundle *)
Definition with_ca (ca : nat) (c : config) : config := mkcf (map (fun w => mkwh (w_service w) (Some Fail) (Some ca) (w_rest w)) (c_hooks c)) (c_rest c).

Inductive phase := Running | Ended | Crashed.
(* the configuration of the server; that in memory; the update events that have not been handled *)
Record st := mkst { cluster : option config; mem : config; events : nat; ph : phase }.
(* a check: the CA of the certificate that checkCertificate hands over (None: no certificate), whether it was renewed, whether Get and Update work *)
Record check := mkck { k_ca : option nat; k_renewed : bool; k_get : bool; k_update : bool }.

Section Differs.
Variable differs : option config -> config -> bool.   (* the patch from the current one, or from an empty one, is not empty *)
(* webhook_certifier.go:293-392 updateCertificate *)
Definition update (k : check) (s : st) : st :=
  if negb (k_get k) then s
  else if negb (differs (cluster s) (mem s)) then s
  else match cluster s with
    | None => s
    | Some _ => if k_update k then mkst (Some (mem s)) (mem s) (S (events s)) (ph s) else s
    end.
(* renewer.go:120-134 with the after-check function 95-123 *)
Definition run_check (triggered : bool) (k : check) (s : st) : st :=
  match k_ca k with
  | None => match c_hooks (mem s) with
      | [] => if k_renewed k || triggered then update k s else s
      | _ :: _ => mkst (cluster s) (mem s) (events s) Crashed      (* c.CACertificate of a nil certificate *)
      end
  | Some ca => let s1 := mkst (cluster s) (with_ca ca (mem s)) (events s) (ph s) in if k_renewed k || triggered then update k s1 else s1
  end.

Inductive ev :=
| Write (c : config)              (* someone else updates the configuration, if there is one *)
| Delete | Create (c : config)
| Resync                          (* the informer reports the object again *)
| First (k : check)               (* renewer.go:77-80 *)
| Tick (k : check)                (* renewer.go:89-90 *)
| Deliver (got : bool) (k : check) (* the informer's function handles an event (244-272): its Get works or not; if so it triggers a check (87-88) *)
| Stop.                           (* the context is done; Start returns and closes triggers *)
Definition step (e : ev) (s : st) : st :=
  match ph s with
  | Crashed => s
  | p =>
      match e with
      | Write c => match cluster s with Some _ => mkst (Some c) (mem s) (S (events s)) p | None => s end
      | Delete => mkst None (mem s) (events s) p
      | Create c => match cluster s with None => mkst (Some c) (mem s) (events s) p | Some _ => s end
      | Resync => match cluster s with Some _ => mkst (cluster s) (mem s) (S (events s)) p | None => s end
      | First k => match p with Running => run_check true k s | _ => s end
      | Tick k => match p with Running => run_check false k s | _ => s end
      | Deliver got k =>
          match events s with
          | O => s
          | S n =>
              let s1 := mkst (cluster s) (mem s) n p in
              match got, cluster s with
              | true, Some _ => match p with Running => run_check true k s1 | _ => mkst (cluster s) (mem s) n Crashed end   (* a send on a closed channel *)
              | _, _ => s1
              end
          end
      | Stop => match p with Running => mkst (cluster s) (mem s) (events s) Ended | _ => s end
      end
  end.
Definition run (s : st) (l : list ev) : st := fold_left (fun x e => step e x) l s.
End Differs.
(* 85-94: what Start has before the first check *)
Definition started (c : config) : st := mkst (Some c) c 0 Running.
