(* Model: Bifrost's EndpointsReconciler, /repo/components/bifrost/pkg/controllers/endpoints.go.

   Simplified: the key of a service (a string, :233-237, parsed at :81) is the pair of its name and namespace (C53: the same for names
   without a dot); net.ResolveTCPAddr gives an IP in text form or fails; the config map's IP is its canonical text, as net.ParseIP and
   String give it; maps that are ranged over are lists, in the order of the iteration; owner references and logging are left out. *)
From Coq Require Import List String Bool ZArith.
Import ListNotations.
Open Scope string_scope.

Definition okey := (string * string)%type. (* namespace, name *)
Definition keqb (a b : okey) : bool := String.eqb (fst a) (fst b) && String.eqb (snd a) (snd b).
(* configmap.go:65-77; pc_ok: the address can be resolved (:241, :187); pc_ip: the IP it resolves to *)
Record pc := mkpc { pc_name : string; pc_ok : bool; pc_ip : string; pc_port : Z; pc_target : Z; pc_svc : okey }.
(* a service port; its target port is a number or a name *)
Record svcport := mksp { sp_name : string; sp_target : Z + string }.
(* intstr.IntOrString: StrVal, IntValue() (atoi: strconv.Atoi without the error, so 0 for a name) *)
Definition str_val (t : Z + string) : string := match t with inl _ => "" | inr s => s end.
Definition int_value (atoi : string -> Z) (t : Z + string) : Z := match t with inl n => n | inr s => atoi s end.
(* :165-179 isSvcPortExists: the name of the endpoint port *)
Definition svc_port (atoi : string -> Z) (svcPorts : list svcport) (p : pc) : option string :=
  if String.eqb (pc_name p) "http-metrics" then Some (pc_name p)
  else match find (fun sp => String.eqb (str_val (sp_target sp)) (pc_name p) || Z.eqb (int_value atoi (sp_target sp)) (pc_target p)) svcPorts with
       | Some sp => Some (sp_name sp)
       | None => None
       end.
Record subset := mkss { ss_addrs : list string; ss_ports : list (string * Z) }.
(* :181-209 *)
Definition add_port (atoi : string -> Z) (svcPorts : list svcport) (s : subset) (p : pc) : subset :=
  match svc_port atoi svcPorts p with
  | None => s
  | Some n =>
      if pc_ok p then
        mkss (if existsb (String.eqb (pc_ip p)) (ss_addrs s) then ss_addrs s else (ss_addrs s ++ [pc_ip p])%list) (ss_ports s ++ [(n, pc_port p)])%list
      else s
  end.
(* :159-212 getSubset *)
Definition get_subset (atoi : string -> Z) (ports : list pc) (svcPorts : list svcport) : subset := fold_left (add_port atoi svcPorts) ports (mkss [] []).

(* a config map: the IP of its pod, its sessions (None: not YAML) *)
Record cmap := mkcm { cm_ip : string; cm_sessions : option (list (string * list pc)) }.
Definition byses := list (string * list pc).
Definition bysvc := list (okey * byses).
Fixpoint ses_add (sid : string) (ps : list pc) (m : byses) : byses :=
  match m with [] => [(sid, ps)] | (s, q) :: r => if String.eqb s sid then (s, (q ++ ps)%list) :: r else (s, q) :: ses_add sid ps r end.
Fixpoint svc_add (k : okey) (sid : string) (ps : list pc) (m : bysvc) : bysvc :=
  match m with [] => [(k, ses_add sid ps [])] | (k', q) :: r => if keqb k' k then (k', ses_add sid ps q) :: r else (k', q) :: svc_add k sid ps r end.
(* :228-253 one port; the address is that of the config map's pod *)
Definition add_pc (ip sid : string) (m : bysvc) (p : pc) : bysvc :=
  if (String.eqb (fst (pc_svc p)) "" || String.eqb (snd (pc_svc p)) "") then m
  else svc_add (pc_svc p) sid (if pc_ok p then [mkpc (pc_name p) true ip (pc_port p) (pc_target p) (pc_svc p)] else []) m.
(* :214-258 collectPortsBySessionAndService *)
Fixpoint collect (cms : list cmap) (m : bysvc) : option bysvc :=
  match cms with
  | [] => Some m
  | c :: r =>
      match cm_sessions c with
      | None => None
      | Some ss => collect r (fold_left (fun m s => fold_left (add_pc (cm_ip c) (fst s)) (snd s) m) ss m)
      end
  end.

(* the API server's objects *)
Record epobj := mkep { ep_key : okey; ep_managed : bool; ep_subsets : list subset }.
Record cluster := mkcl { cl_services : list (okey * list svcport); cl_eps : list epobj }.
(* which calls succeed: Get of a service, ReconcileResource, Delete *)
Record api := mkapi { api_get : okey -> bool; api_put : okey -> bool; api_del : okey -> bool }.
Fixpoint get_service (k : okey) (l : list (okey * list svcport)) : option (list svcport) :=
  match l with [] => None | (k', p) :: r => if keqb k' k then Some p else get_service k r end.
(* ReconcileResource with StatePresent: create, or make the existing object like this one *)
Fixpoint put_ep (k : okey) (ss : list subset) (l : list epobj) : list epobj :=
  match l with [] => [mkep k true ss] | e :: r => if keqb (ep_key e) k then mkep k true ss :: r else e :: put_ep k ss r end.
(* :107 and :117 *)
Definition ep_id (k : okey) : string := fst k ++ "." ++ snd k.
(* :79-108 one service *)
Definition one_service (atoi : string -> Z) (A : api) (svcs : list (okey * list svcport)) (st : list epobj * list string * bool) (s : okey * byses) : list epobj * list string * bool :=
  let '(eps, managed, err) := st in
  match (if api_get A (fst s) then get_service (fst s) svcs else None) with
  | None => st
  | Some sp =>
      if api_put A (fst s) then (put_ep (fst s) (map (fun x => get_subset atoi (snd x) sp) (snd s)) eps, ep_id (fst s) :: managed, err)
      else (eps, managed, true)
  end.
(* :67-126 Reconcile; None: it returned before it changed anything *)
Definition reconcile (atoi : string -> Z) (A : api) (cms : list cmap) (c : cluster) : option (cluster * bool) :=
  match collect cms [] with
  | None => None
  | Some m =>
      let '(eps, managed, err) := fold_left (one_service atoi A (cl_services c)) m (cl_eps c, [], false) in
      Some (mkcl (cl_services c) (filter (fun e => negb (ep_managed e) || existsb (String.eqb (ep_id (ep_key e))) managed || negb (api_del A (ep_key e))) eps), err)
  end.
