(* Model: how the configuration of the Istio CA client is found in a cluster, /repo/pkg/ca/istio/config.go, and the addresses of a service,
   /repo/pkg/k8s/service/endpoint.go.

   Objects are what the API server answers, in its order, with the fields that are read.  A call that fails does so for any reason.  Parsing of the mesh
   configuration, reading the token from a pod, creating a token and resolving a name are arbitrary functions. *)
From Coq Require Import String List Ascii Bool Arith.
From Verif Require Import M_GoStr.
Import ListNotations.
Open Scope list_scope.

Record object (A : Type) := mkobj { o_name : gstr; o_ns : gstr; o_labels : list (gstr * gstr); o_val : A }.
Arguments mkobj {A}. Arguments o_name {A}. Arguments o_ns {A}. Arguments o_labels {A}. Arguments o_val {A}.
(* a Go map as a list of pairs, the first of a key counts *)
Definition lookup (k : gstr) (l : list (gstr * gstr)) : option gstr := match find (fun p => geqb (fst p) k) l with Some p => Some (snd p) | None => None end.
(* client.MatchingLabels: every pair *)
Definition selected {A} (sel : list (gstr * gstr)) (o : object A) : bool :=
  forallb (fun p => match lookup (fst p) (o_labels o) with Some v => geqb v (snd p) | None => false end) sel.
(* endpoint.go: the fields that are read *)
Inductive stype := TClusterIP | TLoadBalancer | TNodePort | TExternalName | TOther.
Record svc := mksvc { v_type : stype; v_cluster_ip : gstr; v_ingress : list (gstr * gstr) (* IP, Hostname *); v_annotations : list (gstr * gstr) }.
Definition address := list nat.          (* net.IP *)
(* config.go:285-292: status.GatewayAddress: None: not there or not a list; its elements: None: not a string *)
Definition imgw := option (list (option gstr)).
Inductive call := LIstiod | LPilot | LEastWest | LPods | LImgw | LRootOperator | LRootCtl | LMesh.
Record mesh := mkmesh { m_id : gstr; m_domain : gstr }.
Record cluster := mkcluster {
  svcs : list (object svc); pods : list (object unit); imgws : list (object imgw);
  cms : list (object unit);                          (* config maps, as listed *)
  cm_get : gstr -> option (list (gstr * gstr));      (* the data of a config map of istio-system when it is read; None: an error *)
  fails : call -> bool;
  resolve : gstr -> option (list address);           (* net.LookupIP *)
  show4 : list nat -> gstr;                          (* the text of 4 bytes *)
  pod_token : gstr -> gstr -> option gstr;           (* config.go:387-430: cat the token in the pod *)
  sa_token : gstr -> gstr -> option gstr;            (* config.go:171-196 *)
  parse_mesh : gstr -> option mesh }.                (* config.go:366-384 *)

Inductive err := EList (c : call) | ENoIstiod | ENoEastWest | EEndpoints | ENoImgw | ENoImgwAddress | ENoPod | EToken | ENoRootCm | EGetCm | ENoMeshCm | ENoMesh | EParseMesh.
Inductive res (A : Type) := Ok (a : A) | Err (e : err) | Panic.
Arguments Ok {A}. Arguments Err {A}. Arguments Panic {A}.
Definition bind {A B} (x : res A) (f : A -> res B) : res B := match x with Ok a => f a | Err e => Err e | Panic => Panic end.

Definition istio_ns : gstr := lit "istio-system".
Definition rev_label : gstr := lit "istio.io/rev".
Definition k_root : gstr := lit "root-cert.pem".
Definition k_mesh : gstr := lit "mesh".
(* cl.List with InNamespace and MatchingLabels *)
Definition list_of {A} (K : cluster) (c : call) (l : list (object A)) (sel : list (gstr * gstr)) : res (list (object A)) :=
  if fails K c then Err (EList c) else Ok (filter (fun o => geqb (o_ns o) istio_ns && selected sel o) l).

(* ---- endpoint.go ---- *)
(* bytes.Compare(a, b) < 0 *)
Fixpoint bytes_lt (a b : address) : bool :=
  match a, b with [], [] => false | [], _ => true | _, [] => false | x :: a', y :: b' => if Nat.ltb x y then true else if Nat.ltb y x then false else bytes_lt a' b' end.
Fixpoint insert (a : address) (l : list address) : list address := match l with [] => [a] | x :: r => if bytes_lt x a then x :: insert a r else a :: l end.
Definition sort (l : list address) : list address := fold_right insert [] l.
(* IP.To4 *)
Definition to4 (a : address) : option (list nat) :=
  if Nat.eqb (length a) 4 then Some a
  else if Nat.eqb (length a) 16 && forallb (fun x => Nat.eqb x 0) (firstn 10 a) && Nat.eqb (nth 10 a 0) 255 && Nat.eqb (nth 11 a 0) 255 then Some (skipn 12 a) else None.
(* endpoint.go:87-104 getIPsForHostname *)
Definition ips_for_hostname (K : cluster) (h : gstr) : res (list gstr) :=
  match resolve K h with
  | None => Err EEndpoints
  | Some l => Ok (flat_map (fun a => match to4 a with Some b => [show4 K b] | None => [] end) (sort l))
  end.
Definition ip_override : gstr := lit "service.banzaicloud.io/ip-address-override".
Definition host_override : gstr := lit "service.banzaicloud.io/hostname-override".
Definition annotation (k : gstr) (s : svc) : gstr := match lookup k (v_annotations s) with Some v => v | None => [] end.
(* endpoint.go:36-85 GetServiceEndpointIPs; "None" is corev1.ClusterIPNone *)
Definition service_ips (K : cluster) (s : svc) : res (list gstr) :=
  match v_type s, v_ingress s with
  | TLoadBalancer, [] => Err EEndpoints
  | _, _ =>
    match annotation ip_override s with
    | _ :: _ => Ok [annotation ip_override s]
    | [] =>
      match annotation host_override s with
      | _ :: _ => ips_for_hostname K (annotation host_override s)
      | [] =>
        match v_type s with
        | TClusterIP => if geqb (v_cluster_ip s) (lit "None") then Ok [] else Ok [v_cluster_ip s]
        | TLoadBalancer =>
            match v_ingress s with
            | [] => Panic
            | (ip, host) :: _ => match ip with _ :: _ => Ok [ip] | [] => match host with _ :: _ => ips_for_hostname K host | [] => Ok [] end end
            end
        | _ => Ok []
        end
      end
    end
  end.

(* ---- config.go ---- *)
(* 198-226 GetIstiodService *)
Definition istiod_service (K : cluster) (rev : gstr) : res (object svc) :=
  bind (list_of K LIstiod (svcs K) [(lit "istio", lit "istiod"); (rev_label, rev)]) (fun a =>
  bind (match a with [] => list_of K LPilot (svcs K) [(lit "istio", lit "pilot"); (rev_label, rev)] | _ => Ok a end) (fun l =>
  match l with [] => Err ENoIstiod | s :: _ => Ok s end)).
(* 228-248 GetEastWestGWAddress; ips[0] *)
Definition eastwest (K : cluster) (rev : gstr) : res gstr :=
  bind (list_of K LEastWest (svcs K) [(lit "istio", lit "eastwestgateway"); (rev_label, rev)]) (fun l =>
  match l with
  | [] => Err ENoEastWest
  | s :: _ => bind (service_ips K (o_val s)) (fun ips => match ips with [] => Panic | a :: _ => Ok a end)
  end).
(* 250-265 GetIMGWPod *)
Definition imgw_pod (K : cluster) (rev : gstr) : res (object unit) :=
  bind (list_of K LPods (pods K) [(lit "gateway-type", lit "ingress"); (lit "release", lit "istio-meshgateway"); (rev_label, rev)]) (fun l =>
  match l with [] => Err ENoPod | p :: _ => Ok p end).
(* 267-298 GetIMGWAddress *)
Definition imgw_address (K : cluster) (rev : gstr) : res gstr :=
  bind (list_of K LImgw (imgws K) [(lit "app", lit "istio-meshexpansion-gateway"); (rev_label, rev)]) (fun l =>
  match l with
  | [] => Err ENoImgw
  | g :: _ => match o_val g with Some (Some (c :: a) :: _) => Ok (c :: a) | _ => Err ENoImgwAddress end
  end).
(* 300-333 GetIstioRootCAPEM; a missing entry reads as the empty string, which is not nil as a byte slice *)
Definition root_pem (K : cluster) (rev : gstr) : res gstr :=
  bind (list_of K LRootOperator (cms K) [(rev_label, rev); (lit "istio.io/config", lit "true")]) (fun a =>
  bind (match a with [] => list_of K LRootCtl (cms K) [(lit "istio.io/config", lit "true")] | _ => Ok a end) (fun l =>
  match l with
  | [] => Err ENoRootCm
  | c :: _ => match cm_get K (o_name c) with None => Err EGetCm | Some d => Ok (match lookup k_root d with Some v => v | None => [] end) end
  end)).
(* 335-364: the first config map that has an entry "mesh" when it is read *)
Fixpoint find_mesh (K : cluster) (l : list (object unit)) : res gstr :=
  match l with
  | [] => Err ENoMesh
  | c :: r => match cm_get K (o_name c) with None => Err EGetCm | Some d => match lookup k_mesh d with Some v => Ok v | None => find_mesh K r end end
  end.
Definition mesh_config (K : cluster) (rev : gstr) : res mesh :=
  bind (list_of K LMesh (cms K) [(rev_label, rev)]) (fun l =>
  match l with
  | [] => Err ENoMeshCm
  | _ => bind (find_mesh K l) (fun v => match parse_mesh K v with Some m => Ok m | None => Err EParseMesh end)
  end).
Record config := mkcfg { c_endpoint : gstr; c_san : gstr; c_token : gstr; c_pem : gstr; c_cluster : gstr; c_rev : gstr; c_mesh : gstr; c_domain : gstr }.
(* 115-125: the address *)
Definition external (K : cluster) (rev : gstr) : res gstr :=
  match eastwest K rev with
  | Panic => Panic
  | Err ENoEastWest => imgw_address K rev
  | Err e => Err e
  | Ok [] => imgw_address K rev
  | Ok a => Ok a
  end.
(* 127-143: the token; sa: name and namespace of a service account *)
Definition token_of (K : cluster) (rev : gstr) (sa : option (gstr * gstr)) : res gstr :=
  match sa with
  | None => bind (imgw_pod K rev) (fun p => match pod_token K (o_name p) (o_ns p) with Some t => Ok t | None => Err EToken end)
  | Some (n, ns) => match sa_token K n ns with Some t => Ok t | None => Err EToken end
  end.
(* 89-169 GetIstioCAClientConfigWithKubeConfig, from the client on *)
Definition get_config (K : cluster) (cluster_id rev : gstr) (sa : option (gstr * gstr)) : res config :=
  bind (istiod_service K rev) (fun s =>
  bind (external K rev) (fun a =>
  bind (token_of K rev sa) (fun t =>
  bind (root_pem K rev) (fun pem =>
  bind (mesh_config K rev) (fun m =>
  Ok (mkcfg (a ++ lit ":15012") (o_name s ++ lit "." ++ o_ns s ++ lit ".svc") t pem cluster_id rev (m_id m) (m_domain m))))))).
(* 68-83 GetIstioCAClientConfigFromLocal: the two files, None: not readable; the configuration that comes with an error is returned too *)
Definition from_local (token pem : option gstr) (cluster_id endpoint : gstr) : config * bool :=
  match token with
  | None => (mkcfg [] [] [] [] [] [] [] [], false)
  | Some t => match pem with None => (mkcfg [] [] t [] [] [] [] [], false) | Some p => (mkcfg endpoint [] t p cluster_id [] [] [], true) end
  end.
