(* Identities as strings: pkg/k8s/labels/labels.go, components/heimdall/pkg/server/jwt.go,
   components/bifrost/pkg/controllers/configmap.go, pkg/environment/istio.go *)
From Coq Require Import String List Ascii Bool Arith.
From Verif Require Import M_GoStr.
Import ListNotations.
Open Scope list_scope.
(* ---------- labels.go ---------- *)
(* labels as a Go map: a function from keys *)
Definition lmap := gstr -> option gstr.
(* labels.go:83-91 getLabelValueWithDefault *)
Fixpoint label_with_default (labels : lmap) (precedence : list gstr) (def : gstr) : gstr :=
  match precedence with [] => def | k :: r => match labels k with Some v => v | None => label_with_default labels r def end end.
(* labels.go:67-73 *)
Definition canonical_name (labels : lmap) (workload : gstr) : gstr :=
  label_with_default labels [lit "service.istio.io/canonical-name"; lit "app.kubernetes.io/name"; lit "app"] workload.
(* labels.go:75-81 *)
Definition canonical_revision (labels : lmap) : gstr :=
  label_with_default labels [lit "service.istio.io/canonical-revision"; lit "app.kubernetes.io/version"; lit "version"] (lit "latest").
(* ---------- heimdall jwt.go ---------- *)
Definition colon : ascii := ":"%char.
Record okey := mkkey { k_ns : gstr; k_name : gstr }.
Definition okey0 : okey := mkkey [] [].
(* jwt.go:28-31 *)
Definition aud_prefix : gstr := lit "nasp-heimdall:workloadgroup:".
(* jwt.go:35-37 Generate *)
Definition aud_generate (ref : okey) : gstr := aud_prefix ++ k_ns ref ++ colon :: k_name ref.
(* jwt.go:39-41 Valid *)
Definition aud_valid (a : gstr) : bool := ghas_prefix a aud_prefix.
(* jwt.go:47-56 Parse *)
Definition aud_parse (a : gstr) : okey := match gsplit colon a with [_; _; ns; name] => mkkey ns name | _ => okey0 end.
(* the Kubernetes token review: for a token and an audience, nothing (an error or not authenticated) or a user name *)
Definition reviewer := gstr -> gstr -> option gstr.
Record user := mkuser { u_name : gstr; u_sa : okey; u_wg : okey }.
(* jwt.go:66-126 AuthenticateToken: claims are the audiences of the unverified token (None: it does not parse); the
   audience the token is reviewed for is returned as well *)
Definition first_valid (auds : list gstr) : gstr := match find aud_valid auds with Some a => a | None => [] end.
Definition authenticate (review : reviewer) (claims : gstr -> option (list gstr)) (token : gstr) : option (user * gstr) :=
  match claims token with
  | None => None
  | Some auds =>
      let aud := first_valid auds in
      match review token aud with
      | None => None
      | Some name =>
          if ghas_prefix name (lit "system:serviceaccount:") then
            match gsplit colon name with [_; _; ns; sa] => Some (mkuser name (mkkey ns sa) (aud_parse aud), aud) | _ => None end
          else Some (mkuser name okey0 (aud_parse aud), aud)
      end
  end.
(* ---------- bifrost configmap.go ---------- *)
Definition dot : ascii := "."%char.
(* configmap.go:79-81 *)
Definition pcs_string (s : okey) : gstr := k_name s ++ dot :: k_ns s.
(* configmap.go:83-90; None: key[1] is out of range and the code panics *)
Definition pcs_parse (str : gstr) : option okey := match gsplitn dot 2 str with a :: b :: _ => Some (mkkey b a) | _ => None end.
(* ---------- environment/istio.go ---------- *)
Definition tilde : ascii := "~"%char.
Record env := mkenv { e_type : gstr; e_pod : gstr; e_ns : gstr; e_sa : gstr; e_workload : gstr; e_ips : list gstr; e_dns : gstr; e_trust : gstr }.
(* istio.go:83-90 *)
Definition dns_domain (e : env) : gstr := match e_dns e with [] => lit "cluster.local" | d => d end.
(* istio.go:92-94 *)
Definition dns_service_domain (e : env) : gstr := e_ns e ++ lit ".svc." ++ dns_domain e.
(* istio.go:65-73 *)
Definition node_id (e : env) : gstr := gjoin tilde [e_type e; match e_ips e with ip :: _ => ip | [] => [] end; e_pod e ++ dot :: e_ns e; dns_service_domain e].
(* istio.go:75-77 *)
Definition cluster_name (e : env) : gstr := e_workload e ++ dot :: e_ns e.
(* istio.go:79-81 *)
Definition spiffe_id (e : env) : gstr := lit "spiffe://" ++ dns_domain e ++ lit "/ns/" ++ e_ns e ++ lit "/sa/" ++ e_sa e.
