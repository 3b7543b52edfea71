(* Specification vocabulary for the ADS properties C20-C24. *)
From Coq Require Import List String Bool.
From Verif Require Import M_GoMap M_Ads.
Import ListNotations.
Open Scope string_scope.

(* a name is subscribed when it, or the wildcard, is in the subscription *)
Definition subscribed (s : cache) (n : string) : Prop := In "*" (c_sub s) \/ In n (c_sub s).

(* what a message decodes to under a resource type *)
Definition kind_of (m : message) : option rtype :=
  match m with
  | MCluster _ => Some CDS | MCla _ _ => Some EDS | MListener _ => Some LDS | MRoute _ _ => Some RDS
  | MNameTable _ => Some NDS | MNameInfo _ => None
  end.
Definition decodable (t : rtype) (a : any) : Prop := exists m, a = AnyOf m /\ kind_of m = Some t.

(* [offers t rs n m]: an incremental response of type t with content rs carries resource m under name n *)
Definition offers (t : rtype) (rs : list (option resource)) (n : string) (m : message) : Prop :=
  match t with
  | NDS => exists r tbl ips, In (Some (mkresource r (Some (AnyOf (MNameTable tbl))))) rs /\ In (n, Some ips) tbl /\ m = MNameInfo ips
  | _ => In (Some (mkresource n (Some (AnyOf m)))) rs /\ kind_of m = Some t
  end.
(* [carries t rs n m]: the same for a state-of-the-world response *)
Definition carries (t : rtype) (rs : list (option any)) (n : string) (m : message) : Prop :=
  match t with
  | NDS => exists tbl ips, In (Some (AnyOf (MNameTable tbl))) rs /\ In (n, Some ips) tbl /\ m = MNameInfo ips
  | _ => In (Some (AnyOf m)) rs /\ kind_of m = Some t /\ resource_name m = Some n
  end.

(* After an incremental update carrying [brings]: the subscribed resources of the update are readable, every
   other name reads as before. *)
Definition added (s s' : cache) (brings : string -> message -> Prop) : Prop :=
  c_sub s' = c_sub s /\
  forall n m, get_resource n s' = Some m <->
    (subscribed s n /\ brings n m) \/ (get_resource n s = Some m /\ ~ (subscribed s n /\ exists m', brings n m')).
(* After a state-of-the-world update: exactly the subscribed resources of the update; if not [all], also the old
   ones the update does not mention. *)
Definition assigned (all : bool) (s s' : cache) (brings : string -> message -> Prop) : Prop :=
  c_sub s' = c_sub s /\
  forall n m, get_resource n s' = Some m <->
    (subscribed s n /\ brings n m) \/ (all = false /\ get_resource n s = Some m /\ forall m', ~ brings n m').

(* operations of the cache and their histories *)
Inductive op :=
| OSubscribe (names : list string) | OResetSubscription | OResetInitialized
| OAdd (t : rtype) (rs : list (option resource)) | OAddIstio (rs : list (option resource))
| OSet (t : rtype) (rs : list (option any)) (replace : bool) | OSetIstio (rs : list (option any))
| ORemove (names : list string) | ORemoveAll | OVersion (v : string) | ONonce (n : string).
Definition exec (s : cache) (o : op) : cache :=
  match o with
  | OSubscribe names => subscribe names s
  | OResetSubscription => reset_subscription s
  | OResetInitialized => reset_initialized s
  | OAdd t rs => fst (add_resources t rs s)
  | OAddIstio rs => fst (add_istio_resources rs s)
  | OSet t rs replace => fst (set_resources t rs replace s)
  | OSetIstio rs => fst (set_istio_resources rs s)
  | ORemove names => remove_resources names s
  | ORemoveAll => remove_all_resources s
  | OVersion v => store_version v s
  | ONonce n => store_nonce n s
  end.
Definition exec_all (ops : list op) : cache := fold_left exec ops empty_cache.
(* the resources an operation brings *)
Definition op_brings (o : op) (n : string) (m : message) : Prop :=
  match o with
  | OAdd t rs => t <> NDS /\ offers t rs n m
  | OAddIstio rs => offers NDS rs n m
  | OSet t rs _ => t <> NDS /\ carries t rs n m
  | OSetIstio rs => carries NDS rs n m
  | _ => False
  end.

(* observations of the client: the requests it sends *)
Definition req_error (r : request) : option gerr := match r with ReqSotW _ _ _ _ e => e | ReqDelta _ _ _ _ e => e end.
(* the client's answer to a response, and whether it accepted the response *)
Definition answer (g : config) (c : client) (resp : response) (r : request) : Prop :=
  exists c' rs, receive g c resp = Some (c', r :: rs).
Definition accepts (g : config) (c : client) (resp : response) : Prop := exists r, answer g c resp r /\ req_error r = None.
Definition rejects (g : config) (c : client) (resp : response) : Prop := exists r e, answer g c resp r /\ req_error r = Some e.

(* the observable history: every event with the requests it caused *)
Fixpoint trace (g : config) (c : client) (es : list event) : list (event * list request) :=
  match es with
  | [] => []
  | e :: rest => (e, snd (step g c e)) :: trace g (fst (step g c e)) rest
  end.
(* version of the last state-of-the-world response of type [t] that was acknowledged *)
Fixpoint last_acked (t : rtype) (acc : string) (tr : list (event * list request)) : string :=
  match tr with
  | [] => acc
  | (EResp (RespSotW url v _ _ _), r :: _) :: rest =>
      if String.eqb url (type_url t)
      then last_acked t (match req_error r with None => v | Some _ => acc end) rest
      else last_acked t acc rest
  | _ :: rest => last_acked t acc rest
  end.

(* same resources and same subscription *)
Definition same_view (s s' : cache) : Prop :=
  (forall n, get_resource n s' = get_resource n s) /\ (forall n, In n (c_sub s') <-> In n (c_sub s)).

(* names referenced by the cached clusters / listeners *)
Definition references_endpoints (c : client) (n : string) : Prop :=
  n <> "" /\ exists k cl, get_resource k (c CDS) = Some (MCluster cl) /\
    cl_is_eds cl = true /\ n = match cl_eds_service cl with Some x => if String.eqb x "" then cl_name cl else x | None => cl_name cl end.
Definition references_route (c : client) (n : string) : Prop :=
  n <> "" /\ exists k l, get_resource k (c LDS) = Some (MListener l) /\ chains_route (l_chains l) = Some n.
