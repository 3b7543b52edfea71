(* Heimdall: the access token of a WorkloadGroup, components/heimdall/pkg/controllers/workloadgroup.go and
   predicates/labelselector.go *)
From Coq Require Import String List Ascii Bool ZArith.
From Verif Require Import M_GoStr M_Identity.
Import ListNotations.
Open Scope list_scope.
(* a WorkloadGroup: the NASP monitoring label, the annotation with the token lifetime, the service account of its
   template *)
Record wgroup := mkwg { w_nasp : option gstr; w_dur : option gstr; w_sa : gstr }.
(* a Secret: the group that owns it, its type, the value of its group label, and Data["token"] *)
Record secret := mksecret { s_owner : option okey; s_type : gstr; s_label : option gstr; s_token : option gstr }.
Definition keqb (a b : okey) : bool := geqb (k_ns a) (k_ns b) && geqb (k_name a) (k_name b).
(* the Secrets of the cluster *)
Definition secrets := okey -> option secret.
Definition sput (st : secrets) (k : okey) (v : option secret) : secrets := fun x => if keqb x k then v else st x.
(* workloadgroup.go:61-62 *)
Definition nasp_type : gstr := lit "nasp.k8s.cisco.com/access-token".
Definition token_suffix : gstr := lit "-nasp-token".
(* workloadgroup.go:108,126: the Secret of a group: same namespace, name with the suffix *)
Definition secret_key (wg : okey) : okey := mkkey (k_ns wg) (k_name wg ++ token_suffix).
(* workloadgroup.go:66-68,87: the label selector *)
Definition has_nasp (w : wgroup) : bool := match w_nasp w with Some v => geqb v (lit "true") | None => false end.
(* workloadgroup.go:173: ten minutes, in nanoseconds *)
Definition margin : Z := 10 * 60 * 1000000000.
(* what the outside world decides in one reconciliation: the time, whether reading the group and the secret fails for a
   reason other than "not found", whether the write fails, and what the TokenRequest API returns for a service account,
   namespace, audience and lifetime in seconds *)
Record world := mkworld {
  x_now : Z; x_wg_err : bool; x_get_err : bool; x_write_err : bool;
  x_issue : gstr -> gstr -> gstr -> Z -> option gstr }.
Inductive outcome := Requeue (after : Z) | Failed | Panicked.
(* workloadgroup.go:180-199: the lifetime (time.ParseDuration, nanoseconds, a function argument), the audience and
   the new token. int(d.Seconds()) truncates *)
Definition new_token (pdur : gstr -> option Z) (x : world) (k : okey) (w : wgroup) : option gstr :=
  match pdur (match w_dur w with Some d => d | None => lit "24h" end) with
  | None => None
  | Some d => x_issue x (w_sa w) (k_ns k) (aud_generate k) (Z.quot d 1000000000)
  end.
(* workloadgroup.go:122-206 createToken. parse: jwt ParseUnverified, None an error, Some None no "exp" claim, Some (Some e)
   the expiry in nanoseconds. Get fills the prepared object with the stored one, so owner, type and label of an existing
   Secret stay. Simplified: setting the owner reference does not fail; ReconcileResource is one write *)
Definition create_token (parse : gstr -> option (option Z)) (pdur : gstr -> option Z) (x : world) (k : okey) (w : wgroup) (st : secrets)
  : secrets * outcome :=
  let sk := secret_key k in
  if x_get_err x then (st, Failed) else
  let sec := match st sk with
             | Some s => s
             | None => mksecret (Some k) nasp_type (Some (k_name k)) None
             end in
  let write (t : gstr) :=
    if x_write_err x then (st, Failed)
    else (sput st sk (Some (mksecret (s_owner sec) (s_type sec) (s_label sec) (Some t))), Requeue (5 * 60 * 1000000000)) in
  let renew := match new_token pdur x k w with None => (st, Failed) | Some t => write t end in
  match s_token sec with
  | None => renew
  | Some t =>
      match parse t with
      | None => (st, Failed)
      | Some None => (st, Panicked)
      | Some (Some e) => if (e <? x_now x + margin)%Z then renew else write t
      end
  end.
(* workloadgroup.go:107-120 deleteToken *)
Definition delete_token (x : world) (k : okey) (st : secrets) : secrets * outcome :=
  if x_write_err x then (st, Failed) else (sput st (secret_key k) None, Requeue (5 * 60 * 1000000000)).
(* workloadgroup.go:72-105 Reconcile *)
Definition reconcile parse pdur (x : world) (wgs : okey -> option wgroup) (k : okey) (st : secrets) : secrets * outcome :=
  if x_wg_err x then (st, Failed) else
  match wgs k with
  | None => (st, Failed)
  | Some w => if has_nasp w then create_token parse pdur x k w st else delete_token x k st
  end.
(* labelselector.go:25-54 with workloadgroup.go:208-219: which changes of a group lead to a reconciliation *)
Inductive wg_event := Created (w : wgroup) | Updated (old new : wgroup) | Deleted (w : wgroup).
Definition triggers (e : wg_event) : bool :=
  match e with Created w => has_nasp w | Updated o n => has_nasp o || has_nasp n | Deleted w => has_nasp w end.
(* a history: reconciliations of any groups, each with the groups that exist then *)
Record round := mkround { r_world : world; r_wgs : okey -> option wgroup; r_key : okey }.
Fixpoint runs parse pdur (rs : list round) (st : secrets) : secrets :=
  match rs with
  | [] => st
  | r :: rs' => runs parse pdur rs' (fst (reconcile parse pdur (r_world r) (r_wgs r) (r_key r) st))
  end.
