(* Model: ParseEnvoyStatTag, /repo/pkg/proxywasm/envoy_tags.go. *)
From Coq Require Import String List Ascii Bool Arith.
From Verif Require Import M_GoStr M_Regex.
Import ListNotations.
Open Scope list_scope.

Definition t (s : string) : rx := str (lit s).
(* (key=\.=(.*?);\.;) *)
Definition kv (k : gstr) : rx := Grp 1 (seqs [str k; t "=.="; Grp 2 (Star false dot); t ";.;"]).
(* ^name\.((.*?)\.)\w+?$ *)
Definition prefixed (n : string) : rx := seqs [Bol; t n; Grp 1 (Seq (Grp 2 (Star false dot)) (t ".")); plus false word; Eol].
(* (name\.(.+?)end) *)
Definition named (n e : string) : rx := Grp 1 (seqs [t n; Grp 2 (plus false dot); t e]).
Fixpoint alt_all (l : list string) : rx := match l with [] => Eps | [s] => t s | s :: r => Alt (t s) (alt_all r) end.
(* :27-30 ^cluster\.((.+?(\..+?\.svc\.cluster\.local)?)\.) *)
Definition cluster_name : rx :=
  seqs [Bol; t "cluster."; Grp 1 (Seq (Grp 2 (Seq (plus false dot) (opt (Grp 3 (seqs [t "."; plus false dot; t ".svc.cluster.local"]))))) (t "."))].
(* :35-38 (response_code=\.=(.+?);\.;)|_rq(_(\.d{3}))$ *)
Definition response_code : rx :=
  Alt (Grp 1 (seqs [t "response_code"; t "=.="; Grp 2 (plus false dot); t ";.;"])) (seqs [t "_rq"; Grp 3 (Seq (t "_") (Grp 4 (t ".ddd"))); Eol]).
(* :39-42 _rq(_(\dxx))$ *)
Definition response_code_class : rx := seqs [t "_rq"; Grp 1 (Seq (t "_") (Grp 2 (Seq (Cls digit) (t "xx")))); Eol].
(* :43-46 the address is a repetition of one of two classes *)
Definition listener_address : rx :=
  seqs [Bol; t "listener.";
        Grp 1 (Seq (Grp 2 (Alt (Star true (fun a => existsb (Ascii.eqb a) (lit "_.") || digit a)) (Star true (fun a => existsb (Ascii.eqb a) (lit "_[]aAbBcCdDeEfF") || digit a)))) (t "."))].
(* :47-50 ^mongo\.(.+?)\.(collection|cmd|cx_|op_|delays_|decoding_)(.*?)$ *)
Definition mongo_prefix : rx :=
  seqs [Bol; t "mongo."; Grp 1 (plus false dot); t "."; Grp 2 (alt_all ["collection"; "cmd"; "cx_"; "op_"; "delays_"; "decoding_"]%string); Grp 3 (Star false dot); Eol].

(* :22-206 statTags *)
Definition table1 : list (gstr * rx) :=
  (lit "reporter", kv (lit "reporter")) ::
  (lit "cluster_name", cluster_name) ::
  (lit "tcp_prefix", prefixed "tcp.") ::
  (lit "response_code", response_code) ::
  (lit "response_code_class", response_code_class) ::
  (lit "listener_address", listener_address) ::
  (lit "mongo_prefix", mongo_prefix) ::
  (lit "mysql_cluster", prefixed "mysql.") ::
  (lit "postgres_cluster", prefixed "postgres.") ::
  map (fun s => (lit s, kv (lit s)))
   ["source_namespace"; "source_workload"; "source_workload_namespace"; "source_principal"; "source_app"; "source_version"; "source_cluster";
    "destination_namespace"; "destination_workload"; "destination_workload_namespace"; "destination_principal"; "destination_app";
    "destination_version"; "destination_service"; "destination_service_name"; "destination_service_namespace"; "destination_port";
    "destination_cluster"; "request_protocol"; "request_operation"; "request_host"; "response_flags"; "grpc_response_status";
    "connection_security_policy"; "source_canonical_service"; "destination_canonical_service"; "source_canonical_revision";
    "destination_canonical_revision"]%string.
Definition table2 : list (gstr * rx) :=
  [(lit "cache", named "cache." "."); (lit "component", named "component." "."); (lit "tag", named "tag." ";."); (lit "wasm_filter", named "wasm_filter." ".");
   (lit "authz_enforce_result", seqs [t "rbac"; Grp 1 (Seq (t ".") (Grp 2 (alt_all ["allowed"; "denied"]%string)))]);
   (lit "authz_dry_run_action", Grp 1 (seqs [t ".istio_dry_run_"; Grp 2 (alt_all ["allow"; "deny"]%string); t "_"]));
   (lit "authz_dry_run_result", Grp 1 (Seq (t ".shadow_") (Grp 2 (alt_all ["allowed"; "denied"]%string))))].
Definition stat_tags : list (gstr * rx) := table1 ++ table2.

(* strings.Replace(s, old, "", 1) *)
Fixpoint remove_first (old s : gstr) : gstr :=
  if ghas_prefix s old then skipn (length old) s else match s with [] => [] | c :: r => c :: remove_first old r end.
(* :213-233 one round; the tag names are distinct, so that an assignment to the map adds an entry *)
Definition tag_step (st : gstr * list (gstr * gstr)) (e : gstr * rx) : gstr * list (gstr * gstr) :=
  match rfind (snd e) [] (fst st) with
  | Some m => (remove_first (cap (mt_caps m) 1) (fst st), snd st ++ [(fst e, cap (mt_caps m) 2)])
  | None => st
  end.
(* :213-238 ParseEnvoyStatTag: Name and Values *)
Definition parse_stat (s : gstr) : gstr * list (gstr * gstr) := fold_left tag_step stat_tags (s, []).
Fixpoint tag_get (m : list (gstr * gstr)) (k : gstr) : option gstr := match m with [] => None | (k', v) :: r => if geqb k' k then Some v else tag_get r k end.
