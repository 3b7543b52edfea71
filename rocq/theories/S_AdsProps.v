(* Specification vocabulary for TCP destinations (C64), inbound listener properties (C65) and transport sockets (C66). *)
From Coq Require Import List String Bool NArith.
From Verif Require Import M_GoMap M_AdsRoute S_AdsRoute M_AdsProps.
Import ListNotations.
Open Scope string_scope.

(* the last element of a list for which a property holds *)
Definition last_with {A} (P : A -> Prop) (l : list A) (a : A) : Prop :=
  exists l1 l2, l = (l1 ++ a :: l2)%list /\ P a /\ forall x, In x l2 -> ~ P x.

(* ---- TCP destinations ---- *)
Definition tcp_on (lib : netlib) (ip : string) (port : nat) (l : tlistener) : Prop :=
  join_host_port (match parse_ip lib (tl_addr l) with Some i => i | None => "" end) (tl_port l) = join_host_port ip port.
Definition tcp_outbound (l : tlistener) : Prop :=
  tl_outbound l = true /\ exists ch f, In ch (tl_chains l) /\ In f ch /\ f <> NOther.
(* an outbound TCP listener on one of the addresses, else on the wildcard address *)
Definition tcp_candidate (lib : netlib) (all : list tlistener) (ips : list string) (port : nat) (l : tlistener) : Prop :=
  tcp_outbound l /\
  ((exists ip, In ip ips /\ tcp_on lib ip port l) \/
   ((forall l' ip, In l' all -> tcp_outbound l' -> In ip ips -> ~ tcp_on lib ip port l') /\ tcp_on lib "0.0.0.0" port l)).
(* a TCP proxy that names the cluster, alone or among weighted clusters *)
Definition names_cluster (f : nfilter) (n : string) : Prop :=
  n <> "" /\ ((exists w, f = NTcp n w) \/ exists ws, f = NTcp "" (Some ws) /\ In n (map fst ws)).
Definition names_one (f : nfilter) : Prop := exists n, names_cluster f n.
Definition chain_names (ch : list nfilter) : Prop := exists f, In f ch /\ names_one f.
Definition no_weights (l : tlistener) : Prop := forall ch c ws, In ch (tl_chains l) -> ~ In (NTcp c (Some ws)) ch.

(* ---- inbound listeners ---- *)
(* address and length of a prefix that can be used *)
Definition good_cidr (pa : addr_parser) (c : cidr) : Prop :=
  (exists n, pa (cd_addr c) = Some (V4 n) /\ (cd_len c <= 32)%N) \/ (exists n, pa (cd_addr c) = Some (V6 n) /\ (cd_len c <= 128)%N).
(* the addresses of a block of 2^k addresses that contains [n] *)
Definition in_block (n k a : N) : Prop := exists base, (2 ^ k * base <= n < 2 ^ k * (base + 1) /\ 2 ^ k * base <= a < 2 ^ k * (base + 1))%N.
Definition covers (pa : addr_parser) (ip : option ipaddr) (c : cidr) : Prop :=
  cd_addr c <> "" /\
  ((exists n a, pa (cd_addr c) = Some (V4 n) /\ (cd_len c <= 32)%N /\ ip = Some (V4 a) /\ in_block n (32 - cd_len c) a) \/
   (exists n a, pa (cd_addr c) = Some (V6 n) /\ (cd_len c <= 128)%N /\ ip = Some (V6 a) /\ in_block n (128 - cd_len c) a)).
Definition for_port (fc : fchain) (p : N) : Prop := fc_port fc = Some p \/ (fc_port fc = None /\ p = 0%N).
(* step 1: the chains of the port, else those without a port *)
Definition port_selects (fcs : list fchain) (port : N) (fc : fchain) : Prop :=
  In fc fcs /\ (for_port fc port \/ ((forall fc', In fc' fcs -> ~ for_port fc' port) /\ for_port fc 0%N)).
Definition addr_matches (pa : addr_parser) (ip : option ipaddr) (fc : fchain) : Prop := exists c, In c (fc_ranges fc) /\ covers pa ip c.
(* step 2: among them those that cover the address, else those without ranges *)
Definition chain_selects (pa : addr_parser) (fcs : list fchain) (port : N) (ip : option ipaddr) (fc : fchain) : Prop :=
  port_selects fcs port fc /\
  (addr_matches pa ip fc \/ ((forall fc', port_selects fcs port fc' -> ~ addr_matches pa ip fc') /\ fc_ranges fc = [])).
(* an unusable range that is looked at *)
Definition chain_fails (pa : addr_parser) (ip : option ipaddr) (fc : fchain) : Prop :=
  exists r1 c r2, fc_ranges fc = (r1 ++ c :: r2)%list /\ cd_addr c <> "" /\ ~ good_cidr pa c /\ forall c', In c' r1 -> ~ covers pa ip c'.
Definition listener_fails (pa : addr_parser) (port : N) (ip : option ipaddr) (l : ilistener) : Prop :=
  exists fc, port_selects (il_chains l) port fc /\ chain_fails pa ip fc.
(* the chains of a listener that handle the connection *)
Definition handles (pa : addr_parser) (port : N) (ip : option ipaddr) (l : ilistener) (fc : fchain) : Prop :=
  chain_selects pa (il_chains l) port ip fc \/ ((forall fc', ~ chain_selects pa (il_chains l) port ip fc') /\ il_default l = Some fc).
Definition listener_applies (pa : addr_parser) (port : N) (ip : option ipaddr) (l : ilistener) : Prop := exists fc, handles pa port ip l fc.

(* ---- transport sockets ---- *)
(* Envoy's rule: every criterion is met by the endpoint's metadata *)
Definition meets (ep : gmap mvalue) (m : list (string * mvalue)) : Prop := forall k v, In (k, v) m -> mget k ep = Some v.
