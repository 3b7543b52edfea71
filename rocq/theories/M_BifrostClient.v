(* Model: the addresses that the Bifrost client exposes: /repo/components/bifrost/pkg/commands/client.go 41 (addrRegex), 142-190 (runProxies), 214-236
   (proxyclient.Run).

   Simplified: net.ResolveTCPAddr and the tunnel's GetVirtualTCPListener answer arbitrarily, the latter by the number of its call; the proxies that
   have been started are a list; the loop of a proxy is driven by the answers of Accept and of the dialer. *)
From Coq Require Import String List Ascii Bool Arith ZArith.
From Verif Require Import M_GoStr M_Regex.
From Verif Require M_EnvoyProps.
Import ListNotations.
Open Scope list_scope.

(* client.go:41: an optional group of digits and a colon, anything, a colon, digits *)
Definition colon : ascii := ":"%char.
Definition addr_rx : rx :=
  Seq Bol (Seq (opt (Grp 1 (Seq (Grp 2 (plus true digit)) (one colon)))) (Seq (Grp 3 (Star true dot)) (Seq (one colon) (Seq (Grp 4 (plus true digit)) Eol)))).
(* v[2], v[3], v[4] *)
Definition parse_addr (s : gstr) : option (gstr * gstr * gstr) :=
  match rfind addr_rx [] s with Some m => Some (cap (mt_caps m) 2, cap (mt_caps m) 3, cap (mt_caps m) 4) | None => None end.
(* client.go:153-158: 0 unless Atoi succeeds *)
Definition port_of (s : gstr) : Z := match M_EnvoyProps.atoi s with (n, false) => n | (_, true) => 0%Z end.

(* a proxy: the port that is asked of the server, the target port, its number, the address it dials *)
Record proxy := mkpx { px_requested : Z; px_target : Z; px_number : nat; px_addr : gstr }.
Section Run.
Variable resolves : gstr -> bool.
Variable listens : nat -> bool.       (* the number of the address, from 1 *)
(* client.go:142-190; true: it waits for the proxies and returns nil when they have ended; false: it returns an error at once *)
Fixpoint run_from (k : nat) (addrs : list gstr) : list proxy * bool :=
  match addrs with
  | [] => ([], true)
  | a :: r =>
      match parse_addr a with
      | None => run_from (S k) r
      | Some (req, host, port) =>
          let addr := host ++ colon :: port in
          if resolves addr then if listens k then let '(l, ok) := run_from (S k) r in (mkpx (port_of req) (port_of port) k addr :: l, ok) else ([], false)
          else ([], false)
      end
  end.
Definition run_proxies (addrs : list gstr) : list proxy * bool := run_from 1 addrs.
End Run.
(* client.go:67-69: without an address the command fails *)
Definition command (resolves : gstr -> bool) (listens : nat -> bool) (addrs : list gstr) : list proxy * bool :=
  match addrs with [] => ([], false) | _ => run_proxies resolves listens addrs end.

(* client.go:214-236: what Accept, and then the dialer, answer *)
Inductive answer := AConn (c : nat) (dials : bool) | AErr (stopped : bool).
Inductive effect := Proxied (c : nat) | Closed (c : nat).
(* None: the loop goes on *)
Fixpoint loop (l : list answer) : list effect * bool :=
  match l with
  | [] => ([], false)
  | AErr true :: _ => ([], true)
  | AErr false :: r => loop r
  | AConn c d :: r => let '(e, b) := loop r in ((if d then Proxied c else Closed c) :: e, b)
  end.
