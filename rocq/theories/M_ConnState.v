(* Model: the state of a connection, above all that of its TLS session.
   Files: /repo/pkg/network/connection_state_tracker.go, connection.go:75-190, connection_state.go:190-260, tls.go:85-110.

   Part 1 is the search for the state of a wrapped connection.  Part 2 is a transition system of the threads that use the state of a
   server connection during its handshake: the handshake itself (H), the goroutine that waits for its result (A), readers
   of the TLS state (O: GetTLSConnectionState, GetPeerCertificate) and callers of ConnectionStateFromNetConn on the TLS connection (W), any
   number of them.  The locks are the state's mux (a sync.RWMutex: a waiting writer keeps new readers out) and mux2 and the handshake mutex of
   crypto/tls, which Handshake holds and ConnectionState() takes.  Simplified: a TLS state is a number, 0 before the handshake is complete;
   releases are single steps; the client side, and a panic in SetLocalCertificate (see M_TlsWrap.v), are left out. *)
From Coq Require Import List Bool Arith.
Import ListNotations.

(* ---- part 1 ---- *)
(* a connection and what it wraps (NetConn or GetConn), from the outside in: does it have a TLS state, and the state it answers to GetConnectionState *)
Record layer := mkl { l_tls : option nat; l_state : option nat }.
(* connection_state_tracker.go:66-93 getConnectionState; the result: state and TLS connection *)
Fixpoint walk (chain : list layer) (st tls : option nat) : option nat * option nat :=
  match chain with
  | [] => (st, tls)
  | l :: inner =>
      let tls' := match l_tls l with Some t => Some t | None => tls end in
      match l_tls l, st with
      | Some _, Some s => (Some s, tls')
      | _, _ => walk inner (match st with Some s => Some s | None => l_state l end) tls'
      end
  end.
(* 32-42 ConnectionStateFromNetConn: the state found and the TLS connection whose state is put into it *)
Definition state_of (chain : list layer) : option (nat * option nat) :=
  let (st, tls) := walk chain None None in match st with Some s => Some (s, tls) | None => None end.
(* 44-64 getTLSConnection *)
Fixpoint tls_of (chain : list layer) : option nat :=
  match chain with [] => None | l :: inner => match l_tls l with Some t => Some t | None => tls_of inner end end.
(* connection.go:84-104 WrapConnection: a connection that has a state is not wrapped again *)
Definition wrap (new : nat) (chain : list layer) : list layer :=
  match chain with
  | l :: _ => match l_state l with Some _ => chain | None => mkl None (Some new) :: chain end
  | [] => [mkl None (Some new)]
  end.

(* ---- part 2 ---- *)
Inductive hpc :=
| K0                 (* before Handshake *)
| K1                 (* holds the handshake mutex; the first Read or Write of the connection (connection.go:121-141) *)
| K2 | K3 | K4       (* connection.go:164: GetTLSConnectionState: about to RLock, to lock mux2, to leave *)
| K5                 (* 168-176, connection_state.go:236-242: about to lock mux2 and start A *)
| K6 | K7 | K8       (* tls.go:96-103 GetCertificate: SetLocalCertificate: about to Lock mux, waiting for readers, inside *)
| K9 | K10.          (* the handshake ends; it is over *)
Inductive apc := ANone | A0 (* has mux2, wants the handshake mutex *) | A1 (* inside ConnectionState() *) | A2 (v : nat) (* about to write *) | A3 | A4.
Inductive opc := O0 | O1 (late : bool) (* has RLock, wants mux2 *) | O2 (late : bool) (* reads *) | O3 (late : bool) (v : nat).
Inductive wpc := W0 | W1 (early : bool) (* inside ConnectionState() *) | W2 (early : bool) (v : nat) | W3 (early : bool) (v : nat) (* waits for readers *) | W4 (early : bool) (v : nat) (* writes *) | W5 (early : bool).
Record sys := mks { sh : hpc; sa : apc; so : list opc; sw : list wpc; result : nat (* of crypto/tls *); recorded : nat (* connectionState *) }.

Definition o_reads (o : opc) : bool := match o with O1 _ | O2 _ => true | _ => false end.
Definition o_m2 (o : opc) : bool := match o with O2 _ => true | _ => false end.
Definition w_hs (w : wpc) : bool := match w with W1 _ => true | _ => false end.
Definition w_mux (w : wpc) : bool := match w with W3 _ _ | W4 _ _ => true | _ => false end.
Definition readers (s : sys) : bool := existsb o_reads (so s) || match sh s with K3 | K4 => true | _ => false end.
Definition writer (s : sys) : bool := existsb w_mux (sw s) || match sh s with K7 | K8 => true | _ => false end.
Definition m2_taken (s : sys) : bool := existsb o_m2 (so s) || match sh s with K4 => true | _ => false end || match sa s with A0 | A1 | A2 _ | A3 => true | _ => false end.
Definition hs_taken (s : sys) : bool := existsb w_hs (sw s) || match sh s with K0 | K10 => false | _ => true end || match sa s with A1 => true | _ => false end.
Definition h_done (s : sys) : bool := match sh s with K10 => true | _ => false end.
Definition set_h (s : sys) (h : hpc) : sys := mks h (sa s) (so s) (sw s) (result s) (recorded s).
Definition set_a (s : sys) (a : apc) : sys := mks (sh s) a (so s) (sw s) (result s) (recorded s).
Definition set_o (s : sys) (l : list opc) : sys := mks (sh s) (sa s) l (sw s) (result s) (recorded s).
Definition set_w (s : sys) (l : list wpc) : sys := mks (sh s) (sa s) (so s) l (result s) (recorded s).
Definition record (s : sys) (v : nat) : sys := mks (sh s) (sa s) (so s) (sw s) (result s) v.

Section F.
Variable final : nat.    (* what the handshake comes to; 0: it fails *)
Inductive hstep (s : sys) : hpc -> sys -> Prop :=
| HS0 : hs_taken s = false -> hstep s K0 (set_h s K1)
| HS1 : hstep s K1 (set_h s K2)
| HS2 : writer s = false -> hstep s K2 (set_h s K3)
| HS3 : m2_taken s = false -> hstep s K3 (set_h s K4)
| HS4 : hstep s K4 (set_h s (if recorded s =? 0 then K5 else K6))
| HS5 : m2_taken s = false -> hstep s K5 (set_a (set_h s K6) A0)
| HS6 : writer s = false -> hstep s K6 (set_h s K7)
| HS7 : readers s = false -> hstep s K7 (set_h s K8)
| HS8 : hstep s K8 (set_h s K9)
| HS9 : hstep s K9 (mks K10 (sa s) (so s) (sw s) final (recorded s)).
Inductive astep (s : sys) : apc -> sys -> Prop :=
| AS0 : hs_taken s = false -> astep s A0 (set_a s A1)
| AS1 : astep s A1 (set_a s (A2 (result s)))
| AS2 : forall v, astep s (A2 v) (set_a (record s v) A3)
| AS3 : astep s A3 (set_a s A4).
(* connection_state.go:225-234 GetTLSConnectionState; late: it starts when A does or later *)
Definition late (s : sys) : bool := match sa s with ANone => false | _ => true end.
Inductive ostep (s : sys) : opc -> opc -> Prop :=
| OS0 : writer s = false -> ostep s O0 (O1 (late s))
| OS1 : forall b, m2_taken s = false -> ostep s (O1 b) (O2 b)
| OS2 : forall b, ostep s (O2 b) (O3 b (recorded s)).
(* connection_state_tracker.go:37-39 and connection_state.go:244-249; early: the state of the session is read before the handshake is over *)
Inductive wstep (s : sys) : wpc -> wpc -> nat (* recorded after *) -> Prop :=
| WS0 : hs_taken s = false -> wstep s W0 (W1 (negb (h_done s))) (recorded s)
| WS1 : forall b, wstep s (W1 b) (W2 b (result s)) (recorded s)
| WS2 : forall b v, writer s = false -> wstep s (W2 b v) (W3 b v) (recorded s)
| WS3 : forall b v, readers s = false -> wstep s (W3 b v) (W4 b v) (recorded s)
| WS4 : forall b v, wstep s (W4 b v) (W5 b) v.
Inductive step (s : sys) : sys -> Prop :=
| SH : forall s', hstep s (sh s) s' -> step s s'
| SA : forall s', astep s (sa s) s' -> step s s'
| SO : forall l r o o', so s = l ++ o :: r -> ostep s o o' -> step s (set_o s (l ++ o' :: r))
| SW : forall l r w w' v, sw s = l ++ w :: r -> wstep s w w' v -> step s (record (set_w s (l ++ w' :: r)) v).
Definition init (n m : nat) : sys := mks K0 ANone (repeat O0 n) (repeat W0 m) 0 0.
Inductive reach (n m : nat) : sys -> Prop :=
| RInit : reach n m (init n m)
| RNext : forall s s', reach n m s -> step s s' -> reach n m s'.
End F.
