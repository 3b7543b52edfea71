(* Model: /repo/pkg/network/listener/unified_tls_listener.go, multi_listener.go and /repo/pkg/network/connection.go,
   connection_state.go. *)
From Coq Require Import String List Bool ZArith.
From Verif Require Import M_GoMap.
Import ListNotations.
Open Scope Z_scope.

(* ---- the peer's byte stream as the accepted connection sees it: the segments that arrive, and whether the peer closes
   after them (otherwise a read beyond them blocks) ---- *)
Record wire := mkwire { w_segs : list (list Z); w_fin : bool }.
Definition wire_bytes (w : wire) : list Z := concat (w_segs w).
Inductive rres := RData (b : list Z) (w : wire) | REof | RBlock.
(* net.Conn.Read with a buffer of n > 0 bytes: some bytes of the first non-empty segment *)
Fixpoint wire_read (n : nat) (segs : list (list Z)) (fin : bool) : rres :=
  match segs with
  | [] => if fin then REof else RBlock
  | [] :: r => wire_read n r fin
  | s :: r => RData (firstn n s) (mkwire (match skipn n s with [] => r | t => t :: r end) fin)
  end.
(* bufio.Reader (Go standard library) of 4096 bytes over the connection: its buffered bytes and the connection *)
Record breader := mkbr { br_buf : list Z; br_w : wire }.
Definition bufsize : nat := 4096.
(* bufio.Reader.Peek(n): fill until n bytes are there; fuel bounds the number of fills *)
Inductive pres := PData (b : breader) | PEof (b : breader) | PBlock.
Fixpoint bpeek (n : nat) (fuel : nat) (b : breader) : pres :=
  if (n <=? length (br_buf b))%nat then PData b else
  match fuel with
  | O => PBlock
  | S f => match wire_read (bufsize - length (br_buf b)) (w_segs (br_w b)) (w_fin (br_w b)) with
           | RData d w' => bpeek n f (mkbr (br_buf b ++ d) w')
           | REof => PEof b
           | RBlock => PBlock
           end
  end.
(* bufio.Reader.Read with len(p) = n > 0: buffered bytes first; an empty buffer is filled by one read, large reads bypass it *)
Inductive brres := BData (d : list Z) (b : breader) | BEof | BBlock.
Definition bread (n : nat) (b : breader) : brres :=
  match br_buf b with
  | [] => if (bufsize <=? n)%nat
          then match wire_read n (w_segs (br_w b)) (w_fin (br_w b)) with RData d w' => BData d (mkbr [] w') | REof => BEof | RBlock => BBlock end
          else match wire_read bufsize (w_segs (br_w b)) (w_fin (br_w b)) with RData d w' => BData (firstn n d) (mkbr (skipn n d) w') | REof => BEof | RBlock => BBlock end
  | buf => BData (firstn n buf) (mkbr (skipn n buf) (br_w b))
  end.

(* isTLSHandhsake, unified_tls_listener.go:36-47 *)
Definition is_tls_handshake (b : list Z) : bool :=
  match b with
  | b0 :: b1 :: b2 :: _ =>
      if negb (b0 =? 22) then false else
      let v := b1 * 256 + b2 in
      (v =? 769) || (v =? 770) || (v =? 771) || (v =? 772)
  | _ => false
  end.
(* what Accept returns; the reader is what the upper layer (TLS or the application) reads from *)
Inductive accepted :=
| APlain (b : breader) | ATls (b : breader)
| AClosed (b : breader)   (* a connection that is already closed *)
| ABlocked.               (* Accept does not return *)
(* Accept, unified_tls_listener.go:134-180, on a connection whose peer sends w; the connection wrapper and the error cases
   other than EOF are not modelled; without peeking the upper layer reads the connection itself, which is a reader with an
   empty buffer *)
Definition unified_accept (mode : string) (w : wire) : accepted :=
  if String.eqb mode "PERMISSIVE" then
    match bpeek 3 4 (mkbr [] w) with
    | PData b => if is_tls_handshake (firstn 3 (br_buf b)) then ATls b else APlain b
    | PEof b => AClosed b
    | PBlock => ABlocked
    end
  else if String.eqb mode "DISABLED" then APlain (mkbr [] w)
  else ATls (mkbr [] w).

(* ---- multi_listener.go ---- *)
(* an added listener: its address and the result of its ID() method if it has one *)
Record lsn := mklsn { l_addr : string; l_id : option string }.
(* getID, :218-227 *)
Definition get_id (l : lsn) : string := match l_id l with Some i => i | None => l_addr l end.
(* getID of the wrapper type listener, which embeds net.Listener and so has no ID method, :58-63 *)
Definition get_id_wrapped (l : lsn) : string := l_addr l.
Inductive mgo := GAccept | GSend (c : nat) | GStop.         (* startListener goroutine, :202-215 *)
Inductive mjob :=
| MStore (l : lsn)                  (* AddListener after the Load, before the Store, :127 *)
| MRemove (todo : list lsn)         (* Close removing the listeners, :178-180 *)
| MCloseChan | MFlag                (* before close(acceptChan), :182; before closed.Store(true), :184 *)
| MEnd.
Record mlis := mkml { m_map : gmap nat (* id -> added listener *); m_info : list (lsn * mgo * bool) (* per added listener: itself, its goroutine, closed *);
  m_chan : list nat (* buffered connections, capacity 1 *); m_chclosed : bool; m_closed : bool; m_jobs : list mjob;
  m_deliv : list nat (* returned by Accept *); m_next : nat; m_panic : bool; m_wait : nat (* Accept calls past the check of closed, :148 *) }.
Fixpoint lset {A} (l : list A) (j : nat) (x : A) : list A :=
  match l, j with [], _ => [] | _ :: r, O => x :: r | y :: r, S j' => y :: lset r j' x end.
Inductive mlabel := MLAdd (l : lsn) (ok : bool) | MLAccept (r : option nat) (* None: ErrListenerClosed *) | MLClose (ok : bool) | MLIncoming (i : nat) (c : nat) | MLOther.
Definition mupd (m : mlis) (mp : gmap nat) (inf : list (lsn * mgo * bool)) (js : list mjob) : mlis := mkml mp inf (m_chan m) (m_chclosed m) (m_closed m) js (m_deliv m) (m_next m) (m_panic m) (m_wait m).
(* RemoveListener given the id, :136-145: LoadAndDelete and cancel, which closes the listener *)
Definition m_remove (id : string) (m : mlis) : gmap nat * list (lsn * mgo * bool) :=
  match mget id (m_map m) with
  | Some i => (mdel id (m_map m), match nth_error (m_info m) i with Some (l, g, _) => lset (m_info m) i (l, g, true) | None => m_info m end)
  | None => (m_map m, m_info m)
  end.
Inductive mstep : mlis -> mlabel -> mlis -> Prop :=
| ML_add_closed : forall m l, m_panic m = false -> m_closed m = true -> mstep m (MLAdd l false) m
| ML_add_dup : forall m l i, m_panic m = false -> m_closed m = false -> mget (get_id l) (m_map m) = Some i -> mstep m (MLAdd l false) m
| ML_add : forall m l, m_panic m = false -> m_closed m = false -> mget (get_id l) (m_map m) = None -> mstep m (MLAdd l true) (mupd m (m_map m) (m_info m) (m_jobs m ++ [MStore l]))
| ML_store : forall m j l, m_panic m = false -> nth_error (m_jobs m) j = Some (MStore l) ->
    mstep m MLOther (mupd m (mset (get_id l) (length (m_info m)) (m_map m)) (m_info m ++ [(l, GAccept, false)]) (lset (m_jobs m) j MEnd))
| ML_remove : forall m l, m_panic m = false -> mstep m MLOther (mupd m (fst (m_remove (get_id l) m)) (snd (m_remove (get_id l) m)) (m_jobs m))
| ML_incoming : forall m i l, m_panic m = false -> nth_error (m_info m) i = Some (l, GAccept, false) ->
    mstep m (MLIncoming i (m_next m)) (mkml (m_map m) (lset (m_info m) i (l, GSend (m_next m), false)) (m_chan m) (m_chclosed m) (m_closed m) (m_jobs m) (m_deliv m) (S (m_next m)) false (m_wait m))
| ML_stop : forall m i l, m_panic m = false -> nth_error (m_info m) i = Some (l, GAccept, true) -> mstep m MLOther (mupd m (m_map m) (lset (m_info m) i (l, GStop, true)) (m_jobs m))
| ML_send : forall m i l c b, m_panic m = false -> nth_error (m_info m) i = Some (l, GSend c, b) -> m_chclosed m = false -> m_chan m = [] ->
    mstep m MLOther (mkml (m_map m) (lset (m_info m) i (l, GAccept, b)) [c] false (m_closed m) (m_jobs m) (m_deliv m) (m_next m) false (m_wait m))
| ML_send_panic : forall m i l c b, m_panic m = false -> nth_error (m_info m) i = Some (l, GSend c, b) -> m_chclosed m = true ->
    mstep m MLOther (mkml (m_map m) (m_info m) (m_chan m) true (m_closed m) (m_jobs m) (m_deliv m) (m_next m) true (m_wait m))
(* Accept, :147-162 *)
| ML_accept_closed : forall m, m_panic m = false -> m_closed m = true -> mstep m (MLAccept None) m
| ML_accept_enter : forall m, m_panic m = false -> m_closed m = false -> mstep m MLOther (mkml (m_map m) (m_info m) (m_chan m) (m_chclosed m) false (m_jobs m) (m_deliv m) (m_next m) false (S (m_wait m)))
| ML_accept_drained : forall m w, m_panic m = false -> m_wait m = S w -> m_chclosed m = true -> m_chan m = [] -> mstep m (MLAccept None) (mkml (m_map m) (m_info m) [] true (m_closed m) (m_jobs m) (m_deliv m) (m_next m) false w)
| ML_accept : forall m w c r, m_panic m = false -> m_wait m = S w -> m_chan m = c :: r ->
    mstep m (MLAccept (Some c)) (mkml (m_map m) (m_info m) r (m_chclosed m) (m_closed m) (m_jobs m) (c :: m_deliv m) (m_next m) false w)
(* Close, :164-189 *)
| ML_close_closed : forall m, m_panic m = false -> m_closed m = true -> mstep m (MLClose false) m
| ML_close : forall m, m_panic m = false -> m_closed m = false ->
    mstep m (MLClose true) (mupd m (m_map m) (m_info m) (m_jobs m ++ [MRemove (flat_map (fun e => match nth_error (m_info m) (snd e) with Some (l, _, _) => [l] | None => [] end) (m_map m))]))
| ML_close_one : forall m j l todo, m_panic m = false -> nth_error (m_jobs m) j = Some (MRemove (l :: todo)) ->
    mstep m MLOther (mupd m (fst (m_remove (get_id_wrapped l) m)) (snd (m_remove (get_id_wrapped l) m)) (lset (m_jobs m) j (MRemove todo)))
| ML_close_all : forall m j, m_panic m = false -> nth_error (m_jobs m) j = Some (MRemove []) -> mstep m MLOther (mupd m (m_map m) (m_info m) (lset (m_jobs m) j MCloseChan))
| ML_close_chan : forall m j, m_panic m = false -> nth_error (m_jobs m) j = Some MCloseChan ->
    mstep m MLOther (mkml (m_map m) (m_info m) (m_chan m) true (m_closed m) (lset (m_jobs m) j MFlag) (m_deliv m) (m_next m) (m_chclosed m) (m_wait m))
| ML_flag : forall m j, m_panic m = false -> nth_error (m_jobs m) j = Some MFlag ->
    mstep m MLOther (mkml (m_map m) (m_info m) (m_chan m) (m_chclosed m) true (lset (m_jobs m) j MEnd) (m_deliv m) (m_next m) false (m_wait m)).
Inductive msteps : mlis -> list mlabel -> mlis -> Prop :=
| MS_nil : forall m, msteps m [] m
| MS_cons : forall a l b ls c, mstep a l b -> msteps b ls c -> msteps a (l :: ls) c.
Definition new_mlis : mlis := mkml [] [] [] false false [] [] 0 false 0.

(* ---- connection.go, connection_state.go; time is a number, 0 is the zero time ---- *)
(* SetTimeToFirstByte, connection_state.go:194-201 *)
Definition set_ttfb (cur t : Z) : Z := if cur =? 0 then t else cur.
Inductive cop :=
| CRead (n : nat) (failed : bool) (at_ : Z)   (* Read returned n bytes at this time, connection.go:121-129 *)
| CWrite (n : nat) (failed : bool) (at_ : Z)  (* connection.go:131-139 *)
| CToContext                                   (* ConnectionStateToContextFromNetConn, connection_state.go:80-88: sets the zero time *)
| CReset.                                      (* ResetTimeToFirstByte, connection_state.go:187-192 *)
Definition ttfb_apply (cur : Z) (o : cop) : Z :=
  match o with CRead _ _ t => set_ttfb cur t | CWrite _ _ t => set_ttfb cur t | CToContext => set_ttfb cur 0 | CReset => 0 end.
(* Close, connection.go:141-159: the calls it makes and whether it succeeds; each may fail *)
Inductive ccall := KBefore | KClose | KAfter.
Definition conn_close (wrapper : bool) (before_err close_err after_err : bool) : list ccall * bool :=
  if wrapper && before_err then ([KBefore], false)
  else let pre := if wrapper then [KBefore] else [] in
       if close_err then (pre ++ [KClose], false)
       else if wrapper then (pre ++ [KClose; KAfter], negb after_err) else (pre ++ [KClose], true).
