(* pkg/proxywasm/tcp/conn.go: the filtered connection. Bytes are Z. The network and the filter chain are the lists of the
   results they will give, in order; a list that has run out stands for a call that has not returned yet. *)
From Coq Require Import List Arith ZArith Bool.
Import ListNotations.
Open Scope list_scope.
Definition bytes := list Z.
(* result of c.Conn.Read: data and nil / io.EOF / another error *)
Inductive nerr := NNil | NEof | NFail.
(* result of stream.Handle*Data (stream.go:250-302): done, paused, or error. The filters leave the buffer unchanged. *)
Inductive fdec := FDone | FPause | FErr.
Inductive rerr := ENil | EEof | EFail | EFilter.
(* outcome of a Read: the bytes copied to the caller and the error, or not yet returned *)
Inductive rout := RRet (d : bytes) (e : rerr) | RBlocked.
(* conn.go:41-45: readCacheBuffer and readBuffer; closed *)
Record rst := mkr { r_cache : bytes; r_buf : bytes; r_closed : bool }.
Definition world := (list (bytes * nerr) * list fdec)%type.
(* conn.go:130-166: the loop of read. Result: the network error of the last read, the grown readBuffer, or an early return *)
Inductive lout := LDone (e : nerr) | LRet (e : rerr) | LBlocked.
Fixpoint read_loop (net : list (bytes * nerr)) (filt : list fdec) (buf : bytes) : lout * bytes * world :=
  match net with
  | [] => (LBlocked, buf, ([], filt))
  | (d, e) :: net' =>
      match e with
      | NFail => (LRet EFail, buf, (net', filt))
      | _ =>
          let buf' := buf ++ d in
          match filt with
          | [] => (LBlocked, buf', (net', []))
          | FErr :: filt' => (LRet EFilter, buf', (net', filt'))
          | FDone :: filt' => (LDone e, buf', (net', filt'))
          | FPause :: filt' => match e with NEof => (LDone NEof, buf', (net', filt')) | _ => read_loop net' filt' buf' end
          end
      end
  end.
(* conn.go:108-182 read, for a caller's buffer of len bytes. A bytes.Buffer.Read takes up to len bytes from the front. *)
Definition read1 (s : rst) (w : world) (len : nat) : rout * rst * world :=
  if r_closed s then (RRet [] EEof, s, w)
  else
    let x := firstn len (r_cache s) in
    let cache' := skipn len (r_cache s) in
    if (length x =? len)%nat then (RRet x ENil, mkr cache' (r_buf s) false, w)
    else
      let '(o, buf, w') := read_loop (fst w) (snd w) (r_buf s) in
      match o with
      | LBlocked => (RBlocked, mkr cache' buf false, w')
      | LRet e => (RRet x e, mkr cache' buf false, w')
      | LDone e =>
          let m := (len - length x)%nat in
          (RRet (x ++ firstn m buf) (match e with NEof => EEof | _ => ENil end), mkr (cache' ++ skipn m buf) [] false, w')
      end.
(* conn.go:96-106 Read: a second try after (0, nil) *)
Definition read (s : rst) (w : world) (len : nat) : rout * rst * world :=
  match read1 s w len with
  | (RRet [] ENil, s', w') => read1 s' w' len
  | r => r
  end.
(* a history of Read calls with the given buffer sizes; stops at a call that does not return. Result: what each returned *)
Fixpoint reads (s : rst) (w : world) (lens : list nat) : list (bytes * rerr) * rst * world :=
  match lens with
  | [] => ([], s, w)
  | l :: lens' =>
      match read s w l with
      | (RBlocked, s', w') => ([], s', w')
      | (RRet d e, s', w') => let '(r, s2, w2) := reads s' w' lens' in ((d, e) :: r, s2, w2)
      end
  end.
Definition new_r : rst := mkr [] [] false.
(* ---- writing ---- *)
(* result of c.Conn.Write(data): success, or an error after k bytes *)
Inductive wres := WOk | WFail (k : nat).
(* conn.go:34 internalWriteBufferSize *)
Definition wsize : nat := N.to_nat 4096.
(* conn.go:184-231 Write: the flush loop in pieces of 4096; the flag is false if c.Conn.Write failed. Result: the remaining
   writeBuffer, what went to the peer, the remaining write results. A write result that is not in the list succeeds. *)
Fixpoint flush (fuel : nat) (buf : bytes) (ws : list wres) : bool * bytes * bytes * list wres :=
  match fuel with
  | O => (true, buf, [], ws)
  | S f =>
      let data := firstn wsize buf in
      match data with
      | [] => (true, buf, [], ws)
      | _ =>
          match ws with
          | WFail k :: ws' => (false, skipn wsize buf, firstn k data, ws')
          | _ => let '(ok, rest, sent, ws2) := flush f (skipn wsize buf) (tl ws) in (ok, rest, data ++ sent, ws2)
          end
      end
  end.
(* state: writeBuffer and the bytes the peer has received *)
Record wst := mkw { w_buf : bytes; w_sent : bytes; w_closed : bool }.
Inductive wout := WRet (n : nat) (e : rerr).
Definition write (s : wst) (b : bytes) (f : fdec) (ws : list wres) : wout * wst * list wres :=
  if w_closed s then (WRet 0 EEof, s, ws)
  else
    let buf := w_buf s ++ b in
    match f with
    | FErr => (WRet (length b) EFilter, mkw buf (w_sent s) false, ws)
    | FPause => (WRet (length b) ENil, mkw buf (w_sent s) false, ws)
    | FDone =>
        let '(ok, rest, sent, ws') := flush (S (length buf)) buf ws in
        if ok then (WRet (length b) ENil, mkw rest (w_sent s ++ sent) false, ws')
        else (WRet 0 EFail, mkw rest (w_sent s ++ sent) false, ws')
    end.
Fixpoint writes (s : wst) (ops : list (bytes * fdec)) (ws : list wres) : list wout * wst * list wres :=
  match ops with
  | [] => ([], s, ws)
  | (b, f) :: ops' => let '(o, s', ws') := write s b f ws in let '(os, s2, ws2) := writes s' ops' ws' in (o :: os, s2, ws2)
  end.
Definition new_w : wst := mkw [] [] false.
(* conn.go:74-94 Close: after the underlying connection is closed; the buffers are not flushed *)
Definition close_w (s : wst) : wst := mkw (w_buf s) (w_sent s) true.
Definition close_r (s : rst) : rst := mkr (r_cache s) (r_buf s) true.
