(* Model: experimental/kafka-message-pii-filter/main.go, the proxy-wasm TCP filter that parses Kafka
   messages in both directions and redacts produced records.
   All line numbers refer to that file unless another file is named.

   OnDownstreamData (205-289) and OnUpstreamData (295-378) are the same text with the words exchanged;
   they are modelled once, with a [side] argument.  Logging is not modelled.  The host calls
   (GetDownstreamData, ReplaceDownstreamData, ...) do not fail and return the bytes the host has buffered.
   What the filter does with the contents of one message -- parsing, PII detection, re-serialisation -- is an
   argument ([env]); messages themselves are modelled in M_KMsg.v and the detection in M_Pii.v. *)
From Coq Require Import List ZArith Bool Arith.
From Verif Require Import M_KBase.
Import ListNotations.
Open Scope Z_scope.

Inductive side := Down | Up.
Inductive kind := Req | Resp.
(* 105-115 *)
Inductive direction := Unspecified | Inbound | Outbound.

(* 171-175 *)
Record ref := mkref { r_corr : Z; r_key : Z; r_ver : Z }.

(* outcome of request.Parse and of the PII search on one message (486-555): a parse error; a request whose bytes
   are passed on as they are; a request that was modified and serialised again (None: serialisation failed) *)
Inductive parsed := PErr | PSame (r : ref) | PMod (r : ref) (new : option (list Z)).

Record env := mkenv
  { e_parse : list Z -> parsed;                 (* request.Parse and DetectPII on the message *)
    e_resp : list Z -> ref -> bool;             (* response.Parse for that request succeeds *)
    e_grow : nat -> nat }.                      (* capacity after append to a full slice of that length *)

(* 151-169: buffers of one side; state of one handler *)
Record sbuf := mksbuf { b_inc : list Z; b_out : list Z }.
Record hst := mkhst { h_failed : bool; h_size : Z }.
Record ctx := mkctx
  { c_dir : direction; c_down : sbuf; c_up : sbuf; c_req : hst; c_resp : hst;
    c_q : list ref; c_r : nat; c_cap : nat }.

Definition buf (s : side) (c : ctx) : sbuf := match s with Down => c_down c | Up => c_up c end.
Definition set_buf (s : side) (b : sbuf) (c : ctx) : ctx :=
  match s with
  | Down => mkctx (c_dir c) b (c_up c) (c_req c) (c_resp c) (c_q c) (c_r c) (c_cap c)
  | Up => mkctx (c_dir c) (c_down c) b (c_req c) (c_resp c) (c_q c) (c_r c) (c_cap c)
  end.
Definition hnd (k : kind) (c : ctx) : hst := match k with Req => c_req c | Resp => c_resp c end.
Definition set_hnd (k : kind) (h : hst) (c : ctx) : ctx :=
  match k with
  | Req => mkctx (c_dir c) (c_down c) (c_up c) h (c_resp c) (c_q c) (c_r c) (c_cap c)
  | Resp => mkctx (c_dir c) (c_down c) (c_up c) (c_req c) h (c_q c) (c_r c) (c_cap c)
  end.
Definition set_queue (q : list ref) (r cap : nat) (c : ctx) : ctx :=
  mkctx (c_dir c) (c_down c) (c_up c) (c_req c) (c_resp c) q r cap.

(* 392-410, 422-440, 452-484: which handler serves which side *)
Definition kind_of (d : direction) (s : side) : option kind :=
  match d, s with
  | Inbound, Down => Some Req | Inbound, Up => Some Resp
  | Outbound, Down => Some Resp | Outbound, Up => Some Req
  | Unspecified, _ => None
  end.

(* 745-748 resetInFlightRequests *)
Definition reset_queue (c : ctx) : ctx := set_queue [] 0 (c_cap c) c.
(* 412-420 *)
Definition reset_handler (k : kind) (c : ctx) : ctx := set_hnd k (mkhst false 0) c.
(* 442-450: the cached size is kept *)
Definition fail_handler (k : kind) (c : ctx) : ctx := reset_queue (set_hnd k (mkhst true (h_size (hnd k c))) c).
(* 392-410 *)
Definition reset_side (s : side) (c : ctx) : ctx :=
  match kind_of (c_dir c) s with Some k => reset_handler k c | None => c end.
(* 422-440 *)
Definition fail_side (s : side) (c : ctx) : ctx :=
  match kind_of (c_dir c) s with Some k => fail_handler k c | None => c end.
(* 604-612 *)
Definition reset_buffers (s : side) (c : ctx) : ctx := set_buf s (mksbuf [] []) c.

(* 117-130 NewTcpContext: direction from the host property; slice of capacity 100 *)
Definition new_ctx (d : direction) : ctx :=
  mkctx d (mksbuf [] []) (mksbuf [] []) (mkhst false 0) (mkhst false 0) [] 0 100.
(* 179-199 OnNewConnection *)
Definition on_new_connection (c : ctx) : ctx :=
  reset_buffers Up (reset_buffers Down (reset_queue (reset_handler Resp (reset_handler Req c)))).
(* 380-390 OnDownstreamClose, OnUpstreamClose *)
Definition on_close (s : side) (c : ctx) : ctx := reset_buffers s (reset_handler Resp (reset_handler Req c)).

(* 710-732 enqueueInFlightRequest.  The backing array has c_cap elements; q is the slice.  None: reslicing beyond
   the capacity panics. *)
Definition enqueue (e : env) (x : ref) (c : ctx) : option ctx :=
  let l := length (c_q c) in
  let cp := c_cap c in
  if (cp <=? l)%nat then
    if (cp / 2 <=? c_r c)%nat then
      let rest := skipn (c_r c) (c_q c) in
      if (S (length rest) <=? cp)%nat then Some (set_queue (rest ++ [x]) 0 cp c) else None
    else Some (set_queue (c_q c ++ [x]) (c_r c) (e_grow e l) c)
  else Some (set_queue (c_q c ++ [x]) (c_r c) cp c).

(* 734-743 nextInFlightRequest *)
Definition next_request (c : ctx) : option (ref * ctx) :=
  match nth_error (c_q c) (c_r c) with
  | None => None                                                     (* index out of range *)
  | Some x => let r := S (c_r c) in
      Some (x, if (length (c_q c) <=? r)%nat then reset_queue c else set_queue (c_q c) r (c_cap c) c)
  end.

Inductive hres := HOk (out : list Z) (c : ctx) | HErr (c : ctx) | HPanic.

(* 486-555 handleKafkaRequestMessage: sizeAndMsgData[4:] panics on fewer than 4 bytes; the reference is enqueued
   before the PII search *)
Definition handle_request (e : env) (m : list Z) (c : ctx) : hres :=
  if (length m <? 4)%nat then HPanic else
  match e_parse e (skipn 4 m) with
  | PErr => HErr c
  | PSame r => match enqueue e r c with Some c' => HOk m c' | None => HPanic end
  | PMod r new =>
      match enqueue e r c with
      | None => HPanic
      | Some c' => match new with
                   | None => HErr c'
                   | Some n => HOk (be_enc 4 (to_unsigned 32 (Z.of_nat (length n))) ++ n) c'
                   end
      end
  end.

(* 557-577 handleKafkaResponseMessage: without an in-flight request the response is skipped, not written *)
Definition handle_response (e : env) (m : list Z) (c : ctx) : hres :=
  match c_q c with
  | [] => HOk [] c
  | _ :: _ =>
      match next_request c with
      | None => HPanic
      | Some (r, c') =>
          if (length m <? 4)%nat then HPanic
          else if e_resp e (skipn 4 m) r then HOk m c' else HErr c'
      end
  end.

(* 452-484 *)
Definition handle (e : env) (s : side) (m : list Z) (c : ctx) : hres :=
  match kind_of (c_dir c) s with
  | Some Req => handle_request e m c
  | Some Resp => handle_response e m c
  | None => HOk [] c
  end.

(* 836-844 kafkaMessageSize *)
Definition message_size (l : list Z) : option Z :=
  if (length l <? 4)%nat then None else Some (to_signed 32 (be_dec (firstn 4 l))).
(* 266, 355, 647, 695: int(kafkaMsgSizeBytesLen + msgSize), added as int32 *)
Definition complete_size (n : Z) : Z := to_signed 32 (4 + n).

(* 615-661, 663-708 *KafkaMessageDataAvailable with 750-798: the size is read from the incomplete data followed by
   the host's data; a cached size of 0 means that it has not been read *)
Definition available (s : side) (k : kind) (data : list Z) (c : ctx) : bool * ctx :=
  let all := b_inc (buf s c) ++ data in
  let check n c' := (complete_size n <=? Z.of_nat (length all), c') in
  if h_size (hnd k c) =? 0 then
    if (length all <? 4)%nat then (false, c)
    else let n := to_signed 32 (be_dec (firstn 4 all)) in
         check n (set_hnd k (mkhst (h_failed (hnd k c)) n) c)
  else check (h_size (hnd k c)) c.

Inductive action := Continue | Pause.
(* What the callback leaves: its action, the host's buffer, the context.  A panic kills the plugin's VM;
   [OHang]: the callback does not return. *)
Inductive outcome := ORet (a : action) (host : list Z) (c : ctx) | OPanic | OHang.

(* 258-288, 347-377: the loop over complete messages.  [fuel] is spent one unit per message; see C70_hang_exact for
   what running out of it means.  bytes.Buffer.Next(n) with n < 0 panics.  579-602: the output replaces the host's
   buffer; on an error in a message only the unread rest does (280, 369). *)
Fixpoint loop (e : env) (s : side) (data : list Z) (fuel : nat) (c : ctx) : outcome :=
  match fuel with
  | O => OHang
  | S f =>
      let b := buf s c in
      let done := ORet Continue (b_out b) (reset_side s (set_buf s (mksbuf (b_inc b) []) c)) in
      match b_inc b with
      | [] => done
      | _ =>
          match message_size (b_inc b) with
          | None => ORet Continue data (fail_side s c)
          | Some n =>
              let cs := complete_size n in
              if Z.of_nat (length (b_inc b)) <? cs then done
              else if cs <? 0 then OPanic
              else
                let m := firstn (Z.to_nat cs) (b_inc b) in
                let rest := skipn (Z.to_nat cs) (b_inc b) in
                match handle e s m (set_buf s (mksbuf rest (b_out b)) c) with
                | HPanic => OPanic
                | HErr c' => ORet Continue rest (fail_side s c')
                | HOk o c' => loop e s data f (set_buf s (mksbuf rest (b_out b ++ o)) c')
                end
          end
      end
  end.

(* 205-289, 295-378: data = everything the host has buffered for this side *)
Definition on_data (e : env) (s : side) (data : list Z) (eos : bool) (c : ctx) : outcome :=
  match kind_of (c_dir c) s with
  | None => ORet Continue data c
  | Some k =>
      if h_failed (c_req c) || h_failed (c_resp c) then ORet Continue data c
      else if eos && (length data + length (b_inc (buf s c)) =? 0)%nat then
        ORet Continue data (reset_side s (reset_buffers s c))
      else
        let (ready, c1) := available s k data c in
        if negb ready then
          if eos && (length data =? 0)%nat then ORet Continue data (reset_side s (reset_buffers s c1))
          else ORet Pause data c1
        else
          let all := b_inc (buf s c1) ++ data in
          loop e s data (S (S (length all))) (set_buf s (mksbuf all (b_out (buf s c1))) c1)
  end.

(* The host (proxy-wasm ABI; pkg/proxywasm/tcp/conn.go, see M_WasmTcp.v): bytes that arrive are appended to the
   side's buffer and the callback is called; on Continue the buffer is passed on and emptied, on Pause it is kept. *)
Record host := mkhost { w_ctx : ctx; w_bufd : list Z; w_bufu : list Z; w_outd : list Z; w_outu : list Z; w_dead : bool }.
Definition hbuf (s : side) (w : host) : list Z := match s with Down => w_bufd w | Up => w_bufu w end.
Definition hout (s : side) (w : host) : list Z := match s with Down => w_outd w | Up => w_outu w end.
Definition set_side (s : side) (b o : list Z) (w : host) : host :=
  match s with
  | Down => mkhost (w_ctx w) b (w_bufu w) o (w_outu w) (w_dead w)
  | Up => mkhost (w_ctx w) (w_bufd w) b (w_outd w) o (w_dead w)
  end.
Definition set_ctx (c : ctx) (w : host) : host := mkhost c (w_bufd w) (w_bufu w) (w_outd w) (w_outu w) (w_dead w).
Definition kill (w : host) : host := mkhost (w_ctx w) (w_bufd w) (w_bufu w) (w_outd w) (w_outu w) true.
Definition arrive (e : env) (s : side) (chunk : list Z) (eos : bool) (w : host) : host :=
  if w_dead w then w else
  let data := hbuf s w ++ chunk in
  match on_data e s data eos (w_ctx w) with
  | ORet Continue h c => set_side s [] (hout s w ++ h) (set_ctx c w)
  | ORet Pause h c => set_side s h (hout s w) (set_ctx c w)
  | OPanic | OHang => kill w
  end.
Definition connection (d : direction) : host := mkhost (on_new_connection (new_ctx d)) [] [] [] [] false.
Definition run (e : env) (l : list (side * list Z)) (w : host) : host :=
  fold_left (fun w ev => arrive e (fst ev) (snd ev) false w) l w.
