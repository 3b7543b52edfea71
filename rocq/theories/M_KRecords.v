(* Model: records, record batches and the "records" field of components/kafka-protocol-go
   (pkg/protocol/types/fields/{recordheader,batchrecord,recordbatch,recordbatches,records}.go).

   The chunk readers these functions use are modelled by their windows: reading through a chunk of n
   bytes is reading [firstn n s] (C06 proves that chunk readers behave so); what is left unread of the
   window stays in front of the bytes behind the window.

   Compression libraries are not modelled: they are an argument [codec] of the functions below. *)
From Coq Require Import List ZArith Bool.
From Verif Require Import M_KBase M_KFields.
Import ListNotations.
Open Scope Z_scope.

(* compression oracle: [cz_enc t x] the bytes the encoder of type t (1 gzip, 2 snappy, 3 lz4, 4 zstd)
   emits for x; [cz_dec t w] the decompressed bytes of window w and the bytes of w left unread.
   Simplification: the decoder is run over the window at once instead of on demand; M_KGzip models gzip on
   demand, where fields of 16 KiB or more can be read short (C86). *)
Record codec := mkcodec { cz_enc : Z -> list Z -> option (list Z); cz_dec : Z -> list Z -> option (list Z * list Z) }.

(* recordheader.go:32-35; nil and empty key are not distinguished by any function *)
Record hdr := mkhdr { h_key : list Z; h_val : option (list Z) }.
(* batchrecord.go:36-43 *)
Record record := mkrec { r_attr : Z; r_ts : Z; r_off : Z;
  r_key : option (list Z); r_val : option (list Z); r_hdrs : option (list hdr) }.
(* recordbatch.go:53-68 (isComplete omitted: only String() looks at it) *)
Record batch := mkbatch { b_base : Z; b_len : Z; b_epoch : Z; b_magic : Z; b_crc : Z; b_attrs : Z;
  b_lod : Z; b_bts : Z; b_mts : Z; b_pid : Z; b_pep : Z; b_seq : Z; b_recs : list record }.
(* recordbatches.go:30-33 *)
Record batches := mkbatches { bs_nil : bool; bs_items : list batch }.

Definition zero_hdr := mkhdr [] None.
Definition zero_rec := mkrec 0 0 0 None None None.

(* r.Read(p) with len(p) = n > 0, and the test "n != len" whose errors.WrapIf(nil, ...) is nil:
   None stands for "return nil" in the caller *)
Definition rd_part (n : nat) (s : list Z) : rres (option (list Z)) :=
  rbind (rd_bytes n s) (fun l r => ROk (if Nat.eqb (length l) n then Some l else None) r).

(* the nullable byte string inside records: batchrecord.go:185-203, 205-224, recordheader.go:119-138 *)
Definition rd_nbytes (s : list Z) : rres (option (option (list Z))) :=
  rbind (rd_varint32 s) (fun n r =>
    if n <? 0 then ROk (Some None) r
    else if n =? 0 then ROk (Some (Some [])) r
    else rbind (rd_part (Z.to_nat n) r) (fun o r' => ROk (option_map Some o) r')).

(* recordheader.go:99-143 Read: a short key or value returns nil, leaving the header zero *)
Definition rd_hdr (s : list Z) : rres hdr :=
  rbind (rd_varint32 s) (fun n r =>
  rbind (if n >? 0 then rd_part (Z.to_nat n) r else ROk (Some []) r) (fun k r1 =>
  match k with
  | None => ROk zero_hdr r1
  | Some key =>
    rbind (rd_nbytes r1) (fun v r2 =>
    match v with
    | None => ROk zero_hdr r2
    | Some val => ROk (mkhdr key val) r2
    end)
  end)).

(* int32(len(x)) *)
Definition i32len {A} (l : list A) : Z := to_signed 32 (zlen l).
Definition wr_nbytes (o : option (list Z)) : option (list Z) :=
  match o with
  | None => wr_varint32 (-1)
  | Some l => obind (wr_varint32 (i32len l)) (fun h => Some (h ++ l))
  end.
(* recordheader.go:145-182 Write *)
Definition wr_hdr (h : hdr) : option (list Z) :=
  obind (wr_varint32 (i32len (h_key h))) (fun a =>
  obind (wr_nbytes (h_val h)) (fun b => Some (a ++ h_key h ++ b))).
Definition sz_nbytes (o : option (list Z)) : Z :=
  match o with
  | None => int32_size (-1)
  | Some l => int32_size (i32len l) + zlen l
  end.
(* recordheader.go:184-194 SizeInBytes *)
Definition sz_hdr (h : hdr) : Z := int32_size (i32len (h_key h)) + zlen (h_key h) + sz_nbytes (h_val h).
Definition hdr_list (r : record) : list hdr := match r_hdrs r with Some l => l | None => [] end.
Definition zsum (l : list Z) : Z := fold_right Z.add 0 l.
(* batchrecord.go:350-376 recordLength *)
Definition record_length (r : record) : Z :=
  1 + int64_size (r_ts r) + int32_size (r_off r) + sz_nbytes (r_key r) + sz_nbytes (r_val r)
  + int32_size (i32len (hdr_list r)) + zsum (map sz_hdr (hdr_list r)).
(* batchrecord.go:329-335 SizeInBytes *)
Definition sz_record (r : record) : Z := int32_size (to_signed 32 (record_length r)) + record_length r.

(* batchrecord.go:164-252 Read: a short key or value returns nil, leaving the record zero; a negative
   header count makes make() panic *)
Definition rd_record (s : list Z) : rres record :=
  rbind (rd_varint32 s) (fun rlen s1 =>
  rbind (rd_int 1 s1) (fun attr s2 =>
  rbind (rd_varint64 s2) (fun ts s3 =>
  rbind (rd_varint32 s3) (fun off s4 =>
  rbind (rd_nbytes s4) (fun k s5 =>
  match k with
  | None => ROk zero_rec s5
  | Some key =>
    rbind (rd_nbytes s5) (fun v s6 =>
    match v with
    | None => ROk zero_rec s6
    | Some val =>
      rbind (rd_varint32 s6) (fun nh s7 =>
      if nh <? 0 then RPanic else
      rbind (rd_items rd_hdr (Z.to_nat nh) s7) (fun hs s8 =>
        let r := mkrec attr ts off key val (Some hs) in
        if record_length r =? rlen then ROk r s8 else RErr false))
    end)
  end))))).
(* batchrecord.go:254-327 Write *)
Definition wr_record (r : record) : option (list Z) :=
  obind (wr_varint32 (to_signed 32 (record_length r))) (fun a =>
  obind (wr_varint64 (r_ts r)) (fun b =>
  obind (wr_varint32 (r_off r)) (fun c =>
  obind (wr_nbytes (r_key r)) (fun d =>
  obind (wr_nbytes (r_val r)) (fun e =>
  match r_hdrs r with
  | None => None
  | Some hs =>
    obind (wr_varint32 (i32len hs)) (fun f =>
    obind (wr_items wr_hdr hs) (fun g =>
      Some (a ++ [to_unsigned 8 (r_attr r)] ++ b ++ c ++ d ++ e ++ f ++ g)))
  end))))).

(* recordbatch.go:566-569, 553-557 *)
Definition compression (attrs : Z) : Z := Z.land attrs 7.
Definition is_control (attrs : Z) : bool := negb (Z.land attrs 32 =? 0).

(* crc32c/crc32c.go:19-21: CRC-32C, reflected polynomial 0x82F63B78, bit by bit *)
Fixpoint crc_bits (n : nat) (c : Z) : Z :=
  match n with
  | O => c
  | S k => crc_bits k (if Z.odd c then Z.lxor (Z.div2 c) 0x82F63B78 else Z.div2 c)
  end.
Definition crc32c (l : list Z) : Z :=
  Z.lxor (fold_left (fun c b => crc_bits 8 (Z.lxor c b)) l 0xFFFFFFFF) 0xFFFFFFFF.

Section WithCodec.
Variable cz : codec.

(* recordbatch.go:404-432 (the records part of read) and 571-608: window w holds the record bytes.
   lz4 and zstd readers do not support ReadByte (serialization/reader.go:71-74) so the first record
   fails; unknown types are an error. *)
Definition rd_batch_records (attrs : Z) (n : nat) (w : list Z) : rres (list record) :=
  let t := compression attrs in
  if t =? 0 then rd_items rd_record n w
  else if (t =? 1) || (t =? 2) then
    match cz_dec cz t w with
    | None => RErr false
    | Some (x, lft) =>
      match rd_items rd_record n x with
      | ROk l _ => ROk l lft
      | RErr e => RErr e
      | RPanic => RPanic
      end
    end
  else if t <=? 4 then
    match cz_dec cz t w, n with
    | Some (_, lft), O => ROk [] lft
    | _, _ => RErr false
    end
  else RErr false.

(* recordbatch.go:254-273 Read and 323-457 read, on the window of the batch *)
Definition rd_batch (w : list Z) : rres batch :=
  match nth_error w 16 with
  | Some 2 =>
    rbind (rd_int 8 w) (fun base s1 =>
    rbind (rd_int 4 s1) (fun blen s2 =>
    if zlen s2 <? blen then RErr false else
    let inner := firstn (Z.to_nat blen) s2 in
    let after := skipn (Z.to_nat blen) s2 in
    match
      rbind (rd_int 4 inner) (fun epoch i1 =>
      rbind (rd_int 1 i1) (fun magic i2 =>
      rbind (rd_int 4 i2) (fun crc i3 =>
      rbind (rd_int 2 i3) (fun attrs i4 =>
      rbind (rd_int 4 i4) (fun lod i5 =>
      rbind (rd_int 8 i5) (fun bts i6 =>
      rbind (rd_int 8 i6) (fun mts i7 =>
      rbind (rd_int 8 i7) (fun pid i8 =>
      rbind (rd_int 2 i8) (fun pep i9 =>
      rbind (rd_int 4 i9) (fun seq i10 =>
      rbind (rd_int 4 i10) (fun n i11 =>
      if n <? 0 then RPanic else
      rbind (rd_batch_records attrs (Z.to_nat n) i11) (fun recs i12 =>
      if is_control attrs && (1 <? zlen recs) then RErr false
      else ROk (mkbatch base blen epoch magic (to_unsigned 32 crc) attrs lod bts mts pid pep seq recs) i12
      )))))))))))) with
    | ROk b lft => ROk b (lft ++ after)
    | RErr e => RErr e
    | RPanic => RPanic
    end))
  | _ => RErr false
  end.

(* recordbatch.go:494-525: the record bytes of a batch *)
Definition wr_batch_records (b : batch) : option (list Z) :=
  match b_recs b with
  | [] => Some []
  | _ =>
    let t := compression (b_attrs b) in
    if t =? 0 then wr_items wr_record (b_recs b)
    else if t <=? 4 then obind (wr_items wr_record (b_recs b)) (cz_enc cz t)
    else None
  end.
(* recordbatch.go:275-289 Write and 459-544 write.  The code writes the 61 header bytes with zero
   length and CRC and patches both afterwards; the model emits the patched bytes. *)
Definition wr_batch (b : batch) : option (list Z) :=
  if negb (b_magic b =? 2) then None
  else obind (wr_batch_records b) (fun recs =>
    let blen := 49 + zlen recs in
    if blen >? max_u32 then None
    else
      let tail := wr_int 2 (b_attrs b) ++ wr_int 4 (b_lod b) ++ wr_int 8 (b_bts b) ++ wr_int 8 (b_mts b)
                  ++ wr_int 8 (b_pid b) ++ wr_int 2 (b_pep b) ++ wr_int 4 (b_seq b)
                  ++ wr_int 4 (zlen (b_recs b)) ++ recs in
      Some (wr_int 8 (b_base b) ++ wr_int 4 blen ++ wr_int 4 (b_epoch b) ++ wr_int 1 (b_magic b)
            ++ wr_int 4 (crc32c tail) ++ tail)).
(* recordbatch.go:291-296, 313-320 SizeInBytes (uncompressed size) *)
Definition sz_batch (b : batch) : Z := 61 + zsum (map sz_record (b_recs b)).

(* recordbatches.go:182-220 nextBatchSize on the unread window bytes s; None = error *)
Definition next_batch_size (s : list Z) : option Z :=
  if zlen s <? 12 then Some 0
  else
    let blen := to_signed 32 (be_dec (firstn 4 (skipn 8 s))) in
    if zlen s <? 17 then Some 0
    else let magic := to_signed 8 (nth 16 s 0) in
      if (magic <? 0) || (2 <? magic) then None else Some (blen + 12).

(* recordbatches.go:121-151 Read on the window s.  Every successful round consumes at least 61 bytes, so
   [fuel] = the window length is never exhausted (L_KBatch.rd_batches_fuel). *)
Fixpoint rd_batches_loop (fuel : nat) (s : list Z) : rres (list batch) :=
  match fuel with
  | O => ROk [] s
  | S f =>
    match next_batch_size s with
    | None => RErr false
    | Some size =>
      if (size =? 0) || (zlen s <? size) then ROk [] (if zlen s <? size then [] else s)
      else
        rbind (rd_batch (firstn (Z.to_nat size) s)) (fun b lft =>
        rbind (rd_batches_loop f (lft ++ skipn (Z.to_nat size) s)) (fun bs r => ROk (b :: bs) r))
    end
  end.
Definition rd_batches (s : list Z) : rres (list batch) := rd_batches_loop (S (length s)) s.
(* recordbatches.go:153-166 Write, 168-180 SizeInBytes *)
Definition wr_batches (l : list batch) : option (list Z) := wr_items wr_batch l.
Definition sz_batches (l : list batch) : Z := zsum (map sz_batch l).

(* records.go:36-46 Read, 159-202 *)
Definition rd_records (c : ctx) (ver : Z) (prev : batches) (s : list Z) : rres batches :=
  if negb (supported c ver) then ROk prev s
  else rbind (rd_len (flexible c ver) 4 s) (fun len r =>
    if len <? 0 then (if nullable c ver then ROk (mkbatches true []) r else RErr false)
    else if len =? 0 then ROk (mkbatches false (bs_items prev)) r
    else if zlen r <? len then RErr false
    else match rd_batches (firstn (Z.to_nat len) r) with
         | ROk bs lft => ROk (mkbatches false bs) (lft ++ skipn (Z.to_nat len) r)
         | RErr e => RErr e
         | RPanic => RPanic
         end).
(* records.go:48-83 SizeInBytes *)
Definition sz_records (c : ctx) (ver : Z) (d : batches) : option Z :=
  if negb (supported c ver) then Some 0
  else if bs_nil d then
    if nullable c ver then Some (sz_len (flexible c ver) 4 (-1)) else None
  else
    let n := sz_batches (bs_items d) in
    if (if flexible c ver then n + 1 >? max_u32 else n >? max_i32) then None
    else Some (sz_len (flexible c ver) 4 n + n).
(* records.go:85-157 Write: the length is inserted in front of the written batches *)
Definition wr_records (c : ctx) (ver : Z) (d : batches) : option (list Z) :=
  if negb (supported c ver) then Some []
  else if bs_nil d then
    if nullable c ver then wr_len (flexible c ver) 4 (-1) else None
  else obind (wr_batches (bs_items d)) (fun b =>
    let n := zlen b in
    if (if flexible c ver then n + 1 >? max_u32 else n >? max_i32) then None
    else obind (wr_len (flexible c ver) 4 n) (fun h => Some (h ++ b))).
End WithCodec.
