(* Model: reading the records of a gzip-compressed batch on demand, through the buffering reader of
   /repo/components/kafka-protocol-go/pkg/compression/gzip/gzip.go, and what serialization/reader.go makes of the other codecs.

   compress/gzip itself is an arbitrary source of bytes: a Read returns between one byte and what was asked for, and may tell the end together with
   the last bytes or afterwards.  The size of the buffer (16*1024) is the parameter [bs]. *)
From Coq Require Import List ZArith Bool.
From Verif Require Import M_KBase M_KFields M_KRecords.
Import ListNotations.
Open Scope Z_scope.

(* gzip.go:26-31.  g_buf: buf[r:w]; it is only filled when it is empty, and then from its start *)
Record gz := mkgz
  { g_buf : list Z;
    g_rest : list Z;               (* what the decompressor has not delivered yet *)
    g_fin : bool;                  (* how it ends: io.EOF, or another error (damaged data) *)
    g_plan : list (nat * bool) }.  (* how much the next Reads return at most, less one, and whether the end comes with the last bytes *)
Definition data (g : gz) : list Z := g_buf g ++ g_rest g.
(* r.rd.Read(p) with len(p) = n > 0: the bytes and the error (Some true: io.EOF) *)
Definition src_read (n : nat) (g : gz) : list Z * option bool * gz :=
  match g_rest g with
  | [] => ([], Some (g_fin g), g)
  | rest =>
    let '(k0, together) := hd (n, false) (g_plan g) in
    let k := Nat.min n (Nat.min (S k0) (length rest)) in
    (firstn k rest, if together && Nat.eqb k (length rest) then Some (g_fin g) else None, mkgz (g_buf g) (skipn k rest) (g_fin g) (tl (g_plan g)))
  end.
Definition with_buf (g : gz) (b : list Z) : gz := mkgz b (g_rest g) (g_fin g) (g_plan g).
(* gzip.go:110-128 fillInternalBuf; true: no error.  Every Read but the last returns a byte, so bs + 1 rounds are enough *)
Fixpoint fill (fuel bs : nat) (g : gz) : bool * gz :=
  match fuel with
  | O => (true, g)
  | S f =>
    if Nat.leb bs (length (g_buf g)) then (true, g)
    else
      let '(b, e, g1) := src_read (bs - length (g_buf g)) g in
      let g2 := with_buf g1 (g_buf g ++ b) in
      match e with
      | Some true => (true, g2)
      | Some false => (false, g2)
      | None => fill f bs g2
      end
  end.
(* gzip.go:33-77 Read with len(p) = n: the bytes that it says it read, and the error *)
Definition gz_read (bs n : nat) (g : gz) : list Z * option bool * gz :=
  if Nat.eqb n 0 then ([], None, g)
  else
    let first := firstn n (g_buf g) in
    let g1 := with_buf g (skipn n (g_buf g)) in
    if Nat.eqb (length first) n then (first, None, g1)
    else
      let n' := (n - length first)%nat in
      if Nat.leb bs n' then
        let '(b, e, g2) := src_read n' g1 in (first ++ b, e, g2)
      else
        let '(ok, g2) := fill (S bs) bs g1 in
        if ok : bool then
          match g_buf g2 with
          | [] => (first, Some true, g2)
          | b => (first ++ firstn n' b, None, with_buf g2 (skipn n' b))
          end
        else ([], Some false, g2).
(* gzip.go:79-103 *)
Definition gz_read_byte (bs : nat) (g : gz) : (Z + bool) * gz :=
  match g_buf g with
  | b :: r => (inl b, with_buf g r)
  | [] =>
    let '(ok, g2) := fill (S bs) bs g in
    if ok : bool then match g_buf g2 with [] => (inr true, g2) | b :: r => (inl b, with_buf g2 r) end
    else (inr false, g2)
  end.

(* ---- the readers of records, as in M_KRecords, on a gz instead of a list ---- *)
Inductive gres (A : Type) := GOk (a : A) (g : gz) | GErr | GPanic.
Arguments GOk {A}. Arguments GErr {A}. Arguments GPanic {A}.
Definition gbind {A B} (x : gres A) (f : A -> gz -> gres B) : gres B := match x with GOk a g => f a g | GErr => GErr | GPanic => GPanic end.
Section Readers.
Variable bs : nat.
(* encoding/binary ReadUvarint, as rd_uvarint_go *)
Fixpoint gz_uvarint_go (fuel : nat) (i x : Z) (g : gz) : gres Z :=
  match fuel with
  | O => GErr
  | S f =>
    match gz_read_byte bs g with
    | (inr _, _) => GErr
    | (inl b, g') =>
      if b <? 128 then if (i =? 9) && (1 <? b) then GErr else GOk (x + b * 2 ^ (7 * i)) g'
      else gz_uvarint_go f (i + 1) (x + (b mod 128) * 2 ^ (7 * i)) g'
    end
  end.
Definition gz_uvarint (g : gz) : gres Z := gz_uvarint_go 10 0 0 g.
(* varint.go:201-211, 237-253, 293-300 *)
Definition gz_varint32 (g : gz) : gres Z := gbind (gz_uvarint g) (fun v g' => if 2 ^ 32 <=? v then GErr else GOk (to_signed 32 (zz_dec v)) g').
Definition gz_varint64 (g : gz) : gres Z := gbind (gz_uvarint g) (fun u g' => GOk (zz_dec u) g').
(* int.go ReadInt8_ *)
Definition gz_int8 (g : gz) : gres Z :=
  match gz_read bs 1 g with
  | (l, None, g') => if Nat.eqb (length l) 1 then GOk (to_signed 8 (be_dec l)) g' else GErr
  | (_, Some _, _) => GErr
  end.
(* rd_part: an error is an error, a short read without one makes the caller return nil *)
Definition gz_part (n : nat) (g : gz) : gres (option (list Z)) :=
  match gz_read bs n g with
  | (l, None, g') => GOk (if Nat.eqb (length l) n then Some l else None) g'
  | (_, Some _, _) => GErr
  end.
Definition gz_nbytes (g : gz) : gres (option (option (list Z))) :=
  gbind (gz_varint32 g) (fun n g1 =>
    if n <? 0 then GOk (Some None) g1
    else if n =? 0 then GOk (Some (Some [])) g1
    else gbind (gz_part (Z.to_nat n) g1) (fun o g2 => GOk (option_map Some o) g2)).
(* recordheader.go:99-143 *)
Definition gz_hdr (g : gz) : gres hdr :=
  gbind (gz_varint32 g) (fun n g1 =>
  gbind (if n >? 0 then gz_part (Z.to_nat n) g1 else GOk (Some []) g1) (fun k g2 =>
  match k with
  | None => GOk zero_hdr g2
  | Some key => gbind (gz_nbytes g2) (fun v g3 => match v with None => GOk zero_hdr g3 | Some val => GOk (mkhdr key val) g3 end)
  end)).
Fixpoint gz_items {A} (rd : gz -> gres A) (n : nat) (g : gz) : gres (list A) :=
  match n with
  | O => GOk [] g
  | S k => gbind (rd g) (fun a g1 => gbind (gz_items rd k g1) (fun l g2 => GOk (a :: l) g2))
  end.
(* batchrecord.go:164-252 *)
Definition gz_record (g : gz) : gres record :=
  gbind (gz_varint32 g) (fun rlen g1 =>
  gbind (gz_int8 g1) (fun attr g2 =>
  gbind (gz_varint64 g2) (fun ts g3 =>
  gbind (gz_varint32 g3) (fun off g4 =>
  gbind (gz_nbytes g4) (fun k g5 =>
  match k with
  | None => GOk zero_rec g5
  | Some key =>
    gbind (gz_nbytes g5) (fun v g6 =>
    match v with
    | None => GOk zero_rec g6
    | Some val =>
      gbind (gz_varint32 g6) (fun nh g7 =>
      if nh <? 0 then GPanic else
      gbind (gz_items gz_hdr (Z.to_nat nh) g7) (fun hs g8 =>
        let r := mkrec attr ts off key val (Some hs) in
        if record_length r =? rlen then GOk r g8 else GErr))
    end)
  end))))).
(* recordbatch.go:404-432 for gzip *)
Definition gz_records (n : nat) (g : gz) : gres (list record) := gz_items gz_record n g.
End Readers.
Definition BUFSIZE : nat := Z.to_nat 16384.

(* snappy.go:27-42 NewReader: all is read and decoded at once; :44-87 the writer: Write collects, Close writes the whole once *)
Record snw := mksn { sn_buf : list Z; sn_out : list (list Z) (* what was written to the underlying writer *) }.
Definition sn_write (w : snw) (p : list Z) : nat * snw := (length p, mksn (sn_buf w ++ p) (sn_out w)).
Definition sn_close (enc : list Z -> list Z) (w : snw) : snw := mksn [] (sn_out w ++ [enc (sn_buf w)]).
