(* Model: byte readers/writers of components/kafka-protocol-go, fixed-width integers, varints.
   Paths below are relative to /repo/components/kafka-protocol-go/.

   A byte is a Z in 0..255; a Go []byte is a list of bytes (nil slices are modelled explicitly where
   the code distinguishes them).  A *bytes.Reader is the list of its unread bytes.  Writers are
   modelled by the list of bytes they emit (None = the Go function returned an error); the fixed
   capacity of the target buffer is modelled separately (M_KIo.v, and [serialize] in M_KSchema.v). *)
From Coq Require Import List ZArith Bool.
Import ListNotations.
Open Scope Z_scope.

(* Result of a Go Read function: value and remaining input; or an error, with the one bit of it that
   callers inspect (errors.Is(err, io.EOF)); or a run-time panic (make with negative length). *)
Inductive rres (A : Type) : Type :=
| ROk (a : A) (rest : list Z)
| RErr (eof : bool)
| RPanic.
Arguments ROk {A} a rest.
Arguments RErr {A} eof.
Arguments RPanic {A}.

Definition rbind {A B} (m : rres A) (f : A -> list Z -> rres B) : rres B :=
  match m with
  | ROk a r => f a r
  | RErr e => RErr e
  | RPanic => RPanic
  end.

(* error wrapping that loses nothing (errors.WrapIf keeps the cause) is the identity on [rres] *)

(* Go's bytes.Reader.Read into a buffer of n bytes: io.EOF iff nothing is unread (even for n = 0),
   otherwise min(n, unread) bytes. *)
Definition rd_bytes (n : nat) (s : list Z) : rres (list Z) :=
  match s with
  | [] => RErr true
  | _ => ROk (firstn n s) (skipn n s)
  end.

(* pkg/protocol/types/int.go:51-69 (ReadInt32) and its siblings: one Read of n bytes; a short read
   is an error that is not io.EOF. *)
Definition rd_exact (n : nat) (s : list Z) : rres (list Z) :=
  rbind (rd_bytes n s) (fun l r => if Nat.eqb (length l) n then ROk l r else RErr false).

(* encoding/binary BigEndian.PutUint{16,32,64}: n bytes, most significant first, of v mod 256^n *)
Fixpoint be_enc (n : nat) (v : Z) : list Z :=
  match n with
  | O => []
  | S k => be_enc k (v / 256) ++ [v mod 256]
  end.

(* encoding/binary BigEndian.Uint{16,32,64} *)
Fixpoint be_dec_acc (acc : Z) (l : list Z) : Z :=
  match l with
  | [] => acc
  | b :: r => be_dec_acc (acc * 256 + b) r
  end.
Definition be_dec (l : list Z) : Z := be_dec_acc 0 l.

(* Go conversions between int{w} and uint{w} (two's complement), w bits *)
Definition to_unsigned (w : Z) (v : Z) : Z := v mod 2 ^ w.
Definition to_signed (w : Z) (v : Z) : Z :=
  let u := v mod 2 ^ w in if u <? 2 ^ (w - 1) then u else u - 2 ^ w.

(* int.go:35-49 WriteInt32, 131-145 WriteInt16, 183-197 WriteInt64, WriteInt8: n bytes *)
Definition wr_int (n : nat) (v : Z) : list Z := be_enc n (to_unsigned (8 * Z.of_nat n) v).
(* int.go:51-69 ReadInt32, 91-109 ReadInt16, 199-217 ReadInt64, ReadInt8 *)
Definition rd_int (n : nat) (s : list Z) : rres Z :=
  rbind (rd_exact n s) (fun l r => ROk (to_signed (8 * Z.of_nat n) (be_dec l)) r).
(* int.go:147-181 ReadUint16/WriteUint16; float.go:30-64 ReadFloat64/WriteFloat64 (a float64 is
   represented by its 64-bit IEEE pattern, math.Float64bits) *)
Definition wr_uint (n : nat) (v : Z) : list Z := be_enc n v.
Definition rd_uint (n : nat) (s : list Z) : rres Z :=
  rbind (rd_exact n s) (fun l r => ROk (be_dec l) r).
(* bool.go:28-66 *)
Definition wr_bool (b : bool) : list Z := if b then [1] else [0].
Definition rd_bool (s : list Z) : rres bool :=
  rbind (rd_exact 1 s) (fun l r => match l with b :: _ => ROk (negb (b =? 0)) r | [] => RErr false end).

(* fields/uuid.go:46-72 reads two int64 and re-encodes them; 83-97 writes the 16 bytes *)
Definition rd_uuid (s : list Z) : rres (list Z) :=
  rbind (rd_int 8 s) (fun hi r1 =>
  rbind (rd_int 8 r1) (fun lo r2 =>
    ROk (be_enc 8 (to_unsigned 64 hi) ++ be_enc 8 (to_unsigned 64 lo)) r2)).
Definition wr_uuid (u : list Z) : list Z := u.

(* ---------------- varint.go ---------------- *)

(* encoding/binary PutUvarint: 7 bits at a time, least significant group first.  [fuel] is the
   buffer length (10 = MaxVarintLen64); a value below 2^64 never exhausts it. *)
Fixpoint put_uvarint (fuel : nat) (x : Z) : list Z :=
  match fuel with
  | O => []
  | S f => if x <? 128 then [x] else (x mod 128 + 128) :: put_uvarint f (x / 128)
  end.

(* encoding/binary ReadUvarint (Go >= 1.19): at most 10 bytes; EOF before the first byte is io.EOF,
   later io.ErrUnexpectedEOF; the 10th byte must be 0 or 1.  The accumulated groups are disjoint bit
   ranges, so "|" is written "+". *)
Fixpoint rd_uvarint_go (fuel : nat) (i : Z) (x : Z) (s : list Z) : rres Z :=
  match fuel with
  | O => RErr false
  | S f =>
    match s with
    | [] => RErr (i =? 0)
    | b :: s' =>
      if b <? 128 then
        if (i =? 9) && (1 <? b) then RErr false else ROk (x + b * 2 ^ (7 * i)) s'
      else rd_uvarint_go f (i + 1) (x + (b mod 128) * 2 ^ (7 * i)) s'
    end
  end.
Definition rd_uvarint (s : list Z) : rres Z := rd_uvarint_go 10 0 0 s.

(* encoding/binary PutVarint: ux := uint64(x) << 1; if x < 0 { ux = ^ux } *)
Definition zz_enc (x : Z) : Z :=
  let ux := (2 * to_unsigned 64 x) mod 2 ^ 64 in
  if x <? 0 then 2 ^ 64 - 1 - ux else ux.
(* encoding/binary ReadVarint / varint.go:226-231: x := ux >> 1; if ux&1 != 0 { x = ^x } *)
Definition zz_dec (ux : Z) : Z :=
  let x := ux / 2 in if Z.odd ux then - x - 1 else x.

(* varint.go:30-48 *)
Definition uint32_size (v : Z) : Z :=
  if v <? 2 ^ 7 then 1 else if v <? 2 ^ 14 then 2 else if v <? 2 ^ 21 then 3
  else if v <? 2 ^ 28 then 4 else 5.
(* varint.go:50-54: uint32((value << 1) ^ (value >> 31)) in int32 arithmetic *)
Definition int32_size (v : Z) : Z :=
  uint32_size (to_unsigned 32 (Z.lxor (to_signed 32 (2 * v)) (v / 2 ^ 31))).
(* varint.go:56-94 (the step from 7 to 9 at 2^49 is the code's) *)
Definition uint64_size (v : Z) : Z :=
  if v <? 2 ^ 7 then 1 else if v <? 2 ^ 14 then 2 else if v <? 2 ^ 21 then 3
  else if v <? 2 ^ 28 then 4 else if v <? 2 ^ 35 then 5 else if v <? 2 ^ 42 then 6
  else if v <? 2 ^ 49 then 7 else if v <? 2 ^ 56 then 9 else if v <? 2 ^ 63 then 9 else 10.
(* varint.go:96-100 *)
Definition int64_size (v : Z) : Z :=
  uint64_size (to_unsigned 64 (Z.lxor (to_signed 64 (2 * v)) (v / 2 ^ 63))).

(* varint.go:118-126 PutUint32, 142-159 WriteUint32 *)
Definition wr_uvarint32 (v : Z) : option (list Z) :=
  if uint32_size v >? 5 then None else Some (put_uvarint 10 v).
(* varint.go:105-113 PutInt32, 131-137 AppendInt32, 164-181 WriteInt32 *)
Definition wr_varint32 (v : Z) : option (list Z) :=
  if int32_size v >? 5 then None else Some (put_uvarint 10 (zz_enc v)).
(* varint.go:258-276 PutInt64/AppendInt64, 305-318 WriteInt64 *)
Definition wr_varint64 (v : Z) : option (list Z) := Some (put_uvarint 10 (zz_enc v)).

(* varint.go:186-211 ReadUint32, ReadUint32_: bits.Len64(val) > 32 is val >= 2^32 *)
Definition rd_uvarint32 (s : list Z) : rres Z :=
  rbind (rd_uvarint s) (fun v r => if 2 ^ 32 <=? v then RErr false else ROk v r).
(* varint.go:216-253 ReadInt32, ReadInt32_ (the second Len64 test can never fire) *)
Definition rd_varint32 (s : list Z) : rres Z :=
  rbind (rd_uvarint32 s) (fun u r => ROk (to_signed 32 (zz_dec u)) r).
(* varint.go:281-300 ReadInt64, ReadInt64_ (encoding/binary ReadVarint) *)
Definition rd_varint64 (s : list Z) : rres Z :=
  rbind (rd_uvarint s) (fun u r => ROk (zz_dec u) r).

(* predicates used in statements *)
Definition byte_ok (b : Z) : Prop := 0 <= b < 256.
Definition bytes_ok (l : list Z) : Prop := Forall byte_ok l.
Definition int_range (w : Z) (v : Z) : Prop := - 2 ^ (w - 1) <= v < 2 ^ (w - 1).
Definition uint_range (w : Z) (v : Z) : Prop := 0 <= v < 2 ^ w.
