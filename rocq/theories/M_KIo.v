(* Model: SliceWriter, ChunkReader and the byte-slice pool of components/kafka-protocol-go.
   Paths relative to /repo/components/kafka-protocol-go/pkg/. *)
From Coq Require Import List ZArith Bool.
Import ListNotations.
Open Scope Z_scope.

(* ---------------- protocol/types/bytes/slicewriter.go ---------------- *)
(* slicewriter.go:27-37: a Go slice of fixed capacity: its backing array (cap bytes) and its length *)
Record swriter := { sw_mem : list Z; sw_len : nat }.
Definition sw_cap (w : swriter) : nat := length (sw_mem w).
(* slicewriter.go:106-108, 121-123 *)
Definition sw_bytes (w : swriter) : list Z := firstn (sw_len w) (sw_mem w).

Inductive wres := WOk (n : Z) | WErr | WPanic.

(* copy(mem[off:], p) within the given memory, off <= length mem *)
Definition mem_put (mem : list Z) (off : nat) (p : list Z) : list Z :=
  firstn off mem ++ p ++ skipn (off + length p) mem.

(* slicewriter.go:39-47 *)
Definition sw_write (w : swriter) (p : list Z) : swriter * wres :=
  if (Nat.ltb (sw_cap w - sw_len w) (length p)) then (w, WErr)
  else ({| sw_mem := mem_put (sw_mem w) (sw_len w) p; sw_len := sw_len w + length p |},
        WOk (Z.of_nat (length p))).

(* slicewriter.go:49-61; w.buf[off:] panics unless 0 <= off <= len *)
Definition sw_write_at (w : swriter) (p : list Z) (off : Z) : swriter * wres :=
  if Nat.eqb (length p) 0 then (w, WOk 0)
  else if Z.of_nat (sw_cap w) - off <? Z.of_nat (length p) then (w, WErr)
  else if (off <? 0) || (Z.of_nat (sw_len w) <? off) then (w, WPanic)
  else let o := Z.to_nat off in
       let n := Nat.min (sw_len w - o) (length p) in
       ({| sw_mem := mem_put (sw_mem w) o (firstn n p); sw_len := sw_len w |}, WOk (Z.of_nat n)).

(* slicewriter.go:63-87.  The buffer is first extended by length p zero bytes (line 73-75), then the
   tail is moved (77-82: the number of moved bytes always is the expected one when the slice
   expressions do not panic), then p is copied over the gap (84). *)
Definition sw_insert_at (w : swriter) (p : list Z) (off : Z) : swriter * wres :=
  if Nat.eqb (length p) 0 then (w, WOk 0)
  else if Nat.ltb (sw_cap w - sw_len w) (length p) then (w, WErr)
  else
    let mem1 := mem_put (sw_mem w) (sw_len w) (repeat 0 (length p)) in
    let len1 := (sw_len w + length p)%nat in
    let w1 := {| sw_mem := mem1; sw_len := len1 |} in
    let moveTo := off + Z.of_nat (length p) in
    if (off <? 0) || (Z.of_nat len1 <? off) || (moveTo <? 0) || (Z.of_nat len1 <? moveTo) then (w1, WPanic)
    else
      let o := Z.to_nat off in
      let n := Nat.min (len1 - (o + length p)) (len1 - o) in
      let tail := firstn n (skipn o (firstn len1 mem1)) in
      let mem2 := mem_put mem1 (o + length p) tail in
      let n2 := Nat.min (len1 - o) (length p) in
      ({| sw_mem := mem_put mem2 o (firstn n2 p); sw_len := len1 |}, WOk (Z.of_nat n2)).

(* slicewriter.go:89-104; whence 0 = io.SeekStart, 1 = io.SeekCurrent *)
Definition sw_seek (w : swriter) (offset : Z) (whence : Z) : swriter * wres :=
  let go o := if (o <? 0) || (Z.of_nat (sw_cap w) <? o) then (w, WErr)
              else ({| sw_mem := sw_mem w; sw_len := Z.to_nat o |}, WOk o) in
  if whence =? 0 then go offset
  else if whence =? 1 then go (offset + Z.of_nat (sw_len w))
  else (w, WErr).

(* slicewriter.go:110-119: w.buf[lower:upper] may extend past len up to cap; panics if lower > upper *)
Definition sw_slice (w : swriter) (lower upper : Z) : option (option (list Z)) :=
  if lower <? 0 then Some None
  else if Z.of_nat (sw_cap w) <? upper then Some None
  else if upper <? lower then None (* panic *)
  else Some (Some (firstn (Z.to_nat (upper - lower)) (skipn (Z.to_nat lower) (sw_mem w)))).

Inductive swop :=
| SWrite (p : list Z) | SWriteAt (p : list Z) (off : Z) | SInsertAt (p : list Z) (off : Z)
| SSeek (off whence : Z).
Definition sw_step (w : swriter) (o : swop) : swriter * wres :=
  match o with
  | SWrite p => sw_write w p
  | SWriteAt p off => sw_write_at w p off
  | SInsertAt p off => sw_insert_at w p off
  | SSeek off wh => sw_seek w off wh
  end.

(* ---------------- protocol/types/bytes/chunkreader.go ---------------- *)
(* Go's bytes.Reader: (data, position).  Position may exceed the size after a Seek. *)
Definition br_len (d : list Z) (pos : Z) : Z :=
  if Z.of_nat (length d) <=? pos then 0 else Z.of_nat (length d) - pos.
Definition br_size (d : list Z) : Z := Z.of_nat (length d).
Definition slice (d : list Z) (from : Z) (n : Z) : list Z :=
  firstn (Z.to_nat n) (skipn (Z.to_nat from) d).

Inductive rdout := RBytes (l : list Z) | RPos (p : Z) | REof | RError | RNil.

(* chunkreader.go:58-64 *)
Inductive creader :=
| CBase (base size : Z)
| CSub (base size : Z) (parent : creader).
(* chunkreader.go:91 *)
Definition c_size (c : creader) : Z := match c with CBase _ s => s | CSub _ s _ => s end.
Definition c_base (c : creader) : Z := match c with CBase b _ => b | CSub b _ _ => b end.

(* chunkreader.go:68-86 *)
Fixpoint c_len (c : creader) (d : list Z) (pos : Z) : Z :=
  match c with
  | CBase b s => b + s - (br_size d - br_len d pos)
  | CSub b s p => b + s - (c_size p - c_len p d pos)
  end.

(* chunkreader.go:30-40, 44-54 *)
Definition new_chunk (d : list Z) (pos : Z) (n : Z) : creader :=
  CBase (br_size d - br_len d pos) (if br_len d pos <? n then br_len d pos else n).
Definition new_sub_chunk (r : creader) (d : list Z) (pos : Z) (n : Z) : creader :=
  CSub (c_size r - c_len r d pos) (if c_len r d pos <? n then c_len r d pos else n) r.

(* bytes.Reader.Read *)
Definition br_read (d : list Z) (pos : Z) (n : Z) : Z * rdout :=
  if br_size d <=? pos then (pos, REof)
  else let l := slice d pos n in (pos + Z.of_nat (length l), RBytes l).
(* chunkreader.go:94-108 *)
Fixpoint c_read (c : creader) (d : list Z) (pos : Z) (n : Z) : Z * rdout :=
  let rem := c_len c d pos in
  if rem <=? 0 then (pos, REof)
  else let n' := if rem <? n then rem else n in
       match c with
       | CBase _ _ => br_read d pos n'
       | CSub _ _ p => c_read p d pos n'
       end.

(* bytes.Reader.ReadAt *)
Definition br_read_at (d : list Z) (n off : Z) : rdout :=
  if off <? 0 then RError
  else if br_size d <=? off then REof
  else let l := slice d off n in if Z.of_nat (length l) <? n then REof else RBytes l.
(* chunkreader.go:111-129 (both out-of-window errors wrap io.EOF) *)
Fixpoint c_read_at (c : creader) (d : list Z) (n off : Z) : rdout :=
  if off <? 0 then RError
  else if c_size c <=? off then REof
  else if c_size c - off <? n then REof
  else match c with
       | CBase b _ => br_read_at d n (b + off)
       | CSub b _ p => c_read_at p d n (b + off)
       end.

(* bytes.Reader.ReadByte *)
Definition br_read_byte (d : list Z) (pos : Z) : Z * rdout :=
  if br_size d <=? pos then (pos, REof) else (pos + 1, RBytes (slice d pos 1)).
(* chunkreader.go:132-142 *)
Fixpoint c_read_byte (c : creader) (d : list Z) (pos : Z) : Z * rdout :=
  if c_len c d pos <=? 0 then (pos, REof)
  else match c with
       | CBase _ _ => br_read_byte d pos
       | CSub _ _ p => c_read_byte p d pos
       end.

(* bytes.Reader.UnreadByte *)
Definition br_unread (pos : Z) : Z * rdout := if pos <=? 0 then (pos, RError) else (pos - 1, RNil).
(* chunkreader.go:145-169 *)
Fixpoint c_unread (c : creader) (d : list Z) (pos : Z) : Z * rdout :=
  match c with
  | CBase b _ => if br_size d - br_len d pos <=? b then (pos, RError) else br_unread pos
  | CSub b _ p => if c_size p - c_len p d pos <=? b then (pos, RError) else c_unread p d pos
  end.

(* bytes.Reader.Seek *)
Definition br_seek (d : list Z) (pos : Z) (off whence : Z) : Z * rdout :=
  let go a := if a <? 0 then (pos, RError) else (a, RPos a) in
  if whence =? 0 then go off else if whence =? 1 then go (pos + off)
  else if whence =? 2 then go (br_size d + off) else (pos, RError).
(* chunkreader.go:227-264 *)
Fixpoint c_seek (c : creader) (d : list Z) (pos : Z) (off whence : Z) : Z * rdout :=
  let up r := match c with
              | CBase _ _ => br_seek d pos r whence
              | CSub _ _ p => c_seek p d pos r whence
              end in
  let psize := match c with CBase _ _ => br_size d | CSub _ _ p => c_size p end in
  let go abs r :=
    if (abs <? 0) || (c_size c <? abs) then (pos, RError)
    else match up r with
         | (p', RPos _) => (p', RPos abs)
         | (p', o) => (p', o)
         end in
  if whence =? 0 then go off (c_base c + off)
  else if whence =? 1 then go (c_size c - c_len c d pos + off) off
  else if whence =? 2 then go (c_size c + off) (c_base c + c_size c - psize + off)
  else (pos, RError).

Inductive crop := ORead (n : Z) | OReadAt (n off : Z) | OReadByte | OUnread | OSeek (off whence : Z).
Definition c_step (c : creader) (d : list Z) (pos : Z) (o : crop) : Z * rdout :=
  match o with
  | ORead n => c_read c d pos n
  | OReadAt n off => (pos, c_read_at c d n off)
  | OReadByte => c_read_byte c d pos
  | OUnread => c_unread c d pos
  | OSeek off wh => c_seek c d pos off wh
  end.
Fixpoint c_run (c : creader) (d : list Z) (pos : Z) (os : list crop) : Z * list (Z * rdout) :=
  match os with
  | [] => (pos, [])
  | o :: r => let '(p1, out) := c_step c d pos o in
              let '(p2, outs) := c_run c d p1 r in (p2, (c_len c d p1, out) :: outs)
  end.

(* ---------------- pools/pool.go ---------------- *)
(* pool.go:42-59 *)
Definition bucket_index (c : Z) : Z :=
  if c <=? 4 * 1024 then 0 else if c <=? 8 * 1024 then 1 else if c <=? 16 * 1024 then 2
  else if c <=? 32 * 1024 then 3 else if c <=? 64 * 1024 then 4 else if c <=? 128 * 1024 then 5 else 6.

(* Released slices, each with the id of its backing array, its capacity and its bucket (sync.Pool[i]
   as a bag).  sync.Pool.Get may return any element of the bucket or nil, and may forget elements at
   any time; both are left to the schedule. *)
Record pslice := { ps_id : nat; ps_len : Z; ps_cap : Z }.
Record poolst := { pool_items : list (Z * pslice); pool_next : nat }.
Definition pool_init : poolst := {| pool_items := []; pool_next := 0 |}.

Inductive gres := GOk (s : pslice) | GPanic.
(* one iteration of getSlice's loop, pool.go:63-82, as a relation: take element [i] of the bag from
   the bucket, or nil *)
Inductive get_slice (length capacity : Z) : poolst -> poolst -> gres -> Prop :=
| get_nil st : (* 65-71; make panics unless 0 <= length <= c *)
    let c := if bucket_index capacity <=? 2 then 2 ^ bucket_index capacity * 4 * 1024 else capacity in
    get_slice length capacity st {| pool_items := pool_items st; pool_next := S (pool_next st) |}
      (if (0 <=? length) && (length <=? c)
       then GOk {| ps_id := pool_next st; ps_len := length; ps_cap := c |} else GPanic)
| get_hit st l1 s l2 : (* 73-81; slice[:length] panics if length > cap *)
    pool_items st = l1 ++ (bucket_index capacity, s) :: l2 -> capacity <= ps_cap s ->
    get_slice length capacity st {| pool_items := l1 ++ l2; pool_next := pool_next st |}
      (if (0 <=? length) && (length <=? ps_cap s)
       then GOk {| ps_id := ps_id s; ps_len := length; ps_cap := ps_cap s |} else GPanic)
| get_drop st l1 s l2 st' r : (* 77-79: too small, dropped, loop *)
    pool_items st = l1 ++ (bucket_index capacity, s) :: l2 -> ps_cap s < capacity ->
    get_slice length capacity {| pool_items := l1 ++ l2; pool_next := pool_next st |} st' r ->
    get_slice length capacity st st' r.
(* pool.go:85-89 *)
Definition release_slice (st : poolst) (s : pslice) : poolst :=
  {| pool_items := (bucket_index (ps_cap s), {| ps_id := ps_id s; ps_len := 0; ps_cap := ps_cap s |}) :: pool_items st;
     pool_next := pool_next st |}.
(* histories: users hold slices, get more, release what they hold (once), the garbage collector
   drops pooled elements *)
Inductive pool_step : poolst * list pslice -> poolst * list pslice -> Prop :=
| ps_get st st' held length capacity s :
    get_slice length capacity st st' (GOk s) -> pool_step (st, held) (st', s :: held)
| ps_release st h1 s h2 :
    pool_step (st, h1 ++ s :: h2) (release_slice st s, h1 ++ h2)
| ps_gc st held l1 x l2 :
    pool_items st = l1 ++ x :: l2 ->
    pool_step (st, held) ({| pool_items := l1 ++ l2; pool_next := pool_next st |}, held).
