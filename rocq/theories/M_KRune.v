(* Model: the remaining methods of the chunk reader, /repo/components/kafka-protocol-go/pkg/protocol/types/bytes/chunkreader.go: ReadRune (172-197),
   UnreadRune (200-224), WriteTo (267-291), together with those in M_KIo; and what all of them do to the field prevRune of Go's bytes.Reader, which UnreadRune
   depends on. *)
From Coq Require Import List ZArith Bool.
From Verif Require Import M_KIo.
Import ListNotations.
Open Scope Z_scope.

(* utf8.DecodeRune: the rune and its width; (65533, 1) for bytes that are no UTF-8 *)
Definition bad : Z * Z := (65533, 1).
Definition between (lo x hi : Z) : bool := (lo <=? x) && (x <=? hi).
Definition cont (x : Z) : bool := between 128 x 191.
Definition decode_rune (s : list Z) : Z * Z :=
  match s with
  | [] => (65533, 0)
  | b0 :: r =>
      if b0 <? 128 then (b0, 1)
      else if between 194 b0 223 then
        match r with b1 :: _ => if cont b1 then ((b0 - 192) * 64 + (b1 - 128), 2) else bad | _ => bad end
      else if between 224 b0 239 then
        match r with
        | b1 :: b2 :: _ =>
            let lo := if b0 =? 224 then 160 else 128 in let hi := if b0 =? 237 then 159 else 191 in
            if between lo b1 hi && cont b2 then ((b0 - 224) * 4096 + (b1 - 128) * 64 + (b2 - 128), 3) else bad
        | _ => bad end
      else if between 240 b0 244 then
        match r with
        | b1 :: b2 :: b3 :: _ =>
            let lo := if b0 =? 240 then 144 else 128 in let hi := if b0 =? 244 then 143 else 191 in
            if between lo b1 hi && cont b2 && cont b3 then ((b0 - 240) * 262144 + (b1 - 128) * 4096 + (b2 - 128) * 64 + (b3 - 128), 4) else bad
        | _ => bad end
      else bad
  end.

(* bytes.Reader: the position and prevRune (negative: none) *)
Definition rst := (Z * Z)%type.
Inductive xout := XOld (o : rdout) | XRune (r size : Z) | XWrote (given : list Z) (n : Z) (failed : bool).
Definition r_read (d : list Z) (s : rst) (n : Z) : rst * rdout :=
  if br_size d <=? fst s then (s, REof) else let '(p, o) := br_read d (fst s) n in ((p, -1), o).
Definition r_read_byte (d : list Z) (s : rst) : rst * rdout := let '(p, o) := br_read_byte d (fst s) in ((p, -1), o).
Definition r_unread (s : rst) : rst * rdout := if fst s <=? 0 then (s, RError) else ((fst s - 1, -1), RNil).
Definition r_seek (d : list Z) (s : rst) (off whence : Z) : rst * rdout := let '(p, o) := br_seek d (fst s) off whence in ((p, -1), o).
Definition r_read_rune (d : list Z) (s : rst) : rst * xout :=
  if br_size d <=? fst s then ((fst s, -1), XOld REof)
  else let '(r, n) := decode_rune (skipn (Z.to_nat (fst s)) d) in ((fst s + n, fst s), XRune r n).
Definition r_unread_rune (s : rst) : rst * rdout := if fst s <=? 0 then (s, RError) else if snd s <? 0 then (s, RError) else ((snd s, -1), RNil).

(* chunkreader.go 94-108, 132-142, 145-169, 227-264 again, with the whole state of the reader *)
Fixpoint x_read (c : creader) (d : list Z) (s : rst) (n : Z) : rst * rdout :=
  let rem := c_len c d (fst s) in
  if rem <=? 0 then (s, REof)
  else let n' := if rem <? n then rem else n in match c with CBase _ _ => r_read d s n' | CSub _ _ p => x_read p d s n' end.
Fixpoint x_read_byte (c : creader) (d : list Z) (s : rst) : rst * rdout :=
  if c_len c d (fst s) <=? 0 then (s, REof) else match c with CBase _ _ => r_read_byte d s | CSub _ _ p => x_read_byte p d s end.
Fixpoint x_unread (c : creader) (d : list Z) (s : rst) : rst * rdout :=
  match c with
  | CBase b _ => if br_size d - br_len d (fst s) <=? b then (s, RError) else r_unread s
  | CSub b _ p => if c_size p - c_len p d (fst s) <=? b then (s, RError) else x_unread p d s
  end.
Fixpoint x_seek (c : creader) (d : list Z) (s : rst) (off whence : Z) : rst * rdout :=
  let up r := match c with CBase _ _ => r_seek d s r whence | CSub _ _ p => x_seek p d s r whence end in
  let psize := match c with CBase _ _ => br_size d | CSub _ _ p => c_size p end in
  let go abs r := if (abs <? 0) || (c_size c <? abs) then (s, RError) else match up r with (s', RPos _) => (s', RPos abs) | (s', o) => (s', o) end in
  if whence =? 0 then go off (c_base c + off)
  else if whence =? 1 then go (c_size c - c_len c d (fst s) + off) off
  else if whence =? 2 then go (c_size c + off) (c_base c + c_size c - psize + off)
  else (s, RError).
(* 200-224 *)
Fixpoint x_unread_rune (c : creader) (d : list Z) (s : rst) : rst * rdout :=
  match c with
  | CBase b _ => if br_size d - br_len d (fst s) <=? b then (s, RError) else r_unread_rune s
  | CSub b _ p => if c_size p - c_len p d (fst s) <=? b then (s, RError) else x_unread_rune p d s
  end.
(* 172-197 *)
Fixpoint x_read_rune (c : creader) (d : list Z) (s : rst) : rst * xout :=
  if c_len c d (fst s) <=? 0 then (s, XOld REof)
  else
    let '(s1, o) := match c with CBase _ _ => r_read_rune d s | CSub _ _ p => x_read_rune p d s end in
    match o with
    | XRune _ _ => if c_len c d (fst s1) <? 0 then (fst (match c with CBase _ _ => r_unread_rune s1 | CSub _ _ p => x_unread_rune p d s1 end), XOld REof) else (s1, o)
    | _ => (s1, o)
    end.
(* 267-291: old: what is in the slice from the pool; the writer takes m bytes, and fails or not *)
Definition x_write_to (c : creader) (d : list Z) (s : rst) (old : list Z) (m : Z) (failed : bool) : rst * xout :=
  let l := c_len c d (fst s) in
  if l <=? 0 then (s, XWrote [] 0 false)
  else
    let '(s1, o) := match c with CBase _ _ => r_read d s l | CSub _ _ p => x_read p d s l end in
    match o with
    | RBytes x => let b := x ++ skipn (length x) (firstn (Z.to_nat l) (old ++ repeat 0 (Z.to_nat l))) in
                  (s1, XWrote b m (failed || negb (m =? Z.of_nat (length b))))
    | o => (s1, XOld o)
    end.

Inductive xop := XOp (o : crop) | XReadRune | XUnreadRune | XWriteTo (old : list Z) (m : Z) (failed : bool).
Definition old_out (p : rst * rdout) : rst * xout := (fst p, XOld (snd p)).
Definition x_step (c : creader) (d : list Z) (s : rst) (o : xop) : rst * xout :=
  match o with
  | XOp (ORead n) => old_out (x_read c d s n)
  | XOp (OReadAt n off) => (s, XOld (c_read_at c d n off))
  | XOp OReadByte => old_out (x_read_byte c d s)
  | XOp OUnread => old_out (x_unread c d s)
  | XOp (OSeek off wh) => old_out (x_seek c d s off wh)
  | XReadRune => x_read_rune c d s
  | XUnreadRune => old_out (x_unread_rune c d s)
  | XWriteTo old m f => x_write_to c d s old m f
  end.
Fixpoint x_run (c : creader) (d : list Z) (s : rst) (os : list xop) : rst * list (Z * xout) :=
  match os with
  | [] => (s, [])
  | o :: r => let '(s1, out) := x_step c d s o in let '(s2, outs) := x_run c d s1 r in (s2, (c_len c d (fst s1), out) :: outs)
  end.
