(* Specification of a reader confined to a window: a plain reader over the bytes of the window.
   q is the number of window bytes already consumed. *)
From Coq Require Import List ZArith Bool.
From Verif Require Import M_KIo.
Import ListNotations.
Open Scope Z_scope.

Definition win_step (w : list Z) (q : Z) (o : crop) : Z * rdout :=
  let n := Z.of_nat (length w) in
  match o with
  | ORead k =>
      if q =? n then (q, REof)
      else let l := firstn (Z.to_nat k) (skipn (Z.to_nat q) w) in (q + Z.of_nat (length l), RBytes l)
  | OReadByte =>
      if q =? n then (q, REof) else (q + 1, RBytes (firstn 1 (skipn (Z.to_nat q) w)))
  | OReadAt k off =>
      (q, if off <? 0 then RError
          else if (n <=? off) || (n <? off + k) then REof
          else RBytes (firstn (Z.to_nat k) (skipn (Z.to_nat off) w)))
  | OUnread => if q =? 0 then (q, RError) else (q - 1, RNil)
  | OSeek off wh =>
      let go a := if (a <? 0) || (n <? a) then (q, RError) else (a, RPos a) in
      if wh =? 0 then go off else if wh =? 1 then go (q + off) else if wh =? 2 then go (n + off)
      else (q, RError)
  end.
(* the sequence of (unread bytes left, answer) *)
Fixpoint win_run (w : list Z) (q : Z) (os : list crop) : list (Z * rdout) :=
  match os with
  | [] => []
  | o :: r => let '(q1, out) := win_step w q o in
              (Z.of_nat (length w) - q1, out) :: win_run w q1 r
  end.

(* chunk_on d c a w: c was created (possibly nested) over a reader of data d when that reader stood
   at absolute position a, and its window is w *)
Inductive chunk_on (d : list Z) : creader -> Z -> list Z -> Prop :=
| on_base pos n : 0 <= pos <= Z.of_nat (length d) -> 0 <= n ->
    chunk_on d (new_chunk d pos n) pos (firstn (Z.to_nat n) (skipn (Z.to_nat pos) d))
| on_sub r a w pos n : chunk_on d r a w -> a <= pos <= a + Z.of_nat (length w) -> 0 <= n ->
    chunk_on d (new_sub_chunk r d pos n) pos (firstn (Z.to_nat n) (skipn (Z.to_nat (pos - a)) w)).
Definition crop_ok (o : crop) : Prop :=
  match o with ORead k => 0 <= k | OReadAt k _ => 0 <= k | _ => True end.
