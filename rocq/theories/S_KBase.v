(* Specification vocabulary for the primitive wire types: protobuf-style variable-length integers
   and network byte order, written without reference to the model's readers and writers. *)
From Coq Require Import List ZArith.
Import ListNotations.
Open Scope Z_scope.

(* the value of a group string: 7 bits per byte, least significant group first *)
Fixpoint leb_value (l : list Z) : Z :=
  match l with
  | [] => 0
  | b :: r => b mod 128 + 128 * leb_value r
  end.
(* the continuation bit is set in every byte but the last *)
Definition leb_terminated (l : list Z) : Prop :=
  exists pre b, l = pre ++ [b] /\ Forall (fun x => 128 <= x) pre /\ b < 128.
(* zigzag mapping of signed to unsigned integers: 0,-1,1,-2,2,... -> 0,1,2,3,4,... *)
Definition zigzag (v : Z) : Z := if v <? 0 then -2 * v - 1 else 2 * v.
(* l is the n-byte big-endian two's complement representation of v *)
Definition big_endian (n : nat) (v : Z) (l : list Z) : Prop :=
  length l = n /\
  forall i, (i < n)%nat -> nth i l 0 = (v / 256 ^ Z.of_nat (n - 1 - i)) mod 256.
