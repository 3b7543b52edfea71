(* Specification vocabulary for length-prefixed Kafka fields, independent of the model's readers and
   writers (only the fixed-width and varint vocabulary of S_KBase.v is used). *)
From Coq Require Import List ZArith Bool.
From Verif Require Import S_KBase.
Import ListNotations.
Open Scope Z_scope.

(* the length prefix: compact = unsigned varint of length+1 (so null, "length -1", is 0), otherwise a
   signed big-endian integer of n bytes *)
Definition len_prefix (compact : bool) (n : nat) (len : Z) (h : list Z) : Prop :=
  if compact then leb_terminated h /\ leb_value h = len + 1 else big_endian n len h.
(* a byte-string field with an n-byte (or compact) length: null has length -1 and no content *)
Definition blob_layout (compact : bool) (n : nat) (v : option (list Z)) (out : list Z) : Prop :=
  match v with
  | None => len_prefix compact n (-1) out
  | Some b => exists h, out = h ++ b /\ len_prefix compact n (Z.of_nat (length b)) h
  end.
(* an array field: the count, then the items' encodings in order *)
Definition array_layout {A} (item : A -> list Z -> Prop) (compact : bool) (v : option (list A))
  (out : list Z) : Prop :=
  match v with
  | None => len_prefix compact 4 (-1) out
  | Some items => exists h encs, out = h ++ concat encs /\ len_prefix compact 4 (Z.of_nat (length items)) h
                   /\ Forall2 item items encs
  end.
(* a tagged field section: count, then (tag, size, bytes) entries in the order of the list *)
Definition tag_layout (t : Z * list Z) (out : list Z) : Prop :=
  exists a b, out = a ++ b ++ snd t /\ leb_terminated a /\ leb_value a = fst t
    /\ leb_terminated b /\ leb_value b = Z.of_nat (length (snd t)).
Definition tags_layout (ts : list (Z * list Z)) (out : list Z) : Prop :=
  exists h encs, out = h ++ concat encs /\ leb_terminated h /\ leb_value h = Z.of_nat (length ts)
    /\ Forall2 tag_layout ts encs.
(* strictly ascending tags (hence no duplicates) *)
Fixpoint ascending (ts : list (Z * list Z)) : Prop :=
  match ts with
  | t :: ((u :: _) as r) => fst t < fst u /\ ascending r
  | _ => True
  end.
