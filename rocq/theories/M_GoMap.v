(* Go maps with string keys, string sets and sort.Strings, as used by pkg/ads and other packages of /repo.

   A Go map is an association list in which the first binding of a key counts; [mset] removes the old
   binding, so lists built with the operations below have distinct keys.  nil and empty maps are the same
   list: no modelled code distinguishes them observably (reads, delete and len agree on both).  Iteration
   order is the list order; theorems quantify over all lists, hence over all iteration orders. *)
From Coq Require Import List String Bool.
Import ListNotations.

Definition gmap (V : Type) : Type := list (string * V).

Section Ops.
Context {V : Type}.
Fixpoint mget (k : string) (m : gmap V) : option V :=
  match m with
  | [] => None
  | (k', v) :: r => if String.eqb k k' then Some v else mget k r
  end.
(* delete(m, k) *)
Definition mdel (k : string) (m : gmap V) : gmap V := filter (fun e => negb (String.eqb k (fst e))) m.
(* m[k] = v *)
Definition mset (k : string) (v : V) (m : gmap V) : gmap V := (k, v) :: mdel k m.
(* for k, v := range add { m[k] = v } *)
Definition mmerge (add m : gmap V) : gmap V := fold_left (fun acc e => mset (fst e) (snd e) acc) add m.
Definition mkeys (m : gmap V) : list string := map fst m.
End Ops.

Definition mem (x : string) (l : list string) : bool := existsb (String.eqb x) l.

(* the key set of make(map[string]struct{}) filled from a slice *)
Fixpoint set_of (l : list string) : list string :=
  match l with
  | [] => []
  | x :: r => if mem x r then set_of r else x :: set_of r
  end.

(* sort.Strings: bytewise lexicographic order *)
Fixpoint sinsert (x : string) (l : list string) : list string :=
  match l with
  | [] => [x]
  | y :: r => if String.leb x y then x :: l else y :: sinsert x r
  end.
Fixpoint sort_strings (l : list string) : list string :=
  match l with
  | [] => []
  | x :: r => sinsert x (sort_strings r)
  end.
