(* pkg/proxywasm/utils.go:57-81 serializeMapToPairs. A Go map is a list of pairs with distinct keys, in the order in which
   range yields it. The offsets that PutUint32 writes to are consecutive, hence the concatenation. *)
From Coq Require Import List Ascii NArith Bool.
From Verif Require Import M_GoStr.
Import ListNotations.
Open Scope list_scope.
(* binary.LittleEndian.PutUint32(buf, uint32(n)) *)
Definition le32 (n : N) : gstr := map (fun i => ascii_of_N ((n / i) mod 256)%N) [1; 256; 65536; 16777216]%N.
Definition glen (s : gstr) : N := N.of_nat (length s).
(* string comparison of sort.Strings: bytewise, a proper prefix is smaller *)
Fixpoint gle (a b : gstr) : bool :=
  match a, b with
  | [], _ => true
  | _, [] => false
  | x :: a', y :: b' => if (N_of_ascii x <? N_of_ascii y)%N then true else if (N_of_ascii y <? N_of_ascii x)%N then false else gle a' b'
  end.
(* sort.Strings(keys): some sorting; insertion sort, on the pairs *)
Fixpoint insert_kv (x : gstr * gstr) (l : list (gstr * gstr)) : list (gstr * gstr) :=
  match l with [] => [x] | y :: r => if gle (fst x) (fst y) then x :: l else y :: insert_kv x r end.
Definition sort_kv (l : list (gstr * gstr)) : list (gstr * gstr) := fold_right insert_kv [] l.
Definition serialize (m : list (gstr * gstr)) : gstr :=
  let s := sort_kv m in
  le32 (N.of_nat (length s)) ++ flat_map (fun kv => le32 (glen (fst kv)) ++ le32 (glen (snd kv))) s
  ++ flat_map (fun kv => (fst kv ++ [zero]) ++ (snd kv ++ [zero])) s.
