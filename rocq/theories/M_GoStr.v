(* Go strings as lists of bytes, and the functions of package strings the modelled code calls. *)
From Coq Require Import String List Ascii Bool Arith Lia.
Import ListNotations.
Open Scope list_scope.
Definition gstr := list ascii.
Definition lit (s : string) : gstr := list_ascii_of_string s.
Definition gstr_eq_dec : forall a b : gstr, {a = b} + {a <> b} := list_eq_dec ascii_dec.
(* == on strings *)
Definition geqb (a b : gstr) : bool := if gstr_eq_dec a b then true else false.
(* strings.HasPrefix(s, p) *)
Fixpoint ghas_prefix (s p : gstr) : bool :=
  match p, s with [], _ => true | _, [] => false | a :: p', b :: s' => Ascii.eqb a b && ghas_prefix s' p' end.
(* strings.HasSuffix(s, p) *)
Definition ghas_suffix (s p : gstr) : bool := ghas_prefix (rev s) (rev p).
(* strings.Contains(s, p) *)
Fixpoint gcontains (s p : gstr) : bool :=
  ghas_prefix s p || match s with [] => false | _ :: s' => gcontains s' p end.
(* strings.Split(s, sep) for a one byte sep *)
Fixpoint gsplit (sep : ascii) (s : gstr) : list gstr :=
  match s with
  | [] => [[]]
  | c :: r => if Ascii.eqb c sep then [] :: gsplit sep r
              else match gsplit sep r with x :: xs => (c :: x) :: xs | [] => [[c]] end
  end.
(* strings.SplitN(s, sep, n) for n >= 1 and a one byte sep; the nat is n - 1, the number of cuts left *)
Fixpoint gsplit_cuts (sep : ascii) (cuts : nat) (s : gstr) : list gstr :=
  match cuts with
  | O => [s]
  | S k =>
      (fix go (s : gstr) : list gstr :=
         match s with
         | [] => [[]]
         | c :: r => if Ascii.eqb c sep then [] :: gsplit_cuts sep k r
                     else match go r with x :: xs => (c :: x) :: xs | [] => [[c]] end
         end) s
  end.
Definition gsplitn (sep : ascii) (n : nat) (s : gstr) : list gstr := gsplit_cuts sep (n - 1) s.
(* strings.Join(ps, sep) for a one byte sep *)
Fixpoint gjoin (sep : ascii) (ps : list gstr) : gstr :=
  match ps with [] => [] | [x] => x | x :: xs => x ++ sep :: gjoin sep xs end.
(* strings.ToLower on one ASCII byte *)
Definition is_upper (a : ascii) : bool := (65 <=? nat_of_ascii a)%nat && (nat_of_ascii a <=? 90)%nat.
Definition lower_ascii (a : ascii) : ascii := if is_upper a then ascii_of_nat (nat_of_ascii a + 32) else a.
Definition is_ascii (a : ascii) : bool := (nat_of_ascii a <? 128)%nat.
(* strings.ToLower: the ASCII fast path byte by byte; for other inputs Unicode lower-casing, taken as a parameter *)
Definition gto_lower (uni : gstr -> gstr) (s : gstr) : gstr := if forallb is_ascii s then map lower_ascii s else uni s.
