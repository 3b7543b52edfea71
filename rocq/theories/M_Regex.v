(* Model: the part of Go's package regexp (Go 1.19, leftmost-first matching) that /repo/pkg/proxywasm/envoy_tags.go and
   /repo/experimental/kafka-message-pii-filter/pii/pii.go use: FindStringSubmatch and FindAllIndex.

   Simplified: texts are bytes.  Repetition is modelled of one character class only; x{m,n} of a group is written out.  This covers all
   expressions of the two files.  Bytes and runes give the same matches for them: their classes are ASCII, and a '.' repetition is
   followed by an ASCII byte, the end of the text or an optional group that starts with one. *)
From Coq Require Import List Ascii Bool Arith.
From Verif Require Import M_GoStr.
Import ListNotations.
Open Scope list_scope.

Inductive rx :=
| Eps
| Cls (f : ascii -> bool)                    (* one byte *)
| Seq (a b : rx)
| Alt (a b : rx)                             (* a|b: a is preferred *)
| Star (greedy : bool) (f : ascii -> bool)   (* f* or f*? *)
| Grp (n : nat) (r : rx)                     (* capture group n *)
| Bol | Eol                                  (* ^ and $, without (?m) *)
| WordB.                                     (* \b *)

Definition between (lo hi : nat) (a : ascii) : bool := (lo <=? nat_of_ascii a) && (nat_of_ascii a <=? hi).
Definition digit (a : ascii) : bool := between 48 57 a.
Definition word (a : ascii) : bool := digit a || between 65 90 a || between 97 122 a || Ascii.eqb a "_"%char.
Definition dot (a : ascii) : bool := negb (nat_of_ascii a =? 10).
Definition one (c : ascii) : rx := Cls (Ascii.eqb c).
Fixpoint str (s : gstr) : rx := match s with [] => Eps | c :: r => Seq (one c) (str r) end.
(* f+, f+? *)
Definition plus (greedy : bool) (f : ascii -> bool) : rx := Seq (Cls f) (Star greedy f).
(* r? *)
Definition opt (r : rx) : rx := Alt r Eps.
Fixpoint seqs (l : list rx) : rx := match l with [] => Eps | [r] => r | r :: t => Seq r (seqs t) end.
(* r{n} *)
Fixpoint rep (n : nat) (r : rx) : rx := match n with O => Eps | S O => r | S m => Seq r (rep m r) end.
(* (r(r(...)?)?)? with up to n copies *)
Fixpoint upto (n : nat) (r : rx) : rx := match n with O => Eps | S m => opt (Seq r (upto m r)) end.

(* regexp/exec.go and backtrack.go; syntax.EmptyWordBoundary: exactly one neighbour is a word byte *)
Definition hd_word (s : gstr) : bool := match s with a :: _ => word a | [] => false end.
(* captures, the latest first: number and text *)
Definition caps := list (nat * gstr).
(* the text consumed between two states of the bytes before the position (in reverse) *)
Definition taken (pre p : gstr) : gstr := rev (firstn (length p - length pre) p).
(* the match of r at a position that k accepts, in the order of preference *)
Fixpoint rm {X} (r : rx) (pre post : gstr) (cs : caps) (k : gstr -> gstr -> caps -> option X) : option X :=
  match r with
  | Eps => k pre post cs
  | Cls f => match post with a :: t => if f a then k (a :: pre) t cs else None | [] => None end
  | Seq a b => rm a pre post cs (fun p q c => rm b p q c k)
  | Alt a b => match rm a pre post cs k with Some x => Some x | None => rm b pre post cs k end
  | Star g f =>
      (fix go (pre post : gstr) {struct post} : option X :=
         if g then match (match post with a :: t => if f a then go (a :: pre) t else None | [] => None end) with
                   | Some x => Some x
                   | None => k pre post cs
                   end
         else match k pre post cs with
              | Some x => Some x
              | None => match post with a :: t => if f a then go (a :: pre) t else None | [] => None end
              end) pre post
  | Grp n r => rm r pre post cs (fun p q c => k p q ((n, taken pre p) :: c))
  | Bol => match pre with [] => k pre post cs | _ :: _ => None end
  | Eol => match post with [] => k pre post cs | _ :: _ => None end
  | WordB => if xorb (hd_word pre) (hd_word post) then k pre post cs else None
  end.
(* a match: the bytes before it (in reverse), those up to its end (in reverse), those after it, the captures *)
Record mtch := mkmt { mt_pre : gstr; mt_to : gstr; mt_post : gstr; mt_caps : caps }.
(* the leftmost match *)
Fixpoint rfind (r : rx) (pre post : gstr) {struct post} : option mtch :=
  match rm r pre post [] (fun p q c => Some (p, q, c)) with
  | Some (p, q, c) => Some (mkmt pre p q c)
  | None => match post with [] => None | a :: t => rfind r (a :: pre) t end
  end.
(* FindStringSubmatch(s)[n]: "" for a group that took no part *)
Fixpoint cap (cs : caps) (n : nat) : gstr := match cs with [] => [] | (m, t) :: r => if m =? n then t else cap r n end.
(* FindAllIndex(s, -1) for an expression that matches no empty text: start and end of each match; the next search starts at the end of
   the last match *)
Fixpoint rall (fuel : nat) (r : rx) (pre post : gstr) : list (nat * nat) :=
  match fuel with
  | O => []
  | S f => match rfind r pre post with
           | None => []
           | Some m => (length (mt_pre m), length (mt_to m)) :: rall f r (mt_to m) (mt_post m)
           end
  end.
Definition find_all (r : rx) (s : gstr) : list (nat * nat) := rall (S (length s)) r [] s.
