(* Specification: which texts a regular expression matches, without order of preference. *)
From Coq Require Import List Ascii Bool Arith.
From Verif Require Import M_GoStr M_Regex.
Import ListNotations.
Open Scope list_scope.
(* exactly one of the two neighbours is a word byte *)
Definition boundary (pre post : gstr) : Prop := hd_word pre <> hd_word post.
(* [matches r pre u post]: r matches u, between the bytes pre (the nearest first) and post *)
Inductive matches : rx -> gstr -> gstr -> gstr -> Prop :=
| M_eps : forall pre post, matches Eps pre [] post
| M_cls : forall f a pre post, f a = true -> matches (Cls f) pre [a] post
| M_seq : forall a b u v pre post, matches a pre u (v ++ post) -> matches b (rev u ++ pre) v post -> matches (Seq a b) pre (u ++ v) post
| M_altl : forall a b u pre post, matches a pre u post -> matches (Alt a b) pre u post
| M_altr : forall a b u pre post, matches b pre u post -> matches (Alt a b) pre u post
| M_star : forall g f u pre post, Forall (fun a => f a = true) u -> matches (Star g f) pre u post
| M_grp : forall n r u pre post, matches r pre u post -> matches (Grp n r) pre u post
| M_bol : forall post, matches Bol [] [] post
| M_eol : forall pre, matches Eol pre [] []
| M_word : forall pre post, boundary pre post -> matches WordB pre [] post.
(* r matches the bytes i..j of s *)
Definition matches_at (r : rx) (s : gstr) (i j : nat) : Prop :=
  i <= j <= length s /\ matches r (rev (firstn i s)) (firstn (j - i) (skipn i s)) (skipn j s).
