(* Specification vocabulary for C70: Kafka framing of byte streams.  Independent of the filter's own parsing. *)
From Coq Require Import List ZArith Bool.
From Verif Require Import M_PiiFilter.
Import ListNotations.
Open Scope Z_scope.

(* a message on the wire: its length in four bytes, most significant first, and its bytes *)
Definition frame (m : list Z) : list Z :=
  let n := Z.of_nat (length m) in [n / 16777216; (n / 65536) mod 256; (n / 256) mod 256; n mod 256] ++ m.
Definition stream (ms : list (list Z)) : list Z := concat (map frame ms).
(* lengths for which length + 4 is a 32 bit signed integer *)
Definition fits (m : list Z) : Prop := Z.of_nat (length m) + 4 < 2 ^ 31.
(* the messages of ms that are complete once n bytes of [stream ms] have arrived, and the number of bytes after them *)
Fixpoint completed (ms : list (list Z)) (n : nat) : list (list Z) :=
  match ms with
  | [] => []
  | m :: r => if (4 + length m <=? n)%nat then m :: completed r (n - (4 + length m)) else []
  end.
Definition leftover (ms : list (list Z)) (n : nat) : nat := n - length (stream (completed ms n)).

(* the bytes of the chunks that arrived on one side *)
Fixpoint sent (s : side) (l : list (side * list Z)) : list Z :=
  match l with
  | [] => []
  | (t, ch) :: r => (match s, t with Down, Down | Up, Up => ch | _, _ => [] end) ++ sent s r
  end.
Definition other (s : side) : side := match s with Down => Up | Up => Down end.
(* the side of the connection on which requests arrive *)
Definition req_side (d : direction) : side := match d with Outbound => Up | _ => Down end.
(* append gives a full slice a larger capacity *)
Definition growing (e : env) : Prop := forall n, (n < e_grow e n)%nat.
(* the filter's treatment of one request succeeds: it is known as r and leaves the filter as [out], which is the request
   itself, or the redacted request n *)
Definition good_request (e : env) (m : list Z) (r : ref) (out : list Z) : Prop :=
  e_parse e m = PSame r /\ out = frame m \/ exists n, e_parse e m = PMod r (Some n) /\ fits n /\ out = frame n.

(* No chunk completes a message and also brings between one and three bytes of the next one *)
Definition no_short_tail (s : side) (ms : list (list Z)) (l : list (side * list Z)) : Prop :=
  forall l1 ch l2, l = l1 ++ (s, ch) :: l2 ->
    let p := length (sent s l1) in let p' := (p + length ch)%nat in
    completed ms p' = completed ms p \/ leftover ms p' = 0%nat \/ (4 <= leftover ms p')%nat.
(* At no time have more responses arrived than requests *)
Definition causal (sq : side) (reqs resps : list (list Z)) (l : list (side * list Z)) : Prop :=
  forall l1 l2, l = l1 ++ l2 -> (length (completed resps (length (sent (other sq) l1))) <= length (completed reqs (length (sent sq l1))))%nat.
