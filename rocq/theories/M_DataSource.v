(* Model: the sources of plugin code, /repo/pkg/proxywasm/data_store.go 25-125.

   Byte slices live on a heap (a reference is an index), since Get hands out the slice it keeps.  What an HTTP request or an opened
   file yields is an input of the step that asks for it.  Several goroutines may call Get of one source at once: a call looks at the
   cache (one step, 54-56, 94-96), asks the source (58-68, 98-107), stores (70, 109) and returns what is stored then (72, 112).
   The wrapping of errors is left out.  io.ReadAll never returns nil without an error. *)
From Coq Require Import List Arith Bool ZArith.
Import ListNotations.

(* NewURLDataSource; NewFileDataSource, of a file name that is empty or not; NewBytesDataSource *)
Inductive kind := Url | File (named : bool) | Bytes.
(* what an HTTP request yields: an error, or a status and a body that can be read to its end or not; what fs.Open yields likewise *)
Inductive answer := Refused | Answered (status : Z) (body : list Z) (complete : bool).
Inductive result := Error | Ok (ref : option nat) | Panic.
Inductive pc := Asking | Storing (ref : nat) | Returning | Finished (r : result).
Record st := mkst { knd : kind; heap : list (list Z); cache : option nat; calls : list pc; opened : nat; closed : nat }.

Definition set_call (i : nat) (p : pc) (l : list pc) : list pc := firstn i l ++ match skipn i l with [] => [] | _ :: r => p :: r end.
Definition at_call (s : st) (i : nat) (p : pc) : st := mkst (knd s) (heap s) (cache s) (set_call i p (calls s)) (opened s) (closed s).

Inductive event :=
| Call                            (* a call of Get: it is given the next number *)
| Ask (i : nat) (a : answer)      (* call i asks the source *)
| Go (i : nat)                    (* the next step of call i, if it is not waiting for the source *)
| Write (ref at_ : nat) (v : Z).  (* someone writes to a slice *)

Fixpoint put (i : nat) (v : Z) (l : list Z) : list Z := match l, i with [], _ => [] | _ :: r, O => v :: r | x :: r, S j => x :: put j v r end.
Fixpoint put2 (r i : nat) (v : Z) (h : list (list Z)) : list (list Z) := match h, r with [], _ => [] | l :: t, O => put i v l :: t | l :: t, S j => l :: put2 j i v t end.

(* 57-69 (the body is closed, 62), 98-108 (the file is not) *)
Definition ask (s : st) (i : nat) (a : answer) : st :=
  match knd s, a with
  | Bytes, _ => at_call s i (Finished Panic)                      (* fs is nil *)
  | _, Refused => at_call s i (Finished Error)
  | Url, Answered _ b ok =>
      if ok then mkst Url (heap s ++ [b]) (cache s) (set_call i (Storing (length (heap s))) (calls s)) (S (opened s)) (S (closed s))
      else mkst Url (heap s) (cache s) (set_call i (Finished Error) (calls s)) (S (opened s)) (S (closed s))
  | File true, Answered _ b ok =>
      if ok then mkst (File true) (heap s ++ [b]) (cache s) (set_call i (Storing (length (heap s))) (calls s)) (S (opened s)) (closed s)
      else mkst (File true) (heap s) (cache s) (set_call i (Finished Error) (calls s)) (S (opened s)) (closed s)
  | File false, Answered _ _ _ => mkst (File false) (heap s) (cache s) (set_call i Returning (calls s)) (S (opened s)) (closed s)
  end.
Definition step (s : st) (e : event) : st :=
  match e with
  | Call => mkst (knd s) (heap s) (cache s) (calls s ++ [match cache s with Some r => Finished (Ok (Some r)) | None => Asking end]) (opened s) (closed s)
  | Ask i a => match nth_error (calls s) i with Some Asking => ask s i a | _ => s end
  | Go i =>
      match nth_error (calls s) i with
      | Some (Storing r) => mkst (knd s) (heap s) (Some r) (set_call i Returning (calls s)) (opened s) (closed s)
      | Some Returning => at_call s i (Finished (Ok (cache s)))
      | _ => s
      end
  | Write r i v => mkst (knd s) (put2 r i v (heap s)) (cache s) (calls s) (opened s) (closed s)
  end.
Definition run (s : st) (l : list event) : st := fold_left step l s.
(* new sources: 41-52, 77-82, 84-88 (of bytes that are nil or not) *)
Definition new_source (k : kind) : st := mkst k [] None [] 0 0.
Definition new_bytes (b : option (list Z)) : st := match b with Some l => mkst Bytes [l] (Some 0) [] 0 0 | None => mkst Bytes [] None [] 0 0 end.
(* one call after the other: a call that is answered in this way *)
Definition get_events (i : nat) (a : answer) : list event := [Call; Ask i a; Go i; Go i].
Fixpoint gets (i : nat) (l : list answer) : list event := match l with [] => [] | a :: r => get_events i a ++ gets (S i) r end.
