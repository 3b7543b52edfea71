(* Model: the field codecs of components/kafka-protocol-go/pkg/protocol/types/fields (strings, bytes,
   arrays, raw tagged fields).  Paths below are relative to that directory.
   Writers return the emitted bytes, or None where the Go function returns an error for a reason other
   than lack of capacity in the target buffer (capacity is modelled in M_KIo.v / M_KSchema.v). *)
From Coq Require Import List ZArith Bool.
From Verif Require Import M_KBase.
Import ListNotations.
Open Scope Z_scope.

Definition obind {A B} (m : option A) (f : A -> option B) : option B :=
  match m with Some a => f a | None => None end.
Definition zlen {A} (l : list A) : Z := Z.of_nat (length l).

(* context.go:44-55 Context (SpecName and CustomDefaultValue omitted here; defaults are in M_KSchema.v);
   c_ign is the generator's "ignorable" flag of the field (template lines 887-949) *)
Record ctx := mkctx {
  c_lo : Z; c_hi : Z;          (* supported versions *)
  c_flo : Z; c_fhi : Z;        (* flexible versions *)
  c_nlo : Z; c_nhi : Z;        (* nullable versions *)
  c_tlo : Z; c_thi : Z;        (* tagged versions *)
  c_tag : option Z;            (* SpecTag *)
  c_ign : bool
}.
Definition in_vers (lo hi v : Z) : bool := (lo <=? v) && (v <=? hi).
(* context.go:69-71 *) Definition supported (c : ctx) (v : Z) : bool := in_vers (c_lo c) (c_hi c) v.
(* context.go:73-75 *) Definition flexible (c : ctx) (v : Z) : bool := in_vers (c_flo c) (c_fhi c) v.
(* context.go:77-79 *) Definition nullable (c : ctx) (v : Z) : bool := in_vers (c_nlo c) (c_nhi c) v.
(* context.go:65-67 *)
Definition tagged (c : ctx) (v : Z) : bool :=
  match c_tag c with Some _ => in_vers (c_tlo c) (c_thi c) v | None => false end.
(* context.go:81-84 (only consulted by the template for fields with a tag) *)
Definition only_tagged (c : ctx) : bool :=
  match c_tag c with Some _ => (c_tlo c =? c_lo c) && (c_thi c =? c_hi c) | None => false end.

(* the length prefixes: uvarint of uint32(length)+1 in flexible versions, else a big-endian int of n
   bytes (string.go:242-282, bytes.go:187-225, array.go:176-200) *)
Definition wr_len (flex : bool) (n : nat) (len : Z) : option (list Z) :=
  if flex then wr_uvarint32 (to_unsigned 32 (len + 1)) else Some (wr_int n len).
Definition rd_len (flex : bool) (n : nat) (s : list Z) : rres Z :=
  if flex then rbind (rd_uvarint32 s) (fun u r => ROk (u - 1) r) else rd_int n s.
Definition sz_len (flex : bool) (n : nat) (len : Z) : Z :=
  if flex then uint32_size (to_unsigned 32 (len + 1)) else Z.of_nat n.

(* ---------------- string.go ---------------- *)
(* NullableString (string.go:36-39); a nil and an empty value slice are identified: the code only
   ever stores nil for the empty string (string.go:49-61, 197-198) *)
Record nstr := mkstr { ns_nil : bool; ns_val : list Z }.
Definition null_text : list Z := [110; 117; 108; 108].   (* "null", string.go:28 *)
Fixpoint list_eqb (a b : list Z) : bool :=
  match a, b with
  | [], [] => true
  | x :: a', y :: b' => (x =? y) && list_eqb a' b'
  | _, _ => false
  end.
(* string.go:49-61 SetValue *)
Definition set_value (x : list Z) : nstr :=
  if list_eqb x null_text then mkstr true [] else mkstr false x.
(* string.go:63-65 Equal: only the bytes *)
Definition nstr_eqb (a b : nstr) : bool := list_eqb (ns_val a) (ns_val b).

(* string.go:116-145 SizeInBytes *)
Definition sz_str (c : ctx) (ver : Z) (d : nstr) : option Z :=
  if negb (supported c ver) then Some 0
  else if ns_nil d then
    if nullable c ver then Some (if flexible c ver then uint32_size 0 else 2) else None
  else if zlen (ns_val d) >? 0x7fff then None
  else Some (zlen (ns_val d) + sz_len (flexible c ver) 2 (zlen (ns_val d))).
(* string.go:147-183 Write, 242-282 *)
Definition wr_str (c : ctx) (ver : Z) (d : nstr) : option (list Z) :=
  if negb (supported c ver) then Some []
  else if ns_nil d then
    if nullable c ver then wr_len (flexible c ver) 2 (-1) else None
  else if zlen (ns_val d) >? 0x7fff then None
  else obind (wr_len (flexible c ver) 2 (zlen (ns_val d))) (fun h => Some (h ++ ns_val d)).
(* string.go:185-220 readStringValue *)
Definition rd_str_value (c : ctx) (ver : Z) (len : Z) (s : list Z) : rres nstr :=
  if len <? 0 then (if nullable c ver then ROk (mkstr true []) s else RErr false)
  else if len >? 0x7fff then RErr false
  else if len =? 0 then ROk (mkstr false []) s
  else rbind (rd_exact (Z.to_nat len) s) (fun l r => ROk (mkstr (list_eqb l null_text) l) r).
(* string.go:105-114 Read, 222-240; an unsupported version leaves the target unchanged.
   (io.ErrUnexpectedEOF for a short read is not io.EOF.) *)
Definition rd_str (c : ctx) (ver : Z) (prev : nstr) (s : list Z) : rres nstr :=
  if negb (supported c ver) then ROk prev s
  else rbind (rd_len (flexible c ver) 2 s) (rd_str_value c ver).

(* ---------------- bytes.go ---------------- *)
Definition max_i32 : Z := 0x7fffffff.
Definition max_u32 : Z := 0xffffffff.
(* bytes.go:52-89 SizeInBytes *)
Definition sz_bytes (c : ctx) (ver : Z) (d : option (list Z)) : option Z :=
  if negb (supported c ver) then Some 0
  else match d with
  | None => if nullable c ver then Some (sz_len (flexible c ver) 4 (-1)) else None
  | Some [] => Some (sz_len (flexible c ver) 4 0)
  | Some l =>
    if flexible c ver then
      if zlen l + 1 >? max_i32 then None else Some (zlen l + sz_len true 4 (zlen l))
    else if zlen l >? max_i32 then None else Some (zlen l + 4)
  end.
(* bytes.go:91-128 Write, 187-225 *)
Definition wr_bytes (c : ctx) (ver : Z) (d : option (list Z)) : option (list Z) :=
  if negb (supported c ver) then Some []
  else match d with
  | None => if nullable c ver then wr_len (flexible c ver) 4 (-1) else None
  | Some [] => wr_len (flexible c ver) 4 0
  | Some l =>
    if zlen l >? max_i32 then None
    else obind (wr_len (flexible c ver) 4 (zlen l)) (fun h => Some (h ++ l))
  end.
(* bytes.go:130-165 readBytesValue: a null leaves the target unchanged *)
Definition rd_bytes_value (c : ctx) (ver : Z) (prev : option (list Z)) (len : Z) (s : list Z)
  : rres (option (list Z)) :=
  if len <? 0 then (if nullable c ver then ROk prev s else RErr false)
  else if len >? max_i32 then RErr false
  else if len =? 0 then ROk (Some []) s
  else rbind (rd_exact (Z.to_nat len) s) (fun l r => ROk (Some l) r).
(* bytes.go:40-50 Read, 167-185 *)
Definition rd_bytesf (c : ctx) (ver : Z) (prev : option (list Z)) (s : list Z) : rres (option (list Z)) :=
  if negb (supported c ver) then ROk prev s
  else rbind (rd_len (flexible c ver) 4 s) (rd_bytes_value c ver prev).

(* ---------------- array.go, arrayofstruct.go ---------------- *)
(* array.go:154-170, arrayofstruct.go:151-172: the items one after the other *)
Fixpoint rd_items {A} (rd : list Z -> rres A) (n : nat) (s : list Z) : rres (list A) :=
  match n with
  | O => ROk [] s
  | S k => rbind (rd s) (fun a r => rbind (rd_items rd k r) (fun l r' => ROk (a :: l) r'))
  end.
(* array.go:202-210, arrayofstruct.go:204-218 *)
Fixpoint wr_items {A} (wr : A -> option (list Z)) (l : list A) : option (list Z) :=
  match l with
  | [] => Some []
  | a :: r => obind (wr a) (fun x => obind (wr_items wr r) (fun y => Some (x ++ y)))
  end.
Fixpoint sz_items {A} (sz : A -> option Z) (l : list A) : option Z :=
  match l with
  | [] => Some 0
  | a :: r => obind (sz a) (fun x => obind (sz_items sz r) (fun y => Some (x + y)))
  end.
(* array.go:50-96, arrayofstruct.go:49-99 SizeInBytes *)
Definition sz_arr {A} (c : ctx) (ver : Z) (sz : A -> option Z) (d : option (list A)) : option Z :=
  if negb (supported c ver) then Some 0
  else match d with
  | None => if nullable c ver then Some (sz_len (flexible c ver) 4 (-1)) else None
  | Some [] => Some (sz_len (flexible c ver) 4 0)
  | Some l =>
    if (if flexible c ver then zlen l + 1 >? max_u32 else zlen l >? max_i32) then None
    else obind (sz_items sz l) (fun n => Some (sz_len (flexible c ver) 4 (zlen l) + n))
  end.
(* array.go:98-129, 176-210; arrayofstruct.go:101-131, 176-218 Write *)
Definition wr_arr {A} (c : ctx) (ver : Z) (wr : A -> option (list Z)) (d : option (list A)) : option (list Z) :=
  if negb (supported c ver) then Some []
  else match d with
  | None => if nullable c ver then wr_len (flexible c ver) 4 (-1) else None
  | Some [] => wr_len (flexible c ver) 4 0
  | Some l => obind (wr_len (flexible c ver) 4 (zlen l)) (fun h =>
              obind (wr_items wr l) (fun b => Some (h ++ b)))
  end.
(* array.go:37-48, 131-174; arrayofstruct.go:37-47, 133-172 Read; an unsupported version gives nil *)
Definition rd_arr {A} (c : ctx) (ver : Z) (rd : list Z -> rres A) (s : list Z) : rres (option (list A)) :=
  if negb (supported c ver) then ROk None s
  else rbind (rd_len (flexible c ver) 4 s) (fun len r =>
    if len <? 0 then (if nullable c ver then ROk None r else RErr false)
    else rbind (rd_items rd (Z.to_nat len) r) (fun l r' => ROk (Some l) r')).

(* ---------------- taggedfields.go ---------------- *)
Notation rawtag := (Z * list Z)%type (only parsing).
(* taggedfields.go:90-112 readTaggedField: buf.Read fails at end of input even for an empty value *)
Definition rd_tag (s : list Z) : rres rawtag :=
  rbind (rd_uvarint32 s) (fun tag r1 =>
  rbind (rd_uvarint32 r1) (fun size r2 =>
  rbind (rd_exact (Z.to_nat size) r2) (fun v r3 => ROk (tag, v) r3))).
(* taggedfields.go:35-59 ReadRawTaggedFields: io.EOF on the count means "no tagged fields".
   (When ReadUvarint fails with io.EOF nothing was consumed; the model returns the empty rest.) *)
Definition rd_tags (s : list Z) : rres (list rawtag) :=
  match rd_uvarint32 s with
  | RErr true => ROk [] []
  | RErr false => RErr false
  | RPanic => RPanic
  | ROk n r => rd_items rd_tag (Z.to_nat n) r
  end.
(* taggedfields.go:114-141 writeTaggedField *)
Definition wr_tag (t : rawtag) : option (list Z) :=
  obind (wr_uvarint32 (fst t)) (fun a =>
  if zlen (snd t) >? max_u32 then None
  else obind (wr_uvarint32 (zlen (snd t))) (fun b => Some (a ++ b ++ snd t))).
(* sort.Slice by tag (taggedfields.go:73-75), modelled by a stable insertion sort.  sort.Slice is not
   stable, but inputs with equal keys are rejected right after. *)
Fixpoint tag_insert (t : rawtag) (l : list rawtag) : list rawtag :=
  match l with
  | [] => [t]
  | u :: r => if fst t <? fst u then t :: l else u :: tag_insert t r
  end.
Fixpoint tag_sort (l : list rawtag) : list rawtag :=
  match l with
  | [] => []
  | t :: r => tag_insert t (tag_sort r)
  end.
(* taggedfields.go:77-81: an equal neighbour after sorting *)
Fixpoint dup_neighbour (l : list rawtag) : bool :=
  match l with
  | t :: ((u :: _) as r) => (fst t =? fst u) || dup_neighbour r
  | _ => false
  end.
(* taggedfields.go:61-88 WriteRawTaggedFields *)
Definition wr_tags (l : list rawtag) : option (list Z) :=
  if zlen l >? max_u32 then None
  else obind (wr_uvarint32 (zlen l)) (fun h =>
    let s := tag_sort l in
    if dup_neighbour s then None
    else obind (wr_items wr_tag s) (fun b => Some (h ++ b))).
(* template lines 770-793: size of the unknown tagged fields (count excluded) *)
Definition sz_tag (t : rawtag) : option Z :=
  if zlen (snd t) >? max_u32 then None
  else Some (uint32_size (fst t) + uint32_size (zlen (snd t)) + zlen (snd t)).
