(* Model: the generated message structs of components/kafka-protocol-go.  All 328 generated files under
   pkg/protocol/messages are instances of assets/templates/struct_processor.tmpl; the model is the
   template, with the message definition as data ([sch]).  Line numbers below without a file refer to the
   template.  The concrete definitions are in M_KSchemas.v (extracted from the generated files). *)
From Coq Require Import List ZArith Bool.
From Verif Require Import M_KBase M_KFields M_KRecords.
Import ListNotations.
Open Scope Z_scope.

(* primitive field types: pkg/protocol/types/fields/{bool,int8,int16,int32,int64,uint16,float64,string,
   uuid,bytes,records}.go *)
Inductive prim := PBool | PInt (n : nat) | PUint16 | PFloat | PStr | PUuid | PBytes | PRec.
(* CustomDefaultValue of the field context *)
Inductive dflt := DNone | DInt (z : Z) | DBool (b : bool) | DStr (x : list Z).
(* message definitions *)
Inductive fty := TPrim (p : prim) | TArr (p : prim) | TStruct (s : sch) | TArrS (s : sch)
with sch := Sch (flo fhi : Z) (fs : flds)
with flds := FNil | FCons (c : ctx) (d : dflt) (t : fty) (fs : flds).

(* values; floats as their 64 bits *)
Definition denp (p : prim) : Type :=
  match p with
  | PBool => bool
  | PInt _ | PUint16 | PFloat => Z
  | PStr => nstr
  | PUuid => list Z
  | PBytes => option (list Z)
  | PRec => batches
  end.
(* lines 60-71: a struct is its isNil flag, its fields and the unknown tagged fields *)
Record sval (A : Type) := mksval { sv_nil : bool; sv_fld : A; sv_unk : list rawtag }.
Arguments mksval {A}. Arguments sv_nil {A}. Arguments sv_fld {A}. Arguments sv_unk {A}.
Fixpoint den_t (t : fty) : Type :=
  match t with
  | TPrim p => denp p
  | TArr p => option (list (denp p))
  | TStruct s => den_s s
  | TArrS s => option (list (den_s s))
  end
with den_s (s : sch) : Type := match s with Sch _ _ fs => sval (den_f fs) end
with den_f (fs : flds) : Type :=
  match fs with
  | FNil => unit
  | FCons _ _ t fs' => (den_t t * den_f fs')%type
  end.

(* lines 530-579 SetDefault *)
Definition def_p (p : prim) (d : dflt) : denp p :=
  match p return denp p with
  | PBool => match d with DBool b => b | _ => false end
  | PInt _ => match d with DInt z => z | _ => 0 end
  | PUint16 => match d with DInt z => z | _ => 0 end
  | PFloat => match d with DInt z => z | _ => 0 end
  | PStr => match d with DStr x => set_value x | _ => mkstr false [] end
  | PUuid => repeat 0 16
  | PBytes => None
  | PRec => mkbatches false []
  end.
Fixpoint def_t (d : dflt) (t : fty) : den_t t :=
  match t return den_t t with
  | TPrim p => def_p p d
  | TArr p => None
  | TStruct s => def_s s
  | TArrS s => None
  end
with def_s (s : sch) : den_s s := match s return den_s s with Sch flo fhi fs => mksval false (def_f fs) [] end
with def_f (fs : flds) : den_f fs :=
  match fs return den_f fs with
  | FNil => tt
  | FCons c d t fs' => (def_t d t, def_f fs')
  end.

(* lines 581-637 Equal.  The template only calls it with a default value as argument, so the model is the
   test "equal to the default"; it ignores isNil flags and the difference between nil and empty.
   (0.0 = -0.0 for floats.) *)
Definition eqdef_p (p : prim) (d : dflt) : denp p -> bool :=
  match p return denp p -> bool with
  | PBool => fun v => Bool.eqb v (match d with DBool b => b | _ => false end)
  | PInt _ => fun v => v =? (match d with DInt z => z | _ => 0 end)
  | PUint16 => fun v => v =? (match d with DInt z => z | _ => 0 end)
  | PFloat => fun v => match d with DInt z => v =? z | _ => (v =? 0) || (v =? 2 ^ 63) end
  | PStr => fun v => list_eqb (ns_val v) (ns_val (def_p PStr d))
  | PUuid => fun v => list_eqb v (repeat 0 16)
  | PBytes => fun v => match v with None | Some [] => true | _ => false end
  | PRec => fun v => match bs_items v with [] => true | _ => false end
  end.
Definition len0 {A} (v : option (list A)) : bool := match v with None | Some [] => true | _ => false end.
Fixpoint eqdef_t (d : dflt) (t : fty) : den_t t -> bool :=
  match t return den_t t -> bool with
  | TPrim p => eqdef_p p d
  | TArr p => len0
  | TStruct s => eqdef_s s
  | TArrS s => len0
  end
with eqdef_s (s : sch) : den_s s -> bool :=
  match s return den_s s -> bool with
  | Sch flo fhi fs => fun v => match sv_unk v with [] => eqdef_f fs (sv_fld v) | _ => false end
  end
with eqdef_f (fs : flds) : den_f fs -> bool :=
  match fs return den_f fs -> bool with
  | FNil => fun _ => true
  | FCons c d t fs' => fun v => eqdef_t d t (fst v) && eqdef_f fs' (snd v)
  end.
(* the "is not at its default" tests of lines 347-395 (tagged fields), 719-757, 833-884, 887-949: arrays
   len > 0, structs !Equal, strings by IsNil for default null and else by their bytes, []byte != nil,
   records !IsNil *)
Definition nondef_p (p : prim) (d : dflt) : denp p -> bool :=
  match p return denp p -> bool with
  | PStr => fun v => match d with
                     | DStr x => if list_eqb x null_text then negb (ns_nil v) else negb (list_eqb (ns_val v) x)
                     | _ => negb (list_eqb (ns_val v) [])
                     end
  | PBytes => fun v => match v with None => false | _ => true end
  | PRec => fun v => negb (bs_nil v)
  | p' => fun v => negb (eqdef_p p' d v)
  end.
Definition nondef_t (d : dflt) (t : fty) : den_t t -> bool :=
  match t return den_t t -> bool with
  | TPrim p => nondef_p p d
  | TArr p => fun v => negb (len0 v)
  | TStruct s => fun v => negb (eqdef_s s v)
  | TArrS s => fun v => negb (len0 v)
  end.

Section WithCodec.
Variable cz : codec.

(* ---- primitive fields: each Read/SizeInBytes/Write first tests IsSupportedVersion (int16.go:29-52 and
   the same in the other files) ---- *)
Definition rd_num (c : ctx) (ver : Z) {A} (prev : A) (rd : list Z -> rres A) (s : list Z) : rres A :=
  if supported c ver then rd s else ROk prev s.
Definition rd_p (c : ctx) (ver : Z) (p : prim) : denp p -> list Z -> rres (denp p) :=
  match p return denp p -> list Z -> rres (denp p) with
  | PBool => fun prev => rd_num c ver prev rd_bool
  | PInt n => fun prev => rd_num c ver prev (rd_int n)
  | PUint16 => fun prev => rd_num c ver prev (rd_uint 2)
  | PFloat => fun prev => rd_num c ver prev (rd_uint 8)
  | PStr => rd_str c ver
  | PUuid => fun prev => rd_num c ver prev rd_uuid
  | PBytes => rd_bytesf c ver
  | PRec => rd_records cz c ver
  end.
Definition wr_p (c : ctx) (ver : Z) (p : prim) : denp p -> option (list Z) :=
  match p return denp p -> option (list Z) with
  | PBool => fun v => Some (if supported c ver then wr_bool v else [])
  | PInt n => fun v => Some (if supported c ver then wr_int n v else [])
  | PUint16 => fun v => Some (if supported c ver then wr_uint 2 v else [])
  | PFloat => fun v => Some (if supported c ver then wr_uint 8 v else [])
  | PStr => wr_str c ver
  | PUuid => fun v => Some (if supported c ver then wr_uuid v else [])
  | PBytes => wr_bytes c ver
  | PRec => wr_records cz c ver
  end.
Definition sz_p (c : ctx) (ver : Z) (p : prim) : denp p -> option Z :=
  match p return denp p -> option Z with
  | PBool => fun _ => Some (if supported c ver then 1 else 0)
  | PInt n => fun _ => Some (if supported c ver then Z.of_nat n else 0)
  | PUint16 => fun _ => Some (if supported c ver then 2 else 0)
  | PFloat => fun _ => Some (if supported c ver then 8 else 0)
  | PStr => sz_str c ver
  | PUuid => fun _ => Some (if supported c ver then 16 else 0)
  | PBytes => sz_bytes c ver
  | PRec => sz_records c ver
  end.
(* array items are read into a zero value (array.go:159-170) *)
Definition zero_p (p : prim) : denp p := def_p p DNone.

(* lines 99-162, 261-323, 652-693: a field with a tag is not in the regular part in tagged versions; a
   field all of whose versions are tagged never is *)
Definition regular (c : ctx) (ver : Z) : bool := negb (only_tagged c) && negb (tagged c ver).

(* known tags (lines 200-245): None = unknown tag *)
Fixpoint has_tag (fs : flds) (t : Z) : bool :=
  match fs with
  | FNil => false
  | FCons c _ _ fs' => match c_tag c with Some u => u =? t | None => false end || has_tag fs' t
  end.

(* ---- Read, lines 97-252 ---- *)
(* [reg] = in the regular part (a struct is gated by IsSupportedVersion there, lines 138-142, but not in
   the tagged part, lines 224-230) *)
Fixpoint rd_t (reg : bool) (c : ctx) (ver : Z) (t : fty) : den_t t -> list Z -> rres (den_t t) :=
  match t return den_t t -> list Z -> rres (den_t t) with
  | TPrim p => rd_p c ver p
  | TArr p => fun _ => rd_arr c ver (rd_p c ver p (zero_p p))
  | TStruct s => fun prev inp => if reg && negb (supported c ver) then ROk prev inp else rd_s ver s inp
  | TArrS s => fun _ => rd_arr c ver (rd_s ver s)
  end
with rd_s (ver : Z) (s : sch) : list Z -> rres (den_s s) :=
  match s return list Z -> rres (den_s s) with
  | Sch flo fhi fs => fun inp =>
    rbind (rd_f ver fs inp) (fun v r =>
    if negb (in_vers flo fhi ver) then ROk (mksval false v []) r
    else match r with
    | [] => ROk (mksval false v []) []
    | _ => rbind (rd_tags r) (fun raws r' =>
           match rd_known ver fs raws v with
           | Some v' => ROk (mksval false v' (filter (fun t => negb (has_tag fs (fst t))) raws)) r'
           | None => RErr false
           end)
    end)
  end
with rd_f (ver : Z) (fs : flds) : list Z -> rres (den_f fs) :=
  match fs return list Z -> rres (den_f fs) with
  | FNil => fun inp => ROk tt inp
  | FCons c d t fs' => fun inp =>
    rbind (if regular c ver then rd_t true c ver t (def_t d t) inp else ROk (def_t d t) inp) (fun x r =>
    rbind (rd_f ver fs' r) (fun y r' => ROk (x, y) r'))
  end
(* lines 200-248: the raw tagged fields in input order (modelled field by field instead of tag by tag: the
   same result, as the tags of the fields are distinct); each known one is decoded into its field from its
   own bytes (bytes left over are ignored).  Errors and panics are both None here: the only readers that
   can panic are those of records, which no definition has as a tagged field (M_KSchemas). *)
with rd_known (ver : Z) (fs : flds) : list rawtag -> den_f fs -> option (den_f fs) :=
  match fs return list rawtag -> den_f fs -> option (den_f fs) with
  | FNil => fun _ v => Some v
  | FCons c d t fs' => fun raws v =>
    obind (match c_tag c with
           | None => Some (fst v)
           | Some tag =>
             fold_left (fun acc raw => obind acc (fun x =>
               if fst raw =? tag then
                 if negb (tagged c ver) then None
                 else match rd_t false c ver t x (snd raw) with ROk x' _ => Some x' | _ => None end
               else Some x)) raws (Some (fst v))
           end) (fun x => obind (rd_known ver fs' raws (snd v)) (fun y => Some (x, y)))
  end.

(* ---- lines 887-949 validateNonIgnorableFields: true = accepted ---- *)
Fixpoint ign_ok (ver : Z) (fs : flds) : den_f fs -> bool :=
  match fs return den_f fs -> bool with
  | FNil => fun _ => true
  | FCons c d t fs' => fun v =>
    (c_ign c || negb (0 <? c_lo c) || supported c ver || negb (nondef_t d t (fst v))) && ign_ok ver fs' (snd v)
  end.
(* the tag of a field that is written as a tagged field *)
Definition tag_out (ver : Z) (c : ctx) (d : dflt) (t : fty) (v : den_t t) : option Z :=
  match c_tag c with
  | Some tag => if tagged c ver && nondef_t d t v then Some tag else None
  | None => None
  end.
(* lines 833-885 getTaggedFieldsCount (known part) *)
Fixpoint n_known (ver : Z) (fs : flds) : den_f fs -> Z :=
  match fs return den_f fs -> Z with
  | FNil => fun _ => 0
  | FCons c d t fs' => fun v => (match tag_out ver c d t (fst v) with Some _ => 1 | None => 0 end) + n_known ver fs' (snd v)
  end.

(* ---- SizeInBytes, lines 639-794.  A struct field is sized without testing IsSupportedVersion. ---- *)
Fixpoint sz_t (c : ctx) (ver : Z) (t : fty) : den_t t -> option Z :=
  match t return den_t t -> option Z with
  | TPrim p => sz_p c ver p
  | TArr p => sz_arr c ver (sz_p c ver p)
  | TStruct s => sz_s ver s
  | TArrS s => sz_arr c ver (sz_s ver s)
  end
with sz_s (ver : Z) (s : sch) : den_s s -> option Z :=
  match s return den_s s -> option Z with
  | Sch flo fhi fs => fun v =>
    if sv_nil v then Some 0
    else if negb (ign_ok ver fs (sv_fld v)) then None
    else obind (sz_f ver fs (sv_fld v)) (fun a =>
      let n := zlen (sv_unk v) + n_known ver fs (sv_fld v) in
      if n >? max_u32 then None
      else if negb (in_vers flo fhi ver) then (if n >? 0 then None else Some a)
      else obind (sz_known ver fs (sv_fld v)) (fun b =>
           obind (sz_items sz_tag (sv_unk v)) (fun u => Some (a + (uint32_size n + b + u)))))
  end
with sz_f (ver : Z) (fs : flds) : den_f fs -> option Z :=
  match fs return den_f fs -> option Z with
  | FNil => fun _ => Some 0
  | FCons c d t fs' => fun v =>
    obind (if regular c ver then sz_t c ver t (fst v) else Some 0) (fun a =>
    obind (sz_f ver fs' (snd v)) (fun b => Some (a + b)))
  end
with sz_known (ver : Z) (fs : flds) : den_f fs -> option Z :=
  match fs return den_f fs -> option Z with
  | FNil => fun _ => Some 0
  | FCons c d t fs' => fun v =>
    obind (match tag_out ver c d t (fst v) with
           | Some tag => obind (sz_t c ver t (fst v)) (fun n =>
                         if n >? max_u32 then None else Some (n + uint32_size n + uint32_size tag))
           | None => Some 0
           end) (fun a =>
    obind (sz_known ver fs' (snd v)) (fun b => Some (a + b)))
  end.

(* ---- Write, lines 254-427.  The struct's own bytes; the capacity of the outer buffer is checked in
   [serialize] below; a tagged field is written into a buffer of exactly its computed size. ---- *)
Fixpoint wr_t (reg : bool) (c : ctx) (ver : Z) (t : fty) : den_t t -> option (list Z) :=
  match t return den_t t -> option (list Z) with
  | TPrim p => wr_p c ver p
  | TArr p => wr_arr c ver (wr_p c ver p)
  | TStruct s => fun v => if reg && negb (supported c ver) then Some [] else wr_s ver s v
  | TArrS s => wr_arr c ver (wr_s ver s)
  end
with wr_s (ver : Z) (s : sch) : den_s s -> option (list Z) :=
  match s return den_s s -> option (list Z) with
  | Sch flo fhi fs => fun v =>
    if sv_nil v then Some []
    else if negb (ign_ok ver fs (sv_fld v)) then None
    else obind (wr_f ver fs (sv_fld v)) (fun a =>
      if negb (in_vers flo fhi ver) then (if zlen (sv_unk v) + n_known ver fs (sv_fld v) >? 0 then None else Some a)
      else obind (wr_known ver fs (sv_fld v)) (fun ks =>
           obind (wr_tags (sv_unk v ++ ks)) (fun b => Some (a ++ b))))
  end
with wr_f (ver : Z) (fs : flds) : den_f fs -> option (list Z) :=
  match fs return den_f fs -> option (list Z) with
  | FNil => fun _ => Some []
  | FCons c d t fs' => fun v =>
    obind (if regular c ver then wr_t true c ver t (fst v) else Some []) (fun a =>
    obind (wr_f ver fs' (snd v)) (fun b => Some (a ++ b)))
  end
with wr_known (ver : Z) (fs : flds) : den_f fs -> option (list rawtag) :=
  match fs return den_f fs -> option (list rawtag) with
  | FNil => fun _ => Some []
  | FCons c d t fs' => fun v =>
    obind (match tag_out ver c d t (fst v) with
           | Some tag => obind (sz_t c ver t (fst v)) (fun n =>
                         obind (wr_t false c ver t (fst v)) (fun l =>
                         if zlen l <=? n then Some [(tag, l)] else None))
           | None => Some []
           end) (fun a =>
    obind (wr_known ver fs' (snd v)) (fun b => Some (a ++ b)))
  end.

(* pkg/request/request.go:60-89, pkg/response/response.go:59-88: size, then write into a buffer of that
   capacity (a writer without room is an error) *)
Definition serialize (ver : Z) (s : sch) (v : den_s s) : option (list Z) :=
  obind (sz_s ver s v) (fun n => obind (wr_s ver s v) (fun l => if zlen l <=? n then Some l else None)).
End WithCodec.
