(* Specification vocabulary for messages: admissible values, what a version carries, well-formed
   definitions. *)
From Coq Require Import List ZArith Bool.
From Verif Require Import M_KBase S_KBase M_KFields L_KFields M_KRecords S_KRecords M_KSchema.
Import ListNotations.
Open Scope Z_scope.

(* ---- admissible values: numbers in the range of their Go type, strings as the API builds them, records
   admissible and below 2 GB, no nil structs, unknown tags really unknown and with non-empty values ---- *)
Definition okp (p : prim) : denp p -> Prop :=
  match p return denp p -> Prop with
  | PBool => fun _ => True
  | PInt n => int_range (8 * Z.of_nat n)
  | PUint16 => uint_range 16
  | PFloat => uint_range 64
  | PStr => fun v => bytes_ok (ns_val v) /\ if ns_nil v then ns_val v = [] else ns_val v <> null_text
  | PUuid => fun v => length v = 16%nat /\ bytes_ok v
  | PBytes => fun _ => True
  | PRec => fun v => Forall (fun b => batch_ok b /\ compression (b_attrs b) = 0 /\ Forall rec_bytes (b_recs b)) (bs_items v)
                     /\ sz_batches (bs_items v) < 2 ^ 31 /\ (bs_nil v = true -> bs_items v = [])
  end.
Definition ok_arr {A} (P : A -> Prop) (v : option (list A)) : Prop :=
  match v with Some xs => Forall P xs /\ Z.of_nat (length xs) < 2 ^ 31 | None => True end.
Fixpoint ok_t (t : fty) : den_t t -> Prop :=
  match t return den_t t -> Prop with
  | TPrim p => okp p
  | TArr p => ok_arr (okp p)
  | TStruct s => ok_s s
  | TArrS s => ok_arr (ok_s s)
  end
with ok_s (s : sch) : den_s s -> Prop :=
  match s return den_s s -> Prop with
  | Sch flo fhi fs => fun v => sv_nil v = false /\ ok_f fs (sv_fld v) /\
      Forall (fun t => uint_range 32 (fst t) /\ snd t <> [] /\ has_tag fs (fst t) = false) (sv_unk v)
  end
with ok_f (fs : flds) : den_f fs -> Prop :=
  match fs return den_f fs -> Prop with
  | FNil => fun _ => True
  | FCons c d t fs' => fun v => ok_t t (fst v) /\ ok_f fs' (snd v)
  end.

(* ---- what a version carries of a value: fields that are neither regular and supported nor tagged and
   different from their default come back as their default; record batches come back with their derived
   length and CRC; unknown tags come back sorted ---- *)
Definition recs_bytes (b : batch) : list Z :=
  match wr_items wr_record (b_recs b) with Some x => x | None => [] end.
Definition batch_back (b : batch) : batch :=
  let tail := wr_int 2 (b_attrs b) ++ wr_int 4 (b_lod b) ++ wr_int 8 (b_bts b) ++ wr_int 8 (b_mts b)
    ++ wr_int 8 (b_pid b) ++ wr_int 2 (b_pep b) ++ wr_int 4 (b_seq b) ++ wr_int 4 (zlen (b_recs b)) ++ recs_bytes b in
  mkbatch (b_base b) (49 + zlen (recs_bytes b)) (b_epoch b) (b_magic b) (crc32c tail) (b_attrs b) (b_lod b) (b_bts b)
    (b_mts b) (b_pid b) (b_pep b) (b_seq b) (b_recs b).
Definition back_p (p : prim) : denp p -> denp p :=
  match p return denp p -> denp p with
  | PRec => fun v => mkbatches (bs_nil v) (map batch_back (bs_items v))
  | p' => fun v => v
  end.
Definition carried (ver : Z) (c : ctx) (d : dflt) (t : fty) (v : den_t t) : bool :=
  (regular c ver && supported c ver) || match tag_out ver c d t v with Some _ => true | None => false end.
Fixpoint back_t (ver : Z) (t : fty) : den_t t -> den_t t :=
  match t return den_t t -> den_t t with
  | TPrim p => back_p p
  | TArr p => option_map (map (back_p p))
  | TStruct s => back_s ver s
  | TArrS s => option_map (map (back_s ver s))
  end
with back_s (ver : Z) (s : sch) : den_s s -> den_s s :=
  match s return den_s s -> den_s s with
  | Sch flo fhi fs => fun v => mksval false (back_f ver fs (sv_fld v)) (tag_sort (sv_unk v))
  end
with back_f (ver : Z) (fs : flds) : den_f fs -> den_f fs :=
  match fs return den_f fs -> den_f fs with
  | FNil => fun v => v
  | FCons c d t fs' => fun v =>
    (if carried ver c d t (fst v) then back_t ver t (fst v) else def_t d t, back_f ver fs' (snd v))
  end.

(* ---- well-formed definitions at a version: integer widths 1,2,4,8; tags are distinct 32-bit numbers; a
   tagged version of a field is a supported version; a tagged struct is flexible; no tagged records ---- *)
Definition wf_p (p : prim) : bool :=
  match p with PInt n => Nat.eqb n 1 || Nat.eqb n 2 || Nat.eqb n 4 || Nat.eqb n 8 | _ => true end.
Definition nonempty_t (ver : Z) (t : fty) : bool :=
  match t with
  | TStruct (Sch flo fhi _) => in_vers flo fhi ver
  | TPrim PRec => false
  | _ => true
  end.
Fixpoint wf_t (ver : Z) (t : fty) : bool :=
  match t with
  | TPrim p => wf_p p
  | TArr p => wf_p p && match p with PRec | PBytes => false | _ => true end
  | TStruct s => wf_s ver s
  | TArrS s => wf_s ver s
  end
with wf_s (ver : Z) (s : sch) : bool := match s with Sch flo fhi fs => wf_f ver fs end
with wf_f (ver : Z) (fs : flds) : bool :=
  match fs with
  | FNil => true
  | FCons c d t fs' =>
    wf_t ver t && wf_f ver fs' &&
    match c_tag c with
    | Some tag => (0 <=? tag) && (tag <? 2 ^ 32) && negb (has_tag fs' tag)
                  && (negb (tagged c ver) || (supported c ver && nonempty_t ver t))
    | None => true
    end
  end.
(* no field of a nested struct type is unsupported at the version: then sizes are exact *)
Fixpoint tight_t (ver : Z) (t : fty) : bool :=
  match t with
  | TPrim _ | TArr _ => true
  | TStruct s => tight_s ver s
  | TArrS s => tight_s ver s
  end
with tight_s (ver : Z) (s : sch) : bool := match s with Sch flo fhi fs => tight_f ver fs end
with tight_f (ver : Z) (fs : flds) : bool :=
  match fs with
  | FNil => true
  | FCons c d t fs' =>
    match t with TStruct _ => negb (regular c ver) || supported c ver | _ => true end
    && tight_t ver t && tight_f ver fs'
  end.
(* no records anywhere *)
Fixpoint norec_t (t : fty) : bool :=
  match t with
  | TPrim PRec | TArr PRec => false
  | TPrim _ | TArr _ => true
  | TStruct s => norec_s s
  | TArrS s => norec_s s
  end
with norec_s (s : sch) : bool := match s with Sch flo fhi fs => norec_f fs end
with norec_f (fs : flds) : bool :=
  match fs with
  | FNil => true
  | FCons c d t fs' => norec_t t && norec_f fs'
  end.

(* every value inside a message: PU holds of every list of unknown tagged fields, PR of every records value *)
Definition every_p (PR : batches -> Prop) (p : prim) : denp p -> Prop :=
  match p return denp p -> Prop with PRec => PR | _ => fun _ => True end.
Fixpoint every_t (PU : list rawtag -> Prop) (PR : batches -> Prop) (t : fty) : den_t t -> Prop :=
  match t return den_t t -> Prop with
  | TPrim p => every_p PR p
  | TArr p => fun v => match v with Some xs => Forall (every_p PR p) xs | None => True end
  | TStruct s => every_s PU PR s
  | TArrS s => fun v => match v with Some xs => Forall (every_s PU PR s) xs | None => True end
  end
with every_s (PU : list rawtag -> Prop) (PR : batches -> Prop) (s : sch) : den_s s -> Prop :=
  match s return den_s s -> Prop with
  | Sch flo fhi fs => fun v => PU (sv_unk v) /\ every_f PU PR fs (sv_fld v)
  end
with every_f (PU : list rawtag -> Prop) (PR : batches -> Prop) (fs : flds) : den_f fs -> Prop :=
  match fs return den_f fs -> Prop with
  | FNil => fun _ => True
  | FCons c d t fs' => fun v => every_t PU PR t (fst v) /\ every_f PU PR fs' (snd v)
  end.
(* no two unknown tagged fields of a struct have the same tag *)
Definition distinct_tags (s : sch) (v : den_s s) : Prop := every_s (fun u => NoDup (map fst u)) (fun _ => True) s v.
(* no record carries a timestamp delta whose size is miscomputed (C02) *)
Definition no_gap (v : batches) : Prop :=
  forall b r, In b (bs_items v) -> In r (b_recs b) -> ~ (2 ^ 49 <= zigzag (r_ts r) < 2 ^ 56).
Definition gapless (s : sch) (v : den_s s) : Prop := every_s (fun _ => True) no_gap s v.
(* some struct of the definition is flexible at the version *)
Fixpoint flex_t (ver : Z) (t : fty) : bool :=
  match t with
  | TPrim _ | TArr _ => false
  | TStruct s => flex_s ver s
  | TArrS s => flex_s ver s
  end
with flex_s (ver : Z) (s : sch) : bool := match s with Sch flo fhi fs => in_vers flo fhi ver || flex_f ver fs end
with flex_f (ver : Z) (fs : flds) : bool :=
  match fs with FNil => false | FCons c d t fs' => flex_t ver t || flex_f ver fs' end.
