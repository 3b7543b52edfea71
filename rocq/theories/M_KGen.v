(* Model: the generator of the Kafka messages: /repo/components/kafka-protocol-go/internal/protocol/versions.go (VersionRange), messagespec.go, and
   cmd/gen/context.go, main.go 190-345, 477-567: what the template is given, for every message definition.  The result is a definition of M_KSchema,
   the form in which the generated code is modelled.

   Simplified: names are not made Go names; types are written without spaces, and arrays have no array elements; numbers are written without
   underscores; defaults of floats, and JSON numbers that are no integers of the type, are left out (there are none); a common struct must stand before the structs that use
   it (it does); hasKnownTaggedFields is left out
   (it only leaves code out that would do nothing). *)
From Coq Require Import String List Ascii Bool Arith ZArith.
From Verif Require Import M_GoStr M_KBase M_KFields M_KRecords M_KSchema.
Import ListNotations.
Open Scope list_scope.
Open Scope Z_scope.

(* ---- strconv.ParseInt ---- *)
Definition digit_of (c : ascii) : option Z :=
  let n := Z.of_nat (nat_of_ascii c) in
  if (48 <=? n) && (n <=? 57) then Some (n - 48) else if (97 <=? n) && (n <=? 122) then Some (n - 87) else if (65 <=? n) && (n <=? 90) then Some (n - 55) else None.
Fixpoint digits (base : Z) (s : gstr) (acc : Z) : option Z :=
  match s with [] => Some acc | c :: r => match digit_of c with Some d => if d <? base then digits base r (acc * base + d) else None | None => None end end.
Definition nat_of (base : Z) (s : gstr) : option Z := match s with [] => None | _ => digits base s 0 end.
(* base 0: the prefix decides *)
Definition prefixed (s : gstr) : option Z :=
  match s with
  | c :: d :: r =>
      if Ascii.eqb c "0" then
        (if Ascii.eqb d "x" || Ascii.eqb d "X" then nat_of 16 r else if Ascii.eqb d "b" || Ascii.eqb d "B" then nat_of 2 r
         else if Ascii.eqb d "o" || Ascii.eqb d "O" then nat_of 8 r else nat_of 8 (d :: r))
      else nat_of 10 s
  | _ => nat_of 10 s
  end.
Definition parse_int (nat : gstr -> option Z) (bits : Z) (s : gstr) : option Z :=
  let fit n := if (- 2 ^ (bits - 1) <=? n) && (n <? 2 ^ (bits - 1)) then Some n else None in
  match s with
  | c :: r => if Ascii.eqb c "-" then obind (nat r) (fun n => fit (- n)) else if Ascii.eqb c "+" then obind (nat r) fit else obind (nat s) fit
  | [] => None
  end.
Definition int16_of (s : gstr) : option Z := parse_int (nat_of 10) 16 s.

(* ---- versions.go 30-59 ---- *)
Definition max16 : Z := 32767.
Definition version_range (s : gstr) : option (Z * Z) :=
  match gsplit "-" s with
  | [a; b] => obind (int16_of a) (fun lo => obind (int16_of b) (fun hi => Some (lo, hi)))
  | _ =>
      match gsplit "+" s with
      | [a; _] => obind (int16_of a) (fun lo => Some (lo, max16))
      | _ => obind (int16_of s) (fun v => Some (v, v))
      end
  end.

(* ---- messagespec.go 17-49 ---- *)
Inductive rawdflt := RNone | RStr (s : gstr) | RBool (b : bool) | RNum (z : Z).
Inductive fspec := FSpec (name type versions flexv nullv tagv : gstr) (tag : option Z) (ignorable : bool) (default : rawdflt) (fields : list fspec).
Definition f_name (f : fspec) := match f with FSpec n _ _ _ _ _ _ _ _ _ => n end.
Definition f_type (f : fspec) := match f with FSpec _ t _ _ _ _ _ _ _ _ => t end.
Definition f_versions (f : fspec) := match f with FSpec _ _ v _ _ _ _ _ _ _ => v end.
Definition f_flexv (f : fspec) := match f with FSpec _ _ _ v _ _ _ _ _ _ => v end.
Definition f_nullv (f : fspec) := match f with FSpec _ _ _ _ v _ _ _ _ _ => v end.
Definition f_tagv (f : fspec) := match f with FSpec _ _ _ _ _ v _ _ _ _ => v end.
Definition f_tag (f : fspec) := match f with FSpec _ _ _ _ _ _ t _ _ _ => t end.
Definition f_ignorable (f : fspec) := match f with FSpec _ _ _ _ _ _ _ i _ _ => i end.
Definition f_default (f : fspec) := match f with FSpec _ _ _ _ _ _ _ _ d _ => d end.
Definition f_fields (f : fspec) := match f with FSpec _ _ _ _ _ _ _ _ _ l => l end.
(* the fields, and the common structs by name *)
Inductive mspec := MSpec (valid flexv : gstr) (fields : list fspec) (commons : list (gstr * list fspec)).

(* ---- context.go ---- *)
Definition none_text : gstr := lit "none".
(* a range that is given, or else the one that is inherited *)
Definition range_or (s : gstr) (inherited : Z * Z) : option (Z * Z) := match s with [] => Some inherited | _ => version_range s end.
(* 57-66, 144-153, 185-202: flexible versions *)
Definition flex_or (s : gstr) (inherited : Z * Z) : option (Z * Z) := if geqb s none_text then Some (max16, max16) else range_or s inherited.
(* 140-164 contextFromMessageSpec: the nullable versions, among others, are not set: they are Go's zeros *)
Definition message_flex (m : mspec) : option (Z * Z) := match m with MSpec _ f _ _ => flex_or f (max16, max16) end.
(* what a field inherits: the flexible and the nullable versions of the context above it *)
Record above := mkabove { a_flex : Z * Z; a_null : Z * Z }.
Definition message_above (flex : Z * Z) : above := mkabove flex (0, 0).
(* 166-236 contextFromFieldSpec, but for the default; the flag c_ign: template 889 *)
Definition field_ctx (p : above) (f : fspec) : option ctx :=
  obind (version_range (f_versions f)) (fun v =>
  obind (range_or (f_nullv f) (a_null p)) (fun n =>
  obind (flex_or (f_flexv f) (a_flex p)) (fun x =>
  obind (range_or (f_tagv f) (-1, -1)) (fun t =>
  (* template 53-56: the tagged versions are written for a field with a tag *)
  let t := match f_tag f with Some _ => t | None => (0, 0) end in
  Some (mkctx (fst v) (snd v) (fst x) (snd x) (fst n) (snd n) (fst t) (snd t) (f_tag f) (if fst v <=? 0 then false else f_ignorable f)))))).
Definition below (c : ctx) : above := mkabove (c_flo c, c_fhi c) (c_nlo c, c_nhi c).
(* main.go 477-520 goType of a type that is neither an array nor a struct *)
Definition prim_of (t : gstr) : option prim :=
  if geqb t (lit "bool") then Some PBool else if geqb t (lit "int8") then Some (PInt 1) else if geqb t (lit "int16") then Some (PInt 2)
  else if geqb t (lit "uint16") then Some PUint16 else if geqb t (lit "int32") then Some (PInt 4) else if geqb t (lit "int64") then Some (PInt 8)
  else if geqb t (lit "float64") then Some PFloat else if geqb t (lit "string") then Some PStr else if geqb t (lit "uuid") then Some PUuid
  else if geqb t (lit "bytes") then Some PBytes else if geqb t (lit "records") then Some PRec else None.
Definition is_struct (t : gstr) : bool := match t with c :: _ => let n := nat_of_ascii c in (Nat.leb 65 n && Nat.leb n 90)%bool | [] => false end.
Definition array_element (t : gstr) : option gstr := match t with c :: d :: r => if Ascii.eqb c "[" && Ascii.eqb d "]" then Some r else None | _ => None end.
(* 238-385 cast: the default value; zero, false and the empty string are what a field has without one *)
Definition nonzero (z : Z) : dflt := if z =? 0 then DNone else DInt z.
Definition cast_int (bits : Z) (d : rawdflt) : option dflt :=
  match d with RStr s => obind (parse_int prefixed bits s) (fun z => Some (nonzero z)) | RNum z => Some (nonzero z) | _ => None end.
Definition true_texts : list gstr := map lit ["1"; "t"; "T"; "TRUE"; "true"; "True"]%string.
Definition false_texts : list gstr := map lit ["0"; "f"; "F"; "FALSE"; "false"; "False"]%string.
Definition null_string : gstr := lit "null".
Definition cast (d : rawdflt) (t : gstr) : option dflt :=
  match d with
  | RNone => Some DNone
  | _ =>
    if is_struct t then None else
    match array_element t with
    | Some _ => match d with RStr s => if geqb s null_string then Some DNone else None | _ => None end
    | None =>
      match prim_of t with
      | Some PBool => match d with RBool b => Some (if b then DBool true else DNone)
          | RStr s => if existsb (geqb s) true_texts then Some (DBool true) else if existsb (geqb s) false_texts then Some DNone else None | _ => None end
      | Some (PInt n) => cast_int (8 * Z.of_nat n) d
      | Some PUint16 => cast_int 16 d
      | Some PStr => match d with RStr [] => Some DNone | RStr s => Some (DStr (map (fun c => Z.of_nat (nat_of_ascii c)) s)) | _ => None end
      | Some PBytes => match d with RStr s => if geqb s null_string then Some DNone else None | _ => None end
      | _ => None
      end
    end
  end.

(* ---- main.go 245-345 generateStructProcessor ---- *)
Fixpoint find_common (n : gstr) (l : list (gstr * sch)) : option sch := match l with [] => None | (k, s) :: r => if geqb n k then Some s else find_common n r end.
(* cflex: the flexible versions of the struct itself (structConstraints); p: what its fields inherit *)
Fixpoint gen_field (commons : list (gstr * sch)) (cflex : Z * Z) (p : above) (f : fspec) {struct f} : option (ctx * dflt * fty) :=
  match f with FSpec n t v fx nl tg tag ign d l =>
    obind (field_ctx p f) (fun c =>
    obind (cast d t) (fun dv =>
    let base := match array_element t with Some e => e | None => t end in
    let is_arr := match array_element t with Some _ => true | None => false end in
    obind (if is_struct base then
             (match l with
              | [] => obind (find_common base commons) (fun s => Some (if is_arr then TArrS s else TStruct s))
              | _ =>
                  (* 96-131 structConstraintsFromFieldSpec *)
                  obind (flex_or fx cflex) (fun cf =>
                  obind ((fix gen_fields (l : list fspec) : option flds :=
                            match l with
                            | [] => Some FNil
                            | f :: r => obind (gen_field commons cf (below c) f) (fun x => obind (gen_fields r) (fun fs => Some (FCons (fst (fst x)) (snd (fst x)) (snd x) fs)))
                            end) l) (fun fs =>
                  let s := Sch (fst cf) (snd cf) fs in Some (if is_arr then TArrS s else TStruct s)))
              end)
           else match l with [] => obind (prim_of base) (fun q => Some (if is_arr then TArr q else TPrim q)) | _ => None end)
      (fun ty => Some (c, dv, ty))))
  end.
Fixpoint gen_fields (commons : list (gstr * sch)) (cflex : Z * Z) (p : above) (l : list fspec) : option flds :=
  match l with
  | [] => Some FNil
  | f :: r => obind (gen_field commons cflex p f) (fun x => obind (gen_fields commons cflex p r) (fun fs => Some (FCons (fst (fst x)) (snd (fst x)) (snd x) fs)))
  end.
(* main.go 190-243 generateMessageProcessors: common structs have the flexible versions and the context of the message *)
Fixpoint gen_commons (flex : Z * Z) (l : list (gstr * list fspec)) (done : list (gstr * sch)) : option (list (gstr * sch)) :=
  match l with
  | [] => Some done
  | (n, fs) :: r => obind (gen_fields done flex (message_above flex) fs) (fun x => gen_commons flex r ((n, Sch (fst flex) (snd flex) x) :: done))
  end.
Definition gen_message (m : mspec) : option sch :=
  match m with MSpec valid _ fs commons =>
    obind (version_range valid) (fun _ =>
    obind (message_flex m) (fun flex =>
    obind (gen_commons flex commons []) (fun cs =>
    obind (gen_fields cs flex (message_above flex) fs) (fun x => Some (Sch (fst flex) (snd flex) x)))))
  end.
(* the versions of a message *)
Definition message_versions (m : mspec) : option (Z * Z) := match m with MSpec valid _ _ _ => version_range valid end.
