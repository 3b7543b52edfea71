(* pkg/dotn/dotn.go. Values stored in the map: nested stores, map[string]string, slices and anything else (VScalar).
   A Go map is an association list; sharing of one map between two places of a tree is not modelled (Set never creates it
   for scalars and copies map[string]interface{} values key by key). Values of type map[string]interface{} occur only in
   the argument of Set and inside slices. The iteration order over an argument map is the order of its list. *)
From Coq Require Import String List Ascii Bool Arith ZArith.
From Verif Require Import M_GoStr.
Import ListNotations.
Open Scope list_scope.
(* values that are neither maps, slices nor strings: what a type switch can tell apart, and everything else *)
Inductive prim := PBool (b : bool) | PInt (z : Z) | PInt64 (z : Z) | PUint64 (z : Z) | PCode (z : Z) (* a named integer type *) | PFunc.
Inductive dval := VStore (m : list (gstr * dval)) | VMap (m : list (gstr * dval)) | VStrMap (m : list (gstr * gstr)) | VArr (l : list dval) | VScalar (z : Z) | VStr (s : gstr) | VPrim (p : prim).
Definition store := list (gstr * dval).
Fixpoint dget {A} (m : list (gstr * A)) (k : gstr) : option A := match m with [] => None | (k', v) :: r => if geqb k k' then Some v else dget r k end.
Fixpoint dput {A} (m : list (gstr * A)) (k : gstr) (v : A) : list (gstr * A) := match m with [] => [(k, v)] | (k', w) :: r => if geqb k k' then (k', v) :: r else (k', w) :: dput r k v end.
Definition NUL : ascii := "000"%char.
Definition BSL : ascii := "\"%char.
Definition DOT : ascii := "."%char.
(* strings.ReplaceAll(key, "\.", "\x00") *)
Fixpoint unescape (k : gstr) : gstr :=
  match k with
  | a :: r => match r with b :: r' => if Ascii.eqb a BSL && Ascii.eqb b DOT then NUL :: unescape r' else a :: unescape r | [] => [a] end
  | [] => []
  end.
(* strings.ReplaceAll(p, "\x00", ".") *)
Definition restore (p : gstr) : gstr := map (fun c => if Ascii.eqb c NUL then DOT else c) p.
Section D.
(* strconv.ParseInt(p, 0, 8) *)
Variable parse_int8 : gstr -> option Z.
Inductive gout := GSome (v : dval) | GNone | GPanic.
(* dotn.go:29-77: the loop of Get over the pieces; an index that does not parse or is too large makes the loop continue
   with the next piece and the same value *)
Fixpoint get_loop (value : dval) (pieces : list gstr) : gout :=
  match pieces with
  | [] => GNone
  | p0 :: rest =>
      let p := restore p0 in
      let found v := match rest with [] => GSome v | _ => get_loop v rest end in
      match value with
      | VStore m | VMap m => match dget m p with Some v => found v | None => GNone end
      | VStrMap m => match dget m p with Some s => found (VStr s) | None => GNone end
      | VArr l =>
          match parse_int8 p with
          | None => get_loop value rest
          | Some ip => if (Z.of_nat (length l) <? ip + 1)%Z then get_loop value rest
                       else if (ip <? 0)%Z then GPanic
                       else match nth_error l (Z.to_nat ip) with Some v => found v | None => GPanic end
          end
      | _ => GNone
      end
  end.
Definition dotn_get (m : store) (key : gstr) : gout := get_loop (VStore m) (gsplit DOT (unescape key)).
(* dotn.go:79-129 Set with a value that is neither a map nor a slice: the loop over the pieces; a prefix that is not a
   store is skipped *)
Fixpoint set_scalar (m : store) (pieces : list gstr) (v : dval) : store :=
  match pieces with
  | [] => m
  | p0 :: rest =>
      let p := restore p0 in
      match rest with
      | [] => dput m p v
      | _ => match dget m p with
             | None => dput m p (VStore (set_scalar [] rest v))
             | Some (VStore m') => dput m p (VStore (set_scalar m' rest v))
             | Some (VMap m') => dput m p (VMap (set_scalar m' rest v))
             | Some _ => set_scalar m rest v
             end
      end
  end.
(* dotn.go:79-129 Set with a slice: appended to a slice that is there, ignored if something else is there *)
Fixpoint set_slice (m : store) (pieces : list gstr) (l : list dval) : store :=
  match pieces with
  | [] => m
  | p0 :: rest =>
      let p := restore p0 in
      match rest with
      | [] => match dget m p with None => dput m p (VArr l) | Some (VArr l0) => dput m p (VArr (l0 ++ l)) | Some _ => m end
      | _ => match dget m p with
             | None => dput m p (VStore (set_slice [] rest l))
             | Some (VStore m') => dput m p (VStore (set_slice m' rest l))
             | Some (VMap m') => dput m p (VMap (set_slice m' rest l))
             | Some _ => set_slice m rest l
             end
      end
  end.
(* dotn.go:90-92 with the value type map[string]interface{}: an empty store is made if nothing is there *)
Fixpoint ensure (m : store) (pieces : list gstr) : store :=
  match pieces with
  | [] => m
  | p0 :: rest =>
      let p := restore p0 in
      match rest with
      | [] => match dget m p with None => dput m p (VStore []) | Some _ => m end
      | _ => match dget m p with
             | None => dput m p (VStore (ensure [] rest))
             | Some (VStore m') => dput m p (VStore (ensure m' rest))
             | Some (VMap m') => dput m p (VMap (ensure m' rest))
             | Some _ => ensure m rest
             end
      end
  end.
(* strings.ReplaceAll(k, ".", "\x00") *)
Definition hide (k : gstr) : gstr := map (fun c => if Ascii.eqb c DOT then NUL else c) k.
(* dotn.go:79-129 Set on the pieces of the key; a map value is set key by key with the key appended to the path *)
Fixpoint set_any (m : store) (pieces : list gstr) (v : dval) {struct v} : store :=
  match v with
  | VMap kvs =>
      (fix each (kvs : list (gstr * dval)) (m : store) : store :=
         match kvs with [] => m | (k, w) :: r => each r (set_any m (pieces ++ [hide k]) w) end) kvs (ensure m pieces)
  | VArr l => set_slice m pieces l
  | _ => set_scalar m pieces v
  end.
Definition dotn_set (m : store) (key : gstr) (v : dval) : store := set_any m (gsplit DOT key) v.
End D.
