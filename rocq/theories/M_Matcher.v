(* pkg/util/string_matcher.go *)
From Coq Require Import String List Ascii Bool Arith.
From Verif Require Import M_GoStr.
Import ListNotations.
Open Scope list_scope.
(* Library behaviour the code calls and this model takes as a parameter: package regexp (compile, source text, leftmost
   match after Longest() as byte offsets), istio's host.Name.Matches, and Unicode lower-casing of non-ASCII strings. *)
Record mlib := mkmlib { re : Type; re_compile : gstr -> option re; re_src : re -> gstr; re_find : re -> gstr -> option (nat * nat);
  host_matches : gstr -> gstr -> bool; uni_lower : gstr -> gstr }.
(* string_matcher.go:47-55: the struct; of the pointer fields setMatcher sets exactly one, hence one constructor each *)
Inductive mkind (L : mlib) := MExact (v : gstr) | MPrefix (v : gstr) | MSuffix (v : gstr) | MContains (v : gstr) | MDns (v : gstr) | MRegex (r : re L).
Arguments MExact {L}. Arguments MPrefix {L}. Arguments MSuffix {L}. Arguments MContains {L}. Arguments MDns {L}. Arguments MRegex {L}.
Record matcher (L : mlib) := mkmatcher { mt_kind : mkind L; mt_ignore : bool }.
Arguments mkmatcher {L}. Arguments mt_kind {L}. Arguments mt_ignore {L}.
(* string_matcher.go:31-38 *)
Definition tEXACT := lit "EXACT". Definition tPREFIX := lit "PREFIX". Definition tSUFFIX := lit "SUFFIX".
Definition tCONTAINS := lit "CONTAINS". Definition tREGEX := lit "REGEX". Definition tHOSTNAME := lit "HOSTNAME".
Section M.
Variable L : mlib.
Definition fold_case (ic : bool) (s : gstr) : gstr := if ic then gto_lower (uni_lower L) s else s.
(* string_matcher.go:166-191 setMatcher *)
Definition set_matcher (ic : bool) (ty value : gstr) : option (mkind L) :=
  let value := fold_case ic value in
  if geqb ty tEXACT then Some (MExact value)
  else if geqb ty tPREFIX then Some (MPrefix value)
  else if geqb ty tSUFFIX then Some (MSuffix value)
  else if geqb ty tCONTAINS then Some (MContains value)
  else if geqb ty tHOSTNAME then Some (MDns value)
  else if geqb ty tREGEX then match re_compile L value with Some r => Some (MRegex r) | None => None end
  else None.
(* string_matcher.go:57-67 NewStringMatcher *)
Definition new_matcher (ty value : gstr) (ic : bool) : option (matcher L) :=
  match set_matcher ic ty value with Some k => Some (mkmatcher k ic) | None => None end.
(* string_matcher.go:69-81 NewStringMatcherFromString *)
Definition matcher_from_string (s : gstr) : option (matcher L) :=
  match gsplitn ":"%char 3 s with
  | p0 :: p1 :: p2 :: _ => new_matcher p0 p2 (negb (geqb p1 []) && negb (geqb p1 (lit "0")))
  | _ => None
  end.
(* string_matcher.go:119-137 String *)
Definition matcher_string (m : matcher L) : gstr :=
  match mt_kind m with
  | MExact v => tEXACT ++ ":"%char :: v
  | MPrefix v => tPREFIX ++ ":"%char :: v
  | MSuffix v => tSUFFIX ++ ":"%char :: v
  | MContains v => tCONTAINS ++ ":"%char :: v
  | MDns v => tHOSTNAME ++ ":"%char :: v
  | MRegex r => tREGEX ++ ":"%char :: re_src L r
  end.
(* regexp.FindString: the matched text, "" without a match *)
Definition re_find_string (r : re L) (s : gstr) : gstr :=
  match re_find L r s with Some (i, j) => firstn (j - i) (skipn i s) | None => [] end.
(* string_matcher.go:139-164 Match *)
Definition matcher_match (m : matcher L) (input : gstr) : bool :=
  let input := fold_case (mt_ignore m) input in
  match mt_kind m with
  | MExact v => geqb input v
  | MPrefix v => ghas_prefix input v
  | MSuffix v => ghas_suffix input v
  | MContains v => gcontains input v
  | MDns v => host_matches L v input
  | MRegex r =>
      if (length input =? 0)%nat then match re_find L r input with Some _ => true | None => false end
      else (length (re_find_string r input) =? length input)%nat
  end.
(* the match pattern of envoy's StringMatcher proto; PNone stands for an unset or unknown pattern *)
Inductive xpat := XExact (v : gstr) | XPrefix (v : gstr) | XSuffix (v : gstr) | XContains (v : gstr) | XRegex (v : gstr) | XNone.
(* string_matcher.go:83-117 NewStringMatcherFromXDSProto; None for a nil proto *)
Definition matcher_from_xds (p : option (xpat * bool)) : option (matcher L) :=
  match p with
  | None => None
  | Some (pat, ic) =>
      match pat with
      | XExact v => new_matcher tEXACT v ic
      | XPrefix v => new_matcher tPREFIX v ic
      | XSuffix v => new_matcher tSUFFIX v ic
      | XContains v => new_matcher tCONTAINS v ic
      | XRegex v => new_matcher tREGEX v ic
      | XNone => None
      end
  end.
End M.
