(* Specification: the kinds of personal data, as texts. *)
From Coq Require Import String List Ascii Bool Arith.
From Verif Require Import M_GoStr.
Import ListNotations.
Open Scope list_scope.

(* kinds of bytes *)
Definition in_range (lo hi : nat) (a : ascii) : Prop := lo <= nat_of_ascii a <= hi.
Definition Digit := in_range 48 57.
Definition Upper := in_range 65 90.
Definition Lower := in_range 97 122.
Definition Alnum (a : ascii) : Prop := Digit a \/ Upper a \/ Lower a.
Definition Word (a : ascii) : Prop := Alnum a \/ a = "_"%char.
Definition Hex (a : ascii) : Prop := Digit a \/ in_range 65 70 a \/ in_range 97 102 a.
Definition Blank (a : ascii) : Prop := In (nat_of_ascii a) [9; 10; 12; 13; 32].
Definition among (s : string) (a : ascii) : Prop := In a (list_ascii_of_string s).
(* texts of a kind of bytes: n of them, lo to hi of them, at least one *)
Definition exactly (n : nat) (K : ascii -> Prop) (u : gstr) : Prop := length u = n /\ Forall K u.
Definition range (lo hi : nat) (K : ascii -> Prop) (u : gstr) : Prop := lo <= length u <= hi /\ Forall K u.
Definition min (n : nat) (K : ascii -> Prop) (u : gstr) : Prop := n <= length u /\ Forall K u.

(* a number without leading zeros *)
Fixpoint decimal (fuel n : nat) : gstr :=
  match fuel with O => [] | S f => (if n <? 10 then [] else decimal f (n / 10)) ++ [ascii_of_nat (48 + n mod 10)] end.
Definition octet (u : gstr) : Prop := exists n, n <= 255 /\ u = decimal 3 n.
(* a trailing dot belongs to the match if a word follows it *)
Definition ipv4_text (u : gstr) : Prop := exists a b c e dot, octet a /\ octet b /\ octet c /\ octet e /\ (dot = [] \/ dot = lit ".") /\ u = a ++ lit "." ++ b ++ lit "." ++ c ++ lit "." ++ e ++ dot.
(* eight groups, or one to six, "::" and the last one *)
Definition ipv6_text (u : gstr) : Prop := exists gs g, Forall (range 1 4 Hex) gs /\ range 1 4 Hex g /\
  (1 <= length gs <= 6 /\ u = concat (map (fun x => x ++ lit ":") gs) ++ lit ":" ++ g \/ length gs = 7 /\ u = concat (map (fun x => x ++ lit ":") gs) ++ g).
Definition email_text (u : gstr) : Prop := exists l h t, min 1 (fun a => Alnum a \/ among "._%+-" a) l /\ min 1 (fun a => Alnum a \/ among ".-" a) h /\
  min 2 (fun a => Upper a \/ Lower a) t /\ u = l ++ lit "@" ++ h ++ lit "." ++ t.
Definition ssn_text (u : gstr) : Prop := exists a b c, exactly 3 Digit a /\ exactly 2 Digit b /\ exactly 4 Digit c /\ u = a ++ lit "-" ++ b ++ lit "-" ++ c.
Definition card_text (u : gstr) : Prop := exists a b c e, exactly 4 Digit a /\ exactly 4 Digit b /\ exactly 4 Digit c /\ exactly 4 Digit e /\ u = a ++ lit "-" ++ b ++ lit "-" ++ c ++ lit "-" ++ e.
Definition phone_text (u : gstr) : Prop := exists cc l a r s1 b s2 c,
  (cc = [] \/ exists n b, range 1 2 Digit n /\ Blank b /\ cc = lit "+" ++ n ++ [b]) /\ (l = [] \/ l = lit "(") /\ exactly 3 Digit a /\ (r = [] \/ r = lit ")") /\
  (Blank s1 \/ among ".-" s1) /\ exactly 3 Digit b /\ (Blank s2 \/ among ".-" s2) /\ exactly 4 Digit c /\ u = cc ++ l ++ a ++ r ++ [s1] ++ b ++ [s2] ++ c.
Definition aws_id_text (u : gstr) : Prop := exists p r, In p (map lit ["AKIA"; "A3T"; "AGPA"; "AIDA"; "AROA"; "AIPA"; "ANPA"; "ANVA"; "ASIA"]%string) /\
  min 12 (fun a => Digit a \/ Upper a) r /\ u = p ++ r.
(* six pairs; the class is A-z, which has six signs more than the letters, and no pair needs to be a number *)
Definition mac_byte (a : ascii) : Prop := Digit a \/ in_range 65 122 a.
Definition mac_text (u : gstr) : Prop := exists ps last, length ps = 5 /\ Forall (fun p => exactly 2 mac_byte (fst p) /\ among "-:" (snd p)) ps /\ exactly 2 mac_byte last /\
  u = concat (map (fun p => fst p ++ [snd p]) ps) ++ last.
Definition google_key_text (u : gstr) : Prop := exists k, exactly 35 (fun a => Alnum a \/ among "-_" a) k /\ u = lit "AIza" ++ k.
Definition google_id_text (u : gstr) : Prop := exists n k, min 1 Digit n /\ exactly 32 Word k /\ u = n ++ lit "-" ++ k ++ lit ".apps.googleusercontent.com".
Definition github_text (u : gstr) : Prop := exists p k, In p (map lit ["ghp"; "gho"; "ghu"; "ghs"]%string) /\ exactly 36 Word k /\ u = p ++ lit "_" ++ k.
Definition uuid_text (u : gstr) : Prop := exists a b c e f, exactly 8 Hex a /\ exactly 4 Hex b /\ exactly 4 Hex c /\ exactly 4 Hex e /\ exactly 12 Hex f /\
  u = a ++ lit "-" ++ b ++ lit "-" ++ c ++ lit "-" ++ e ++ lit "-" ++ f.
Definition stripe_text (u : gstr) : Prop := exists p m k, (p = lit "r" \/ p = lit "s") /\ (m = lit "test" \/ m = lit "live") /\ exactly 24 Alnum k /\ u = p ++ lit "k_" ++ m ++ lit "_" ++ k.
Definition firebase_text (u : gstr) : Prop := exists k, range 1 30 (fun a => Digit a \/ Lower a \/ a = "-"%char) k /\ u = k ++ lit ".firebaseapp.com".
Definition slack_text (u : gstr) : Prop := exists a b c e, min 1 Digit a /\ min 1 Word b /\ min 1 Digit c /\ min 1 (fun x => Digit x \/ in_range 97 102 x) e /\
  u = lit "xapp-" ++ a ++ lit "-" ++ b ++ lit "-" ++ c ++ lit "-" ++ e.
Definition github_pat_text (u : gstr) : Prop := exists k, exactly 82 Word k /\ u = lit "github_pat_" ++ k.
Definition secret (v : gstr) : Prop := min 1 (fun a => Alnum a \/ among "/+=" a) v.
Definition env_text (name : string) (u : gstr) : Prop := exists v, secret v /\ u = lit name ++ lit "=" ++ v.
Definition database_text (u : gstr) : Prop := exists p a b c, (p = lit "postgres" \/ p = lit "mysql") /\ min 1 Word a /\ min 1 Word b /\ min 1 Word c /\
  u = lit "DATABASE_URL=" ++ p ++ lit "://" ++ a ++ lit ":" ++ b ++ lit "@" ++ c.

(* the text, and whether it has to stand between word boundaries *)
Definition kinds : list ((gstr -> Prop) * bool) :=
  [(ipv4_text, true); (ipv6_text, true); (email_text, false); (ssn_text, true); (card_text, true); (phone_text, true); (aws_id_text, true); (mac_text, true);
   (google_key_text, true); (google_id_text, true); (github_text, true); (uuid_text, true); (stripe_text, true); (firebase_text, true); (slack_text, true);
   (github_pat_text, true); (env_text "AWS_SECRET_ACCESS_KEY", false); (env_text "GOOGLE_APPLICATION_CREDENTIALS", false); (env_text "AZURE_CLIENT_SECRET", false); (database_text, false)].
(* between the bytes x and y there is a word boundary *)
Definition word_at (s : gstr) (i : nat) : Prop := match i with O => False | S k => exists a, nth_error s k = Some a /\ Word a end.
Definition edge (s : gstr) (i : nat) : Prop := ~ (word_at s i <-> word_at s (S i)).
(* the bytes i..j of s are personal data of this kind *)
Definition is_kind (k : (gstr -> Prop) * bool) (s : gstr) (i j : nat) : Prop :=
  i <= j <= length s /\ fst k (firstn (j - i) (skipn i s)) /\ (snd k = true -> edge s i /\ edge s j).
