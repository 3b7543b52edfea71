(* Model: PII detection, /repo/experimental/kafka-message-pii-filter/pii/pii.go.  Capture groups are left out: FindAllIndex ignores them. *)
From Coq Require Import String List Ascii Bool Arith.
From Verif Require Import M_GoStr M_Regex.
Import ListNotations.
Open Scope list_scope.

Definition alpha (a : ascii) : bool := between 65 90 a || between 97 122 a.
Definition alnum (a : ascii) : bool := digit a || alpha a.
Definition isin (s : string) (a : ascii) : bool := existsb (Ascii.eqb a) (lit s).
Definition hexd (a : ascii) : bool := digit a || between 65 70 a || between 97 102 a.
Definition lhex (a : ascii) : bool := digit a || between 97 102 a.
Definition space (a : ascii) : bool := (nat_of_ascii a =? 32) || (nat_of_ascii a =? 9) || (nat_of_ascii a =? 10) || (nat_of_ascii a =? 12) || (nat_of_ascii a =? 13).
Definition s' (s : string) : rx := str (lit s).
Definition alts (l : list rx) : rx := match l with [] => Eps | r :: t => fold_left Alt t r end.
Definition d (n : nat) : rx := rep n (Cls digit).
(* f{1,n} *)
Definition one_to (n : nat) (f : ascii -> bool) : rx := Seq (Cls f) (upto (n - 1) (Cls f)).
(* f{n,} *)
Definition atleast (n : nat) (f : ascii -> bool) : rx := Seq (rep n (Cls f)) (Star true f).
Definition bounded (r : rx) : rx := seqs [WordB; r; WordB].

(* pii.go:9-13 *)
Definition ipv4 : rx :=
  bounded (rep 4 (seqs [Alt (Seq (s' "25") (Cls (between 48 53)))
                            (Seq (alts [Seq (s' "2") (Cls (between 48 52)); Seq (s' "1") (Cls digit); opt (Cls (between 49 57))]) (Cls digit));
                        opt (s' "."); WordB])).
Definition hexgrp : rx := Seq (one_to 4 hexd) (s' ":").
Definition ipv6 : rx := bounded (Seq (Alt (Seq (Seq hexgrp (upto 5 hexgrp)) (s' ":")) (rep 7 hexgrp)) (one_to 4 hexd)).
Definition email : rx :=
  seqs [plus true (fun a => alnum a || isin "._%+-" a); s' "@"; plus true (fun a => alnum a || isin ".-" a); s' "."; atleast 2 alpha].
Definition ssn : rx := bounded (seqs [d 3; s' "-"; d 2; s' "-"; d 4]).
Definition card : rx := bounded (seqs [d 4; s' "-"; d 4; s' "-"; d 4; s' "-"; d 4]).
Definition sep : rx := Cls (fun a => space a || isin ".-" a).
(* :14-18 *)
Definition phone : rx :=
  bounded (seqs [opt (seqs [s' "+"; one_to 2 digit; Cls space]); opt (s' "("); d 3; opt (s' ")"); sep; d 3; sep; d 4]).
Definition up_alnum (a : ascii) : bool := digit a || between 65 90 a.
Definition aws_id : rx :=
  bounded (Seq (alts (map s' ["AKIA"; "A3T"; "AGPA"; "AIDA"; "AROA"; "AIPA"; "ANPA"; "ANVA"; "ASIA"]%string)) (atleast 12 up_alnum)).
(* [a-zA-z0-9] *)
Definition mac_b (a : ascii) : bool := digit a || between 65 122 a.
Definition mac_pair (f : ascii -> bool) : rx := Seq (rep 2 (Cls mac_b)) (Cls f).
Definition mac : rx :=
  bounded (Alt (Seq (rep 5 (mac_pair (isin "-:"))) (rep 2 (Cls mac_b))) (Seq (rep 5 (mac_pair (isin ":"))) (rep 2 (Cls mac_b)))).
Definition g_api : rx := bounded (Seq (s' "AIza") (rep 35 (Cls (fun a => alnum a || isin "-_" a)))).
(* :19-24 *)
Definition g_oauth : rx := bounded (seqs [plus true digit; s' "-"; rep 32 (Cls word); s' ".apps.googleusercontent.com"]).
Definition gh_token : rx := bounded (seqs [alts (map s' ["ghp"; "gho"; "ghu"; "ghs"]%string); s' "_"; rep 36 (Cls word)]).
Definition hexes (n : nat) : rx := rep n (Cls hexd).
Definition heroku : rx := bounded (seqs [hexes 8; s' "-"; hexes 4; s' "-"; hexes 4; s' "-"; hexes 4; s' "-"; hexes 12]).
Definition stripe : rx := bounded (seqs [Alt (s' "r") (s' "s"); s' "k_"; Alt (s' "test") (s' "live"); s' "_"; rep 24 (Cls alnum)]).
Definition firebase : rx := bounded (Seq (one_to 30 (fun a => digit a || between 97 122 a || isin "-" a)) (s' ".firebaseapp.com")).
Definition slack : rx := bounded (seqs [s' "xapp-"; plus true digit; s' "-"; plus true word; s' "-"; plus true digit; s' "-"; plus true lhex]).
(* :25-29 *)
Definition gh_pat : rx := bounded (Seq (s' "github_pat_") (rep 82 (Cls word))).
Definition env_val : rx := plus true (fun a => alnum a || isin "/+=" a).
Definition aws_env : rx := Seq (s' "AWS_SECRET_ACCESS_KEY=") env_val.
Definition gcp_env : rx := Seq (s' "GOOGLE_APPLICATION_CREDENTIALS=") env_val.
Definition azure_env : rx := Seq (s' "AZURE_CLIENT_SECRET=") env_val.
Definition db_env : rx := seqs [s' "DATABASE_URL="; Alt (s' "postgres") (s' "mysql"); s' "://"; plus true word; s' ":"; plus true word; s' "@"; plus true word].
Definition patterns : list rx :=
  [ipv4; ipv6; email; ssn; card; phone; aws_id; mac; g_api; g_oauth; gh_token; heroku; stripe; firebase; slack; gh_pat; aws_env; gcp_env; azure_env; db_env].

(* bytes.Index(s, "=") *)
Fixpoint eq_index (s : gstr) : option nat :=
  match s with [] => None | c :: r => if Ascii.eqb c "=" then Some 0 else match eq_index r with Some n => Some (S n) | None => None end end.
Definition slice (t : gstr) (i j : nat) : gstr := firstn (j - i) (skipn i t).
(* :66-68 *)
Definition mask (t : gstr) (i j : nat) : gstr := firstn i t ++ repeat "*"%char (j - i) ++ skipn j t.
(* :54-69 one match *)
Definition mask_match (t : gstr) (m : nat * nat) : gstr :=
  let (i, j) := m in match eq_index (slice t i j) with Some p => mask t (p + i + 1) j | None => mask t i j end.
(* :48-77 detect *)
Definition detect (r : rx) (t : gstr) (obfuscate : bool) : bool * gstr :=
  match find_all r t with
  | [] => (false, t)
  | ms => (true, if obfuscate then fold_left mask_match ms t else t)
  end.
(* :34-46 DetectPII; [order]: the patterns in the order in which range visits the map *)
Definition detect_pii (order : list rx) (t : gstr) (obfuscate : bool) : bool * gstr :=
  fold_left (fun st r => let (b, t') := detect r (snd st) obfuscate in (fst st || b, t')) order (false, t).
