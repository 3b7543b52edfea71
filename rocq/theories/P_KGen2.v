(* C95: what a field with a default value starts with. *)
From Coq Require Import String List Ascii Bool Arith ZArith Lia.
From Verif Require Import M_GoStr L_GoStr M_KBase M_KFields M_KRecords M_KSchema M_KGen P_KGen.
Import ListNotations.
Open Scope list_scope.
Open Scope Z_scope.
(* a decimal number without a prefix: "0", or digits that do not begin with 0; perhaps behind a minus sign *)
Definition plain (s : gstr) (v : Z) : Prop := decimal s v /\ (s = lit "0" \/ exists c r, s = c :: r /\ c <> "0"%char).
Definition plain_signed (s : gstr) (v : Z) : Prop := plain s v \/ exists r, s = "-"%char :: r /\ plain r (- v).
Lemma prefixed_plain : forall s v, plain s v -> prefixed s = Some v.
Proof.
  intros s v (D & H). destruct H as [->|(c & r & -> & Hc)]; [destruct D as (_ & _ & <-); reflexivity|]. unfold prefixed. apply nat_of_iff in D. destruct r as [|d r]; [exact D|].
  apply Ascii.eqb_neq in Hc. now rewrite Hc.
Qed.
Lemma parse_plain : forall bits s v, 1 <= bits -> plain_signed s v -> - 2 ^ (bits - 1) <= v < 2 ^ (bits - 1) -> parse_int prefixed bits s = Some v.
Proof.
  intros bits s v Hb [H|(r & -> & H)] Hr; unfold parse_int; cbv zeta.
  - pose proof (prefixed_plain s v H) as E. destruct H as ((Hne & Hd & _) & _). destruct s as [|c r]; [congruence|]. inversion Hd as [|? ? Dc _]; subst. apply digit_not in Dc. destruct Dc as [N1 N2].
    apply Ascii.eqb_neq in N1, N2. rewrite N1, N2, E. cbn [obind]. destruct (Z.leb_spec (- 2 ^ (bits - 1)) v), (Z.ltb_spec v (2 ^ (bits - 1))); cbn [andb]; try reflexivity; lia.
  - rewrite Ascii.eqb_refl, (prefixed_plain r (- v) H). cbn [obind]. rewrite Z.opp_involutive. destruct (Z.leb_spec (- 2 ^ (bits - 1)) v), (Z.ltb_spec v (2 ^ (bits - 1))); cbn [andb]; try reflexivity; lia.
Qed.
Lemma nonzero_value : forall z, match nonzero z with DInt x => x | _ => 0 end = z.
Proof. intros z. unfold nonzero. destruct (Z.eqb_spec z 0); [now subst|reflexivity]. Qed.
Definition int_width (t : gstr) (n : nat) : Prop := t = lit "int8" /\ n = 1%nat \/ t = lit "int16" /\ n = 2%nat \/ t = lit "int32" /\ n = 4%nat \/ t = lit "int64" /\ n = 8%nat.
(* The value that SetDefault gives a field is the one of the definition: a truth value or a text for one, a number or a plain
   decimal in the range of the type, a text; and false, 0, the empty text without a default. *)
Theorem C95_default_bool : forall b d, d = RBool b \/ (d = RStr (lit (if b then "true" else "false"))) -> exists v, cast d (lit "bool") = Some v /\ def_p PBool v = b.
Proof. intros [|] d [->| ->]; eexists; (split; [vm_compute; reflexivity|reflexivity]). Qed.
Print Assumptions C95_default_bool.
Theorem C95_default_int : forall t n d z, int_width t n -> d = RNum z \/ (exists s, d = RStr s /\ plain_signed s z /\ - 2 ^ (8 * Z.of_nat n - 1) <= z < 2 ^ (8 * Z.of_nat n - 1)) ->
  exists v, cast d t = Some v /\ def_p (PInt n) v = z.
Proof.
  intros t n d z Ht Hd. assert (E: d <> RNone /\ cast d t = cast_int (8 * Z.of_nat n) d).
  { destruct Hd as [->|(s & -> & _)]; split; try discriminate; destruct Ht as [[-> ->]|[[-> ->]|[[-> ->]|[-> ->]]]]; reflexivity. }
  destruct E as [_ E]. rewrite E. exists (nonzero z). split; [|cbn [def_p]; apply nonzero_value].
  destruct Hd as [->|(s & -> & Hs & Hr)]; [reflexivity|]. unfold cast_int. rewrite (parse_plain _ s z); [reflexivity| |exact Hs|exact Hr].
  destruct Ht as [[-> ->]|[[-> ->]|[[-> ->]|[-> ->]]]]; cbn; lia.
Qed.
Print Assumptions C95_default_int.
Theorem C95_default_text : forall s, exists v, cast (RStr s) (lit "string") = Some v /\
  def_p PStr v = match s with [] => mkstr false [] | _ => set_value (map (fun c => Z.of_nat (nat_of_ascii c)) s) end.
Proof. intros [|c s]; eexists; (split; [reflexivity|reflexivity]). Qed.
Print Assumptions C95_default_text.
Theorem C95_no_default : forall t, cast RNone t = Some DNone.
Proof. reflexivity. Qed.
Print Assumptions C95_no_default.
(* a text that stands for no number of the type is an error of the generator *)
Theorem C95_default_range : forall t n s z, int_width t n -> plain_signed s z -> ~ (- 2 ^ (8 * Z.of_nat n - 1) <= z < 2 ^ (8 * Z.of_nat n - 1)) -> cast (RStr s) t = None.
Proof.
  intros t n s z Ht Hs Hr. assert (E: cast (RStr s) t = cast_int (8 * Z.of_nat n) (RStr s)) by (destruct Ht as [[-> ->]|[[-> ->]|[[-> ->]|[-> ->]]]]; reflexivity). rewrite E. unfold cast_int, parse_int; cbv zeta.
  set (lim := 2 ^ (8 * Z.of_nat n - 1)) in *. clearbody lim. clear E Ht.
  destruct Hs as [H|(r & -> & H)].
  - pose proof (prefixed_plain s z H) as E. destruct H as ((Hne & Hd & _) & _). destruct s as [|c r]; [congruence|]. inversion Hd as [|? ? Dc _]; subst. apply digit_not in Dc. destruct Dc as [N1 N2].
    apply Ascii.eqb_neq in N1, N2. rewrite N1, N2, E. cbn [obind]. destruct (Z.leb_spec (- lim) z), (Z.ltb_spec z lim); cbn [andb]; try reflexivity; lia.
  - rewrite Ascii.eqb_refl, (prefixed_plain r (- z) H). cbn [obind]. rewrite Z.opp_involutive. destruct (Z.leb_spec (- lim) z), (Z.ltb_spec z lim); cbn [andb]; try reflexivity; lia.
Qed.
Print Assumptions C95_default_range.
Example C95_default_ex : plain_signed (lit "-12") (-12) /\ plain_signed (lit "200") 200 /\ cast (RStr (lit "200")) (lit "int8") = None /\ cast (RStr (lit "-12")) (lit "int8") = Some (DInt (-12)) /\ int_width (lit "int8") 1.
Proof.
  assert (D: forall s v, forallb (fun c => (48 <=? nat_of_ascii c)%nat && (nat_of_ascii c <=? 57)%nat) s = true -> s <> [] -> value s = v -> decimal s v).
  { intros s v H Hn Hv. split; [exact Hn|split; [|exact Hv]]. rewrite forallb_forall in H. apply Forall_forall. intros c Hc. specialize (H c Hc). apply andb_prop in H. destruct H as [H1 H2]. apply Nat.leb_le in H1, H2. split; assumption. }
  split; [|split; [|split; [reflexivity|split; [reflexivity|left; auto]]]].
  - right. exists (lit "12"). split; [reflexivity|]. split; [apply D; [reflexivity|discriminate|reflexivity]|right; eexists _, _; split; [reflexivity|discriminate]].
  - left. split; [apply D; [reflexivity|discriminate|reflexivity]|right; eexists _, _; split; [reflexivity|discriminate]].
Qed.
