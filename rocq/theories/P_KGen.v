(* C95: what the generator of the Kafka messages makes of the message definitions *)
From Coq Require Import String List Ascii Bool Arith ZArith Lia.
From Verif Require Import M_GoStr L_GoStr M_KBase M_KFields M_KRecords M_KSchema M_KSchemas M_KGen M_KSpecs.
Import ListNotations.
Open Scope list_scope.
Open Scope Z_scope.

(* ---- numbers ---- *)
Definition is_digit (c : ascii) : Prop := (48 <= nat_of_ascii c <= 57)%nat.
Definition value (s : gstr) : Z := fold_left (fun a c => 10 * a + (Z.of_nat (nat_of_ascii c) - 48)) s 0.
(* decimal digits that stand for v *)
Definition decimal (s : gstr) (v : Z) : Prop := s <> [] /\ Forall is_digit s /\ value s = v.

Lemma digit_of_digit : forall c, is_digit c -> digit_of c = Some (Z.of_nat (nat_of_ascii c) - 48).
Proof. intros c (H1 & H2). unfold digit_of. destruct (Z.leb_spec 48 (Z.of_nat (nat_of_ascii c))); [|lia]. destruct (Z.leb_spec (Z.of_nat (nat_of_ascii c)) 57); [|lia]. reflexivity. Qed.
Lemma digit_of_small : forall c d, digit_of c = Some d -> d < 10 -> is_digit c /\ d = Z.of_nat (nat_of_ascii c) - 48.
Proof.
  intros c d H L. unfold digit_of in H.
  destruct (Z.leb_spec 48 (Z.of_nat (nat_of_ascii c))), (Z.leb_spec (Z.of_nat (nat_of_ascii c)) 57); cbn [andb] in H.
  all: try (inversion H; subst; split; [unfold is_digit; lia|lia]).
  all: destruct (Z.leb_spec 97 (Z.of_nat (nat_of_ascii c))), (Z.leb_spec (Z.of_nat (nat_of_ascii c)) 122); cbn [andb] in H; try (inversion H; subst; lia).
  all: destruct (Z.leb_spec 65 (Z.of_nat (nat_of_ascii c))), (Z.leb_spec (Z.of_nat (nat_of_ascii c)) 90); cbn [andb] in H; try (inversion H; subst; lia); try discriminate.
Qed.
Definition value_from (a : Z) (s : gstr) : Z := fold_left (fun a c => 10 * a + (Z.of_nat (nat_of_ascii c) - 48)) s a.
Lemma digits_iff : forall s a v, digits 10 s a = Some v <-> Forall is_digit s /\ value_from a s = v.
Proof.
  induction s as [|c s IH]; intros a v; cbn [digits value_from fold_left].
  { split; [intros H; inversion H; split; [constructor|reflexivity]|intros (_ & ->); reflexivity]. }
  destruct (digit_of c) as [d|] eqn:E.
  - destruct (Z.ltb_spec d 10) as [L|L].
    + destruct (digit_of_small c d E L) as (D & Hd). rewrite IH. subst d. unfold value_from. replace (a * 10 + (Z.of_nat (nat_of_ascii c) - 48)) with (10 * a + (Z.of_nat (nat_of_ascii c) - 48)) by lia.
      split; intros (A & B); split; auto. inversion A; auto.
    + split; [discriminate|]. intros (A & _). inversion A as [|? ? D]; subst. rewrite (digit_of_digit c D) in E. inversion E; subst. unfold is_digit in D. lia.
  - split; [discriminate|]. intros (A & _). inversion A as [|? ? D]; subst. rewrite (digit_of_digit c D) in E. discriminate.
Qed.
Lemma nat_of_iff : forall s v, nat_of 10 s = Some v <-> decimal s v.
Proof.
  intros s v. unfold nat_of, decimal, value. destruct s as [|c s]; [split; [discriminate|intros (A & _); congruence]|].
  rewrite digits_iff. split; [intros (A & B); split; [discriminate|]; split; auto|intros (_ & A & B); split; auto].
Qed.
Lemma value_nonneg : forall s, Forall is_digit s -> 0 <= value s.
Proof.
  intros s H. unfold value. change (0 <= value_from 0 s). assert (G : forall s a, Forall is_digit s -> 0 <= a -> 0 <= value_from a s).
  { clear. induction s as [|c s IH]; intros a H Ha; cbn [value_from fold_left]; [exact Ha|]. inversion H as [|? ? D R]; subst. apply IH; [exact R|]. unfold is_digit in D. lia. }
  apply G; [exact H|lia].
Qed.
Lemma digit_not : forall c, is_digit c -> c <> "-"%char /\ c <> "+"%char.
Proof. intros c (H & _). split; intros ->; vm_compute in H; lia. Qed.
Lemma digits_no : forall s, Forall is_digit s -> ~ In "-"%char s /\ ~ In "+"%char s.
Proof. intros s H. rewrite Forall_forall in H. split; intros I; destruct (digit_not _ (H _ I)); congruence. Qed.

(* a version: at most 32767, perhaps behind a plus sign *)
Definition version_text (s : gstr) (v : Z) : Prop := (decimal s v \/ exists r, s = "+"%char :: r /\ decimal r v) /\ v <= 32767.
Definition negative_text (s : gstr) (v : Z) : Prop := exists r, s = "-"%char :: r /\ decimal r (- v) /\ -32768 <= v.

Theorem C95_int16 : forall s v, int16_of s = Some v <-> version_text s v \/ negative_text s v.
Proof.
  intros s v. unfold int16_of, parse_int. replace (2 ^ (16 - 1)) with 32768 by reflexivity. cbv zeta.
  assert (FIT : forall n v, (if (- (32768) <=? n) && (n <? 32768) then Some n else None) = Some v <-> n = v /\ -32768 <= v <= 32767).
  { intros n w. destruct (Z.leb_spec (-(32768)) n), (Z.ltb_spec n 32768); cbn [andb]; split; intros X; try discriminate; try (inversion X; subst; lia); try (destruct X; lia). destruct X as (-> & _). reflexivity. }
  destruct s as [|c r].
  { split; [discriminate|]. intros [([(A & _)|(r & A & _)] & _)|(r & A & _)]; congruence. }
  destruct (Ascii.eqb_spec c "-") as [->|N1].
  { unfold obind. destruct (nat_of 10 r) as [n|] eqn:E.
    - apply nat_of_iff in E. rewrite FIT. split.
      + intros (A & B). right. exists r. split; [reflexivity|]. replace (- v) with n by lia. split; [exact E|lia].
      + intros [([(_ & A & _)|(r' & A & _)] & _)|(r' & A & (_ & _ & B) & C)].
        * exfalso. inversion A as [|? ? D]; subst. apply digit_not in D. tauto.
        * discriminate.
        * inversion A; subst r'. destruct E as (_ & F & E). split; [lia|]. pose proof (value_nonneg r F). lia.
    - split; [discriminate|]. intros [([(_ & A & _)|(r' & A & _)] & _)|(r' & A & B & C)].
      + exfalso. inversion A as [|? ? D]; subst. apply digit_not in D. tauto.
      + discriminate.
      + inversion A; subst r'. apply nat_of_iff in B. congruence. }
  assert (NN : ~ negative_text (c :: r) v) by (intros (r' & A & _); inversion A; congruence).
  destruct (Ascii.eqb_spec c "+") as [->|N2].
  { unfold obind. split.
    - destruct (nat_of 10 r) as [n|] eqn:E; [|discriminate]. apply nat_of_iff in E. rewrite FIT. intros (-> & B). left. split; [right; exists r; auto|lia].
    - intros [([(_ & A & _)|(r' & A & D)] & B)|X]; [| |contradiction].
      + exfalso. inversion A as [|? ? D]; subst. apply digit_not in D. tauto.
      + inversion A; subst r'. pose proof D as D'. apply nat_of_iff in D. rewrite D, FIT. destruct D' as (_ & F & E). pose proof (value_nonneg r F). lia. }
  unfold obind. split.
  - destruct (nat_of 10 (c :: r)) as [n|] eqn:E; [|discriminate]. apply nat_of_iff in E. rewrite FIT. intros (-> & B). left. split; [left; exact E|lia].
  - intros [([D|(r' & A & D)] & B)|X]; [| |contradiction].
    + pose proof D as D'. apply nat_of_iff in D. rewrite D, FIT. destruct D' as (_ & F & E). pose proof (value_nonneg _ F). lia.
    + inversion A; congruence.
Qed.
Print Assumptions C95_int16.

Definition count_in (c : ascii) (s : gstr) : nat := List.length (filter (Ascii.eqb c) s).
Lemma gsplit_count : forall c s, List.length (gsplit c s) = S (count_in c s).
Proof.
  intros c s. unfold count_in. induction s as [|d s IH]; [reflexivity|]. cbn [gsplit filter]. destruct (Ascii.eqb_spec d c) as [->|N].
  - rewrite Ascii.eqb_refl. cbn [List.length]. rewrite IH. reflexivity.
  - destruct (Ascii.eqb_spec c d); [congruence|]. pose proof (gsplit_nonnil c s). destruct (gsplit c s) as [|x l]; [contradiction|]. exact IH.
Qed.
Lemma split2 : forall c s a b, gsplit c s = [a; b] <-> s = a ++ c :: b /\ ~ In c a /\ ~ In c b.
Proof.
  intros c s a b. split.
  - intros H. split; [|split].
    + rewrite <- (gjoin_split c s), H. reflexivity.
    + apply (gsplit_in c s). rewrite H. now left.
    + apply (gsplit_in c s). rewrite H. right. now left.
  - intros (-> & A & B). rewrite gsplit_app, gsplit_nosep; auto.
Qed.
Lemma no_count : forall c s, ~ In c s <-> count_in c s = 0%nat.
Proof.
  intros c s. unfold count_in. induction s as [|d s IH]; cbn; [tauto|]. destruct (Ascii.eqb_spec c d) as [->|N]; cbn; [split; [intros H; exfalso; apply H; now left|discriminate]|]. rewrite <- IH. split; [intros H I; apply H; now right|intros H [I|I]; congruence || auto].
Qed.
Lemma count_app : forall c a b, count_in c (a ++ b) = (count_in c a + count_in c b)%nat.
Proof. intros. unfold count_in. rewrite filter_app, app_length. reflexivity. Qed.

(* "A-B"; or "A+" and, unnoticed, anything without another plus sign behind it (but not one dash in all); or "A" *)
Theorem C95_range : forall s lo hi, version_range s = Some (lo, hi) <->
  (exists a b, s = a ++ "-"%char :: b /\ version_text a lo /\ version_text b hi)
  \/ (exists a rest, s = a ++ "+"%char :: rest /\ (decimal a lo /\ lo <= 32767 \/ negative_text a lo) /\ hi = 32767 /\ ~ In "+"%char rest /\ count_in "-" s <> 1%nat)
  \/ (decimal s lo /\ lo <= 32767 /\ hi = lo).
Proof.
  assert (VD : forall a v, version_text a v -> ~ In "-"%char a).
  { intros a v ([(_ & F & _)|(r & -> & _ & F & _)] & _); [apply digits_no; exact F|]. intros [X|X]; [discriminate|]. revert X. apply digits_no. exact F. }
  assert (VN : forall a v, ~ In "-"%char a -> int16_of a = Some v -> version_text a v).
  { intros a v N H. apply C95_int16 in H. destruct H as [H|(r & -> & _)]; [exact H|]. exfalso. apply N. now left. }
  assert (VP : forall a v, ~ In "+"%char a -> version_text a v -> decimal a v /\ v <= 32767).
  { intros a v N ([D|(r & -> & _)] & L); [auto|]. exfalso. apply N. now left. }
  assert (SP : forall a v, ~ In "+"%char a -> (int16_of a = Some v <-> decimal a v /\ v <= 32767 \/ negative_text a v)).
  { intros a v N. rewrite C95_int16. split; (intros [H|H]; [left|right; exact H]); [apply VP; auto|]. destruct H. split; auto. }
  assert (NP : forall a v, decimal a v /\ v <= 32767 \/ negative_text a v -> ~ In "+"%char a).
  { intros a v [((_ & F & _) & _)|(r & -> & (_ & F & _) & _)]; [apply digits_no; exact F|]. intros [X|X]; [discriminate|]. revert X. apply digits_no. exact F. }
  intros s lo hi. unfold version_range.
  destruct (Nat.eq_dec (count_in "-" s) 1) as [C|C].
  - (* one dash *)
    pose proof (gsplit_count "-" s) as L. rewrite C in L. destruct (gsplit "-" s) as [|a [|b [|? ?]]] eqn:E; try discriminate. apply split2 in E. destruct E as (-> & NA & NB). unfold obind. split.
    + destruct (int16_of a) as [x|] eqn:EA; [|discriminate]. destruct (int16_of b) as [y|] eqn:EB; [|discriminate]. intros H. inversion H; subst. left. exists a, b. split; [reflexivity|]. split; apply VN; auto.
    + intros [(a' & b' & H & HA & HB)|[(a' & r & _ & _ & _ & _ & CR)|(D & _ & _)]].
      * apply app_sep_inj in H; [|exact NA|exact (VD _ _ HA)]. destruct H as (-> & ->). rewrite (proj2 (C95_int16 a' lo)) by (left; exact HA). rewrite (proj2 (C95_int16 b' hi)) by (left; exact HB). reflexivity.
      * contradiction.
      * exfalso. apply (proj1 (digits_no _ (proj1 (proj2 D)))). apply in_or_app. right. now left.
  - assert (ND : match gsplit "-" s with [a; b] => obind (int16_of a) (fun lo => obind (int16_of b) (fun hi => Some (lo, hi))) | _ => match gsplit "+" s with [a; _] => obind (int16_of a) (fun lo => Some (lo, max16)) | _ => obind (int16_of s) (fun v => Some (v, v)) end end
              = match gsplit "+" s with [a; _] => obind (int16_of a) (fun lo => Some (lo, max16)) | _ => obind (int16_of s) (fun v => Some (v, v)) end).
    { pose proof (gsplit_count "-" s) as L. destruct (gsplit "-" s) as [|a [|b [|? ?]]]; try reflexivity. exfalso. cbn in L. lia. }
    rewrite ND. clear ND.
    assert (NOD : ~ exists a b, s = a ++ "-"%char :: b /\ version_text a lo /\ version_text b hi).
    { intros (a & b & -> & HA & HB). apply C. rewrite count_app. pose proof (proj1 (no_count "-" a) (VD _ _ HA)). pose proof (proj1 (no_count "-" b) (VD _ _ HB)) as ZB. unfold count_in in *. cbn. lia. }
    destruct (Nat.eq_dec (count_in "+" s) 1) as [P|P].
    + pose proof (gsplit_count "+" s) as L. rewrite P in L. destruct (gsplit "+" s) as [|a [|b [|? ?]]] eqn:E; try discriminate. apply split2 in E. destruct E as (E & NA & NB). unfold obind. split.
      * destruct (int16_of a) as [x|] eqn:EA; [|discriminate]. intros H. inversion H; subst x hi. right. left. exists a, b. split; [exact E|]. split; [apply SP; auto|]. split; [reflexivity|]. split; [exact NB|exact C].
      * intros [X|[(a' & r & H & V & -> & NR & _)|(D & _ & _)]]; [contradiction| |].
        -- rewrite E in H. apply app_sep_inj in H; [|exact NA|exact (NP _ _ V)]. destruct H as (-> & ->). rewrite (proj2 (SP a' lo NA) V). reflexivity.
        -- exfalso. apply (proj2 (digits_no _ (proj1 (proj2 D)))). rewrite E. apply in_or_app. right. now left.
    + assert (ND : match gsplit "+" s with [a; _] => obind (int16_of a) (fun lo => Some (lo, max16)) | _ => obind (int16_of s) (fun v => Some (v, v)) end = obind (int16_of s) (fun v => Some (v, v))).
      { pose proof (gsplit_count "+" s) as L. destruct (gsplit "+" s) as [|a [|b [|? ?]]]; try reflexivity. exfalso. cbn in L. lia. }
      rewrite ND. clear ND. unfold obind. split.
      * destruct (int16_of s) as [v|] eqn:E; [|discriminate]. intros H. inversion H; subst. right. right. apply C95_int16 in E.
        destruct E as [([D|(r & -> & D)] & B)|(r & -> & D & _)].
        -- auto.
        -- exfalso. apply P. pose proof (proj1 (no_count "+" r) (proj2 (digits_no _ (proj1 (proj2 D))))) as Z0. unfold count_in in *. cbn. rewrite Z0. reflexivity.
        -- exfalso. apply C. pose proof (proj1 (no_count "-" r) (proj1 (digits_no _ (proj1 (proj2 D))))) as Z0. unfold count_in in *. cbn. rewrite Z0. reflexivity.
      * intros [X|[(a & r & -> & V & _ & NR & _)|(D & B & ->)]]; [contradiction| |].
        -- exfalso. apply P. pose proof (proj1 (no_count "+" a) (NP _ _ V)). pose proof (proj1 (no_count "+" r) NR). rewrite count_app. unfold count_in in *. cbn. lia.
        -- rewrite (proj2 (C95_int16 s lo)) by (left; split; auto). reflexivity.
Qed.
Print Assumptions C95_range.
Theorem C95_range_example : version_range (lit "0-9") = Some (0, 9) /\ version_range (lit "3+") = Some (3, 32767) /\ version_range (lit "0") = Some (0, 0) /\ version_range (lit "+4-0012") = Some (4, 12).
Proof. repeat split. Qed.
Print Assumptions C95_range_example.
(* a range may be empty, rubbish may follow the plus sign, and a single negative version is an error while two dashes let one through *)
Theorem C95_range_checked_refuted : version_range (lit "5-2") = Some (5, 2) /\ version_range (lit "3+ or later") = Some (3, 32767) /\ version_range (lit "-1") = None
  /\ version_range (lit "-1+") = None /\ version_range (lit "-1+-") = Some (-1, 32767) /\ version_range (lit "none") = None /\ version_range [] = None.
Proof. repeat split. Qed.
Print Assumptions C95_range_checked_refuted.

(* ---- the generated code is what the generator makes of the definitions ---- *)
Theorem C95_generated : map fst req_specs = map fst req_versions /\ map fst resp_specs = map fst resp_versions
  /\ (forall key m, In (key, m) req_specs -> gen_message m = req_sch key /\ gen_message m <> None)
  /\ (forall key m, In (key, m) resp_specs -> gen_message m = resp_sch key /\ gen_message m <> None)
  /\ map gen_message header_specs = [Some s_request_Header; Some s_response_Header].
Proof.
  assert (A : map (fun p => gen_message (snd p)) req_specs = map (fun p => req_sch (fst p)) req_specs) by (vm_compute; reflexivity).
  assert (B : map (fun p => gen_message (snd p)) resp_specs = map (fun p => resp_sch (fst p)) resp_specs) by (vm_compute; reflexivity).
  assert (N1 : forallb (fun p => match gen_message (snd p) with Some _ => true | None => false end) req_specs = true) by (vm_compute; reflexivity).
  assert (N2 : forallb (fun p => match gen_message (snd p) with Some _ => true | None => false end) resp_specs = true) by (vm_compute; reflexivity).
  assert (Cc : map gen_message header_specs = [Some s_request_Header; Some s_response_Header]) by (vm_compute; reflexivity).
  assert (D1 : map fst req_specs = map fst req_versions) by (vm_compute; reflexivity).
  assert (D2 : map fst resp_specs = map fst resp_versions) by (vm_compute; reflexivity).
  assert (G : forall (l : list (Z * mspec)) f, map (fun p => gen_message (snd p)) l = map (fun p => f (fst p)) l -> forallb (fun p => match gen_message (snd p) with Some _ => true | None => false end) l = true -> forall key m, In (key, m) l -> gen_message m = f key /\ gen_message m <> None).
  { clear. induction l as [|(k, x) l IH]; intros f H N key m I; [destruct I|]. simpl in H, N. injection H as H1 H2. apply andb_prop in N. destruct N as (N1 & N2). destruct I as [I|I]; [|exact (IH f H2 N2 key m I)].
    inversion I; subst. split; [exact H1|]. destruct (gen_message m); [discriminate|discriminate N1]. }
  split; [exact D1|]. split; [exact D2|]. split; [exact (G _ req_sch A N1)|]. split; [exact (G _ resp_sch B N2)|exact Cc].
Qed.
Print Assumptions C95_generated.
Theorem C95_generated_versions : (forall key m, In (key, m) req_specs -> message_versions m = option_map snd (find (fun p => fst p =? key) req_versions) /\ message_versions m <> None)
  /\ (forall key m, In (key, m) resp_specs -> message_versions m = option_map snd (find (fun p => fst p =? key) resp_versions) /\ message_versions m <> None).
Proof.
  assert (A : map (fun p => message_versions (snd p)) req_specs = map (fun p => option_map snd (find (fun q => fst q =? fst p) req_versions)) req_specs) by (vm_compute; reflexivity).
  assert (B : map (fun p => message_versions (snd p)) resp_specs = map (fun p => option_map snd (find (fun q => fst q =? fst p) resp_versions)) resp_specs) by (vm_compute; reflexivity).
  assert (N1 : forallb (fun p => match message_versions (snd p) with Some _ => true | None => false end) req_specs = true) by (vm_compute; reflexivity).
  assert (N2 : forallb (fun p => match message_versions (snd p) with Some _ => true | None => false end) resp_specs = true) by (vm_compute; reflexivity).
  assert (G : forall (l : list (Z * mspec)) f, map (fun p => message_versions (snd p)) l = map (fun p => f (fst p)) l -> forallb (fun p => match message_versions (snd p) with Some _ => true | None => false end) l = true -> forall key m, In (key, m) l -> message_versions m = f key /\ message_versions m <> None).
  { clear. induction l as [|(k, x) l IH]; intros f H N key m I; [destruct I|]. simpl in H, N. injection H as H1 H2. apply andb_prop in N. destruct N as (N1 & N2). destruct I as [I|I]; [|exact (IH f H2 N2 key m I)].
    inversion I; subst. split; [exact H1|]. destruct (message_versions m); [discriminate|discriminate N1]. }
  split; [exact (G _ (fun k => option_map snd (find (fun q => fst q =? k) req_versions)) A N1)|exact (G _ (fun k => option_map snd (find (fun q => fst q =? k) resp_versions)) B N2)].
Qed.
Print Assumptions C95_generated_versions.

(* ---- every field of every definition: its own ranges, or the ones inherited ---- *)
Definition base_type (t : gstr) : gstr := match array_element t with Some e => e | None => t end.
(* the field of a definition at a path, with the fields around it, innermost first; inside a common struct: only those of that struct *)
Fixpoint field_at (commons : list (gstr * list fspec)) (l : list fspec) (around : list fspec) (path : list nat) : option (list fspec) :=
  match path with
  | [] => None
  | i :: rest =>
      match nth_error l i with
      | None => None
      | Some f =>
          match rest with
          | [] => Some (f :: around)
          | _ => match f_fields f with
                 | [] => if is_struct (base_type (f_type f)) then match find (fun p => geqb (base_type (f_type f)) (fst p)) commons with Some p => field_at commons (snd p) [] rest | None => None end else None
                 | l' => field_at commons l' (f :: around) rest
                 end
          end
      end
  end.
(* the generated field at a path *)
Fixpoint nth_field (fs : flds) (i : nat) : option (ctx * dflt * fty) :=
  match fs with FNil => None | FCons c d t r => match i with O => Some (c, d, t) | S i => nth_field r i end end.
Definition struct_of (t : fty) : option sch := match t with TStruct s | TArrS s => Some s | _ => None end.
Fixpoint generated_at (fs : flds) (path : list nat) : option (ctx * dflt * fty) :=
  match path with
  | [] => None
  | i :: rest =>
      match nth_field fs i with
      | None => None
      | Some x => match rest with [] => Some x | _ => match struct_of (snd x) with Some (Sch _ _ fs') => generated_at fs' rest | None => None end end
      end
  end.
(* the innermost field of a chain for which something is written *)
Definition nearest (written : fspec -> gstr) (chain : list fspec) : option gstr := option_map written (find (fun f => match written f with [] => false | _ => true end) chain).
Definition null_of (chain : list fspec) : option (Z * Z) := match nearest f_nullv chain with Some s => version_range s | None => Some (0, 0) end.
Definition flex_of (message : Z * Z) (chain : list fspec) : option (Z * Z) :=
  match nearest f_flexv chain with Some s => if geqb s none_text then Some (max16, max16) else version_range s | None => Some message end.

Lemma nearest_cons : forall w f l, nearest w (f :: l) = match w f with [] => nearest w l | s => Some s end.
Proof. intros. unfold nearest. cbn [find]. destruct (w f) eqn:E; [reflexivity|]. cbn [option_map]. rewrite E. reflexivity. Qed.
Lemma null_step : forall f ch p n, null_of ch = Some p -> range_or (f_nullv f) p = Some n -> null_of (f :: ch) = Some n.
Proof. intros f ch p n H R. unfold null_of in *. rewrite nearest_cons. unfold range_or in R. destruct (f_nullv f); [congruence|exact R]. Qed.
Lemma flex_step : forall m f ch p n, flex_of m ch = Some p -> flex_or (f_flexv f) p = Some n -> flex_of m (f :: ch) = Some n.
Proof.
  intros m f ch p n H R. unfold flex_of in *. rewrite nearest_cons. unfold flex_or, range_or in R. destruct (f_flexv f) as [|c s].
  - replace (geqb [] none_text) with false in R by reflexivity. congruence.
  - destruct (geqb (c :: s) none_text); exact R.
Qed.
Definition matches (message_flex : Z * Z) (chain : list fspec) (x : ctx * dflt * fty) : Prop :=
  match chain with
  | [] => False
  | f :: _ =>
      let c := fst (fst x) in
      version_range (f_versions f) = Some (c_lo c, c_hi c)
      /\ null_of chain = Some (c_nlo c, c_nhi c)
      /\ flex_of message_flex chain = Some (c_flo c, c_fhi c)
      /\ c_tag c = f_tag f
      /\ (f_tag f <> None -> match f_tagv f with [] => c_tlo c = -1 /\ c_thi c = -1 | s => version_range s = Some (c_tlo c, c_thi c) end)
      /\ cast (f_default f) (f_type f) = Some (snd (fst x))
      /\ match struct_of (snd x) with
         | None => f_fields f = [] /\ is_struct (base_type (f_type f)) = false
         | Some (Sch lo hi _) => is_struct (base_type (f_type f)) = true /\ (lo, hi) = if match f_fields f with [] => true | _ => false end then message_flex else (c_flo c, c_fhi c)
         end
  end.

Section built.
Variables (flex : Z * Z) (commons : list (gstr * list fspec)).
Inductive built : list (gstr * sch) -> Prop :=
| built_nil : built []
| built_cons n l fs done : built done -> find (fun p => geqb n (fst p)) commons = Some (n, l) -> gen_fields done flex (message_above flex) l = Some fs -> built ((n, Sch (fst flex) (snd flex) fs) :: done).

Lemma built_find : forall done n s, built done -> find_common n done = Some s ->
  exists l fs done', find (fun p => geqb n (fst p)) commons = Some (n, l) /\ built done' /\ gen_fields done' flex (message_above flex) l = Some fs /\ s = Sch (fst flex) (snd flex) fs.
Proof.
  intros done n s B. induction B as [|m l fs done B IH H G]; intros F; [discriminate|]. cbn [find_common] in F. destruct (geqb n m) eqn:E; [|exact (IH F)].
  apply geqb_eq in E. subst m. inversion F; subst. exists l, fs, done. auto.
Qed.

(* a field of a struct that is generated *)
Lemma gen_nth : forall done cflex p l fs i, gen_fields done cflex p l = Some fs ->
  match nth_error l i with Some f => exists x, nth_field fs i = Some x /\ gen_field done cflex p f = Some x | None => nth_field fs i = None end.
Proof.
  intros done cflex p l. induction l as [|f l IH]; intros fs i H; cbn [gen_fields] in H.
  - inversion H; subst. destruct i; reflexivity.
  - unfold obind in H at 1. destruct (gen_field done cflex p f) as [x|] eqn:E; [|discriminate]. unfold obind in H. destruct (gen_fields done cflex p l) as [fs'|] eqn:E'; [|discriminate]. inversion H; subst.
    destruct i as [|i]; cbn [nth_error nth_field]; [exists x; split; [destruct x as ((? & ?) & ?); reflexivity|exact E]|]. exact (IH fs' i eq_refl).
Qed.
Lemma gen_fields_inner : forall done cf p l, (fix gen_fields (l : list fspec) : option flds :=
                            match l with
                            | [] => Some FNil
                            | f :: r => obind (gen_field done cf p f) (fun x => obind (gen_fields r) (fun fs => Some (FCons (fst (fst x)) (snd (fst x)) (snd x) fs)))
                            end) l = gen_fields done cf p l.
Proof. intros. induction l as [|f l IH]; [reflexivity|]. cbn [gen_fields]. rewrite <- IH. reflexivity. Qed.
Lemma gen_field_eq : forall done cflex p f, gen_field done cflex p f =
  obind (field_ctx p f) (fun c => obind (cast (f_default f) (f_type f)) (fun dv =>
    obind (if is_struct (base_type (f_type f)) then
             match f_fields f with
             | [] => obind (find_common (base_type (f_type f)) done) (fun s => Some (if match array_element (f_type f) with Some _ => true | None => false end then TArrS s else TStruct s))
             | _ => obind (flex_or (f_flexv f) cflex) (fun cf => obind (gen_fields done cf (below c) (f_fields f)) (fun fs => Some (if match array_element (f_type f) with Some _ => true | None => false end then TArrS (Sch (fst cf) (snd cf) fs) else TStruct (Sch (fst cf) (snd cf) fs))))
             end
           else match f_fields f with [] => obind (prim_of (base_type (f_type f))) (fun q => Some (if match array_element (f_type f) with Some _ => true | None => false end then TArr q else TPrim q)) | _ => None end)
      (fun ty => Some (c, dv, ty)))).
Proof. intros. destruct f as [n t v fx nl tg tag ign d l]. cbn [gen_field f_default f_type f_fields f_flexv]. unfold base_type. destruct l as [|f0 l]; [reflexivity|].
  destruct (field_ctx p (FSpec n t v fx nl tg tag ign d (f0 :: l))) as [c|]; [|reflexivity]. cbn [obind]. destruct (cast d t); [|reflexivity]. cbn [obind].
  destruct (is_struct _); [|reflexivity]. destruct (flex_or fx cflex) as [cf|]; [|reflexivity]. cbn [obind]. rewrite <- gen_fields_inner. reflexivity. Qed.

Lemma gen_matches : forall done cflex p f x ch, gen_field done cflex p f = Some x -> built done -> null_of ch = Some (a_null p) -> flex_of flex ch = Some (a_flex p) -> cflex = a_flex p ->
  matches flex (f :: ch) x
  /\ match f_fields f with
     | [] => (is_struct (base_type (f_type f)) = false /\ struct_of (snd x) = None)
             \/ (is_struct (base_type (f_type f)) = true /\ exists s, struct_of (snd x) = Some s /\ find_common (base_type (f_type f)) done = Some s)
     | l => exists cf fs, struct_of (snd x) = Some (Sch (fst cf) (snd cf) fs) /\ gen_fields done cf (below (fst (fst x))) l = Some fs
                          /\ null_of (f :: ch) = Some (a_null (below (fst (fst x)))) /\ flex_of flex (f :: ch) = Some (a_flex (below (fst (fst x)))) /\ cf = a_flex (below (fst (fst x)))
     end.
Proof.
  intros done cflex p f x ch H B HN HF HC. subst cflex. rewrite gen_field_eq in H.
  unfold obind in H at 1. destruct (field_ctx p f) as [c|] eqn:EC; [|discriminate]. unfold obind in H at 1. destruct (cast (f_default f) (f_type f)) as [dv|] eqn:ED; [|discriminate].
  unfold field_ctx in EC. unfold obind in EC. destruct (version_range (f_versions f)) as [v|] eqn:EV; [|discriminate]. destruct (range_or (f_nullv f) (a_null p)) as [n|] eqn:EN; [|discriminate].
  destruct (flex_or (f_flexv f) (a_flex p)) as [xf|] eqn:EX; [|discriminate]. destruct (range_or (f_tagv f) (-1, -1)) as [t|] eqn:ET; [|discriminate]. cbv zeta in EC. inversion EC as [EC']; clear EC.
  pose proof (null_step f ch _ _ HN EN) as SN. pose proof (flex_step flex f ch _ _ HF EX) as SF.
  unfold obind in H at 1. destruct (if is_struct (base_type (f_type f)) then _ else _) as [ty|] eqn:ETY in H; [|discriminate]. inversion H; subst x; clear H. cbn [fst snd].
  assert (M : match struct_of ty with
         | None => f_fields f = [] /\ is_struct (base_type (f_type f)) = false
         | Some (Sch lo hi _) => is_struct (base_type (f_type f)) = true /\ (lo, hi) = if match f_fields f with [] => true | _ => false end then flex else xf
         end
     /\ match f_fields f with
     | [] => (is_struct (base_type (f_type f)) = false /\ struct_of ty = None)
             \/ (is_struct (base_type (f_type f)) = true /\ exists s, struct_of ty = Some s /\ find_common (base_type (f_type f)) done = Some s)
     | l => exists cf fs, struct_of ty = Some (Sch (fst cf) (snd cf) fs) /\ gen_fields done cf (below c) l = Some fs /\ cf = xf
     end).
  { destruct (is_struct (base_type (f_type f))) eqn:ES.
    - destruct (f_fields f) as [|f0 l] eqn:EL.
      + unfold obind in ETY. destruct (find_common (base_type (f_type f)) done) as [s|] eqn:EF; [|discriminate]. inversion ETY; subst ty; clear ETY.
        replace (struct_of (if match array_element (f_type f) with Some _ => true | None => false end then TArrS s else TStruct s)) with (Some s) by (destruct (array_element (f_type f)); reflexivity).
        destruct (built_find done _ s B EF) as (l' & fs & d' & _ & _ & _ & ->). split; [split; [reflexivity|destruct flex; reflexivity]|]. right. split; [reflexivity|]. eexists. split; reflexivity.
      + unfold obind in ETY. destruct (gen_fields done xf (below c) (f0 :: l)) as [fs|] eqn:EG; [|discriminate]. inversion ETY; subst ty; clear ETY.
        replace (struct_of (if match array_element (f_type f) with Some _ => true | None => false end then TArrS (Sch (fst xf) (snd xf) fs) else TStruct (Sch (fst xf) (snd xf) fs))) with (Some (Sch (fst xf) (snd xf) fs)) by (destruct (array_element (f_type f)); reflexivity).
        split; [split; [reflexivity|destruct xf; reflexivity]|]. exists xf, fs. auto.
    - destruct (f_fields f) as [|f0 l] eqn:EL; [|discriminate]. unfold obind in ETY. destruct (prim_of (base_type (f_type f))) as [q|]; [|discriminate]. inversion ETY; subst ty; clear ETY.
      replace (struct_of (if match array_element (f_type f) with Some _ => true | None => false end then TArr q else TPrim q)) with (@None sch) by (destruct (array_element (f_type f)); reflexivity).
      split; [auto|]. left. auto. }
  assert (XF : (c_flo c, c_fhi c) = xf) by (subst c; destruct xf; reflexivity).
  assert (XN : (c_nlo c, c_nhi c) = n) by (subst c; destruct n; reflexivity).
  destruct M as (M1 & M2). split.
  - unfold matches. cbv zeta. cbn [fst snd]. rewrite XF, XN. split; [subst c; destruct v; exact EV|]. split; [exact SN|]. split; [exact SF|]. split; [subst c; reflexivity|].
    split; [|split; [exact ED|exact M1]]. intros NT. subst c. cbn. destruct (f_tag f); [|congruence]. unfold range_or in ET. destruct (f_tagv f); [inversion ET; auto|destruct t; exact ET].
  - unfold below. cbn [a_null a_flex]. rewrite XF, XN. destruct (f_fields f) as [|f0 l]; [exact M2|]. destruct M2 as (cf & fs & A & G & E). exists cf, fs. unfold below in G. rewrite XF, XN in G. auto.
Qed.

Lemma at_path : forall path l done p fs ch, built done -> gen_fields done (a_flex p) p l = Some fs -> null_of ch = Some (a_null p) -> flex_of flex ch = Some (a_flex p) ->
  match field_at commons l ch path with Some chain => exists x, generated_at fs path = Some x /\ matches flex chain x | None => generated_at fs path = None end.
Proof.
  induction path as [|i path IH]; intros l done p fs ch B G HN HF; [reflexivity|]. cbn [field_at generated_at].
  pose proof (gen_nth done (a_flex p) p l fs i G) as N. destruct (nth_error l i) as [f|]; [|rewrite N; reflexivity]. destruct N as (x & -> & E).
  destruct (gen_matches done (a_flex p) p f x ch E B HN HF eq_refl) as (M & S).
  destruct path as [|j path]; [exists x; auto|]. set (rest := j :: path) in *. clearbody rest.
  destruct (f_fields f) as [|f0 l'] eqn:EL.
  - destruct S as [(-> & ->)|(-> & s & -> & F)]; [reflexivity|]. destruct (built_find done _ s B F) as (l'' & fs' & done' & -> & B' & G' & ->). cbn [snd].
    apply (IH l'' done' (message_above flex) fs' [] B' G'); [reflexivity|unfold flex_of; reflexivity].
  - destruct S as (cf & fs' & -> & G' & SN & SF & ->). exact (IH (f0 :: l') done (below (fst (fst x))) fs' (f :: ch) B G' SN SF).
Qed.
End built.

Lemma commons_built : forall flex commons l done cs pre, built flex commons done -> commons = pre ++ l -> NoDup (map fst commons) -> gen_commons flex l done = Some cs -> built flex commons cs.
Proof.
  intros flex commons l. induction l as [|(n, fs0) l IH]; intros done cs pre B E ND H; cbn [gen_commons] in H; [inversion H; subst; exact B|].
  unfold obind in H. destruct (gen_fields done flex (message_above flex) fs0) as [fs|] eqn:EG; [|discriminate].
  refine (IH _ cs (pre ++ [(n, fs0)]) _ _ ND H); [|rewrite <- app_assoc; exact E]. apply (built_cons flex commons n fs0 fs done B); [|exact EG].
  subst commons. clear -ND. induction pre as [|(m, x) pre IHp]; cbn [app find fst]; [rewrite geqb_refl; reflexivity|]. cbn [app map fst] in ND. inversion ND as [|? ? NI ND']; subst.
  destruct (geqb n m) eqn:G; [|exact (IHp ND')]. exfalso. apply geqb_eq in G. subst m. apply NI. rewrite map_app. apply in_or_app. right. now left.
Qed.

(* Every field that is generated stands at the path of a field of the definition, and the other way round; and everything about it is written at that field, or
   (its nullable and its flexible versions) at the nearest field around it which writes it, or for the message: flexible versions; and versions 0 to 0 as the
   nullable ones if nobody writes any. *)
Theorem C95_fields : forall valid flexv l commons lo hi fs, gen_message (MSpec valid flexv l commons) = Some (Sch lo hi fs) -> NoDup (map fst commons) ->
  ((flexv = [] \/ flexv = lit "none") /\ (lo, hi) = (32767, 32767) \/ version_range flexv = Some (lo, hi)) /\
  forall path, match field_at commons l [] path with Some chain => exists x, generated_at fs path = Some x /\ matches (lo, hi) chain x | None => generated_at fs path = None end.
Proof.
  intros valid flexv l commons lo hi fs H ND. unfold gen_message, obind in H. destruct (version_range valid) as [v|]; [|discriminate]. destruct (message_flex (MSpec valid flexv l commons)) as [flex|] eqn:EF; [|discriminate].
  destruct (gen_commons flex commons []) as [cs|] eqn:EC; [|discriminate]. destruct (gen_fields cs flex (message_above flex) l) as [fs'|] eqn:EG; [|discriminate]. inversion H; subst fs' lo hi; clear H.
  replace (fst flex, snd flex) with flex by (destruct flex; reflexivity). split.
  - unfold message_flex, flex_or, range_or in EF. destruct (geqb flexv none_text) eqn:E; [apply geqb_eq in E; subst flexv; left; split; [right; reflexivity|inversion EF; reflexivity]|].
    destruct flexv; [left; split; [left; reflexivity|inversion EF; reflexivity]|right; exact EF].
  - intros path. apply (at_path flex commons path l cs (message_above flex) fs []); [|exact EG|reflexivity|reflexivity].
    apply (commons_built flex commons commons [] cs [] (built_nil flex commons) eq_refl ND EC).
Qed.
Print Assumptions C95_fields.
(* a field for which no nullable versions are written, nor for the fields around it, is nullable at version 0 and at no other *)
Theorem C95_nullable_version_0 : forall valid flexv l commons lo hi fs, gen_message (MSpec valid flexv l commons) = Some (Sch lo hi fs) -> NoDup (map fst commons) ->
  forall path chain c d ty, field_at commons l [] path = Some chain -> (forall f, In f chain -> f_nullv f = []) -> generated_at fs path = Some (c, d, ty) ->
  forall v, nullable c v = true <-> v = 0.
Proof.
  intros valid flexv l commons lo hi fs H ND path chain c d ty HF HN HG v. destruct (C95_fields _ _ _ _ _ _ _ H ND) as (_ & P). specialize (P path). rewrite HF in P. destruct P as (x & HX & M). rewrite HG in HX. inversion HX; subst x.
  destruct chain as [|f ch]; [destruct M|]. destruct M as (_ & MN & _). cbn [fst snd] in MN.
  assert (N : nearest f_nullv (f :: ch) = None).
  { unfold nearest. assert (F : find (fun f => match f_nullv f with [] => false | _ => true end) (f :: ch) = None); [|rewrite F; reflexivity].
    clear -HN. induction (f :: ch) as [|g l IH]; [reflexivity|]. cbn [find]. rewrite (HN g) by now left. apply IH. intros. apply HN. now right. }
  unfold null_of in MN. rewrite N in MN. inversion MN as [[E1 E2]]. unfold nullable, in_vers. rewrite <- E1, <- E2. destruct (Z.leb_spec 0 v), (Z.leb_spec v 0); cbn [andb]; split; intros X; try discriminate; try lia; reflexivity.
Qed.
Print Assumptions C95_nullable_version_0.

(* what is written is not what is generated: a string for which no nullable versions are written can be null at version 0, and in a nullable array (here of structs,
   "0+") so can the arrays and the numbers inside *)
Definition nulls_at (m : mspec) (sc : option sch) (path : list nat) (versions : list Z) : option (list gstr * list bool) :=
  match m, sc with
  | MSpec _ _ l commons, Some (Sch _ _ fs) =>
      match field_at commons l [] path, generated_at fs path with Some chain, Some (c, _, _) => Some (map f_nullv chain, map (nullable c) versions) | _, _ => None end
  | _, None => None
  end.
Theorem C95_nullable_as_written_refuted :
  In (25, d_AddOffsetsToTxnRequest) req_specs /\ nulls_at d_AddOffsetsToTxnRequest (req_sch 25) [0%nat] [0; 1; 2; 3] = Some ([[]], [true; false; false; false])
  /\ In (37, d_CreatePartitionsRequest) req_specs /\ nulls_at d_CreatePartitionsRequest (req_sch 37) [0; 2]%nat [0; 1; 2; 3] = Some ([lit "0+"; []], [true; true; true; true])
  /\ nulls_at d_CreatePartitionsRequest (req_sch 37) [0; 2; 0]%nat [0; 1; 2; 3] = Some ([[]; lit "0+"; []], [true; true; true; true]).
Proof.
  split; [unfold req_specs; repeat (try (left; reflexivity); right); fail|].
  split; [vm_compute; reflexivity|].
  split; [unfold req_specs; repeat (try (left; reflexivity); right); fail|].
  split; vm_compute; reflexivity.
Qed.
Print Assumptions C95_nullable_as_written_refuted.

(* the theorems above apply to all the definitions there are *)
Theorem C95_fields_all : forall key m, In (key, m) (req_specs ++ resp_specs) -> exists valid flexv l commons lo hi fs, m = MSpec valid flexv l commons /\ gen_message m = Some (Sch lo hi fs) /\ NoDup (map fst commons).
Proof.
  assert (N : forall l : list gstr, (fix nodup (l : list gstr) : bool := match l with [] => true | x :: r => negb (existsb (geqb x) r) && nodup r end) l = true -> NoDup l).
  { induction l as [|x l IH]; intros H; constructor.
    - apply andb_prop in H. destruct H as (H & _). intros I. apply Bool.negb_true_iff in H. rewrite <- Bool.not_true_iff_false in H. apply H. apply existsb_exists. exists x. split; [exact I|apply geqb_refl].
    - apply andb_prop in H. apply IH. tauto. }
  assert (C : forallb (fun p => match snd p with MSpec _ _ _ commons => match gen_message (snd p) with Some _ => (fix nodup (l : list gstr) : bool := match l with [] => true | x :: r => negb (existsb (geqb x) r) && nodup r end) (map fst commons) | None => false end end) (req_specs ++ resp_specs) = true) by (vm_compute; reflexivity).
  intros key m I. rewrite forallb_forall in C. specialize (C _ I). destruct m as [valid flexv l commons]. cbn [snd] in C. destruct (gen_message (MSpec valid flexv l commons)) as [[lo hi fs]|]; [|discriminate].
  exists valid, flexv, l, commons, lo, hi, fs. split; [reflexivity|]. split; [reflexivity|]. apply N. exact C.
Qed.
Print Assumptions C95_fields_all.
