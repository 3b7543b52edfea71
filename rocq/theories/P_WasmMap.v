(* C45: header map serialisation is injective and independent of the iteration order. *)
From Coq Require Import List Ascii NArith Bool Arith Lia Permutation Sorted.
From Verif Require Import M_GoStr L_GoStr M_WasmMap.
Import ListNotations.
Open Scope list_scope.
(* ---------- specification: a reader of the proxy-wasm layout ---------- *)
(* number of pairs (32 bit little endian); per pair the lengths of key and value; then key NUL value NUL for each pair *)
Definition take (n : nat) (s : gstr) : option (gstr * gstr) := if (length s <? n)%nat then None else Some (firstn n s, skipn n s).
Definition read32 (s : gstr) : option (N * gstr) :=
  match s with a :: b :: c :: d :: r => Some (N_of_ascii a + 256 * N_of_ascii b + 65536 * N_of_ascii c + 16777216 * N_of_ascii d, r)%N | _ => None end.
Fixpoint read_lens (n : nat) (s : gstr) : option (list (N * N) * gstr) :=
  match n with
  | O => Some ([], s)
  | S k => match read32 s with None => None | Some (a, s1) => match read32 s1 with None => None | Some (b, s2) => match read_lens k s2 with None => None | Some (l, s3) => Some ((a, b) :: l, s3) end end end
  end.
Definition read_zstr (n : N) (s : gstr) : option (gstr * gstr) :=
  match take (N.to_nat n) s with Some (x, c :: r) => if Ascii.eqb c zero then Some (x, r) else None | _ => None end.
Fixpoint read_data (l : list (N * N)) (s : gstr) : option (list (gstr * gstr)) :=
  match l with
  | [] => match s with [] => Some [] | _ => None end
  | (a, b) :: r => match read_zstr a s with None => None | Some (k, s1) => match read_zstr b s1 with None => None | Some (v, s2) => match read_data r s2 with None => None | Some m => Some ((k, v) :: m) end end end
  end.
Definition decode (s : gstr) : option (list (gstr * gstr)) :=
  match read32 s with None => None | Some (n, s1) => match read_lens (N.to_nat n) s1 with None => None | Some (l, s2) => read_data l s2 end end.
(* a map that fits the format *)
Definition fits (m : list (gstr * gstr)) : Prop := (N.of_nat (length m) < 2 ^ 32)%N /\ forall k v, In (k, v) m -> (N.of_nat (length k) < 2 ^ 32)%N /\ (N.of_nat (length v) < 2 ^ 32)%N.
Definition is_map (m : list (gstr * gstr)) : Prop := NoDup (map fst m).
(* ---------- proofs ---------- *)
Lemma read32_le32 : forall n r, (n < 2 ^ 32)%N -> read32 (le32 n ++ r) = Some (n, r).
Proof.
  intros n r H. unfold le32. cbn [map app read32]. rewrite !N_ascii_embedding by (apply N.mod_lt; discriminate). f_equal. f_equal.
  pose proof (N.div_mod n 256 ltac:(discriminate)) as E1. pose proof (N.div_mod (n / 256) 256 ltac:(discriminate)) as E2. pose proof (N.div_mod (n / 65536) 256 ltac:(discriminate)) as E3.
  assert (D1: (n / 256 / 256 = n / 65536)%N) by (rewrite N.div_div by discriminate; reflexivity). assert (D2: (n / 65536 / 256 = n / 16777216)%N) by (rewrite N.div_div by discriminate; reflexivity).
  assert (D3: ((n / 16777216) mod 256 = n / 16777216)%N). { apply N.mod_small. apply N.div_lt_upper_bound; [discriminate|]. change (2 ^ 32)%N with 4294967296%N in H. lia. }
  rewrite N.div_1_r, D3. rewrite D1 in E2. rewrite D2 in E3. lia.
Qed.
Lemma read_lens_ok : forall s r, (forall k v, In (k, v) s -> (N.of_nat (length k) < 2 ^ 32)%N /\ (N.of_nat (length v) < 2 ^ 32)%N) ->
  read_lens (length s) (flat_map (fun kv => le32 (glen (fst kv)) ++ le32 (glen (snd kv))) s ++ r) = Some (map (fun kv => (glen (fst kv), glen (snd kv))) s, r).
Proof.
  induction s as [|[k v] s IH]; intros r H; [reflexivity|]. cbn [flat_map length read_lens fst snd map]. destruct (H k v (or_introl eq_refl)) as (H1 & H2).
  rewrite <- !app_assoc. rewrite read32_le32 by exact H1. rewrite read32_le32 by exact H2. rewrite IH; [reflexivity|]. intros; apply H; now right.
Qed.
Lemma read_zstr_ok : forall x r, read_zstr (glen x) ((x ++ [zero]) ++ r) = Some (x, r).
Proof.
  intros x r. unfold read_zstr, take, glen. rewrite Nat2N.id. destruct (Nat.ltb_spec (length ((x ++ [zero]) ++ r)) (length x)) as [Hl|Hl]; [rewrite !app_length in Hl; lia|].
  rewrite <- app_assoc. rewrite firstn_app, Nat.sub_diag, firstn_all, firstn_O, app_nil_r. rewrite skipn_app, Nat.sub_diag, skipn_all. cbn. reflexivity.
Qed.
Lemma read_data_ok : forall s, read_data (map (fun kv => (glen (fst kv), glen (snd kv))) s) (flat_map (fun kv => (fst kv ++ [zero]) ++ (snd kv ++ [zero])) s) = Some s.
Proof.
  induction s as [|[k v] s IH]; [reflexivity|]. cbn [map read_data flat_map fst snd]. rewrite <- (app_assoc (k ++ [zero])). rewrite read_zstr_ok, read_zstr_ok, IH. reflexivity.
Qed.
Lemma insert_perm : forall x l, Permutation (x :: l) (insert_kv x l).
Proof. induction l as [|y l IH]; cbn; [constructor; constructor|]. destruct (gle (fst x) (fst y)); [apply Permutation_refl|]. eapply perm_trans; [apply perm_swap|]. now constructor. Qed.
Lemma sort_perm : forall m, Permutation m (sort_kv m).
Proof. induction m as [|x m IH]; [constructor|]. cbn. eapply perm_trans; [apply perm_skip, IH|]. apply insert_perm. Qed.
Lemma fits_perm : forall a b, Permutation a b -> fits a -> fits b.
Proof. intros a b P (H1 & H2). split; [now rewrite <- (Permutation_length P)|]. intros k v H. apply H2. eapply Permutation_in; [apply Permutation_sym; exact P|exact H]. Qed.
(* The serialised form decodes to the same pairs. *)
Theorem C45_decodes : forall m, fits m -> exists l, decode (serialize m) = Some l /\ Permutation m l.
Proof.
  intros m H. exists (sort_kv m). split; [|apply sort_perm]. pose proof (fits_perm _ _ (sort_perm m) H) as (H1 & H2). unfold decode, serialize. rewrite read32_le32 by exact H1. rewrite Nat2N.id. rewrite read_lens_ok by assumption. apply read_data_ok.
Qed.
Print Assumptions C45_decodes.
(* So two maps with the same serialisation are the same map. *)
Theorem C45_injective : forall a b, fits a -> fits b -> serialize a = serialize b -> Permutation a b.
Proof.
  intros a b Ha Hb H. destruct (C45_decodes a Ha) as (la & Ea & Pa). destruct (C45_decodes b Hb) as (lb & Eb & Pb). rewrite H, Eb in Ea. injection Ea as ->. eapply perm_trans; [exact Pa|]. now apply Permutation_sym.
Qed.
Print Assumptions C45_injective.
(* ---- independence of the iteration order ---- *)
Lemma gle_total : forall a b, gle a b = true \/ gle b a = true.
Proof. induction a as [|x a IH]; intros [|y b]; cbn; auto. destruct (N.ltb_spec (N_of_ascii x) (N_of_ascii y)), (N.ltb_spec (N_of_ascii y) (N_of_ascii x)); auto. Qed.
Lemma gle_antisym : forall a b, gle a b = true -> gle b a = true -> a = b.
Proof.
  induction a as [|x a IH]; intros [|y b]; cbn; try discriminate; auto. destruct (N.ltb_spec (N_of_ascii x) (N_of_ascii y)), (N.ltb_spec (N_of_ascii y) (N_of_ascii x)); try discriminate; try lia.
  intros H1 H2. f_equal; [|now apply IH]. assert (E: N_of_ascii x = N_of_ascii y) by lia. rewrite <- (ascii_N_embedding x), <- (ascii_N_embedding y), E. reflexivity.
Qed.
Lemma gle_trans : forall a b c, gle a b = true -> gle b c = true -> gle a c = true.
Proof.
  induction a as [|x a IH]; intros [|y b] [|z c]; cbn; try discriminate; auto.
  destruct (N.ltb_spec (N_of_ascii x) (N_of_ascii y)), (N.ltb_spec (N_of_ascii y) (N_of_ascii x)), (N.ltb_spec (N_of_ascii y) (N_of_ascii z)), (N.ltb_spec (N_of_ascii z) (N_of_ascii y)), (N.ltb_spec (N_of_ascii x) (N_of_ascii z)), (N.ltb_spec (N_of_ascii z) (N_of_ascii x)); try discriminate; try lia; auto. apply IH.
Qed.
Definition kle (x y : gstr * gstr) : Prop := gle (fst x) (fst y) = true.
Lemma insert_sorted : forall x l, StronglySorted kle l -> StronglySorted kle (insert_kv x l).
Proof.
  induction l as [|y l IH]; intros H; cbn; [repeat constructor|]. inversion H as [|? ? H1 H2]; subst. destruct (gle (fst x) (fst y)) eqn:E.
  - constructor; [assumption|]. constructor; [exact E|]. eapply Forall_impl; [|exact H2]. intros z Hz. eapply gle_trans; [exact E|exact Hz].
  - constructor; [now apply IH|]. apply (Permutation_Forall (insert_perm x l)). constructor; [|assumption]. destruct (gle_total (fst x) (fst y)); [congruence|assumption].
Qed.
Lemma sort_sorted : forall m, StronglySorted kle (sort_kv m).
Proof. induction m as [|x m IH]; cbn; [constructor|]. now apply insert_sorted. Qed.
Lemma sorted_unique : forall a b, StronglySorted kle a -> StronglySorted kle b -> Permutation a b -> NoDup (map fst a) -> a = b.
Proof.
  induction a as [|x a IH]; intros b Sa Sb P N.
  - apply Permutation_nil in P. now subst.
  - destruct b as [|y b]; [apply Permutation_sym, Permutation_nil in P; discriminate|]. inversion Sa as [|? ? Sa1 Sa2]; subst. inversion Sb as [|? ? Sb1 Sb2]; subst. inversion N as [|? ? N1 N2]; subst.
    assert (E: x = y).
    { assert (Iy: In y (x :: a)) by (eapply Permutation_in; [apply Permutation_sym; exact P|now left]). assert (Ix: In x (y :: b)) by (eapply Permutation_in; [exact P|now left]).
      destruct Iy as [|Iy]; [assumption|]. destruct Ix as [|Ix]; [congruence|]. rewrite Forall_forall in Sa2, Sb2. assert (Ek: fst x = fst y) by (apply gle_antisym; [now apply Sa2|now apply Sb2]). exfalso. apply N1. rewrite Ek. now apply in_map. }
    subst y. f_equal. apply IH; try assumption. eapply Permutation_cons_inv; exact P.
Qed.
(* The same map serialises to the same bytes whatever order its iteration takes. *)
Theorem C45_deterministic : forall a b, is_map a -> Permutation a b -> serialize a = serialize b.
Proof.
  intros a b N P. unfold serialize. assert (E: sort_kv a = sort_kv b); [|now rewrite E]. apply sorted_unique; try apply sort_sorted.
  - eapply perm_trans; [apply Permutation_sym, sort_perm|]. eapply perm_trans; [exact P|apply sort_perm].
  - eapply Permutation_NoDup; [|exact N]. apply Permutation_map, sort_perm.
Qed.
Print Assumptions C45_deterministic.
From Coq Require Import String.
Example C45_ex : let m := [(lit "b", lit "x"); (lit "a", lit "")]%string in fits m /\ is_map m /\ decode (serialize m) = Some [(lit "a", lit ""); (lit "b", lit "x")]%string.
Proof. cbn zeta. split; [|split; [|reflexivity]]. - split; [reflexivity|]. intros k v [E|[E|[]]]; injection E as <- <-; split; reflexivity. - unfold is_map. cbn. repeat constructor; cbn; intuition discriminate. Qed.
(* NUL bytes inside keys or values do no harm: the lengths decide *)
Example C45_nul_ex : decode (serialize [([zero], [zero; zero]); ([], [])]) = Some [([], []); ([zero], [zero; zero])].
Proof. reflexivity. Qed.
