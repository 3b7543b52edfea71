(* Closing gaps: C11 for responses, C60 for whole messages. *)
From Coq Require Import ZArith List Bool String Lia.
From Verif Require Import M_KBase S_KBase L_KBase L_KBase2 M_KFields S_KFields L_KFields L_KLoc M_KRecords S_KRecords L_KIo L_KRecords L_KBatch
  M_KSchema S_KSchema L_KSchema L_KSize L_KSchLoc L_KDone M_KSchemas M_KMsg S_KMsg L_KMsg P_KSchema.
Import ListNotations.
Open Scope Z_scope.
Open Scope list_scope.

(* ---- C60, whole messages: vocabulary over message definitions and values only ---- *)
(* a value of a primitive field that the context does not allow to be null is not null; the text "null" is the
   exception of C07 *)
Definition nonnull_p (c : ctx) (ver : Z) (p : prim) : denp p -> Prop :=
  match p return denp p -> Prop with
  | PStr => fun v => nullable c ver = false -> ns_nil v = true -> ns_val v = null_text
  | PBytes => fun v => nullable c ver = false -> v <> None
  | PRec => fun v => nullable c ver = false -> bs_nil v = false
  | _ => fun _ => True
  end.
Fixpoint nonnull_t (c : ctx) (ver : Z) (t : fty) : den_t t -> Prop :=
  match t return den_t t -> Prop with
  | TPrim p => nonnull_p c ver p
  | TArr p => fun v => match v with None => nullable c ver = true | Some l => Forall (nonnull_p c ver p) l end
  | TStruct s => nonnull_s ver s
  | TArrS s => fun v => match v with None => nullable c ver = true | Some l => Forall (nonnull_s ver s) l end
  end
with nonnull_s (ver : Z) (s : sch) : den_s s -> Prop :=
  match s return den_s s -> Prop with Sch _ _ fs => fun v => sv_nil v = false /\ nonnull_f ver fs (sv_fld v) end
(* every field of the version: not null, or a field outside the regular part that was not sent *)
with nonnull_f (ver : Z) (fs : flds) : den_f fs -> Prop :=
  match fs return den_f fs -> Prop with
  | FNil => fun _ => True
  | FCons c d t fs' => fun v =>
      (supported c ver = true -> nonnull_t c ver t (fst v) \/ (regular c ver = false /\ fst v = def_t d t)) /\
      nonnull_f ver fs' (snd v)
  end.

Lemma nn_items {A} (P : A -> Prop) (rd : list Z -> rres A) : (forall s v r, rd s = ROk v r -> P v) ->
  forall n s l r, rd_items rd n s = ROk l r -> Forall P l.
Proof.
  intros H n. induction n as [|n IH]; intros s l r E; cbn [rd_items] in E; [ injection E as <- _; constructor |].
  apply rbind_ok in E as (a & r1 & E1 & E). apply rbind_ok in E as (l' & r2 & E2 & E). injection E as <- _.
  constructor; [ exact (H _ _ _ E1) | exact (IH _ _ _ E2) ].
Qed.
Lemma nn_arr {A} (P : A -> Prop) c ver (rd : list Z -> rres A) : (forall s v r, rd s = ROk v r -> P v) -> supported c ver = true ->
  forall s v r, rd_arr c ver rd s = ROk v r -> match v with None => nullable c ver = true | Some l => Forall P l end.
Proof.
  intros H S s v r E. unfold rd_arr in E. rewrite S in E. cbn [negb] in E. apply rbind_ok in E as (len & r1 & _ & E).
  destruct (len <? 0); [ destruct (nullable c ver); [ injection E as <- _; reflexivity | discriminate ] |].
  apply rbind_ok in E as (l & r2 & E1 & E). injection E as <- _. exact (nn_items P rd H _ _ _ _ E1).
Qed.
Lemma nn_p cz c ver p prev s v r : supported c ver = true -> rd_p cz c ver p prev s = ROk v r -> nonnull_p c ver p v.
Proof.
  intros S E. destruct p; cbn [rd_p nonnull_p] in *; try exact I; intros N.
  - intros V. exact (C60_null_rejected _ _ _ _ _ _ S N E V).
  - unfold rd_bytesf in E. rewrite S in E. cbn [negb] in E. apply rbind_ok in E as (len & r1 & _ & E). unfold rd_bytes_value in E. rewrite N in E.
    destruct (len <? 0); [ discriminate |]. destruct (len >? max_i32); [ discriminate |]. destruct (len =? 0); [ injection E as <- _; discriminate |].
    apply rbind_ok in E as (l & r2 & _ & E). injection E as <- _. discriminate.
  - unfold rd_records in E. rewrite S in E. cbn [negb] in E. apply rbind_ok in E as (len & r1 & _ & E). rewrite N in E.
    destruct (len <? 0); [ discriminate |]. destruct (len =? 0); [ injection E as <- _; reflexivity |]. destruct (zlen r1 <? len); [ discriminate |].
    destruct (rd_batches cz (firstn (Z.to_nat len) r1)); try discriminate. injection E as <- _. reflexivity.
Qed.
Lemma nn_all cz ver :
  (forall t reg c prev s v r, supported c ver = true -> rd_t cz reg c ver t prev s = ROk v r -> nonnull_t c ver t v) /\
  (forall s inp v r, rd_s cz ver s inp = ROk v r -> nonnull_s ver s v) /\
  (forall fs, (forall inp v r, rd_f cz ver fs inp = ROk v r -> nonnull_f ver fs v) /\
              (forall raws v v', nonnull_f ver fs v -> rd_known cz ver fs raws v = Some v' -> nonnull_f ver fs v')).
Proof.
  apply schema_ind.
  - intros p reg c prev s v r S E. rewrite rd_t_prim in E. exact (nn_p _ _ _ _ _ _ _ _ S E).
  - intros p reg c prev s v r S E. rewrite rd_t_arr in E. cbn [nonnull_t]. refine (nn_arr _ _ _ _ _ S _ _ _ E). intros s0 v0 r0 E0. exact (nn_p _ _ _ _ _ _ _ _ S E0).
  - intros sc IH reg c prev s v r S E. rewrite rd_t_struct, S in E. cbn [negb] in E. rewrite andb_false_r in E. exact (IH _ _ _ E).
  - intros sc IH reg c prev s v r S E. rewrite rd_t_arrs in E. cbn [nonnull_t]. refine (nn_arr _ _ _ _ _ S _ _ _ E). exact IH.
  - intros flo fhi fs [IH1 IH2] inp v r E. rewrite rd_s_eq in E. apply rbind_ok in E as (w & r1 & E1 & E). pose proof (IH1 _ _ _ E1) as W.
    destruct (negb (in_vers flo fhi ver)); [ injection E as <- _; split; [ reflexivity | exact W ] |].
    destruct r1 as [|z r1]; [ injection E as <- _; split; [ reflexivity | exact W ] |].
    apply rbind_ok in E as (raws & r2 & _ & E). destruct (rd_known cz ver fs raws w) as [w'|] eqn:K; [| discriminate ]. injection E as <- _.
    split; [ reflexivity | exact (IH2 _ _ _ W K) ].
  - split; [ intros; exact I | intros; exact I ].
  - intros c d t IHt fs [IH1 IH2]. split.
    + intros inp v r E. rewrite rd_f_cons in E. apply rbind_ok in E as (x & r1 & E1 & E). apply rbind_ok in E as (y & r2 & E2 & E). injection E as <- _.
      cbn [nonnull_f fst snd]. split; [| exact (IH1 _ _ _ E2) ]. intros S. destruct (regular c ver) eqn:R.
      * left. exact (IHt _ _ _ _ _ _ S E1).
      * right. injection E1 as <- _. split; reflexivity.
    + intros raws v v' W E. rewrite rd_known_cons in E. cbn [nonnull_f] in W. destruct W as [W1 W2].
      match type of E with obind ?m _ = _ => destruct m as [x|] eqn:X; [| discriminate ] end. cbn [obind] in E.
      destruct (rd_known cz ver fs raws (snd v)) as [y|] eqn:Y; [| discriminate ]. injection E as <-. cbn [nonnull_f fst snd]. split; [| exact (IH2 _ _ _ W2 Y) ].
      intros S. specialize (W1 S). destruct (c_tag c) as [tag|]; [| injection X as <-; exact W1 ].
      revert x X W1. generalize (fst v). clear -IHt S. induction raws as [|raw raws IH]; intros x0 x X W; cbn [fold_left] in X; [ injection X as <-; exact W |].
      cbn [obind] in X. destruct (fst raw =? tag); [| exact (IH _ _ X W) ].
      destruct (negb (tagged c ver)).
      { exfalso. revert X. clear. induction raws as [|a raws IH]; cbn [fold_left]; [ discriminate | exact IH ]. }
      destruct (rd_t cz false c ver t x0 (snd raw)) as [x1 rr|e|] eqn:Q.
      * refine (IH _ _ X _). left. exact (IHt _ _ _ _ _ _ S Q).
      * exfalso. revert X. clear. induction raws as [|a raws IH]; cbn [fold_left]; [ discriminate | exact IH ].
      * exfalso. revert X. clear. induction raws as [|a raws IH]; cbn [fold_left]; [ discriminate | exact IH ].
Qed.
Theorem C60_whole_messages : forall cz s ver inp v rest, rd_s cz ver s inp = ROk v rest -> nonnull_s ver s v.
Proof. intros cz s ver. apply (proj1 (proj2 (nn_all cz ver))). Qed.
Print Assumptions C60_whole_messages.

(* ---- C11, responses ---- *)
Theorem C11_response_never_short_of_room : forall cz ver (m : response) n, known (m_sch m) -> msg_ok m -> resp_size ver m = Some n ->
  exists l, resp_serialize cz ver m = Some l /\ Z.of_nat (List.length l) <= n.
Proof. intros cz ver m n Hk Ha E. destruct (resp_sized cz ver m n Hk Ha E) as (l & El & H1 & H2). eauto. Qed.
Print Assumptions C11_response_never_short_of_room.

(* the decoded request of P_KSchema meets the hypothesis of C60_whole_messages *)
Definition mech_ex : den_s s_saslhandshake_Request := mksval false (mkstr false [65], tt) [].
Lemma mech_read : rd_s no_codec 1 s_saslhandshake_Request [0;1;65] = ROk mech_ex []. Proof. vm_compute. reflexivity. Qed.
Example C60_whole_ex : nonnull_s 1 s_saslhandshake_Request mech_ex. Proof. exact (C60_whole_messages _ _ _ _ _ _ mech_read). Qed.
