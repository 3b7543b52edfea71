(* Facts that hold of every extracted message definition at every version, and the request/response layer *)
From Coq Require Import List ZArith Bool Lia ZifyBool ZifyNat.
From Verif Require Import M_KBase S_KBase L_KBase L_KBase2 M_KFields S_KFields L_KFields L_KLoc M_KRecords S_KRecords L_KIo L_KRecords L_KBatch
  M_KSchema S_KSchema L_KSchema L_KSize L_KSchLoc M_KSchemas M_KMsg S_KMsg.
Import ListNotations.
Open Scope Z_scope.

(* version-independent forms of wf_s and tight_s *)
Definition sub_rng (lo hi lo' hi' : Z) : bool := (lo' <=? lo) && (hi <=? hi').
Definition nonempty_all (c : ctx) (t : fty) : bool :=
  match t with
  | TStruct (Sch flo fhi _) => sub_rng (c_tlo c) (c_thi c) flo fhi
  | TPrim PRec => false
  | _ => true
  end.
Fixpoint wfa_t (t : fty) : bool :=
  match t with
  | TPrim p => wf_p p
  | TArr p => wf_p p && match p with PRec | PBytes => false | _ => true end
  | TStruct s => wfa_s s
  | TArrS s => wfa_s s
  end
with wfa_s (s : sch) : bool := match s with Sch flo fhi fs => wfa_f fs end
with wfa_f (fs : flds) : bool :=
  match fs with
  | FNil => true
  | FCons c d t fs' =>
    wfa_t t && wfa_f fs' &&
    match c_tag c with
    | Some tag => (0 <=? tag) && (tag <? 2 ^ 32) && negb (has_tag fs' tag)
                  && sub_rng (c_tlo c) (c_thi c) (c_lo c) (c_hi c) && nonempty_all c t
    | None => true
    end
  end.
Lemma wfa_wf ver :
  (forall t, wfa_t t = true -> wf_t ver t = true) /\ (forall s, wfa_s s = true -> wf_s ver s = true) /\
  (forall fs, wfa_f fs = true -> wf_f ver fs = true).
Proof.
  apply schema_ind; try (intros; assumption); try (intros ? IH; exact IH); try (intros ? ? ? IH; exact IH); try reflexivity.
  - intros c d t IHt fs' IHf H. cbn [wfa_f wf_f] in *. apply andb_true_iff in H as [H H3]. apply andb_true_iff in H as [H1 H2].
    rewrite (IHt H1), (IHf H2). cbn [andb]. destruct (c_tag c) as [tag|] eqn:E; [|reflexivity].
    repeat (apply andb_true_iff in H3 as [H3 ?]). rewrite H3, H5, H4. cbn [andb].
    destruct (tagged c ver) eqn:T; [|reflexivity]. cbn [negb orb]. unfold tagged in T. rewrite E in T. unfold sub_rng, in_vers, supported in *.
    apply andb_true_iff. split; [unfold in_vers; lia|]. destruct t as [p|p|[flo fhi fs]|s]; try reflexivity; cbn [nonempty_all nonempty_t] in *;
    [destruct p; (reflexivity || discriminate)|unfold in_vers, sub_rng in *; lia].
Qed.
Fixpoint tga_t (t : fty) : bool :=
  match t with
  | TPrim _ | TArr _ => true
  | TStruct s => tga_s s
  | TArrS s => tga_s s
  end
with tga_s (s : sch) : bool := match s with Sch flo fhi fs => tga_f fs end
with tga_f (fs : flds) : bool :=
  match fs with
  | FNil => true
  | FCons c d t fs' =>
    match t with TStruct _ => only_tagged c || sub_rng 0 32767 (c_lo c) (c_hi c) | _ => true end
    && tga_t t && tga_f fs'
  end.
Lemma tga_tight ver : 0 <= ver <= 32767 ->
  (forall t, tga_t t = true -> tight_t ver t = true) /\ (forall s, tga_s s = true -> tight_s ver s = true) /\
  (forall fs, tga_f fs = true -> tight_f ver fs = true).
Proof.
  intros Hv. apply schema_ind; try (intros ? IH; exact IH); try (intros ? ? ? IH; exact IH); try reflexivity.
  intros c d t IHt fs' IHf H. cbn [tga_f tight_f] in *. apply andb_true_iff in H as [H H3]. apply andb_true_iff in H as [H1 H2].
  rewrite (IHt H2), (IHf H3), !andb_true_r. destruct t as [p|p|s|s]; try reflexivity. unfold regular.
  destruct (only_tagged c); [reflexivity|]. cbn [orb negb andb] in *. unfold sub_rng, supported, in_vers in *. lia.
Qed.

Definition sch_all (s : sch) : bool := wfa_s s && tga_s s.
Definition keys : list Z := map Z.of_nat (seq 0 68).
Definition keyed (f : Z -> option sch) (k : Z) : bool := match f k with Some s => sch_all s | None => true end.
Lemma structs_all : forallb sch_all all_structs = true. Proof. vm_compute. reflexivity. Qed.
Lemma req_all : forallb (keyed req_sch) keys = true. Proof. vm_compute. reflexivity. Qed.
Lemma resp_all : forallb (keyed resp_sch) keys = true. Proof. vm_compute. reflexivity. Qed.
Lemma in_keys k : 0 <= k < 68 -> In k keys.
Proof. intros H. unfold keys. rewrite in_map_iff. exists (Z.to_nat k). split; [lia|]. apply in_seq. lia. Qed.
Lemma req_sch_key k s : req_sch k = Some s -> 0 <= k < 68.
Proof.
  unfold req_sch. intros H.
  repeat match type of H with (if ?b then _ else _) = _ => destruct b eqn:?; [clear H; lia|]; match goal with X : _ = false |- _ => clear X end end.
  discriminate.
Qed.
Lemma resp_sch_key k s : resp_sch k = Some s -> 0 <= k < 68.
Proof.
  unfold resp_sch. intros H.
  repeat match type of H with (if ?b then _ else _) = _ => destruct b eqn:?; [clear H; lia|]; match goal with X : _ = false |- _ => clear X end end.
  discriminate.
Qed.
Lemma known_all s : known s -> sch_all s = true.
Proof.
  intros [H|[[k H]|[k H]]].
  - exact (proj1 (forallb_forall _ _) structs_all s H).
  - pose proof (proj1 (forallb_forall _ _) req_all k (in_keys _ (req_sch_key _ _ H))) as X. unfold keyed in X. rewrite H in X. exact X.
  - pose proof (proj1 (forallb_forall _ _) resp_all k (in_keys _ (resp_sch_key _ _ H))) as X. unfold keyed in X. rewrite H in X. exact X.
Qed.
Lemma struct_wf ver s : known s -> wf_s ver s = true.
Proof. intros H. apply known_all, andb_true_iff in H as [H _]. now apply (proj1 (proj2 (wfa_wf ver))). Qed.
Lemma struct_tight ver s : 0 <= ver <= 32767 -> known s -> tight_s ver s = true.
Proof. intros Hv H. apply known_all, andb_true_iff in H as [_ H]. now apply (proj1 (proj2 (tga_tight ver Hv))). Qed.

(* ---- header versions ---- *)
Ltac key_cases H := repeat match type of H with (if ?b then _ else _) = _ => destruct b eqn:? end.
Lemma req_hv_spec k s ver : req_sch k = Some s -> 0 <= ver < 32767 ->
  (flexible_s s ver -> req_header_version k ver = 2) /\
  (~ flexible_s s ver -> req_header_version k ver = if (k =? 7) && (ver =? 0) then 0 else 1).
Proof.
  intros H Hv. unfold req_sch in H.
  repeat (match type of H with (if ?b then _ else _) = _ => destruct b eqn:Ek end;
    [apply Z.eqb_eq in Ek; subst k; injection H as <-; clear -Hv;
     unfold flexible_s; cbv beta iota delta [req_header_version]; cbn [Z.eqb Pos.eqb andb];
     match goal with |- context [match ?x with Sch _ _ _ => _ end] => unfold x end;
     repeat match goal with |- context [if ?b then _ else _] => destruct b eqn:? end; lia|clear Ek]).
  discriminate.
Qed.
Lemma resp_hv_spec k s ver : resp_sch k = Some s -> 0 <= ver < 32767 ->
  (flexible_s s ver -> resp_header_version k ver = if k =? 18 then 0 else 1) /\
  (~ flexible_s s ver -> resp_header_version k ver = 0).
Proof.
  intros H Hv. unfold resp_sch in H.
  repeat (match type of H with (if ?b then _ else _) = _ => destruct b eqn:Ek end;
    [apply Z.eqb_eq in Ek; subst k; injection H as <-; clear -Hv;
     unfold flexible_s; cbv beta iota delta [resp_header_version]; cbn [Z.eqb Pos.eqb andb];
     match goal with |- context [match ?x with Sch _ _ _ => _ end] => unfold x end;
     repeat match goal with |- context [if ?b then _ else _] => destruct b eqn:? end; lia|clear Ek]).
  discriminate.
Qed.
Lemma req_hv_none k : req_sch k = None -> forall ver, req_header_version k ver = -1.
Proof.
  intros H ver. unfold req_sch in H. unfold req_header_version.
  repeat (match type of H with (if ?b then _ else _) = _ => destruct b eqn:? end; [discriminate|]). reflexivity.
Qed.
Lemma resp_hv_none k : resp_sch k = None -> forall ver, resp_header_version k ver = -1.
Proof.
  intros H ver. unfold resp_sch in H. unfold resp_header_version.
  repeat (match type of H with (if ?b then _ else _) = _ => destruct b eqn:? end; [discriminate|]). reflexivity.
Qed.
Lemma req_hv_range k ver : -1 <= req_header_version k ver <= 2.
Proof. unfold req_header_version. repeat match goal with |- context [if ?b then _ else _] => destruct b end; lia. Qed.
Lemma resp_hv_range k ver : -1 <= resp_header_version k ver <= 1.
Proof. unfold resp_header_version. repeat match goal with |- context [if ?b then _ else _] => destruct b end; lia. Qed.

(* ---- size and serialisation ---- *)
Lemma known_req_hdr : known s_request_Header. Proof. left. unfold all_structs. cbn [In]. repeat (first [left; reflexivity|right]). Qed.
Lemma known_resp_hdr : known s_response_Header. Proof. left. unfold all_structs. cbn [In]. repeat (first [left; reflexivity|right]). Qed.
Lemma struct_sized cz ver s v n : known s -> admissible s v -> sz_s ver s v = Some n ->
  exists l, wr_s cz ver s v = Some l /\ zlen l <= n /\ (0 <= ver <= 32767 -> gapless s v -> zlen l = n).
Proof.
  intros Hk [Hok Hd] E. destruct (proj1 (proj2 (sz_schema cz ver)) s (struct_wf ver s Hk) v n Hok Hd E) as (l & El & H1 & H2).
  exists l. split; [exact El|]. split; [exact H1|]. intros Hv Hg. apply H2. split; [now apply struct_tight|exact Hg].
Qed.
Lemma put_sized cz hs hv ver (m : message hs) a b : known hs -> known (m_sch m) -> msg_ok m ->
  sz_s hv hs (m_hdr m) = Some a -> sz_s ver (m_sch m) (m_data m) = Some b ->
  exists l, put_message cz hv ver m (a + b) = Some l /\ zlen l <= a + b /\
    (0 <= hv <= 32767 -> 0 <= ver <= 32767 -> msg_gapless m -> zlen l = a + b).
Proof.
  intros Hh Hs [Hm1 Hm2] Ea Eb. destruct (struct_sized cz hv hs _ _ Hh Hm1 Ea) as (la & Ela & Ha & Ha'). destruct (struct_sized cz ver _ _ _ Hs Hm2 Eb) as (lb & Elb & Hb & Hb').
  unfold put_message. rewrite Ela, Elb. cbn [obind]. rewrite zlen_app. destruct (zlen la + zlen lb <=? a + b) eqn:X; [|lia].
  exists (la ++ lb). rewrite zlen_app. split; [reflexivity|]. split; [lia|]. intros H1 H2 [G1 G2]. rewrite Ha', Hb' by assumption. reflexivity.
Qed.
Lemma put_parts cz hs hv ver (m : message hs) n l : put_message cz hv ver m n = Some l ->
  exists a b, wr_s cz hv hs (m_hdr m) = Some a /\ wr_s cz ver (m_sch m) (m_data m) = Some b /\ l = a ++ b /\ zlen l <= n.
Proof.
  unfold put_message. intros E. apply obind_some in E as (a & Ea & E). apply obind_some in E as (b & Eb & E).
  destruct (zlen (a ++ b) <=? n) eqn:X; [|discriminate]. apply some_inj in E. subst l. exists a, b. repeat split; try assumption. lia.
Qed.
Lemma hv_guard hv hi (x : option (list Z)) l : (if hv =? -1 then None else if negb (in_vers 0 hi hv) then None else x) = Some l -> 0 <= hv <= hi /\ x = Some l.
Proof. destruct (hv =? -1) eqn:A; [discriminate|]. unfold in_vers. destruct ((0 <=? hv) && (hv <=? hi)) eqn:B; [|discriminate]. cbn [negb]. intros ->. split; [lia|reflexivity]. Qed.
Lemma hv_guard_z hv hi (x : option Z) n : (if hv =? -1 then None else if negb (in_vers 0 hi hv) then None else x) = Some n -> 0 <= hv <= hi /\ x = Some n.
Proof. destruct (hv =? -1) eqn:A; [discriminate|]. unfold in_vers. destruct ((0 <=? hv) && (hv <=? hi)) eqn:B; [|discriminate]. cbn [negb]. intros ->. split; [lia|reflexivity]. Qed.
Lemma req_sized cz ver (m : request) n : known (m_sch m) -> msg_ok m -> req_size ver m = Some n ->
  exists l, req_serialize cz ver m = Some l /\ zlen l <= n /\ (0 <= ver <= 32767 -> msg_gapless m -> zlen l = n).
Proof.
  intros Hs Hm E. pose proof E as E0. unfold req_size, req_hdr_ok in E. apply hv_guard_z in E as [Hv E]. apply obind_some in E as (a & Ea & E). apply obind_some in E as (b & Eb & E).
  apply some_inj in E. subst n. destruct (put_sized cz s_request_Header _ ver m a b known_req_hdr Hs Hm Ea Eb) as (l & El & H1 & H2).
  exists l. split; [|split; [exact H1|intros; apply H2; [lia|assumption|assumption]]]. unfold req_serialize. cbv zeta. unfold req_hdr_ok, in_vers.
  destruct (_ =? -1) eqn:A; [lia|]. destruct ((0 <=? _) && (_ <=? 2)) eqn:B; [|lia]. cbn [negb]. rewrite E0. exact El.
Qed.
Lemma resp_sized cz ver (m : response) n : known (m_sch m) -> msg_ok m -> resp_size ver m = Some n ->
  exists l, resp_serialize cz ver m = Some l /\ zlen l <= n /\ (0 <= ver <= 32767 -> msg_gapless m -> zlen l = n).
Proof.
  intros Hs Hm E. pose proof E as E0. unfold resp_size, req_hdr_ok in E. apply hv_guard_z in E as [Hv E]. apply obind_some in E as (a & Ea & E). apply obind_some in E as (b & Eb & E).
  apply some_inj in E. subst n. destruct (put_sized cz s_response_Header _ ver m a b known_resp_hdr Hs Hm Ea Eb) as (l & El & H1 & H2).
  exists l. split; [|split; [exact H1|intros; apply H2; [lia|assumption|assumption]]]. unfold resp_serialize. cbv zeta. unfold resp_hdr_ok, in_vers.
  pose proof (resp_hv_range (m_key m) ver).
  destruct (_ =? -1) eqn:A; [lia|]. destruct ((0 <=? _) && (_ <=? 1)) eqn:B; [|lia]. cbn [negb]. rewrite E0. exact El.
Qed.

(* ---- round trips ---- *)
Lemma struct_rt cz ver s v l rest : known s -> ok_s s v -> wr_s cz ver s v = Some l -> rd_s cz ver s (l ++ rest) = ROk (back_s ver s v) rest.
Proof. intros Hk Hok E. exact (proj1 (proj2 (rt_schema cz ver)) s (struct_wf ver s Hk) v l rest Hok E). Qed.
Lemma back_req_hdr hv h : 0 <= hv <= 2 -> h_key (back_s hv s_request_Header h) = h_key h /\ h_ver (back_s hv s_request_Header h) = h_ver h.
Proof.
  intros H. assert (hv = 0 \/ hv = 1 \/ hv = 2) as [->|[->| ->]] by lia; split; reflexivity.
Qed.
Lemma back_resp_hdr hv h : 0 <= hv <= 1 -> rh_corr (back_s hv s_response_Header h) = rh_corr h.
Proof. intros H. assert (hv = 0 \/ hv = 1) as [->| ->] by lia; reflexivity. Qed.
Lemma req_hdr_prefix cz hv h a : 0 <= hv <= 2 -> ok_s s_request_Header h -> wr_s cz hv s_request_Header h = Some a ->
  exists a', a = wr_int 2 (h_key h) ++ wr_int 2 (h_ver h) ++ a'.
Proof.
  intros H (Hn & _) E. unfold s_request_Header in E. rewrite wr_s_eq in E.  rewrite Hn in E. destruct (negb (ign_ok _ _ _)) in E; [discriminate|].
  apply obind_some in E as (x & Ex & E). rewrite wr_f_cons in Ex. apply obind_some in Ex as (k & Ek & Ex). rewrite wr_f_cons in Ex. apply obind_some in Ex as (w & Ew & Ex). 
  apply obind_some in Ew as (w1 & Ew1 & Ew). apply some_inj in Ex. apply obind_some in Ew as (w2 & Ew2 & Ew). apply some_inj in Ew.
  assert (Ek' : Some (wr_int 2 (h_key h)) = Some k) by (rewrite <- Ek; assert (hv = 0 \/ hv = 1 \/ hv = 2) as [->|[->| ->]] by lia; reflexivity).
  assert (Ew' : Some (wr_int 2 (h_ver h)) = Some w1) by (rewrite <- Ew1; assert (hv = 0 \/ hv = 1 \/ hv = 2) as [->|[->| ->]] by lia; reflexivity).
  apply some_inj in Ek', Ew'. subst k w1 w x.
  destruct (negb (in_vers 2 32767 hv)).
  - destruct (_ >? 0) in E; [discriminate|]. apply some_inj in E. subst a. rewrite <- ?app_assoc. eauto.
  - apply obind_some in E as (ks & _ & E). apply obind_some in E as (b & _ & E). apply some_inj in E. subst a. rewrite <- ?app_assoc. eauto.
Qed.
Lemma req_rt cz ver (m : request) l rest : msg_ok m -> int_range 16 ver -> h_ver (m_hdr m) = ver -> h_key (m_hdr m) = m_key m ->
  req_sch (m_key m) = Some (m_sch m) -> req_serialize cz ver m = Some l ->
  req_parse cz (l ++ rest) = ROk (msg_back (req_header_version (m_key m) ver) ver m) rest.
Proof.
  intros [[Hh Hhd] [Hd Hdd]] Hr Hver Hkey Hs E. unfold req_serialize, req_hdr_ok in E. rewrite Hkey in E. cbv zeta in E. apply hv_guard in E as [Hv E].
  apply obind_some in E as (n & En & E). apply put_parts in E as (a & b & Ea & Eb & -> & _).
  destruct (req_hdr_prefix cz _ _ _ Hv Hh Ea) as (a' & Ha').
  assert (int_range 16 (m_key m)) as Hk. { apply req_sch_key in Hs. unfold int_range. lia. }
  unfold req_parse. assert ((length ((a ++ b) ++ rest) <? 4)%nat = false) as ->.
  { apply Nat.ltb_ge. rewrite Ha', !app_length, !wr_int_length. lia. }
  rewrite Ha' at 1. rewrite Hkey, Hver. rewrite <- !app_assoc. rewrite rd_int_wr by (try lia; exact Hk). cbn [rbind]. rewrite rd_int_wr by (try lia; exact Hr). cbn [rbind].
  cbv zeta. set (hv := req_header_version (m_key m) ver) in *. assert (hv =? -1 = false) as -> by lia. unfold req_hdr_ok, in_vers.
  assert ((0 <=? hv) && (hv <=? 2) = true) as -> by lia. cbn [negb].
  rewrite (struct_rt cz hv _ _ a (b ++ rest) known_req_hdr Hh Ea). cbn [rbind].
  rewrite Hs. rewrite (struct_rt cz ver _ _ b rest (or_intror (or_introl (ex_intro _ _ Hs))) Hd Eb). reflexivity.
Qed.
Lemma resp_rt cz ver (m : response) l rest : msg_ok m -> resp_sch (m_key m) = Some (m_sch m) -> resp_serialize cz ver m = Some l ->
  resp_parse cz (l ++ rest) (m_key m) ver (rh_corr (m_hdr m)) = ROk (msg_back (resp_header_version (m_key m) ver) ver m) rest.
Proof.
  intros [[Hh Hhd] [Hd Hdd]] Hs E. unfold resp_serialize, resp_hdr_ok in E. cbv zeta in E. apply hv_guard in E as [Hv E].
  apply obind_some in E as (n & En & E). apply put_parts in E as (a & b & Ea & Eb & -> & _).
  unfold resp_parse. cbv zeta. set (hv := resp_header_version (m_key m) ver) in *. assert (hv =? -1 = false) as -> by lia.
  rewrite <- app_assoc. rewrite (struct_rt cz hv _ _ a (b ++ rest) known_resp_hdr Hh Ea). cbn [rbind]. rewrite back_resp_hdr by exact Hv. rewrite Z.eqb_refl. cbn [negb].
  rewrite Hs. rewrite (struct_rt cz ver _ _ b rest (or_intror (or_intror (ex_intro _ _ Hs))) Hd Eb). reflexivity.
Qed.
