(* Theorems added after mutants survived (batch 16): C94 (plugin size, a call alone), C95 (default values). *)
From Coq Require Import String List Arith ZArith Lia.
From Verif Require Import M_GoStr L_GoStr M_Context P_Context.
Import ListNotations.
Open Scope nat_scope.
(* the size a plugin reads is that of its own configuration *)
Theorem C94_config_size : forall l b p, let s := run init l in at_ s b <> None ->
  let '(s1, c) := add_plugin s b p in get_prop s1 c k_size = Some (VInt (Z.of_nat (List.length (p_config p)))) /\ get_prop s1 c k_bytes = Some (VStr (p_config p)) /\
    get_prop s1 c k_plugin = Some (VRef (p_self p)) /\ get_prop s1 c k_root = Some (VStr (p_root p)) /\ get_prop s1 c k_vm = Some (VStr (p_vm p)).
Proof.
  intros l b p s Hb. assert (ok s) as Hok by apply reach_ok. destruct (at_ s b) as [x|] eqn:Ex; [|contradiction]. clear Hb.
  unfold add_plugin. destruct (child_at s b (p_root p) x Hok Ex) as (s0 & c & y & Ec & Hy & _). rewrite Ec.
  assert (G: forall k v, find (fun q => geqb (fst q) k) (rev (plugin_props p)) = Some (k, v) -> get_prop (sets s0 c (plugin_props p)) c k = Some v).
  { intros k v Hf. destruct (sets_props (plugin_props p) s0 c y k Hy) as (z & Hz & E). rewrite Hf in E. unfold get_prop. cbn [get_from]. rewrite Hz, E. reflexivity. }
  split; [|split; [|split; [|split]]]; apply G; reflexivity.
Qed.
Print Assumptions C94_config_size.
(* one call that nobody interferes with does what a call of the model in one step does *)
Theorem C94_alone : forall s c x root q, at_ s c = Some x -> registry s (join (x_name x) root) = None ->
  two s c (Looking (join (x_name x) root)) q [true; true; true] = (fst (child s c root), Returned (snd (child s c root)), q).
Proof.
  intros s c x root q Hx Hn. unfold child. rewrite Hx. cbv zeta. rewrite Hn. cbn [two advance]. rewrite Hn. cbn [two advance]. destruct (new_context s (join (x_name x) root)) as [s1 i]. cbn [two advance fst snd]. reflexivity.
Qed.
Print Assumptions C94_alone.
Example C94_alone_ex : let s := run init [Base (lit "base")] in let '(s1, p, _) := two s 0 (Looking (lit "base.a")) (Looking (lit "x")) [true; true; true] in p = Returned 1 /\
  match at_ s1 1 with Some y => x_parent y = Some 0 /\ x_id y = 2%Z | None => False end.
Proof. vm_compute. auto. Qed.
