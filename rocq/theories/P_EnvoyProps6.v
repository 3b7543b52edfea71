(* C80, continued: the parts of the attributes. *)
From Coq Require Import String List Ascii Bool Arith NArith ZArith Lia.
From Verif Require Import M_GoStr L_GoStr M_Dotn P_Dotn M_WasmMap M_EnvoyProps.
Import ListNotations.
Open Scope list_scope.

(* the size of a header: all the names and all the values, and nothing else *)
Theorem C80_size : forall h, byte_size h = Z.of_nat (length (flat_map (fun kv => fst kv ++ List.concat (snd kv)) h)).
Proof.
  intros h. induction h as [|[k vs] h IH]; [reflexivity|]. cbn [byte_size fold_right flat_map fst snd]. rewrite !app_length. fold (byte_size h). rewrite IH.
  assert (E: fold_right (fun v n => (Z.of_nat (length v) + n)%Z) 0%Z vs = Z.of_nat (length (List.concat vs))).
  { clear. induction vs as [|v vs IH]; [reflexivity|]. cbn [fold_right List.concat]. rewrite app_length, IH. lia. }
  rewrite E. lia.
Qed.
Print Assumptions C80_size.
(* what a filter gets for a header: the first value, unless it is empty *)
Theorem C80_header : forall h k v, hget h k = Some v <-> (v <> [] /\ exists vs, dget h k = Some (v :: vs)).
Proof.
  intros h k v. unfold hget. destruct (dget h k) as [[|[|c w] vs]|].
  - split; [discriminate|]. intros (_ & vs & E). discriminate.
  - split; [discriminate|]. intros (Hn & vs' & E). injection E as E _. congruence.
  - split; [intros E; injection E as <-; split; [discriminate|eauto]|]. intros (_ & vs' & E). congruence.
  - split; [discriminate|]. intros (_ & vs & E). discriminate.
Qed.
Print Assumptions C80_header.
(* of several names of a certificate it is the first that is shown; without one an empty text *)
Theorem C80_first_name : forall (l : list gstr), (l = [] -> first l = []) /\ (forall x r, l = x :: r -> first l = x).
Proof. intros l. split; [intros ->; reflexivity|intros x r ->; reflexivity]. Qed.
Print Assumptions C80_first_name.
Example C80_parts_example : byte_size [(lit "Ab", [lit "c"; lit "de"]); (lit "X", [])] = 6%Z /\ hget [(lit "Ab", [[]; lit "c"])] (lit "Ab") = None /\ first [lit "a"; lit "b"] = lit "a".
Proof. repeat split; reflexivity. Qed.
