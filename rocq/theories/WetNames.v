(** What the completion of JMS arrays does with a basis that lists names of other shapes. *)
From Coq Require Import String List Bool Arith Lia.
From Verif Require Import PyBase PyDict Cplx Tensor Wc Params Smeft SmeftNames WetExpr WetStr Wet WetJms.
Import ListNotations.
Open Scope string_scope.
Open Scope list_scope.
Open Scope nat_scope.

Lemma bad_rank op x c : mem op (herm_ops ++ cur_ops ++ both_ops) = true -> no_us op = true -> x <> [] -> length x <> 4 ->
  JMS_to_array [cname op x] c = Err ValueError.
Proof.
  intros M U N L. unfold JMS_to_array, fill, scalar2array. cbn [map dict_of]. unfold dict_of. cbn [dupdate fold_left fst snd dset scalar2array_from].
  rewrite s2a_cname by (auto; exact I). cbn [dget bind dset mapM fst snd nset n_rank nans].
  assert (forall a, n_rank a = length x -> complete1 op a = Err ValueError) as Q.
  { intros a R. assert (Nat.eqb (n_rank a) 4 = false) as R4 by (apply Nat.eqb_neq; congruence).
    unfold complete1, symm_herm, symm_current. rewrite R4. destruct (mem op herm_ops) eqn:E1; [reflexivity|]. cbn [bind]. rewrite ?R4.
    destruct (mem op cur_ops) eqn:E2; [rewrite ?R4; reflexivity|]. cbn [bind]. destruct (mem op both_ops) eqn:E3; [rewrite ?R4; reflexivity|].
    exfalso. apply mem_In in M. apply in_app_or in M. destruct M as [I|I]; [apply mem_notIn in E1; tauto|]. apply in_app_or in I.
    destruct I as [I|I]; [apply mem_notIn in E2; tauto|apply mem_notIn in E3; tauto]. }
  unfold mapM. cbn [map fst snd sequence]. rewrite Q by reflexivity. reflexivity.
Qed.
Lemma scalar_indexed op x c : no_us op = true -> x <> [] -> JMS_to_array [op; cname op x] c = Err TypeError.
Proof.
  intros U N. unfold JMS_to_array, fill, scalar2array. cbn [map]. unfold dict_of. cbn [dupdate fold_left fst snd dset].
  assert (keqb (cname op x) op = false) as K.
  { apply keqb_neq. intros E. pose proof (cname_us op x U) as F. rewrite E in F. congruence. }
  rewrite K. cbn [scalar2array_from]. rewrite s2a_plain by auto. cbn [bind dset]. unfold s2a_step, has_us. rewrite split_cname by auto. cbn [length Nat.ltb Nat.leb negb removelast fold_right].
  rewrite append_nil_r. cbn [dget]. rewrite keqb_refl. reflexivity.
Qed.
