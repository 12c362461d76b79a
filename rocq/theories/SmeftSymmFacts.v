(** Symmetries established and preserved by the symmetrize_n programs. *)
From Coq Require Import String List Bool ZArith Reals Lra.
From Verif Require Import PyBase PyDict Cplx Tensor SmeftSyntax SmeftTab SmeftSymm SmeftSpec.
Import ListNotations.
Open Scope list_scope.

#[local] Opaque exec srun.
Definition swap12 (x : idx) : idx := match x with [i; j] => [j; i] | _ => x end.
Definition cc4 (x : idx) : idx := match x with [p; r; s; u] => [r; p; u; s] | _ => x end.
Definition sw4 (x : idx) : idx := match x with [p; r; s; u] => [s; u; p; r] | _ => x end.
Definition fz4 (x : idx) : idx := match x with [p; r; s; u] => [p; u; s; r] | _ => x end.
Definition pr4 (x : idx) : idx := match x with [p; r; s; u] => [r; p; s; u] | _ => x end.
Definition all2 (f : idx -> bool) := forallb f idx2.
Definition all4 (f : idx -> bool) := forallb f idx4.
Lemma all2_get f : all2 f = true -> forall i j, f [i; j] = true.
Proof. unfold all2. rewrite forallb_forall. intros H i j. apply H, idx2_in. Qed.
Lemma all4_get f : all4 f = true -> forall i j k l, f [i; j; k; l] = true.
Proof. unfold all4. rewrite forallb_forall. intros H i j k l. apply H, idx4_in. Qed.

Lemma rel2_sound tab g cj :
  all2 (fun x => forallb (holds (srun tab)) (rel_eq x (g x) cj)) = true ->
  forall a i j, exec tab a [i; j] = if cj then Cconj (exec tab a (g [i; j])) else exec tab a (g [i; j]).
Proof. intros H a i j. apply rel_eq_sound. apply (all2_get _ H). Qed.
Lemma rel4_sound tab g cj :
  all4 (fun x => forallb (holds (srun tab)) (rel_eq x (g x) cj)) = true ->
  forall a i j k l, exec tab a [i; j; k; l] =
    if cj then Cconj (exec tab a (g [i; j; k; l])) else exec tab a (g [i; j; k; l]).
Proof. intros H a i j k l. apply rel_eq_sound. apply (all4_get _ H). Qed.

(** ** Symmetry of the result *)
Lemma symm2_ok m : hermitian (symmetrize_2 m).
Proof. intros i j. exact (rel2_sound symm_2_tab swap12 true ltac:(vm_compute; reflexivity) (of_mat m) i j). Qed.
Lemma symm9_ok m : symmetric_mat (symmetrize_9 m).
Proof. intros i j. exact (rel2_sound symm_9_tab swap12 false ltac:(vm_compute; reflexivity) (of_mat m) i j). Qed.
Lemma symm5_ok t : currents (symmetrize_5 t).
Proof. intros p r s u. exact (rel4_sound symm_5_tab cc4 true ltac:(vm_compute; reflexivity) (of_ten t) p r s u). Qed.
Lemma symm4_ok t : identical_currents (symmetrize_4 t).
Proof.
  split; intros p r s u.
  - exact (rel4_sound symm_4_tab cc4 true ltac:(vm_compute; reflexivity) (of_ten t) p r s u).
  - exact (rel4_sound symm_4_tab sw4 false ltac:(vm_compute; reflexivity) (of_ten t) p r s u).
Qed.
Lemma symm6_ok t : ee_currents (symmetrize_6 t).
Proof.
  split; [split|]; intros p r s u.
  - exact (rel4_sound symm_6_tab cc4 true ltac:(vm_compute; reflexivity) (of_ten t) p r s u).
  - exact (rel4_sound symm_6_tab sw4 false ltac:(vm_compute; reflexivity) (of_ten t) p r s u).
  - exact (rel4_sound symm_6_tab fz4 false ltac:(vm_compute; reflexivity) (of_ten t) p r s u).
Qed.
Lemma symm7_ok t : qque_symmetry (symmetrize_7 t).
Proof. intros p r s u. exact (rel4_sound symm_7_tab pr4 false ltac:(vm_compute; reflexivity) (of_ten t) p r s u). Qed.
Definition qqql_rel (im : bool) (x : idx) : form :=
  match x with
  | [p; r; s; u] => [(1%Z, (im, [p; r; s; u])); (1%Z, (im, [r; p; s; u]));
                     ((-1)%Z, (im, [s; p; r; u])); ((-1)%Z, (im, [s; r; p; u]))]
  | _ => []
  end.
Lemma symm8_ok t : qqql_symmetry (symmetrize_8 t).
Proof.
  assert (all4 (fun x => holds (srun symm_8_tab) (qqql_rel false x) && holds (srun symm_8_tab) (qqql_rel true x)) = true) as H
    by (vm_compute; reflexivity).
  intros p r s u. pose proof (all4_get _ H p r s u) as G. apply andb_true_iff in G. destruct G as [G1 G2].
  apply (holds_sound symm_8_tab (of_ten t)) in G1. apply (holds_sound symm_8_tab (of_ten t)) in G2.
  unfold symmetrize_8, to_ten. apply C_ext; unfold qqql_rel, fval, cellval in *; simpl in *;
    unfold Re, Im, Cadd in *; simpl in *; lra.
Qed.

(** ** Symmetric arrays are left alone *)
Definition gid : gelem := (fun x => x, false).
Lemma symm2_fix m : hermitian m -> symmetrize_2 m = m.
Proof.
  intros H. apply mat_ext; intros i j.
  pose proof (fixes_sound symm_2_tab idx2 [gid; (swap12, true)] (of_mat m)) as F.
  refine (F _ _ [i; j] (idx2_in i j)); clear F.
  - intros g x Hg Hx. apply idx2_shape in Hx. destruct Hx as (a & b & ->).
    simpl in Hg. destruct Hg as [<-|[<-|[]]]; simpl; auto.
  - vm_compute. reflexivity.
Qed.
Lemma symm9_fix m : symmetric_mat m -> symmetrize_9 m = m.
Proof.
  intros H. apply mat_ext; intros i j.
  pose proof (fixes_sound symm_9_tab idx2 [gid; (swap12, false)] (of_mat m)) as F.
  refine (F _ _ [i; j] (idx2_in i j)); clear F.
  - intros g x Hg Hx. apply idx2_shape in Hx. destruct Hx as (a & b & ->).
    simpl in Hg. destruct Hg as [<-|[<-|[]]]; simpl; auto.
  - vm_compute. reflexivity.
Qed.
Lemma symm5_fix t : currents t -> symmetrize_5 t = t.
Proof.
  intros H. apply ten_ext; intros i j k l.
  pose proof (fixes_sound symm_5_tab idx4 [gid; (cc4, true)] (of_ten t)) as F.
  refine (F _ _ [i; j; k; l] (idx4_in i j k l)); clear F.
  - intros g x Hg Hx. apply idx4_shape in Hx. destruct Hx as (a & b & c & d & ->).
    simpl in Hg. destruct Hg as [<-|[<-|[]]]; simpl; auto.
  - vm_compute. reflexivity.
Qed.
Lemma symm4_fix t : identical_currents t -> symmetrize_4 t = t.
Proof.
  intros [H H']. apply ten_ext; intros i j k l.
  pose proof (fixes_sound symm_4_tab idx4 [gid; (cc4, true); (sw4, false); (fun x => sw4 (cc4 x), true)] (of_ten t)) as F.
  refine (F _ _ [i; j; k; l] (idx4_in i j k l)); clear F.
  - intros g x Hg Hx. apply idx4_shape in Hx. destruct Hx as (a & b & c & d & ->).
    simpl in Hg. destruct Hg as [<-|[<-|[<-|[<-|[]]]]]; simpl; auto.
    rewrite <- H'. auto.
  - vm_compute. reflexivity.
Qed.
Lemma symm6_fix t : ee_currents t -> symmetrize_6 t = t.
Proof.
  intros [[H H'] H'']. apply ten_ext; intros i j k l.
  pose proof (fixes_sound symm_6_tab idx4 [gid; (cc4, true); (sw4, false); (fun x => sw4 (cc4 x), true);
     (fz4, false); (fun x => fz4 (cc4 x), true); (fun x => fz4 (sw4 x), false); (fun x => fz4 (sw4 (cc4 x)), true)] (of_ten t)) as F.
  refine (F _ _ [i; j; k; l] (idx4_in i j k l)); clear F.
  - intros g x Hg Hx. apply idx4_shape in Hx. destruct Hx as (a & b & c & d & ->).
    simpl in Hg. repeat destruct Hg as [<-|Hg]; simpl; auto; try tauto.
    + rewrite <- H'. auto.
    + rewrite <- H''. auto.
    + rewrite <- H''. auto.
    + rewrite <- H'', <- H'. auto.
  - vm_compute. reflexivity.
Qed.
Lemma symm7_fix t : qque_symmetry t -> symmetrize_7 t = t.
Proof.
  intros H. apply ten_ext; intros i j k l.
  pose proof (fixes_sound symm_7_tab idx4 [gid; (pr4, false)] (of_ten t)) as F.
  refine (F _ _ [i; j; k; l] (idx4_in i j k l)); clear F.
  - intros g x Hg Hx. apply idx4_shape in Hx. destruct Hx as (a & b & c & d & ->).
    simpl in Hg. destruct Hg as [<-|[<-|[]]]; simpl; auto.
  - vm_compute. reflexivity.
Qed.
Lemma symm8_fix t : qqql_symmetry t -> symmetrize_8 t = t.
Proof.
  intros H. apply ten_ext; intros i j k l.
  pose proof (srun_sim (of_ten t) symm_8_tab (false, [i; j; k; l])) as A.
  pose proof (srun_sim (of_ten t) symm_8_tab (true, [i; j; k; l])) as B.
  unfold symmetrize_8, to_ten.
  change (cellval (exec symm_8_tab (of_ten t)) (false, [i; j; k; l]))
    with (Re (exec symm_8_tab (of_ten t) [i; j; k; l])) in A.
  change (cellval (exec symm_8_tab (of_ten t)) (true, [i; j; k; l]))
    with (Im (exec symm_8_tab (of_ten t) [i; j; k; l])) in B.
  pose proof (H i j k l) as H1. pose proof (H i k j l) as H2. pose proof (H j i k l) as H3.
  pose proof (H j k i l) as H4. pose proof (H k i j l) as H5. pose proof (H k j i l) as H6.
  apply C_ext; [rewrite <- A; apply (f_equal Re) in H1, H2, H3, H4, H5, H6
               |rewrite <- B; apply (f_equal Im) in H1, H2, H3, H4, H5, H6]; clear A B H;
  unfold Re, Im, Cadd in *; cbn [fst snd] in *;
  destruct i, j, k, l;
  match goal with |- fval _ ?f = _ => let v := eval vm_compute in f in change f with v end;
  unfold fval, cellval, of_ten, Re, Im; cbn [fold_right fst snd]; lra.
Qed.

(** ** Only representatives are read *)
Lemma reads2 tab a b : forallb (reads_reps tab (srun tab)) idx2 = true ->
  (forall c, representative tab c = true -> cellval (of_mat a) c = cellval (of_mat b) c) ->
  to_mat (exec tab (of_mat a)) = to_mat (exec tab (of_mat b)).
Proof.
  intros R H. apply mat_ext; intros i j. unfold to_mat.
  apply (reads_reps_sound tab idx2); auto using idx2_in.
Qed.
Lemma reads4 tab a b : forallb (reads_reps tab (srun tab)) idx4 = true ->
  (forall c, representative tab c = true -> cellval (of_ten a) c = cellval (of_ten b) c) ->
  to_ten (exec tab (of_ten a)) = to_ten (exec tab (of_ten b)).
Proof.
  intros R H. apply ten_ext; intros i j k l. unfold to_ten.
  apply (reads_reps_sound tab idx4); auto using idx4_in.
Qed.
Lemma reads_2 : forallb (reads_reps symm_2_tab (srun symm_2_tab)) idx2 = true.
Proof. vm_compute; reflexivity. Qed.
Lemma reads_9 : forallb (reads_reps symm_9_tab (srun symm_9_tab)) idx2 = true.
Proof. vm_compute; reflexivity. Qed.
Lemma reads_4 : forallb (reads_reps symm_4_tab (srun symm_4_tab)) idx4 = true.
Proof. vm_compute; reflexivity. Qed.
Lemma reads_5 : forallb (reads_reps symm_5_tab (srun symm_5_tab)) idx4 = true.
Proof. vm_compute; reflexivity. Qed.
Lemma reads_6 : forallb (reads_reps symm_6_tab (srun symm_6_tab)) idx4 = true.
Proof. vm_compute; reflexivity. Qed.
Lemma reads_7 : forallb (reads_reps symm_7_tab (srun symm_7_tab)) idx4 = true.
Proof. vm_compute; reflexivity. Qed.
Lemma reads_8 : forallb (reads_reps symm_8_tab (srun symm_8_tab)) idx4 = true.
Proof. vm_compute; reflexivity. Qed.
