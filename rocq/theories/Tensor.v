(** Flavour indices, 3x3 matrices and 3x3x3x3 tensors: the numpy arrays of
    wcxf/util/smeftutil.py. *)
From Coq Require Import String List Bool Arith Reals FunctionalExtensionality Lia.
From Verif Require Import PyBase PyDict Cplx.
Import ListNotations.
Open Scope list_scope.

(** An index 0, 1, 2 of a length-3 axis (written 1, 2, 3 in coefficient names). *)
Inductive fl := F1 | F2 | F3.
Definition all_fl : list fl := [F1; F2; F3].
Definition fl_eqb (a b : fl) : bool :=
  match a, b with F1, F1 | F2, F2 | F3, F3 => true | _, _ => false end.
Lemma fl_eqb_eq a b : fl_eqb a b = true <-> a = b.
Proof. destruct a, b; simpl; split; congruence. Qed.
#[global] Instance Key_fl : Key fl := {| keqb := fl_eqb; keqb_eq := fl_eqb_eq |}.
Lemma all_fl_in a : In a all_fl.
Proof. destruct a; simpl; auto. Qed.

(** Multi-indices. *)
Definition idx := list fl.
Fixpoint idx_eqb (a b : idx) : bool :=
  match a, b with
  | [], [] => true
  | x :: s, y :: t => fl_eqb x y && idx_eqb s t
  | _, _ => false
  end.
Lemma idx_eqb_eq a b : idx_eqb a b = true <-> a = b.
Proof.
  revert b; induction a as [|x s IH]; destruct b as [|y t]; simpl; try (split; congruence).
  rewrite andb_true_iff, IH, fl_eqb_eq. split; [intros [-> ->]; auto | intros E; inversion E; auto].
Qed.
#[global] Instance Key_idx : Key idx := {| keqb := idx_eqb; keqb_eq := idx_eqb_eq |}.
Definition idx2 : list idx := flat_map (fun i => map (fun j => [i; j]) all_fl) all_fl.
Definition idx4 : list idx :=
  flat_map (fun i => flat_map (fun j => flat_map (fun k => map (fun l => [i; j; k; l]) all_fl) all_fl) all_fl) all_fl.
Lemma idx2_in i j : In [i; j] idx2.
Proof. destruct i, j; simpl; tauto. Qed.
Lemma idx4_in i j k l : In [i; j; k; l] idx4.
Proof.
  unfold idx4. apply in_flat_map. exists i; split; [apply all_fl_in|].
  apply in_flat_map. exists j; split; [apply all_fl_in|].
  apply in_flat_map. exists k; split; [apply all_fl_in|].
  apply (in_map (fun l => [i; j; k; l])), all_fl_in.
Qed.
Lemma idx4_shape x : In x idx4 -> exists i j k l, x = [i; j; k; l].
Proof.
  unfold idx4. intros H.
  apply in_flat_map in H. destruct H as (i & _ & H).
  apply in_flat_map in H. destruct H as (j & _ & H).
  apply in_flat_map in H. destruct H as (k & _ & H).
  apply in_map_iff in H. destruct H as (l & <- & _). eauto.
Qed.
Lemma idx2_shape x : In x idx2 -> exists i j, x = [i; j].
Proof.
  unfold idx2. intros H.
  apply in_flat_map in H. destruct H as (i & _ & H).
  apply in_map_iff in H. destruct H as (l & <- & _). eauto.
Qed.

(** Complex matrices and rank-4 tensors. *)
Definition mat := fl -> fl -> C.
Definition ten := fl -> fl -> fl -> fl -> C.

Lemma mat_ext (a b : mat) : (forall i j, a i j = b i j) -> a = b.
Proof. intros E. extensionality i. extensionality j. apply E. Qed.
Lemma ten_ext (a b : ten) : (forall i j k l, a i j k l = b i j k l) -> a = b.
Proof. intros E. extensionality i. extensionality j. extensionality k. extensionality l. apply E. Qed.

Open Scope C_scope.
(** Sum over a flavour index. *)
Definition S3 (f : fl -> C) : C := f F1 + f F2 + f F3.
Lemma S3_ext f g : (forall i, f i = g i) -> S3 f = S3 g.
Proof. intros E; unfold S3; rewrite !E; reflexivity. Qed.
Lemma S3_swap (f : fl -> fl -> C) : S3 (fun i => S3 (fun j => f i j)) = S3 (fun j => S3 (fun i => f i j)).
Proof. unfold S3; ring. Qed.
Lemma S3_mul_l c f : c * S3 f = S3 (fun i => c * f i).
Proof. unfold S3; ring. Qed.
Lemma S3_mul_r c f : S3 f * c = S3 (fun i => f i * c).
Proof. unfold S3; ring. Qed.
Lemma S3_add f g : S3 f + S3 g = S3 (fun i => f i + g i).
Proof. unfold S3; ring. Qed.
Lemma S3_conj f : Cconj (S3 f) = S3 (fun i => Cconj (f i)).
Proof. unfold S3; rewrite !Cconj_add; reflexivity. Qed.
Lemma S3_0 : S3 (fun _ => 0) = 0.
Proof. unfold S3; ring. Qed.

Definition delta (i j : fl) : C := if fl_eqb i j then 1 else 0.
Lemma S3_delta_l (f : fl -> C) a : S3 (fun i => delta i a * f i) = f a.
Proof. destruct a; unfold S3, delta; simpl; ring. Qed.
Lemma S3_delta_r (f : fl -> C) a : S3 (fun i => f i * delta i a) = f a.
Proof. destruct a; unfold S3, delta; simpl; ring. Qed.
Lemma delta_conj i j : Cconj (delta i j) = delta i j.
Proof. unfold delta; destruct (fl_eqb i j); [apply Cconj_1|apply Cconj_0]. Qed.
Lemma delta_sym i j : delta i j = delta j i.
Proof. destruct i, j; reflexivity. Qed.

(** [A @ B], [A.conj()], [A.T], [np.eye(3)], [A.conj().T] *)
Definition mmul (a b : mat) : mat := fun i j => S3 (fun k => a i k * b k j).
Definition mconj (a : mat) : mat := fun i j => Cconj (a i j).
Definition mT (a : mat) : mat := fun i j => a j i.
Definition meye : mat := delta.
Definition mdag (a : mat) : mat := mT (mconj a).
Definition unitary (a : mat) : Prop := mmul (mdag a) a = meye.

Lemma mmul_assoc a b c : mmul a (mmul b c) = mmul (mmul a b) c.
Proof. apply mat_ext; intros; unfold mmul, S3; ring. Qed.
Lemma mmul_1_l a : mmul meye a = a.
Proof. apply mat_ext; intros [] j; unfold mmul, S3, meye, delta; simpl; ring. Qed.
Lemma mmul_1_r a : mmul a meye = a.
Proof. apply mat_ext; intros i []; unfold mmul, S3, meye, delta; simpl; ring. Qed.
Lemma mconj_mul a b : mconj (mmul a b) = mmul (mconj a) (mconj b).
Proof. apply mat_ext; intros; unfold mconj, mmul. rewrite S3_conj. apply S3_ext; intros; apply Cconj_mul. Qed.
Lemma mconj_conj a : mconj (mconj a) = a.
Proof. apply mat_ext; intros; apply Cconj_conj. Qed.
Lemma mconj_eye : mconj meye = meye.
Proof. apply mat_ext; intros; apply delta_conj. Qed.
Lemma mT_T a : mT (mT a) = a.
Proof. reflexivity. Qed.
Lemma mT_mul a b : mT (mmul a b) = mmul (mT b) (mT a).
Proof. apply mat_ext; intros; unfold mT, mmul, S3; ring. Qed.
Lemma mT_eye : mT meye = meye.
Proof. apply mat_ext; intros; apply delta_sym. Qed.
Lemma mdag_dag a : mdag (mdag a) = a.
Proof. apply mat_ext; intros; apply Cconj_conj. Qed.
Lemma mdag_mul a b : mdag (mmul a b) = mmul (mdag b) (mdag a).
Proof. unfold mdag. rewrite mconj_mul, mT_mul; reflexivity. Qed.
Close Scope C_scope.
