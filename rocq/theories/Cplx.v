(** Complex numbers as pairs of standard-library reals; the mathematical
    counterpart of Python / numpy [complex] (no rounding, no infinities). *)
From Coq Require Import Reals Field Lra Setoid.
Open Scope R_scope.

Definition C : Set := (R * R)%type.
Definition Re (z : C) : R := fst z.
Definition Im (z : C) : R := snd z.
Definition C0 : C := (0, 0).
Definition C1 : C := (1, 0).
Definition Ci : C := (0, 1).
Definition RtoC (x : R) : C := (x, 0).
Definition Cadd (a b : C) : C := (fst a + fst b, snd a + snd b).
Definition Cneg (a : C) : C := (- fst a, - snd a).
Definition Csub (a b : C) : C := (fst a - fst b, snd a - snd b).
Definition Cmul (a b : C) : C :=
  (fst a * fst b - snd a * snd b, fst a * snd b + snd a * fst b).
Definition Cinv (a : C) : C :=
  (fst a / (fst a * fst a + snd a * snd a), - snd a / (fst a * fst a + snd a * snd a)).
Definition Cdiv (a b : C) : C := Cmul a (Cinv b).
(** [z.conj()] / [z.conjugate()] *)
Definition Cconj (a : C) : C := (fst a, - snd a).
(** [abs(z)] *)
Definition Cabs (a : C) : R := sqrt (fst a * fst a + snd a * snd a).

Declare Scope C_scope.
Delimit Scope C_scope with C.
Bind Scope C_scope with C.
Notation "0" := C0 : C_scope.
Notation "1" := C1 : C_scope.
Infix "+" := Cadd : C_scope.
Infix "-" := Csub : C_scope.
Infix "*" := Cmul : C_scope.
Infix "/" := Cdiv : C_scope.
Notation "- x" := (Cneg x) : C_scope.

Lemma C_ext (a b : C) : Re a = Re b -> Im a = Im b -> a = b.
Proof. destruct a, b; unfold Re, Im; simpl; intros; subst; reflexivity. Qed.
Lemma C_eta (a : C) : a = (Re a, Im a).
Proof. destruct a; reflexivity. Qed.

Ltac csimp := unfold Cadd, Cneg, Csub, Cmul, Cconj, RtoC, C0, C1, Ci, Re, Im in *; simpl in *.

Lemma C_ring_theory : ring_theory C0 C1 Cadd Cmul Csub Cneg (@eq C).
Proof.
  constructor; intros; apply C_ext; csimp; ring.
Qed.
Lemma C_sqnorm_nz (a : C) : a <> C0 -> fst a * fst a + snd a * snd a <> 0.
Proof.
  destruct a as [x y]; simpl. intros N E. apply N.
  assert (0 <= x * x) by apply Rle_0_sqr. assert (0 <= y * y) by apply Rle_0_sqr.
  assert (x * x = 0) as Hx by lra. assert (y * y = 0) as Hy by lra.
  apply Rmult_integral in Hx. apply Rmult_integral in Hy.
  unfold C0. f_equal; tauto.
Qed.
Lemma Cinv_l (a : C) : a <> C0 -> Cmul (Cinv a) a = C1.
Proof.
  intros N. pose proof (C_sqnorm_nz a N) as H. destruct a as [x y]; simpl in *.
  apply C_ext; unfold Cmul, Cinv, C1, Re, Im; simpl; field; exact H.
Qed.
Lemma C1_neq_0 : C1 <> C0.
Proof. intros E; inversion E. apply R1_neq_R0; assumption. Qed.
Lemma C_field_theory :
  field_theory C0 C1 Cadd Cmul Csub Cneg Cdiv Cinv (@eq C).
Proof.
  constructor.
  - apply C_ring_theory.
  - apply C1_neq_0.
  - reflexivity.
  - apply Cinv_l.
Qed.
Add Field C_field : C_field_theory.

Definition Ceq_dec (a b : C) : {a = b} + {a <> b}.
Proof.
  destruct a as [x y], b as [u v].
  destruct (Req_EM_T x u) as [->|N].
  - destruct (Req_EM_T y v) as [->|N].
    + left; reflexivity.
    + right; intros E; apply N; congruence.
  - right; intros E; apply N; congruence.
Defined.

Lemma Cconj_conj a : Cconj (Cconj a) = a.
Proof. apply C_ext; csimp; ring. Qed.
Lemma Cconj_add a b : Cconj (a + b) = (Cconj a + Cconj b)%C.
Proof. apply C_ext; csimp; ring. Qed.
Lemma Cconj_sub a b : Cconj (a - b) = (Cconj a - Cconj b)%C.
Proof. apply C_ext; csimp; ring. Qed.
Lemma Cconj_neg a : Cconj (- a) = (- Cconj a)%C.
Proof. apply C_ext; csimp; ring. Qed.
Lemma Cconj_mul a b : Cconj (a * b) = (Cconj a * Cconj b)%C.
Proof. apply C_ext; csimp; ring. Qed.
Lemma Cconj_inv a : Cconj (Cinv a) = Cinv (Cconj a).
Proof.
  destruct a as [x y]. apply C_ext; unfold Cconj, Cinv, Re, Im; simpl.
  - f_equal. ring.
  - replace (- y * - y) with (y * y) by ring. unfold Rdiv. ring.
Qed.
Lemma Cconj_div a b : Cconj (a / b) = (Cconj a / Cconj b)%C.
Proof. unfold Cdiv. rewrite Cconj_mul, Cconj_inv; reflexivity. Qed.
Lemma Cconj_0 : Cconj 0 = 0%C.
Proof. apply C_ext; csimp; ring. Qed.
Lemma Cconj_1 : Cconj 1 = 1%C.
Proof. apply C_ext; csimp; ring. Qed.
Lemma Cconj_R x : Cconj (RtoC x) = RtoC x.
Proof. apply C_ext; csimp; ring. Qed.
Lemma Cconj_eq0 a : Cconj a = C0 <-> a = C0.
Proof.
  split; intros E.
  - rewrite <- (Cconj_conj a), E. apply Cconj_0.
  - subst; apply Cconj_0.
Qed.
Lemma Cconj_inj a b : Cconj a = Cconj b -> a = b.
Proof. intros E. rewrite <- (Cconj_conj a), E. apply Cconj_conj. Qed.

Lemma RtoC_add x y : RtoC (x + y) = (RtoC x + RtoC y)%C.
Proof. apply C_ext; csimp; ring. Qed.
Lemma RtoC_sub x y : RtoC (x - y) = (RtoC x - RtoC y)%C.
Proof. apply C_ext; csimp; ring. Qed.
Lemma RtoC_mul x y : RtoC (x * y) = (RtoC x * RtoC y)%C.
Proof. apply C_ext; csimp; ring. Qed.
Lemma RtoC_opp x : RtoC (- x) = (- RtoC x)%C.
Proof. apply C_ext; csimp; ring. Qed.
Lemma RtoC_inv x : x <> 0 -> RtoC (/ x) = Cinv (RtoC x).
Proof.
  intros N. apply C_ext; unfold Cinv, RtoC, Re, Im; simpl; field; nra.
Qed.
Lemma RtoC_div x y : y <> 0 -> RtoC (x / y) = (RtoC x / RtoC y)%C.
Proof. intros N. unfold Rdiv, Cdiv. rewrite RtoC_mul, RtoC_inv; auto. Qed.
Lemma RtoC_inj x y : RtoC x = RtoC y -> x = y.
Proof. intros E; inversion E; reflexivity. Qed.
Lemma RtoC_neq0 x : x <> 0 -> RtoC x <> C0.
Proof. intros N E. apply N. apply RtoC_inj; exact E. Qed.
Lemma RtoC_0 : RtoC 0 = C0. Proof. reflexivity. Qed.
Lemma RtoC_1 : RtoC 1 = C1. Proof. reflexivity. Qed.

Lemma Cmul_integral a b : (a * b)%C = C0 -> a = C0 \/ b = C0.
Proof.
  intros E. destruct (Ceq_dec a C0) as [|N]; auto. right.
  assert (b = (Cinv a * (a * b))%C) as ->.
  { transitivity ((Cinv a * a) * b)%C; [rewrite Cinv_l by auto; ring | ring]. }
  rewrite E. ring.
Qed.
Lemma Cmul_neq0 a b : a <> C0 -> b <> C0 -> (a * b)%C <> C0.
Proof. intros A B E. apply Cmul_integral in E; tauto. Qed.
Lemma Cinv_neq0 a : a <> C0 -> Cinv a <> C0.
Proof.
  intros N E. apply C1_neq_0. rewrite <- (Cinv_l a N), E. ring.
Qed.
Lemma Cdiv_neq0 a b : a <> C0 -> b <> C0 -> (a / b)%C <> C0.
Proof. intros; apply Cmul_neq0; auto using Cinv_neq0. Qed.
Lemma Cneg_neq0 a : a <> C0 -> (- a)%C <> C0.
Proof.
  intros N E. apply N. replace a with (- - a)%C by ring. rewrite E. ring.
Qed.
Lemma Cconj_neq0 a : a <> C0 -> Cconj a <> C0.
Proof. rewrite Cconj_eq0; auto. Qed.

Lemma Cabs_0 : Cabs C0 = 0.
Proof. unfold Cabs, C0; simpl. rewrite Rmult_0_l, Rplus_0_l. apply sqrt_0. Qed.
Lemma Cabs_R x : Cabs (RtoC x) = Rabs x.
Proof.
  unfold Cabs, RtoC; simpl. rewrite Rmult_0_l, Rplus_0_r. apply sqrt_Rsqr_abs.
Qed.
