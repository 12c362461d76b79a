(** Error bounds for the formulas of wet.py in an arithmetic with relative error [eps], for parameters, CKM elements and
    coefficients with errors. *)
From Coq Require Import String Ascii List Bool Arith ZArith Reals Lra Lia Psatz.
From Verif Require Import PyBase PyDict Cplx Tensor Params WetExpr Round.
Import ListNotations.
Open Scope string_scope.
Open Scope list_scope.
Open Scope R_scope.
#[local] Opaque Ceq_dec.

Section Err.
Variable eps : R.
Hypothesis eps_lt : 0 <= eps < 1.
(** The growth of an error by one operation. *)
Definition grow : R := / (1 - eps).
Lemma grow_ge : 1 + eps <= grow.
Proof.
  pose proof eps_lt. unfold grow. apply Rmult_le_reg_r with (1 - eps); [lra|]. rewrite Rinv_l by lra. nra.
Qed.
Lemma grow_1 : 1 <= grow.
Proof. pose proof grow_ge. pose proof eps_lt. lra. Qed.
Lemma grow_inv : eps / (1 - eps) = grow - 1.
Proof. pose proof eps_lt. unfold grow. field. lra. Qed.
Lemma pow_1 n : 1 <= grow ^ n.
Proof. apply pow_R1_Rle, grow_1. Qed.
Lemma pow_mono n m : (n <= m)%nat -> grow ^ n <= grow ^ m.
Proof. intros L. apply Rle_pow; [apply grow_1|exact L]. Qed.

(** ** Products of factors 1 + delta and 1 / (1 + delta) *)
Definition factor (f : C) : Prop := exists d, Cabs d <= eps /\ (f = Cadd C1 d \/ f = Cinv (Cadd C1 d)).
Lemma one_plus d : Cabs d <= eps -> Cadd C1 d <> C0.
Proof.
  intros D E. pose proof eps_lt. assert (d = Cneg C1) as -> by (replace d with (Csub (Cadd C1 d) C1) by ring; rewrite E; ring).
  rewrite Cabs_neg, Cabs_1 in D. lra.
Qed.
Lemma factor_neq f : factor f -> f <> C0.
Proof. intros (d & D & [->| ->]); [|apply Cinv_neq]; apply one_plus, D. Qed.
Lemma factor_near f : factor f -> Cabs (Csub f C1) <= grow - 1.
Proof.
  pose proof grow_ge. intros (d & D & [->| ->]).
  - replace (Csub (Cadd C1 d) C1) with d by ring. lra.
  - pose proof (one_plus d D) as N. replace (Csub (Cinv (Cadd C1 d)) C1) with (Cmul (Cneg d) (Cinv (Cadd C1 d))).
    + rewrite Cabs_mul, Cabs_neg, Cabs_inv by exact N. pose proof eps_lt.
      assert (1 - eps <= Cabs (Cadd C1 d)) as L.
      { pose proof (Cabs_sub (Cadd C1 d) d) as T. replace (Csub (Cadd C1 d) d) with C1 in T by ring. rewrite Cabs_1 in T. lra. }
      rewrite <- grow_inv. unfold Rdiv. apply Rmult_le_compat; [apply Cabs_ge0|left; apply Rinv_0_lt_compat; lra|exact D|]. apply Rinv_le_contravar; lra.
    + transitivity (Cmul (Csub C1 (Cadd C1 d)) (Cinv (Cadd C1 d))); [f_equal; ring|]. pose proof (Cinv_l _ N) as I.
      transitivity (Csub (Cinv (Cadd C1 d)) (Cmul (Cinv (Cadd C1 d)) (Cadd C1 d))); [ring|rewrite I; reflexivity].
Qed.
Lemma factor_inv f : factor f -> factor (Cinv f).
Proof.
  intros F. pose proof (factor_neq f F) as N. destruct F as (d & D & [->| ->]); exists d; split; auto. left.
  pose proof (one_plus d D) as M. set (x := Cadd C1 d) in *. pose proof (Cinv_l x M) as I. pose proof (Cinv_l (Cinv x) N) as J.
  transitivity (Cmul (Cinv (Cinv x)) (Cmul (Cinv x) x)); [rewrite I; ring|]. transitivity (Cmul (Cmul (Cinv (Cinv x)) (Cinv x)) x); [ring|rewrite J; ring].
Qed.
Lemma factor_1 : factor C1.
Proof. exists C0. split; [rewrite Cabs_0; apply eps_lt|left; ring]. Qed.
Lemma near_factor x z : near eps x z -> exists f, factor f /\ x = Cmul z f.
Proof.
  intros N. destruct (Ceq_dec z C0) as [->|Z].
  - exists C1. split; [apply factor_1|]. unfold near in N. rewrite Cabs_0, Rmult_0_r in N. pose proof (Cabs_ge0 (Csub x C0)).
    assert (Csub x C0 = C0) as E by (apply Cabs_zero; lra). replace x with (Csub x C0) by ring. rewrite E. ring.
  - exists (Cadd C1 (Cmul (Csub x z) (Cinv z))). pose proof (Cinv_l z Z) as I. split.
    + exists (Cmul (Csub x z) (Cinv z)). split; [|auto]. rewrite Cabs_mul, Cabs_inv by exact Z. pose proof (Cabs_pos0 z Z).
      apply Rmult_le_reg_r with (Cabs z); [lra|]. unfold near in N. rewrite Rmult_assoc, Rinv_l by lra. lra.
    + transitivity (Cadd z (Cmul (Csub x z) (Cmul (Cinv z) z))); [rewrite I; ring|ring].
Qed.
Inductive fac : nat -> C -> Prop :=
| fac_0 : fac 0 C1
| fac_S n f p : factor f -> fac n p -> fac (S n) (Cmul f p).
Lemma fac_mul n p : fac n p -> forall m q, fac m q -> fac (n + m) (Cmul p q).
Proof.
  induction 1 as [|n f p F P IH]; intros m q Q; cbn [Nat.add].
  - replace (Cmul C1 q) with q by ring. exact Q.
  - replace (Cmul (Cmul f p) q) with (Cmul f (Cmul p q)) by ring. constructor; auto.
Qed.
Lemma fac_neq n p : fac n p -> p <> C0.
Proof. induction 1; [apply C1_neq_C0|apply Cmul_neq; auto using factor_neq]. Qed.
Lemma Cinv_mul x y : x <> C0 -> y <> C0 -> Cinv (Cmul x y) = Cmul (Cinv x) (Cinv y).
Proof.
  intros X Y. pose proof (Cinv_l x X) as I. pose proof (Cinv_l y Y) as J. pose proof (Cinv_l _ (Cmul_neq x y X Y)) as K.
  transitivity (Cmul (Cinv (Cmul x y)) (Cmul (Cmul (Cinv x) x) (Cmul (Cinv y) y))); [rewrite I, J; ring|].
  transitivity (Cmul (Cmul (Cinv (Cmul x y)) (Cmul x y)) (Cmul (Cinv x) (Cinv y))); [ring|rewrite K; ring].
Qed.
Lemma Cinv_1 : Cinv C1 = C1.
Proof. pose proof (Cinv_l C1 C1_neq_C0) as I. rewrite <- I at 2. ring. Qed.
Lemma fac_inv n p : fac n p -> fac n (Cinv p).
Proof.
  induction 1 as [|n f p F P IH]; [rewrite Cinv_1; constructor|]. rewrite Cinv_mul by eauto using factor_neq, fac_neq. constructor; auto using factor_inv.
Qed.
Lemma fac_near n p : fac n p -> Cabs (Csub p C1) <= grow ^ n - 1.
Proof.
  induction 1 as [|n f p F P IH]; [replace (Csub C1 C1) with C0 by ring; rewrite Cabs_0; cbn; lra|].
  replace (Csub (Cmul f p) C1) with (Cadd (Cmul (Csub f C1) (Csub p C1)) (Cadd (Csub f C1) (Csub p C1))) by ring.
  eapply Rle_trans; [apply Cabs_add|]. rewrite Cabs_mul. pose proof (Cabs_add (Csub f C1) (Csub p C1)). pose proof (factor_near f F).
  pose proof (Cabs_ge0 (Csub f C1)). pose proof (Cabs_ge0 (Csub p C1)). cbn [pow]. pose proof grow_1. pose proof (pow_1 n). nra.
Qed.
Lemma fac_le n p : fac n p -> Cabs p <= grow ^ n.
Proof.
  intros F. pose proof (fac_near n p F). pose proof (Cabs_add (Csub p C1) C1) as T. replace (Cadd (Csub p C1) C1) with p in T by ring. rewrite Cabs_1 in T. lra.
Qed.
Lemma fac_1 f : factor f -> fac 1 f.
Proof. intros F. replace f with (Cmul f C1) by ring. constructor; [exact F|constructor]. Qed.

(** *** The same for reals *)
Definition factorR (f : R) : Prop := exists d, Rabs d <= eps /\ (f = 1 + d \/ f = / (1 + d)).
Inductive facR : nat -> R -> Prop :=
| facR_0 : facR 0 1
| facR_S n f p : factorR f -> facR n p -> facR (S n) (f * p).
Lemma factorR_pos f : factorR f -> 0 < f.
Proof. pose proof eps_lt. intros (d & D & E). assert (0 < 1 + d) by (unfold Rabs in D; destruct (Rcase_abs d); lra). destruct E as [->| ->]; [lra|apply Rinv_0_lt_compat; lra]. Qed.
Lemma facR_pos n p : facR n p -> 0 < p.
Proof. induction 1; [lra|apply Rmult_lt_0_compat; auto using factorR_pos]. Qed.
Lemma Cinv_R x : x <> 0 -> Cinv (RtoC x) = RtoC (/ x).
Proof. intros N. unfold Cinv, RtoC. cbn. f_equal; field; auto. Qed.
Lemma RtoC_mul x y : RtoC (x * y) = Cmul (RtoC x) (RtoC y).
Proof. unfold RtoC, Cmul, Re, Im. cbn. f_equal; ring. Qed.
Lemma factorR_C f : factorR f -> factor (RtoC f).
Proof.
  pose proof eps_lt. intros (d & D & E). exists (RtoC d). rewrite Cabs_R. split; [exact D|]. assert (1 + d <> 0) by (unfold Rabs in D; destruct (Rcase_abs d); lra).
  assert (Cadd C1 (RtoC d) = RtoC (1 + d)) as -> by (unfold RtoC, Cadd, C1; cbn; f_equal; ring). destruct E as [->| ->]; [left; reflexivity|right]. symmetry. apply Cinv_R. assumption.
Qed.
Lemma facR_C n p : facR n p -> fac n (RtoC p).
Proof. induction 1; [constructor|]. rewrite RtoC_mul. constructor; auto using factorR_C. Qed.
Lemma facR_mul n p : facR n p -> forall m q, facR m q -> facR (n + m) (p * q).
Proof. induction 1 as [|n f p F P IH]; intros m q Q; cbn [Nat.add]; [rewrite Rmult_1_l; exact Q|]. rewrite Rmult_assoc. constructor; auto. Qed.
Lemma facR_inv n p : facR n p -> facR n (/ p).
Proof.
  induction 1 as [|n f p F P IH]; [rewrite Rinv_1; constructor|]. pose proof (factorR_pos f F). pose proof (facR_pos n p P). rewrite Rinv_mult. constructor; [|exact IH].
  destruct F as (d & D & [->| ->]); exists d; split; auto. left. apply Rinv_inv.
Qed.
Lemma factorR_sqrt f : factorR f -> factorR (sqrt f).
Proof.
  pose proof eps_lt. intros (d & D & E). assert (0 < 1 + d) as P by (unfold Rabs in D; destruct (Rcase_abs d); lra). exists (sqrt (1 + d) - 1). split.
  - assert (0 < sqrt (1 + d)) as S by (apply sqrt_lt_R0; exact P). pose proof (sqrt_sqrt (1 + d) (Rlt_le _ _ P)) as Q.
    unfold Rabs in *. destruct (Rcase_abs (sqrt (1 + d) - 1)), (Rcase_abs d); nra.
  - replace (1 + (sqrt (1 + d) - 1)) with (sqrt (1 + d)) by ring. destruct E as [->| ->]; [left; reflexivity|right]. apply sqrt_inv.
Qed.
Lemma facR_sqrt n p : facR n p -> facR n (sqrt p).
Proof.
  induction 1 as [|n f p F P IH]; [rewrite sqrt_1; constructor|]. rewrite sqrt_mult by (left; eauto using factorR_pos, facR_pos). constructor; auto using factorR_sqrt.
Qed.
Lemma facR_1 f : factorR f -> facR 1 f.
Proof. intros F. rewrite <- (Rmult_1_r f). constructor; [exact F|constructor]. Qed.
Lemma near_factorR x z : Rabs (x - z) <= eps * Rabs z -> exists f, factorR f /\ x = z * f.
Proof.
  intros N. destruct (Req_EM_T z 0) as [->|Z].
  - exists 1. split; [exists 0; rewrite Rabs_R0; split; [apply eps_lt|left; ring]|]. rewrite Rabs_R0, Rmult_0_r, Rminus_0_r in N. pose proof (Rabs_pos x).
    destruct (Req_EM_T x 0); [lra|]. pose proof (Rabs_pos_lt x n). lra.
  - exists (1 + (x - z) / z). split; [|field; exact Z]. exists ((x - z) / z). split; [|auto]. pose proof (Rabs_pos_lt z Z).
    unfold Rdiv. rewrite Rabs_mult, Rabs_inv. apply Rmult_le_reg_r with (Rabs z); [lra|]. rewrite Rmult_assoc, Rinv_l by lra. lra.
Qed.
Lemma real_of z : Im z = 0 -> z = RtoC (Re z).
Proof. destruct z; cbn. intros ->. reflexivity. Qed.
Lemma near_real x z : near eps x (RtoC z) -> Im x = 0 -> exists f, factorR f /\ x = RtoC (z * f).
Proof.
  intros N I. rewrite (real_of x I) in *. unfold near in N. assert (Csub (RtoC (Re x)) (RtoC z) = RtoC (Re x - z)) as Q by (unfold Csub, RtoC; cbn; f_equal; ring).
  rewrite Q, !Cabs_R in N. destruct (near_factorR _ _ N) as (f & F & ->). eauto.
Qed.

(** ** Arithmetic *)
(** [o] is the number of errors by [eps] in one operation: 1, or 0 if the arithmetic is exact. *)
Variable A : arith.
Variable o : nat.
Definition errs : Prop := (o = 1%nat /\ rounding A eps) \/ (o = 0%nat /\ rounding A 0).
Hypothesis Rd : errs.
Lemma near_0 x z : near 0 x z -> x = z.
Proof. unfold near. rewrite Rmult_0_l. intros N. pose proof (Cabs_ge0 (Csub x z)). assert (Csub x z = C0) as E by (apply Cabs_zero; lra). replace x with (Cadd (Csub x z) z) by ring. rewrite E. ring. Qed.
Lemma near_fac x z : (o = 1%nat /\ near eps x z) \/ (o = 0%nat /\ near 0 x z) -> exists f, fac o f /\ x = Cmul z f.
Proof.
  intros [[-> N]|[-> N]].
  - destruct (near_factor _ _ N) as (f & F & ->). exists f. auto using fac_1.
  - exists C1. split; [constructor|]. rewrite (near_0 _ _ N). ring.
Qed.
Lemma near_facR x z : (o = 1%nat /\ near eps x (RtoC z)) \/ (o = 0%nat /\ near 0 x (RtoC z)) -> Im x = 0 -> exists f, facR o f /\ x = RtoC (z * f).
Proof.
  intros [[-> N]|[-> N]] I.
  - destruct (near_real _ _ N I) as (f & F & ->). exists f. auto using facR_1.
  - exists 1. split; [constructor|]. rewrite (near_0 _ _ N), Rmult_1_r. reflexivity.
Qed.
Lemma near_near x z : (o = 1%nat /\ near eps x z) \/ (o = 0%nat /\ near 0 x z) -> near (grow ^ o - 1) x z.
Proof.
  intros N. destruct (near_fac _ _ N) as (f & F & ->). unfold near. replace (Csub (Cmul z f) z) with (Cmul z (Csub f C1)) by ring. rewrite Cabs_mul, Rmult_comm. apply Rmult_le_compat_r; [apply Cabs_ge0|apply fac_near, F].
Qed.
Lemma op_q n d : exists f, facR o f /\ f_q A n d = RtoC (IZR n / IZR (Zpos d) * f).
Proof. destruct Rd as [[O R]|[O R]]; destruct (r_q _ _ R n d) as [N I]; unfold qc in *; apply near_facR; auto. Qed.
Lemma op_pi : exists f, facR o f /\ f_pi A = RtoC (PI * f).
Proof. destruct Rd as [[O R]|[O R]]; destruct (r_pi _ _ R) as [N I]; apply near_facR; auto. Qed.
Lemma op_rt x : 0 <= x -> exists f, facR o f /\ f_rt A x = sqrt x * f.
Proof.
  intros X. assert (forall e, rounding A e -> near e (RtoC (f_rt A x)) (RtoC (sqrt x))) as H.
  { intros e R. pose proof (r_rt _ _ R x X) as N. unfold near. replace (Csub (RtoC (f_rt A x)) (RtoC (sqrt x))) with (RtoC (f_rt A x - sqrt x)) by (unfold Csub, RtoC; cbn; f_equal; ring). rewrite !Cabs_R, (Rabs_right (sqrt x)) by (apply Rle_ge, sqrt_pos). exact N. }
  destruct (near_facR (RtoC (f_rt A x)) (sqrt x)) as (f & F & E); [destruct Rd as [[O R]|[O R]]; auto|reflexivity|]. exists f. split; [exact F|]. injection E. auto.
Qed.
Lemma op_add x y : near (grow ^ o - 1) (f_add A x y) (Cadd x y).
Proof. apply near_near. destruct Rd as [[O R]|[O R]]; pose proof (r_add _ _ R x y); auto. Qed.
Lemma op_sub x y : near (grow ^ o - 1) (f_sub A x y) (Csub x y).
Proof. apply near_near. destruct Rd as [[O R]|[O R]]; pose proof (r_sub _ _ R x y); auto. Qed.
Lemma op_mul x y : exists f, fac o f /\ f_mul A x y = Cmul (Cmul x y) f.
Proof. apply near_fac. destruct Rd as [[O R]|[O R]]; destruct (r_mul _ _ R x y); auto. Qed.
Lemma op_mulR x y : exists f, facR o f /\ f_mul A (RtoC x) (RtoC y) = RtoC (x * y * f).
Proof. apply near_facR; rewrite ?RtoC_mul; destruct Rd as [[O R]|[O R]]; destruct (r_mul _ _ R (RtoC x) (RtoC y)); auto. Qed.
Lemma op_div x y : y <> C0 -> exists f, fac o f /\ f_div A x y = Cmul (Cdiv x y) f.
Proof. intros Y. apply near_fac. destruct Rd as [[O R]|[O R]]; destruct (r_div _ _ R x y Y); auto. Qed.
Lemma div_R x w : w <> 0 -> Cdiv (RtoC x) (RtoC w) = RtoC (x / w).
Proof. intros W. unfold Cdiv, Rdiv. rewrite Cinv_R by exact W. symmetry. apply RtoC_mul. Qed.
Lemma op_divR x y : y <> 0 -> exists f, facR o f /\ f_div A (RtoC x) (RtoC y) = RtoC (x / y * f).
Proof.
  intros Y. assert (RtoC y <> C0) as Z by (intros E; injection E; exact Y).
  apply near_facR; rewrite <- ?div_R by exact Y; destruct Rd as [[O R]|[O R]]; destruct (r_div _ _ R (RtoC x) (RtoC y) Z); auto.
Qed.

(** ** Formulas *)
(** Products and quotients of real numbers; products and quotients; formulas that divide only by those. *)
Fixpoint realmul (e : ex) : bool :=
  match e with XQ _ _ | XPi | XPar _ => true | XMul a b | XDiv a b => realmul a && realmul b | _ => false end.
Fixpoint mulonly (e : ex) : bool :=
  match e with
  | XQ _ _ | XPi | XPar _ | XV _ _ => true
  | XRt a => realmul a
  | XMul a b | XDiv a b => mulonly a && mulonly b
  | XNeg a | XConj a => mulonly a
  | _ => false
  end.
Fixpoint fine (e : ex) : bool :=
  match e with
  | XQ _ _ | XPi | XPar _ | XV _ _ | XGet _ | XArr _ _ => true
  | XRt a => realmul a
  | XNeg a | XConj a => fine a
  | XAdd a b | XSub a b | XMul a b => fine a && fine b
  | XDiv a b => fine a && mulonly b
  end.
(** Errors of the parameters, of the CKM elements, and of the entries of arrays. *)
Variables cp cv ca : nat.
(** The number of errors that contribute, if the entries of the dictionary have [n] already. *)
Fixpoint ops (n : nat) (e : ex) : nat :=
  match e with
  | XQ _ _ | XPi => o
  | XPar _ => cp
  | XV _ _ => cv
  | XArr _ _ => ca
  | XGet _ => n
  | XRt a => o + ops n a
  | XNeg a | XConj a => ops n a
  | XAdd a b | XSub a b => o + Nat.max (ops n a) (ops n b)
  | XMul a b | XDiv a b => o + (ops n a + ops n b)
  end.
(** An exact value, the computed one, and the size. *)
Definition close (n : nat) (x xa m : cval) : Prop :=
  match x, xa, m with
  | Some z, Some za, Some s => Cabs (Csub za z) <= (grow ^ n - 1) * Cabs s /\ Cabs z <= Cabs s
  | None, None, None => True
  | _, _, _ => False
  end.
(** Dictionaries with the same names in the same order whose values are close. *)
Inductive close_dict (n : nat) : dict string cval -> dict string cval -> dict string cval -> Prop :=
| cd_nil : close_dict n [] [] []
| cd_cons k x xa m d da dm : close n x xa m -> close_dict n d da dm -> close_dict n ((k, x) :: d) ((k, xa) :: da) ((k, m) :: dm).
Lemma close_get n d da dm k : close_dict n d da dm ->
  match dget d k with
  | Some x => exists xa m, dget da k = Some xa /\ dget dm k = Some m /\ close n x xa m
  | None => dget da k = None /\ dget dm k = None
  end.
Proof. induction 1 as [|k' x xa m d da dm C D IH]; cbn; [auto|]. destruct (keqb k k'); eauto. Qed.
Lemma close_keys n d da dm : close_dict n d da dm -> dkeys da = dkeys d /\ dkeys dm = dkeys d.
Proof. induction 1 as [|k' x xa m d da dm C D [I J]]; cbn; [auto|]. unfold dkeys in *. cbn. rewrite I, J. auto. Qed.
Lemma close_dset n d da dm k x xa m : close_dict n d da dm -> close n x xa m -> close_dict n (dset d k x) (dset da k xa) (dset dm k m).
Proof. intros H C. induction H as [|k' x' xa' m' d da dm C' D IH]; cbn; [repeat constructor; exact C|]. destruct (keqb k k'); constructor; auto. Qed.
Lemma close_dupdate n e ea em : close_dict n e ea em -> forall d da dm, close_dict n d da dm -> close_dict n (dupdate d e) (dupdate da ea) (dupdate dm em).
Proof. induction 1 as [|k x xa m e ea em C D IH]; intros d da dm H; [exact H|]. rewrite !dupdate_cons. apply IH. apply close_dset; assumption. Qed.
(** Parameters, matrices and arrays that are close. *)
Definition close_par (p pa : dict string R) : Prop :=
  forall k, match dget p k with Some r => exists f, facR cp f /\ dget pa k = Some (r * f) | None => dget pa k = None end.
Definition close_ckm (V Va : mat) : Prop := forall i j, exists f, fac cv f /\ Va i j = Cmul (V i j) f.
Definition close_arr (a aa : dict string narr) : Prop :=
  forall k, match dget a k with
    | Some x => exists y, dget aa k = Some y /\ n_rank y = n_rank x /\ forall ix, close ca (n_ent x ix) (n_ent y ix) (n_ent x ix)
    | None => dget aa k = None
    end.
Definition close_env (n : nat) (v va vm : env) : Prop :=
  close_dict n (e_get v) (e_get va) (e_get vm) /\ close_arr (e_arr v) (e_arr va) /\ close_par (e_par v) (e_par va) /\ close_ckm (e_ckm v) (e_ckm va) /\
  e_arr vm = e_arr v /\ e_par vm = e_par v /\ e_ckm vm = e_ckm v.
Lemma close_up n m x xa s : (n <= m)%nat -> close n x xa s -> close m x xa s.
Proof.
  intros L. unfold close. destruct x, xa, s; auto. intros [H K]. split; [|exact K]. eapply Rle_trans; [exact H|]. apply Rmult_le_compat_r; [apply Cabs_ge0|]. pose proof (pow_mono n m L). lra.
Qed.
Lemma close_dict_up n m d da dm : (n <= m)%nat -> close_dict n d da dm -> close_dict m d da dm.
Proof. intros L. induction 1; constructor; eauto using close_up. Qed.

Section One.
Variables (n0 : nat) (v va vm : env).
Hypothesis E : close_env n0 v va vm.
Lemma real_close e : realmul e = true ->
  match eval v e with
  | Ok x => exists a r s, x = Some (RtoC a) /\ facR (ops n0 e) r /\ evalA A va e = Ok (Some (RtoC (a * r))) /\ evalA sizeA vm e = Ok (Some (RtoC s)) /\ Rabs s = Rabs a /\ (0 <= a -> 0 <= s)
  | Err k => evalA A va e = Err k
  end.
Proof.
  destruct E as (_ & _ & P & _ & _ & Pm & _).
  induction e as [n d| | |s| | | | | | |e1 IH1 e2 IH2|e1 IH1 e2 IH2|]; try discriminate; intros F; cbn [eval evalA ops].
  - destruct (op_q n d) as (f & Ff & ->). eexists _, f, _. split; [reflexivity|]. split; [exact Ff|].
    split; [reflexivity|]. split; [reflexivity|]. unfold qc. rewrite Cabs_R. split; [apply Rabs_Rabsolu|intros _; apply Rabs_pos].
  - destruct op_pi as (f & Ff & ->). eexists _, f, _. split; [reflexivity|]. split; [exact Ff|].
    split; [reflexivity|]. split; [reflexivity|]. auto.
  - rewrite Pm. pose proof (P s) as Ps. destruct (dget (e_par v) s) as [r|]; [|rewrite Ps; reflexivity]. destruct Ps as (f & Ff & ->). exists r, f, r. split; [reflexivity|]. split; [exact Ff|]. auto.
  - cbn in F. apply andb_true_iff in F. destruct F as [F1 F2]. specialize (IH1 F1). specialize (IH2 F2). destruct (eval v e1) as [x|k]; cbn [bind]; [|rewrite IH1; reflexivity].
    destruct IH1 as (a & r & s & -> & Fr & -> & -> & S & _). cbn [bind]. destruct (eval v e2) as [y|k]; cbn [bind]; [|rewrite IH2; reflexivity].
    destruct IH2 as (b & q & t & -> & Fq & -> & -> & T & _). cbn [bind lift2 sizeA f_mul].
    destruct (op_mulR (a * r) (b * q)) as (f & Ff & ->). exists (a * b), (f * (r * q)), (Cabs (RtoC s) * Cabs (RtoC t)). rewrite RtoC_mul. split; [reflexivity|].
    split; [apply facR_mul; [exact Ff|]; apply facR_mul; assumption|]. split; [do 3 f_equal; ring|]. split; [reflexivity|]. rewrite !Cabs_R, S, T, <- Rabs_mult, Rabs_Rabsolu. split; [reflexivity|intros _; apply Rabs_pos].
  - cbn in F. apply andb_true_iff in F. destruct F as [F1 F2]. specialize (IH1 F1). specialize (IH2 F2). destruct (eval v e1) as [x|k]; cbn [bind]; [|rewrite IH1; reflexivity].
    destruct IH1 as (a & r & s & -> & Fr & -> & -> & S & _). cbn [bind]. destruct (eval v e2) as [y|k]; cbn [bind]; [|rewrite IH2; reflexivity].
    destruct IH2 as (b & q & t & -> & Fq & -> & -> & T & _). cbn [bind lift2 sizeA f_div]. pose proof (facR_pos q _ Fq) as Pq || pose proof (facR_pos _ q Fq) as Pq.
    destruct (Ceq_dec (RtoC b) C0) as [Z|Z].
    { injection Z as ->. rewrite Rmult_0_l. destruct (Ceq_dec (RtoC 0) C0) as [_|X]; [reflexivity|exfalso; apply X; reflexivity]. }
    assert (b <> 0) as Zb by (intros ->; apply Z; reflexivity).
    assert (b * q <> 0) as Zq by (apply Rmult_integral_contrapositive; split; lra).
    destruct (Ceq_dec (RtoC (b * q)) C0) as [X|X]; [exfalso; injection X as X; contradiction|].
    assert (t <> 0) as Zt by (intros ->; rewrite Rabs_R0 in T; symmetry in T; apply Rabs_no_R0 in Zb; contradiction).
    destruct (Ceq_dec (RtoC t) C0) as [Y|Y]; [exfalso; injection Y as Y; contradiction|].
    destruct (op_divR (a * r) (b * q) Zq) as (f & Ff & ->). exists (a / b), (f * (r * / q)), (Cabs (RtoC s) / Cabs (RtoC t)). rewrite div_R by exact Zb. split; [reflexivity|].
    split; [apply facR_mul; [exact Ff|]; apply facR_mul; [exact Fr|apply facR_inv; exact Fq]|]. split; [do 3 f_equal; field; lra|]. split; [reflexivity|].
    rewrite !Cabs_R, S, T. unfold Rdiv. rewrite <- Rabs_inv, <- Rabs_mult, Rabs_Rabsolu. split; [reflexivity|intros _; apply Rabs_pos].
Qed.
Lemma fac_conj n p : fac n p -> fac n (Cconj p).
Proof.
  induction 1 as [|n f p F P IH]; [replace (Cconj C1) with C1 by (unfold Cconj, C1; cbn; f_equal; ring); constructor|].
  replace (Cconj (Cmul f p)) with (Cmul (Cconj f) (Cconj p)) by (destruct f, p; unfold Cconj, Cmul, Re, Im; cbn; f_equal; ring). constructor; [|exact IH].
  destruct F as (d & D & Q). exists (Cconj d). rewrite Cabs_conj. split; [exact D|]. assert (Cadd C1 (Cconj d) = Cconj (Cadd C1 d)) as -> by (destruct d; unfold Cconj, Cadd, C1, Re, Im; cbn; f_equal; ring).
  destruct Q as [->| ->]; [left; reflexivity|right]. set (w := Cadd C1 d). assert (w <> C0) as W by (apply one_plus, D). assert (Cconj w <> C0) as W' by (intros X; apply W; apply Cabs_zero; rewrite <- Cabs_conj, X; exact Cabs_0).
  clearbody w. pose proof (Cinv_l w W) as I. pose proof (Cinv_l _ W') as J.
  assert (Cmul (Cconj (Cinv w)) (Cconj w) = C1) as K.
  { transitivity (Cconj (Cmul (Cinv w) w)); [destruct (Cinv w), w; unfold Cconj, Cmul, Re, Im; cbn; f_equal; ring|rewrite I; unfold Cconj, C1; cbn; f_equal; ring]. }
  transitivity (Cmul (Cconj (Cinv w)) (Cmul (Cinv (Cconj w)) (Cconj w))); [rewrite J; ring|]. transitivity (Cmul (Cinv (Cconj w)) (Cmul (Cconj (Cinv w)) (Cconj w))); [ring|rewrite K; ring].
Qed.
Lemma mul_close e : mulonly e = true ->
  match eval v e with
  | Ok x => exists z p s, x = Some z /\ fac (ops n0 e) p /\ evalA A va e = Ok (Some (Cmul z p)) /\ evalA sizeA vm e = Ok (Some s) /\ Cabs s = Cabs z
  | Err k => evalA A va e = Err k
  end.
Proof.
  assert (forall e, realmul e = true -> match eval v e with
    | Ok x => exists z p s, x = Some z /\ fac (ops n0 e) p /\ evalA A va e = Ok (Some (Cmul z p)) /\ evalA sizeA vm e = Ok (Some s) /\ Cabs s = Cabs z
    | Err k => evalA A va e = Err k end) as Rl.
  { intros e0 F. pose proof (real_close e0 F) as H. destruct (eval v e0) as [x0|k0]; [|exact H]. destruct H as (a & r & s & -> & Fr & -> & -> & S & _).
    exists (RtoC a), (RtoC r), (RtoC s). rewrite RtoC_mul, !Cabs_R. split; [reflexivity|]. split; [apply facR_C, Fr|]. auto. }
  induction e as [n d| |e1 IH1|s|i j| | |e1 IH1| | |e1 IH1 e2 IH2|e1 IH1 e2 IH2|e1 IH1]; try discriminate; intros F.
  - apply (Rl (XQ n d)). reflexivity.
  - apply (Rl XPi). reflexivity.
  - cbn in F. pose proof (real_close e1 F) as H. cbn [eval evalA ops]. destruct (eval v e1) as [x|k]; cbn [bind]; [|rewrite H; reflexivity].
    destruct H as (a & r & s & -> & Fr & -> & -> & S & Sp). cbn [bind]. pose proof (facR_pos _ r Fr) as Pr || pose proof (facR_pos r _ Fr) as Pr.
    change (Im (RtoC a)) with 0. change (Im (RtoC (a * r))) with 0. change (Im (RtoC s)) with 0. change (Re (RtoC a)) with a. change (Re (RtoC (a * r))) with (a * r). change (Re (RtoC s)) with s.
    destruct (Req_EM_T 0 0) as [_|X]; [|exfalso; apply X; reflexivity].
    destruct (Rlt_dec a 0) as [L|L].
    + destruct (Rlt_dec (a * r) 0) as [_|X]; [reflexivity|exfalso; apply X; nra].
    + assert (0 <= a) as La by lra. specialize (Sp La). destruct (Rlt_dec (a * r) 0) as [X|_]; [exfalso; nra|]. destruct (Rlt_dec s 0) as [X|_]; [lra|].
      assert (0 <= a * r) as Lr by nra. destruct (op_rt (a * r) Lr) as (f & Ff & ->). rewrite sqrt_mult by lra. exists (RtoC (sqrt a)), (RtoC (f * sqrt r)). eexists. split; [reflexivity|].
      split; [apply facR_C; apply facR_mul; [exact Ff|apply facR_sqrt; exact Fr]|]. split; [rewrite <- RtoC_mul; do 3 f_equal; ring|]. split; [reflexivity|].
      cbn [sizeA f_rt]. rewrite S, (Rabs_right a) by lra. reflexivity.
  - apply (Rl (XPar s)). reflexivity.
  - cbn [eval evalA ops]. destruct E as (_ & _ & _ & Kv & _ & _ & ->). destruct (Kv i j) as (f & Ff & ->). exists (e_ckm v i j), f, (e_ckm v i j). auto.
  - specialize (IH1 F). cbn [eval evalA ops]. destruct (eval v e1) as [x|k]; cbn [bind]; [|rewrite IH1; reflexivity]. destruct IH1 as (z & p & s & -> & Fp & -> & -> & S). cbn [bind].
    exists (Cneg z), p, (Cneg s). rewrite !Cabs_neg. split; [reflexivity|]. split; [exact Fp|]. split; [do 2 f_equal; ring|]. auto.
  - cbn in F. apply andb_true_iff in F. destruct F as [F1 F2]. specialize (IH1 F1). specialize (IH2 F2). cbn [eval evalA ops]. destruct (eval v e1) as [x|k]; cbn [bind]; [|rewrite IH1; reflexivity].
    destruct IH1 as (z & p & s & -> & Fp & -> & -> & S). cbn [bind]. destruct (eval v e2) as [y|k]; cbn [bind]; [|rewrite IH2; reflexivity].
    destruct IH2 as (w & q & t & -> & Fq & -> & -> & T). cbn [bind lift2 sizeA f_mul].
    destruct (op_mul (Cmul z p) (Cmul w q)) as (f & Ff & ->). exists (Cmul z w), (Cmul f (Cmul p q)). eexists. split; [reflexivity|].
    split; [apply fac_mul; [exact Ff|]; apply fac_mul; assumption|]. split; [do 2 f_equal; ring|]. split; [reflexivity|]. rewrite Cabs_R, Cabs_mul, S, T. apply Rabs_right. apply Rle_ge, Rmult_le_pos; apply Cabs_ge0.
  - cbn in F. apply andb_true_iff in F. destruct F as [F1 F2]. specialize (IH1 F1). specialize (IH2 F2). cbn [eval evalA ops]. destruct (eval v e1) as [x|k]; cbn [bind]; [|rewrite IH1; reflexivity].
    destruct IH1 as (z & p & s & -> & Fp & -> & -> & S). cbn [bind]. destruct (eval v e2) as [y|k]; cbn [bind]; [|rewrite IH2; reflexivity].
    destruct IH2 as (w & q & t & -> & Fq & -> & -> & T). cbn [bind lift2 sizeA f_div]. assert (q <> C0) as Zq by (eapply fac_neq; exact Fq).
    destruct (Ceq_dec w C0) as [->|W].
    { destruct (Ceq_dec (Cmul C0 q) C0) as [_|X]; [reflexivity|exfalso; apply X; ring]. }
    destruct (Ceq_dec (Cmul w q) C0) as [X|X]; [exfalso; revert X; apply Cmul_neq; assumption|].
    assert (t <> C0) as Zt by (intros ->; rewrite Cabs_0 in T; apply W, Cabs_zero; auto). destruct (Ceq_dec t C0) as [Y|_]; [contradiction|].
    destruct (op_div (Cmul z p) (Cmul w q) X) as (f & Ff & ->). exists (Cdiv z w), (Cmul f (Cmul p (Cinv q))). eexists. split; [reflexivity|].
    split; [apply fac_mul; [exact Ff|]; apply fac_mul; [exact Fp|apply fac_inv; exact Fq]|]. split; [do 2 f_equal; unfold Cdiv; rewrite Cinv_mul by assumption; ring|]. split; [reflexivity|].
    rewrite Cabs_R, Cabs_div by exact W. rewrite S, T. apply Rabs_right. apply Rle_ge. unfold Rdiv. apply Rmult_le_pos; [apply Cabs_ge0|]. left. apply Rinv_0_lt_compat, Cabs_pos0, W.
  - specialize (IH1 F). cbn [eval evalA ops]. destruct (eval v e1) as [x|k]; cbn [bind]; [|rewrite IH1; reflexivity]. destruct IH1 as (z & p & s & -> & Fp & -> & -> & S). cbn [bind conjv].
    exists (Cconj z), (Cconj p), (Cconj s). rewrite !Cabs_conj. split; [reflexivity|]. split; [apply fac_conj, Fp|]. split; [do 2 f_equal; destruct z, p; unfold Cconj, Cmul, Re, Im; cbn; f_equal; ring|]. auto.
Qed.

(** *** Sums *)
Lemma close_exact z : close 0 (Some z) (Some z) (Some z).
Proof. unfold close. replace (Csub z z) with C0 by ring. rewrite Cabs_0. cbn. pose proof (Cabs_ge0 z). lra. Qed.
Lemma close_fac n z p s : fac n p -> Cabs s = Cabs z -> close n (Some z) (Some (Cmul z p)) (Some s).
Proof.
  intros F S. unfold close. replace (Csub (Cmul z p) z) with (Cmul z (Csub p C1)) by ring. rewrite Cabs_mul, S. pose proof (fac_near n p F). pose proof (Cabs_ge0 z). split; [nra|lra].
Qed.
Lemma close_add n m x y xa ya s t u : close n (Some x) (Some xa) (Some s) -> close m (Some y) (Some ya) (Some t) -> near (grow ^ o - 1) u (Cadd xa ya) ->
  close (o + Nat.max n m) (Some (Cadd x y)) (Some u) (Some (RtoC (Cabs s + Cabs t))).
Proof.
  intros X Y N. apply (close_up n (Nat.max n m)) in X; [|lia]. apply (close_up m (Nat.max n m)) in Y; [|lia]. set (k := Nat.max n m) in *. destruct X as [X X'], Y as [Y Y']. unfold close.
  rewrite Cabs_R, Rabs_right by (apply Rle_ge; pose proof (Cabs_ge0 s); pose proof (Cabs_ge0 t); lra). split; [|eapply Rle_trans; [apply Cabs_add|lra]].
  unfold near in N. replace (Csub u (Cadd x y)) with (Cadd (Csub u (Cadd xa ya)) (Cadd (Csub xa x) (Csub ya y))) by ring.
  eapply Rle_trans; [apply Cabs_add|]. pose proof (Cabs_add (Csub xa x) (Csub ya y)). pose proof (Cabs_add xa ya).
  assert (Cabs xa <= grow ^ k * Cabs s) by (pose proof (Cabs_add (Csub xa x) x) as T; replace (Cadd (Csub xa x) x) with xa in T by ring; nra).
  assert (Cabs ya <= grow ^ k * Cabs t) by (pose proof (Cabs_add (Csub ya y) y) as T; replace (Cadd (Csub ya y) y) with ya in T by ring; nra).
  pose proof (pow_1 k). pose proof (pow_1 o). pose proof (Cabs_ge0 s). pose proof (Cabs_ge0 t). rewrite pow_add. set (g := grow ^ k) in *. set (h := grow ^ o) in *. set (a := Cabs s) in *. set (b := Cabs t) in *.
  assert ((h - 1) * Cabs (Cadd xa ya) <= (h - 1) * (g * (a + b))) by (apply Rmult_le_compat_l; lra).
  apply Rle_trans with ((h - 1) * (g * (a + b)) + (g - 1) * (a + b)); [lra|]. lra.
Qed.
Lemma close_neg n x xa s : close n x xa s ->
  close n (match x with Some z => Some (Cneg z) | None => None end) (match xa with Some z => Some (Cneg z) | None => None end) (match s with Some z => Some (Cneg z) | None => None end).
Proof. destruct x, xa, s; cbn; auto. intros [H K]. rewrite !Cabs_neg. split; [|exact K]. replace (Csub (Cneg c0) (Cneg c)) with (Cneg (Csub c0 c)) by ring. rewrite Cabs_neg. exact H. Qed.
Lemma close_conj n x xa s : close n x xa s -> close n (conjv x) (conjv xa) (conjv s).
Proof.
  destruct x, xa, s; cbn; auto. intros [H K]. rewrite !Cabs_conj. split; [|exact K]. replace (Csub (Cconj c0) (Cconj c)) with (Cconj (Csub c0 c)) by (destruct c0, c; unfold Cconj, Csub, Re, Im; cbn; f_equal; ring). rewrite Cabs_conj. exact H.
Qed.
Lemma close_sub n m x y xa ya s t u : close n (Some x) (Some xa) (Some s) -> close m (Some y) (Some ya) (Some t) -> near (grow ^ o - 1) u (Csub xa ya) ->
  close (o + Nat.max n m) (Some (Csub x y)) (Some u) (Some (RtoC (Cabs s + Cabs t))).
Proof.
  intros X Y N. apply close_neg in Y. rewrite <- (Cabs_neg t). replace (Csub x y) with (Cadd x (Cneg y)) by ring. eapply close_add; eauto.
Qed.
Lemma close_mul n m x y xa ya s t u : close n (Some x) (Some xa) (Some s) -> close m (Some y) (Some ya) (Some t) -> near (grow ^ o - 1) u (Cmul xa ya) ->
  close (o + (n + m)) (Some (Cmul x y)) (Some u) (Some (RtoC (Cabs s * Cabs t))).
Proof.
  intros [X X'] [Y Y'] N. unfold close. pose proof (Cabs_ge0 s). pose proof (Cabs_ge0 t). pose proof (Cabs_ge0 x). pose proof (Cabs_ge0 y).
  rewrite Cabs_R, Rabs_right by (apply Rle_ge, Rmult_le_pos; assumption). split; [|rewrite Cabs_mul; apply Rmult_le_compat; assumption].
  unfold near in N. replace (Csub u (Cmul x y)) with (Cadd (Csub u (Cmul xa ya)) (Cadd (Cmul (Csub xa x) y) (Cmul xa (Csub ya y)))) by ring.
  eapply Rle_trans; [apply Cabs_add|]. pose proof (Cabs_add (Cmul (Csub xa x) y) (Cmul xa (Csub ya y))) as T0. rewrite !Cabs_mul in T0. rewrite Cabs_mul in N.
  assert (Cabs xa <= grow ^ n * Cabs s) as Ha by (pose proof (Cabs_add (Csub xa x) x) as T; replace (Cadd (Csub xa x) x) with xa in T by ring; nra).
  assert (Cabs ya <= grow ^ m * Cabs t) as Hb by (pose proof (Cabs_add (Csub ya y) y) as T; replace (Cadd (Csub ya y) y) with ya in T by ring; nra).
  pose proof (pow_1 n). pose proof (pow_1 m). pose proof (pow_1 o). pose proof (Cabs_ge0 xa). pose proof (Cabs_ge0 ya). pose proof (Cabs_ge0 (Csub xa x)). pose proof (Cabs_ge0 (Csub ya y)).
  rewrite !pow_add. set (g := grow ^ n) in *. set (h := grow ^ m) in *. set (q := grow ^ o) in *. set (a := Cabs s) in *. set (b := Cabs t) in *.
  assert (Cabs (Csub xa x) * Cabs y <= (g - 1) * a * b) by (apply Rmult_le_compat; assumption).
  assert (Cabs xa * Cabs (Csub ya y) <= (g * a) * ((h - 1) * b)) by (apply Rmult_le_compat; assumption).
  assert (Cabs xa * Cabs ya <= (g * a) * (h * b)) by (apply Rmult_le_compat; assumption).
  assert ((q - 1) * (Cabs xa * Cabs ya) <= (q - 1) * ((g * a) * (h * b))) by (apply Rmult_le_compat_l; lra).
  apply Rle_trans with ((q - 1) * ((g * a) * (h * b)) + ((g - 1) * a * b + (g * a) * ((h - 1) * b))); [lra|]. lra.
Qed.
Lemma close_div n m x w xa p s t u : close n (Some x) (Some xa) (Some s) -> fac m p -> Cabs t = Cabs w -> w <> C0 -> near (grow ^ o - 1) u (Cdiv xa (Cmul w p)) ->
  close (o + (n + m)) (Some (Cdiv x w)) (Some u) (Some (RtoC (Cabs s / Cabs t))).
Proof.
  intros X P T W N. pose proof (fac_neq m p P) as Zp. pose proof (Cabs_pos0 w W) as Pw.
  assert (close m (Some (Cinv w)) (Some (Cmul (Cinv w) (Cinv p))) (Some (Cinv w))) as Y by (apply close_fac; [apply fac_inv, P|reflexivity]).
  rewrite T. unfold Rdiv. rewrite <- (Cabs_inv w W). unfold Cdiv at 1. eapply close_mul; eauto. unfold Cdiv in N. rewrite Cinv_mul in N by assumption. exact N.
Qed.
Lemma fine_close e : fine e = true ->
  match eval v e with
  | Ok x => exists xa m, evalA A va e = Ok xa /\ evalA sizeA vm e = Ok m /\ close (ops n0 e) x xa m
  | Err k => evalA A va e = Err k
  end.
Proof.
  assert (forall e, mulonly e = true -> match eval v e with
    | Ok x => exists xa m, evalA A va e = Ok xa /\ evalA sizeA vm e = Ok m /\ close (ops n0 e) x xa m
    | Err k => evalA A va e = Err k end) as Ml.
  { intros e0 F. pose proof (mul_close e0 F) as H. destruct (eval v e0) as [x0|k0]; [|exact H]. destruct H as (z & p & s & -> & Fp & -> & -> & S). eexists _, _. split; [reflexivity|]. split; [reflexivity|]. apply close_fac; assumption. }
  induction e as [n d| |e1 IH1|s|i j|k|op x|e1 IH1|e1 IH1 e2 IH2|e1 IH1 e2 IH2|e1 IH1 e2 IH2|e1 IH1 e2 IH2|e1 IH1]; intros F; try (apply Ml; exact F).
  - cbn [eval evalA ops]. unfold dlookup. destruct E as (D & _). pose proof (close_get _ _ _ _ k D) as G. destruct (dget (e_get v) k) as [x|].
    + destruct G as (xa & m & -> & -> & G). eauto.
    + destruct G as [-> _]. reflexivity.
  - cbn [eval evalA ops]. destruct E as (_ & Ka & _ & _ & -> & _). unfold dlookup. specialize (Ka op). destruct (dget (e_arr v) op) as [a|]; cbn [bind]; [|rewrite Ka; reflexivity]. destruct Ka as (y & -> & Rk & Kx). cbn [bind]. rewrite Rk. destruct (Nat.eqb (length x) (n_rank a)); [|reflexivity].
    eexists _, _. split; [reflexivity|]. split; [reflexivity|]. apply Kx.
  - specialize (IH1 F). cbn [eval evalA ops]. destruct (eval v e1) as [x|k]; cbn [bind]; [|rewrite IH1; reflexivity]. destruct IH1 as (xa & m & -> & -> & C). cbn [bind]. eexists _, _. split; [reflexivity|]. split; [reflexivity|]. apply close_neg, C.
  - cbn in F. apply andb_true_iff in F. destruct F as [F1 F2]. specialize (IH1 F1). specialize (IH2 F2). cbn [eval evalA ops]. destruct (eval v e1) as [x|k]; cbn [bind]; [|rewrite IH1; reflexivity].
    destruct IH1 as (xa & s & -> & -> & C). cbn [bind]. destruct (eval v e2) as [y|k]; cbn [bind]; [|rewrite IH2; reflexivity]. destruct IH2 as (ya & t & -> & -> & D). cbn [bind].
    eexists _, _. split; [reflexivity|]. split; [reflexivity|]. destruct x, xa, s; try contradiction C; destruct y, ya, t; try contradiction D; try exact I. cbn [lift2]. eapply close_add; eauto. apply op_add.
  - cbn in F. apply andb_true_iff in F. destruct F as [F1 F2]. specialize (IH1 F1). specialize (IH2 F2). cbn [eval evalA ops]. destruct (eval v e1) as [x|k]; cbn [bind]; [|rewrite IH1; reflexivity].
    destruct IH1 as (xa & s & -> & -> & C). cbn [bind]. destruct (eval v e2) as [y|k]; cbn [bind]; [|rewrite IH2; reflexivity]. destruct IH2 as (ya & t & -> & -> & D). cbn [bind].
    eexists _, _. split; [reflexivity|]. split; [reflexivity|]. destruct x, xa, s; try contradiction C; destruct y, ya, t; try contradiction D; try exact I. cbn [lift2]. eapply close_sub; eauto. apply op_sub.
  - cbn in F. apply andb_true_iff in F. destruct F as [F1 F2]. specialize (IH1 F1). specialize (IH2 F2). cbn [eval evalA ops]. destruct (eval v e1) as [x|k]; cbn [bind]; [|rewrite IH1; reflexivity].
    destruct IH1 as (xa & s & -> & -> & C). cbn [bind]. destruct (eval v e2) as [y|k]; cbn [bind]; [|rewrite IH2; reflexivity]. destruct IH2 as (ya & t & -> & -> & D). cbn [bind].
    eexists _, _. split; [reflexivity|]. split; [reflexivity|]. destruct x, xa, s; try contradiction C; destruct y, ya, t; try contradiction D; try exact I. cbn [lift2]. eapply close_mul; eauto. apply near_near. destruct Rd as [[O R]|[O R]]; destruct (r_mul _ _ R c0 c3); auto.
  - cbn in F. apply andb_true_iff in F. destruct F as [F1 F2]. specialize (IH1 F1). pose proof (mul_close e2 F2) as M2. cbn [eval evalA ops]. destruct (eval v e1) as [x|k]; cbn [bind]; [|rewrite IH1; reflexivity].
    destruct IH1 as (xa & s & -> & -> & C). cbn [bind]. destruct (eval v e2) as [y|k]; cbn [bind]; [|rewrite M2; reflexivity]. destruct M2 as (w & p & t & -> & Fp & -> & -> & T). cbn [bind].
    pose proof (fac_neq _ p Fp) as Zp. destruct (Ceq_dec w C0) as [->|W].
    { destruct (Ceq_dec (Cmul C0 p) C0) as [_|X]; [reflexivity|exfalso; apply X; ring]. }
    destruct (Ceq_dec (Cmul w p) C0) as [X|X]; [exfalso; revert X; apply Cmul_neq; assumption|].
    assert (t <> C0) as Zt by (intros ->; rewrite Cabs_0 in T; apply W, Cabs_zero; auto). destruct (Ceq_dec t C0) as [Y|_]; [contradiction|].
    eexists _, _. split; [reflexivity|]. split; [reflexivity|]. destruct x, xa, s; try contradiction C; try exact I. cbn [lift2]. eapply close_div; eauto. apply near_near. destruct Rd as [[O R]|[O R]]; destruct (r_div _ _ R c0 (Cmul w p) X); auto.
  - specialize (IH1 F). cbn [eval evalA ops]. destruct (eval v e1) as [x|k]; cbn [bind]; [|rewrite IH1; reflexivity]. destruct IH1 as (xa & m & -> & -> & C). cbn [bind]. eexists _, _. split; [reflexivity|]. split; [reflexivity|]. apply close_conj, C.
Qed.
(** ** Dictionaries *)
Definition ops_t (n : nat) (t : tmpl) : nat := fold_right (fun kx m => Nat.max (ops n (snd kx)) m) 0%nat t.
Definition fine_t (t : tmpl) : bool := forallb (fun kx => fine (snd kx)) t.
Lemma t_close t : fine_t t = true ->
  match eval_t v t with
  | Ok d => exists da dm, eval_tA A va t = Ok da /\ eval_tA sizeA vm t = Ok dm /\ close_dict (ops_t n0 t) d da dm
  | Err k => eval_tA A va t = Err k
  end.
Proof.
  intros F. unfold eval_t, eval_tA. unfold mapM.
  assert (match sequence (map (fun kx => let! x := eval v (snd kx) in Ok (fst kx, x)) t) with
    | Ok d => exists da dm, sequence (map (fun kx => let! x := evalA A va (snd kx) in Ok (fst kx, x)) t) = Ok da /\
        sequence (map (fun kx => let! x := evalA sizeA vm (snd kx) in Ok (fst kx, x)) t) = Ok dm /\ close_dict (ops_t n0 t) d da dm
    | Err k => sequence (map (fun kx => let! x := evalA A va (snd kx) in Ok (fst kx, x)) t) = Err k end) as K.
  { clear - F Rd E eps_lt. induction t as [|[k e] t IH]; cbn [map sequence]; [exists [], []; repeat split; constructor|]. cbn in F. apply andb_true_iff in F. destruct F as [Fe Ft]. specialize (IH Ft).
    cbn [fst snd]. pose proof (fine_close e Fe) as H. destruct (eval v e) as [x|y]; cbn [bind]; [|rewrite H; reflexivity]. destruct H as (xa & m & -> & -> & C). cbn [bind].
    destruct (sequence (map (fun kx => let! x0 := eval v (snd kx) in Ok (fst kx, x0)) t)) as [d|y]; cbn [bind]; [|rewrite IH; reflexivity].
    destruct IH as (da & dm & -> & -> & D). cbn [bind]. eexists _, _. split; [reflexivity|]. split; [reflexivity|]. cbn [ops_t fold_right snd]. constructor; [eapply close_up; [|exact C]|eapply close_dict_up; [|exact D]]; unfold ops_t; lia. }
  destruct (sequence (map (fun kx => let! x := eval v (snd kx) in Ok (fst kx, x)) t)) as [d|y]; cbn [rmap bind]; [|rewrite K; reflexivity].
  destruct K as (da & dm & -> & -> & D). cbn [rmap bind]. eexists _, _. split; [reflexivity|]. split; [reflexivity|]. unfold dict_of. apply close_dupdate; [exact D|constructor].
Qed.
End One.
Lemma env_with n v va vm d da dm m : close_env n v va vm -> close_dict m d da dm -> close_env m (with_get v d) (with_get va da) (with_get vm dm).
Proof. intros (_ & H) D. split; [exact D|exact H]. Qed.
(** ** Programs *)
Fixpoint ops_c (n : nat) (ts : list tmpl) : nat := match ts with [] => n | t :: r => ops_c (ops_t n t) r end.
Lemma chain_close ts : forall n v va vm, close_env n v va vm -> forallb fine_t ts = true ->
  match run_chain v ts with
  | Ok d => exists da dm, run_chainA A va ts = Ok da /\ run_chainA sizeA vm ts = Ok dm /\ close_dict (ops_c n ts) d da dm
  | Err k => run_chainA A va ts = Err k
  end.
Proof.
  induction ts as [|t r IH]; intros n v va vm E F; cbn [run_chain run_chainA ops_c].
  - destruct E as (D & _). eauto.
  - cbn in F. apply andb_true_iff in F. destruct F as [Ft Fr]. pose proof (t_close n v va vm E t Ft) as H. destruct (eval_t v t) as [d|k]; cbn [bind]; [|rewrite H; reflexivity].
    destruct H as (da & dm & -> & -> & D). cbn [bind]. apply IH; [|exact Fr]. eapply env_with; eauto.
Qed.
Definition ops_s (n : nat) (l : list (list tmpl)) : nat := fold_right (fun ts m => Nat.max (ops_c n ts) m) 0%nat l.
Lemma steps_close N l : forall n v va vm acc acca accm, close_env n v va vm -> forallb (forallb fine_t) l = true -> (ops_s n l <= N)%nat -> close_dict N acc acca accm ->
  match run_steps v acc l with
  | Ok d => exists da dm, run_stepsA A va acca l = Ok da /\ run_stepsA sizeA vm accm l = Ok dm /\ close_dict N d da dm
  | Err k => run_stepsA A va acca l = Err k
  end.
Proof.
  induction l as [|ts r IH]; intros n v va vm acc acca accm E F L Ac; cbn [run_steps run_stepsA]; [eauto|].
  cbn in F. apply andb_true_iff in F. destruct F as [Ft Fr]. cbn in L. pose proof (chain_close ts n v va vm E Ft) as H. destruct (run_chain v ts) as [d|k]; cbn [bind]; [|rewrite H; reflexivity].
  destruct H as (da & dm & -> & -> & D). cbn [bind]. eapply IH; eauto; [unfold ops_s; lia|]. apply close_dupdate; [|exact Ac]. eapply close_dict_up; [|exact D]. lia.
Qed.
(** [post_ok P N f]: the last step is a formula in the value, adding up to [P] operations for values with [N]. *)
Definition post_ok (N P : nat) (o : option (ex -> ex)) : Prop :=
  match o with None => (N <= P)%nat | Some f => forall k, fine (f (XGet k)) = true /\ (ops N (f (XGet k)) <= P)%nat end.
Lemma prog_close N P q n v va vm : close_env n v va vm -> forallb (forallb fine_t) (pr_steps q) = true -> (ops_s n (pr_steps q) <= N)%nat -> post_ok N P (pr_post q) ->
  match run_prog v q with
  | Ok d => exists da dm, run_progA A va q = Ok da /\ run_progA sizeA vm q = Ok dm /\ close_dict P d da dm
  | Err k => run_progA A va q = Err k
  end.
Proof.
  intros E F L Po. unfold run_prog, run_progA. pose proof (steps_close N (pr_steps q) n v va vm [] [] [] E F L (cd_nil N)) as H. destruct (run_steps v [] (pr_steps q)) as [d|k]; cbn [bind]; [|rewrite H; reflexivity].
  destruct H as (da & dm & -> & -> & D). cbn [bind]. destruct (pr_post q) as [f|]; cbn in Po.
  - destruct (close_keys _ _ _ _ D) as [Ka Km]. rewrite Ka, Km. assert (fine_t (post_t f (dkeys d)) = true) as Ff.
    { unfold fine_t, post_t. apply forallb_forall. intros [k e] I. apply in_map_iff in I. destruct I as (k' & [= <- <-] & _). apply Po. }
    pose proof (t_close N _ _ _ (env_with n v va vm d da dm N E D) (post_t f (dkeys d)) Ff) as H. destruct (eval_t (with_get v d) (post_t f (dkeys d))) as [r|k]; [|exact H].
    destruct H as (ra & rm & A1 & A2 & C). exists ra, rm. split; [exact A1|]. split; [exact A2|]. eapply close_dict_up; [|exact C]. clear - Po. unfold ops_t, post_t. induction (dkeys d) as [|k l IH]; cbn; [lia|]. pose proof (proj2 (Po k)). lia.
  - exists da, dm. split; [reflexivity|]. split; [reflexivity|]. eapply close_dict_up; eauto.
Qed.
End Err.
