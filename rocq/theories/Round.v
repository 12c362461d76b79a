(** Rounding.  The formulas of wcxf/translators/wet.py evaluated in an arithmetic whose operations are only accurate up to a
    relative error, compared with their exact values ([WetExpr.eval]). *)
From Coq Require Import String Ascii List Bool Arith ZArith Reals Lra Lia Psatz.
From Verif Require Import PyBase PyDict Cplx Tensor Params WetExpr.
Import ListNotations.
Open Scope string_scope.
Open Scope list_scope.
Open Scope R_scope.
#[local] Opaque Ceq_dec.

(** ** Absolute values *)
Lemma Cabs_ge0 z : 0 <= Cabs z.
Proof. apply sqrt_pos. Qed.
Lemma Cabs_sq z : Cabs z * Cabs z = fst z * fst z + snd z * snd z.
Proof. unfold Cabs. apply sqrt_sqrt. nra. Qed.
Lemma abs_eq a b : 0 <= a -> 0 <= b -> a * a = b * b -> a = b.
Proof. intros. nra. Qed.
Lemma abs_le a b : 0 <= a -> 0 <= b -> a * a <= b * b -> a <= b.
Proof. intros. nra. Qed.
Lemma Cabs_mul x y : Cabs (Cmul x y) = Cabs x * Cabs y.
Proof.
  apply abs_eq; [apply Cabs_ge0|apply Rmult_le_pos; apply Cabs_ge0|]. rewrite Cabs_sq.
  replace (Cabs x * Cabs y * (Cabs x * Cabs y)) with ((Cabs x * Cabs x) * (Cabs y * Cabs y)) by ring. rewrite !Cabs_sq. destruct x, y; cbn; ring.
Qed.
Lemma Cabs_add x y : Cabs (Cadd x y) <= Cabs x + Cabs y.
Proof.
  pose proof (Cabs_ge0 x). pose proof (Cabs_ge0 y). apply abs_le; [apply Cabs_ge0|lra|]. rewrite Cabs_sq.
  replace ((Cabs x + Cabs y) * (Cabs x + Cabs y)) with (Cabs x * Cabs x + Cabs y * Cabs y + 2 * (Cabs x * Cabs y)) by ring. rewrite !Cabs_sq.
  assert (fst x * fst y + snd x * snd y <= Cabs x * Cabs y) as K; [|destruct x, y; cbn in *; lra].
  apply Rle_trans with (Rabs (fst x * fst y + snd x * snd y)); [apply Rle_abs|]. apply abs_le; [apply Rabs_pos|apply Rmult_le_pos; assumption|].
  replace (Cabs x * Cabs y * (Cabs x * Cabs y)) with ((Cabs x * Cabs x) * (Cabs y * Cabs y)) by ring. rewrite !Cabs_sq.
  rewrite <- Rabs_mult, (Rabs_right (_ * _)) by (apply Rle_ge, Rle_0_sqr). destruct x as [a b], y as [c d]; cbn. pose proof (Rle_0_sqr (a * d - b * c)) as S. unfold Rsqr in S. nra.
Qed.
Lemma Cabs_neg x : Cabs (Cneg x) = Cabs x.
Proof. unfold Cabs. f_equal. destruct x; cbn; ring. Qed.
Lemma Cabs_conj x : Cabs (Cconj x) = Cabs x.
Proof. unfold Cabs. f_equal. destruct x; cbn; ring. Qed.
Lemma Cabs_sub x y : Cabs (Csub x y) <= Cabs x + Cabs y.
Proof. replace (Csub x y) with (Cadd x (Cneg y)) by ring. rewrite <- (Cabs_neg y). apply Cabs_add. Qed.
Lemma Cabs_zero x : Cabs x = 0 -> x = C0.
Proof. intros E. pose proof (Cabs_sq x) as S. rewrite E in S. destruct x as [a b]; cbn in S. assert (a = 0) by nra. assert (b = 0) by nra. subst. reflexivity. Qed.
Lemma Cabs_C0 : Cabs C0 = 0.
Proof. exact Cabs_0. Qed.
Lemma Cabs_1 : Cabs C1 = 1.
Proof. change C1 with (RtoC 1). rewrite Cabs_R. apply Rabs_R1. Qed.
Lemma Cabs_pos0 x : x <> C0 -> 0 < Cabs x.
Proof. intros N. destruct (Cabs_ge0 x) as [H|H]; [exact H|]. exfalso. apply N, Cabs_zero. auto. Qed.
Lemma Cabs_inv x : x <> C0 -> Cabs (Cinv x) = / Cabs x.
Proof.
  intros N. pose proof (Cabs_pos0 x N) as P. assert (Cabs (Cinv x) * Cabs x = 1) as E by (rewrite <- Cabs_mul, Cinv_l by exact N; exact Cabs_1).
  apply Rmult_eq_reg_r with (Cabs x); [rewrite E; field; lra|lra].
Qed.
Lemma Cabs_div x y : y <> C0 -> Cabs (Cdiv x y) = Cabs x / Cabs y.
Proof. intros N. unfold Cdiv. rewrite Cabs_mul, Cabs_inv by exact N. reflexivity. Qed.
Lemma C1_neq_C0 : C1 <> C0.
Proof. intros E. injection E as E. lra. Qed.
Lemma Cmul_neq x y : x <> C0 -> y <> C0 -> Cmul x y <> C0.
Proof. intros X Y E. apply Cabs_pos0 in X. apply Cabs_pos0 in Y. assert (Cabs (Cmul x y) = 0) as Z by (rewrite E; exact Cabs_0). rewrite Cabs_mul in Z. nra. Qed.
Lemma Cinv_neq x : x <> C0 -> Cinv x <> C0.
Proof. intros X E. apply C1_neq_C0. rewrite <- (Cinv_l x X), E. ring. Qed.

(** ** Arithmetic *)
(** The operations of one arithmetic: the value of a number in the source, [math.pi], [math.sqrt], and the four operators. *)
Record arith := Arith { f_q : Z -> positive -> C; f_pi : C; f_rt : R -> R; f_add : C -> C -> C; f_sub : C -> C -> C; f_mul : C -> C -> C; f_div : C -> C -> C }.
Section Eval.
Variable A : arith.
(** As [WetExpr.eval], with the operations of [A]; negation and conjugation change only signs. *)
Fixpoint evalA (v : env) (e : ex) : res cval :=
  match e with
  | XQ n d => Ok (Some (f_q A n d))
  | XPi => Ok (Some (f_pi A))
  | XRt a => let! x := evalA v a in
             match x with
             | None => Ok None
             | Some z => if Req_EM_T (Im z) 0 then if Rlt_dec (Re z) 0 then Err ValueError else Ok (Some (RtoC (f_rt A (Re z))))
                         else Err TypeError
             end
  | XPar s => match dget (e_par v) s with Some r => Ok (Some (RtoC r)) | None => Err KeyError end
  | XV i j => Ok (Some (e_ckm v i j))
  | XGet k => dlookup (e_get v) k
  | XArr op x => let! a := dlookup (e_arr v) op in
                 if Nat.eqb (length x) (n_rank a) then Ok (n_ent a x) else Err IndexError
  | XNeg a => let! x := evalA v a in Ok (match x with Some z => Some (Cneg z) | None => None end)
  | XAdd a b => let! x := evalA v a in let! y := evalA v b in Ok (lift2 (f_add A) x y)
  | XSub a b => let! x := evalA v a in let! y := evalA v b in Ok (lift2 (f_sub A) x y)
  | XMul a b => let! x := evalA v a in let! y := evalA v b in Ok (lift2 (f_mul A) x y)
  | XDiv a b => let! x := evalA v a in let! y := evalA v b in
                match y with
                | None => Ok None
                | Some w => if Ceq_dec w C0 then Err ZeroDivisionError else Ok (lift2 (f_div A) x y)
                end
  | XConj a => let! x := evalA v a in Ok (conjv x)
  end.
(** [WetExpr.eval_t], [run_chain], [run_steps], [run_prog] with the operations of [A]. *)
Definition eval_tA (v : env) (t : tmpl) : res (dict string cval) :=
  rmap dict_of (mapM (fun kx => let! x := evalA v (snd kx) in Ok (fst kx, x)) t).
Fixpoint run_chainA (v : env) (ts : list tmpl) : res (dict string cval) :=
  match ts with
  | [] => Ok (e_get v)
  | t :: r => let! d := eval_tA v t in run_chainA (with_get v d) r
  end.
Fixpoint run_stepsA (v : env) (acc : dict string cval) (l : list (list tmpl)) : res (dict string cval) :=
  match l with
  | [] => Ok acc
  | s :: r => let! d := run_chainA v s in run_stepsA v (dupdate acc d) r
  end.
Definition run_progA (v : env) (q : prog) : res (dict string cval) :=
  let! d := run_stepsA v [] (pr_steps q) in
  match pr_post q with
  | None => Ok d
  | Some f => eval_tA (with_get v d) (post_t f (dkeys d))
  end.
End Eval.

Definition exactA : arith := Arith qc (RtoC PI) sqrt Cadd Csub Cmul Cdiv.
Lemma exact_eval v e : evalA exactA v e = eval v e.
Proof. induction e; cbn [evalA eval]; try rewrite IHe; try rewrite IHe1, IHe2; reflexivity. Qed.
Lemma exact_t v t : eval_tA exactA v t = eval_t v t.
Proof. reflexivity. Qed.
Lemma exact_chain ts : forall v, run_chainA exactA v ts = run_chain v ts.
Proof. induction ts as [|t r IH]; intros v; cbn; [reflexivity|]. rewrite exact_t. destruct (eval_t v t); cbn; [apply IH|reflexivity]. Qed.
Lemma exact_steps l : forall v acc, run_stepsA exactA v acc l = run_steps v acc l.
Proof. induction l as [|s r IH]; intros v acc; cbn; [reflexivity|]. rewrite exact_chain. destruct (run_chain v s); cbn; [apply IH|reflexivity]. Qed.
Lemma exact_prog v q : run_progA exactA v q = run_prog v q.
Proof. unfold run_progA, run_prog. rewrite exact_steps. destruct (run_steps v [] (pr_steps q)); cbn; [|reflexivity]. destruct (pr_post q); [apply exact_t|reflexivity]. Qed.

(** The same formulas with all terms counted as positive: the size against which errors are measured. *)
Definition sizeA : arith :=
  Arith (fun n d => RtoC (Cabs (qc n d))) (RtoC PI) (fun x => sqrt (Rabs x)) (fun x y => RtoC (Cabs x + Cabs y)) (fun x y => RtoC (Cabs x + Cabs y))
        (fun x y => RtoC (Cabs x * Cabs y)) (fun x y => RtoC (Cabs x / Cabs y)).

(** Arithmetic with relative error [eps] in every operation; operations on reals give reals. *)
Definition near (eps : R) (x exact : C) : Prop := Cabs (Csub x exact) <= eps * Cabs exact.
Record rounding (A : arith) (eps : R) : Prop := Rounding {
  r_eps : 0 <= eps < 1;
  r_q : forall n d, near eps (f_q A n d) (qc n d) /\ Im (f_q A n d) = 0;
  r_pi : near eps (f_pi A) (RtoC PI) /\ Im (f_pi A) = 0;
  r_rt : forall x, 0 <= x -> Rabs (f_rt A x - sqrt x) <= eps * sqrt x;
  r_add : forall x y, near eps (f_add A x y) (Cadd x y);
  r_sub : forall x y, near eps (f_sub A x y) (Csub x y);
  r_mul : forall x y, near eps (f_mul A x y) (Cmul x y) /\ (Im x = 0 -> Im y = 0 -> Im (f_mul A x y) = 0);
  r_div : forall x y, y <> C0 -> near eps (f_div A x y) (Cdiv x y) /\ (Im x = 0 -> Im y = 0 -> Im (f_div A x y) = 0) }.
Lemma rounding_exact : rounding exactA 0.
Proof.
  assert (forall x, near 0 x x) as N by (intros x; unfold near; replace (Csub x x) with C0 by ring; rewrite Cabs_0; lra).
  constructor; cbn [f_q f_pi f_rt f_add f_sub f_mul f_div exactA]; intros; try (split; [apply N|]); try apply N; try reflexivity.
  - lra.
  - replace (sqrt x - sqrt x) with 0 by ring. rewrite Rabs_R0. lra.
  - intros X Y. destruct x as [a b], y as [c d]; cbn in *. subst. ring.
  - intros X Y. destruct x as [a b], y as [c d]; cbn in *. subst. unfold Rdiv. ring.
Qed.
