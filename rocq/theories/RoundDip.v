(** Rounding of the formulas of wcxf/translators/wet.py that divide by m_b^2 - m_s^2: the EOS dipole coefficients (wet.py:821-846).
    The difference is computed once and for all and then treated as one more parameter, which has an error of its own. *)
From Coq Require Import String List Bool Arith ZArith Reals Lra Lia.
From Verif Require Import PyBase PyDict Cplx Tensor Wc Params Smeft WetExpr WetStr Wet WetJms WetNf Round RoundErr RoundWet.
Import ListNotations.
Open Scope string_scope.
Open Scope list_scope.
Open Scope R_scope.
#[local] Opaque Ceq_dec.

(** The divisor, and the name of the parameter that takes its place. *)
Definition gap : ex := XSub (XMul (XPar "m_b") (XPar "m_b")) (XMul (XPar "m_s") (XPar "m_s")).
Definition gap_name : string := "m_b^2 - m_s^2".
Fixpoint cut (e : ex) : ex :=
  if ex_eqb e gap then XPar gap_name else
  match e with
  | XRt a => XRt (cut a) | XNeg a => XNeg (cut a) | XConj a => XConj (cut a)
  | XAdd a b => XAdd (cut a) (cut b) | XSub a b => XSub (cut a) (cut b) | XMul a b => XMul (cut a) (cut b) | XDiv a b => XDiv (cut a) (cut b)
  | _ => e
  end.
Fixpoint no_gap (e : ex) : bool :=
  match e with
  | XPar s => negb (String.eqb s gap_name)
  | XRt a | XNeg a | XConj a => no_gap a
  | XAdd a b | XSub a b | XMul a b | XDiv a b => no_gap a && no_gap b
  | _ => true
  end.
Definition cut_t (t : tmpl) : tmpl := map (fun kx => (fst kx, cut (snd kx))) t.
Definition cut_p (q : prog) : prog := Prog (map (map cut_t) (pr_steps q)) (pr_post q).
Definition with_gap (v : env) (x : R) : env := Env (e_get v) (e_arr v) (dset (e_par v) gap_name x) (e_ckm v).

Section Cut.
Variables (A : arith) (x : R).
Lemma cut_eval v e : evalA A v gap = Ok (Some (RtoC x)) -> no_gap e = true -> evalA A (with_gap v x) (cut e) = evalA A v e.
Proof.
  intros G. assert (evalA A (with_gap v x) (XPar gap_name) = Ok (Some (RtoC x))) as D by (cbn [evalA with_gap e_par]; rewrite dget_dset_eq; reflexivity).
  induction e; cbn [no_gap]; intros N; try (apply andb_true_iff in N; destruct N as [N1 N2]; specialize (IHe1 N1); specialize (IHe2 N2)); try specialize (IHe N);
    cbn [cut]; match goal with |- context [ex_eqb ?a gap] => destruct (ex_eqb a gap) eqn:Q end;
    try (apply ex_eqb_eq in Q; rewrite Q, G; exact D); cbn [evalA]; try rewrite IHe; try rewrite IHe1, IHe2; try reflexivity.
  cbn [with_gap e_par]. rewrite dget_dset_neq; [reflexivity|]. intros E. subst s. rewrite String.eqb_refl in N. discriminate.
Qed.
Lemma gap_get v d : evalA A (with_get v d) gap = evalA A v gap.
Proof. reflexivity. Qed.
Lemma cut_tA v t : evalA A v gap = Ok (Some (RtoC x)) -> forallb (fun kx => no_gap (snd kx)) t = true -> eval_tA A (with_gap v x) (cut_t t) = eval_tA A v t.
Proof.
  intros G N. unfold eval_tA, mapM, cut_t. do 2 f_equal. rewrite map_map. apply map_ext_in. intros [k e] I. cbn [fst snd]. rewrite forallb_forall in N. rewrite (cut_eval v e G (N _ I)). reflexivity.
Qed.
Lemma cut_chain ts : forall v, evalA A v gap = Ok (Some (RtoC x)) -> forallb (forallb (fun kx => no_gap (snd kx))) ts = true -> run_chainA A (with_gap v x) (map cut_t ts) = run_chainA A v ts.
Proof.
  induction ts as [|t r IH]; intros v G N; cbn [run_chainA map]; [reflexivity|]. cbn in N. apply andb_true_iff in N. destruct N as [Nt Nr]. rewrite (cut_tA v t G Nt). destruct (eval_tA A v t) as [d|]; cbn [bind]; [|reflexivity].
  exact (IH (with_get v d) G Nr).
Qed.
Lemma cut_steps l : forall v acc, evalA A v gap = Ok (Some (RtoC x)) -> forallb (forallb (forallb (fun kx => no_gap (snd kx)))) l = true -> run_stepsA A (with_gap v x) acc (map (map cut_t) l) = run_stepsA A v acc l.
Proof.
  induction l as [|s r IH]; intros v acc G N; cbn [run_stepsA map]; [reflexivity|]. cbn in N. apply andb_true_iff in N. destruct N as [Ns Nr]. rewrite (cut_chain s v G Ns). destruct (run_chainA A v s); cbn [bind]; [|reflexivity]. apply IH; assumption.
Qed.
Lemma cut_run v q : evalA A v gap = Ok (Some (RtoC x)) -> forallb (forallb (forallb (fun kx => no_gap (snd kx)))) (pr_steps q) = true -> pr_post q = None ->
  run_progA A (with_gap v x) (cut_p q) = run_progA A v q.
Proof. intros G N P. unfold run_progA. cbn [cut_p pr_steps pr_post]. rewrite P, (cut_steps _ v [] G N). reflexivity. Qed.
End Cut.

(** ** The error of the difference *)
(** Subtracting reals gives a real. *)
Definition real_sub (A : arith) : Prop := forall x y, Im x = 0 -> Im y = 0 -> Im (f_sub A x y) = 0.
Lemma real_sub_exact : real_sub exactA.
Proof. intros x y X Y. cbn. unfold Csub. cbn. unfold Im in *. lra. Qed.
Lemma gap_exact v b s : dget (e_par v) "m_b" = Some b -> dget (e_par v) "m_s" = Some s -> eval v gap = Ok (Some (RtoC (b * b - s * s))).
Proof. intros B S. cbn. rewrite B, S. cbn. do 2 f_equal. unfold Csub, Cmul, RtoC, Re, Im. cbn. f_equal; ring. Qed.
Lemma near_R e x z : near e (RtoC x) (RtoC z) -> Rabs (x - z) <= e * Rabs z.
Proof. unfold near. replace (Csub (RtoC x) (RtoC z)) with (RtoC (x - z)) by (unfold Csub, RtoC; cbn; f_equal; ring). rewrite !Cabs_R. auto. Qed.
Lemma gap_rounded A eps kappa v b s : rounding A eps -> real_sub A -> dget (e_par v) "m_b" = Some b -> dget (e_par v) "m_s" = Some s ->
  b * b + s * s <= kappa * Rabs (b * b - s * s) ->
  exists x, evalA A v gap = Ok (Some (RtoC x)) /\ Rabs (x - (b * b - s * s)) <= 3 * kappa * eps * Rabs (b * b - s * s).
Proof.
  intros Rd Rs B S K. pose proof (r_eps A eps Rd) as E. destruct (r_mul A eps Rd (RtoC b) (RtoC b)) as [Nb Ib]. destruct (r_mul A eps Rd (RtoC s) (RtoC s)) as [Ns Is]. specialize (Ib eq_refl eq_refl). specialize (Is eq_refl eq_refl).
  pose proof (r_sub A eps Rd (f_mul A (RtoC b) (RtoC b)) (f_mul A (RtoC s) (RtoC s))) as Nd. pose proof (Rs _ _ Ib Is) as Id.
  cbn. rewrite B, S. cbn. set (y := f_mul A (RtoC b) (RtoC b)) in *. set (z := f_mul A (RtoC s) (RtoC s)) in *. set (w := f_sub A y z) in *.
  exists (Re w). split; [do 2 f_equal; apply real_of; exact Id|]. clearbody w y z.
  rewrite (real_of y Ib), (real_of z Is), (real_of w Id) in *. set (w0 := Re w) in *. set (y0 := Re y) in *. set (z0 := Re z) in *. clearbody w0 y0 z0. cbn [Re RtoC fst].
  rewrite <- !RtoC_mul in *. replace (Csub (RtoC y0) (RtoC z0)) with (RtoC (y0 - z0)) in Nd by (unfold Csub, RtoC; cbn; f_equal; ring).
  apply near_R in Nb, Ns, Nd. change (Re (RtoC w0)) with w0. rewrite (Rabs_right (b * b)) in Nb by (apply Rle_ge; nra). rewrite (Rabs_right (s * s)) in Ns by (apply Rle_ge; nra).
  set (b2 := b * b) in *. set (s2 := s * s) in *. assert (0 <= b2) by (unfold b2; nra). assert (0 <= s2) by (unfold s2; nra). clearbody b2 s2.
  set (g := Rabs (b2 - s2)) in *. assert (g <= b2 + s2) as Lg by (unfold g, Rabs; destruct (Rcase_abs _); lra). assert (0 <= g) as G0 by (unfold g; apply Rabs_pos).
  assert (Rabs ((y0 - z0) - (b2 - s2)) <= eps * (b2 + s2)) as D by (replace (y0 - z0 - (b2 - s2)) with ((y0 - b2) - (z0 - s2)) by ring; eapply Rle_trans; [apply Rabs_triang|]; rewrite Rabs_Ropp; lra).
  assert (Rabs (y0 - z0) <= g + eps * (b2 + s2)) as D2 by (replace (y0 - z0) with ((b2 - s2) + ((y0 - z0) - (b2 - s2))) by ring; eapply Rle_trans; [apply Rabs_triang|]; fold g; lra).
  replace (w0 - (b2 - s2)) with ((w0 - (y0 - z0)) + ((y0 - z0) - (b2 - s2))) by ring. eapply Rle_trans; [apply Rabs_triang|].
  assert (eps * Rabs (y0 - z0) <= eps * (g + eps * (b2 + s2))) by (apply Rmult_le_compat_l; lra). assert (eps * (eps * (b2 + s2)) <= eps * (1 * (b2 + s2))) by (apply Rmult_le_compat_l; [lra|]; apply Rmult_le_compat_r; lra).
  assert (eps * (b2 + s2) <= eps * (kappa * g)) by (apply Rmult_le_compat_l; lra). assert (eps * g <= eps * (b2 + s2)) by (apply Rmult_le_compat_l; lra). lra.
Qed.
(** Other masses instead of rounding. *)
Lemma gap_moved eps kappa b s b' s' : 0 <= eps < 1 -> Rabs (b' - b) <= eps * Rabs b -> Rabs (s' - s) <= eps * Rabs s -> b * b + s * s <= kappa * Rabs (b * b - s * s) ->
  Rabs ((b' * b' - s' * s') - (b * b - s * s)) <= 3 * kappa * eps * Rabs (b * b - s * s).
Proof.
  intros E B S K. assert (forall x x', Rabs (x' - x) <= eps * Rabs x -> Rabs (x' * x' - x * x) <= 3 * eps * (x * x)) as Q.
  { intros x x' H. replace (x' * x' - x * x) with ((x' - x) * (x' - x) + 2 * (x * (x' - x))) by ring. eapply Rle_trans; [apply Rabs_triang|]. rewrite !Rabs_mult, (Rabs_right 2) by lra.
    assert (x * x = Rabs x * Rabs x) as -> by (rewrite <- Rabs_mult; symmetry; apply Rabs_right, Rle_ge; nra). pose proof (Rabs_pos x). pose proof (Rabs_pos (x' - x)).
    assert (Rabs (x' - x) * Rabs (x' - x) <= eps * Rabs x * (eps * Rabs x)) by (apply Rmult_le_compat; assumption). assert (Rabs x * Rabs (x' - x) <= Rabs x * (eps * Rabs x)) by (apply Rmult_le_compat_l; assumption).
    assert (eps * Rabs x * (eps * Rabs x) <= eps * (Rabs x * Rabs x)) by (replace (eps * Rabs x * (eps * Rabs x)) with (eps * eps * (Rabs x * Rabs x)) by ring; apply Rmult_le_compat_r; [apply Rmult_le_pos; assumption|nra]). lra. }
  pose proof (Q b b' B). pose proof (Q s s' S). replace (b' * b' - s' * s' - (b * b - s * s)) with ((b' * b' - b * b) - (s' * s' - s * s)) by ring. eapply Rle_trans; [apply Rabs_triang|]. rewrite Rabs_Ropp.
  assert (eps * (b * b + s * s) <= eps * (kappa * Rabs (b * b - s * s))) by (apply Rmult_le_compat_l; lra). lra.
Qed.

(** ** Programs *)
(** Exact on [v], with [A] on [va]. *)
Lemma gap_close eps A o cv ca P q v va b s x : 0 <= eps < 1 -> errs eps A o -> fits o 1 cv ca 0 P (Ok (cut_p q)) ->
  forallb (forallb (forallb (fun kx => no_gap (snd kx)))) (pr_steps q) = true -> pr_post q = None ->
  close_env eps 1 cv ca 0 v va v -> dget (e_par v) "m_b" = Some b -> dget (e_par v) "m_s" = Some s ->
  evalA A va gap = Ok (Some (RtoC x)) -> Rabs (x - (b * b - s * s)) <= eps * Rabs (b * b - s * s) ->
  agrees eps P (run_prog v q) (run_progA A va q) (run_progA sizeA (with_gap v (b * b - s * s)) (cut_p q)).
Proof.
  intros E Rd F N Po (C1 & C2 & C3 & C4 & _) B S G L. pose proof (gap_exact v b s B S) as Ge. rewrite <- exact_eval in Ge. rewrite <- exact_prog.
  rewrite <- (cut_run exactA _ v q Ge N Po), <- (cut_run A x va q G N Po), exact_prog.
  refine (run_close eps A o 1 cv ca E Rd 0 P (Ok (cut_p q)) (with_gap v (b * b - s * s)) (with_gap va x) (with_gap v (b * b - s * s)) F _).
  split; [exact C1|]. split; [exact C2|]. split; [|split; [exact C4|auto]]. intros k. cbn [with_gap e_par].
  destruct (string_dec k gap_name) as [->|D]; [rewrite !dget_dset_eq; destruct (near_factorR eps E _ _ L) as (f & Ff & ->); exists f; split; [apply facR_1, Ff|reflexivity]|].
  rewrite !dget_dset_neq by congruence. apply C3.
Qed.
