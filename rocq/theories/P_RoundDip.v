(** C76, C77: all coefficients of the EOS basis, with the dipole coefficients, which are divided by m_b^2 - m_s^2. *)
From Coq Require Import String List Bool Arith ZArith Reals Lra Lia.
From Verif Require Import PyBase PyDict Cplx Tensor Wc Params Smeft WetExpr Wet WetJms WetNf WetSpec WetChk WetThm WetVals WetList WetAux WetNames Round RoundErr RoundWet RoundArith RoundDip P_Wet P_Round P_Sens.
Import ListNotations.
Open Scope string_scope.
Open Scope list_scope.
Open Scope R_scope.

Definition EOSq : prog := prog0 JMS_to_EOS_prog.
Lemma EOSq_ok : JMS_to_EOS_prog = Ok EOSq.
Proof. assert (match JMS_to_EOS_prog with Ok _ => true | _ => false end = true) as H by (vm_compute; reflexivity). unfold EOSq. destruct JMS_to_EOS_prog; [reflexivity|discriminate]. Qed.
Lemma EOSq_post : pr_post EOSq = None. Proof. vm_compute. reflexivity. Qed.
Lemma EOSq_fresh : forallb (forallb (forallb (fun kx => no_gap (snd kx)))) (pr_steps EOSq) = true. Proof. vm_compute. reflexivity. Qed.
Lemma fits_dip : fits 1 1 0 0 0 32 (Ok (cut_p EOSq)) /\ fits 0 1 1 1 0 7 (Ok (cut_p EOSq)).
Proof. split; apply fits_none; vm_compute; reflexivity. Qed.
Lemma lin_dip : forallb (forallb lin_t) (pr_steps (cut_p EOSq)) = true. Proof. vm_compute. reflexivity. Qed.
#[local] Opaque EOSq JMS_to_EOS_prog.

(** [kappa] says how much of m_b^2 and m_s^2 cancels in their difference: it is 1 if one of the masses is 0, and large if they are nearly equal. *)
Definition cancels (kappa : R) (p : params) : Prop :=
  param p "m_b" * param p "m_b" + param p "m_s" * param p "m_s" <= kappa * Rabs (param p "m_b" * param p "m_b" - param p "m_s" * param p "m_s").
Lemma rounding_up A e e' : rounding A e -> e <= e' < 1 -> rounding A e'.
Proof.
  intros [E Q Pi Rt Ad Su Mu Di] L. assert (forall x z, near e x z -> near e' x z) as N by (intros x z H; unfold near in *; pose proof (Cabs_ge0 z); eapply Rle_trans; [exact H|]; apply Rmult_le_compat_r; lra).
  constructor; [lra| | | | | | |].
  - intros n d. split; [apply N, Q|apply Q].
  - split; [apply N, Pi|apply Pi].
  - intros x X. eapply Rle_trans; [apply Rt, X|]. apply Rmult_le_compat_r; [apply sqrt_pos|lra].
  - auto.
  - auto.
  - intros x y. split; [apply N, Mu|apply Mu].
  - intros x y Y. split; [apply N, Di, Y|apply Di, Y].
Qed.

Section Dip.
Variable ckm_tree : R -> R -> R -> R -> mat.
Variable qcd_mb qcd_ms : R -> R -> R -> res R.
Variable qcd_as : R -> R -> res R.
Variables (J : list string) (scale : R) (input : option params) (p : params).
Notation to_EOS := (to_EOS ckm_tree qcd_mb qcd_ms qcd_as J scale input).
(** The translator with the arithmetic [A]. *)
Definition to_EOSA (A : arith) : translator := fun c => from_JMSA ckm_tree qcd_mb qcd_ms qcd_as A JMS_to_EOS_prog J c scale input.
Hypothesis J_good : good J.
Hypothesis p_ok : okp ckm_tree qcd_mb qcd_ms qcd_as scale input p.
Notation b := (param p "m_b").
Notation s := (param p "m_s").
Let V := ckm_of ckm_tree p.
Let got k : In k used -> dget p k = Some (param p k).
Proof. intros I. destruct (get_parameters_used qcd_mb qcd_ms qcd_as scale input p k (proj1 p_ok) I) as [r E]. unfold param. rewrite E. reflexivity. Qed.
Let got_b : dget p "m_b" = Some b.
Proof. apply got. left. reflexivity. Qed.
Let got_s : dget p "m_s" = Some s.
Proof. apply got. right. left. reflexivity. Qed.
Lemma kappa_ge kappa : cancels kappa p -> light p /\ 1 <= kappa.
Proof.
  unfold cancels, light. intros K. pose proof (proj2 p_ok) as (_ & _ & _ & B & _). assert (0 < b * b) by nra. assert (0 <= s * s) by nra. set (b2 := b * b) in *. set (s2 := s * s) in *. clearbody b2 s2.
  assert (Rabs (b2 - s2) <= b2 + s2) as L by (unfold Rabs; destruct (Rcase_abs _); lra). pose proof (Rabs_pos (b2 - s2)). split.
  - intros E. rewrite E, Rminus_eq_0, Rabs_R0 in K. lra.
  - destruct (Rle_lt_dec 1 kappa) as [|Lk]; [assumption|]. assert (kappa * Rabs (b2 - s2) <= 1 * Rabs (b2 - s2)) by (apply Rmult_le_compat_r; lra). assert (kappa * Rabs (b2 - s2) < b2 + s2 \/ Rabs (b2 - s2) = 0) as [?|Z] by nra; [lra|]. rewrite Z in K. lra.
Qed.
(** Sizes of the results for the coefficients [c]. *)
Let sizes (c : dict string cval) : res (dict string cval) :=
  let! a := JMS_to_array J c in run_progA sizeA (with_gap (Env [] a p V) (b * b - s * s)) (cut_p EOSq).
Let sizes_le M c c1 : 0 <= M -> le_dict (lev M) (fill J c) (fill J c1) -> both M (sizes c) (sizes c1).
Proof.
  intros M0 L. unfold sizes. pose proof (arrays_le (lev M) (lev_none M) I (lev_conj M) J c c1 L) as Q. destruct (JMS_to_array J c), (JMS_to_array J c1); cbn [bind]; try contradiction; [|exact Q].
  apply size_prog_le; [|exact lin_dip|rewrite (EOSq_post : pr_post (cut_p EOSq) = None); exact I]. repeat split; [constructor|exact Q].
Qed.
Let run_EOS c : from_JMS ckm_tree qcd_mb qcd_ms qcd_as JMS_to_EOS_prog J c scale input = let! a := JMS_to_array J c in run_prog (Env [] a p V) EOSq.
Proof. unfold from_JMS. rewrite (proj1 p_ok). cbn [bind]. destruct (JMS_to_array J c); cbn [bind]; [|reflexivity]. rewrite EOSq_ok. reflexivity. Qed.
Let total_EOS : light p -> forall c, exists o, to_EOS (nums c) = Ok (nums o).
Proof.
  intros L c. destruct (C35_same_names ckm_tree qcd_mb qcd_ms qcd_as J (names bern) (names flavio) scale input p J_good (conj bern_nodup bern_read_in) (conj flavio_nodup flavio_read_in) p_ok) as (_ & _ & _ & Y & _).
  destruct (proj1 (Y L) c) as (o & E & _). eauto.
Qed.
(** Other coefficients [c'], parameters [p'] and CKM matrix [V'] and the arithmetic [A]; [x] is the difference that comes out. *)
Let agree eps A o cv ca P c c' p' V' x : 0 <= eps < 1 -> errs eps A o -> fits o 1 cv ca 0 P (Ok (cut_p EOSq)) ->
  close_par eps 1 p p' -> close_ckm eps cv V V' -> le_dict (near_by eps ca) (fill J c) (fill J c') ->
  (forall a, evalA A (Env [] a p' V') gap = Ok (Some (RtoC x))) -> Rabs (x - (b * b - s * s)) <= eps * Rabs (b * b - s * s) ->
  agrees eps P (to_EOS c) (let! a := JMS_to_array J c' in run_progA A (Env [] a p' V') EOSq) (sizes c).
Proof.
  intros E Rd F Cp Cv Cc G L. unfold P_Wet.to_EOS, JMS_to_EOS. rewrite run_EOS. unfold sizes.
  pose proof (arrays_le (near_by eps ca) (nb_none ckm_tree qcd_mb qcd_ms qcd_as eps ca E) I (nb_conj eps ca) J c c' Cc) as Q. destruct (JMS_to_array J c) as [a|k], (JMS_to_array J c') as [a'|k']; cbn [bind]; try contradiction; [|cbn; f_equal; auto].
  refine (gap_close eps A o cv ca P EOSq (Env [] a p V) (Env [] a' p' V') b s x E Rd F EOSq_fresh EOSq_post _ got_b got_s (G a') L).
  split; [constructor|]. split; [apply arrs_close, Q|]. auto.
Qed.
Let par_same eps : 0 <= eps < 1 -> close_par eps 1 p p.
Proof. intros E. apply par_moved; [exact E|]. intros k. destruct (dget p k) as [y|]; [|reflexivity]. exists y. split; [reflexivity|]. rewrite Rminus_eq_0, Rabs_R0. pose proof (Rabs_pos y). apply Rmult_le_pos; lra. Qed.
(** A bound that does not depend on the coefficients. *)
Let bound : light p -> exists K, forall eps n c M ra, 0 <= eps < 1 -> largest c M -> agrees eps n (to_EOS (nums c)) ra (sizes (nums c)) ->
  exists o oa, to_EOS (nums c) = Ok (nums o) /\ ra = Ok (nums oa) /\ differ_by (growth eps n * (K * M)) o oa.
Proof.
  intros L. destruct (total_EOS L (ones J)) as (o1 & E1). assert (0 <= 0 < 1) as E0 by lra.
  pose proof (agree 0 exactA 1%nat 0%nat 0%nat 32%nat (nums (ones J)) (nums (ones J)) p V (b * b - s * s) E0 (or_introl (conj eq_refl rounding_exact)) (proj1 fits_dip) (par_same 0 E0) (ckm_refl 0 V) (le_refl _ (nb_refl 0 0 E0) _)
    (fun a => eq_trans (exact_eval _ _) (gap_exact (Env [] a p V) b s got_b got_s)) ltac:(rewrite Rminus_eq_0, Rabs_R0; lra)) as H.
  rewrite E1 in H. destruct (agrees_nums _ _ _ _ _ H) as (_ & s1 & _ & S1 & _).
  exists (total s1). intros eps n c M ra E Lg Ag. destruct (total_EOS L c) as (o & Eo). rewrite Eo in Ag. destruct (agrees_nums _ _ _ _ _ Ag) as (oa & om & Ea & Em & K & D).
  exists o, oa. split; [exact Eo|]. split; [exact Ea|]. split; [exact K|]. intros k. eapply Rle_trans; [apply D|]. apply Rmult_le_compat_l; [apply growth_pos, E|]. pose proof (largest_pos c M Lg) as M0.
  pose proof (sizes_le M (nums c) (nums (ones J)) M0 (ones_le M J c Lg)) as Q. rewrite Em, S1 in Q. pose proof (ld_num M om s1 M0 Q k). pose proof (total_num s1 k). pose proof (Cabs_ge0 (num_of s1 k)). nra.
Qed.

(** Rounding: the constant [K] depends on the parameters only. *)
Theorem C76_EOS_uniform : light p -> exists K, forall kappa A eps c M, cancels kappa p -> rounding A eps -> real_sub A -> 3 * kappa * eps < 1 -> largest c M ->
  exists o oa, to_EOS (nums c) = Ok (nums o) /\ to_EOSA A (nums c) = Ok (nums oa) /\ differ_by (growth (3 * kappa * eps) 32 * (K * M)) o oa.
Proof.
  intros Li. destruct (bound Li) as [K H]. exists K. intros kappa A eps c M Ca Rd Rs Sm Lg. destruct (kappa_ge kappa Ca) as [_ K1]. pose proof (r_eps A eps Rd) as E. assert (eps <= 3 * kappa * eps) as Up by nra. assert (0 <= 3 * kappa * eps < 1) as E' by lra.
  apply (H _ 32%nat c M); [exact E'|exact Lg|]. unfold to_EOSA, from_JMSA. rewrite (proj1 p_ok). cbn [bind]. 
  assert ((let! a := JMS_to_array J (nums c) in let! q := JMS_to_EOS_prog in run_progA A (Env [] a p (ckm_of ckm_tree p)) q) = (let! a := JMS_to_array J (nums c) in run_progA A (Env [] a p V) EOSq)) as -> by (rewrite EOSq_ok; reflexivity).
  destruct (gap_rounded A eps kappa (Env [] [] p V) b s Rd Rs got_b got_s Ca) as (x & Gx & Lx).
  exact (agree (3 * kappa * eps) A 1%nat 0%nat 0%nat 32%nat (nums c) (nums c) p V x E' (or_introl (conj eq_refl (rounding_up A eps _ Rd (conj Up (proj2 E'))))) (proj1 fits_dip) (par_same _ E') (ckm_refl _ V) (le_refl _ (nb_refl _ 0 E') _) (fun a => Gx) Lx).
Qed.
(** Other parameters and coefficients. *)
Theorem C77_EOS_uniform : light p -> exists K, forall kappa eps c c' M ckm_tree' qcd_mb' qcd_ms' qcd_as' scale' input', cancels kappa p ->
  nearby ckm_tree p eps c c' ckm_tree' qcd_mb' qcd_ms' qcd_as' scale' input' -> 3 * kappa * eps < 1 -> largest c M ->
  exists o o', to_EOS (nums c) = Ok (nums o) /\ P_Wet.to_EOS ckm_tree' qcd_mb' qcd_ms' qcd_as' J scale' input' (nums c') = Ok (nums o') /\
    differ_by (growth (3 * kappa * eps) 7 * (K * M)) o o'.
Proof.
  intros Li. destruct (bound Li) as [K H]. exists K. intros kappa eps c c' M V0 f g h sc inp Ca (E & Mc & p' & Ep & Mp & Mv) Sm Lg. destruct (kappa_ge kappa Ca) as [_ K1]. assert (eps <= 3 * kappa * eps) as Up by nra. assert (0 <= 3 * kappa * eps < 1) as E' by lra.
  apply (H _ 7%nat c M); [exact E'|exact Lg|]. unfold P_Wet.to_EOS, JMS_to_EOS. rewrite <- (from_JMS_exact V0 f g h). unfold from_JMSA. rewrite Ep. cbn [bind].
  assert ((let! a := JMS_to_array J (nums c') in let! q := JMS_to_EOS_prog in run_progA exactA (Env [] a p' (ckm_of V0 p')) q) = (let! a := JMS_to_array J (nums c') in run_progA exactA (Env [] a p' (ckm_of V0 p')) EOSq)) as -> by (rewrite EOSq_ok; reflexivity).
  pose proof (Mp "m_b") as Mb. rewrite got_b in Mb. destruct Mb as (b' & Gb & Lb). pose proof (Mp "m_s") as Ms. rewrite got_s in Ms. destruct Ms as (s' & Gs & Ls).
  assert (moved (3 * kappa * eps) p p') as Mp'. { intros k. specialize (Mp k). destruct (dget p k) as [y|]; [|exact Mp]. destruct Mp as (y' & Gy & Ly). exists y'. split; [exact Gy|]. pose proof (Rabs_pos y). eapply Rle_trans; [exact Ly|]. apply Rmult_le_compat_r; lra. }
  assert (moved_ckm (3 * kappa * eps) V (ckm_of V0 p')) as Mv'. { intros i j. pose proof (Cabs_ge0 (V i j)). eapply Rle_trans; [apply Mv|]. apply Rmult_le_compat_r; [exact (Cabs_ge0 _)|lra]. }
  assert (moved_coefs (3 * kappa * eps) (nums c) (nums c')) as Mc'. { intros k. specialize (Mc k). destruct (dget (nums c) k) as [[z|]|]; try exact Mc. destruct Mc as (z' & Gz & Lz). exists z'. split; [exact Gz|]. eapply Rle_trans; [exact Lz|]. apply Rmult_le_compat_r; [apply Cabs_ge0|lra]. }
  exact (agree (3 * kappa * eps) exactA 0%nat 1%nat 1%nat 7%nat (nums c) (nums c') p' (ckm_of V0 p') (b' * b' - s' * s') E' (or_intror (conj eq_refl rounding_exact)) (proj2 fits_dip) (par_moved _ _ _ E' Mp') (ckm_moved _ _ _ E' Mv') (coefs_moved _ J _ _ E' Mc')
    (fun a => eq_trans (exact_eval _ _) (gap_exact (Env [] a p' (ckm_of V0 p')) b' s' Gb Gs)) (gap_moved eps kappa b s b' s' E Lb Ls Ca)).
Qed.
End Dip.
(** Python's complex arithmetic gives real differences of reals. *)
Theorem C76_real_sub : forall rnd, (forall x, Rabs (rnd x - x) <= / 2 ^ 53 * Rabs x) -> real_sub (floatA rnd).
Proof.
  intros rnd H x y X Y. cbn. unfold csub, Im in *. cbn [snd]. rewrite X, Y, Rminus_eq_0. apply (rnd_0 rnd (/ 2 ^ 53)), H.
Qed.

(** m_b = 4 and m_s = 1. *)
Lemma p1_cancels : cancels (17 / 15) p1 /\ light p1.
Proof. unfold cancels, light. assert (param p1 "m_b" = 4) as -> by reflexivity. assert (param p1 "m_s" = 1) as -> by reflexivity. rewrite Rabs_right by lra. lra. Qed.
Definition dip_coef : dict string C := [("dgamma_23", Ci)].
Lemma dip_largest : largest dip_coef 1.
Proof. intros k. unfold num_of, dip_coef. cbn. destruct (keqb k "dgamma_23"); [unfold Cabs; cbn; replace (0 * 0 + 1 * 1) with 1 by ring; rewrite sqrt_1; lra|rewrite Cabs_0; lra]. Qed.
Example C76_EOS_case : good J0 /\ okp ckm1 mb4 ms1 as1 5 None p1 /\ light p1 /\ cancels (17 / 15) p1 /\ rounding (floatA up) (11 * / 2 ^ 53) /\ real_sub (floatA up) /\ 3 * (17 / 15) * (11 * / 2 ^ 53) < 1 /\
  largest dip_coef 1 /\ exists o oa, to_EOS ckm1 mb4 ms1 as1 J0 5 None (nums dip_coef) = Ok (nums o) /\ to_EOSA ckm1 mb4 ms1 as1 J0 5 None (floatA up) (nums dip_coef) = Ok (nums oa).
Proof.
  assert (0 < / 2 ^ 53 <= / 1000000) as U by (split; [apply Rinv_0_lt_compat, pow_lt; lra|apply Rinv_le_contravar; lra]).
  assert (forall x, Rabs (up x - x) <= / 2 ^ 53 * Rabs x) as H by (intros x; unfold up; replace (x * (1 + / 2 ^ 53) - x) with (/ 2 ^ 53 * x) by ring; rewrite Rabs_mult, (Rabs_right (/ 2 ^ 53)) by lra; lra).
  pose proof (proj1 (C76_double up H)) as Rd. pose proof (C76_real_sub up H) as Rs. destruct p1_cancels as [Ca Li]. assert (3 * (17 / 15) * (11 * / 2 ^ 53) < 1) as Sm by (set (u := / 2 ^ 53) in *; clearbody u; lra).
  split; [exact J0_good|]. split; [exact p1_ok|]. split; [exact Li|]. split; [exact Ca|]. split; [exact Rd|]. split; [exact Rs|]. split; [exact Sm|]. split; [exact dip_largest|].
  destruct (C76_EOS_uniform ckm1 mb4 ms1 as1 J0 5 None p1 J0_good p1_ok Li) as [K B]. destruct (B (17 / 15) _ _ dip_coef 1 Ca Rd Rs Sm dip_largest) as (o & oa & E & Ea & _). exists o, oa. exact (conj E Ea).
Qed.
Example C77_EOS_case : let c := [("VddLL_1213", Ci)] in let c' := [("VddLL_1213", Cmul Ci (RtoC (1 + / 100)))] in
  good J0 /\ okp ckm1 mb4 ms1 as1 5 None p1 /\ light p1 /\ cancels (17 / 15) p1 /\ nearby ckm1 p1 (/ 100) c c' ckm101 mb404 ms1 as1 5 None /\ 3 * (17 / 15) * / 100 < 1 /\ largest c 1 /\
  exists o o', to_EOS ckm1 mb4 ms1 as1 J0 5 None (nums c) = Ok (nums o) /\ to_EOS ckm101 mb404 ms1 as1 J0 5 None (nums c') = Ok (nums o').
Proof.
  intros c c'. destruct C77_case as (_ & _ & _ & _ & N & _ & L & _). destruct p1_cancels as [Ca Li]. assert (3 * (17 / 15) * / 100 < 1) as Sm by lra.
  split; [exact J0_good|]. split; [exact p1_ok|]. split; [exact Li|]. split; [exact Ca|]. split; [exact N|]. split; [exact Sm|]. split; [exact L|].
  destruct (C77_EOS_uniform ckm1 mb4 ms1 as1 J0 5 None p1 J0_good p1_ok Li) as [K B]. destruct (B (17 / 15) _ _ _ _ _ _ _ _ _ _ Ca N Sm L) as (o & o' & E & E' & _). exists o, o'. exact (conj E E').
Qed.
Print Assumptions C76_EOS_uniform.
Print Assumptions C77_EOS_uniform.
Print Assumptions C76_real_sub.
Print Assumptions C76_EOS_case.
Print Assumptions C77_EOS_case.
