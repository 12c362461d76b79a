(** C77: how the translators between bases of WET react to changes of the parameters, the CKM matrix and the coefficients. *)
From Coq Require Import String List Bool Arith ZArith Reals Lra Lia.
From Verif Require Import PyBase PyDict Cplx Tensor Wc Params Smeft WetExpr Wet WetJms WetNf WetSpec WetChk WetThm WetVals WetList WetAux WetNames Round RoundErr RoundWet RoundArith P_Wet P_Round.
Import ListNotations.
Open Scope string_scope.
Open Scope list_scope.
Open Scope R_scope.

(** The same names, every number changed by at most the fraction [eps] of its absolute value. *)
Definition moved (eps : R) (p p' : params) : Prop :=
  forall k, match dget p k with Some x => exists x', dget p' k = Some x' /\ Rabs (x' - x) <= eps * Rabs x | None => dget p' k = None end.
Definition moved_ckm (eps : R) (V V' : mat) : Prop := forall i j, Cabs (Csub (V' i j) (V i j)) <= eps * Cabs (V i j).
(** Entries that are not numbers stay as they are. *)
Definition moved_coefs (eps : R) (c c' : dict string cval) : Prop :=
  forall k, match dget c k with
    | Some (Some z) => exists z', dget c' k = Some (Some z') /\ Cabs (Csub z' z) <= eps * Cabs z
    | x => dget c' k = x
    end.
(** What a translator gives for the changed arguments, [ra], against what it gives for the original ones, [r]. *)
Definition results_within (n : nat) (eps : R) (r ra rs : res (dict string cval)) : Prop :=
  match r with
  | Err e => ra = Err e
  | Ok d => exists da ds, ra = Ok da /\ rs = Ok ds /\ dkeys da = dkeys d /\
      forall k x, dget d k = Some x ->
        match x with
        | None => dget da k = Some None
        | Some z => exists za s, dget da k = Some (Some za) /\ dget ds k = Some (Some s) /\ Cabs (Csub za z) <= growth eps n * Cabs s
        end
  end.
Lemma agrees_results n eps r ra rm : agrees eps n r ra rm -> results_within n eps r ra rm.
Proof. intros H. exact (agrees_within n eps (fun _ => r) (fun _ => ra) (fun _ => rm) (fun _ => H) []). Qed.
Lemma par_moved eps p p' : 0 <= eps < 1 -> moved eps p p' -> close_par eps 1 p p'.
Proof.
  intros E M k. specialize (M k). destruct (dget p k) as [x|]; [|exact M]. destruct M as (x' & -> & N). destruct (near_factorR eps E x' x N) as (f & F & ->). exists f. split; [apply facR_1, F|reflexivity].
Qed.
Lemma ckm_moved eps V V' : 0 <= eps < 1 -> moved_ckm eps V V' -> close_ckm eps 1 V V'.
Proof. intros E M i j. destruct (near_factor eps E _ _ (M i j)) as (f & F & ->). exists f. split; [apply fac_1, F|reflexivity]. Qed.
Lemma coefs_moved eps keys c c' : 0 <= eps < 1 -> moved_coefs eps c c' -> le_dict (near_by eps 1) (fill keys c) (fill keys c').
Proof.
  intros E M. apply le_fill. intros k _. specialize (M k). destruct (dget c k) as [[z|]|].
  - destruct M as (z' & -> & N). destruct (near_factor eps E z' z N) as (f & F & ->). apply (close_fac eps E); [apply fac_1, F|reflexivity].
  - rewrite M. exact I.
  - rewrite M. apply (nb_refl eps 1 E).
Qed.
Lemma near_dict eps d e : le_dict (near_by eps 1) d e -> close_dict eps 1 d e d.
Proof. induction 1; constructor; assumption. Qed.
Lemma moved_refl eps c : 0 <= eps -> moved_coefs eps c c.
Proof. intros E k. destruct (dget c k) as [[z|]|]; try reflexivity. exists z. split; [reflexivity|]. replace (Csub z z) with C0 by ring. rewrite Cabs_0. pose proof (Cabs_ge0 z). nra. Qed.
Lemma growth_lin eps n : 0 <= eps -> INR n * eps <= / 2 -> growth eps n <= 2 * (INR n * eps).
Proof.
  intros E L. unfold growth. destruct n as [|n]; [cbn; lra|]. assert (eps < 1) as E1 by (rewrite S_INR in L; pose proof (pos_INR n); nra). set (m := S n) in *.
  assert (forall m, 1 - INR m * eps <= (1 - eps) ^ m) as Be.
  { clear - E E1. induction m as [|m IH]; [cbn; lra|]. rewrite S_INR. cbn [pow]. pose proof (pos_INR m). apply Rle_trans with ((1 - eps) * (1 - INR m * eps)); [nra|]. apply Rmult_le_compat_l; lra. }
  specialize (Be m). pose proof (pos_INR m). rewrite pow_inv by lra. assert (/ (1 - eps) ^ m <= / (1 - INR m * eps)) by (apply Rinv_le_contravar; lra). eapply Rle_trans; [apply Rplus_le_compat_r; eassumption|].
  set (w := INR m * eps) in *. apply Rmult_le_reg_r with (1 - w); [lra|]. rewrite Rmult_plus_distr_r, Rinv_l by lra. assert (0 <= w) by (apply Rmult_le_pos; lra). nra.
Qed.

(** Errors by the changes of parameters and coefficients, without and with rounding. *)
Lemma fits2_JF : fits 0 1 1 1 0 7 JMS_to_flavio_prog /\ fits 1 1 1 1 0 37 JMS_to_flavio_prog.
Proof. split; apply fits_none; vm_compute; reflexivity. Qed.
Lemma fits2_JX : fits 0 1 1 1 0 2 JMS_to_FormFlavor_prog /\ fits 1 1 1 1 0 9 JMS_to_FormFlavor_prog.
Proof. split; apply fits_none; vm_compute; reflexivity. Qed.
Lemma fits2_JE : fits 0 1 1 1 0 6 EOS_rest /\ fits 1 1 1 1 0 35 EOS_rest.
Proof. split; apply fits_none; vm_compute; reflexivity. Qed.
Lemma fits2_JB : fits 0 1 1 1 0 6 JMS_to_Bern_prog /\ fits 1 1 1 1 0 31 JMS_to_Bern_prog.
Proof. split; [apply (fits_some _ _ _ _ _ _ _ _ 5 post_JB)|apply (fits_some _ _ _ _ _ _ _ _ 24 post_JB)]; (try (intros k; split; [reflexivity|cbn; lia])); vm_compute; reflexivity. Qed.
Lemma fits2_BF : fits 0 1 1 1 1 11 Bern_to_flavio_prog /\ fits 1 1 1 1 1 57 Bern_to_flavio_prog.
Proof. split; [apply (fits_some _ _ _ _ _ _ _ _ 10 post_BF)|apply (fits_some _ _ _ _ _ _ _ _ 50 post_BF)]; (try (intros k; split; [reflexivity|cbn; lia])); vm_compute; reflexivity. Qed.
Lemma fits2_FB : fits 0 1 1 1 1 11 flavio_to_Bern_prog /\ fits 1 1 1 1 1 57 flavio_to_Bern_prog.
Proof. split; [apply (fits_some _ _ _ _ _ _ _ _ 10 post_FB)|apply (fits_some _ _ _ _ _ _ _ _ 50 post_FB)]; (try (intros k; split; [reflexivity|cbn; lia])); vm_compute; reflexivity. Qed.

Section Sens.
Variables ckm_tree ckm_tree' : R -> R -> R -> R -> mat.
Variables qcd_mb qcd_ms qcd_mb' qcd_ms' : R -> R -> R -> res R.
Variables qcd_as qcd_as' : R -> R -> res R.
Variables (J B F : list string) (scale scale' : R) (input input' : option params) (p p' : params) (eps : R).
Hypothesis E1 : 0 <= eps < 1.
Hypothesis Ep : get_parameters qcd_mb qcd_ms qcd_as scale input = Ok p.
Hypothesis Ep' : get_parameters qcd_mb' qcd_ms' qcd_as' scale' input' = Ok p'.
Hypothesis Mp : moved eps p p'.
Hypothesis Mv : moved_ckm eps (ckm_of ckm_tree p) (ckm_of ckm_tree' p').
Lemma JMS_moved A o q n c c' : errs eps A o -> fits o 1 1 1 0 n q -> moved_coefs eps c c' ->
  agrees eps n (from_JMS ckm_tree qcd_mb qcd_ms qcd_as q J c scale input) (from_JMSA ckm_tree' qcd_mb' qcd_ms' qcd_as' A q J c' scale' input') (from_JMSA ckm_tree qcd_mb qcd_ms qcd_as sizeA q J c scale input).
Proof.
  intros Rd Fi Mc. exact (JMS_close2 ckm_tree qcd_mb qcd_ms qcd_as eps A o 1 1 1 E1 Rd ckm_tree' qcd_mb' qcd_ms' qcd_as' n q J c c' scale input scale' input' p p' Ep Ep' (par_moved eps p p' E1 Mp) (ckm_moved eps _ _ E1 Mv) (coefs_moved eps J c c' E1 Mc) Fi).
Qed.
Lemma flat_moved A o q n K c c' : errs eps A o -> fits o 1 1 1 1 n q -> moved_coefs eps c c' ->
  agrees eps n (from_flat ckm_tree qcd_mb qcd_ms qcd_as q K c scale input) (from_flatA ckm_tree' qcd_mb' qcd_ms' qcd_as' A q K c' scale' input') (from_flatA ckm_tree qcd_mb qcd_ms qcd_as sizeA q K c scale input).
Proof.
  intros Rd Fi Mc. exact (flat_close2 ckm_tree qcd_mb qcd_ms qcd_as eps A o 1 1 1 E1 Rd ckm_tree' qcd_mb' qcd_ms' qcd_as' 1 n q K c c' c scale input scale' input' p p' Ep Ep' (par_moved eps p p' E1 Mp) (ckm_moved eps _ _ E1 Mv) (near_dict eps _ _ (coefs_moved eps K c c' E1 Mc)) Fi).
Qed.
Notation here T K c := (T ckm_tree qcd_mb qcd_ms qcd_as K scale input c).
Notation there T K c := (T ckm_tree' qcd_mb' qcd_ms' qcd_as' K scale' input' c).
Notation thereA T K A c := (T ckm_tree' qcd_mb' qcd_ms' qcd_as' K scale' input' A c).
Notation sizes T K c := (T ckm_tree qcd_mb qcd_ms qcd_as K scale input sizeA c).
(** Without rounding. *)
Theorem C77_terms : forall c c', moved_coefs eps c c' ->
  results_within 6 eps (here to_Bern J c) (there to_Bern J c') (sizes to_BernA J c) /\
  results_within 7 eps (here to_flavio J c) (there to_flavio J c') (sizes to_flavioA J c) /\
  results_within 2 eps (here to_formflavor J c) (there to_formflavor J c') (sizes to_formflavorA J c) /\
  results_within 11 eps (here Bern_flavio B c) (there Bern_flavio B c') (sizes Bern_flavioA B c) /\
  results_within 11 eps (here flavio_Bern F c) (there flavio_Bern F c') (sizes flavio_BernA F c).
Proof.
  intros c c' Mc. assert (errs eps exactA 0) as Rd by (right; exact (conj eq_refl rounding_exact)).
  pose proof (fun K => C76_exact ckm_tree' qcd_mb' qcd_ms' qcd_as' K B F scale' input' c') as Ex.
  destruct (Ex J) as (X1 & X2 & X3 & X4 & X5). rewrite <- X1, <- X2, <- X3, <- X4, <- X5.
  repeat split; apply agrees_results.
  - exact (JMS_moved exactA 0 _ 6 c c' Rd (proj1 fits2_JB) Mc).
  - exact (JMS_moved exactA 0 _ 7 c c' Rd (proj1 fits2_JF) Mc).
  - exact (JMS_moved exactA 0 _ 2 c c' Rd (proj1 fits2_JX) Mc).
  - exact (flat_moved exactA 0 _ 11 B c c' Rd (proj1 fits2_BF) Mc).
  - exact (flat_moved exactA 0 _ 11 F c c' Rd (proj1 fits2_FB) Mc).
Qed.
(** With rounding: all the errors together. *)
Theorem C77_rounded : forall A c c', rounding A eps -> moved_coefs eps c c' ->
  results_within 31 eps (here to_Bern J c) (thereA to_BernA J A c') (sizes to_BernA J c) /\
  results_within 37 eps (here to_flavio J c) (thereA to_flavioA J A c') (sizes to_flavioA J c) /\
  results_within 9 eps (here to_formflavor J c) (thereA to_formflavorA J A c') (sizes to_formflavorA J c) /\
  results_within 57 eps (here Bern_flavio B c) (thereA Bern_flavioA B A c') (sizes Bern_flavioA B c) /\
  results_within 57 eps (here flavio_Bern F c) (thereA flavio_BernA F A c') (sizes flavio_BernA F c).
Proof.
  intros A c c' R Mc. assert (errs eps A 1) as Rd by (left; exact (conj eq_refl R)). repeat split; apply agrees_results.
  - exact (JMS_moved A 1 _ 31 c c' Rd (proj2 fits2_JB) Mc).
  - exact (JMS_moved A 1 _ 37 c c' Rd (proj2 fits2_JF) Mc).
  - exact (JMS_moved A 1 _ 9 c c' Rd (proj2 fits2_JX) Mc).
  - exact (flat_moved A 1 _ 57 B c c' Rd (proj2 fits2_BF) Mc).
  - exact (flat_moved A 1 _ 57 F c c' Rd (proj2 fits2_FB) Mc).
Qed.
(** To EOS, but for the dipole coefficients. *)
Theorem C77_EOS : forall c c' d d', moved_coefs eps c c' ->
  JMS_to_EOS ckm_tree qcd_mb qcd_ms qcd_as J c scale input = Ok d -> JMS_to_EOS ckm_tree' qcd_mb' qcd_ms' qcd_as' J c' scale' input' = Ok d' ->
  exists ds, from_JMSA ckm_tree qcd_mb qcd_ms qcd_as sizeA EOS_rest J c scale input = Ok ds /\
    forall k z, ~ In k eos_dipoles -> dget d k = Some (Some z) ->
      exists z' s, dget d' k = Some (Some z') /\ dget ds k = Some (Some s) /\ Cabs (Csub z' z) <= growth eps 6 * Cabs s.
Proof.
  intros c c' d d' Mc E E'. unfold JMS_to_EOS in E, E'. rewrite <- from_JMS_exact in E, E'. destruct (EOS_drop _ _ _ _ _ _ _ _ _ _ E) as (x & X & Sx). destruct (EOS_drop _ _ _ _ _ _ _ _ _ _ E') as (x' & X' & Sx').
  pose proof (JMS_moved exactA 0 _ 6 c c' (or_intror (conj eq_refl rounding_exact)) (proj1 fits2_JE) Mc) as H. rewrite X' in H. rewrite from_JMS_exact in X. rewrite X in H. destruct H as (y & ds & Ey & Ed & C). assert (x' = y) by congruence. subst y. exists ds. split; [exact Ed|].
  intros k z N G. assert (mem k eos_dipoles = false) as M by (destruct (mem k eos_dipoles) eqn:Q; [apply mem_In in Q; contradiction|reflexivity]).
  pose proof (close_get _ _ _ _ _ k C) as Q. rewrite (Sx k M), G in Q. destruct Q as (za & s & Ga & Gm & Q). destruct za as [za|], s as [s|]; try contradiction Q. exists za, s. split; [rewrite <- (Sx' k M); exact Ga|]. split; [exact Gm|]. apply Q.
Qed.
End Sens.

Section Uniform.
Variable ckm_tree : R -> R -> R -> R -> mat.
Variable qcd_mb qcd_ms : R -> R -> R -> res R.
Variable qcd_as : R -> R -> res R.
Variables (J B F : list string) (scale : R) (input : option params) (p : params).
Hypothesis J_good : good J.
Hypothesis B_ok : NoDup B /\ incl bern_read B.
Hypothesis F_ok : NoDup F /\ incl flavio_read F.
Hypothesis p_ok : okp ckm_tree qcd_mb qcd_ms qcd_as scale input p.
(** Other parameters, with a CKM matrix and running masses and couplings from elsewhere, at another scale, and other coefficients: all changed by at most
    [eps].  [T'] is the translator for them. *)
Definition nearby (eps : R) (c c' : dict string C) (ckm_tree' : R -> R -> R -> R -> mat) (qcd_mb' qcd_ms' : R -> R -> R -> res R) (qcd_as' : R -> R -> res R) (scale' : R) (input' : option params) : Prop :=
  0 <= eps < 1 /\ moved_coefs eps (nums c) (nums c') /\
  exists p', get_parameters qcd_mb' qcd_ms' qcd_as' scale' input' = Ok p' /\ moved eps p p' /\ moved_ckm eps (ckm_of ckm_tree p) (ckm_of ckm_tree' p').
Definition stable (n : nat) (T : translator) (T' : (R -> R -> R -> R -> mat) -> (R -> R -> R -> res R) -> (R -> R -> R -> res R) -> (R -> R -> res R) -> R -> option params -> translator) : Prop :=
  exists K, forall eps c c' M ckm_tree' qcd_mb' qcd_ms' qcd_as' scale' input', nearby eps c c' ckm_tree' qcd_mb' qcd_ms' qcd_as' scale' input' -> largest c M ->
    exists o o', T (nums c) = Ok (nums o) /\ T' ckm_tree' qcd_mb' qcd_ms' qcd_as' scale' input' (nums c') = Ok (nums o') /\ differ_by (growth eps n * (K * M)) o o'.
Lemma stable_of n keys T TS T' : (forall c, exists o, T (nums c) = Ok (nums o)) ->
  (forall eps c c' ckm_tree' qcd_mb' qcd_ms' qcd_as' scale' input', nearby eps c c' ckm_tree' qcd_mb' qcd_ms' qcd_as' scale' input' -> agrees eps n (T (nums c)) (T' ckm_tree' qcd_mb' qcd_ms' qcd_as' scale' input' (nums c')) (TS (nums c))) ->
  (forall M c c1, 0 <= M -> le_dict (lev M) (fill keys c) (fill keys c1) -> both M (TS c) (TS c1)) -> stable n T T'.
Proof.
  intros Tot Ag Le. assert (nearby 0 (ones keys) (ones keys) ckm_tree qcd_mb qcd_ms qcd_as scale input) as N0.
  { split; [lra|]. split; [apply moved_refl; lra|]. exists p. split; [apply p_ok|]. split.
    - intros k. destruct (dget p k) as [x|]; [|reflexivity]. exists x. split; [reflexivity|]. rewrite Rminus_eq_0, Rabs_R0. lra.
    - intros i j. replace (Csub (ckm_of ckm_tree p i j) (ckm_of ckm_tree p i j)) with C0 by ring. rewrite Cabs_0. lra. }
  destruct (Tot (ones keys)) as (o1 & E1). pose proof (Ag _ _ _ _ _ _ _ _ _ N0) as H1. rewrite E1 in H1. destruct (agrees_nums _ _ _ _ _ H1) as (_ & s1 & _ & S1 & _).
  exists (total s1). intros eps c c' M V f g h sc inp N L. pose proof (largest_pos c M L) as M0. destruct (Tot c) as (o & E). pose proof (Ag _ _ _ _ _ _ _ _ _ N) as H. rewrite E in H. destruct (agrees_nums _ _ _ _ _ H) as (oa & om & Ea & Em & K & D).
  exists o, oa. split; [exact E|]. split; [exact Ea|]. split; [exact K|]. intros k. eapply Rle_trans; [apply D|]. apply Rmult_le_compat_l; [apply growth_pos, N|].
  pose proof (Le M (nums c) (nums (ones keys)) M0 (ones_le M keys c L)) as Q. rewrite Em, S1 in Q. pose proof (ld_num M om s1 M0 Q k). pose proof (total_num s1 k). pose proof (Cabs_ge0 (num_of s1 k)). nra.
Qed.
Let totJ (T : translator) q (Y : yields T q) : forall c, exists o, T (nums c) = Ok (nums o).
Proof. intros c. destruct (proj1 Y c) as (o & E & _). eauto. Qed.
Let Y := C35_same_names ckm_tree qcd_mb qcd_ms qcd_as J B F scale input p J_good B_ok F_ok p_ok.
Theorem C77_uniform :
  stable 6 (to_Bern ckm_tree qcd_mb qcd_ms qcd_as J scale input) (fun V f g h s i => to_Bern V f g h J s i) /\
  stable 7 (to_flavio ckm_tree qcd_mb qcd_ms qcd_as J scale input) (fun V f g h s i => to_flavio V f g h J s i) /\
  stable 2 (to_formflavor ckm_tree qcd_mb qcd_ms qcd_as J scale input) (fun V f g h s i => to_formflavor V f g h J s i) /\
  stable 11 (Bern_flavio ckm_tree qcd_mb qcd_ms qcd_as B scale input) (fun V f g h s i => Bern_flavio V f g h B s i) /\
  stable 11 (flavio_Bern ckm_tree qcd_mb qcd_ms qcd_as F scale input) (fun V f g h s i => flavio_Bern V f g h F s i).
Proof.
  destruct Y as (Y1 & Y2 & Y3 & _ & Y4 & Y5).
  assert (forall q n, fits 0 1 1 1 0 n q -> forall eps c c' V f g h s i, nearby eps c c' V f g h s i -> agrees eps n (from_JMS ckm_tree qcd_mb qcd_ms qcd_as q J (nums c) scale input) (from_JMS V f g h q J (nums c') s i) (from_JMSA ckm_tree qcd_mb qcd_ms qcd_as sizeA q J (nums c) scale input)) as HJ.
  { intros q n Fi eps c c' V f g h s i (E & Mc & p' & Ep' & Mp & Mv). rewrite <- (from_JMS_exact V).
    exact (JMS_moved ckm_tree V qcd_mb qcd_ms f g qcd_as h J scale s input i p p' eps E (proj1 p_ok) Ep' Mp Mv exactA 0 q n (nums c) (nums c') (or_intror (conj eq_refl rounding_exact)) Fi Mc). }
  assert (forall q K n, fits 0 1 1 1 1 n q -> forall eps c c' V f g h s i, nearby eps c c' V f g h s i -> agrees eps n (from_flat ckm_tree qcd_mb qcd_ms qcd_as q K (nums c) scale input) (from_flat V f g h q K (nums c') s i) (from_flatA ckm_tree qcd_mb qcd_ms qcd_as sizeA q K (nums c) scale input)) as HF.
  { intros q K n Fi eps c c' V f g h s i (E & Mc & p' & Ep' & Mp & Mv). rewrite <- (from_flat_exact V).
    exact (flat_moved ckm_tree V qcd_mb qcd_ms f g qcd_as h scale s input i p p' eps E (proj1 p_ok) Ep' Mp Mv exactA 0 q n K (nums c) (nums c') (or_intror (conj eq_refl rounding_exact)) Fi Mc). }
  split; [|split; [|split; [|split]]].
  - exact (stable_of 6 J _ (to_BernA ckm_tree qcd_mb qcd_ms qcd_as J scale input sizeA) _ (totJ _ _ Y1) (HJ _ _ (proj1 fits2_JB)) (fun M c c1 M0 L => JMS_size _ _ _ _ M _ J c c1 scale input M0 lin_JB L)).
  - exact (stable_of 7 J _ (to_flavioA ckm_tree qcd_mb qcd_ms qcd_as J scale input sizeA) _ (totJ _ _ Y2) (HJ _ _ (proj1 fits2_JF)) (fun M c c1 M0 L => JMS_size _ _ _ _ M _ J c c1 scale input M0 lin_JF L)).
  - exact (stable_of 2 J _ (to_formflavorA ckm_tree qcd_mb qcd_ms qcd_as J scale input sizeA) _ (totJ _ _ Y3) (HJ _ _ (proj1 fits2_JX)) (fun M c c1 M0 L => JMS_size _ _ _ _ M _ J c c1 scale input M0 lin_JX L)).
  - exact (stable_of 11 B _ (Bern_flavioA ckm_tree qcd_mb qcd_ms qcd_as B scale input sizeA) _ (totJ _ _ Y4) (HF _ B _ (proj1 fits2_BF)) (fun M c c1 M0 L => flat_size _ _ _ _ M _ B c c1 scale input M0 lin_BF L)).
  - exact (stable_of 11 F _ (flavio_BernA ckm_tree qcd_mb qcd_ms qcd_as F scale input sizeA) _ (totJ _ _ Y5) (HF _ F _ (proj1 fits2_FB)) (fun M c c1 M0 L => flat_size _ _ _ _ M _ F c c1 scale input M0 lin_FB L)).
Qed.
(** For small changes, the results change at most in proportion to the changes and to the largest coefficient. *)
Definition proportional (T : translator) (T' : (R -> R -> R -> R -> mat) -> (R -> R -> R -> res R) -> (R -> R -> R -> res R) -> (R -> R -> res R) -> R -> option params -> translator) : Prop :=
  exists K, forall eps c c' M ckm_tree' qcd_mb' qcd_ms' qcd_as' scale' input', eps <= / 22 -> nearby eps c c' ckm_tree' qcd_mb' qcd_ms' qcd_as' scale' input' -> largest c M ->
    exists o o', T (nums c) = Ok (nums o) /\ T' ckm_tree' qcd_mb' qcd_ms' qcd_as' scale' input' (nums c') = Ok (nums o') /\ differ_by (K * M * eps) o o'.
Lemma stable_proportional n T T' : (n <= 11)%nat -> stable n T T' -> proportional T T'.
Proof.
  intros Ln [K H]. exists (22 * Rabs K). intros eps c c' M V f g h s i Le N L. destruct (H eps c c' M V f g h s i N L) as (o & o' & E & E' & Nm & D). exists o, o'. split; [exact E|]. split; [exact E'|]. split; [exact Nm|]. intros k. eapply Rle_trans; [apply D|].
  destruct N as ([E0 _] & _). pose proof (largest_pos c M L) as M0. assert (INR n <= 11) by (replace 11 with (INR 11) by (cbn; lra); apply le_INR, Ln). pose proof (pos_INR n).
  assert (growth eps n <= 22 * eps) as G by (eapply Rle_trans; [apply growth_lin; [exact E0|nra]|nra]). assert (0 <= growth eps n) by (apply growth_pos; lra). pose proof (Rle_abs K). pose proof (Rabs_pos K).
  assert (K * M <= Rabs K * M) by (apply Rmult_le_compat_r; lra). assert (0 <= Rabs K * M) by (apply Rmult_le_pos; lra).
  apply Rle_trans with (growth eps n * (Rabs K * M)); [apply Rmult_le_compat_l; lra|]. apply Rle_trans with (22 * eps * (Rabs K * M)); [apply Rmult_le_compat_r; lra|]. right. ring.
Qed.
Theorem C77_proportional :
  proportional (to_Bern ckm_tree qcd_mb qcd_ms qcd_as J scale input) (fun V f g h s i => to_Bern V f g h J s i) /\
  proportional (to_flavio ckm_tree qcd_mb qcd_ms qcd_as J scale input) (fun V f g h s i => to_flavio V f g h J s i) /\
  proportional (to_formflavor ckm_tree qcd_mb qcd_ms qcd_as J scale input) (fun V f g h s i => to_formflavor V f g h J s i) /\
  proportional (Bern_flavio ckm_tree qcd_mb qcd_ms qcd_as B scale input) (fun V f g h s i => Bern_flavio V f g h B s i) /\
  proportional (flavio_Bern ckm_tree qcd_mb qcd_ms qcd_as F scale input) (fun V f g h s i => flavio_Bern V f g h F s i).
Proof.
  destruct C77_uniform as (U1 & U2 & U3 & U4 & U5).
  split; [apply (stable_proportional 6); [lia|exact U1]|]. split; [apply (stable_proportional 7); [lia|exact U2]|]. split; [apply (stable_proportional 2); [lia|exact U3]|]. split; [apply (stable_proportional 11); [lia|exact U4]|apply (stable_proportional 11); [lia|exact U5]].
Qed.
End Uniform.
(** The mass of the b quark, an element of the CKM matrix and a coefficient larger by one percent. *)
Definition mb404 : R -> R -> R -> res R := fun _ _ _ => Ok (4 * (1 + / 100)).
Definition ckm101 : R -> R -> R -> R -> mat := fun _ _ _ _ i j => match i, j with F2, F3 => RtoC (1 + / 100) | _, _ => C1 end.
Example C77_case : good J0 /\ okp ckm1 mb4 ms1 as1 5 None p1 /\ (NoDup (names bern) /\ incl bern_read (names bern)) /\ (NoDup (names flavio) /\ incl flavio_read (names flavio)) /\
  nearby ckm1 p1 (/ 100) [("VddLL_1213", Ci)] [("VddLL_1213", Cmul Ci (RtoC (1 + / 100)))] ckm101 mb404 ms1 as1 5 None /\ / 100 <= / 22 /\ largest [("VddLL_1213", Ci)] 1 /\
  mb404 <> mb4 /\ exists o o', to_flavio ckm1 mb4 ms1 as1 J0 5 None (nums [("VddLL_1213", Ci)]) = Ok (nums o) /\
    to_flavio ckm101 mb404 ms1 as1 J0 5 None (nums [("VddLL_1213", Cmul Ci (RtoC (1 + / 100)))]) = Ok (nums o').
Proof.
  assert (largest [("VddLL_1213", Ci)] 1) as L by (intros k; unfold num_of; cbn; destruct (keqb k "VddLL_1213"); [unfold Cabs; cbn; replace (0 * 0 + 1 * 1) with 1 by ring; rewrite sqrt_1; lra|rewrite Cabs_0; lra]).
  assert (forall z, Cabs (Csub (Cmul z (RtoC (1 + / 100))) z) <= / 100 * Cabs z) as P1.
  { intros z. replace (Csub (Cmul z (RtoC (1 + / 100))) z) with (Cmul z (RtoC (/ 100))) by (unfold Csub, Cmul, RtoC; cbn; f_equal; ring). rewrite Cabs_mul, Cabs_R, Rabs_right by lra. lra. }
  assert (nearby ckm1 p1 (/ 100) [("VddLL_1213", Ci)] [("VddLL_1213", Cmul Ci (RtoC (1 + / 100)))] ckm101 mb404 ms1 as1 5 None) as N.
  { split; [lra|]. split.
    - intros k. unfold nums, dmap. cbn [map fst snd dget]. destruct (keqb k "VddLL_1213"); [|reflexivity]. eexists. split; [reflexivity|]. apply P1.
    - eexists. split; [reflexivity|]. split.
      + intros k. unfold p1. cbn [app dget]. destruct (keqb k "m_b"); [eexists; split; [reflexivity|]; replace (4 * (1 + / 100) - 4) with (4 * / 100) by ring; rewrite !Rabs_right by lra; lra|].
        destruct (keqb k "m_s"); [eexists; split; [reflexivity|]; rewrite Rminus_eq_0, Rabs_R0; pose proof (Rabs_pos 1); lra|]. destruct (keqb k "alpha_s"); [eexists; split; [reflexivity|]; rewrite Rminus_eq_0, Rabs_R0; pose proof (Rabs_pos 1); lra|].
        destruct (dget (map (fun k0 => (k0, param (merge_params None) k0)) copied) k) as [x|]; [|reflexivity]. exists x. split; [reflexivity|]. rewrite Rminus_eq_0, Rabs_R0. pose proof (Rabs_pos x). lra.
      + intros i j. unfold ckm_of, ckm1, ckm101. 
        pose proof (P1 C1) as Q. replace (Cmul C1 (RtoC (1 + / 100))) with (RtoC (1 + / 100)) in Q by ring.
        destruct i, j; try exact Q; (replace (Csub C1 C1) with C0 by ring; rewrite Cabs_0, Cabs_1; lra). }
  split; [exact J0_good|]. split; [exact p1_ok|]. split; [exact (conj bern_nodup bern_read_in)|]. split; [exact (conj flavio_nodup flavio_read_in)|]. split; [exact N|]. split; [lra|]. split; [exact L|].
  split; [intros E; assert (mb404 0 0 0 = mb4 0 0 0) as X by (rewrite E; reflexivity); injection X; lra|].
  destruct (C77_uniform ckm1 mb4 ms1 as1 J0 (names bern) (names flavio) 5 None p1 J0_good (conj bern_nodup bern_read_in) (conj flavio_nodup flavio_read_in) p1_ok) as (_ & [K H] & _).
  destruct (H _ _ _ _ _ _ _ _ _ _ N L) as (o & o' & E & E' & _). exists o, o'. split; [exact E|exact E'].
Qed.
Print Assumptions C77_terms.
Print Assumptions C77_rounded.
Print Assumptions C77_EOS.
Print Assumptions C77_uniform.
Print Assumptions C77_proportional.
Print Assumptions C77_case.
