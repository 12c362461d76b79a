(** C54-C58: the translators of the WET keep the Lagrangian.
    Dirac.v defines the tree-level amplitude of four fermions with any spins and colours, LagrBases.v the Lagrangians that the
    coefficient names of each basis stand for; neither uses the translators. *)
From Coq Require Import String List Bool Arith ZArith Reals Lra.
From Verif Require Import PyBase PyDict Cplx Tensor Wc Params Smeft SmeftNames WetExpr Wet WetJms WetNf WetSpec WetChk WetThm WetVals WetList WetAux
  Dirac LagrBases LagrRefl LagrJms LagrSym LagrChk LagrThm LagrEx.
Import ListNotations.
Open Scope string_scope.
Open Scope list_scope.
Open Scope nat_scope.
#[local] Opaque Ceq_dec.
#[local] Opaque JMS_to_Bern_prog JMS_to_flavio_prog JMS_to_FormFlavor_prog JMS_to_EOS_prog Bern_to_flavio_prog flavio_to_Bern_prog.
#[local] Opaque nJB nJF nJX nJE nBF nFB bern_read flavio_read bern flavio eos formflavor J0 jms_ops bern_ops bern_uniform ff_df2 ff_lep ff_fix flavio_groups eos_groups bern_tensors flavio_no_sd.

Section Lagr.
Variable ckm_tree : R -> R -> R -> R -> mat.
Variable qcd_mb qcd_ms : R -> R -> R -> res R.
Variable qcd_as : R -> R -> res R.
Variables (J B F : list string) (scale : R) (input : option params) (p : params).
(** Of every orbit of the operators in use one member is listed, and only one. *)
Hypothesis J_good : good J.
Hypothesis J_once : nonredundant J.
Hypothesis B_ok : NoDup B /\ incl bern_read B /\ incl (map fst bern_ops) B.
Hypothesis F_ok : NoDup F /\ incl flavio_read F /\ incl (map fst (ops_of (flavio_groups p (ckm_of ckm_tree p)))) F.
Hypothesis p_ok : okp ckm_tree qcd_mb qcd_ms qcd_as scale input p.
Notation V := (ckm_of ckm_tree p).

(** C54 *)
Theorem C54_amplitudes : forall c, exists o, JMS_to_Bern ckm_tree qcd_mb qcd_ms qcd_as J (nums c) scale input = Ok (nums o) /\
  forall x y z w, covered bern_ops x y z w -> amplitude (L_JMS J c) x y z w = amplitude (L_Bern p o) x y z w.
Proof.
  intros c. eexists. split; [exact (run_JB ckm_tree qcd_mb qcd_ms qcd_as J scale input p J_good p_ok c)|].
  exact (bern_same ckm_tree qcd_mb qcd_ms qcd_as J scale input p J_good J_once p_ok c).
Qed.

(** C55 *)
Theorem C55_amplitudes : forall c, exists o, JMS_to_flavio ckm_tree qcd_mb qcd_ms qcd_as J (nums c) scale input = Ok (nums o) /\
  forall x y z w, covered (ops_of (flavio_groups p V)) x y z w -> amplitude (L_JMS_no_tensor J c) x y z w = amplitude (L_flavio p V o) x y z w.
Proof.
  intros c. eexists. split; [exact (run_JF ckm_tree qcd_mb qcd_ms qcd_as J scale input p J_good p_ok c)|].
  exact (flavio_same ckm_tree qcd_mb qcd_ms qcd_as J scale input p J_good J_once p_ok c).
Qed.

(** C56 *)
Theorem C56_Bern_flavio : forall c, exists o, Bern_to_flavio ckm_tree qcd_mb qcd_ms qcd_as B (nums c) scale input = Ok (nums o) /\
  forall x y z w, covered (ops_of (flavio_groups p V)) x y z w ->
  amplitude (L_Bern p c) x y z w = amplitude (L_flavio p V o ++ L_groups (bern_tensors p) c) x y z w.
Proof.
  destruct B_ok as (N & I & I2). intros c. eexists. split; [exact (run_BF ckm_tree qcd_mb qcd_ms qcd_as scale input p p_ok B c N I)|].
  intros x y z w. exact (bern_flavio_same ckm_tree qcd_mb qcd_ms qcd_as scale input p p_ok B c x y z w N I2).
Qed.
Theorem C56_flavio_Bern : forall c, exists o, flavio_to_Bern ckm_tree qcd_mb qcd_ms qcd_as F (nums c) scale input = Ok (nums o) /\
  forall x y z w, covered flavio_no_sd x y z w -> amplitude (L_flavio p V c) x y z w = amplitude (L_Bern p o) x y z w.
Proof.
  destruct F_ok as (N & I & I2). intros c. eexists. split; [exact (run_FB ckm_tree qcd_mb qcd_ms qcd_as scale input p p_ok F c N I)|].
  intros x y z w. exact (flavio_bern_same ckm_tree qcd_mb qcd_ms qcd_as scale input p p_ok F c x y z w N I2).
Qed.

(** C57 *)
Theorem C57_amplitudes : forall c, light p -> exists o, JMS_to_EOS ckm_tree qcd_mb qcd_ms qcd_as J (nums c) scale input = Ok (nums o) /\
  forall x y z w, covered (ops_of (eos_groups p V)) x y z w -> amplitude (L_JMS J c) x y z w = amplitude (L_EOS p V o) x y z w.
Proof.
  intros c M. eexists. split; [exact (run_JE ckm_tree qcd_mb qcd_ms qcd_as J scale input p J_good p_ok c M)|].
  exact (eos_same ckm_tree qcd_mb qcd_ms qcd_as J scale input p J_good J_once p_ok c).
Qed.

(** C58 *)
Notation to_formflavor := (JMS_to_FormFlavor ckm_tree qcd_mb qcd_ms qcd_as J).
Theorem C58_leptons : forall c, exists o, to_formflavor (nums c) scale input = Ok (nums o) /\
  forall x y z w, covered ff_lep x y z w -> amplitude (L_JMS J c) x y z w = amplitude (L_of C1 ff_lep o) x y z w.
Proof.
  intros c. eexists. split; [exact (run_JX ckm_tree qcd_mb qcd_ms qcd_as J scale input p J_good p_ok c)|].
  exact (ff_lep_same ckm_tree qcd_mb qcd_ms qcd_as J scale input p J_good J_once p_ok c).
Qed.
Theorem C58_mixing : forall c, exists o, to_formflavor (nums c) scale input = Ok (nums o) /\
  forall x y z w, covered ff_df2 x y z w ->
  amplitude (L_JMS J c) x y z w = amplitude (L_of C1 ff_df2 o ++ L_of (RtoC 8) ff_fix o) x y z w.
Proof.
  intros c. eexists. split; [exact (run_JX ckm_tree qcd_mb qcd_ms qcd_as J scale input p J_good p_ok c)|].
  exact (ff_df2_same ckm_tree qcd_mb qcd_ms qcd_as J scale input p J_good J_once p_ok c).
Qed.
Theorem C58_mixing_no_octets : forall c, (forall op i, In op ["S8ddRR"; "S8uuRR"] -> num_of c (cname op i) = C0) ->
  exists o, to_formflavor (nums c) scale input = Ok (nums o) /\
  forall x y z w, covered ff_df2 x y z w -> amplitude (L_JMS J c) x y z w = amplitude (L_of C1 ff_df2 o) x y z w.
Proof.
  intros c Z. eexists. split; [exact (run_JX ckm_tree qcd_mb qcd_ms qcd_as J scale input p J_good p_ok c)|]. intros x y z w K.
  rewrite (ff_df2_same ckm_tree qcd_mb qcd_ms qcd_as J scale input p J_good J_once p_ok c x y z w K), amplitude_app.
  rewrite (fix_zero ckm_tree J p J_good c x y z w Z). ring.
Qed.
End Lagr.

(** With one reading of the operators 5, 7, 9 in all sectors the amplitudes change. *)
Theorem C54_uniform_refuted : forall ckm_tree qcd_mb qcd_ms qcd_as scale input p, okp ckm_tree qcd_mb qcd_ms qcd_as scale input p ->
  exists c o x y z w, JMS_to_Bern ckm_tree qcd_mb qcd_ms qcd_as J0 (nums c) scale input = Ok (nums o) /\
  covered bern_uniform x y z w /\ amplitude (L_JMS J0 c) x y z w <> C0 /\ amplitude (L_of (RtoC (G4 p)) bern_uniform o) x y z w = C0.
Proof.
  intros V f g h scale input p P. exists (one_at "S1ddRR_2223"). eexists _, xs, xb, xz, xz. split; [exact (run_JB V f g h J0 scale input p J0_good P _)|].
  split; [exact sbss_covered|]. split; [exact s1dd_amp|]. exact (uniform_zero V p).
Qed.
(** flavio's basis has no semileptonic tensor operators: they are lost. *)
Theorem C55_tensor_refuted : forall ckm_tree qcd_mb qcd_ms qcd_as scale input p, okp ckm_tree qcd_mb qcd_ms qcd_as scale input p ->
  exists c o x y z w, JMS_to_flavio ckm_tree qcd_mb qcd_ms qcd_as J0 (nums c) scale input = Ok (nums o) /\
  covered (ops_of (flavio_groups p (ckm_of ckm_tree p))) x y z w /\
  amplitude (L_JMS J0 c) x y z w = RtoC 4 /\ amplitude (L_flavio p (ckm_of ckm_tree p) o) x y z w = C0.
Proof.
  intros V f g h scale input p P. destruct (C55_amplitudes V f g h J0 scale input p J0_good J0_nonredundant P (one_at "TedRR_1123")) as (o & E & H).
  exists (one_at "TedRR_1123"), o, (red (El, F1) Sp3), (red (El, F1) Sp3), (red (Dn, F2) Sp3), (red (Dn, F3) Sp3). split; [exact E|].
  split; [apply flavio_ee|]. split; [exact ted_amp|]. rewrite <- H by apply flavio_ee. exact no_ted_amp.
Qed.
(** FormFlavor: wrong in the presence of the scalar octets. *)
Theorem C58_mixing_refuted : forall ckm_tree qcd_mb qcd_ms qcd_as scale input p, okp ckm_tree qcd_mb qcd_ms qcd_as scale input p ->
  exists c o x y z w, JMS_to_FormFlavor ckm_tree qcd_mb qcd_ms qcd_as J0 (nums c) scale input = Ok (nums o) /\
  covered ff_df2 x y z w /\ amplitude (L_JMS J0 c) x y z w <> amplitude (L_of C1 ff_df2 o) x y z w.
Proof.
  intros V f g h scale input p P. eexists (one_at "S8ddRR_2323"), _, _, _, _, _. split; [exact (run_JX V f g h J0 scale input p J0_good P _)|].
  split; [exact covered_bs|]. rewrite (ff_df2_same V f g h J0 scale input p J0_good J0_nonredundant P _ _ _ _ _ covered_bs), amplitude_app, fix_amp.
  rewrite (ctrr_val V J0 p J0_good), s8_pick. exact (half_off _).
Qed.

(** The hypotheses can be met, and the amplitudes compared are not all zero: one tensor coefficient gives 4 for suitable spins. *)
Example lagr_case : good J0 /\ nonredundant J0 /\ okp ckm1 mb4 ms1 as1 5 None p1 /\ light p1 /\
  (NoDup (names bern) /\ incl bern_read (names bern) /\ incl (map fst bern_ops) (names bern)) /\
  (NoDup (names flavio) /\ incl flavio_read (names flavio) /\ incl (map fst (ops_of (flavio_groups p1 (ckm_of ckm1 p1)))) (names flavio)).
Proof.
  exact (conj J0_good (conj J0_nonredundant (conj p1_ok (conj p1_light (conj (conj bern_nodup (conj bern_read_in bern_listed))
    (conj flavio_nodup (conj flavio_read_in (flavio_listed _ _)))))))).
Qed.
Example C54_case : amplitude (L_JMS J0 (one_at "TedRR_1123")) (red (El, F1) Sp3) (red (El, F1) Sp3) (red (Dn, F2) Sp3) (red (Dn, F3) Sp3) = RtoC 4 /\
  covered bern_ops (red (El, F1) Sp3) (red (El, F1) Sp3) (red (Dn, F2) Sp3) (red (Dn, F3) Sp3).
Proof. exact (conj ted_amp bern_ee). Qed.
Example C55_case : covered (ops_of (flavio_groups p1 (ckm_of ckm1 p1))) (red (El, F1) Sp3) (red (El, F1) Sp3) (red (Dn, F2) Sp3) (red (Dn, F3) Sp3).
Proof. exact (flavio_ee _ _). Qed.
Example C57_case : covered (ops_of (eos_groups p1 (ckm_of ckm1 p1))) (red (El, F1) Sp3) (red (El, F1) Sp3) (red (Dn, F2) Sp3) (red (Dn, F3) Sp3).
Proof. exact (eos_ee _ _). Qed.
Example C58_case : covered ff_df2 (red (Dn, F2) Sp3) (red (Dn, F3) Sp3) (green (Dn, F2) Sp4) (green (Dn, F3) Sp4).
Proof. exact covered_bs. Qed.

Print Assumptions C54_amplitudes.
Print Assumptions C54_uniform_refuted.
Print Assumptions C55_amplitudes.
Print Assumptions C55_tensor_refuted.
Print Assumptions C56_Bern_flavio.
Print Assumptions C56_flavio_Bern.
Print Assumptions C57_amplitudes.
Print Assumptions C58_leptons.
Print Assumptions C58_mixing.
Print Assumptions C58_mixing_no_octets.
Print Assumptions C58_mixing_refuted.
