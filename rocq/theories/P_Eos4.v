(** C61: what the EOS coefficients c1 to c6 of b -> s q q-bar mean.
    EosOps.v defines the EOS operators; it does not use the translators. *)
From Coq Require Import String List Bool Arith ZArith Reals Lra.
From Verif Require Import PyBase PyDict Cplx Tensor Wc Params Smeft SmeftNames WetExpr Wet WetJms WetNf WetSpec WetChk WetThm WetVals WetList WetAux
  Dirac LagrBases LagrJms LagrThm EosOps EosFour.
Import ListNotations.
Open Scope string_scope.
Open Scope list_scope.
Open Scope nat_scope.
#[local] Opaque Ceq_dec JMS_to_EOS_prog nJE J0 jms_ops.
Section Eos.
Variable ckm_tree : R -> R -> R -> R -> mat.
Variable qcd_mb qcd_ms : R -> R -> R -> res R.
Variable qcd_as : R -> R -> res R.
Variables (J : list string) (scale : R) (input : option params) (p : params).
Hypothesis J_good : good J.
Hypothesis J_once : nonredundant J.
Hypothesis p_ok : okp ckm_tree qcd_mb qcd_ms qcd_as scale input p.
Notation V := (ckm_of ckm_tree p).
Notation to_EOS := (JMS_to_EOS ckm_tree qcd_mb qcd_ms qcd_as J).
Notation same c g := (forall x y z w, bsqq x y z w -> amplitude (L_JMS J c) x y z w = amplitude (L_EOS4 p V g) x y z w).

(** If the amplitudes are those of the EOS operators, the translator returns c3 .. c6 and the means of c1 and c2. *)
Theorem C61_means : forall c u1 u2 c1 c2 g3 g4 g5 g6, light p -> same c (eos_set u1 u2 c1 c2 g3 g4 g5 g6) ->
  exists o, to_EOS (nums c) scale input = Ok (nums o) /\
  returned o = eos_set (half u1 c1) (half u2 c2) (half u1 c1) (half u2 c2) g3 g4 g5 g6.
Proof.
  intros c u1 u2 c1 c2 g3 g4 g5 g6 M H. eexists. split; [exact (run_JE ckm_tree qcd_mb qcd_ms qcd_as J scale input p J_good p_ok c M)|].
  exact (means_same ckm_tree qcd_mb qcd_ms qcd_as J scale input p J_good J_once p_ok c u1 u2 c1 c2 g3 g4 g5 g6 H).
Qed.
(** With the same c1 and c2 for u and c, it returns the six coefficients, and they give the amplitudes back. *)
Theorem C61_coefficients : forall c g1 g2 g3 g4 g5 g6, light p -> same c (eos_set g1 g2 g1 g2 g3 g4 g5 g6) ->
  exists o, to_EOS (nums c) scale input = Ok (nums o) /\ returned o = eos_set g1 g2 g1 g2 g3 g4 g5 g6 /\ same c (returned o).
Proof.
  intros c g1 g2 g3 g4 g5 g6 M H. destruct (C61_means c g1 g2 g1 g2 g3 g4 g5 g6 M H) as (o & E & Ro). rewrite !half_same in Ro.
  exists o. rewrite Ro. exact (conj E (conj eq_refl H)).
Qed.
(** If c1 differs for u and c, what it returns does not give the amplitudes back. *)
Theorem C61_amplitudes_refuted : forall c u1 u2 c1 c2 g3 g4 g5 g6, light p -> u1 <> c1 -> same c (eos_set u1 u2 c1 c2 g3 g4 g5 g6) ->
  exists o, to_EOS (nums c) scale input = Ok (nums o) /\ ~ same c (returned o).
Proof.
  intros c u1 u2 c1 c2 g3 g4 g5 g6 M Ne H. eexists. split; [exact (run_JE ckm_tree qcd_mb qcd_ms qcd_as J scale input p J_good p_ok c M)|].
  intros S. exact (eos4_off ckm_tree qcd_mb qcd_ms qcd_as J scale input p J_good J_once p_ok c u1 u2 c1 c2 g3 g4 g5 g6 Ne H (S _ _ _ _ uu_covered)).
Qed.
(** Other readings of c1 and c2: only charm operators ... *)
Theorem C61_charm_only_refuted : forall c g1 g2 g3 g4 g5 g6, light p -> same c (eos_set C0 C0 g1 g2 g3 g4 g5 g6) ->
  exists o, to_EOS (nums c) scale input = Ok (nums o) /\
  returned o = eos_set (Cmul (RtoC (/ 2)) g1) (Cmul (RtoC (/ 2)) g2) (Cmul (RtoC (/ 2)) g1) (Cmul (RtoC (/ 2)) g2) g3 g4 g5 g6.
Proof.
  intros c g1 g2 g3 g4 g5 g6 M H. destruct (C61_means c C0 C0 g1 g2 g3 g4 g5 g6 M H) as (o & E & Ro). rewrite !half_zero in Ro.
  exists o. exact (conj E Ro).
Qed.
(** ... or u and c operators with the CKM factors of the Standard Model: one half of c1 and c2 is returned. *)
Theorem C61_ckm_weights_refuted : forall c g1 g2 g3 g4 g5 g6, light p -> unitary V ->
  same c (eos_set (Cmul (ckm_weight V F1) g1) (Cmul (ckm_weight V F1) g2) (Cmul (ckm_weight V F2) g1) (Cmul (ckm_weight V F2) g2) g3 g4 g5 g6) ->
  exists o, to_EOS (nums c) scale input = Ok (nums o) /\
  returned o = eos_set (Cmul (RtoC (/ 2)) g1) (Cmul (RtoC (/ 2)) g2) (Cmul (RtoC (/ 2)) g1) (Cmul (RtoC (/ 2)) g2) g3 g4 g5 g6.
Proof.
  intros c g1 g2 g3 g4 g5 g6 M U H. destruct (C61_means c _ _ _ _ g3 g4 g5 g6 M H) as (o & E & Ro).
  rewrite !(half_weights ckm_tree qcd_mb qcd_ms qcd_as scale input p p_ok U) in Ro. exists o. exact (conj E Ro).
Qed.
End Eos.
(** Every set of EOS coefficients is met: there are JMS coefficients with these amplitudes. *)
Theorem C61_onto : forall ckm_tree qcd_mb qcd_ms qcd_as scale input p, okp ckm_tree qcd_mb qcd_ms qcd_as scale input p ->
  forall g, exists c, forall x y z w, bsqq x y z w -> amplitude (L_JMS J0 c) x y z w = amplitude (L_EOS4 p (ckm_of ckm_tree p) g) x y z w.
Proof.
  intros W f h k scale input p P g. exists (jms_of W p g). exact (jms_of_same W f h k scale input p P g).
Qed.
Example C61_case : good J0 /\ nonredundant J0 /\ okp ckm1 mb4 ms1 as1 5 None p1 /\ light p1 /\ bsqq leg_s leg_b leg_u leg_u' /\
  amplitude (L_EOS4 p1 (ckm_of ckm1 p1) (eos_set C1 C0 C1 C0 C0 C0 C0 C0)) leg_s leg_b leg_u leg_u' = RtoC (G4 p1).
Proof. exact (conj J0_good (conj J0_nonredundant (conj p1_ok (conj p1_light (conj uu_covered eos4_case))))). Qed.
Example C61_weights_case : okp ckm2 mb4 ms1 as1 5 None p1 /\ unitary (ckm_of ckm2 p1).
Proof. exact (conj ckm2_ok ckm2_unitary). Qed.

Print Assumptions C61_means.
Print Assumptions C61_coefficients.
Print Assumptions C61_charm_only_refuted.
Print Assumptions C61_ckm_weights_refuted.
Print Assumptions C61_onto.
Print Assumptions C61_amplitudes_refuted.
