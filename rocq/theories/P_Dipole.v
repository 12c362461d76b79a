(** C60: the translators of the WET keep the dipole operators.
    Dipole.v defines the vertex of two fermions with any spins and colours and a component of the
    photon's or gluon's field strength, and the dipole Lagrangians of the bases; it does not use the translators. *)
From Coq Require Import String List Bool Arith ZArith Reals Lra.
From Verif Require Import PyBase PyDict Cplx Tensor Wc Params Smeft SmeftNames WetExpr Wet WetJms WetNf WetSpec WetChk WetThm WetVals WetList WetAux
  Dirac LagrBases Dipole DipThm.
Import ListNotations.
Open Scope string_scope.
Open Scope list_scope.
Open Scope nat_scope.
#[local] Opaque Ceq_dec.
#[local] Opaque JMS_to_Bern_prog JMS_to_flavio_prog JMS_to_FormFlavor_prog JMS_to_EOS_prog Bern_to_flavio_prog flavio_to_Bern_prog.
#[local] Opaque nJB nJF nJX nJE nBF nFB bern_read flavio_read bern flavio J0.

Section Dip.
Variable ckm_tree : R -> R -> R -> R -> mat.
Variable qcd_mb qcd_ms : R -> R -> R -> res R.
Variable qcd_as : R -> R -> res R.
Variables (J B F : list string) (scale : R) (input : option params) (p : params).
Hypothesis J_good : good J.
Hypothesis B_ok : NoDup B /\ incl bern_read B.
Hypothesis F_ok : NoDup F /\ incl flavio_read F.
Hypothesis p_ok : okp ckm_tree qcd_mb qcd_ms qcd_as scale input p.
Notation V := (ckm_of ckm_tree p).

Theorem C60_Bern : forall c, exists o, JMS_to_Bern ckm_tree qcd_mb qcd_ms qcd_as J (nums c) scale input = Ok (nums o) /\
  forall x y g, dcovered (dops (bern_dip_groups p [sb; db; ds])) x y g ->
  damplitude (L_JMS_dip J c) x y g = damplitude (LD_groups (bern_dip_groups p [sb; db; ds]) o) x y g.
Proof.
  intros c. eexists. split; [exact (run_JB ckm_tree qcd_mb qcd_ms qcd_as J scale input p J_good p_ok c)|].
  exact (bern_dip ckm_tree qcd_mb qcd_ms qcd_as J scale input p J_good p_ok c).
Qed.
Theorem C60_flavio : forall c, exists o, JMS_to_flavio ckm_tree qcd_mb qcd_ms qcd_as J (nums c) scale input = Ok (nums o) /\
  forall x y g, dcovered (dops (flavio_dip_groups p V)) x y g ->
  damplitude (L_JMS_dip J c) x y g = damplitude (LD_groups (flavio_dip_groups p V) o) x y g.
Proof.
  intros c. eexists. split; [exact (run_JF ckm_tree qcd_mb qcd_ms qcd_as J scale input p J_good p_ok c)|].
  exact (flavio_dip ckm_tree qcd_mb qcd_ms qcd_as J scale input p J_good p_ok c).
Qed.
Theorem C60_EOS : forall c, light p -> exists o, JMS_to_EOS ckm_tree qcd_mb qcd_ms qcd_as J (nums c) scale input = Ok (nums o) /\
  forall x y g, dcovered (dops (eos_dip_groups p V)) x y g ->
  damplitude (L_JMS_dip J c) x y g = damplitude (LD_groups (eos_dip_groups p V) o) x y g.
Proof.
  intros c M. eexists. split; [exact (run_JE ckm_tree qcd_mb qcd_ms qcd_as J scale input p J_good p_ok c M)|]. intros x y g.
  exact (eos_dip_same ckm_tree qcd_mb qcd_ms qcd_as J scale input p J_good p_ok c x y g M).
Qed.
Notation to_formflavor := (JMS_to_FormFlavor ckm_tree qcd_mb qcd_ms qcd_as J).
Theorem C60_formflavor_quarks : forall c, exists o, to_formflavor (nums c) scale input = Ok (nums o) /\
  (forall x y g, dcovered (dops (ff_quark_dip_groups p)) x y g ->
     damplitude (L_JMS_dip J c) x y g = damplitude (LD_groups (ff_quark_dip_groups p) o) x y g) /\
  (forall x y g, dcovered (flat_map snd ff_diagonal) x y g -> damplitude (L_JMS_dip J c) x y g = damplitude (L_FF_diagonal p o) x y g).
Proof.
  intros c. eexists. split; [exact (run_JX ckm_tree qcd_mb qcd_ms qcd_as J scale input p J_good p_ok c)|]. split.
  - exact (ffq_dip ckm_tree qcd_mb qcd_ms qcd_as J scale input p J_good p_ok c).
  - exact (ffd_dip ckm_tree qcd_mb qcd_ms qcd_as J scale input p J_good p_ok c).
Qed.
(** For leptons the left-handed coefficients must be read with the strong coupling. *)
Theorem C60_formflavor_leptons : forall c, exists o, to_formflavor (nums c) scale input = Ok (nums o) /\
  forall x y g, dcovered (dops (ff_lepton_dip_groups p (gs_of p))) x y g ->
  damplitude (L_JMS_dip J c) x y g = damplitude (LD_groups (ff_lepton_dip_groups p (gs_of p)) o) x y g.
Proof.
  intros c. eexists. split; [exact (run_JX ckm_tree qcd_mb qcd_ms qcd_as J scale input p J_good p_ok c)|].
  exact (ffl_dip ckm_tree qcd_mb qcd_ms qcd_as J scale input p J_good p_ok c).
Qed.
Theorem C60_Bern_flavio : forall c, exists o, Bern_to_flavio ckm_tree qcd_mb qcd_ms qcd_as B (nums c) scale input = Ok (nums o) /\
  forall x y g, dcovered (dops (flavio_dip_groups p V)) x y g ->
  damplitude (LD_groups (bern_dip_groups p [sb; db]) c) x y g = damplitude (LD_groups (flavio_dip_groups p V) o) x y g.
Proof.
  destruct B_ok as (N & I). intros c. eexists. split; [exact (run_BF ckm_tree qcd_mb qcd_ms qcd_as scale input p p_ok B c N I)|].
  intros x y g. exact (bern_flavio_dip ckm_tree qcd_mb qcd_ms qcd_as scale input p p_ok B c x y g N I).
Qed.
Theorem C60_flavio_Bern : forall c, exists o, flavio_to_Bern ckm_tree qcd_mb qcd_ms qcd_as F (nums c) scale input = Ok (nums o) /\
  forall x y g, dcovered (dops (flavio_dip_groups p V)) x y g ->
  damplitude (LD_groups (flavio_dip_groups p V) c) x y g = damplitude (LD_groups (bern_dip_groups p [sb; db]) o) x y g.
Proof.
  destruct F_ok as (N & I). intros c. eexists. split; [exact (run_FB ckm_tree qcd_mb qcd_ms qcd_as scale input p p_ok F c N I)|].
  intros x y g. exact (flavio_bern_dip ckm_tree qcd_mb qcd_ms qcd_as scale input p p_ok F c x y g N I).
Qed.
End Dip.
(** With the electric charge, as for the right-handed ones, the lepton dipole changes. *)
Theorem C60_leptons_refuted : forall ckm_tree qcd_mb qcd_ms qcd_as scale input p, okp ckm_tree qcd_mb qcd_ms qcd_as scale input p ->
  param p "alpha_e" <> param p "alpha_s" ->
  exists c o x y g, JMS_to_FormFlavor ckm_tree qcd_mb qcd_ms qcd_as J0 (nums c) scale input = Ok (nums o) /\
  dcovered (dops (ff_lepton_dip_groups p (e_of p))) x y g /\
  damplitude (L_JMS_dip J0 c) x y g <> damplitude (LD_groups (ff_lepton_dip_groups p (e_of p)) o) x y g.
Proof.
  intros W f g h scale input p P NE. eexists e21, _, elec, muon, photon03. split; [exact (run_JX W f g h J0 scale input p J0_good P e21)|].
  split; [apply covered_emu|]. exact (ff_left_off W f g h scale input p P NE).
Qed.
(** One coefficient, one component of the photon field. *)
Example C60_case : damplitude (L_JMS_dip J0 [("egamma_21", C1)]) (Leg (El, F1) Sp1 Red) (Leg (El, F2) Sp1 Red) (Quantum Photon M0 M3 0) = Cneg Ci /\
  good J0 /\ okp ckm1 mb4 ms1 as1 5 None p1 /\ light p1 /\ (NoDup (names bern) /\ incl bern_read (names bern)) /\ (NoDup (names flavio) /\ incl flavio_read (names flavio)).
Proof.
  exact (conj e21_amp (conj J0_good (conj p1_ok (conj p1_light (conj (conj bern_nodup bern_read_in) (conj flavio_nodup flavio_read_in)))))).
Qed.

Print Assumptions C60_Bern.
Print Assumptions C60_flavio.
Print Assumptions C60_EOS.
Print Assumptions C60_formflavor_quarks.
Print Assumptions C60_formflavor_leptons.
Print Assumptions C60_Bern_flavio.
Print Assumptions C60_flavio_Bern.
Print Assumptions C60_leptons_refuted.
