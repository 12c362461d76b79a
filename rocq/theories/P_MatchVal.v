(** C52, C53: W and Z in the matching (matchers/smeft.py).  [J] is the listing of the JMS basis; [ckm_tree] builds the CKM
    matrix and comes from another package.  The specification of the exchange, [exchange], is in MatchExch.v, that of the
    couplings, [coup_ew], in MatchMix.v: both know the quantum numbers of the fields of an operator and nothing of the
    matching code. *)
From Coq Require Import String List Bool Arith Reals Lra.
From Verif Require Import PyBase PyDict Cplx Tensor SmeftSyntax Wc Params Smeft SmeftSpec SmeftNames SmeftMass SmeftWarsaw
  MatchOps Match MatchFacts MatchSpec MatchRot MatchThm MatchSm MatchLin MatchWarsaw MatchGf MatchExch MatchMix WetNf WetSpec WetThm WetVals MatchWet MatchEx MatchUser MatchVal
  P_Match.
Import ListNotations.
Open Scope string_scope.
Open Scope list_scope.
Open Scope R_scope.
#[local] Opaque MatchTab.match_tab SmeftTab.WC_keys.

(** C52: every matched coefficient is [match_value]: the contact terms [tree], plus what the exchange of W and Z gives with
    the couplings of the input, minus what it gives in the Standard Model; left-handed down quarks are then rotated with the
    CKM matrix. *)
Theorem C52_value : forall ckm_tree J d input o op s y, let p := merge_params input in
  match_all ckm_tree J d input = Ok o -> dget jms_slots op = Some s -> ~ In op unrotated -> In (cname op y) J -> length y = length s ->
  exists sh, match_shape op = Some sh /\
    num_of o (cname op y) = entry (new_downs (ckm_of ckm_tree p) s (match_value p (coefficients d) op sh)) y.
Proof.
  intros k J d input o op s y p M S N I L. destruct (slots_shape op s S) as [_ Sh]. pose proof (value_num k J input d o op s y M S N I L) as E.
  unfold value_of in E. destruct (match_shape op) as [sh|]; [|destruct Sh as [[Sh _]|[Sh _]]; discriminate]. exists sh. split; auto.
Qed.
(** Operators without left-handed down quarks, and those forgotten in the rotation (C27), have just this value. *)
Theorem C52_value_rest : forall ckm_tree J d input o op sh y, match_all ckm_tree J d input = Ok o -> match_shape op = Some sh ->
  In op match_names -> ~ In op rd_names -> In (cname op y) J -> length y = match sh with Sh4 => 4%nat | _ => 2%nat end -> sh <> Sh0 ->
  num_of o (cname op y) = entry (match_value (merge_params input) (coefficients d) op sh) y.
Proof.
  intros k J d input o op sh y M S Im N I L Z. pose proof (value_rest k J input d o op y M Im N I) as E. unfold value_of in E. rewrite S in E.
  apply E. destruct sh; [contradiction|right|left]; auto.
Qed.
(** If C_phiWB is zero, the matching is defined exactly if the parameters describe a Standard Model (C25) both with the
    measured Fermi constant and with the one that is left without New Physics in muon decay. *)
Theorem C52_defined : forall ckm_tree J d input, let p := merge_params input in let A := coefficients d in good_dict d -> phiWB A = 0 ->
  ((exists o, match_all ckm_tree J d input = Ok o) <-> standard_model p /\ standard_model (with_GF p (true_GF A p))).
Proof. intros k J d input p A G H. rewrite !standard_model_ok. exact (match_defined k J d input G H). Qed.
(** The couplings are then those of the Standard Model: 4G/sqrt(2) for charged currents, sin^2 = pi alpha v^2/m_W^2, and
    4 m_W^2/(v^2 m_Z^2 cos^2) for neutral currents. *)
Theorem C52_couplings : forall p G, standard_model (with_GF p G) ->
  let v2 := 1 / (sqrt 2 * Rabs G) in let s2 := PI * param p "alpha_e" * v2 / (param p "m_W" * param p "m_W") in
  coup_ew p G 0 = EW v2 s2 (4 * Rabs G / sqrt 2) (4 * (param p "m_W" * param p "m_W") / (v2 * (1 - s2) * (param p "m_Z" * param p "m_Z"))) /\
  coup_s p G 0 * coup_s p G 0 = s2 /\ coup_c p G 0 * coup_c p G 0 = 1 - s2 /\
  (0 < param p "m_W" -> 0 < coup_s p G 0 /\ 0 < coup_c p G 0).
Proof. intros p G S. exact (couplings_sm p G (proj1 (standard_model_ok _) S)). Qed.
(** One non-zero input: a shift of the coupling of the Z to right-handed electrons gives an interaction of neutrinos with them. *)
Example C52_case : forall ckm_tree J, In "VnueLR_1111" J -> good_dict phie_ex /\ phiWB (coefficients phie_ex) = 0 /\
  dget jms_slots "VnueLR" = Some (vec LH RH MatchSpec.Nu MatchSpec.Nu MatchSpec.El MatchSpec.El) /\ ~ In "VnueLR" unrotated /\
  exists o x, match_all ckm_tree J phie_ex None = Ok o /\ num_of o "VnueLR_1111" = RtoC x /\ 0 < x.
Proof.
  intros k J I. split; [exact phie_good|]. split; [exact (proj2 (proj2 (proj2 (proj2 (proj2 phie_coeffs)))))|]. split; [reflexivity|].
  split; [intros H; repeat (destruct H as [H|H]; [discriminate|]); exact H|exact (phie_case k J I)].
Qed.

(** C53: C_phiWB mixes the photon and the Z.  At first order in v^2 C_phiWB the charge stays [e], as fixed by alpha_e, the
    weak angle grows by v^2 C_phiWB/2 and the coupling of the Z by the factor 1 + tan(angle) v^2 C_phiWB.  By C52 the
    functions [mix_s], [mix_c], [mix_gz] of v^2 C_phiWB are what the matching uses, through [coup_s], [coup_c], [coup_ew]. *)
Theorem C53_start : forall e g, 0 < e -> e * e < g * g ->
  mix_e e g 0 = e /\ mix_s e g 0 = e / g /\ mix_c e g 0 = sqrt (g * g - e * e) / g /\ mix_gz e g 0 = g * g / sqrt (g * g - e * e).
Proof.
  intros e g E G. replace (g * g - e * e) with (g ^ 2 - e ^ 2) by ring. replace (g * g) with (g ^ 2) by ring.
  assert (e ^ 2 < g ^ 2) as H by lra.
  split; [exact (mix0_e e g E H)|]. split; [exact (mix0_s e g E H)|]. split; [exact (mix0_c e g E H)|exact (mix0_gz e g E H)].
Qed.
Theorem C53_charge : forall e g, 0 < e -> e * e < g * g -> derivable_pt_lim (mix_e e g) 0 0.
Proof. intros e g E G. apply D_mix_e; lra. Qed.
Theorem C53_angle : forall e g, 0 < e -> e * e < g * g ->
  derivable_pt_lim (mix_s e g) 0 (mix_c e g 0 / 2) /\ derivable_pt_lim (mix_c e g) 0 (- (mix_s e g 0 / 2)).
Proof.
  intros e g E G. assert (e ^ 2 < g ^ 2) as H by lra. rewrite (mix0_s e g E H), (mix0_c e g E H).
  split; [exact (D_mix_s e g E H)|exact (D_mix_c e g E H)].
Qed.
Theorem C53_z : forall e g, 0 < e -> e * e < g * g -> derivable_pt_lim (mix_gz e g) 0 (mix_gz e g 0 * (mix_s e g 0 / mix_c e g 0)).
Proof.
  intros e g E G. assert (e ^ 2 < g ^ 2) as H by lra. assert (g <> 0) as N by exact (m_g e g H). pose proof (m_d e g H) as D.
  replace (mix_s e g 0 / mix_c e g 0) with (e / sqrt (g ^ 2 - e ^ 2)); [exact (D_mix_gz e g E H)|].
  rewrite (mix0_s e g E H), (mix0_c e g E H). field. split; auto. lra.
Qed.
Example C53_case : 0 < 3 /\ 3 * 3 < 5 * 5 /\ mix_s 3 5 0 = 3 / 5 /\ mix_c 3 5 0 = 4 / 5.
Proof.
  split; [lra|]. split; [lra|]. destruct (C53_start 3 5) as (_ & S & Q & _); try lra. split; [exact S|]. rewrite Q. f_equal.
  replace (5 * 5 - 3 * 3) with (4 * 4) by ring. apply sqrt_square. lra.
Qed.
Print Assumptions C52_value.
Print Assumptions C52_value_rest.
Print Assumptions C52_defined.
Print Assumptions C52_couplings.
Print Assumptions C53_start.
Print Assumptions C53_charge.
Print Assumptions C53_angle.
Print Assumptions C53_z.
