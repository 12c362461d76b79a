(** C25-C28, C49, C50: matching the SMEFT onto the WET (matchers/smeft.py, matchers/__init__.py, rotate_down).
    [J] and [U] are the listings of the JMS and Warsaw up bases; [ckm_tree] builds the CKM matrix,
    [qcd_mb], [qcd_ms], [qcd_as] are running parameters, which come from other packages. *)
From Coq Require Import String List Bool Arith Reals Lra.
From Verif Require Trie.
From Verif Require Import PyBase PyDict Cplx Tensor Wc Params Smeft SmeftSpec SmeftNames SmeftMass SmeftReg SmeftWarsaw
  MatchOps Match MatchFacts MatchSpec MatchRot MatchThm MatchSm MatchLin MatchWarsaw MatchGf
  WetExpr Wet WetJms WetNf WetSpec WetChk WetThm WetVals WetList WetAux P_Wet MatchWet MatchEx MatchUser.
Import ListNotations.
Open Scope string_scope.
Open Scope list_scope.
Open Scope nat_scope.
#[local] Opaque Ceq_dec.
#[local] Opaque JMS_to_Bern_prog JMS_to_flavio_prog JMS_to_FormFlavor_prog JMS_to_EOS_prog Bern_to_flavio_prog flavio_to_Bern_prog.
#[local] Opaque nJB nJF nJX nJE nBF nFB bern_read flavio_read bern flavio eos formflavor J0 mirror_names MatchTab.match_tab SmeftTab.WC_keys.

(** C25: if every coefficient is zero, so is every coefficient of the result. *)
Theorem C25_nothing_from_nothing : forall ckm_tree J d input o, (forall k z, In (k, z) d -> z = C0) ->
  match_all ckm_tree J d input = Ok o -> forall k z, dget o k = Some z -> z = C0.
Proof. intros V J d input o S M k z. exact (match_silent V J d input o k z S M). Qed.
(** With such coefficients the matching is defined exactly if GF and m_Z are not zero, alpha_e is positive and
    pi alpha_e < sqrt(2) |GF| m_W^2, i.e. the weak angle is real ... *)
Definition standard_model (p : params) : Prop := (param p "GF" <> 0 /\ param p "m_Z" <> 0 /\ 0 < param p "alpha_e" /\
  PI * param p "alpha_e" < sqrt 2 * Rabs (param p "GF") * (param p "m_W" * param p "m_W"))%R.
Lemma standard_model_ok p : standard_model p <-> sm_ok p.
Proof. unfold standard_model, sm_ok. replace (param p "m_W" ^ 2)%R with (param p "m_W" * param p "m_W")%R by ring. tauto. Qed.
Theorem C25_defined : forall ckm_tree J d input, good_dict d -> (forall k z, In (k, z) d -> z = C0) ->
  ((exists o, match_all ckm_tree J d input = Ok o) <-> standard_model (merge_params input)).
Proof.
  intros V J d input G S. rewrite standard_model_ok. split.
  - intros (o & M). exact (match_needs_sm V J d input o M).
  - intros H. destruct (read_good d G) as (c & E). exact (match_silent_ok V J d input c H S E).
Qed.
(** ... and with no coefficients is the matching defined otherwise. *)
Theorem C25_needed : forall ckm_tree J d input o, match_all ckm_tree J d input = Ok o -> standard_model (merge_params input).
Proof. intros V J d input o M. apply standard_model_ok. exact (match_needs_sm V J d input o M). Qed.
Example C25_case : standard_model (merge_params None) /\ good_dict [("uphi_11", C0)].
Proof.
  split; [apply standard_model_ok; exact default_sm|]. split; [repeat constructor; simpl; tauto|].
  intros k [<-|[]]. exists "uphi", SmeftSyntax.Sh2, [F1; F1]. split; [|split; [|split]]; try reflexivity. apply idx2_in.
Qed.

(** C26: two names of one orbit get the same value, up to conjugation. *)
Theorem C26_symmetric : forall ckm_tree J d input o op x y b, match_all ckm_tree J d input = Ok o -> jms_ix op x = true ->
  In (y, b) (members op x) -> In (cname op x) J -> In (cname op y) J -> num_of o (cname op x) = cj b (num_of o (cname op y)).
Proof. exact match_orbit. Qed.
(** Which member of an orbit is listed does not matter: the WET translators read the same arrays. *)
Theorem C26_nothing_lost : forall ckm_tree J J' d input o o', good J -> good J' -> match_all ckm_tree J d input = Ok o ->
  match_all ckm_tree J' d input = Ok o' -> exists a a', JMS_to_array J (nums o) = Ok a /\ JMS_to_array J' (nums o') = Ok a' /\
  forall op x, jms_ix op x = true -> exists r r' z, dget a op = Some r /\ dget a' op = Some r' /\ n_ent r x = Some z /\ n_ent r' x = Some z.
Proof.
  intros V J J' d input o o' G G' M M'. destruct (match_inv _ _ _ _ _ M) as (c & w & R0 & Mw & _).
  destruct (nothing_lost V J d input o c w G M R0 Mw) as (a & A & H). destruct (nothing_lost V J' d input o' c w G' M' R0 Mw) as (a' & A' & H').
  exists a, a'. split; auto. split; auto. intros op x I. destruct (H op x I) as (v & r & D & E & Q). destruct (H' op x I) as (v' & r' & D' & E' & Q').
  assert (v' = v) as -> by congruence. exists r, r', (entry v x). auto.
Qed.
(** Fierz identities are not applied: ll_1331 contributes to (e1 e3)(e3 e1), but not to (e1 e1)(e3 e3), which is the
    same operator, so a listing with one of the two names loses or keeps the contribution. *)
Theorem C26_fierz_refuted : forall ckm_tree J, In "VeeLL_1331" J -> In "VeeLL_1133" J -> exists d o,
  good_dict d /\ match_all ckm_tree J d None = Ok o /\ dget o "VeeLL_1331" = Some C1 /\ dget o "VeeLL_1133" = Some C0.
Proof. intros V J I I'. destruct (fierz_case V J I I') as (o & H). exists ll_ex, o. split; [exact ll_good|exact H]. Qed.
Example C26_case : good J0 /\ In ([F1; F3; F1; F2], false) (members "VddLL" [F1; F2; F1; F3]) /\
  In ([F2; F1; F3; F1], true) (members "VddLL" [F1; F2; F1; F3]) /\ jms_ix "VddLL" [F1; F2; F1; F3] = true.
Proof. split; [exact J0_good|]. split; [right; left; reflexivity|]. split; [right; right; left; reflexivity|reflexivity]. Qed.

(** C27: every left-handed down quark is rotated, except in the operators of the list [unrotated]. *)
Theorem C27_rotated : forall V c c' op s v, rotate_down V c = Ok c' -> dget jms_slots op = Some s -> dget c op = Some v ->
  ~ In op unrotated -> dget c' op = Some (new_downs V s v).
Proof. exact rotate_down_spec. Qed.
Theorem C27_defined : forall V c, (forall k, In k rd_names -> exists x, dget c k = Some (A4 x)) -> exists c', rotate_down V c = Ok c'.
Proof. exact rotate_down_ok. Qed.
Theorem C27_undone : forall V c c1, unitary V -> wf c -> rotate_down V c = Ok c1 -> rotate_down (mdag V) c1 = Ok c.
Proof. exact rotate_undo. Qed.
Theorem C27_same_names : forall V c c', rotate_down V c = Ok c' -> dkeys c' = dkeys c.
Proof. exact rotate_down_keys. Qed.
Theorem C27_unrotated_refuted : forall op, In op unrotated -> exists s v c c' V, unitary V /\ dget jms_slots op = Some s /\
  left_down s = true /\ dget c op = Some v /\ rotate_down V c = Ok c' /\ dget c' op <> Some (new_downs V s v).
Proof.
  intros op I. destruct (unrotated_wrong op I) as (s & v & c' & H1 & H2 & H3 & H4 & H5).
  exists s, v, uniform, c', flip1. exact (conj flip1_unitary (conj H1 (conj H2 (conj H3 (conj H4 H5))))).
Qed.
(** So the electromagnetic dipole of down quarks, matched from the Warsaw basis, stays in the up-aligned basis. *)
Theorem C27_dipole_refuted : forall J, In "dgamma_12" J -> exists ckm_tree U d o, (forall p, unitary (ckm_of ckm_tree p)) /\
  good_dict d /\ warsaw_to_jms ckm_tree U J None d = Ok o /\
  num_of o "dgamma_12" = Cneg (entry (tree_of None d "dgamma") [F1; F2]) /\ num_of o "dgamma_12" <> C0.
Proof.
  intros J I. pose (V := fun _ _ _ _ : R => flip1). pose proof (lists_kept_reps _ kept_names_list) as L.
  destruct (warsaw_total V kept_names J None dB_ex dB_good dB_no_shift L default_sm) as (o & E).
  exists V, kept_names, dB_ex, o. split; [intros p; exact flip1_unitary|]. split; [exact dB_good|]. split; [exact E|].
  pose proof (forgotten_num V kept_names J None dB_ex o "dgamma" _ [F1; F2] dB_good dB_no_shift L E eq_refl (proj2 dgamma_named) I eq_refl) as H.
  change (cname "dgamma" [F1; F2]) with "dgamma_12" in H.
  assert (num_of o "dgamma_12" = Cneg (entry (tree_of None dB_ex "dgamma") [F1; F2])) as X.
  { rewrite H. assert (exists m, tree_of None dB_ex "dgamma" = A2 m) as (m & ->) by (unfold tree_of; rewrite (proj1 dgamma_named); eexists; reflexivity).
    exact (flip1_dip m). }
  split; [exact X|]. rewrite X, dB_tree. intros Z. destruct (weak_c_pos _ default_sm) as [K|K];
    (assert (vev (merge_params None) / sqrt 2 * weak_c (merge_params None) = 0)%R as Y; [|lra]);
    (apply (f_equal Re) in Z; cbn [Re Cneg RtoC fst C0] in Z; unfold Re, Cneg, RtoC, C0 in Z; cbn [fst] in Z; lra).
Qed.
Example C27_case : exists c c', rotate_down flip1 c = Ok c' /\ unitary flip1 /\ wf c /\ dget c "VedLL" = Some (A4 (fun _ _ _ _ => C1)) /\
  ~ In "VedLL" unrotated.
Proof.
  destruct (uniform_rotates flip1) as (c' & E). exists uniform, c'. split; [exact E|]. split; [exact flip1_unitary|]. split.
  - unfold wf, dkeys, uniform. rewrite map_map. cbn [fst]. apply Trie.distinct_ok. vm_compute. reflexivity.
  - split; [reflexivity|]. intros H. repeat (destruct H as [H|H]; [discriminate|]). exact H.
Qed.

Section Matchers.
Variable ckm_tree : R -> R -> R -> R -> mat.
Variable qcd_mb qcd_ms : R -> R -> R -> res R.
Variable qcd_as : R -> R -> res R.
Variables (U J B : list string) (scale : R) (input : option params) (p : params).
Hypothesis J_good : good J.
Hypothesis B_ok : NoDup B /\ incl bern_read B.
Hypothesis p_ok : okp ckm_tree qcd_mb qcd_ms qcd_as scale input p.
Notation to_jms := (warsaw_to_jms ckm_tree U J input).
Notation to_flavio' := (warsaw_to_flavio ckm_tree qcd_mb qcd_ms qcd_as U J scale input).
Notation to_eos' := (warsaw_to_eos ckm_tree qcd_mb qcd_ms qcd_as U J scale input).
Notation to_bern' := (warsaw_to_bern ckm_tree qcd_mb qcd_ms qcd_as U J scale input).
(** C28: through Warsaw up. *)
Theorem C28_detour : forall d u, warsaw_to_warsaw_up ckm_tree U input d = Ok u -> to_jms d = warsaw_up_to_jms ckm_tree J input u.
Proof. intros d u E. unfold warsaw_to_jms, warsaw_up_to_jms. rewrite E. reflexivity. Qed.
(** The four matchers succeed together, and agree through the WET translators. *)
Theorem C28_together : forall d c, to_jms d = Ok c -> exists f b, to_flavio' d = Ok f /\ to_bern' d = Ok b /\
  JMS_to_flavio ckm_tree qcd_mb qcd_ms qcd_as J (nums c) scale input = Ok f /\
  JMS_to_Bern ckm_tree qcd_mb qcd_ms qcd_as J (nums c) scale input = Ok b /\
  Bern_to_flavio ckm_tree qcd_mb qcd_ms qcd_as B b scale input = Ok f.
Proof.
  intros d c E. destruct (via_jms ckm_tree qcd_mb qcd_ms qcd_as U J scale input d) as (F & _ & G). rewrite F, G, E. cbn [bind].
  destruct (C30_direct_equals_detour ckm_tree qcd_mb qcd_ms qcd_as J B scale input p J_good B_ok p_ok c) as (b & f & Hb & Hf & H).
  exists f, b. auto.
Qed.
Theorem C28_eos : forall d c, light p -> to_jms d = Ok c -> exists e f, to_eos' d = Ok (nums e) /\ to_flavio' d = Ok (nums f) /\
  (forall k k', In (k, k') eos_same -> num_of e k = num_of f k') /\
  (forall k k', In (k, k') eos_mb -> num_of e k = Cmul (RtoC (param p "m_b")) (num_of f k')).
Proof.
  intros d c M E. destruct (via_jms ckm_tree qcd_mb qcd_ms qcd_as U J scale input d) as (F & G & _). rewrite F, G, E. cbn [bind].
  exists (outJ ckm_tree nJE J c p), (outJ ckm_tree nJF J c p).
  split; [exact (run_JE ckm_tree qcd_mb qcd_ms qcd_as J scale input p J_good p_ok c M)|].
  split; [exact (run_JF ckm_tree qcd_mb qcd_ms qcd_as J scale input p J_good p_ok c)|]. split; intros k k' I.
  - exact (eos_equal ckm_tree qcd_mb qcd_ms qcd_as J scale input p J_good p_ok c k k' M I).
  - exact (eos_times_mb ckm_tree qcd_mb qcd_ms qcd_as J scale input p J_good p_ok c k k' M I).
Qed.
Theorem C28_errors : forall d e, to_jms d = Err e -> to_flavio' d = Err e /\ to_bern' d = Err e /\ to_eos' d = Err e.
Proof.
  intros d e E. destruct (via_jms ckm_tree qcd_mb qcd_ms qcd_as U J scale input d) as (F & G & H). rewrite F, G, H, E. auto.
Qed.
(** The flavio, Bern and EOS coefficients do not depend on the choice of the listed JMS coefficients. *)
Theorem C28_listing : forall J' d, good J' -> to_flavio' d = warsaw_to_flavio ckm_tree qcd_mb qcd_ms qcd_as U J' scale input d /\
  to_bern' d = warsaw_to_bern ckm_tree qcd_mb qcd_ms qcd_as U J' scale input d /\
  (light p -> to_eos' d = warsaw_to_eos ckm_tree qcd_mb qcd_ms qcd_as U J' scale input d).
Proof. intros J' d G. exact (listing_same ckm_tree qcd_mb qcd_ms qcd_as U J J' scale input p d J_good G p_ok). Qed.
End Matchers.
Example C28_case : good J0 /\ okp ckm1 mb4 ms1 as1 5 None p1 /\ light p1 /\ (NoDup (names bern) /\ incl bern_read (names bern)) /\
  exists c, warsaw_to_jms ckm1 kept_names J0 None dB_ex = Ok c.
Proof.
  split; [exact J0_good|]. split; [exact p1_ok|]. split; [exact p1_light|]. split; [exact (conj bern_nodup bern_read_in)|].
  exact (warsaw_total ckm1 kept_names J0 None dB_ex dB_good dB_no_shift (lists_kept_reps _ kept_names_list) default_sm).
Qed.

(** C49: Warsaw coefficients that shift neither the couplings of W and Z nor muon decay are matched by the tree-level
    formulae [tree_of]; the CKM matrix is seen by left-handed up quarks only. *)
Theorem C49_tree_level : forall ckm_tree U J input d o op s y, let V := ckm_of ckm_tree (merge_params input) in
  unitary V -> good_dict d -> no_shift d -> lists_kept U -> warsaw_to_jms ckm_tree U J input d = Ok o ->
  dget jms_slots op = Some s -> ~ In op unrotated -> In (cname op y) J -> length y = length s ->
  num_of o (cname op y) = entry (new_left is_up (mdag V) s (tree_of input d op)) y.
Proof.
  intros k U J input d o op s y V Hu G N L. exact (warsaw_num k U J input d o op s y Hu G N (lists_kept_reps _ L)).
Qed.
Theorem C49_no_ckm : forall ckm_tree U J input d o op s y, unitary (ckm_of ckm_tree (merge_params input)) -> good_dict d -> no_shift d ->
  lists_kept U -> warsaw_to_jms ckm_tree U J input d = Ok o -> dget jms_slots op = Some s -> ~ In op unrotated ->
  (forall f b c, In (f, b, c) s -> is_up f = true -> c = RH) -> In (cname op y) J -> length y = length s ->
  num_of o (cname op y) = entry (tree_of input d op) y.
Proof.
  intros k U J input d o op s y Hu G N L E S Nu H I Ly.
  rewrite (warsaw_num k U J input d o op s y Hu G N (lists_kept_reps _ L) E S Nu I Ly). rewrite (no_left_same is_up _ s _ H). reflexivity.
Qed.
Theorem C49_defined : forall ckm_tree U J input d, good_dict d -> no_shift d -> lists_kept U -> standard_model (merge_params input) ->
  exists o, warsaw_to_jms ckm_tree U J input d = Ok o.
Proof.
  intros k U J input d G N L S. exact (warsaw_total k U J input d G N (lists_kept_reps _ L) (proj1 (standard_model_ok _) S)).
Qed.
Example C49_case : good_dict dB_ex /\ no_shift dB_ex /\ lists_kept kept_names /\ standard_model (merge_params None) /\
  dget jms_slots "VedLL" = Some (vec LH LH MatchSpec.El MatchSpec.El MatchSpec.Dn MatchSpec.Dn) /\ ~ In "VedLL" unrotated /\
  entry (tree_of None dB_ex "dgamma") [F1; F2] <> C0.
Proof.
  split; [exact dB_good|]. split; [exact dB_no_shift|]. split; [exact kept_names_list|]. split; [exact (proj2 (standard_model_ok _) default_sm)|].
  split; [reflexivity|]. split; [intros H; repeat (destruct H as [H|H]; [discriminate|]); exact H|].
  rewrite dB_tree. intros Z. destruct (weak_c_pos _ default_sm) as [K|K]; apply (f_equal Re) in Z; unfold Re, RtoC, C0 in Z; cbn [fst] in Z; lra.
Qed.

(** C50: GF is measured in muon decay, so New Physics in muon decay is absorbed in the vacuum expectation value: what is
    left of the coefficient is of second order. *)
Theorem C50_muon_decay : forall ckm_tree J d input o, let p := merge_params input in let A := coefficients d in
  match_all ckm_tree J d input = Ok o -> (0 < param p "GF")%R -> (0 < bare_GF A p)%R -> g2 A "phil1" F2 F1 = C0 -> g2 A "phil3" F2 F1 = C0 ->
  In "VnueLL_2112" J ->
  num_of o "VnueLL_2112" = Cneg (Cmul (Cmul (RtoC (sqrt 2 / bare_GF A p)) (g2 A "phil3" F2 F2)) (g2 A "phil3" F1 F1)).
Proof. exact muon_num. Qed.
Example C50_case : forall ckm_tree J, In "VnueLL_2112" J -> exists o, match_all ckm_tree J mu_ex None = Ok o /\
  bare_GF (coefficients mu_ex) default_parameters = param default_parameters "GF" /\
  num_of o "VnueLL_2112" = RtoC (sqrt 2 / param default_parameters "GF").
Proof. exact mu_case. Qed.
Print Assumptions C25_nothing_from_nothing.
Print Assumptions C25_defined.
Print Assumptions C25_needed.
Print Assumptions C26_symmetric.
Print Assumptions C26_nothing_lost.
Print Assumptions C26_fierz_refuted.
Print Assumptions C27_rotated.
Print Assumptions C27_defined.
Print Assumptions C27_undone.
Print Assumptions C27_same_names.
Print Assumptions C27_unrotated_refuted.
Print Assumptions C27_dipole_refuted.
Print Assumptions C28_detour.
Print Assumptions C28_together.
Print Assumptions C28_eos.
Print Assumptions C28_errors.
Print Assumptions C28_listing.
Print Assumptions C49_tree_level.
Print Assumptions C49_no_ckm.
Print Assumptions C49_defined.
Print Assumptions C50_muon_decay.
