(** The translators keep the Lagrangian: the comparisons of LagrChk.v put together with the
    translators of Wet.v. *)
From Coq Require Import String Ascii List Bool Arith ZArith QArith Qreals Reals Lra Lia.
From Verif Require Import PyBase PyDict Cplx Tensor Wc Params Smeft SmeftNames WetExpr Wet WetJms WetNf WetSpec WetChk WetThm WetVals WetList Dirac LagrBases LagrRefl LagrJms LagrSym LagrChk.
Import ListNotations.
Open Scope string_scope.
Open Scope list_scope.
Open Scope nat_scope.
Lemma no_tensor_incl : incl no_tensor jms_ops.
Proof. unfold no_tensor. apply incl_filter. Qed.
#[local] Opaque JMS_to_Bern_prog JMS_to_flavio_prog JMS_to_FormFlavor_prog JMS_to_EOS_prog Bern_to_flavio_prog flavio_to_Bern_prog.
#[local] Opaque nf nf_ok deqb leqb nJB nJF nJX nJE nBF nFB jms_ops bern_ops matches ff_df2 ff_lep ff_fix flavio_df2 fo_cc fo_lep fo_nu eo_cc eo_lep.

(** The example listing has no two members of an orbit. *)
Lemma T0_nonred : forallb (fun op => match dget T0 op with Some xs => forallb (fun x => forallb (fun m =>
    negb (existsb (idx_eqb (fst m)) xs) || idx_eqb (fst m) x) (members op x)) xs | None => true end) (herm_ops ++ cur_ops ++ both_ops) = true.
Proof. vm_cast_no_check (eq_refl true). Qed.
Lemma shaped_no_us : forallb no_us (herm_ops ++ cur_ops ++ both_ops) = true.
Proof. vm_compute. reflexivity. Qed.
Lemma J0_nonredundant : nonredundant J0.
Proof.
  intros op x m M A B.
  destruct (mem op (herm_ops ++ cur_ops ++ both_ops)) eqn:S.
  - apply mem_In in S. pose proof shaped_no_us as N. rewrite forallb_forall in N. specialize (N op S).
    destruct (tab_in T0 T0_ok op x N A) as (xs & A1 & A2). destruct (tab_in T0 T0_ok op _ N B) as (ys & B1 & B2).
    rewrite (tab_fun T0 T0_ok _ _ _ B1 A1) in B2. pose proof T0_nonred as Q. rewrite forallb_forall in Q. specialize (Q op S).
    rewrite (In_dget _ _ _ (tab_wf T0 T0_ok) A1) in Q. rewrite forallb_forall in Q. specialize (Q x A2). rewrite forallb_forall in Q. specialize (Q m M).
    apply orb_true_iff in Q. destruct Q as [Q|Q]; [|apply idx_eqb_eq; exact Q]. apply negb_true_iff in Q.
    assert (existsb (idx_eqb (fst m)) xs = true) as E; [|congruence]. apply existsb_exists. exists (fst m). split; auto. apply idx_eqb_eq. reflexivity.
  - assert (forall l, incl l (herm_ops ++ cur_ops ++ both_ops) -> mem op l = false) as N.
    { intros l I. destruct (mem op l) eqn:E; auto. apply mem_In in E. rewrite (proj2 (mem_In _ op _) (I _ E)) in S. discriminate. }
    unfold members in M. rewrite !N in M; try (intros y Hy; rewrite !in_app_iff; auto). destruct M as [<-|[]]. reflexivity.
Qed.

Section Thm.
Variable ckm_tree : R -> R -> R -> R -> mat.
Variable qcd_mb qcd_ms : R -> R -> R -> res R.
Variable qcd_as : R -> R -> res R.
Notation okp := (okp ckm_tree qcd_mb qcd_ms qcd_as).
Notation jenv := (jenv ckm_tree).
Notation outJ := (outJ ckm_tree).
Variables (J : list string) (scale : R) (input : option params) (p : params).
Hypothesis (GJ : good J) (NR : nonredundant J) (GP : okp scale input p).
Notation V := (ckm_of ckm_tree p).

(** *** The factors *)
Lemma sqrt2_nz : sqrt 2 <> 0%R.
Proof. intros E. apply sqrt_eq_0 in E; lra. Qed.
Lemma rt2_val c : aval (jenv J c p) rt2 = RtoC (sqrt 2).
Proof.
  unfold rt2, aval, sval, strip. cbn [eval jenv WetNf.jenv bind]. unfold qc. cbn [Im Re RtoC fst snd].
  destruct (Req_EM_T 0 0) as [_|N]; [|congruence]. destruct (Rlt_dec (2 / 1) 0) as [N|_]; [lra|]. cbn [Re RtoC fst]. do 2 f_equal. field.
Qed.
Lemma q2r_pos k d : Q2R (Z.pos k # d) = (IZR (Z.pos k) / IZR (Z.pos d))%R.
Proof. reflexivity. Qed.
Lemma rt2_nz : RtoC (sqrt 2) <> C0.
Proof. apply RtoC_neq0, sqrt2_nz. Qed.
Lemma pi_nz : RtoC PI <> C0.
Proof. apply RtoC_neq0, PI_neq0. Qed.
Lemma gf4_val c : cfval (jenv J c p) gf4 = RtoC (G4 p).
Proof.
  pose proof rt2_nz as N. unfold cfval, gf4, mval. cbn [fst snd prod]. rewrite rt2_val. cbn [aval jenv WetNf.jenv e_par]. change (e_par _) with p.
  unfold G4, Q2R. cbn [Qnum Qden]. replace (4 * / 1)%R with 4%R by field. rewrite RtoC_div, RtoC_mul by apply sqrt2_nz. field. exact N.
Qed.
Lemma one_cf c : cfval (jenv J c p) (1%Q, mone) = C1.
Proof. unfold cfval. cbn [fst snd]. rewrite mone_val. replace (Q2R 1) with 1%R by (unfold Q2R; simpl; field). change (RtoC 1) with C1. ring. Qed.
Lemma eight_cf c : cfval (jenv J c p) (8%Q, mone) = RtoC 8.
Proof. unfold cfval. cbn [fst snd]. rewrite mone_val. replace (Q2R 8) with 8%R by (unfold Q2R; simpl; field). ring. Qed.
Lemma cc_val c ud : cfval (jenv J c p) (cc_s ud) = Cneg (Cmul (RtoC (G4 p)) (V (fst ud) (snd ud))).
Proof.
  pose proof rt2_nz as N. unfold cfval, cc_s, mval. cbn [fst snd prod]. rewrite rt2_val. cbn [aval cj jenv WetNf.jenv e_par]. change (e_par _) with p.
  change (e_ckm _) with V. unfold G4, Q2R. cbn [Qnum Qden]. replace (-4 * / 1)%R with (- (4))%R by field. rewrite RtoC_div, RtoC_mul, RtoC_opp by apply sqrt2_nz.
  field. exact N.
Qed.
Lemma ee_val c : Cmul (aval (jenv J c p) (rt4pi "alpha_e")) (aval (jenv J c p) (rt4pi "alpha_e")) = RtoC (4 * PI * param p "alpha_e").
Proof.
  rewrite (rt_val ckm_tree qcd_mb qcd_ms qcd_as J scale input p GJ GP c "alpha_e") by (left; reflexivity). rewrite <- RtoC_mul, sqrt_sqrt; auto.
  destruct GP as (_ & _ & A & B & _). pose proof PI_RGT_0 as Q.
  assert (0 < param p "alpha_e")%R as P by assumption. pose proof (Rmult_lt_0_compat _ _ Q P). lra.
Qed.
Lemma fcnc_val c q n x : cfval (jenv J c p) (fcnc_s q n x) = Cmul (Cmul (RtoC (4 * Q2R n)) (prod (jenv J c p) x)) (fcnc p V q).
Proof.
  pose proof rt2_nz as N. pose proof pi_nz as N1. unfold cfval, fcnc_s, mval. cbn [fst snd prod app]. rewrite rt2_val. pose proof (ee_val c) as E.
  set (e := aval (jenv J c p) (rt4pi "alpha_e")) in *. cbn [aval cj jenv WetNf.jenv e_par]. change (e_par _) with p. change (e_ckm _) with V.
  set (X := prod _ x). unfold fcnc, G4, a4pi. rewrite !RtoC_mul in E.
  assert (RtoC 4 <> C0) as N4 by (apply RtoC_neq0; lra).
  assert ((4 * PI)%R <> 0%R) as Np by (pose proof PI_RGT_0; lra).
  rewrite RtoC_mul, RtoC_mul, !RtoC_div, !RtoC_mul by (assumption || apply sqrt2_nz).
  transitivity (Cdiv (Cmul (RtoC (Q2R n)) (Cmul (RtoC (param p "GF")) (Cmul (V F3 (snd q)) (Cmul (Cconj (V F3 (fst q))) (Cmul (Cmul e e) X)))))
    (Cmul (RtoC (sqrt 2)) (Cmul (RtoC PI) (RtoC PI)))); [field; auto|]. rewrite E. field. auto.
Qed.
Lemma quarter : RtoC (4 * Q2R (1 # 4)) = C1.
Proof. replace (4 * Q2R (1 # 4))%R with 1%R by (unfold Q2R; simpl; field). reflexivity. Qed.
Lemma half4 : RtoC (4 * Q2R (1 # 2)) = RtoC 2.
Proof. f_equal. unfold Q2R; simpl; field. Qed.
Lemma fcnc1 c q : cfval (jenv J c p) (fcnc_s q (1 # 4) []) = fcnc p V q.
Proof. rewrite fcnc_val, quarter. cbn [prod]. ring. Qed.
Lemma fcnc2 c q : cfval (jenv J c p) (fcnc_s q (1 # 2) []) = Cmul (RtoC 2) (fcnc p V q).
Proof. rewrite fcnc_val, half4. cbn [prod]. ring. Qed.
Lemma fcncm c q : cfval (jenv J c p) (fcnc_s q (1 # 4) [APar "m_b"]) = Cmul (RtoC (param p "m_b")) (fcnc p V q).
Proof. rewrite fcnc_val, quarter. cbn [prod aval]. change (e_par _) with p. ring. Qed.

(** *** The comparisons *)
Section Compare.
Variables (ops : dict string jms_op) (g : list (coef * table)) (n : dict string lform) (t : table) (h : list group).
Hypothesis IN : incl ops jms_ops.
Hypothesis M : matches ops amJ (sgroups amJ g (canonical amJ n)) t = true.
Lemma compare c x y z w : map (fun ct => (cfval (jenv J c p) (fst ct), snd ct)) g = h -> covered t x y z w ->
  amplitude (L_on ops J c) x y z w = amplitude (L_groups h (outJ n J c p)) x y z w.
Proof.
  intros E K. pose proof (amJ_ok ckm_tree qcd_mb qcd_ms qcd_as J scale input p GJ GP c) as OK.
  rewrite (jms_same ckm_tree J p GJ NR ops amJ c _ t x y z w IN OK M K).
  rewrite (sgroups_den amJ _ _ _ OK). unfold canonical. rewrite E. f_equal. apply L_groups_ext. intros k.
  apply (canon_out ckm_tree J p GJ NR); auto.
Qed.
End Compare.
Lemma one_group f t c : L_groups [(f, t)] c = L_of f t c.
Proof. unfold L_groups. cbn [flat_map fst snd]. apply app_nil_r. Qed.

Theorem bern_same c x y z w : covered bern_ops x y z w ->
  amplitude (L_JMS J c) x y z w = amplitude (L_Bern p (outJ nJB J c p)) x y z w.
Proof.
  intros K. unfold L_Bern. rewrite <- one_group. apply (compare _ _ _ _ _ (incl_refl _) bern_agrees); auto.
  unfold bern_s. cbn [map fst snd]. rewrite gf4_val. reflexivity.
Qed.
Lemma ops_map {A} (f : A * table -> C) s : ops_of (map (fun ct => (f ct, snd ct)) s) = tables s.
Proof. unfold ops_of, tables. induction s as [|ct s IH]; auto. cbn [map flat_map snd]. rewrite IH. reflexivity. Qed.
Theorem flavio_same c x y z w : covered (ops_of (flavio_groups p V)) x y z w ->
  amplitude (L_JMS_no_tensor J c) x y z w = amplitude (L_flavio p V (outJ nJF J c p)) x y z w.
Proof.
  intros K. assert (map (fun ct => (cfval (jenv J c p) (fst ct), snd ct)) flavio_s = flavio_groups p V) as E.
  { unfold flavio_s, flavio_groups. rewrite !map_app, !map_map. cbn [map fst snd]. rewrite one_cf. f_equal. f_equal.
    - apply map_ext. intros ud. rewrite cc_val. reflexivity.
    - rewrite !fcnc1, !fcnc2, !fcncm. reflexivity. }
  unfold L_flavio, L_JMS_no_tensor. apply (compare _ _ _ _ _ no_tensor_incl flavio_agrees); [exact E|].
  rewrite <- E in K. rewrite (ops_map (fun ct => cfval (jenv J c p) (fst ct))) in K. exact K.
Qed.
Theorem eos_same c x y z w : covered (ops_of (eos_groups p V)) x y z w ->
  amplitude (L_JMS J c) x y z w = amplitude (L_EOS p V (outJ nJE J c p)) x y z w.
Proof.
  intros K. assert (map (fun ct => (cfval (jenv J c p) (fst ct), snd ct)) eos_s = eos_groups p V) as E.
  { unfold eos_s, eos_groups. cbn [map fst snd]. rewrite cc_val, fcnc1. reflexivity. }
  unfold L_EOS. apply (compare _ _ _ _ _ (incl_refl _) eos_agrees); [exact E|].
  rewrite <- E in K. rewrite (ops_map (fun ct => cfval (jenv J c p) (fst ct))) in K. exact K.
Qed.
Theorem ff_lep_same c x y z w : covered ff_lep x y z w ->
  amplitude (L_JMS J c) x y z w = amplitude (L_of C1 ff_lep (outJ nJX J c p)) x y z w.
Proof.
  intros K. rewrite <- one_group. apply (compare _ _ _ _ _ (incl_refl _) ff_agrees); auto. unfold ff_s. cbn [map fst snd]. rewrite one_cf. reflexivity.
Qed.
Theorem ff_df2_same c x y z w : covered ff_df2 x y z w ->
  amplitude (L_JMS J c) x y z w = amplitude (L_of C1 ff_df2 (outJ nJX J c p) ++ L_of (RtoC 8) ff_fix (outJ nJX J c p)) x y z w.
Proof.
  intros K. unfold L_JMS. rewrite (compare jms_ops ff2_s nJX ff_df2 _ (incl_refl _) ff2_agrees c x y z w eq_refl K). unfold ff2_s, L_groups. cbn [map flat_map fst snd]. rewrite one_cf, eight_cf, app_nil_r.
  reflexivity.
Qed.
End Thm.

(** *** Without arrays *)
Lemma aval_env v v' a : e_par v = e_par v' -> e_ckm v = e_ckm v' -> aval v a = aval v' a.
Proof. intros A B. destruct a; cbn [aval]; unfold sval, strip; rewrite ?A, ?B; reflexivity. Qed.
Lemma prod_env v v' l : e_par v = e_par v' -> e_ckm v = e_ckm v' -> prod v l = prod v' l.
Proof. intros A B. induction l as [|a l IH]; [reflexivity|]. cbn [prod]. rewrite IH, (aval_env v v') by auto. reflexivity. Qed.
Lemma cf_env v v' c : e_par v = e_par v' -> e_ckm v = e_ckm v' -> cfval v c = cfval v' c.
Proof. intros A B. unfold cfval, mval. rewrite !(prod_env v v') by auto. reflexivity. Qed.
Lemma cf_fill ckm_tree B K c c' p x : cfval (fenv ckm_tree B c p) x = cfval (jenv ckm_tree K c' p) x.
Proof. apply cf_env; reflexivity. Qed.
Lemma L_of_ext_in f t c c' : (forall k, In k (map fst t) -> num_of c k = num_of c' k) -> L_of f t c = L_of f t c'.
Proof.
  intros H. unfold L_of. induction t as [|[k o] t IH]; [reflexivity|]. cbn [flat_map fst snd]. rewrite IH, (H k); auto.
  - left. reflexivity.
  - intros k' I. apply H. right. exact I.
Qed.
Lemma L_groups_ext_in g c c' : (forall k, In k (map fst (ops_of g)) -> num_of c k = num_of c' k) -> L_groups g c = L_groups g c'.
Proof.
  intros H. unfold L_groups. induction g as [|[f t] g IH]; [reflexivity|]. cbn [flat_map fst snd]. rewrite IH, (L_of_ext_in f t c c'); auto.
  - intros k I. apply H. unfold ops_of. cbn [flat_map snd]. rewrite map_app, in_app_iff. auto.
  - intros k I. apply H. unfold ops_of. cbn [flat_map snd]. rewrite map_app, in_app_iff. auto.
Qed.
Lemma idf_get t k : In k (map fst t) -> getf (idf t) k = var k.
Proof.
  unfold getf, idf. induction t as [|[k' o] t IH]; [intros []|]. cbn [map fst dget]. destruct (keqb k k') eqn:E.
  - apply keqb_eq in E. subst. reflexivity.
  - intros [->|I]; [rewrite keqb_refl in E; discriminate|]. apply IH, I.
Qed.
Lemma groups_two v g1 n1 g2 n2 x y z w : env_ok am0 v ->
  amplitude (den v (sgroups am0 g1 n1)) x y z w = amplitude (den v (sgroups am0 g2 n2)) x y z w ->
  amplitude (L_groups (map (fun ct => (cfval v (fst ct), snd ct)) g1) (dmap (lval v) n1)) x y z w =
  amplitude (L_groups (map (fun ct => (cfval v (fst ct), snd ct)) g2) (dmap (lval v) n2)) x y z w.
Proof. intros OK. rewrite !(sgroups_den am0 _ _ _ OK). auto. Qed.
Lemma groups_three v g1 n1 g2 n2 g3 n3 x y z w : env_ok am0 v ->
  amplitude (den v (sgroups am0 g1 n1)) x y z w = amplitude (den v (sgroups am0 g2 n2 ++ sgroups am0 g3 n3)) x y z w ->
  amplitude (L_groups (map (fun ct => (cfval v (fst ct), snd ct)) g1) (dmap (lval v) n1)) x y z w =
  amplitude (L_groups (map (fun ct => (cfval v (fst ct), snd ct)) g2) (dmap (lval v) n2) ++
    L_groups (map (fun ct => (cfval v (fst ct), snd ct)) g3) (dmap (lval v) n3)) x y z w.
Proof. intros OK. rewrite den_app, !(sgroups_den am0 _ _ _ OK). auto. Qed.
Section Flat.
Variable ckm_tree : R -> R -> R -> R -> mat.
Variable qcd_mb qcd_ms : R -> R -> R -> res R.
Variable qcd_as : R -> R -> res R.
Notation okp := (okp ckm_tree qcd_mb qcd_ms qcd_as).
Notation fenv := (fenv ckm_tree).
Notation outG := (outG ckm_tree).
Variables (scale : R) (input : option params) (p : params).
Hypothesis (GP : okp scale input p).
Notation V := (ckm_of ckm_tree p).
Section Listing.
Variables (B : list string) (ND : NoDup B).
Lemma cf_flat c x : cfval (fenv B c p) x = cfval (jenv ckm_tree J0 c p) x.
Proof. exact (cf_fill ckm_tree B J0 c c p x). Qed.
Lemma flavio_factors c : map (fun ct => (cfval (fenv B c p) (fst ct), snd ct)) flavio_s = flavio_groups p V.
Proof.
  unfold flavio_s, flavio_groups. rewrite !map_app, !map_map. cbn [map fst snd]. rewrite cf_flat, one_cf. f_equal. f_equal.
  - apply map_ext. intros ud. rewrite cf_flat, cc_val. reflexivity.
  - rewrite !cf_flat, !(fcnc1 ckm_tree qcd_mb qcd_ms qcd_as J0 scale input p J0_good GP), !(fcnc2 ckm_tree qcd_mb qcd_ms qcd_as J0 scale input p J0_good GP),
      !(fcncm ckm_tree qcd_mb qcd_ms qcd_as J0 scale input p J0_good GP). reflexivity.
Qed.
Lemma bern_factors c : map (fun ct => (cfval (fenv B c p) (fst ct), snd ct)) bern_s = [(RtoC (G4 p), bern_ops)].
Proof. unfold bern_s. cbn [map fst snd]. rewrite cf_flat, gf4_val. reflexivity. Qed.
Lemma tensor_factors c : map (fun ct => (cfval (fenv B c p) (fst ct), snd ct)) tensors_s = bern_tensors p.
Proof.
  unfold tensors_s, bern_tensors. cbn [map fst snd]. rewrite !cf_flat, gf4_val.
  assert (cfval (jenv ckm_tree J0 c p) ((-64)%Q, snd gf4) = RtoC (- (16) * G4 p)) as ->; [|reflexivity].
  pose proof (gf4_val ckm_tree J0 p c) as E. unfold cfval in *. change (fst gf4) with 4%Q in E. cbn [fst snd]. rewrite RtoC_mul, <- E.
  replace (Q2R (-64)) with (- (16) * Q2R 4)%R by (unfold Q2R; simpl; field). rewrite RtoC_mul. ring.
Qed.
Lemma ids_den g c : incl (map fst (tables g)) B ->
  L_groups (map (fun ct => (cfval (fenv B c p) (fst ct), snd ct)) g) (dmap (lval (fenv B c p)) (idf (tables g))) =
  L_groups (map (fun ct => (cfval (fenv B c p) (fst ct), snd ct)) g) c.
Proof.
  intros I. apply L_groups_ext_in. intros k K. rewrite (ops_map (fun ct => cfval (fenv B c p) (fst ct))) in K. rewrite dget_dmap_lval, idf_get by exact K.
  unfold var. cbn [lval dtval cj fst snd]. rewrite get0_fenv by auto. unfold cfval. cbn [fst snd]. rewrite mone_val.
  replace (Q2R 1) with 1%R by (unfold Q2R; simpl; field). change (RtoC 1) with C1. ring.
Qed.
End Listing.
Lemma flat_same B c S L t x y z w : agree am0 S L (quads t) = true -> covered t x y z w ->
  amplitude (den (fenv B c p) S) x y z w = amplitude (den (fenv B c p) L) x y z w.
Proof.
  intros H (k & o & I & Lg). revert Lg. apply by_order. clear x y z w. intros x y z w Or.
  apply (agree_val am0 _ (fenv_ok ckm_tree qcd_mb qcd_ms qcd_as B c scale input p GP) S L (quads t)); auto. exact (quads_in _ _ _ _ _ _ _ I Or).
Qed.
Theorem bern_flavio_same B c x y z w : NoDup B -> incl (map fst bern_ops) B -> covered (ops_of (flavio_groups p V)) x y z w ->
  amplitude (L_Bern p c) x y z w = amplitude (L_flavio p V (outG nBF B c p) ++ L_groups (bern_tensors p) c) x y z w.
Proof.
  intros ND I K. pose proof (fenv_ok ckm_tree qcd_mb qcd_ms qcd_as B c scale input p GP) as OK.
  assert (covered (tables flavio_s) x y z w) as K'.
  { rewrite <- (ops_map (fun ct => cfval (fenv B c p) (fst ct))), flavio_factors. exact K. }
  pose proof (flat_same B c _ _ _ x y z w bf_agrees K') as E. apply (groups_three _ bern_s _ flavio_s nBF tensors_s _ _ _ _ _ OK) in E.
  rewrite (ids_den B ND tensors_s c) in E.
  2: { intros k Ik. apply I. pose proof tensors_listed as Q. rewrite forallb_forall in Q. specialize (Q k Ik). apply mem_In in Q. exact Q. }
  assert (tables bern_s = bern_ops) as Tb by (unfold tables, bern_s; cbn [flat_map snd]; apply app_nil_r).
  rewrite <- Tb in E. rewrite (ids_den B ND bern_s c) in E by (rewrite Tb; exact I).
  rewrite bern_factors, flavio_factors, tensor_factors in E. unfold L_Bern, L_flavio. rewrite <- one_group. exact E.
Qed.
Theorem flavio_bern_same F c x y z w : NoDup F -> incl (map fst (ops_of (flavio_groups p V))) F -> covered flavio_no_sd x y z w ->
  amplitude (L_flavio p V c) x y z w = amplitude (L_Bern p (outG nFB F c p)) x y z w.
Proof.
  intros ND I K. pose proof (fenv_ok ckm_tree qcd_mb qcd_ms qcd_as F c scale input p GP) as OK.
  pose proof (flat_same F c _ _ _ x y z w fb_agrees K) as E. apply (groups_two _ flavio_s _ bern_s nFB _ _ _ _ OK) in E.
  rewrite (ids_den F ND flavio_s c) in E.
  2: { rewrite <- (ops_map (fun ct => cfval (fenv F c p) (fst ct))), flavio_factors. exact I. }
  rewrite bern_factors, flavio_factors, one_group in E. exact E.
Qed.
End Flat.
