(** The translators keep the dipole Lagrangian: the amplitudes of Dipole.v compared through the
    normal forms of WetChk.v. *)
From Coq Require Import String Ascii List Bool Arith ZArith QArith Qreals Reals Lra Lia.
From Verif Require Import PyBase PyDict Cplx Tensor Wc Params Smeft SmeftNames WetExpr Wet WetJms WetNf WetSpec WetChk WetThm WetVals WetList Dirac LagrBases LagrRefl LagrJms LagrSym LagrChk LagrThm Dipole.
Import ListNotations.
Open Scope string_scope.
Open Scope list_scope.
Open Scope nat_scope.
#[local] Opaque Ceq_dec.

(** ** The vertex *)
Fixpoint chi (s : sigp) : bool := match s with SigP r => r | BarD s' => negb (chi s') end.
Lemma bar_sig r mu nu : sigpm (BarD (SigP r)) (ln mu) (ln nu) = sigpm (SigP (negb r)) (ln mu) (ln nu).
Proof. destruct r, mu, nu; vm_compute; reflexivity. Qed.
Lemma sigpm_chi s mu nu : sigpm s (ln mu) (ln nu) = sigpm (SigP (chi s)) (ln mu) (ln nu).
Proof.
  induction s as [r|s IH]; [reflexivity|]. cbn [chi]. rewrite <- bar_sig. cbn [sigpm] in *. rewrite IH. reflexivity.
Qed.
Definition bvert (r : bool) (x y : leg) (g : quantum) : C :=
  Cmul (gC (gent (sigpm (SigP r) (ln (q_mu g)) (ln (q_nu g))) (sn (l_s x)) (sn (l_s y))))
       (match q_boson g with Photon => delta (l_f x) (l_h x) (l_h y) | Gluon => generator (q_A g) (l_h x) (l_h y) end).
Definition dkey := (fermion * fermion * boson)%type.
Definition key_of (x y : leg) (g : quantum) : dkey := (l_f x, l_f y, q_boson g).
Definition okey (o : dipole) : dkey := (d_1 o, d_2 o, d_boson o).
Definition dfits (o : dipole) (k : dkey) : bool :=
  match k with (a, b, z) => fermion_eqb (d_1 o) a && fermion_eqb (d_2 o) b && boson_eqb (d_boson o) z end.
Lemma boson_eqb_eq a b : boson_eqb a b = true -> a = b.
Proof. destruct a, b; simpl; congruence. Qed.
Lemma dvertex_val o x y g : dvertex o x y g = if dfits o (key_of x y g) then bvert (chi (d_sig o)) x y g else C0.
Proof.
  unfold dvertex, dfits, key_of. destruct (fermion_eqb (d_1 o) (l_f x)) eqn:A; [|reflexivity]. destruct (fermion_eqb (d_2 o) (l_f y)); [|reflexivity].
  destruct (boson_eqb (d_boson o) (q_boson g)) eqn:B; [|reflexivity]. cbn [andb].
  apply fermion_eqb_eq in A. apply boson_eqb_eq in B. rewrite sigpm_chi. unfold bvert, dcolour. rewrite B, A. reflexivity.
Qed.

(** ** Symbolic Lagrangians *)
Definition sdlagr := list (lform * dipole).
Definition scoef (a : asm) (l : sdlagr) (k : dkey) (r : bool) : lform :=
  fold_right (fun t s => if dfits (snd t) k && Bool.eqb (chi (d_sig (snd t))) r then ladd a (fst t) s else s) [] l.
Definition dden (v : env) (l : sdlagr) : dlagrangian := map (fun t => (lval v (fst t), snd t)) l.
Lemma dden_val a v l x y g : env_ok a v ->
  damplitude (dden v l) x y g = Cadd (Cmul (lval v (scoef a l (key_of x y g) true)) (bvert true x y g)) (Cmul (lval v (scoef a l (key_of x y g) false)) (bvert false x y g)).
Proof.
  intros OK. unfold damplitude, dden, scoef. induction l as [|t l IH]; [cbn [map fold_right lval]; ring|]. cbn [map fold_right fst snd]. rewrite IH, dvertex_val.
  destruct (dfits (snd t) (key_of x y g)); cbn [andb]; [|ring]. destruct (chi (d_sig (snd t))); cbn [Bool.eqb]; rewrite (ladd_val a v OK); ring.
Qed.
Definition dagree (a : asm) (S L : sdlagr) (ks : list dkey) : bool :=
  forallb (fun k => leqb a (scoef a S k true) (scoef a L k true) && leqb a (scoef a S k false) (scoef a L k false)) ks.
Lemma dagree_val a v S L ks x y g : env_ok a v -> dagree a S L ks = true -> In (key_of x y g) ks ->
  damplitude (dden v S) x y g = damplitude (dden v L) x y g.
Proof.
  intros OK H I. unfold dagree in H. rewrite forallb_forall in H. specialize (H _ I). apply andb_true_iff in H. destruct H as [A B].
  rewrite !(dden_val a v) by auto. rewrite (leqb_val a v _ _ OK A), (leqb_val a v _ _ OK B). reflexivity.
Qed.
Definition sdplus (f : lform) (o : dipole) : sdlagr := [(f, o); (lconj f, dagd o)].
Definition sLD_of (a : asm) (factor : coef) (n : dict string lform) (t : dtable) : sdlagr :=
  flat_map (fun ko => sdplus (lscale a factor (getf n (fst ko))) (snd ko)) t.
Definition sLD (a : asm) (g : list (coef * dtable)) (n : dict string lform) : sdlagr := flat_map (fun ct => sLD_of a (fst ct) n (snd ct)) g.
Lemma dden_app v l m : dden v (l ++ m) = dden v l ++ dden v m.
Proof. apply map_app. Qed.
Lemma dden_flat {A} v (f : A -> sdlagr) l : dden v (flat_map f l) = flat_map (fun x => dden v (f x)) l.
Proof. induction l as [|x l IH]; auto. cbn [flat_map]. rewrite dden_app, IH. reflexivity. Qed.
Lemma damplitude_app l m x y g : damplitude (l ++ m) x y g = Cadd (damplitude l x y g) (damplitude m x y g).
Proof. unfold damplitude. induction l as [|a l IH]; simpl; [ring|]. rewrite IH. ring. Qed.
Lemma damplitude_flat {A} (f : A -> dlagrangian) l x y g : damplitude (flat_map f l) x y g = lsum (fun a => damplitude (f a) x y g) l.
Proof. induction l as [|a l IH]; simpl; auto. rewrite damplitude_app, IH. reflexivity. Qed.
Lemma sLD_den a v g n : env_ok a v -> dden v (sLD a g n) = LD_groups (map (fun ct => (cfval v (fst ct), snd ct)) g) (dmap (lval v) n).
Proof.
  intros OK. unfold sLD, LD_groups. rewrite dden_flat. induction g as [|[c t] g IH]; auto. cbn [flat_map map fst snd]. rewrite IH. f_equal.
  unfold sLD_of, LD_of. rewrite dden_flat. apply flat_map_ext. intros [k o]. cbn [fst snd sdplus dden map dplus_hc].
  rewrite lconj_val, (lscale_val a v OK), dget_dmap_lval. reflexivity.
Qed.

(** ** The JMS side *)
Definition sJd : sdlagr :=
  flat_map (fun no => flat_map (fun x => if jms_ix (fst no) x then sdplus [(DArr (fst no) x false, (1%Q, mone))] (jms_dip (snd no) x) else []) idx2) jms_dips.
Definition ddead (ks : list dkey) : bool :=
  forallb (fun k => forallb (fun no => forallb (fun x => jms_ix (fst no) x || negb (dfits (jms_dip (snd no) x) k) && negb (dfits (dagd (jms_dip (snd no) x)) k)) idx2) jms_dips) ks.
Definition dkeys_of (t : dtable) : list dkey := flat_map (fun ko => [okey (snd ko); okey (dagd (snd ko))]) t.
Definition dmatches (a : asm) (L : sdlagr) (t : dtable) : bool := let ks := dkeys_of t in ddead ks && dagree a sJd L ks.
Lemma dcovered_key t x y g : dcovered t x y g -> In (key_of x y g) (dkeys_of t).
Proof.
  intros (k & o & I & B & H). apply in_flat_map. exists (k, o). split; auto. cbn [snd In]. unfold key_of, okey, dagd. cbn [d_1 d_2 d_boson]. rewrite B.
  destruct H as [[-> ->]|[-> ->]]; auto.
Qed.
Lemma dip_members op x : dmem jms_dips op = true -> members op x = [(x, false)].
Proof.
  unfold dmem. cbn [jms_dips dget]. intros H.
  repeat (destruct (keqb op _) eqn:E in H; [apply keqb_eq in E; subst; reflexivity|]; clear E). discriminate.
Qed.
Section Jms.
Variable ckm_tree : R -> R -> R -> R -> mat.
Variable qcd_mb qcd_ms : R -> R -> R -> res R.
Variable qcd_as : R -> R -> res R.
Notation okp := (okp ckm_tree qcd_mb qcd_ms qcd_as).
Notation jenv := (jenv ckm_tree).
Notation outJ := (outJ ckm_tree).
Variables (J : list string) (scale : R) (input : option params) (p : params).
Hypothesis (GJ : good J) (GP : okp scale input p).
Notation V := (ckm_of ckm_tree p).
Lemma dip_listed op x : dmem jms_dips op = true -> jms_ix op x = true -> In (cname op x) J.
Proof.
  intros D H. destruct GJ as [_ Hc]. destruct (Hc op x H) as (m & I & L). rewrite (dip_members op x D) in I. destruct I as [<-|[]]. exact L.
Qed.
Lemma dip_arr c op x : dmem jms_dips op = true -> jms_ix op x = true -> arr0 (jenv J c p) op x = num_of c (cname op x).
Proof.
  intros D H. rewrite (value_arr ckm_tree J p GJ) by auto. unfold value, entry_of, pick. rewrite (dip_members op x D). cbn [List.find fst].
  rewrite (proj2 (mem_In _ _ J) (dip_listed op x D H)). reflexivity.
Qed.
Lemma sJd_val c ks x y g : ddead ks = true -> In (key_of x y g) ks ->
  damplitude (L_JMS_dip J c) x y g = damplitude (dden (jenv J c p) sJd) x y g.
Proof.
  intros Dd I. unfold L_JMS_dip, sJd. rewrite dden_flat, !damplitude_flat. apply lsum_ext. intros [name fb] M.
  assert (dmem jms_dips name = true) as DM.
  { unfold dmem. destruct (dget jms_dips name) eqn:E; auto. exfalso.
    cbn [jms_dips In] in M. repeat (destruct M as [M|M]; [injection M as <- <-; discriminate|]). destruct M. }
  cbn [fst snd]. rewrite dden_flat, !damplitude_flat. apply lsum_ext. intros i Ii.
  destruct (jms_ix name i) eqn:X.
  - rewrite (proj2 (mem_In _ _ J) (dip_listed name i DM X)). cbn [dden map sdplus fst snd dplus_hc]. rewrite lconj_val.
    cbn [lval dtval cj fst snd]. rewrite (dip_arr c name i DM X). unfold cfval. cbn [fst snd]. rewrite mone_val.
    replace (Q2R 1) with 1%R by (unfold Q2R; simpl; field). change (RtoC 1) with C1.
    replace (Cadd (Cmul (Cmul C1 C1) (num_of c (cname name i))) C0) with (num_of c (cname name i)) by ring. reflexivity.
  - unfold ddead in Dd. rewrite forallb_forall in Dd. specialize (Dd _ I). rewrite forallb_forall in Dd. specialize (Dd _ M). cbn [fst snd] in Dd.
    rewrite forallb_forall in Dd. specialize (Dd _ Ii). rewrite X in Dd. cbn [orb] in Dd. apply andb_true_iff in Dd. destruct Dd as [A B].
    apply negb_true_iff in A. apply negb_true_iff in B. destruct (mem _ J); [|reflexivity].
    cbn [damplitude dplus_hc dden map fold_right fst snd]. rewrite !dvertex_val, A, B. ring.
Qed.
Lemma djms_same a c L t x y g : env_ok a (jenv J c p) -> dmatches a L t = true -> dcovered t x y g ->
  damplitude (L_JMS_dip J c) x y g = damplitude (dden (jenv J c p) L) x y g.
Proof.
  intros OK H K. apply dcovered_key in K. unfold dmatches in H. cbv zeta in H. apply andb_true_iff in H. destruct H as [Dd Ag].
  rewrite (sJd_val c (dkeys_of t)) by auto. eapply dagree_val; eauto.
Qed.
End Jms.

(** ** The comparisons *)
Definition re : atom := rt4pi "alpha_e".
Definition rg : atom := rt4pi "alpha_s".
Definition bern_ds (qs : list (fl * fl)) : list (coef * dtable) :=
  [((4%Q, ([APar "GF"; APar "m_b"; re], [rt2; rg; rg])), flat_map (bd Photon "7gamma" "7pgamma") qs);
   ((4%Q, ([APar "GF"; APar "m_b"], [rt2; rg])), flat_map (bd Gluon "8g" "8pg") qs)].
Definition dip_s (q : fl * fl) (m : string) (g : atom) : coef :=
  (1 # 4, ([APar "GF"; APar m; g; AV F3 (snd q) false; AV F3 (fst q) true], [rt2; APi; APi])).
Definition flavio_ds : list (coef * dtable) :=
  flat_map (fun q => [(dip_s q "m_b" re, fd Photon "C7_" "C7p_" q); (dip_s q "m_b" rg, fd Gluon "C8_" "C8p_" q)]) [sb; db].
Definition ff_quark_ds : list (coef * dtable) :=
  [((1%Q, ([re], [])), flat_map (xd "CAR_" "CAL_" d Dn Photon) [sb; db]); ((1%Q, ([rg], [])), flat_map (xd "CGR_" "CGL_" d Dn Gluon) [sb; db])].
Definition ff_lepton_ds : list (coef * dtable) :=
  [((1%Q, ([re], [])), flat_map ff_lepton_right [(F2, F3); (F1, F2); (F1, F3)]); ((1%Q, ([rg], [])), flat_map ff_lepton_left [(F2, F3); (F1, F2); (F1, F3)])].
Definition ff_diag_s : sdlagr :=
  flat_map (fun bt => map (fun ko => (lscale amJ (1%Q, ([match fst bt with Photon => re | Gluon => rg end], [])) (getf nJX (fst ko)), snd ko)) (snd bt)) ff_diagonal.
Definition dtables (g : list (coef * dtable)) : dtable := flat_map snd g.
Definition idd (t : dtable) : dict string lform := map (fun ko => (fst ko, var (fst ko))) t.
Lemma bern_dagrees : dmatches amJ (sLD amJ (bern_ds [sb; db; ds]) nJB) (dtables (bern_ds [sb; db; ds])) = true.
Proof. vm_cast_no_check (eq_refl true). Qed.
Lemma flavio_dagrees : dmatches amJ (sLD amJ flavio_ds nJF) (dtables flavio_ds) = true.
Proof. vm_cast_no_check (eq_refl true). Qed.
Lemma ffq_dagrees : dmatches amJ (sLD amJ ff_quark_ds nJX) (dtables ff_quark_ds) = true.
Proof. vm_cast_no_check (eq_refl true). Qed.
Lemma ffl_dagrees : dmatches amJ (sLD amJ ff_lepton_ds nJX) (dtables ff_lepton_ds) = true.
Proof. vm_cast_no_check (eq_refl true). Qed.
Lemma ffd_dagrees : dmatches amJ ff_diag_s (flat_map snd ff_diagonal) = true.
Proof. vm_cast_no_check (eq_refl true). Qed.
Lemma bf_dagrees : dagree am0 (sLD am0 (bern_ds [sb; db]) (idd (dtables (bern_ds [sb; db])))) (sLD am0 flavio_ds nBF) (dkeys_of (dtables flavio_ds)) = true.
Proof. vm_cast_no_check (eq_refl true). Qed.
Lemma fb_dagrees : dagree am0 (sLD am0 flavio_ds (idd (dtables flavio_ds))) (sLD am0 (bern_ds [sb; db]) nFB) (dkeys_of (dtables flavio_ds)) = true.
Proof. vm_cast_no_check (eq_refl true). Qed.
#[local] Opaque JMS_to_Bern_prog JMS_to_flavio_prog JMS_to_FormFlavor_prog JMS_to_EOS_prog Bern_to_flavio_prog flavio_to_Bern_prog.
#[local] Opaque nf nf_ok deqb leqb nJB nJF nJX nJE nBF nFB dmatches dagree J0.

Section Thm.
Variable ckm_tree : R -> R -> R -> R -> mat.
Variable qcd_mb qcd_ms : R -> R -> R -> res R.
Variable qcd_as : R -> R -> res R.
Notation okp := (okp ckm_tree qcd_mb qcd_ms qcd_as).
Notation jenv := (jenv ckm_tree).
Notation outJ := (outJ ckm_tree).
Variables (J : list string) (scale : R) (input : option params) (p : params).
Hypothesis (GJ : good J) (GP : okp scale input p).
Notation V := (ckm_of ckm_tree p).
Lemma re_val c : aval (jenv J c p) re = RtoC (e_of p).
Proof. apply (rt_val ckm_tree qcd_mb qcd_ms qcd_as J scale input p GJ GP). simpl; auto. Qed.
Lemma rg_val c : aval (jenv J c p) rg = RtoC (gs_of p).
Proof. apply (rt_val ckm_tree qcd_mb qcd_ms qcd_as J scale input p GJ GP). simpl; auto. Qed.
Lemma gs_nz : gs_of p <> 0%R.
Proof.
  unfold gs_of. destruct GP as (_ & _ & _ & A & _). pose proof PI_RGT_0 as Q. pose proof (Rmult_lt_0_compat _ _ Q A).
  intros E. apply sqrt_eq_0 in E; lra.
Qed.
Lemma e_nz : e_of p <> 0%R.
Proof.
  unfold e_of. destruct GP as (_ & _ & A & _). pose proof PI_RGT_0 as Q. pose proof (Rmult_lt_0_compat _ _ Q A).
  intros E. apply sqrt_eq_0 in E; lra.
Qed.
Lemma q41 : Q2R 4 = 4%R. Proof. unfold Q2R; simpl; field. Qed.
Lemma q14 : Q2R (1 # 4) = (/ 4)%R. Proof. unfold Q2R; simpl; field. Qed.
Lemma q11 : Q2R 1 = 1%R. Proof. unfold Q2R; simpl; field. Qed.
Lemma bern_dfac c qs : map (fun ct => (cfval (jenv J c p) (fst ct), snd ct)) (bern_ds qs) = bern_dip_groups p qs.
Proof.
  pose proof rt2_nz as N. pose proof (RtoC_neq0 _ gs_nz) as Ng.
  assert (gs_of p * gs_of p <> 0)%R as Ng2 by (apply Rmult_integral_contrapositive_currified; apply gs_nz).
  assert (cfval (jenv J c p) (4%Q, ([APar "GF"; APar "m_b"; re], [rt2; rg; rg])) = RtoC (G4 p * (param p "m_b" * e_of p / (gs_of p * gs_of p)))) as A.
  { unfold cfval, mval. cbn [fst snd prod]. rewrite re_val, rg_val, rt2_val. cbn [aval jenv WetNf.jenv e_par]. change (e_par _) with p. rewrite q41. unfold G4.
    rewrite RtoC_mul, !RtoC_div, !RtoC_mul by (exact Ng2 || apply sqrt2_nz). field. auto. }
  assert (cfval (jenv J c p) (4%Q, ([APar "GF"; APar "m_b"], [rt2; rg])) = RtoC (G4 p * (param p "m_b" / gs_of p))) as B.
  { unfold cfval, mval. cbn [fst snd prod]. rewrite rg_val, rt2_val. cbn [aval jenv WetNf.jenv e_par]. change (e_par _) with p. rewrite q41. unfold G4.
    rewrite RtoC_mul, !RtoC_div, !RtoC_mul by (apply gs_nz || apply sqrt2_nz). field. auto. }
  unfold bern_ds, bern_dip_groups. cbn [map fst snd]. rewrite A, B. reflexivity.
Qed.
Lemma dip_val c q m g r : aval (jenv J c p) g = RtoC r -> cfval (jenv J c p) (dip_s q m g) = dip_factor p V q m r.
Proof.
  intros E. pose proof rt2_nz as N. pose proof pi_nz as N1. unfold cfval, dip_s, mval. cbn [fst snd prod]. rewrite E, rt2_val.
  cbn [aval cj jenv WetNf.jenv e_par]. change (e_par _) with p. change (e_ckm _) with V. rewrite q14. unfold dip_factor, G4.
  assert ((16 * (PI * PI))%R <> 0%R) as Np by (pose proof PI_RGT_0 as Q; pose proof (Rmult_lt_0_compat _ _ Q Q); lra).
  assert (RtoC 4 <> C0) as N4 by (apply RtoC_neq0; lra).
  rewrite RtoC_mul, !RtoC_div, !RtoC_mul by (assumption || apply sqrt2_nz).
  replace (RtoC 16) with (Cmul (RtoC 4) (RtoC 4)) by (rewrite <- RtoC_mul; f_equal; ring).
  replace (RtoC (/ 4)) with (Cinv (RtoC 4)) by (rewrite RtoC_inv; [reflexivity|lra]). field. auto.
Qed.
Lemma flavio_dfac c : map (fun ct => (cfval (jenv J c p) (fst ct), snd ct)) flavio_ds = flavio_dip_groups p V.
Proof.
  unfold flavio_ds, flavio_dip_groups. cbn [flat_map app map fst snd].
  rewrite !(dip_val c _ _ re (e_of p) (re_val c)), !(dip_val c _ _ rg (gs_of p) (rg_val c)). reflexivity.
Qed.
Lemma dtab_map {A} (f : A * dtable -> C) (s : list (A * dtable)) : dops (map (fun ct => (f ct, snd ct)) s) = flat_map snd s.
Proof. unfold dops. induction s as [|ct s IH]; auto. cbn [map flat_map snd]. rewrite IH. reflexivity. Qed.
Lemma dcompare n g h c x y z : dmatches amJ (sLD amJ g n) (dtables g) = true -> map (fun ct => (cfval (jenv J c p) (fst ct), snd ct)) g = h ->
  dcovered (dops h) x y z -> damplitude (L_JMS_dip J c) x y z = damplitude (LD_groups h (outJ n J c p)) x y z.
Proof.
  intros M E K. pose proof (amJ_ok ckm_tree qcd_mb qcd_ms qcd_as J scale input p GJ GP c) as OK.
  rewrite <- E, (dtab_map (fun ct => cfval (jenv J c p) (fst ct))) in K.
  rewrite (djms_same ckm_tree J p GJ amJ c _ _ x y z OK M K), (sLD_den amJ _ _ _ OK), E. reflexivity.
Qed.
Theorem bern_dip c x y z : dcovered (dops (bern_dip_groups p [sb; db; ds])) x y z ->
  damplitude (L_JMS_dip J c) x y z = damplitude (LD_groups (bern_dip_groups p [sb; db; ds]) (outJ nJB J c p)) x y z.
Proof. apply (dcompare _ (bern_ds [sb; db; ds])); [exact bern_dagrees|apply bern_dfac]. Qed.
Theorem flavio_dip c x y z : dcovered (dops (flavio_dip_groups p V)) x y z ->
  damplitude (L_JMS_dip J c) x y z = damplitude (LD_groups (flavio_dip_groups p V) (outJ nJF J c p)) x y z.
Proof. apply (dcompare _ flavio_ds); [exact flavio_dagrees|apply flavio_dfac]. Qed.
Lemma one_atom c a r : aval (jenv J c p) a = RtoC r -> cfval (jenv J c p) (1%Q, ([a], [])) = RtoC r.
Proof.
  intros E. unfold cfval, mval. cbn [fst snd prod]. rewrite E, q11. change (RtoC 1) with C1.
  assert (C1 <> C0) as N by exact C1_neq_0. field. exact N.
Qed.
Theorem ffq_dip c x y z : dcovered (dops (ff_quark_dip_groups p)) x y z ->
  damplitude (L_JMS_dip J c) x y z = damplitude (LD_groups (ff_quark_dip_groups p) (outJ nJX J c p)) x y z.
Proof.
  apply (dcompare _ ff_quark_ds); [exact ffq_dagrees|]. unfold ff_quark_ds, ff_quark_dip_groups. cbn [map fst snd].
  rewrite (one_atom c re _ (re_val c)), (one_atom c rg _ (rg_val c)). reflexivity.
Qed.
Theorem ffl_dip c x y z : dcovered (dops (ff_lepton_dip_groups p (gs_of p))) x y z ->
  damplitude (L_JMS_dip J c) x y z = damplitude (LD_groups (ff_lepton_dip_groups p (gs_of p)) (outJ nJX J c p)) x y z.
Proof.
  apply (dcompare _ ff_lepton_ds); [exact ffl_dagrees|]. unfold ff_lepton_ds, ff_lepton_dip_groups. cbn [map fst snd].
  rewrite (one_atom c re _ (re_val c)), (one_atom c rg _ (rg_val c)). reflexivity.
Qed.
Theorem ffd_dip c x y z : dcovered (flat_map snd ff_diagonal) x y z ->
  damplitude (L_JMS_dip J c) x y z = damplitude (L_FF_diagonal p (outJ nJX J c p)) x y z.
Proof.
  intros K. pose proof (amJ_ok ckm_tree qcd_mb qcd_ms qcd_as J scale input p GJ GP c) as OK.
  rewrite (djms_same ckm_tree J p GJ amJ c _ _ x y z OK ffd_dagrees K). f_equal. unfold ff_diag_s, L_FF_diagonal. rewrite dden_flat. apply flat_map_ext.
  intros [b t]. cbn [fst snd]. unfold dden. rewrite map_map. apply map_ext. intros [k o]. cbn [fst snd]. rewrite (lscale_val amJ _ OK).
  unfold WetThm.outJ. rewrite dget_dmap_lval. destruct b; rewrite ?(one_atom c re _ (re_val c)), ?(one_atom c rg _ (rg_val c)); reflexivity.
Qed.
(** EOS, through flavio *)
Lemma half c n op a b (M : light p) (I : In (n, op, a, b) dips) f :
  Cmul (Cmul (RtoC (param p "m_b")) f) (num_of (outJ nJF J c p) (flavio_name n b)) =
  Cadd (Cmul (Cmul (RtoC (param p "m_b")) f) (num_of (outJ nJE J c p) (eos_name n b)))
       (Cmul (Cmul (RtoC (param p "m_s")) f) (num_of (outJ nJE J c p) (eos_name n (negb b)))).
Proof.
  pose proof (eos_dipoles ckm_tree qcd_mb qcd_ms qcd_as J scale input p GJ GP c n op a b M I) as E.
  transitivity (Cmul f (Cmul (RtoC (param p "m_b")) (num_of (outJ nJF J c p) (flavio_name n b)))); [ring|]. rewrite E. ring.
Qed.
Definition unit_factor (g : R) : C := Cmul (RtoC (G4 p * (g / (16 * (PI * PI))))) (Cmul (V F3 F3) (Cconj (V F3 F2))).
Lemma dip_unit m g : dip_factor p V sb m g = Cmul (RtoC (param p m)) (unit_factor g).
Proof.
  unfold dip_factor, unit_factor. cbn [fst snd sb].
  replace (G4 p * (param p m * g / (16 * (PI * PI))))%R with (param p m * (G4 p * (g / (16 * (PI * PI)))))%R by (unfold Rdiv; ring). rewrite RtoC_mul. ring.
Qed.
Theorem eos_dip_same c x y z : light p -> dcovered (dops (eos_dip_groups p V)) x y z ->
  damplitude (L_JMS_dip J c) x y z = damplitude (LD_groups (eos_dip_groups p V) (outJ nJE J c p)) x y z.
Proof.
  intros M K.
  assert ((l_f x = D F2 /\ l_f y = D F3 \/ l_f x = D F3 /\ l_f y = D F2) /\ (q_boson z = Photon \/ q_boson z = Gluon)) as [KF KB].
  { split; [|destruct (q_boson z); auto]. destruct K as (k & o & I & _ & H).
    assert (d_1 o = D F2 /\ d_2 o = D F3) as [A B]; [|rewrite A, B in H; exact H].
    clear - I. cbn in I. repeat (destruct I as [I|I]; [injection I as <- <-; split; reflexivity|]). destruct I. }
  rewrite flavio_dip.
  2: { unfold flavio_dip_groups, dops. destruct KB as [B|B]; [exists "C7_bs", (Dip (D F2) (D F3) Photon (SigP true))|exists "C8_bs", (Dip (D F2) (D F3) Gluon (SigP true))];
       (split; [|split; [exact B|exact KF]]); cbn; auto 12. }
  pose proof (half c "7" "dgamma" "alpha_e" false M (or_introl eq_refl) (unit_factor (e_of p))) as E1.
  pose proof (half c "7" "dgamma" "alpha_e" true M (or_intror (or_introl eq_refl)) (unit_factor (e_of p))) as E2.
  pose proof (half c "8" "dG" "alpha_s" false M (or_intror (or_intror (or_introl eq_refl))) (unit_factor (gs_of p))) as E3.
  pose proof (half c "8" "dG" "alpha_s" true M (or_intror (or_intror (or_intror (or_introl eq_refl)))) (unit_factor (gs_of p))) as E4.
  cbn [negb] in E1, E2, E3, E4. rewrite <- !dip_unit in E1, E2, E3, E4.
  change (flavio_name "7" false) with "C7_bs" in E1. change (flavio_name "7" true) with "C7p_bs" in E2.
  change (flavio_name "8" false) with "C8_bs" in E3. change (flavio_name "8" true) with "C8p_bs" in E4.
  change (eos_name "7" false) with "b->s::c7" in E1, E2. change (eos_name "7" true) with "b->s::c7'" in E1, E2.
  change (eos_name "8" false) with "b->s::c8" in E3, E4. change (eos_name "8" true) with "b->s::c8'" in E3, E4.
  unfold LD_groups, flavio_dip_groups, eos_dip_groups, LD_of, fd, both. cbn [flat_map map app fst snd dplus_hc d sb db append].
  cbn [damplitude fold_right fst snd]. rewrite !dvertex_val. unfold key_of, dfits, dagd. cbn [d_1 d_2 d_boson d_sig chi negb].
  assert (forall i j, fermion_eqb (D i) (D j) = fl_eqb i j) as FE by (intros [] []; reflexivity).
  destruct KF as [[-> ->]|[-> ->]], KB as [-> | ->]; rewrite !FE; cbn [fl_eqb boson_eqb andb]; rewrite ?E1, ?E2, ?E3, ?E4, ?Cconj_add; ring.
Qed.
End Thm.

(** ** The direct translators between Bern and flavio *)
Lemma dfac_env v v' (g : list (coef * dtable)) : e_par v = e_par v' -> e_ckm v = e_ckm v' ->
  map (fun ct => (cfval v (fst ct), snd ct)) g = map (fun ct => (cfval v' (fst ct), snd ct)) g.
Proof. intros A B. apply map_ext. intros [c t]. cbn [fst snd]. rewrite (cf_env v v') by auto. reflexivity. Qed.
Lemma LD_of_ext_in f t c c' : (forall k, In k (map fst t) -> num_of c k = num_of c' k) -> LD_of f t c = LD_of f t c'.
Proof.
  intros H. unfold LD_of. induction t as [|[k o] t IH]; [reflexivity|]. cbn [flat_map fst snd]. rewrite IH, (H k); auto.
  - left. reflexivity.
  - intros k' I. apply H. right. exact I.
Qed.
Lemma LD_groups_ext_in g c c' : (forall k, In k (map fst (dops g)) -> num_of c k = num_of c' k) -> LD_groups g c = LD_groups g c'.
Proof.
  intros H. unfold LD_groups. induction g as [|[f t] g IH]; [reflexivity|]. cbn [flat_map fst snd]. rewrite IH, (LD_of_ext_in f t c c'); auto.
  - intros k I. apply H. unfold dops. cbn [flat_map snd]. rewrite map_app, in_app_iff. auto.
  - intros k I. apply H. unfold dops. cbn [flat_map snd]. rewrite map_app, in_app_iff. auto.
Qed.
Lemma idd_get t k : In k (map fst t) -> getf (idd t) k = var k.
Proof.
  unfold getf, idd. induction t as [|[k' o] t IH]; [intros []|]. cbn [map fst dget]. destruct (keqb k k') eqn:E.
  - apply keqb_eq in E. subst. reflexivity.
  - intros [->|I]; [rewrite keqb_refl in E; discriminate|]. apply IH, I.
Qed.
Section Flat.
Variable ckm_tree : R -> R -> R -> R -> mat.
Variable qcd_mb qcd_ms : R -> R -> R -> res R.
Variable qcd_as : R -> R -> res R.
Notation okp := (okp ckm_tree qcd_mb qcd_ms qcd_as).
Notation fenv := (fenv ckm_tree).
Notation outG := (outG ckm_tree).
Variables (scale : R) (input : option params) (p : params).
Hypothesis (GP : okp scale input p).
Notation V := (ckm_of ckm_tree p).
Lemma dfac0 B c K g : map (fun ct => (cfval (fenv B c p) (fst ct), snd ct)) g = map (fun ct : coef * dtable => (cfval (jenv ckm_tree K [] p) (fst ct), snd ct)) g.
Proof. apply dfac_env; reflexivity. Qed.
Lemma flavio_dfac0 B c : map (fun ct => (cfval (fenv B c p) (fst ct), snd ct)) flavio_ds = flavio_dip_groups p V.
Proof.
  rewrite (dfac0 B c J0). exact (flavio_dfac ckm_tree qcd_mb qcd_ms qcd_as J0 scale input p J0_good GP []).
Qed.
Lemma bern_dfac0 B c qs : map (fun ct => (cfval (fenv B c p) (fst ct), snd ct)) (bern_ds qs) = bern_dip_groups p qs.
Proof.
  rewrite (dfac0 B c J0). exact (bern_dfac ckm_tree qcd_mb qcd_ms qcd_as J0 scale input p J0_good GP [] qs).
Qed.
Lemma idd_den B g c : NoDup B -> incl (map fst (dtables g)) B ->
  LD_groups (map (fun ct => (cfval (fenv B c p) (fst ct), snd ct)) g) (dmap (lval (fenv B c p)) (idd (dtables g))) =
  LD_groups (map (fun ct => (cfval (fenv B c p) (fst ct), snd ct)) g) c.
Proof.
  intros ND I. apply LD_groups_ext_in. intros k K. rewrite (dtab_map (fun ct => cfval (fenv B c p) (fst ct))) in K. rewrite dget_dmap_lval, idd_get by exact K.
  apply one_var; auto.
Qed.
Lemma bern_dincl : forallb (fun k => mem k bern_read) (map fst (dtables (bern_ds [sb; db]))) = true.
Proof. vm_cast_no_check (eq_refl true). Qed.
Lemma flavio_dincl : forallb (fun k => mem k flavio_read) (map fst (dtables flavio_ds)) = true.
Proof. vm_cast_no_check (eq_refl true). Qed.
(** [g1] read with the input against [g2] with the output. *)
Lemma flat_dip B c g1 h1 g2 h2 n x y z : NoDup B -> incl (map fst (dtables g1)) B ->
  dagree am0 (sLD am0 g1 (idd (dtables g1))) (sLD am0 g2 n) (dkeys_of (dtables flavio_ds)) = true ->
  map (fun ct => (cfval (fenv B c p) (fst ct), snd ct)) g1 = h1 -> map (fun ct => (cfval (fenv B c p) (fst ct), snd ct)) g2 = h2 ->
  dcovered (dops (flavio_dip_groups p V)) x y z -> damplitude (LD_groups h1 c) x y z = damplitude (LD_groups h2 (outG n B c p)) x y z.
Proof.
  intros ND I A E1 E2 K. pose proof (fenv_ok ckm_tree qcd_mb qcd_ms qcd_as B c scale input p GP) as OK.
  rewrite <- (flavio_dfac0 B c) in K. rewrite (dtab_map (fun ct => cfval (fenv B c p) (fst ct))) in K. apply dcovered_key in K.
  pose proof (dagree_val am0 _ _ _ _ x y z OK A K) as E. rewrite (sLD_den am0 _ g1 _ OK), (sLD_den am0 _ g2 _ OK), (idd_den B g1 c ND I), E1, E2 in E.
  exact E.
Qed.
Lemma sub_incl (l m B : list string) : forallb (fun k => mem k m) l = true -> incl m B -> incl l B.
Proof. intros H I k Ik. apply I. rewrite forallb_forall in H. apply (proj1 (mem_In _ k _)). auto. Qed.
Theorem bern_flavio_dip B c x y z : NoDup B -> incl bern_read B -> dcovered (dops (flavio_dip_groups p V)) x y z ->
  damplitude (LD_groups (bern_dip_groups p [sb; db]) c) x y z = damplitude (LD_groups (flavio_dip_groups p V) (outG nBF B c p)) x y z.
Proof.
  intros ND I. exact (flat_dip B c _ _ _ _ nBF x y z ND (sub_incl _ _ _ bern_dincl I) bf_dagrees (bern_dfac0 B c _) (flavio_dfac0 B c)).
Qed.
Theorem flavio_bern_dip F c x y z : NoDup F -> incl flavio_read F -> dcovered (dops (flavio_dip_groups p V)) x y z ->
  damplitude (LD_groups (flavio_dip_groups p V) c) x y z = damplitude (LD_groups (bern_dip_groups p [sb; db]) (outG nFB F c p)) x y z.
Proof.
  intros ND I. exact (flat_dip F c _ _ _ _ nFB x y z ND (sub_incl _ _ _ flavio_dincl I) fb_dagrees (flavio_dfac0 F c) (bern_dfac0 F c _)).
Qed.
End Flat.

(** ** Examples *)
Definition elec : leg := Leg (E F1) Sp1 Red.
Definition muon : leg := Leg (E F2) Sp1 Red.
Definition photon03 : quantum := Quantum Photon M0 M3 0.
Definition e21 : dict string C := [("egamma_21", C1)].
Lemma bvert_ex : bvert true elec muon photon03 = C0 /\ bvert false elec muon photon03 = Cneg Ci.
Proof.
  unfold bvert. cbn [q_boson photon03 elec l_f]. unfold delta, quark. cbn [fst LagrBases.E].
  assert (gent (sigpm (SigP true) 0 3) 0 0 = (0, 0)%Z /\ gent (sigpm (SigP false) 0 3) 0 0 = (0, -1)%Z) as [A B] by (split; vm_compute; reflexivity).
  cbn [ln q_mu q_nu photon03 sn l_s elec muon]. rewrite A, B. split; unfold gC; apply C_ext; csimp; ring.
Qed.
(** (mu-bar sigma P_R e) F with coefficient 1 gives the amplitude of (e-bar sigma^{03} P_L mu). *)
Lemma e21_amp : damplitude (L_JMS_dip J0 e21) elec muon photon03 = Cneg Ci.
Proof.
  rewrite (sJd_val ckm1 J0 p1 J0_good e21 [key_of elec muon photon03] elec muon photon03); [|vm_compute; reflexivity|left; reflexivity].
  rewrite (dden_val amJ) by exact (amJ_ok ckm1 mb4 ms1 as1 J0 5 None p1 J0_good p1_ok e21).
  destruct bvert_ex as [-> ->].
  assert (scoef amJ sJd (key_of elec muon photon03) false = [(DArr "egamma" [F2; F1] true, (1%Q, mone))]) as -> by (vm_compute; reflexivity).
  cbn [lval fst snd dtval cj]. rewrite (dip_arr ckm1 J0 p1 J0_good) by reflexivity. unfold cfval. cbn [fst snd]. rewrite mone_val, q11.
  change (num_of e21 (cname "egamma" [F2; F1])) with C1. change (RtoC 1) with C1.
  replace (Cconj C1) with C1 by (apply C_ext; csimp; ring). ring.
Qed.
Lemma ff_left p g o : damplitude (LD_groups (ff_lepton_dip_groups p g) o) elec muon photon03 = Cmul (RtoC g) (Cmul (num_of o "CAL_em") (Cneg Ci)).
Proof.
  destruct bvert_ex as [A B]. unfold LD_groups, ff_lepton_dip_groups, LD_of, ff_lepton_right, ff_lepton_left. cbn [flat_map map app fst snd dplus_hc lc append].
  cbn [damplitude fold_right fst snd]. rewrite !dvertex_val. unfold key_of, dfits, dagd. cbn [d_1 d_2 d_boson d_sig chi negb].
  assert (forall i j, fermion_eqb (LagrBases.E i) (LagrBases.E j) = fl_eqb i j) as FE by (intros [] []; reflexivity).
  change (l_f elec) with (LagrBases.E F1). change (l_f muon) with (LagrBases.E F2). change (q_boson photon03) with Photon.
  rewrite !FE. cbn [fl_eqb boson_eqb andb]. rewrite A, B. ring.
Qed.
Lemma covered_emu p g : dcovered (dops (ff_lepton_dip_groups p g)) elec muon photon03.
Proof.
  exists "CAR_em", (Dip (LagrBases.E F1) (LagrBases.E F2) Photon (SigP true)). split; [cbn; auto 12|]. split; [reflexivity|left; split; reflexivity].
Qed.
(** The strong coupling in place of the electric charge. *)
Lemma ff_left_off ckm_tree qcd_mb qcd_ms qcd_as scale input p : okp ckm_tree qcd_mb qcd_ms qcd_as scale input p ->
  param p "alpha_e" <> param p "alpha_s" ->
  damplitude (L_JMS_dip J0 e21) elec muon photon03 <> damplitude (LD_groups (ff_lepton_dip_groups p (e_of p)) (outJ ckm_tree nJX J0 e21 p)) elec muon photon03.
Proof.
  intros GP NE. pose proof (ffl_dip ckm_tree qcd_mb qcd_ms qcd_as J0 scale input p J0_good GP e21 elec muon photon03 (covered_emu p _)) as H.
  rewrite e21_amp, ff_left in *. set (o := num_of _ _) in *.
  assert (0 < param p "alpha_e" /\ 0 < param p "alpha_s")%R as [PE PS] by (destruct GP as (_ & _ & ? & ? & _); auto).
  assert (e_of p <> gs_of p) as NG.
  { intros Q. apply NE. unfold e_of, gs_of in Q. pose proof PI_RGT_0 as PP.
    apply sqrt_inj in Q; [|apply Rmult_le_pos; lra|apply Rmult_le_pos; lra]. apply (Rmult_eq_reg_l (4 * PI)); lra. }
  intros Q. pose proof (eq_trans (eq_sym H) Q) as W0. apply NG. clear Q.
  assert (Cmul o (Cneg Ci) <> C0) as N.
  { intros Z. rewrite Z in H. assert (Cmul (RtoC (gs_of p)) C0 = C0) as W by ring. rewrite W in H. apply (f_equal Im) in H. revert H. csimp. lra. }
  assert (RtoC (gs_of p) = RtoC (e_of p)) as W.
  { set (w := Cmul o (Cneg Ci)) in *. transitivity (Cdiv (Cmul (RtoC (gs_of p)) w) w); [field; exact N|]. rewrite W0. field. exact N. }
  apply (f_equal Re) in W. cbn [Re RtoC fst] in W. auto.
Qed.
