(** The comparisons of the Lagrangians, by computation. *)
From Coq Require Import String Ascii List Bool Arith ZArith QArith Qreals Reals Lra Lia.
From Verif Require Import PyBase PyDict Cplx Tensor Wc Params Smeft SmeftNames WetExpr Wet WetJms WetNf WetSpec WetChk WetThm WetVals Dirac LagrBases LagrRefl LagrJms LagrSym.
Import ListNotations.
Open Scope string_scope.
Open Scope list_scope.
Open Scope nat_scope.
Definition rt2 : atom := ART (XQ 2 1).
Definition gf4 : coef := (4%Q, ([APar "GF"], [rt2])).
Definition no_tensor : dict string jms_op := filter (fun no => negb (String.eqb (fst no) "TedRR")) jms_ops.
Definition canonical (a : asm) (n : dict string lform) : dict string lform := dmap (lcanon a) n.
(** Bern *)
Definition bern_s : list (coef * table) := [(gf4, bern_ops)].
Lemma bern_agrees : matches jms_ops amJ (sgroups amJ bern_s (canonical amJ nJB)) bern_ops = true.
Proof. vm_cast_no_check (eq_refl true). Qed.
(** flavio *)
Definition fcnc_s (q : fl * fl) (n : Q) (x : list atom) : coef :=
  (n, ([APar "GF"; AV F3 (snd q) false; AV F3 (fst q) true; rt4pi "alpha_e"; rt4pi "alpha_e"] ++ x, [rt2; APi; APi])).
Definition cc_s (ud : fl * fl) : coef := ((-4)%Q, ([APar "GF"; AV (fst ud) (snd ud) false], [rt2])).
Definition flavio_s : list (coef * table) :=
  [((1%Q, mone), flavio_df2)] ++
  map (fun ud => (cc_s ud, flat_map (fo_cc ud) families)) udpairs ++
  map (fun q => (fcnc_s q (1 # 4) [], flat_map (fo_lep flavio_vec q) families)) [sb; db] ++
  map (fun q => (fcnc_s q (1 # 4) [APar "m_b"], flat_map (fo_lep flavio_sca q) families)) [sb; db] ++
  map (fun q => (fcnc_s q (1 # 2) [], flat_map (fo_nu q) families)) [sb; db; ds].
Definition tables {A} (g : list (A * table)) : table := flat_map snd g.
Lemma flavio_agrees : matches no_tensor amJ (sgroups amJ flavio_s (canonical amJ nJF)) (tables flavio_s) = true.
Proof. vm_cast_no_check (eq_refl true). Qed.
(** EOS *)
Definition eos_s : list (coef * table) := [(cc_s (F1, F3), flat_map eo_cc [F1; F2]); (fcnc_s sb (1 # 4) [], flat_map eo_lep [F1; F2])].
Lemma eos_agrees : matches jms_ops amJ (sgroups amJ eos_s (canonical amJ nJE)) (tables eos_s) = true.
Proof. vm_cast_no_check (eq_refl true). Qed.
(** FormFlavor *)
Definition ff_s : list (coef * table) := [((1%Q, mone), ff_lep)].
Lemma ff_agrees : matches jms_ops amJ (sgroups amJ ff_s (canonical amJ nJX)) ff_lep = true.
Proof. vm_cast_no_check (eq_refl true). Qed.
Definition ff2_s : list (coef * table) := [((1%Q, mone), ff_df2); ((8%Q, mone), ff_fix)].
Lemma ff2_agrees : matches jms_ops amJ (sgroups amJ ff2_s (canonical amJ nJX)) ff_df2 = true.
Proof. vm_cast_no_check (eq_refl true). Qed.
(** The direct translators between Bern and flavio *)
Definition idf (t : table) : dict string lform := map (fun ko => (fst ko, var (fst ko))) t.
Definition tensors_s : list (coef * table) := [(gf4, tensor_ops "7"); (((-64)%Q, snd gf4), tensor_ops "9")].
Lemma bf_agrees : agree am0 (sgroups am0 bern_s (idf bern_ops)) (sgroups am0 flavio_s nBF ++ sgroups am0 tensors_s (idf (tables tensors_s)))
  (quads (tables flavio_s)) = true.
Proof. vm_cast_no_check (eq_refl true). Qed.
Lemma fb_agrees : agree am0 (sgroups am0 flavio_s (idf (tables flavio_s))) (sgroups am0 bern_s nFB) (quads flavio_no_sd) = true.
Proof. vm_cast_no_check (eq_refl true). Qed.
Lemma tensors_listed : forallb (fun k => mem k (map fst bern_ops)) (map fst (tables tensors_s)) = true.
Proof. vm_cast_no_check (eq_refl true). Qed.
