(** The operators that the WET coefficients multiply, basis by basis, and the Lagrangians.
    Nothing here refers to the translators: names and operators are those of the definitions
    of the bases. *)
From Coq Require Import String Ascii List Bool Arith ZArith Reals.
From Verif Require Import PyBase PyDict Cplx Tensor Params Wc Smeft Wet WetExpr WetNf WetSpec Dirac.
Import ListNotations.
Open Scope string_scope.
Open Scope list_scope.
Open Scope nat_scope.

Definition Vec := Gam 1.
Definition Sca := Gam 0.
Definition Ten := Sig.

(** ** JMS (Jenkins, Manohar, Stoffer, arXiv:1709.04486): the operators with a quark current
    that conserve baryon number.  For each the four fields, the Dirac structure, the colour
    structure and whether the sum over flavours is hermitian by itself (otherwise the
    hermitian conjugates are added). *)
Record jms_op := JmsOp { j_fields : list field; j_dirac : dirac; j_colour : colour; j_herm : bool }.
Definition vec (fs : list field) (x y : proj) (c : colour) := JmsOp fs (Dir Vec x y) c true.
Definition vecc (fs : list field) (x y : proj) (c : colour) := JmsOp fs (Dir Vec x y) c false.
Definition sca (fs : list field) (x y : proj) (c : colour) := JmsOp fs (Dir Sca x y) c false.
Definition tns (fs : list field) := JmsOp fs (Dir Ten PR PR) Singlet false.
Definition uu : list field := [Up; Up].
Definition dd2 : list field := [Dn; Dn].
Definition ee : list field := [El; El].
Definition nn : list field := [Nu; Nu].
Definition uddu : list field := [Up; Dn; Dn; Up].
Definition nedu : list field := [Nu; El; Dn; Up].
Definition jms_ops : dict string jms_op :=
  [("VnuuLL", vec (nn ++ uu) PL PL Singlet); ("VnudLL", vec (nn ++ dd2) PL PL Singlet);
   ("VeuLL", vec (ee ++ uu) PL PL Singlet); ("VedLL", vec (ee ++ dd2) PL PL Singlet);
   ("VnueduLL", vecc nedu PL PL Singlet);
   ("VuuLL", vec (uu ++ uu) PL PL Singlet); ("VddLL", vec (dd2 ++ dd2) PL PL Singlet);
   ("V1udLL", vec (uu ++ dd2) PL PL Singlet); ("V8udLL", vec (uu ++ dd2) PL PL Octet);
   ("VeuRR", vec (ee ++ uu) PR PR Singlet); ("VedRR", vec (ee ++ dd2) PR PR Singlet);
   ("VuuRR", vec (uu ++ uu) PR PR Singlet); ("VddRR", vec (dd2 ++ dd2) PR PR Singlet);
   ("V1udRR", vec (uu ++ dd2) PR PR Singlet); ("V8udRR", vec (uu ++ dd2) PR PR Octet);
   ("VnuuLR", vec (nn ++ uu) PL PR Singlet); ("VnudLR", vec (nn ++ dd2) PL PR Singlet);
   ("VeuLR", vec (ee ++ uu) PL PR Singlet); ("VedLR", vec (ee ++ dd2) PL PR Singlet);
   ("VueLR", vec (uu ++ ee) PL PR Singlet); ("VdeLR", vec (dd2 ++ ee) PL PR Singlet);
   ("VnueduLR", vecc nedu PL PR Singlet);
   ("V1uuLR", vec (uu ++ uu) PL PR Singlet); ("V8uuLR", vec (uu ++ uu) PL PR Octet);
   ("V1udLR", vec (uu ++ dd2) PL PR Singlet); ("V8udLR", vec (uu ++ dd2) PL PR Octet);
   ("V1duLR", vec (dd2 ++ uu) PL PR Singlet); ("V8duLR", vec (dd2 ++ uu) PL PR Octet);
   ("V1ddLR", vec (dd2 ++ dd2) PL PR Singlet); ("V8ddLR", vec (dd2 ++ dd2) PL PR Octet);
   ("V1udduLR", vecc uddu PL PR Singlet); ("V8udduLR", vecc uddu PL PR Octet);
   ("SeuRL", sca (ee ++ uu) PR PL Singlet); ("SedRL", sca (ee ++ dd2) PR PL Singlet); ("SnueduRL", sca nedu PR PL Singlet);
   ("SeuRR", sca (ee ++ uu) PR PR Singlet); ("SedRR", sca (ee ++ dd2) PR PR Singlet); ("SnueduRR", sca nedu PR PR Singlet);
   ("TeuRR", tns (ee ++ uu)); ("TedRR", tns (ee ++ dd2)); ("TnueduRR", tns nedu);
   ("S1uuRR", sca (uu ++ uu) PR PR Singlet); ("S8uuRR", sca (uu ++ uu) PR PR Octet);
   ("S1udRR", sca (uu ++ dd2) PR PR Singlet); ("S8udRR", sca (uu ++ dd2) PR PR Octet);
   ("S1ddRR", sca (dd2 ++ dd2) PR PR Singlet); ("S8ddRR", sca (dd2 ++ dd2) PR PR Octet);
   ("S1udduRR", sca uddu PR PR Singlet); ("S8udduRR", sca uddu PR PR Octet)].
Definition four (fs : list field) (x : idx) (dr : dirac) (c : colour) : oper :=
  match fs, x with
  | [a; b; e; f], [i; j; k; m] => Oper (a, i) (b, j) (e, k) (f, m) dr c
  | _, _ => Oper (Nu, F1) (Nu, F1) (Nu, F1) (Nu, F1) dr c
  end.
Definition jms_oper (o : jms_op) (x : idx) : oper := four (j_fields o) x (j_dirac o) (j_colour o).
(** The Lagrangian of a set of JMS coefficients: the listing says which operators are
    independent; each is multiplied by its coefficient, and the hermitian conjugate is added
    for those that are not hermitian.  An operator with two equal pairs of fields does not
    change when its currents are exchanged. *)
Definition alike (o : jms_op) : bool :=
  match j_fields o, j_dirac o with
  | [a; b; e; f], Dir _ x y => field_eqb a e && field_eqb b f &&
      match x, y with PL, PL | PR, PR => true | _, _ => false end
  | _, _ => false
  end.
Definition idx_same (x y : idx) : bool := idx_eqb x y.
Definition self_conjugate (o : jms_op) (x : idx) : bool :=
  match x with
  | [i; j; k; m] => j_herm o && (idx_same [j; i; m; k] x || alike o && idx_same [m; k; j; i] x)
  | _ => false
  end.
Definition jms_terms (J : list string) (c : dict string C) (name : string) (o : jms_op) (x : idx) : lagrangian :=
  if mem (cname name x) J then
    if self_conjugate o x then [(num_of c (cname name x), jms_oper o x)]
    else plus_hc (num_of c (cname name x)) (jms_oper o x)
  else [].
Definition L_on (ops : dict string jms_op) (J : list string) (c : dict string C) : lagrangian :=
  flat_map (fun no => flat_map (jms_terms J c (fst no) (snd no)) idx4) ops.
Definition L_JMS := L_on jms_ops.
(** All but the tensor operator of charged leptons and down quarks. *)
Definition L_JMS_no_tensor := L_on (filter (fun no => negb (String.eqb (fst no) "TedRR")) jms_ops).

(** ** Tables of operators: L = factor * sum of C O + h.c. *)
Definition table := list (string * oper).
Definition L_of (factor : C) (t : table) (c : dict string C) : lagrangian :=
  flat_map (fun ko => plus_hc (Cmul factor (num_of c (fst ko))) (snd ko)) t.
Definition group := (C * table)%type.
Definition L_groups (g : list group) (c : dict string C) : lagrangian := flat_map (fun ct => L_of (fst ct) (snd ct) c) g.
Definition ops4 (a b e f : fermion) (name : string -> string) (l : list (string * dirac * colour)) : table :=
  map (fun t => match t with (n, dr, c) => (name n, Oper a b e f dr c) end) l.

(** 4 GF / sqrt 2 and alpha / 4 pi *)
Definition G4 (p : params) : R := 4 * param p "GF" / sqrt 2.
Definition a4pi (p : params) : R := param p "alpha_e" / (4 * PI).

(** The operators below were written down from memory of the cited papers: neither the papers nor the basis files
    (an empty submodule) were at hand. Where memory left a choice, the one that agrees with wet.py was taken
    (DESIGN.md, section 3). *)
(** ** Bern (after Aebischer, Fael, Greub, Virto, arXiv:1704.06639) *)
Definition bern_I : list (string * dirac * colour) :=
  [("1", Dir Vec PL PL, Singlet); ("2", Dir Sca PL PL, Singlet); ("3", Dir Sca PL PL, Crossed);
   ("4", Dir Sca PL PR, Singlet); ("5", Dir Sca PL PR, Crossed);
   ("1p", Dir Vec PR PR, Singlet); ("2p", Dir Sca PR PR, Singlet); ("3p", Dir Sca PR PR, Crossed)].
Definition bern_II : list (string * dirac * colour) :=
  [("1", Dir Vec PL PL, Singlet); ("5", Dir Sca PR PL, Singlet); ("1p", Dir Vec PR PL, Singlet); ("5p", Dir Sca PL PL, Singlet);
   ("7p", Dir Ten PL PL, Singlet)].
(** [flip] exchanges the primed and unprimed scalar and tensor operators. It is not taken from a source: wet.py needs it
    in the sectors sbss, dbdd, dsdd, dbds and sbsd (C54_uniform_refuted in P_Lagr.v shows what happens without). *)
Definition bern_odd (flip : bool) : list (string * dirac * colour) :=
  let r := if flip then PL else PR in let lft := if flip then PR else PL in
  [("1", Dir Vec PL PV, Singlet); ("3", Dir (Gam 3) PL PV, Singlet); ("5", Dir Sca r PV, Singlet);
   ("7", Dir Ten r PV, Singlet); ("9", Dir (Gam 4) r PV, Singlet);
   ("1p", Dir Vec PR PV, Singlet); ("3p", Dir (Gam 3) PR PV, Singlet); ("5p", Dir Sca lft PV, Singlet);
   ("7p", Dir Ten lft PV, Singlet); ("9p", Dir (Gam 4) lft PV, Singlet)].
Definition bern_even : list (string * dirac * colour) :=
  [("2", Dir Vec PL PV, Octet); ("4", Dir (Gam 3) PL PV, Octet); ("6", Dir Sca PR PV, Octet);
   ("8", Dir Ten PR PV, Octet); ("10", Dir (Gam 4) PR PV, Octet);
   ("2p", Dir Vec PR PV, Octet); ("4p", Dir (Gam 3) PR PV, Octet); ("6p", Dir Sca PL PV, Octet);
   ("8p", Dir Ten PL PV, Octet); ("10p", Dir (Gam 4) PL PV, Octet)].
Definition bern_nu : list (string * dirac * colour) := [("nu1", Dir Vec PL PL, Singlet); ("nu1p", Dir Vec PR PL, Singlet)].
Definition D (i : fl) : fermion := (Dn, i).
Definition U (i : fl) : fermion := (Up, i).
Definition E (i : fl) : fermion := (El, i).
Definition N (i : fl) : fermion := (Nu, i).
Section BernOps.
Open Scope string_scope.
Definition bo_df2 (q : fl * fl) : table :=
  ops4 (D (fst q)) (D (snd q)) (D (fst q)) (D (snd q)) (fun n => n ++ d (fst q) ++ d (snd q) ++ d (fst q) ++ d (snd q)) bern_I.
Definition bo_cc (ll ud : fl * fl) : table :=
  ops4 (U (fst ud)) (D (snd ud)) (E (fst ll)) (N (snd ll)) (fun n => n ++ u (fst ud) ++ d (snd ud) ++ l (fst ll) ++ l (snd ll)) bern_II.
Definition bo_uu (uu q : fl * fl) : table :=
  ops4 (D (fst q)) (D (snd q)) (U (fst uu)) (U (snd uu)) (fun n => n ++ d (fst q) ++ d (snd q) ++ u (fst uu) ++ u (snd uu)) (app (bern_odd false) bern_even).
Definition bo_dd (ops : list (string * dirac * colour)) (q r : fl * fl) : table :=
  ops4 (D (fst q)) (D (snd q)) (D (fst r)) (D (snd r)) (fun n => n ++ d (fst q) ++ d (snd q) ++ d (fst r) ++ d (snd r)) ops.
Definition bo_lep (q ll : fl * fl) : table :=
  app (ops4 (D (fst q)) (D (snd q)) (E (fst ll)) (E (snd ll)) (fun n => n ++ d (fst q) ++ d (snd q) ++ l (fst ll) ++ l (snd ll)) (bern_odd false))
      (ops4 (D (fst q)) (D (snd q)) (N (fst ll)) (N (snd ll)) (fun n => n ++ d (fst q) ++ d (snd q) ++ l (fst ll) ++ l (snd ll)) bern_nu).
End BernOps.
Definition bern_generic := bern_odd false ++ bern_even.
Definition bern_ops : table :=
  flat_map bo_df2 [sb; db; ds] ++
  flat_map (fun ll => flat_map (bo_cc ll) udpairs) families ++
  flat_map (fun uu => flat_map (bo_uu uu) [sb; db; ds]) [(F1, F1); (F1, F2); (F2, F1); (F2, F2)] ++
  bo_dd bern_generic sb (F1, F1) ++ bo_dd bern_generic db (F2, F2) ++ bo_dd bern_generic ds (F3, F3) ++
  bo_dd (bern_odd true) sb (F2, F2) ++ bo_dd (bern_odd true) db (F1, F1) ++ bo_dd (bern_odd true) ds (F1, F1) ++
  bo_dd (bern_odd true) db (F1, F2) ++ bo_dd (bern_odd true) sb (F2, F1) ++
  bo_dd (bern_odd false) sb (F3, F3) ++ bo_dd (bern_odd false) db (F3, F3) ++ bo_dd (bern_odd false) ds (F2, F2) ++
  flat_map (fun ll => flat_map (fun q => bo_lep q ll) [sb; db; ds]) families.
(** The same with one rule for all sectors. *)
Definition bern_uniform : table :=
  flat_map bo_df2 [sb; db; ds] ++
  flat_map (fun ll => flat_map (bo_cc ll) udpairs) families ++
  flat_map (fun uu => flat_map (bo_uu uu) [sb; db; ds]) [(F1, F1); (F1, F2); (F2, F1); (F2, F2)] ++
  bo_dd bern_generic sb (F1, F1) ++ bo_dd bern_generic db (F2, F2) ++ bo_dd bern_generic ds (F3, F3) ++
  flat_map (fun qr => bo_dd (bern_odd false) (fst qr) (snd qr))
    [(sb, (F2, F2)); (db, (F1, F1)); (ds, (F1, F1)); (db, (F1, F2)); (sb, (F2, F1)); (sb, (F3, F3)); (db, (F3, F3)); (ds, (F2, F2))] ++
  flat_map (fun ll => flat_map (fun q => bo_lep q ll) [sb; db; ds]) families.
Definition L_Bern (p : params) (c : dict string C) : lagrangian := L_of (RtoC (G4 p)) bern_ops c.

(** ** flavio (after arXiv:1810.08132) *)
Definition flavio_I : list (string * dirac * colour) :=
  [("CVLL_", Dir Vec PL PL, Singlet); ("CSLL_", Dir Sca PL PL, Singlet); ("CTLL_", Dir Ten PL PL, Singlet);
   ("CVLR_", Dir Vec PL PR, Singlet); ("CVRR_", Dir Vec PR PR, Singlet); ("CSRR_", Dir Sca PR PR, Singlet);
   ("CTRR_", Dir Ten PR PR, Singlet); ("CSLR_", Dir Sca PL PR, Singlet)].
Definition flavio_II : list (string * dirac * colour) :=
  [("CVL_", Dir Vec PL PL, Singlet); ("CVR_", Dir Vec PR PL, Singlet); ("CSR_", Dir Sca PR PL, Singlet); ("CSL_", Dir Sca PL PL, Singlet);
   ("CT_", Dir Ten PL PL, Singlet)].
Definition flavio_vec : list (string * dirac * colour) :=
  [("C9_", Dir Vec PL PV, Singlet); ("C9p_", Dir Vec PR PV, Singlet); ("C10_", Dir Vec PL P5, Singlet); ("C10p_", Dir Vec PR P5, Singlet)].
Definition flavio_sca : list (string * dirac * colour) :=
  [("CS_", Dir Sca PR PV, Singlet); ("CSp_", Dir Sca PL PV, Singlet); ("CP_", Dir Sca PR P5, Singlet); ("CPp_", Dir Sca PL P5, Singlet)].
Definition flavio_nu : list (string * dirac * colour) := [("CL_", Dir Vec PL PL, Singlet); ("CR_", Dir Vec PR PL, Singlet)].
Section FlavioOps.
Open Scope string_scope.
Definition fo_df2 (q : fl * fl) : table :=
  ops4 (D (fst q)) (D (snd q)) (D (fst q)) (D (snd q)) (fun n => n ++ d (snd q) ++ d (fst q) ++ d (snd q) ++ d (fst q)) flavio_I.
Definition fo_df2u (q : fl * fl) : table :=
  ops4 (U (fst q)) (U (snd q)) (U (fst q)) (U (snd q)) (fun n => n ++ u (snd q) ++ u (fst q) ++ u (snd q) ++ u (fst q)) flavio_I.
Definition fo_cc (ud ll : fl * fl) : table :=
  ops4 (U (fst ud)) (D (snd ud)) (E (fst ll)) (N (snd ll)) (fun n => n ++ d (snd ud) ++ u (fst ud) ++ l (fst ll) ++ "nu" ++ l (snd ll)) flavio_II.
Definition fo_lep (ops : list (string * dirac * colour)) (q ll : fl * fl) : table :=
  ops4 (D (fst q)) (D (snd q)) (E (fst ll)) (E (snd ll)) (fun n => n ++ d (snd q) ++ d (fst q) ++ l (fst ll) ++ l (snd ll)) ops.
Definition fo_nu (q ll : fl * fl) : table :=
  ops4 (D (fst q)) (D (snd q)) (N (fst ll)) (N (snd ll)) (fun n => n ++ d (snd q) ++ d (fst q) ++ "nu" ++ l (fst ll) ++ "nu" ++ l (snd ll)) flavio_nu.
End FlavioOps.
(** V_tj V_ti* 4 GF / sqrt 2 alpha / 4 pi for the transition j -> i *)
Definition fcnc (p : params) (V : mat) (q : fl * fl) : C :=
  Cmul (RtoC (G4 p * a4pi p)) (Cmul (V F3 (snd q)) (Cconj (V F3 (fst q)))).
Definition flavio_df2 : table := flat_map fo_df2 [sb; db; ds].
Definition flavio_groups (p : params) (V : mat) : list group :=
  [(C1, flavio_df2)] ++
  map (fun ud => (Cneg (Cmul (RtoC (G4 p)) (V (fst ud) (snd ud))), flat_map (fo_cc ud) families)) udpairs ++
  map (fun q => (fcnc p V q, flat_map (fo_lep flavio_vec q) families)) [sb; db] ++
  map (fun q => (Cmul (RtoC (param p "m_b")) (fcnc p V q), flat_map (fo_lep flavio_sca q) families)) [sb; db] ++
  map (fun q => (Cmul (RtoC 2) (fcnc p V q), flat_map (fo_nu q) families)) [sb; db; ds].
Definition L_flavio (p : params) (V : mat) := L_groups (flavio_groups p V).

(** ** EOS: charged currents b -> u and semileptonic b -> s *)
Definition eos_cc_ops : list (string * dirac * colour) :=
  [("cVL", Dir Vec PL PL, Singlet); ("cVR", Dir Vec PR PL, Singlet); ("cSR", Dir Sca PR PL, Singlet); ("cSL", Dir Sca PL PL, Singlet);
   ("cT", Dir Ten PL PL, Singlet)].
Definition eos_lep_ops : list (string * dirac * colour) :=
  [("c9", Dir Vec PL PV, Singlet); ("c9'", Dir Vec PR PV, Singlet); ("c10", Dir Vec PL P5, Singlet); ("c10'", Dir Vec PR P5, Singlet);
   ("cS", Dir Sca PR PV, Singlet); ("cS'", Dir Sca PL PV, Singlet); ("cP", Dir Sca PR P5, Singlet); ("cP'", Dir Sca PL P5, Singlet);
   ("cT", Dir Ten PV PV, Singlet); ("cT5", Dir Ten PV P5, Singlet)].
Section EosOps.
Open Scope string_scope.
Definition eo_cc (i : fl) : table := ops4 (U F1) (D F3) (E i) (N i) (fun n => "b->u" ++ l i ++ "nu" ++ l i ++ "::" ++ n) eos_cc_ops.
Definition eo_lep (i : fl) : table := ops4 (D F2) (D F3) (E i) (E i) (fun n => "b->s" ++ l i ++ l i ++ "::" ++ n) eos_lep_ops.
End EosOps.
Definition eos_groups (p : params) (V : mat) : list group :=
  [(Cneg (Cmul (RtoC (G4 p)) (V F1 F3)), flat_map eo_cc [F1; F2]); (fcnc p V sb, flat_map eo_lep [F1; F2])].
Definition L_EOS (p : params) (V : mat) := L_groups (eos_groups p V).

(** ** FormFlavor *)
Definition ff_lep_ops : list (string * dirac * colour) :=
  [("CVLL_", Dir Vec PL PL, Singlet); ("CVRR_", Dir Vec PR PR, Singlet); ("CVLR_", Dir Vec PL PR, Singlet); ("CVRL_", Dir Vec PR PL, Singlet);
   ("CSLL_", Dir Sca PL PL, Singlet); ("CSRR_", Dir Sca PR PR, Singlet); ("CSLR_", Dir Sca PL PR, Singlet); ("CSRL_", Dir Sca PR PL, Singlet);
   ("CTLL_", Dir Ten PL PL, Singlet); ("CTRR_", Dir Ten PR PR, Singlet)].
Section FormFlavorOps.
Open Scope string_scope.
Definition xo_lep (q : fl * fl) : table := ops4 (D (fst q)) (D (snd q)) (E F2) (E F2) (fun n => n ++ d (snd q) ++ d (fst q) ++ "mm") ff_lep_ops.
End FormFlavorOps.
Definition ff_lep : table := flat_map xo_lep [sb; db].
Definition ff_df2 : table := flat_map fo_df2 [sb; db; ds] ++ fo_df2u (F1, F2).
(** What the code's CSLL and CSRR lack: eight times CTLL and CTRR. *)
Section FormFlavorFix.
Open Scope string_scope.
Definition ff_fix : table :=
  flat_map (fun t => flat_map (fun n => match dget t (fst (fst n) ++ snd n) with Some o => [(snd (fst n) ++ snd n, o)] | None => [] end)
    (flat_map (fun k => [(("CSLL_", "CTLL_"), k); (("CSRR_", "CTRR_"), k)]) ["bsbs"; "bdbd"; "sdsd"; "cucu"])) [ff_df2].
End FormFlavorFix.
Definition L_FormFlavor : dict string C -> lagrangian := L_of C1 (ff_df2 ++ ff_lep).

(** The external fermions are those of some operator of the table. *)
Definition covered (t : table) (x y z w : leg) : Prop := exists k o, In (k, o) t /\ legs_of o x y z w.
Definition ops_of (g : list group) : table := flat_map snd g.

(** *** Bern against flavio *)
Section Tensors.
Open Scope string_scope.
(** The tensor operators (s-bar sigma P_R b)(l-bar sigma l), ... with the coefficients of Bern's operators of number [n]. *)
Definition tensor_ops (n : string) : table :=
  flat_map (fun q => flat_map (fun ll => ops4 (D (fst q)) (D (snd q)) (E (fst ll)) (E (snd ll))
    (fun m => m ++ d (fst q) ++ d (snd q) ++ l (fst ll) ++ l (snd ll)) [(n, Dir Ten PR PV, Singlet); (n ++ "p", Dir Ten PL PV, Singlet)]) families) [sb; db].
End Tensors.
(** What flavio's basis has no place for. *)
Definition bern_tensors (p : params) : list group := [(RtoC (G4 p), tensor_ops "7"); (RtoC (- (16) * G4 p), tensor_ops "9")].
(** All transitions of flavio's operators but s -> d nu nu. *)
Definition flavio_no_sd : table :=
  flavio_df2 ++ flat_map (fun ud => flat_map (fo_cc ud) families) udpairs ++ flat_map (fun q => flat_map (fo_lep flavio_vec q) families) [sb; db] ++
  flat_map (fun q => flat_map (fo_nu q) families) [sb; db].
