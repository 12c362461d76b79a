(** Dipole operators, their vertices, and the dipole Lagrangians of the bases.
    Like Dirac.v and LagrBases.v this file does not use the translators. The normalisations and the order of flavours
    in the names were written down from memory and, where that left a choice (FormFlavor's names, m_b for s -> d in
    Bern), taken from wet.py. *)
From Coq Require Import String Ascii List Bool Arith ZArith Reals.
From Verif Require Import PyBase PyDict Cplx Tensor Params Wc Smeft Wet WetNf WetSpec Dirac LagrBases.
Import ListNotations.
Open Scope string_scope.
Open Scope list_scope.
Open Scope nat_scope.

(** ** Operators *)
Inductive boson := Photon | Gluon.
Definition boson_eqb (a b : boson) : bool := match a, b with Photon, Photon | Gluon, Gluon => true | _, _ => false end.
(** sigma^{mu nu} times P_R or P_L; [BarD]: gamma0 (..)^+ gamma0 *)
Inductive sigp := SigP (right : bool) | BarD (s : sigp).
Fixpoint sigpm (s : sigp) (mu nu : nat) : gmat :=
  match s with
  | SigP r => mmulg (sigma mu nu) (projm (if r then PR else PL))
  | BarD s' => mmulg (gamma 0) (mmulg (mdagg (sigpm s' mu nu)) (gamma 0))
  end.
(** f1-bar sigma^{mu nu} P f2 F_{mu nu}, or with T^A G^A_{mu nu} *)
Record dipole := Dip { d_1 : fermion; d_2 : fermion; d_boson : boson; d_sig : sigp }.
Definition dagd (o : dipole) : dipole := Dip (d_2 o) (d_1 o) (d_boson o) (BarD (d_sig o)).
(** A component of the field strength: F_{mu nu}, or G^A_{mu nu} (A counts the Gell-Mann matrices from 0). *)
Inductive lix := M0 | M1 | M2 | M3.
Definition ln (m : lix) : nat := match m with M0 => 0 | M1 => 1 | M2 => 2 | M3 => 3 end.
Record quantum := Quantum { q_boson : boson; q_mu : lix; q_nu : lix; q_A : nat }.
(** T^A = lambda^A / 2: [gellmann] gives 12 times the square of the factor and the matrix. *)
Definition generator (A : nat) (a b : hue) : C :=
  match nth_error gellmann A with
  | Some (w, m) => Cmul (RtoC (sqrt (IZR w / 12))) (gC (gent m (hn a) (hn b)))
  | None => C0
  end.
Definition dcolour (o : dipole) (a b : hue) (A : nat) : C :=
  match d_boson o with Photon => delta (d_1 o) a b | Gluon => generator A a b end.
Definition dvertex (o : dipole) (x y : leg) (g : quantum) : C :=
  if fermion_eqb (d_1 o) (l_f x) && fermion_eqb (d_2 o) (l_f y) && boson_eqb (d_boson o) (q_boson g)
  then Cmul (gC (gent (sigpm (d_sig o) (ln (q_mu g)) (ln (q_nu g))) (sn (l_s x)) (sn (l_s y)))) (dcolour o (l_h x) (l_h y) (q_A g))
  else C0.
Definition dlagrangian := list (C * dipole).
Definition damplitude (l : dlagrangian) (x y : leg) (g : quantum) : C :=
  fold_right (fun t s => Cadd (Cmul (fst t) (dvertex (snd t) x y g)) s) C0 l.
Definition dplus_hc (z : C) (o : dipole) : dlagrangian := [(z, o); (Cconj z, dagd o)].

(** ** JMS: (i-bar sigma P_R j) F or G, and the hermitian conjugate, for all flavours in the listing *)
Definition jms_dips : dict string (field * boson) :=
  [("egamma", (El, Photon)); ("ugamma", (Up, Photon)); ("dgamma", (Dn, Photon)); ("uG", (Up, Gluon)); ("dG", (Dn, Gluon))].
Definition idx2 : list idx := flat_map (fun i => map (fun j => [i; j]) [F1; F2; F3]) [F1; F2; F3].
Definition jms_dip (fb : field * boson) (x : idx) : dipole :=
  Dip (fst fb, nth 0 x F1) (fst fb, nth 1 x F1) (snd fb) (SigP true).
Definition L_JMS_dip (J : list string) (c : dict string C) : dlagrangian :=
  flat_map (fun no => flat_map (fun x => if mem (cname (fst no) x) J then dplus_hc (num_of c (cname (fst no) x)) (jms_dip (snd no) x) else []) idx2) jms_dips.

(** ** Tables *)
Definition dtable := list (string * dipole).
Definition LD_of (factor : C) (t : dtable) (c : dict string C) : dlagrangian :=
  flat_map (fun ko => dplus_hc (Cmul factor (num_of c (fst ko))) (snd ko)) t.
Definition LD_groups (g : list (C * dtable)) (c : dict string C) : dlagrangian := flat_map (fun ct => LD_of (fst ct) (snd ct) c) g.
Definition e_of (p : params) : R := sqrt (4 * PI * param p "alpha_e").
Definition gs_of (p : params) : R := sqrt (4 * PI * param p "alpha_s").
Section DipTables.
Open Scope string_scope.
(** a pair of names, the operators with P_R and P_L *)
Definition both (b : boson) (f1 f2 : fermion) (r lft : string) : dtable := [(r, Dip f1 f2 b (SigP true)); (lft, Dip f1 f2 b (SigP false))].
(** Bern: 4 GF / sqrt 2 times m_b e / gs^2 for the photon and m_b / gs for the gluon *)
Definition bd (b : boson) (n np : string) (q : fl * fl) : dtable :=
  both b (D (fst q)) (D (snd q)) (n ++ d (fst q) ++ d (snd q)) (np ++ d (fst q) ++ d (snd q)).
Definition bern_dip_groups (p : params) (qs : list (fl * fl)) : list (C * dtable) :=
  [(RtoC (G4 p * (param p "m_b" * e_of p / (gs_of p * gs_of p))), flat_map (bd Photon "7gamma" "7pgamma") qs);
   (RtoC (G4 p * (param p "m_b" / gs_of p)), flat_map (bd Gluon "8g" "8pg") qs)].
(** flavio: 4 GF / sqrt 2 V_tj V_ti^* m_b e / 16 pi^2 and m_b gs / 16 pi^2 for j -> i *)
Definition fd (b : boson) (n np : string) (q : fl * fl) : dtable :=
  both b (D (fst q)) (D (snd q)) (n ++ d (snd q) ++ d (fst q)) (np ++ d (snd q) ++ d (fst q)).
Definition dip_factor (p : params) (V : mat) (q : fl * fl) (m : string) (g : R) : C :=
  Cmul (RtoC (G4 p * (param p m * g / (16 * (PI * PI))))) (Cmul (V F3 (snd q)) (Cconj (V F3 (fst q)))).
Definition flavio_dip_groups (p : params) (V : mat) : list (C * dtable) :=
  flat_map (fun q => [(dip_factor p V q "m_b" (e_of p), fd Photon "C7_" "C7p_" q); (dip_factor p V q "m_b" (gs_of p), fd Gluon "C8_" "C8p_" q)]) [sb; db].
(** EOS: the same with m_b P_R + m_s P_L (primed: m_b P_L + m_s P_R) *)
Definition eos_dip_groups (p : params) (V : mat) : list (C * dtable) :=
  [(dip_factor p V sb "m_b" (e_of p), both Photon (D F2) (D F3) "b->s::c7" "b->s::c7'");
   (dip_factor p V sb "m_s" (e_of p), both Photon (D F2) (D F3) "b->s::c7'" "b->s::c7");
   (dip_factor p V sb "m_b" (gs_of p), both Gluon (D F2) (D F3) "b->s::c8" "b->s::c8'");
   (dip_factor p V sb "m_s" (gs_of p), both Gluon (D F2) (D F3) "b->s::c8'" "b->s::c8")].
(** FormFlavor: e and gs *)
Definition xd (r lft : string) (s : fl -> string) (k : field) (b : boson) (q : fl * fl) : dtable :=
  both b (k, fst q) (k, snd q) (r ++ s (fst q) ++ s (snd q)) (lft ++ s (fst q) ++ s (snd q)).
Definition ff_quark_dip_groups (p : params) : list (C * dtable) :=
  [(RtoC (e_of p), flat_map (xd "CAR_" "CAL_" d Dn Photon) [sb; db]); (RtoC (gs_of p), flat_map (xd "CGR_" "CGL_" d Dn Gluon) [sb; db])].
Definition ff_lepton_right (q : fl * fl) : dtable := [("CAR_" ++ lc (fst q) ++ lc (snd q), Dip (E (fst q)) (E (snd q)) Photon (SigP true))].
Definition ff_lepton_left (q : fl * fl) : dtable := [("CAL_" ++ lc (fst q) ++ lc (snd q), Dip (E (fst q)) (E (snd q)) Photon (SigP false))].
(** [g] multiplies the left-handed operators; the basis has [g = e]. *)
Definition ff_lepton_dip_groups (p : params) (g : R) : list (C * dtable) :=
  [(RtoC (e_of p), flat_map ff_lepton_right [(F2, F3); (F1, F2); (F1, F3)]); (RtoC g, flat_map ff_lepton_left [(F2, F3); (F1, F2); (F1, F3)])].
(** Diagonal operators: P_R and P_L are each other's hermitian conjugates, nothing is added. *)
Definition ff_diagonal : list (boson * dtable) :=
  [(Photon, xd "CAR_" "CAL_" d Dn Photon (F1, F1) ++ xd "CAR_" "CAL_" u Up Photon (F1, F1));
   (Gluon, xd "CGR_" "CGL_" d Dn Gluon (F1, F1) ++ xd "CGR_" "CGL_" u Up Gluon (F1, F1))]%list.
End DipTables.
Definition L_FF_diagonal (p : params) (c : dict string C) : dlagrangian :=
  flat_map (fun bt => map (fun ko => (Cmul (RtoC (match fst bt with Photon => e_of p | Gluon => gs_of p end)) (num_of c (fst ko)), snd ko)) (snd bt)) ff_diagonal.

(** The legs and the boson are those of an operator of the table, or of its conjugate. *)
Definition dcovered (t : dtable) (x y : leg) (g : quantum) : Prop :=
  exists k o, In (k, o) t /\ q_boson g = d_boson o /\ (l_f x = d_1 o /\ l_f y = d_2 o \/ l_f x = d_2 o /\ l_f y = d_1 o).
Definition dops (g : list (C * dtable)) : dtable := flat_map snd g.
