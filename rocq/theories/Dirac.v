(** Dirac matrices, colour, four-fermion operators and their amplitudes at tree level.
    This file knows nothing of the package: it is what the names of the WET coefficients mean
    in physics.  Matrices have Gaussian-integer entries, written out in the chiral
    representation. *)
From Coq Require Import List Bool ZArith Reals.
From Verif Require Import Cplx Tensor WetNf.
Import ListNotations.
Open Scope list_scope.

(** ** Gaussian integers and matrices *)
Definition gi := (Z * Z)%type.
Definition g0 : gi := (0, 0)%Z.
Definition gadd (a b : gi) : gi := (fst a + fst b, snd a + snd b)%Z.
Definition gmul (a b : gi) : gi := (fst a * fst b - snd a * snd b, fst a * snd b + snd a * fst b)%Z.
Definition gscale (n : Z) (a : gi) : gi := (n * fst a, n * snd a)%Z.
Definition gconj (a : gi) : gi := (fst a, - snd a)%Z.
Definition gsum (l : list gi) : gi := fold_right gadd g0 l.
Definition geqb (a b : gi) : bool := Z.eqb (fst a) (fst b) && Z.eqb (snd a) (snd b).
Definition gC (a : gi) : C := (IZR (fst a), IZR (snd a)).
Definition gmat := list (list gi).
Definition gent (m : gmat) (i j : nat) : gi := nth j (nth i m []) g0.
Definition ix4 : list nat := [0; 1; 2; 3].
Definition build (f : nat -> nat -> gi) : gmat := map (fun i => map (f i) ix4) ix4.
Definition mmulg (a b : gmat) : gmat := build (fun i j => gsum (map (fun k => gmul (gent a i k) (gent b k j)) ix4)).
Definition maddg (a b : gmat) : gmat := build (fun i j => gadd (gent a i j) (gent b i j)).
Definition mscaleg (z : gi) (a : gmat) : gmat := build (fun i j => gmul z (gent a i j)).
Definition mdagg (a : gmat) : gmat := build (fun i j => gconj (gent a j i)).
Definition zmat (l : list (list Z)) : gmat := map (map (fun n => (n, 0%Z))) l.
Definition imat (l : list (list Z)) : gmat := map (map (fun n => (0%Z, n))) l.

(** ** Dirac matrices, chiral representation *)
Definition one4 : gmat := zmat [[1; 0; 0; 0]; [0; 1; 0; 0]; [0; 0; 1; 0]; [0; 0; 0; 1]]%Z.
Definition gamma (mu : nat) : gmat :=
  match mu with
  | 0 => zmat [[0; 0; 1; 0]; [0; 0; 0; 1]; [1; 0; 0; 0]; [0; 1; 0; 0]]%Z
  | 1 => zmat [[0; 0; 0; 1]; [0; 0; 1; 0]; [0; -1; 0; 0]; [-1; 0; 0; 0]]%Z
  | 2 => imat [[0; 0; 0; -1]; [0; 0; 1; 0]; [0; 1; 0; 0]; [-1; 0; 0; 0]]%Z
  | _ => zmat [[0; 0; 1; 0]; [0; 0; 0; -1]; [-1; 0; 0; 0]; [0; 1; 0; 0]]%Z
  end.
Definition gamma5 : gmat := zmat [[-1; 0; 0; 0]; [0; -1; 0; 0]; [0; 0; 1; 0]; [0; 0; 0; 1]]%Z.
(** metric +,-,-,- *)
Definition metric (mu : nat) : Z := match mu with O => 1%Z | _ => (-1)%Z end.
Inductive proj := PL | PR | PV | P5.
(** P_L, P_R, 1, gamma5 *)
Definition projm (x : proj) : gmat :=
  match x with
  | PL => zmat [[1; 0; 0; 0]; [0; 1; 0; 0]; [0; 0; 0; 0]; [0; 0; 0; 0]]%Z
  | PR => zmat [[0; 0; 0; 0]; [0; 0; 0; 0]; [0; 0; 1; 0]; [0; 0; 0; 1]]%Z
  | PV => one4
  | P5 => gamma5
  end.
(** sigma^{mu nu} = i/2 [gamma^mu, gamma^nu], that is i gamma^mu gamma^nu for mu <> nu *)
Definition sigma (mu nu : nat) : gmat :=
  if Nat.eqb mu nu then build (fun _ _ => g0) else mscaleg (0, 1)%Z (mmulg (gamma mu) (gamma nu)).

(** A pair of Dirac matrices with contracted Lorentz indices: gamma_mu ... gamma_nu on both
    sides ([Gam n], n matrices each), or sigma_{mu nu} on both sides ([Sig]). *)
Inductive lorentz := Gam (n : nat) | Sig.
Definition pairs := list (Z * gmat * gmat).
Fixpoint gams (n : nat) : pairs :=
  match n with
  | 0 => [(1%Z, one4, one4)]
  | S m => flat_map (fun mu => map (fun t => match t with (s, a, b) => ((metric mu * s)%Z, mmulg (gamma mu) a, mmulg (gamma mu) b) end)
                                   (gams m)) ix4
  end.
Definition sigs : pairs :=
  flat_map (fun mu => map (fun nu => ((metric mu * metric nu)%Z, sigma mu nu, sigma mu nu)) ix4) ix4.
(** [Dir k x y]: the matrices k, times x in the first bilinear and y in the second.
    [Bar d]: gamma0 (..)^+ gamma0 for both, as in the hermitian conjugate of an operator. *)
Inductive dirac := Dir (k : lorentz) (x y : proj) | Bar (d : dirac).
Fixpoint dterms (d : dirac) : pairs :=
  match d with
  | Dir k x y => map (fun t => match t with (s, a, b) => (s, mmulg a (projm x), mmulg b (projm y)) end)
                     (match k with Gam n => gams n | Sig => sigs end)
  | Bar d' => map (fun t => match t with (s, a, b) =>
                 (s, mmulg (gamma 0) (mmulg (mdagg a) (gamma 0)), mmulg (gamma 0) (mmulg (mdagg b) (gamma 0))) end) (dterms d')
  end.
Inductive spin := Sp1 | Sp2 | Sp3 | Sp4.
Definition sn (s : spin) : nat := match s with Sp1 => 0 | Sp2 => 1 | Sp3 => 2 | Sp4 => 3 end.
Definition dent (d : dirac) (a b c e : spin) : gi :=
  gsum (map (fun t => match t with (s, m, n) => gscale s (gmul (gent m (sn a) (sn b)) (gent n (sn c) (sn e))) end) (dterms d)).

(** ** Colour *)
Inductive hue := Red | Green | Blue.
Definition hn (h : hue) : nat := match h with Red => 0 | Green => 1 | Blue => 2 end.
Definition hue_eqb (a b : hue) : bool := Nat.eqb (hn a) (hn b).
(** The Gell-Mann matrices; lambda8 is diag(1, 1, -2) / sqrt 3.  [octet12] is 12 times the sum
    of T^A T^A with T^A = lambda^A / 2: every matrix counts 12 / 4, and the last one 12 / 12. *)
Definition gellmann : list (Z * gmat) :=
  [(3, zmat [[0; 1; 0]; [1; 0; 0]; [0; 0; 0]]); (3, imat [[0; -1; 0]; [1; 0; 0]; [0; 0; 0]]); (3, zmat [[1; 0; 0]; [0; -1; 0]; [0; 0; 0]]);
   (3, zmat [[0; 0; 1]; [0; 0; 0]; [1; 0; 0]]); (3, imat [[0; 0; -1]; [0; 0; 0]; [1; 0; 0]]); (3, zmat [[0; 0; 0]; [0; 0; 1]; [0; 1; 0]]);
   (3, imat [[0; 0; 0]; [0; 0; -1]; [0; 1; 0]]); (1, zmat [[1; 0; 0]; [0; 1; 0]; [0; 0; -2]])]%Z.
Definition octet12 (a b c e : hue) : gi :=
  gsum (map (fun t => gscale (fst t) (gmul (gent (snd t) (hn a) (hn b)) (gent (snd t) (hn c) (hn e)))) gellmann).
(** Colour structure of a pair of bilinears: each bilinear a singlet; the colour of the first
    field equal to that of the fourth and of the second to that of the third; T^A T^A. *)
Inductive colour := Singlet | Crossed | Octet.

(** ** Operators *)
Definition fermion := (field * fl)%type.
Definition field_eqb (a b : field) : bool := match a, b with Nu, Nu | El, El | Up, Up | Dn, Dn => true | _, _ => false end.
Definition fermion_eqb (a b : fermion) : bool := field_eqb (fst a) (fst b) && fl_eqb (snd a) (snd b).
Definition quark (f : fermion) : bool := match fst f with Up | Dn => true | _ => false end.
(** (f1-bar ... f2) (f3-bar ... f4) *)
Record oper := Oper { o1 : fermion; o2 : fermion; o3 : fermion; o4 : fermion; o_dirac : dirac; o_colour : colour }.
(** The hermitian conjugate. *)
Definition dag (o : oper) : oper := Oper (o2 o) (o1 o) (o4 o) (o3 o) (Bar (o_dirac o)) (o_colour o).
(** A leg: flavour, spinor component, colour (no meaning for leptons). *)
Record leg := Leg { l_f : fermion; l_s : spin; l_h : hue }.
Definition delta (f : fermion) (a b : hue) : C := if quark f then if hue_eqb a b then C1 else C0 else C1.
Definition colour_factor (o : oper) (a b c e : hue) : C :=
  match o_colour o with
  | Singlet => Cmul (delta (o1 o) a b) (delta (o3 o) c e)
  | Crossed => Cmul (delta (o1 o) a e) (delta (o3 o) c b)
  | Octet => Cmul (RtoC (/ 12)) (gC (octet12 a b c e))
  end.
(** The operator with the bars of the legs x and z and the legs y and w put for its four fields. *)
Definition vertex (o : oper) (x y z w : leg) : C :=
  if fermion_eqb (o1 o) (l_f x) && fermion_eqb (o2 o) (l_f y) && fermion_eqb (o3 o) (l_f z) && fermion_eqb (o4 o) (l_f w)
  then Cmul (gC (dent (o_dirac o) (l_s x) (l_s y) (l_s z) (l_s w))) (colour_factor o (l_h x) (l_h y) (l_h z) (l_h w))
  else C0.
(** All ways to put the legs, with Fermi signs. *)
Definition amp1 (o : oper) (x y z w : leg) : C :=
  Cadd (Csub (Csub (vertex o x y z w) (vertex o z y x w)) (vertex o x w z y)) (vertex o z w x y).
(** A Lagrangian: coefficients and operators. *)
Definition lagrangian := list (C * oper).
Definition amplitude (l : lagrangian) (x y z w : leg) : C :=
  fold_right (fun t s => Cadd (Cmul (fst t) (amp1 (snd t) x y z w)) s) C0 l.
(** C O + h.c. *)
Definition plus_hc (z : C) (o : oper) : lagrangian := [(z, o); (Cconj z, dag o)].

(** ** The matrices are what they should be *)
Definition mat_eqb (a b : gmat) : bool := forallb (fun i => forallb (fun j => geqb (gent a i j) (gent b i j)) ix4) ix4.
Lemma clifford : forallb (fun mu => forallb (fun nu =>
  mat_eqb (maddg (mmulg (gamma mu) (gamma nu)) (mmulg (gamma nu) (gamma mu)))
          (mscaleg ((if Nat.eqb mu nu then 2 * metric mu else 0)%Z, 0%Z) one4)) ix4) ix4 = true.
Proof. vm_compute. reflexivity. Qed.
Lemma gamma5_product : mat_eqb gamma5 (mscaleg (0, 1)%Z (mmulg (gamma 0) (mmulg (gamma 1) (mmulg (gamma 2) (gamma 3))))) = true.
Proof. vm_compute. reflexivity. Qed.
Lemma projectors : mat_eqb (mscaleg (2, 0)%Z (projm PL)) (maddg one4 (mscaleg (-1, 0)%Z gamma5)) &&
  mat_eqb (mscaleg (2, 0)%Z (projm PR)) (maddg one4 gamma5) = true.
Proof. vm_compute. reflexivity. Qed.
Lemma sigma_commutator : forallb (fun mu => forallb (fun nu =>
  mat_eqb (mscaleg (2, 0)%Z (sigma mu nu))
     (mscaleg (0, 1)%Z (maddg (mmulg (gamma mu) (gamma nu)) (mscaleg (-1, 0)%Z (mmulg (gamma nu) (gamma mu)))))) ix4) ix4 = true.
Proof. vm_compute. reflexivity. Qed.

(** ** The particles an operator acts on *)
Definition quad := (fermion * fermion * fermion * fermion)%type.
Definition lq (x y z w : leg) : quad := (l_f x, l_f y, l_f z, l_f w).
Definition oquad (o : oper) : quad := (o1 o, o2 o, o3 o, o4 o).
(** The external fermions are those of the operator, or of its conjugate, in order ... *)
Definition ordered (o : oper) (x y z w : leg) : Prop := lq x y z w = oquad o \/ lq x y z w = oquad (dag o).
(** ... or after exchanging the two outgoing or the two incoming ones. *)
Definition legs_of (o : oper) (x y z w : leg) : Prop :=
  ordered o x y z w \/ ordered o z y x w \/ ordered o x w z y \/ ordered o z w x y.
