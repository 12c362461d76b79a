(** EOS: the four-quark operators of b -> s.  Like LagrBases.v this file does not use the
    translators and was written from memory. How c1 and c2 are to be read for u and c is not settled by it: each quark
    has its own coefficients here, and P_Eos4.v says what the translator returns for each reading. *)
From Coq Require Import String List Bool Arith ZArith Reals.
From Verif Require Import PyBase PyDict Cplx Tensor Params Wc Smeft Wet WetNf WetSpec Dirac LagrBases.
Import ListNotations.
Open Scope string_scope.
Open Scope list_scope.
Open Scope nat_scope.

(** (s-bar gamma T^A P_L q)(q-bar gamma T^A P_L b) and (s-bar gamma P_L q)(q-bar gamma P_L b): current-current
    operators, with coefficients of their own for q = u and q = c. *)
Definition cc_op (k1 k2 : string) (q : fl) : table :=
  [(k1, Oper (D F2) (U q) (U q) (D F3) (Dir Vec PL PL) Octet); (k2, Oper (D F2) (U q) (U q) (D F3) (Dir Vec PL PL) Singlet)].
(** (s-bar .. P_L b) (q-bar .. q): one gamma matrix or three, singlet or octet. *)
Definition penguin (q : fermion) : table :=
  [("c3", Oper (D F2) (D F3) q q (Dir Vec PL PV) Singlet); ("c4", Oper (D F2) (D F3) q q (Dir Vec PL PV) Octet);
   ("c5", Oper (D F2) (D F3) q q (Dir (Gam 3) PL PV) Singlet); ("c6", Oper (D F2) (D F3) q q (Dir (Gam 3) PL PV) Octet)].
Definition five : list fermion := [U F1; D F1; D F2; U F2; D F3].
Definition penguins : table := flat_map penguin five.
Definition eos4 : table := cc_op "c1u" "c2u" F1 ++ cc_op "c1c" "c2c" F2 ++ penguins.
(** 4 GF / sqrt 2 V_tb V_ts^* (sum of c O) + h.c. *)
Definition L_EOS4 (p : params) (V : mat) (g : dict string C) : lagrangian :=
  L_of (Cmul (RtoC (G4 p)) (Cmul (V F3 F3) (Cconj (V F3 F2)))) eos4 g.
(** The external quarks are s-bar b q-bar q, in some order. *)
Definition bsqq (x y z w : leg) : Prop := covered penguins x y z w.
(** A set of EOS coefficients; c1 and c2 may differ for u and c. *)
Definition eos_set (u1 u2 c1 c2 g3 g4 g5 g6 : C) : dict string C :=
  [("c1u", u1); ("c2u", u2); ("c1c", c1); ("c2c", c2); ("c3", g3); ("c4", g4); ("c5", g5); ("c6", g6)].
Definition half (a b : C) : C := Cmul (RtoC (/ 2)) (Cadd a b).
(** The coefficients b->s::c1 .. b->s::c6 of a result, the same c1 and c2 for u and c. *)
Definition returned (o : dict string C) : dict string C :=
  let g n := num_of o (String.append "b->s::c" n) in eos_set (g "1") (g "2") (g "1") (g "2") (g "3") (g "4") (g "5") (g "6").
(** - V_qb V_qs^* / (V_tb V_ts^* ): the weights of the u and c operators in the Standard Model, which add up to 1. *)
Definition ckm_weight (V : mat) (q : fl) : C :=
  Cneg (Cmul (Cmul (V q F3) (Cconj (V q F2))) (Cinv (Cmul (V F3 F3) (Cconj (V F3 F2))))).
