(** Matching of the SMEFT onto the WET, wcxf/matchers/smeft.py: array operations and
    the electroweak couplings.  The matching conditions are in MatchTab. *)
From Coq Require Import String List Reals.
From Verif Require Import PyBase PyDict Cplx Tensor Wc Params Smeft.
Import ListNotations.
Open Scope string_scope.
Open Scope list_scope.
Open Scope R_scope.

(** ** numpy arithmetic on (3, 3) and (3, 3, 3, 3) arrays *)
Section Ops.
Local Open Scope C_scope.
Definition mzero : mat := fun _ _ => 0.
Definition mneg (a : mat) : mat := fun i j => - a i j.
Definition madd (a b : mat) : mat := fun i j => a i j + b i j.
Definition msub (a b : mat) : mat := fun i j => a i j - b i j.
Definition mscale (x : R) (a : mat) : mat := fun i j => RtoC x * a i j.
Definition tzero : ten := fun _ _ _ _ => 0.
Definition tneg (a : ten) : ten := fun p r s t => - a p r s t.
Definition tadd (a b : ten) : ten := fun p r s t => a p r s t + b p r s t.
Definition tsub (a b : ten) : ten := fun p r s t => a p r s t - b p r s t.
Definition tscale (x : R) (a : ten) : ten := fun p r s t => RtoC x * a p r s t.
(** [np.einsum('stpr', a)]: without "->" the axes of the result are in alphabetical order, p, r, s, t *)
Definition e_stpr (a : ten) : ten := fun p r s t => a s t p r.
Definition e_ptsr (a : ten) : ten := fun p r s t => a p t s r.
Definition e_srpt (a : ten) : ten := fun p r s t => a s r p t.
Definition e_rpst (a : ten) : ten := fun p r s t => a r p s t.
(** [np.einsum('pr,st', a, b)] *)
Definition e_pr_st (a b : mat) : ten := fun p r s t => a p r * b s t.
Definition e_pt_sr (a b : mat) : ten := fun p r s t => a p t * b s r.
Definition e_pt_rs (a b : mat) : ten := fun p r s t => a p t * b r s.
Definition e_pr_ts (a b : mat) : ten := fun p r s t => a p r * b t s.
End Ops.

(** [C[k]].  The functions are only called on dictionaries that have every SMEFT name
    with an array of the right shape (add_missing), so subscription never fails. *)
Definition g0 (A : arrays) (k : string) : C := match dget A k with Some (A0 z) => z | _ => C0 end.
Definition g2 (A : arrays) (k : string) : mat := match dget A k with Some (A2 m) => m | _ => mzero end.
Definition g4 (A : arrays) (k : string) : ten := match dget A k with Some (A4 t) => t | _ => tzero end.

(** ** Couplings, matchers/smeft.py 14-45.  The source calls these functions again in every
    matching condition; here they are computed once. *)
Record coup := Coup { c_v : R; c_g2 : R; c_g1 : R; c_s : R; c_c : R; c_e : R; c_gz : R }.
(** GFx in vT, lines 16-17 *)
Definition gfx (A : arrays) (p : params) : C :=
  (RtoC (param p "GF") - RtoC (sqrt 2 / 4) *
   (- g4 A "ll" F2 F1 F1 F2 - g4 A "ll" F1 F2 F2 F1 + RtoC 2 * g2 A "phil3" F2 F2 + RtoC 2 * g2 A "phil3" F1 F1))%C.
(** vT, lines 15-18.  GFx is a numpy number, so dividing by zero gives infinity, here None. *)
Definition vT (A : arrays) (p : params) : option R :=
  if Req_EM_T (Cabs (gfx A p)) 0 then None else Some (sqrt (1 / sqrt 2 / Cabs (gfx A p))).
(** symmetrize has removed the imaginary part. *)
Definition phiWB (A : arrays) : R := Re (g0 A "phiWB").
(** g2b, lines 25-27: 2 m_W / infinity is 0. *)
Definition g2b (p : params) (v : option R) : R := match v with Some v => 2 * param p "m_W" / v | None => 0 end.
Definition fin (v : option R) : R := match v with Some v => v | None => 0 end.
(** eps, lines 21-22 *)
Definition eps (A : arrays) (v : R) : R := phiWB A * v ^ 2.
(** g1b, sb, cb, eb, lines 29-43.  math.sqrt of a negative number is a ValueError.
    Simplified: dividing by zero is a ZeroDivisionError, also where phiWB has been filled in
    by add_missing and numpy would go on with nan.  If v is None the first quotient or
    square root fails, so [fin v] is only used when it is the value. *)
Definition weak (A : arrays) (p : params) (v : option R) : res coup :=
  let a := 4 * PI * param p "alpha_e" in
  if Rlt_dec a 0 then Err ValueError else
  let e := sqrt a in
  let g2 := g2b p v in
  let D := g2 ^ 2 - e ^ 2 in
  if Rlt_dec D 0 then Err ValueError else
  if Req_EM_T D 0 then Err ZeroDivisionError else
  let ep := eps A (fin v) in
  let g1 := e * g2 / sqrt D + e ^ 2 * g2 / D * ep in
  if Req_EM_T g1 0 then Err ZeroDivisionError else
  let s := g1 / sqrt (g1 ^ 2 + g2 ^ 2) * (1 + ep / 2 * g2 / g1 * ((g2 ^ 2 - g1 ^ 2) / (g1 ^ 2 + g2 ^ 2))) in
  let c := g2 / sqrt (g1 ^ 2 + g2 ^ 2) * (1 - ep / 2 * g1 / g2 * ((g2 ^ 2 - g1 ^ 2) / (g1 ^ 2 + g2 ^ 2))) in
  Ok (Coup (fin v) g2 g1 s c (g2 * s - 1 / 2 * c * g2 * fin v ^ 2 * phiWB A) 0).
(** gzb, lines 44-45 *)
Definition with_gz (A : arrays) (k : coup) : res coup :=
  if Req_EM_T (c_s k * c_c k) 0 then Err ZeroDivisionError else
  Ok (Coup (c_v k) (c_g2 k) (c_g1 k) (c_s k) (c_c k) (c_e k)
        (c_e k / (c_s k * c_c k) * (1 + (c_g1 k ^ 2 + c_g2 k ^ 2) / (2 * c_g1 k * c_g2 k) * c_v k ^ 2 * phiWB A))).
