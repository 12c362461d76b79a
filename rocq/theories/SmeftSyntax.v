(** Syntax of the tables in SmeftTab.v and its meaning. *)
From Coq Require Import String List Bool.
From Verif Require Import PyBase Cplx Tensor.
Import ListNotations.
Open Scope list_scope.

(** Shapes: 1, (3, 3), (3, 3, 3, 3). *)
Inductive shape := Sh0 | Sh2 | Sh4.
(** The assignments occurring in symmetrize_n, smeftutil.py 133-558. *)
Inductive stmt :=
| SRe (i j : idx)                     (* a.real[i] = a.real[j] *)
| SIm (i : idx) (neg : bool) (j : idx) (* a.imag[i] = a.imag[j]  or  -a.imag[j] *)
| SIm0 (i : idx)                      (* a.imag[i] = 0 *)
| SCopy (i j : idx)                   (* a[i] = a[j] *)
| SConj (i j : idx)                   (* a[i] = a[j].conj() *)
| SLin (i : idx) (l : list (bool * idx)) (* a[i] = +-a[j] +-a[k] ... *).
(** The five flavour matrices Uq, Uu, Ud, Ul, Ue of flavor_rotation. *)
Inductive fld := Qf | Uf | Df | Lf | Ef.
(** Rotation of one operator; a matrix is (field, conjugated?). *)
Inductive rot :=
| RNone
| R2 (l r : fld * bool)
| R4 (b d a c : fld * bool).
