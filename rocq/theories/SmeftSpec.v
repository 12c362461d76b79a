(** Specification side: index symmetries of the SMEFT operators (hand-written,
    independent of the tables in smeftutil.py). *)
From Coq Require Import String List Bool Reals.
From Verif Require Import PyBase Cplx Tensor Smeft.
Import ListNotations.
Open Scope string_scope.
Open Scope list_scope.

Definition hermitian (m : mat) : Prop := forall i j, m i j = Cconj (m j i).
Definition symmetric_mat (m : mat) : Prop := forall i j, m i j = m j i.
(** C_prst = C*_rpts *)
Definition currents (t : ten) : Prop := forall p r s u, t p r s u = Cconj (t r p u s).
(** C_prst = C_stpr = C*_rpts *)
Definition identical_currents (t : ten) : Prop := currents t /\ forall p r s u, t p r s u = t s u p r.
(** additionally C_prst = C_ptsr *)
Definition ee_currents (t : ten) : Prop := identical_currents t /\ forall p r s u, t p r s u = t p u s r.
(** C_prst = C_rpst *)
Definition qque_symmetry (t : ten) : Prop := forall p r s u, t p r s u = t r p s u.
(** C_prst + C_rpst = C_sprt + C_srpt *)
Definition qqql_symmetry (t : ten) : Prop :=
  forall p r s u, Cadd (t p r s u) (t r p s u) = Cadd (t s p r u) (t s r p u).

(** The symmetry class of each operator (arXiv:1312.2014, arXiv:1704.03888). *)
Inductive symkind := SReal | SGeneral | SHermitian | SSymmetric | SCurrents | SIdentical | SEe | SQque | SQqql.
Definition sym_kind (op : string) : symkind :=
  if mem op ["G"; "Gtilde"; "W"; "Wtilde"; "phi"; "phiBox"; "phiD"; "phiG"; "phiB"; "phiW"; "phiWB";
             "phiGtilde"; "phiBtilde"; "phiWtilde"; "phiWtildeB"] then SReal
  else if mem op ["phil1"; "phil3"; "phie"; "phiq1"; "phiq3"; "phiu"; "phid"] then SHermitian
  else if mem op ["llphiphi"] then SSymmetric
  else if mem op ["lq1"; "lq3"; "eu"; "ed"; "ud1"; "ud8"; "le"; "lu"; "ld"; "qe"; "qu1"; "qu8"; "qd1"; "qd8"] then SCurrents
  else if mem op ["ll"; "qq1"; "qq3"; "uu"; "dd"] then SIdentical
  else if mem op ["ee"] then SEe
  else if mem op ["qque"] then SQque
  else if mem op ["qqql"] then SQqql
  else SGeneral.
Definition index_symmetry (op : string) (v : arr) : Prop :=
  match sym_kind op, v with
  | SReal, A0 z => Im z = 0%R
  | SHermitian, A2 m => hermitian m
  | SSymmetric, A2 m => symmetric_mat m
  | SCurrents, A4 t => currents t
  | SIdentical, A4 t => identical_currents t
  | SEe, A4 t => ee_currents t
  | SQque, A4 t => qque_symmetry t
  | SQqql, A4 t => qqql_symmetry t
  | _, _ => True
  end.
