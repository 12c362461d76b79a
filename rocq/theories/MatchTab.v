(** Generated by tools/gen_match.py from wcxf/matchers/smeft.py; do not edit.
    [np.eye(3)*x/2] is read as [scale (/2) (scale x eye)]. *)
From Coq Require Import String List Reals.
From Verif Require Import PyBase PyDict Cplx Tensor Wc Params Smeft MatchOps.
Import ListNotations.
Open Scope string_scope.
Open Scope list_scope.
Open Scope R_scope.

(** wl, matchers/smeft.py 48-49 *)
Definition wl (k : coup) (A : arrays) : mat := (madd meye (mscale ((c_v k) ^ 2) (g2 A "phil3"))).
(** wq, matchers/smeft.py 50-51 *)
Definition wq (k : coup) (A : arrays) : mat := (madd meye (mscale ((c_v k) ^ 2) (g2 A "phiq3"))).
(** wr, matchers/smeft.py 52-53 *)
Definition wr (k : coup) (A : arrays) : mat := (mscale ((1 / 2) * ((c_v k) ^ 2)) (g2 A "phiud")).
(** znu, matchers/smeft.py 54-55 *)
Definition znu (k : coup) (A : arrays) : mat := (madd (msub (mscale (/ 2) (mscale 1 meye)) (mscale ((1 / 2) * ((c_v k) ^ 2)) (g2 A "phil1"))) (mscale ((1 / 2) * ((c_v k) ^ 2)) (g2 A "phil3"))).
(** zel, matchers/smeft.py 56-57 *)
Definition zel (k : coup) (A : arrays) : mat := (msub (msub (mscale (((- 1) / 2) + ((c_s k) ^ 2)) meye) (mscale ((1 / 2) * ((c_v k) ^ 2)) (g2 A "phil1"))) (mscale ((1 / 2) * ((c_v k) ^ 2)) (g2 A "phil3"))).
(** zer, matchers/smeft.py 58-59 *)
Definition zer (k : coup) (A : arrays) : mat := (msub (mscale ((c_s k) ^ 2) meye) (mscale ((1 / 2) * ((c_v k) ^ 2)) (g2 A "phie"))).
(** zul, matchers/smeft.py 60-61 *)
Definition zul (k : coup) (A : arrays) : mat := (madd (msub (mscale ((1 / 2) - ((2 / 3) * ((c_s k) ^ 2))) meye) (mscale ((1 / 2) * ((c_v k) ^ 2)) (g2 A "phiq1"))) (mscale ((1 / 2) * ((c_v k) ^ 2)) (g2 A "phiq3"))).
(** zur, matchers/smeft.py 62-63 *)
Definition zur (k : coup) (A : arrays) : mat := (msub (mscale ((c_s k) ^ 2) (mscale ((- 2) / 3) meye)) (mscale ((1 / 2) * ((c_v k) ^ 2)) (g2 A "phiu"))).
(** zdl, matchers/smeft.py 64-65 *)
Definition zdl (k : coup) (A : arrays) : mat := (msub (msub (mscale (((- 1) / 2) + ((1 / 3) * ((c_s k) ^ 2))) meye) (mscale ((1 / 2) * ((c_v k) ^ 2)) (g2 A "phiq1"))) (mscale ((1 / 2) * ((c_v k) ^ 2)) (g2 A "phiq3"))).
(** zdr, matchers/smeft.py 66-67 *)
Definition zdr (k : coup) (A : arrays) : mat := (msub (mscale ((c_s k) ^ 2) (mscale (1 / 3) meye)) (mscale ((1 / 2) * ((c_v k) ^ 2)) (g2 A "phid"))).

(** C["nu"], matchers/smeft.py 75 *)
Definition m_nu (k : coup) (p : params) (A : arrays) : arr := A2 (mscale ((c_v k) ^ 2) (mscale (1 / 2) (g2 A "llphiphi"))).
(** C["nugamma"], matchers/smeft.py 78 *)
Definition m_nugamma (k : coup) (p : params) (A : arrays) : arr := A2 mzero.
(** C["egamma"], matchers/smeft.py 81 *)
Definition m_egamma (k : coup) (p : params) (A : arrays) : arr := A2 (mscale (c_v k) (mscale (1 / (sqrt 2)) (madd (mscale (c_s k) (mneg (g2 A "eW"))) (mscale (c_c k) (g2 A "eB"))))).
(** C["ugamma"], matchers/smeft.py 83 *)
Definition m_ugamma (k : coup) (p : params) (A : arrays) : arr := A2 (mscale (c_v k) (mscale (1 / (sqrt 2)) (madd (mscale (c_s k) (g2 A "uW")) (mscale (c_c k) (g2 A "uB"))))).
(** C["dgamma"], matchers/smeft.py 84 *)
Definition m_dgamma (k : coup) (p : params) (A : arrays) : arr := A2 (mscale (c_v k) (mscale (1 / (sqrt 2)) (madd (mscale (c_s k) (mneg (g2 A "dW"))) (mscale (c_c k) (g2 A "dB"))))).
(** C["uG"], matchers/smeft.py 85 *)
Definition m_uG (k : coup) (p : params) (A : arrays) : arr := A2 (mscale (c_v k) (mscale (1 / (sqrt 2)) (g2 A "uG"))).
(** C["dG"], matchers/smeft.py 86 *)
Definition m_dG (k : coup) (p : params) (A : arrays) : arr := A2 (mscale (c_v k) (mscale (1 / (sqrt 2)) (g2 A "dG"))).
(** C["G"], matchers/smeft.py 89 *)
Definition m_G (k : coup) (p : params) (A : arrays) : arr := A0 (g0 A "G").
(** C["Gtilde"], matchers/smeft.py 90 *)
Definition m_Gtilde (k : coup) (p : params) (A : arrays) : arr := A0 (g0 A "Gtilde").
(** C["VnunuLL"], matchers/smeft.py 93 *)
Definition m_VnunuLL (k : coup) (p : params) (A : arrays) : arr := A4 (tsub (tsub (g4 A "ll") (tscale (((c_gz k) ^ 2) / (4 * ((param p "m_Z") ^ 2))) (e_pr_st (znu k A) (znu k A)))) (tscale (((c_gz k) ^ 2) / (4 * ((param p "m_Z") ^ 2))) (e_pt_sr (znu k A) (znu k A)))).
(** C["VeeLL"], matchers/smeft.py 94 *)
Definition m_VeeLL (k : coup) (p : params) (A : arrays) : arr := A4 (tsub (tsub (g4 A "ll") (tscale (((c_gz k) ^ 2) / (4 * ((param p "m_Z") ^ 2))) (e_pr_st (zel k A) (zel k A)))) (tscale (((c_gz k) ^ 2) / (4 * ((param p "m_Z") ^ 2))) (e_pt_sr (zel k A) (zel k A)))).
(** C["VnueLL"], matchers/smeft.py 95 *)
Definition m_VnueLL (k : coup) (p : params) (A : arrays) : arr := A4 (tsub (tsub (tadd (g4 A "ll") (e_stpr (g4 A "ll"))) (tscale (((c_g2 k) ^ 2) / (2 * ((param p "m_W") ^ 2))) (e_pt_rs (wl k A) (mconj (wl k A))))) (tscale (((c_gz k) ^ 2) / ((param p "m_Z") ^ 2)) (e_pr_st (znu k A) (zel k A)))).
(** C["VnuuLL"], matchers/smeft.py 97 *)
Definition m_VnuuLL (k : coup) (p : params) (A : arrays) : arr := A4 (tsub (tadd (g4 A "lq1") (g4 A "lq3")) (tscale (((c_gz k) ^ 2) / ((param p "m_Z") ^ 2)) (e_pr_st (znu k A) (zul k A)))).
(** C["VnudLL"], matchers/smeft.py 98 *)
Definition m_VnudLL (k : coup) (p : params) (A : arrays) : arr := A4 (tsub (tsub (g4 A "lq1") (g4 A "lq3")) (tscale (((c_gz k) ^ 2) / ((param p "m_Z") ^ 2)) (e_pr_st (znu k A) (zdl k A)))).
(** C["VeuLL"], matchers/smeft.py 99 *)
Definition m_VeuLL (k : coup) (p : params) (A : arrays) : arr := A4 (tsub (tsub (g4 A "lq1") (g4 A "lq3")) (tscale (((c_gz k) ^ 2) / ((param p "m_Z") ^ 2)) (e_pr_st (zel k A) (zul k A)))).
(** C["VedLL"], matchers/smeft.py 100 *)
Definition m_VedLL (k : coup) (p : params) (A : arrays) : arr := A4 (tsub (tadd (g4 A "lq1") (g4 A "lq3")) (tscale (((c_gz k) ^ 2) / ((param p "m_Z") ^ 2)) (e_pr_st (zel k A) (zdl k A)))).
(** C["VnueduLL"], matchers/smeft.py 101 *)
Definition m_VnueduLL (k : coup) (p : params) (A : arrays) : arr := A4 (tsub (tscale 2 (g4 A "lq3")) (tscale (((c_g2 k) ^ 2) / (2 * ((param p "m_W") ^ 2))) (e_pr_ts (wl k A) (mconj (wq k A))))).
(** C["VuuLL"], matchers/smeft.py 104 *)
Definition m_VuuLL (k : coup) (p : params) (A : arrays) : arr := A4 (tsub (tadd (g4 A "qq1") (g4 A "qq3")) (tscale (((c_gz k) ^ 2) / (2 * ((param p "m_Z") ^ 2))) (e_pr_st (zul k A) (zul k A)))).
(** C["VddLL"], matchers/smeft.py 105 *)
Definition m_VddLL (k : coup) (p : params) (A : arrays) : arr := A4 (tsub (tadd (g4 A "qq1") (g4 A "qq3")) (tscale (((c_gz k) ^ 2) / (2 * ((param p "m_Z") ^ 2))) (e_pr_st (zdl k A) (zdl k A)))).
(** C["V1udLL"], matchers/smeft.py 106 *)
Definition m_V1udLL (k : coup) (p : params) (A : arrays) : arr := A4 (tsub (tsub (tadd (tadd (tsub (tsub (tadd (g4 A "qq1") (e_stpr (g4 A "qq1"))) (g4 A "qq3")) (e_stpr (g4 A "qq3"))) (tscale (2 / 3) (e_ptsr (g4 A "qq3")))) (tscale (2 / 3) (e_srpt (g4 A "qq3")))) (tscale (/ 3) (tscale (((c_g2 k) ^ 2) / (2 * ((param p "m_W") ^ 2))) (e_pt_rs (wq k A) (mconj (wq k A)))))) (tscale (((c_gz k) ^ 2) / ((param p "m_Z") ^ 2)) (e_pr_st (zul k A) (zdl k A)))).
(** C["V8udLL"], matchers/smeft.py 107 *)
Definition m_V8udLL (k : coup) (p : params) (A : arrays) : arr := A4 (tsub (tadd (tscale 4 (e_ptsr (g4 A "qq3"))) (tscale 4 (e_srpt (g4 A "qq3")))) (tscale (((c_g2 k) ^ 2) / ((param p "m_W") ^ 2)) (e_pt_rs (wq k A) (mconj (wq k A))))).
(** C["VeeRR"], matchers/smeft.py 111 *)
Definition m_VeeRR (k : coup) (p : params) (A : arrays) : arr := A4 (tsub (tsub (g4 A "ee") (tscale (((c_gz k) ^ 2) / (4 * ((param p "m_Z") ^ 2))) (e_pr_st (zer k A) (zer k A)))) (tscale (((c_gz k) ^ 2) / (4 * ((param p "m_Z") ^ 2))) (e_pt_sr (zer k A) (zer k A)))).
(** C["VeuRR"], matchers/smeft.py 113 *)
Definition m_VeuRR (k : coup) (p : params) (A : arrays) : arr := A4 (tsub (g4 A "eu") (tscale (((c_gz k) ^ 2) / ((param p "m_Z") ^ 2)) (e_pr_st (zer k A) (zur k A)))).
(** C["VedRR"], matchers/smeft.py 114 *)
Definition m_VedRR (k : coup) (p : params) (A : arrays) : arr := A4 (tsub (g4 A "ed") (tscale (((c_gz k) ^ 2) / ((param p "m_Z") ^ 2)) (e_pr_st (zer k A) (zdr k A)))).
(** C["VuuRR"], matchers/smeft.py 116 *)
Definition m_VuuRR (k : coup) (p : params) (A : arrays) : arr := A4 (tsub (g4 A "uu") (tscale (((c_gz k) ^ 2) / (2 * ((param p "m_Z") ^ 2))) (e_pr_st (zur k A) (zur k A)))).
(** C["VddRR"], matchers/smeft.py 117 *)
Definition m_VddRR (k : coup) (p : params) (A : arrays) : arr := A4 (tsub (g4 A "dd") (tscale (((c_gz k) ^ 2) / (2 * ((param p "m_Z") ^ 2))) (e_pr_st (zdr k A) (zdr k A)))).
(** C["V1udRR"], matchers/smeft.py 118 *)
Definition m_V1udRR (k : coup) (p : params) (A : arrays) : arr := A4 (tsub (tsub (g4 A "ud1") (tscale (/ 3) (tscale (((c_g2 k) ^ 2) / (2 * ((param p "m_W") ^ 2))) (e_pt_rs (wr k A) (mconj (wr k A)))))) (tscale (((c_gz k) ^ 2) / ((param p "m_Z") ^ 2)) (e_pr_st (zur k A) (zdr k A)))).
(** C["V8udRR"], matchers/smeft.py 119 *)
Definition m_V8udRR (k : coup) (p : params) (A : arrays) : arr := A4 (tsub (g4 A "ud8") (tscale (((c_g2 k) ^ 2) / ((param p "m_W") ^ 2)) (e_pt_rs (wr k A) (mconj (wr k A))))).
(** C["VnueLR"], matchers/smeft.py 123 *)
Definition m_VnueLR (k : coup) (p : params) (A : arrays) : arr := A4 (tsub (g4 A "le") (tscale (((c_gz k) ^ 2) / ((param p "m_Z") ^ 2)) (e_pr_st (znu k A) (zer k A)))).
(** C["VeeLR"], matchers/smeft.py 124 *)
Definition m_VeeLR (k : coup) (p : params) (A : arrays) : arr := A4 (tsub (g4 A "le") (tscale (((c_gz k) ^ 2) / ((param p "m_Z") ^ 2)) (e_pr_st (zel k A) (zer k A)))).
(** C["VnuuLR"], matchers/smeft.py 126 *)
Definition m_VnuuLR (k : coup) (p : params) (A : arrays) : arr := A4 (tsub (g4 A "lu") (tscale (((c_gz k) ^ 2) / ((param p "m_Z") ^ 2)) (e_pr_st (znu k A) (zur k A)))).
(** C["VnudLR"], matchers/smeft.py 127 *)
Definition m_VnudLR (k : coup) (p : params) (A : arrays) : arr := A4 (tsub (g4 A "ld") (tscale (((c_gz k) ^ 2) / ((param p "m_Z") ^ 2)) (e_pr_st (znu k A) (zdr k A)))).
(** C["VeuLR"], matchers/smeft.py 128 *)
Definition m_VeuLR (k : coup) (p : params) (A : arrays) : arr := A4 (tsub (g4 A "lu") (tscale (((c_gz k) ^ 2) / ((param p "m_Z") ^ 2)) (e_pr_st (zel k A) (zur k A)))).
(** C["VedLR"], matchers/smeft.py 129 *)
Definition m_VedLR (k : coup) (p : params) (A : arrays) : arr := A4 (tsub (g4 A "ld") (tscale (((c_gz k) ^ 2) / ((param p "m_Z") ^ 2)) (e_pr_st (zel k A) (zdr k A)))).
(** C["VueLR"], matchers/smeft.py 130 *)
Definition m_VueLR (k : coup) (p : params) (A : arrays) : arr := A4 (tsub (g4 A "qe") (tscale (((c_gz k) ^ 2) / ((param p "m_Z") ^ 2)) (e_pr_st (zul k A) (zer k A)))).
(** C["VdeLR"], matchers/smeft.py 131 *)
Definition m_VdeLR (k : coup) (p : params) (A : arrays) : arr := A4 (tsub (g4 A "qe") (tscale (((c_gz k) ^ 2) / ((param p "m_Z") ^ 2)) (e_pr_st (zdl k A) (zer k A)))).
(** C["VnueduLR"], matchers/smeft.py 132 *)
Definition m_VnueduLR (k : coup) (p : params) (A : arrays) : arr := A4 (tscale ((- ((c_g2 k) ^ 2)) / (2 * ((param p "m_W") ^ 2))) (e_pr_ts (wl k A) (mconj (wr k A)))).
(** C["V1uuLR"], matchers/smeft.py 135 *)
Definition m_V1uuLR (k : coup) (p : params) (A : arrays) : arr := A4 (tsub (g4 A "qu1") (tscale (((c_gz k) ^ 2) / ((param p "m_Z") ^ 2)) (e_pr_st (zul k A) (zur k A)))).
(** C["V8uuLR"], matchers/smeft.py 136 *)
Definition m_V8uuLR (k : coup) (p : params) (A : arrays) : arr := A4 (g4 A "qu8").
(** C["V1udLR"], matchers/smeft.py 137 *)
Definition m_V1udLR (k : coup) (p : params) (A : arrays) : arr := A4 (tsub (g4 A "qd1") (tscale (((c_gz k) ^ 2) / ((param p "m_Z") ^ 2)) (e_pr_st (zul k A) (zdr k A)))).
(** C["V8udLR"], matchers/smeft.py 138 *)
Definition m_V8udLR (k : coup) (p : params) (A : arrays) : arr := A4 (g4 A "qd8").
(** C["V1duLR"], matchers/smeft.py 139 *)
Definition m_V1duLR (k : coup) (p : params) (A : arrays) : arr := A4 (tsub (g4 A "qu1") (tscale (((c_gz k) ^ 2) / ((param p "m_Z") ^ 2)) (e_pr_st (zdl k A) (zur k A)))).
(** C["V8duLR"], matchers/smeft.py 140 *)
Definition m_V8duLR (k : coup) (p : params) (A : arrays) : arr := A4 (g4 A "qu8").
(** C["V1ddLR"], matchers/smeft.py 141 *)
Definition m_V1ddLR (k : coup) (p : params) (A : arrays) : arr := A4 (tsub (g4 A "qd1") (tscale (((c_gz k) ^ 2) / ((param p "m_Z") ^ 2)) (e_pr_st (zdl k A) (zdr k A)))).
(** C["V8ddLR"], matchers/smeft.py 142 *)
Definition m_V8ddLR (k : coup) (p : params) (A : arrays) : arr := A4 (g4 A "qd8").
(** C["V1udduLR"], matchers/smeft.py 143 *)
Definition m_V1udduLR (k : coup) (p : params) (A : arrays) : arr := A4 (tscale ((- ((c_g2 k) ^ 2)) / (2 * ((param p "m_W") ^ 2))) (e_pr_ts (wq k A) (mconj (wr k A)))).
(** C["V8udduLR"], matchers/smeft.py 144 *)
Definition m_V8udduLR (k : coup) (p : params) (A : arrays) : arr := A4 tzero.
(** C["SeuRL"], matchers/smeft.py 148 *)
Definition m_SeuRL (k : coup) (p : params) (A : arrays) : arr := A4 tzero.
(** C["SedRL"], matchers/smeft.py 149 *)
Definition m_SedRL (k : coup) (p : params) (A : arrays) : arr := A4 (g4 A "ledq").
(** C["SnueduRL"], matchers/smeft.py 150 *)
Definition m_SnueduRL (k : coup) (p : params) (A : arrays) : arr := A4 (g4 A "ledq").
(** C["SeeRR"], matchers/smeft.py 154 *)
Definition m_SeeRR (k : coup) (p : params) (A : arrays) : arr := A4 tzero.
(** C["SeuRR"], matchers/smeft.py 156 *)
Definition m_SeuRR (k : coup) (p : params) (A : arrays) : arr := A4 (tneg (g4 A "lequ1")).
(** C["TeuRR"], matchers/smeft.py 157 *)
Definition m_TeuRR (k : coup) (p : params) (A : arrays) : arr := A4 (tneg (g4 A "lequ3")).
(** C["SedRR"], matchers/smeft.py 158 *)
Definition m_SedRR (k : coup) (p : params) (A : arrays) : arr := A4 tzero.
(** C["TedRR"], matchers/smeft.py 159 *)
Definition m_TedRR (k : coup) (p : params) (A : arrays) : arr := A4 tzero.
(** C["SnueduRR"], matchers/smeft.py 160 *)
Definition m_SnueduRR (k : coup) (p : params) (A : arrays) : arr := A4 (g4 A "lequ1").
(** C["TnueduRR"], matchers/smeft.py 161 *)
Definition m_TnueduRR (k : coup) (p : params) (A : arrays) : arr := A4 (g4 A "lequ3").
(** C["S1uuRR"], matchers/smeft.py 163 *)
Definition m_S1uuRR (k : coup) (p : params) (A : arrays) : arr := A4 tzero.
(** C["S8uuRR"], matchers/smeft.py 164 *)
Definition m_S8uuRR (k : coup) (p : params) (A : arrays) : arr := A4 tzero.
(** C["S1udRR"], matchers/smeft.py 165 *)
Definition m_S1udRR (k : coup) (p : params) (A : arrays) : arr := A4 (g4 A "quqd1").
(** C["S8udRR"], matchers/smeft.py 166 *)
Definition m_S8udRR (k : coup) (p : params) (A : arrays) : arr := A4 (g4 A "quqd8").
(** C["S1ddRR"], matchers/smeft.py 167 *)
Definition m_S1ddRR (k : coup) (p : params) (A : arrays) : arr := A4 tzero.
(** C["S8ddRR"], matchers/smeft.py 168 *)
Definition m_S8ddRR (k : coup) (p : params) (A : arrays) : arr := A4 tzero.
(** C["S1udduRR"], matchers/smeft.py 169 *)
Definition m_S1udduRR (k : coup) (p : params) (A : arrays) : arr := A4 (tneg (e_stpr (g4 A "quqd1"))).
(** C["S8udduRR"], matchers/smeft.py 170 *)
Definition m_S8udduRR (k : coup) (p : params) (A : arrays) : arr := A4 (tneg (e_stpr (g4 A "quqd8"))).
(** C["SnunuLL"], matchers/smeft.py 173 *)
Definition m_SnunuLL (k : coup) (p : params) (A : arrays) : arr := A4 tzero.
(** C["SnueLL"], matchers/smeft.py 176 *)
Definition m_SnueLL (k : coup) (p : params) (A : arrays) : arr := A4 tzero.
(** C["TnueLL"], matchers/smeft.py 177 *)
Definition m_TnueLL (k : coup) (p : params) (A : arrays) : arr := A4 tzero.
(** C["SnueLR"], matchers/smeft.py 178 *)
Definition m_SnueLR (k : coup) (p : params) (A : arrays) : arr := A4 tzero.
(** C["SnuuLL"], matchers/smeft.py 180 *)
Definition m_SnuuLL (k : coup) (p : params) (A : arrays) : arr := A4 tzero.
(** C["TnuuLL"], matchers/smeft.py 181 *)
Definition m_TnuuLL (k : coup) (p : params) (A : arrays) : arr := A4 tzero.
(** C["SnuuLR"], matchers/smeft.py 182 *)
Definition m_SnuuLR (k : coup) (p : params) (A : arrays) : arr := A4 tzero.
(** C["SnudLL"], matchers/smeft.py 183 *)
Definition m_SnudLL (k : coup) (p : params) (A : arrays) : arr := A4 tzero.
(** C["TnudLL"], matchers/smeft.py 184 *)
Definition m_TnudLL (k : coup) (p : params) (A : arrays) : arr := A4 tzero.
(** C["SnudLR"], matchers/smeft.py 185 *)
Definition m_SnudLR (k : coup) (p : params) (A : arrays) : arr := A4 tzero.
(** C["SnueduLL"], matchers/smeft.py 186 *)
Definition m_SnueduLL (k : coup) (p : params) (A : arrays) : arr := A4 tzero.
(** C["TnueduLL"], matchers/smeft.py 187 *)
Definition m_TnueduLL (k : coup) (p : params) (A : arrays) : arr := A4 tzero.
(** C["SnueduLR"], matchers/smeft.py 188 *)
Definition m_SnueduLR (k : coup) (p : params) (A : arrays) : arr := A4 tzero.
(** C["VnueduRL"], matchers/smeft.py 189 *)
Definition m_VnueduRL (k : coup) (p : params) (A : arrays) : arr := A4 tzero.
(** C["VnueduRR"], matchers/smeft.py 190 *)
Definition m_VnueduRR (k : coup) (p : params) (A : arrays) : arr := A4 tzero.
(** C["SuddLL"], matchers/smeft.py 193 *)
Definition m_SuddLL (k : coup) (p : params) (A : arrays) : arr := A4 (tsub (tneg (g4 A "qqql")) (e_rpst (g4 A "qqql"))).
(** C["SduuLL"], matchers/smeft.py 194 *)
Definition m_SduuLL (k : coup) (p : params) (A : arrays) : arr := A4 (tsub (tneg (g4 A "qqql")) (e_rpst (g4 A "qqql"))).
(** C["SuudLR"], matchers/smeft.py 195 *)
Definition m_SuudLR (k : coup) (p : params) (A : arrays) : arr := A4 tzero.
(** C["SduuLR"], matchers/smeft.py 196 *)
Definition m_SduuLR (k : coup) (p : params) (A : arrays) : arr := A4 (tsub (tneg (g4 A "qque")) (e_rpst (g4 A "qque"))).
(** C["SuudRL"], matchers/smeft.py 197 *)
Definition m_SuudRL (k : coup) (p : params) (A : arrays) : arr := A4 tzero.
(** C["SduuRL"], matchers/smeft.py 198 *)
Definition m_SduuRL (k : coup) (p : params) (A : arrays) : arr := A4 (g4 A "duql").
(** C["SdudRL"], matchers/smeft.py 199 *)
Definition m_SdudRL (k : coup) (p : params) (A : arrays) : arr := A4 (tneg (g4 A "duql")).
(** C["SdduRL"], matchers/smeft.py 200 *)
Definition m_SdduRL (k : coup) (p : params) (A : arrays) : arr := A4 tzero.
(** C["SduuRR"], matchers/smeft.py 201 *)
Definition m_SduuRR (k : coup) (p : params) (A : arrays) : arr := A4 (g4 A "duue").
(** C["SdddLL"], matchers/smeft.py 204 *)
Definition m_SdddLL (k : coup) (p : params) (A : arrays) : arr := A4 tzero.
(** C["SuddLR"], matchers/smeft.py 205 *)
Definition m_SuddLR (k : coup) (p : params) (A : arrays) : arr := A4 tzero.
(** C["SdduLR"], matchers/smeft.py 206 *)
Definition m_SdduLR (k : coup) (p : params) (A : arrays) : arr := A4 tzero.
(** C["SdddLR"], matchers/smeft.py 207 *)
Definition m_SdddLR (k : coup) (p : params) (A : arrays) : arr := A4 tzero.
(** C["SdddRL"], matchers/smeft.py 208 *)
Definition m_SdddRL (k : coup) (p : params) (A : arrays) : arr := A4 tzero.
(** C["SuddRR"], matchers/smeft.py 209 *)
Definition m_SuddRR (k : coup) (p : params) (A : arrays) : arr := A4 tzero.
(** C["SdddRR"], matchers/smeft.py 210 *)
Definition m_SdddRR (k : coup) (p : params) (A : arrays) : arr := A4 tzero.

(** The dictionary C, in order of insertion. *)
Definition match_tab : list (string * (coup -> params -> arrays -> arr)) :=
  [("nu", m_nu);
   ("nugamma", m_nugamma);
   ("egamma", m_egamma);
   ("ugamma", m_ugamma);
   ("dgamma", m_dgamma);
   ("uG", m_uG);
   ("dG", m_dG);
   ("G", m_G);
   ("Gtilde", m_Gtilde);
   ("VnunuLL", m_VnunuLL);
   ("VeeLL", m_VeeLL);
   ("VnueLL", m_VnueLL);
   ("VnuuLL", m_VnuuLL);
   ("VnudLL", m_VnudLL);
   ("VeuLL", m_VeuLL);
   ("VedLL", m_VedLL);
   ("VnueduLL", m_VnueduLL);
   ("VuuLL", m_VuuLL);
   ("VddLL", m_VddLL);
   ("V1udLL", m_V1udLL);
   ("V8udLL", m_V8udLL);
   ("VeeRR", m_VeeRR);
   ("VeuRR", m_VeuRR);
   ("VedRR", m_VedRR);
   ("VuuRR", m_VuuRR);
   ("VddRR", m_VddRR);
   ("V1udRR", m_V1udRR);
   ("V8udRR", m_V8udRR);
   ("VnueLR", m_VnueLR);
   ("VeeLR", m_VeeLR);
   ("VnuuLR", m_VnuuLR);
   ("VnudLR", m_VnudLR);
   ("VeuLR", m_VeuLR);
   ("VedLR", m_VedLR);
   ("VueLR", m_VueLR);
   ("VdeLR", m_VdeLR);
   ("VnueduLR", m_VnueduLR);
   ("V1uuLR", m_V1uuLR);
   ("V8uuLR", m_V8uuLR);
   ("V1udLR", m_V1udLR);
   ("V8udLR", m_V8udLR);
   ("V1duLR", m_V1duLR);
   ("V8duLR", m_V8duLR);
   ("V1ddLR", m_V1ddLR);
   ("V8ddLR", m_V8ddLR);
   ("V1udduLR", m_V1udduLR);
   ("V8udduLR", m_V8udduLR);
   ("SeuRL", m_SeuRL);
   ("SedRL", m_SedRL);
   ("SnueduRL", m_SnueduRL);
   ("SeeRR", m_SeeRR);
   ("SeuRR", m_SeuRR);
   ("TeuRR", m_TeuRR);
   ("SedRR", m_SedRR);
   ("TedRR", m_TedRR);
   ("SnueduRR", m_SnueduRR);
   ("TnueduRR", m_TnueduRR);
   ("S1uuRR", m_S1uuRR);
   ("S8uuRR", m_S8uuRR);
   ("S1udRR", m_S1udRR);
   ("S8udRR", m_S8udRR);
   ("S1ddRR", m_S1ddRR);
   ("S8ddRR", m_S8ddRR);
   ("S1udduRR", m_S1udduRR);
   ("S8udduRR", m_S8udduRR);
   ("SnunuLL", m_SnunuLL);
   ("SnueLL", m_SnueLL);
   ("TnueLL", m_TnueLL);
   ("SnueLR", m_SnueLR);
   ("SnuuLL", m_SnuuLL);
   ("TnuuLL", m_TnuuLL);
   ("SnuuLR", m_SnuuLR);
   ("SnudLL", m_SnudLL);
   ("TnudLL", m_TnudLL);
   ("SnudLR", m_SnudLR);
   ("SnueduLL", m_SnueduLL);
   ("TnueduLL", m_TnueduLL);
   ("SnueduLR", m_SnueduLR);
   ("VnueduRL", m_VnueduRL);
   ("VnueduRR", m_VnueduRR);
   ("SuddLL", m_SuddLL);
   ("SduuLL", m_SduuLL);
   ("SuudLR", m_SuudLR);
   ("SduuLR", m_SduuLR);
   ("SuudRL", m_SuudRL);
   ("SduuRL", m_SduuRL);
   ("SdudRL", m_SdudRL);
   ("SdduRL", m_SdduRL);
   ("SduuRR", m_SduuRR);
   ("SdddLL", m_SdddLL);
   ("SuddLR", m_SuddLR);
   ("SdduLR", m_SdduLR);
   ("SdddLR", m_SdddLR);
   ("SdddRL", m_SdddRL);
   ("SuddRR", m_SuddRR);
   ("SdddRR", m_SdddRR)].
