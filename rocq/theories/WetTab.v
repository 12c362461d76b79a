(** GENERATED by tools/gen_wet.py from wcxf/translators/wet.py: the formula functions.
    A function becomes a function of its flavour string alone; the coefficient dictionary or
    array dictionary it is given is what [XGet] and [XArr] read, its parameters are [XPar], and
    [V = ckm_tree(...)] is [XV].  Returning a string or None, which makes the caller fail, is an
    error here. *)
From Coq Require Import String Ascii List Bool Arith ZArith.
From Verif Require Import PyBase PyDict Tensor Smeft Eos WetExpr WetStr.
Import ListNotations.
Open Scope string_scope.
Open Scope list_scope.
Open Scope nat_scope.

(** _JMS_to_Bern_I, wet.py 28-63 *)
Definition JMS_to_Bern_I (qq : string) : res tmpl :=
  if mem qq ["sb"; "db"; "ds"] then
    let! ij := mapM (fun q => flav dflav (String q "")) (chars qq) in
    let ji := rev ij in
    Ok [(("1" ++ (qq ++ qq)%string)%string,
         (XArr "VddLL" (ij ++ ij)));
       (("2" ++ (qq ++ qq)%string)%string,
         (XSub (XConj (XArr "S1ddRR" (ji ++ ji))) (XDiv (XConj (XArr "S8ddRR" (ji ++ ji))) (XMul (XQ 2 1) (XQ 3 1)))));
       (("3" ++ (qq ++ qq)%string)%string,
         (XDiv (XConj (XArr "S8ddRR" (ji ++ ji))) (XQ 2 1)));
       (("4" ++ (qq ++ qq)%string)%string,
         (XNeg (XArr "V8ddLR" (ij ++ ij))));
       (("5" ++ (qq ++ qq)%string)%string,
         (XAdd (XMul (XQ (-2) 1) (XArr "V1ddLR" (ij ++ ij))) (XDiv (XArr "V8ddLR" (ij ++ ij)) (XQ 3 1))));
       (("1p" ++ (qq ++ qq)%string)%string,
         (XArr "VddRR" (ij ++ ij)));
       (("2p" ++ (qq ++ qq)%string)%string,
         (XSub (XArr "S1ddRR" (ij ++ ij)) (XDiv (XArr "S8ddRR" (ij ++ ij)) (XMul (XQ 2 1) (XQ 3 1)))));
       (("3p" ++ (qq ++ qq)%string)%string,
         (XDiv (XArr "S8ddRR" (ij ++ ij)) (XQ 2 1)))]
  else
  if String.eqb qq "uc" then
    Ok [(("1" ++ (qq ++ qq)%string)%string,
         (XArr "VuuLL" [F1; F2; F1; F2]));
       (("2" ++ (qq ++ qq)%string)%string,
         (XSub (XConj (XArr "S1uuRR" [F2; F1; F2; F1])) (XDiv (XConj (XArr "S8uuRR" [F2; F1; F2; F1])) (XMul (XQ 2 1) (XQ 3 1)))));
       (("3" ++ (qq ++ qq)%string)%string,
         (XDiv (XConj (XArr "S8uuRR" [F2; F1; F2; F1])) (XQ 2 1)));
       (("4" ++ (qq ++ qq)%string)%string,
         (XNeg (XArr "V8uuLR" [F1; F2; F1; F2])));
       (("5" ++ (qq ++ qq)%string)%string,
         (XAdd (XMul (XQ (-2) 1) (XArr "V1uuLR" [F1; F2; F1; F2])) (XDiv (XArr "V8uuLR" [F1; F2; F1; F2]) (XQ 3 1))));
       (("1p" ++ (qq ++ qq)%string)%string,
         (XArr "VuuRR" [F1; F2; F1; F2]));
       (("2p" ++ (qq ++ qq)%string)%string,
         (XSub (XArr "S1uuRR" [F1; F2; F1; F2]) (XDiv (XArr "S8uuRR" [F1; F2; F1; F2]) (XMul (XQ 2 1) (XQ 3 1)))));
       (("3p" ++ (qq ++ qq)%string)%string,
         (XDiv (XArr "S8uuRR" [F1; F2; F1; F2]) (XQ 2 1)))]
  else
  Err ValueError (* returns a string, which dict.update rejects *).

(** _BernI_to_Flavio_I, wet.py 66-82 *)
Definition BernI_to_Flavio_I (qq : string) : res tmpl :=
  let qqf := (rev_str qq) in
  if mem qq ["sb"; "db"; "ds"; "uc"] then
    Ok [(("CVLL_" ++ (qqf ++ qqf)%string)%string,
         (XGet ("1" ++ (qq ++ qq)%string)%string));
       (("CSLL_" ++ (qqf ++ qqf)%string)%string,
         (XSub (XGet ("2" ++ (qq ++ qq)%string)%string) (XMul (XQ (1) 2) (XGet ("3" ++ (qq ++ qq)%string)%string))));
       (("CTLL_" ++ (qqf ++ qqf)%string)%string,
         (XMul (XQ (-1) 8) (XGet ("3" ++ (qq ++ qq)%string)%string)));
       (("CVLR_" ++ (qqf ++ qqf)%string)%string,
         (XMul (XQ (-1) 2) (XGet ("5" ++ (qq ++ qq)%string)%string)));
       (("CVRR_" ++ (qqf ++ qqf)%string)%string,
         (XGet ("1p" ++ (qq ++ qq)%string)%string));
       (("CSRR_" ++ (qqf ++ qqf)%string)%string,
         (XSub (XGet ("2p" ++ (qq ++ qq)%string)%string) (XMul (XQ (1) 2) (XGet ("3p" ++ (qq ++ qq)%string)%string))));
       (("CTRR_" ++ (qqf ++ qqf)%string)%string,
         (XMul (XQ (-1) 8) (XGet ("3p" ++ (qq ++ qq)%string)%string)));
       (("CSLR_" ++ (qqf ++ qqf)%string)%string,
         (XGet ("4" ++ (qq ++ qq)%string)%string))]
  else
  Err ValueError (* returns a string, which dict.update rejects *).

(** _FlavioI_to_Bern_I, wet.py 85-101 *)
Definition FlavioI_to_Bern_I (qq : string) : res tmpl :=
  let qqb := (rev_str qq) in
  if mem qq ["bs"; "bd"; "sd"; "cu"] then
    Ok [(("1" ++ (qqb ++ qqb)%string)%string,
         (XGet ("CVLL_" ++ (qq ++ qq)%string)%string));
       (("2" ++ (qqb ++ qqb)%string)%string,
         (XSub (XGet ("CSLL_" ++ (qq ++ qq)%string)%string) (XMul (XQ 4 1) (XGet ("CTLL_" ++ (qq ++ qq)%string)%string))));
       (("3" ++ (qqb ++ qqb)%string)%string,
         (XMul (XQ (-8) 1) (XGet ("CTLL_" ++ (qq ++ qq)%string)%string)));
       (("4" ++ (qqb ++ qqb)%string)%string,
         (XGet ("CSLR_" ++ (qq ++ qq)%string)%string));
       (("5" ++ (qqb ++ qqb)%string)%string,
         (XMul (XQ (-2) 1) (XGet ("CVLR_" ++ (qq ++ qq)%string)%string)));
       (("1p" ++ (qqb ++ qqb)%string)%string,
         (XGet ("CVRR_" ++ (qq ++ qq)%string)%string));
       (("2p" ++ (qqb ++ qqb)%string)%string,
         (XSub (XGet ("CSRR_" ++ (qq ++ qq)%string)%string) (XMul (XQ 4 1) (XGet ("CTRR_" ++ (qq ++ qq)%string)%string))));
       (("3p" ++ (qqb ++ qqb)%string)%string,
         (XMul (XQ (-8) 1) (XGet ("CTRR_" ++ (qq ++ qq)%string)%string)))]
  else
  Err ValueError (* returns a string, which dict.update rejects *).

(** _BernI_to_FormFlavor_I, wet.py 104-120 *)
Definition BernI_to_FormFlavor_I (qq : string) : res tmpl :=
  let qqf := (rev_str qq) in
  if mem qq ["sb"; "db"; "ds"; "uc"] then
    Ok [(("CVLL_" ++ (qqf ++ qqf)%string)%string,
         (XGet ("1" ++ (qq ++ qq)%string)%string));
       (("CSLL_" ++ (qqf ++ qqf)%string)%string,
         (XAdd (XGet ("2" ++ (qq ++ qq)%string)%string) (XMul (XQ (1) 2) (XGet ("3" ++ (qq ++ qq)%string)%string))));
       (("CTLL_" ++ (qqf ++ qqf)%string)%string,
         (XMul (XQ (-1) 8) (XGet ("3" ++ (qq ++ qq)%string)%string)));
       (("CVLR_" ++ (qqf ++ qqf)%string)%string,
         (XMul (XQ (-1) 2) (XGet ("5" ++ (qq ++ qq)%string)%string)));
       (("CVRR_" ++ (qqf ++ qqf)%string)%string,
         (XGet ("1p" ++ (qq ++ qq)%string)%string));
       (("CSRR_" ++ (qqf ++ qqf)%string)%string,
         (XAdd (XGet ("2p" ++ (qq ++ qq)%string)%string) (XMul (XQ (1) 2) (XGet ("3p" ++ (qq ++ qq)%string)%string))));
       (("CTRR_" ++ (qqf ++ qqf)%string)%string,
         (XMul (XQ (-1) 8) (XGet ("3p" ++ (qq ++ qq)%string)%string)));
       (("CSLR_" ++ (qqf ++ qqf)%string)%string,
         (XGet ("4" ++ (qq ++ qq)%string)%string))]
  else
  Err ValueError (* returns a string, which dict.update rejects *).

(** _JMS_to_Bern_II, wet.py 125-140 *)
Definition JMS_to_Bern_II (udlnu : string) : res tmpl :=
  let! u_ := flav uflav (ch 0 udlnu) in
  let! d_ := flav dflav (ch 1 udlnu) in
  let! l_ := flav lflav (slice (Some (4)%Z) (Some (find "n" udlnu 0)) udlnu) in
  let! lp_ := flav lflav (slice (Some ((find "_" udlnu 5) + (1)%Z)%Z) (Some (Z.of_nat (String.length udlnu))) udlnu) in
  let ind := ((((ch 0 udlnu) ++ (ch 1 udlnu))%string ++ (slice (Some (4)%Z) (Some (find "n" udlnu 0)) udlnu))%string ++ (slice (Some ((find "_" udlnu 5) + (1)%Z)%Z) (Some (Z.of_nat (String.length udlnu))) udlnu))%string in
  Ok [(("1" ++ ind)%string,
       (XConj (XArr "VnueduLL" [lp_; l_; d_; u_])));
     (("5" ++ ind)%string,
       (XConj (XArr "SnueduRL" [lp_; l_; d_; u_])));
     (("1p" ++ ind)%string,
       (XConj (XArr "VnueduLR" [lp_; l_; d_; u_])));
     (("5p" ++ ind)%string,
       (XConj (XArr "SnueduRR" [lp_; l_; d_; u_])));
     (("7p" ++ ind)%string,
       (XConj (XArr "TnueduRR" [lp_; l_; d_; u_])))].

(** _BernII_to_Flavio_II, wet.py 143-165 *)
Definition BernII_to_Flavio_II (udlnu : string) : res tmpl :=
  let! u_ := flav uflav (ch 0 udlnu) in
  let! d_ := flav dflav (ch 1 udlnu) in
  let! l_ := flav lflav (slice (Some (4)%Z) (Some (find "n" udlnu 0)) udlnu) in
  let! lp_ := flav lflav (slice (Some ((find "_" udlnu 5) + (1)%Z)%Z) (Some (Z.of_nat (String.length udlnu))) udlnu) in
  let ind := ((((ch 0 udlnu) ++ (ch 1 udlnu))%string ++ (slice (Some (4)%Z) (Some (find "n" udlnu 0)) udlnu))%string ++ (slice (Some ((find "_" udlnu 5) + (1)%Z)%Z) (Some (Z.of_nat (String.length udlnu))) udlnu))%string in
  let ind2 := (((((ch 1 udlnu) ++ (ch 0 udlnu))%string ++ (slice (Some (4)%Z) (Some (find "n" udlnu 0)) udlnu))%string ++ "nu")%string ++ (slice (Some ((find "_" udlnu 5) + (1)%Z)%Z) (Some (Z.of_nat (String.length udlnu))) udlnu))%string in
  let dic :=
    [(("CVL_" ++ ind2)%string,
       (XGet ("1" ++ ind)%string));
     (("CVR_" ++ ind2)%string,
       (XGet ("1p" ++ ind)%string));
     (("CSR_" ++ ind2)%string,
       (XGet ("5" ++ ind)%string));
     (("CSL_" ++ ind2)%string,
       (XGet ("5p" ++ ind)%string));
     (("CT_" ++ ind2)%string,
       (XGet ("7p" ++ ind)%string))] in
  let prefactor := (XDiv (XDiv (XDiv (XNeg (XRt (XQ 2 1))) (XPar "GF")) (XV u_ d_)) (XQ 4 1)) in
  Ok (mul_all prefactor dic).

(** _FlavioII_to_BernII, wet.py 168-190 *)
Definition FlavioII_to_BernII (udlnu : string) : res tmpl :=
  let! u_ := flav uflav (ch 0 udlnu) in
  let! d_ := flav dflav (ch 1 udlnu) in
  let! l_ := flav lflav (slice (Some (4)%Z) (Some (find "n" udlnu 0)) udlnu) in
  let! lp_ := flav lflav (slice (Some ((find "_" udlnu 5) + (1)%Z)%Z) (Some (Z.of_nat (String.length udlnu))) udlnu) in
  let ind := ((((ch 0 udlnu) ++ (ch 1 udlnu))%string ++ (slice (Some (4)%Z) (Some (find "n" udlnu 0)) udlnu))%string ++ (slice (Some ((find "_" udlnu 5) + (1)%Z)%Z) (Some (Z.of_nat (String.length udlnu))) udlnu))%string in
  let ind2 := (((((ch 1 udlnu) ++ (ch 0 udlnu))%string ++ (slice (Some (4)%Z) (Some (find "n" udlnu 0)) udlnu))%string ++ "nu")%string ++ (slice (Some ((find "_" udlnu 5) + (1)%Z)%Z) (Some (Z.of_nat (String.length udlnu))) udlnu))%string in
  let dic :=
    [(("1" ++ ind)%string,
       (XGet ("CVL_" ++ ind2)%string));
     (("1p" ++ ind)%string,
       (XGet ("CVR_" ++ ind2)%string));
     (("5" ++ ind)%string,
       (XGet ("CSR_" ++ ind2)%string));
     (("5p" ++ ind)%string,
       (XGet ("CSL_" ++ ind2)%string));
     (("7p" ++ ind)%string,
       (XGet ("CT_" ++ ind2)%string))] in
  let prefactor := (XDiv (XDiv (XDiv (XNeg (XRt (XQ 2 1))) (XPar "GF")) (XV u_ d_)) (XQ 4 1)) in
  Ok (div_all dic prefactor).

(** _BernII_to_EOS_II, wet.py 193-215 *)
Definition BernII_to_EOS_II (udlnu : string) : res tmpl :=
  let! u_ := flav uflav (ch 0 udlnu) in
  let! d_ := flav dflav (ch 1 udlnu) in
  let! l_ := flav lflav (slice (Some (4)%Z) (Some (find "n" udlnu 0)) udlnu) in
  let! lp_ := flav lflav (slice (Some ((find "_" udlnu 5) + (1)%Z)%Z) (Some (Z.of_nat (String.length udlnu))) udlnu) in
  let ind := ((((ch 0 udlnu) ++ (ch 1 udlnu))%string ++ (slice (Some (4)%Z) (Some (find "n" udlnu 0)) udlnu))%string ++ (slice (Some ((find "_" udlnu 5) + (1)%Z)%Z) (Some (Z.of_nat (String.length udlnu))) udlnu))%string in
  let ind2 := ((((ch 0 udlnu) ++ (slice (Some (4)%Z) (Some (find "n" udlnu 0)) udlnu))%string ++ "nu")%string ++ (slice (Some ((find "_" udlnu 5) + (1)%Z)%Z) (Some (Z.of_nat (String.length udlnu))) udlnu))%string in
  let dic :=
    [((("b->" ++ ind2)%string ++ "::cVL")%string,
       (XGet ("1" ++ ind)%string));
     ((("b->" ++ ind2)%string ++ "::cVR")%string,
       (XGet ("1p" ++ ind)%string));
     ((("b->" ++ ind2)%string ++ "::cSR")%string,
       (XGet ("5" ++ ind)%string));
     ((("b->" ++ ind2)%string ++ "::cSL")%string,
       (XGet ("5p" ++ ind)%string));
     ((("b->" ++ ind2)%string ++ "::cT")%string,
       (XGet ("7p" ++ ind)%string))] in
  let prefactor := (XDiv (XDiv (XDiv (XNeg (XRt (XQ 2 1))) (XPar "GF")) (XV u_ d_)) (XQ 4 1)) in
  Ok (mul_all prefactor dic).

(** _JMS_to_Fierz_III_IV_V, wet.py 220-358 *)
Definition JMS_to_Fierz_III_IV_V (qqqq : string) : res tmpl :=
  let classIII := ["sbuc"; "sbcu"; "dbuc"; "dbcu"; "dsuc"; "dscu"] in
  let classVdduu := ["sbuu"; "dbuu"; "dsuu"; "sbcc"; "dbcc"; "dscc"] in
  if mem qqqq (classIII ++ classVdduu) then
    let! f1_ := flav dflav (ch 0 qqqq) in
    let! f2_ := flav dflav (ch 1 qqqq) in
    let! f3_ := flav uflav (ch 2 qqqq) in
    let! f4_ := flav uflav (ch 3 qqqq) in
    Ok [((("F" ++ qqqq)%string ++ "1")%string,
         (XSub (XArr "V1udLL" [f3_; f4_; f1_; f2_]) (XDiv (XArr "V8udLL" [f3_; f4_; f1_; f2_]) (XMul (XQ 2 1) (XQ 3 1)))));
       ((("F" ++ qqqq)%string ++ "2")%string,
         (XDiv (XArr "V8udLL" [f3_; f4_; f1_; f2_]) (XQ 2 1)));
       ((("F" ++ qqqq)%string ++ "3")%string,
         (XSub (XArr "V1duLR" [f1_; f2_; f3_; f4_]) (XDiv (XArr "V8duLR" [f1_; f2_; f3_; f4_]) (XMul (XQ 2 1) (XQ 3 1)))));
       ((("F" ++ qqqq)%string ++ "4")%string,
         (XDiv (XArr "V8duLR" [f1_; f2_; f3_; f4_]) (XQ 2 1)));
       ((("F" ++ qqqq)%string ++ "5")%string,
         (XSub (XSub (XArr "S1udRR" [f3_; f4_; f1_; f2_]) (XDiv (XArr "S8udduRR" [f3_; f2_; f1_; f4_]) (XQ 4 1))) (XDiv (XArr "S8udRR" [f3_; f4_; f1_; f2_]) (XMul (XQ 2 1) (XQ 3 1)))));
       ((("F" ++ qqqq)%string ++ "6")%string,
         (XAdd (XAdd (XDiv (XNeg (XArr "S1udduRR" [f3_; f2_; f1_; f4_])) (XQ 2 1)) (XDiv (XArr "S8udduRR" [f3_; f2_; f1_; f4_]) (XMul (XQ 4 1) (XQ 3 1)))) (XDiv (XArr "S8udRR" [f3_; f4_; f1_; f2_]) (XQ 2 1))));
       ((("F" ++ qqqq)%string ++ "7")%string,
         (XNeg (XConj (XArr "V8udduLR" [f4_; f1_; f2_; f3_]))));
       ((("F" ++ qqqq)%string ++ "8")%string,
         (XAdd (XMul (XQ (-2) 1) (XConj (XArr "V1udduLR" [f4_; f1_; f2_; f3_]))) (XDiv (XConj (XArr "V8udduLR" [f4_; f1_; f2_; f3_])) (XQ 3 1))));
       ((("F" ++ qqqq)%string ++ "9")%string,
         (XDiv (XNeg (XArr "S8udduRR" [f3_; f2_; f1_; f4_])) (XQ 16 1)));
       ((("F" ++ qqqq)%string ++ "10")%string,
         (XAdd (XDiv (XNeg (XArr "S1udduRR" [f3_; f2_; f1_; f4_])) (XQ 8 1)) (XDiv (XArr "S8udduRR" [f3_; f2_; f1_; f4_]) (XMul (XQ 16 1) (XQ 3 1)))));
       ((("F" ++ qqqq)%string ++ "1p")%string,
         (XSub (XArr "V1udRR" [f3_; f4_; f1_; f2_]) (XDiv (XArr "V8udRR" [f3_; f4_; f1_; f2_]) (XMul (XQ 2 1) (XQ 3 1)))));
       ((("F" ++ qqqq)%string ++ "2p")%string,
         (XDiv (XArr "V8udRR" [f3_; f4_; f1_; f2_]) (XQ 2 1)));
       ((("F" ++ qqqq)%string ++ "3p")%string,
         (XSub (XArr "V1udLR" [f3_; f4_; f1_; f2_]) (XDiv (XArr "V8udLR" [f3_; f4_; f1_; f2_]) (XMul (XQ 2 1) (XQ 3 1)))));
       ((("F" ++ qqqq)%string ++ "4p")%string,
         (XDiv (XArr "V8udLR" [f3_; f4_; f1_; f2_]) (XQ 2 1)));
       ((("F" ++ qqqq)%string ++ "5p")%string,
         (XSub (XSub (XConj (XArr "S1udRR" [f4_; f3_; f2_; f1_])) (XDiv (XConj (XArr "S8udduRR" [f4_; f1_; f2_; f3_])) (XQ 4 1))) (XDiv (XConj (XArr "S8udRR" [f4_; f3_; f2_; f1_])) (XMul (XQ 2 1) (XQ 3 1)))));
       ((("F" ++ qqqq)%string ++ "6p")%string,
         (XAdd (XAdd (XDiv (XNeg (XConj (XArr "S1udduRR" [f4_; f1_; f2_; f3_]))) (XQ 2 1)) (XDiv (XConj (XArr "S8udduRR" [f4_; f1_; f2_; f3_])) (XMul (XQ 4 1) (XQ 3 1)))) (XDiv (XConj (XArr "S8udRR" [f4_; f3_; f2_; f1_])) (XQ 2 1))));
       ((("F" ++ qqqq)%string ++ "7p")%string,
         (XNeg (XArr "V8udduLR" [f3_; f2_; f1_; f4_])));
       ((("F" ++ qqqq)%string ++ "8p")%string,
         (XAdd (XMul (XQ (-2) 1) (XArr "V1udduLR" [f3_; f2_; f1_; f4_])) (XDiv (XArr "V8udduLR" [f3_; f2_; f1_; f4_]) (XQ 3 1))));
       ((("F" ++ qqqq)%string ++ "9p")%string,
         (XDiv (XNeg (XConj (XArr "S8udduRR" [f4_; f1_; f2_; f3_]))) (XQ 16 1)));
       ((("F" ++ qqqq)%string ++ "10p")%string,
         (XAdd (XDiv (XNeg (XConj (XArr "S1udduRR" [f4_; f1_; f2_; f3_]))) (XQ 8 1)) (XDiv (XDiv (XConj (XArr "S8udduRR" [f4_; f1_; f2_; f3_])) (XQ 16 1)) (XQ 3 1))))]
  else
  let classIV := ["sbsd"; "dbds"; "bsbd"] in
  let classVdddd := ["sbss"; "dbdd"; "dsdd"; "sbbb"; "dbbb"; "dsss"] in
  let classVddddind := ["sbdd"; "dsbb"; "dbss"] in
  if mem qqqq ((classIV ++ classVdddd) ++ classVddddind) then
    let! f1_ := flav dflav (ch 0 qqqq) in
    let! f2_ := flav dflav (ch 1 qqqq) in
    let! f3_ := flav dflav (ch 2 qqqq) in
    let! f4_ := flav dflav (ch 3 qqqq) in
    Ok [((("F" ++ qqqq)%string ++ "1")%string,
         (XArr "VddLL" [f3_; f4_; f1_; f2_]));
       ((("F" ++ qqqq)%string ++ "2")%string,
         (XArr "VddLL" [f1_; f4_; f3_; f2_]));
       ((("F" ++ qqqq)%string ++ "3")%string,
         (XSub (XArr "V1ddLR" [f1_; f2_; f3_; f4_]) (XDiv (XArr "V8ddLR" [f1_; f2_; f3_; f4_]) (XMul (XQ 2 1) (XQ 3 1)))));
       ((("F" ++ qqqq)%string ++ "4")%string,
         (XDiv (XArr "V8ddLR" [f1_; f2_; f3_; f4_]) (XQ 2 1)));
       ((("F" ++ qqqq)%string ++ "5")%string,
         (XSub (XSub (XArr "S1ddRR" [f3_; f4_; f1_; f2_]) (XDiv (XArr "S8ddRR" [f3_; f2_; f1_; f4_]) (XQ 4 1))) (XDiv (XArr "S8ddRR" [f3_; f4_; f1_; f2_]) (XMul (XQ 2 1) (XQ 3 1)))));
       ((("F" ++ qqqq)%string ++ "6")%string,
         (XAdd (XAdd (XDiv (XNeg (XArr "S1ddRR" [f1_; f4_; f3_; f2_])) (XQ 2 1)) (XDiv (XArr "S8ddRR" [f3_; f2_; f1_; f4_]) (XMul (XQ 4 1) (XQ 3 1)))) (XDiv (XArr "S8ddRR" [f3_; f4_; f1_; f2_]) (XQ 2 1))));
       ((("F" ++ qqqq)%string ++ "7")%string,
         (XNeg (XArr "V8ddLR" [f1_; f4_; f3_; f2_])));
       ((("F" ++ qqqq)%string ++ "8")%string,
         (XAdd (XMul (XQ (-2) 1) (XArr "V1ddLR" [f1_; f4_; f3_; f2_])) (XDiv (XArr "V8ddLR" [f1_; f4_; f3_; f2_]) (XQ 3 1))));
       ((("F" ++ qqqq)%string ++ "9")%string,
         (XDiv (XNeg (XArr "S8ddRR" [f3_; f2_; f1_; f4_])) (XQ 16 1)));
       ((("F" ++ qqqq)%string ++ "10")%string,
         (XAdd (XDiv (XNeg (XArr "S1ddRR" [f1_; f4_; f3_; f2_])) (XQ 8 1)) (XDiv (XArr "S8ddRR" [f3_; f2_; f1_; f4_]) (XMul (XQ 16 1) (XQ 3 1)))));
       ((("F" ++ qqqq)%string ++ "1p")%string,
         (XArr "VddRR" [f3_; f4_; f1_; f2_]));
       ((("F" ++ qqqq)%string ++ "2p")%string,
         (XArr "VddRR" [f1_; f3_; f4_; f2_]));
       ((("F" ++ qqqq)%string ++ "3p")%string,
         (XSub (XArr "V1ddLR" [f3_; f4_; f1_; f2_]) (XDiv (XArr "V8ddLR" [f3_; f4_; f1_; f2_]) (XMul (XQ 2 1) (XQ 3 1)))));
       ((("F" ++ qqqq)%string ++ "4p")%string,
         (XDiv (XArr "V8ddLR" [f3_; f4_; f1_; f2_]) (XQ 2 1)));
       ((("F" ++ qqqq)%string ++ "5p")%string,
         (XSub (XSub (XConj (XArr "S1ddRR" [f4_; f3_; f2_; f1_])) (XDiv (XConj (XArr "S8ddRR" [f4_; f1_; f2_; f3_])) (XQ 4 1))) (XDiv (XDiv (XConj (XArr "S8ddRR" [f4_; f3_; f2_; f1_])) (XQ 2 1)) (XQ 3 1))));
       ((("F" ++ qqqq)%string ++ "6p")%string,
         (XAdd (XAdd (XDiv (XNeg (XConj (XArr "S1ddRR" [f4_; f1_; f2_; f3_]))) (XQ 2 1)) (XDiv (XDiv (XConj (XArr "S8ddRR" [f4_; f1_; f2_; f3_])) (XQ 4 1)) (XQ 3 1))) (XDiv (XConj (XArr "S8ddRR" [f4_; f3_; f2_; f1_])) (XQ 2 1))));
       ((("F" ++ qqqq)%string ++ "7p")%string,
         (XNeg (XArr "V8ddLR" [f3_; f2_; f1_; f4_])));
       ((("F" ++ qqqq)%string ++ "8p")%string,
         (XAdd (XMul (XQ (-2) 1) (XArr "V1ddLR" [f3_; f2_; f1_; f4_])) (XDiv (XArr "V8ddLR" [f3_; f2_; f1_; f4_]) (XQ 3 1))));
       ((("F" ++ qqqq)%string ++ "9p")%string,
         (XDiv (XNeg (XConj (XArr "S8ddRR" [f4_; f1_; f2_; f3_]))) (XQ 16 1)));
       ((("F" ++ qqqq)%string ++ "10p")%string,
         (XAdd (XDiv (XNeg (XConj (XArr "S1ddRR" [f4_; f1_; f2_; f3_]))) (XQ 8 1)) (XDiv (XDiv (XConj (XArr "S8ddRR" [f4_; f1_; f2_; f3_])) (XQ 16 1)) (XQ 3 1))))]
  else
  let classVuuuu := ["ucuu"; "cucc"] in
  if mem qqqq classVuuuu then
    let! f1_ := flav uflav (ch 0 qqqq) in
    let! f2_ := flav uflav (ch 1 qqqq) in
    let! f3_ := flav uflav (ch 2 qqqq) in
    let! f4_ := flav uflav (ch 3 qqqq) in
    Ok [((("F" ++ qqqq)%string ++ "1")%string,
         (XArr "VuuLL" [f3_; f4_; f1_; f2_]));
       ((("F" ++ qqqq)%string ++ "2")%string,
         (XArr "VuuLL" [f1_; f4_; f3_; f2_]));
       ((("F" ++ qqqq)%string ++ "3")%string,
         (XSub (XArr "V1uuLR" [f1_; f2_; f3_; f4_]) (XDiv (XArr "V8uuLR" [f1_; f2_; f3_; f4_]) (XMul (XQ 2 1) (XQ 3 1)))));
       ((("F" ++ qqqq)%string ++ "4")%string,
         (XDiv (XArr "V8uuLR" [f1_; f2_; f3_; f4_]) (XQ 2 1)));
       ((("F" ++ qqqq)%string ++ "5")%string,
         (XSub (XSub (XArr "S1uuRR" [f3_; f4_; f1_; f2_]) (XDiv (XArr "S8uuRR" [f3_; f2_; f1_; f4_]) (XQ 4 1))) (XDiv (XArr "S8uuRR" [f3_; f4_; f1_; f2_]) (XMul (XQ 2 1) (XQ 3 1)))));
       ((("F" ++ qqqq)%string ++ "6")%string,
         (XAdd (XAdd (XDiv (XNeg (XArr "S1uuRR" [f1_; f4_; f3_; f2_])) (XQ 2 1)) (XDiv (XArr "S8uuRR" [f3_; f2_; f1_; f4_]) (XMul (XQ 4 1) (XQ 3 1)))) (XDiv (XArr "S8uuRR" [f3_; f4_; f1_; f2_]) (XQ 2 1))));
       ((("F" ++ qqqq)%string ++ "7")%string,
         (XNeg (XArr "V8uuLR" [f1_; f4_; f3_; f2_])));
       ((("F" ++ qqqq)%string ++ "8")%string,
         (XAdd (XMul (XQ (-2) 1) (XArr "V1uuLR" [f1_; f4_; f3_; f2_])) (XDiv (XArr "V8uuLR" [f1_; f4_; f3_; f2_]) (XQ 3 1))));
       ((("F" ++ qqqq)%string ++ "9")%string,
         (XDiv (XNeg (XArr "S8uuRR" [f3_; f2_; f1_; f4_])) (XQ 16 1)));
       ((("F" ++ qqqq)%string ++ "10")%string,
         (XAdd (XDiv (XNeg (XArr "S1uuRR" [f1_; f4_; f3_; f2_])) (XQ 8 1)) (XDiv (XArr "S8uuRR" [f3_; f2_; f1_; f4_]) (XMul (XQ 16 1) (XQ 3 1)))));
       ((("F" ++ qqqq)%string ++ "1p")%string,
         (XArr "VuuRR" [f3_; f4_; f1_; f2_]));
       ((("F" ++ qqqq)%string ++ "2p")%string,
         (XArr "VuuRR" [f1_; f3_; f4_; f2_]));
       ((("F" ++ qqqq)%string ++ "3p")%string,
         (XSub (XArr "V1uuLR" [f3_; f4_; f1_; f2_]) (XDiv (XArr "V8uuLR" [f3_; f4_; f1_; f2_]) (XMul (XQ 2 1) (XQ 3 1)))));
       ((("F" ++ qqqq)%string ++ "4p")%string,
         (XDiv (XArr "V8uuLR" [f3_; f4_; f1_; f2_]) (XQ 2 1)));
       ((("F" ++ qqqq)%string ++ "5p")%string,
         (XSub (XSub (XConj (XArr "S1uuRR" [f4_; f3_; f2_; f1_])) (XDiv (XConj (XArr "S8uuRR" [f4_; f1_; f2_; f3_])) (XQ 4 1))) (XDiv (XDiv (XConj (XArr "S8uuRR" [f4_; f3_; f2_; f1_])) (XQ 2 1)) (XQ 3 1))));
       ((("F" ++ qqqq)%string ++ "6p")%string,
         (XAdd (XAdd (XDiv (XNeg (XConj (XArr "S1uuRR" [f4_; f1_; f2_; f3_]))) (XQ 2 1)) (XDiv (XDiv (XConj (XArr "S8uuRR" [f4_; f1_; f2_; f3_])) (XQ 4 1)) (XQ 3 1))) (XDiv (XConj (XArr "S8uuRR" [f4_; f3_; f2_; f1_])) (XQ 2 1))));
       ((("F" ++ qqqq)%string ++ "7p")%string,
         (XNeg (XArr "V8uuLR" [f3_; f2_; f1_; f4_])));
       ((("F" ++ qqqq)%string ++ "8p")%string,
         (XAdd (XMul (XQ (-2) 1) (XArr "V1uuLR" [f3_; f2_; f1_; f4_])) (XDiv (XArr "V8uuLR" [f3_; f2_; f1_; f4_]) (XQ 3 1))));
       ((("F" ++ qqqq)%string ++ "9p")%string,
         (XDiv (XNeg (XConj (XArr "S8uuRR" [f4_; f1_; f2_; f3_]))) (XQ 16 1)));
       ((("F" ++ qqqq)%string ++ "10p")%string,
         (XAdd (XDiv (XNeg (XConj (XArr "S1uuRR" [f4_; f1_; f2_; f3_]))) (XQ 8 1)) (XDiv (XDiv (XConj (XArr "S8uuRR" [f4_; f1_; f2_; f3_])) (XQ 16 1)) (XQ 3 1))))]
  else
  Err TypeError (* returns None *).

(** _Fierz_to_Bern_III_IV_V, wet.py 361-473 *)
Definition Fierz_to_Bern_III_IV_V (qqqq : string) : res tmpl :=
  if mem qqqq ["sbss"; "dbdd"; "dbds"; "sbsd"; "bsbd"; "dsdd"] then
    Ok [(("1" ++ qqqq)%string,
         (XAdd (XDiv (XNeg (XGet (("F" ++ qqqq)%string ++ "1")%string)) (XQ 3 1)) (XDiv (XMul (XQ 4 1) (XGet (("F" ++ qqqq)%string ++ "3")%string)) (XQ 3 1))));
       (("3" ++ qqqq)%string,
         (XSub (XDiv (XGet (("F" ++ qqqq)%string ++ "1")%string) (XQ 12 1)) (XDiv (XGet (("F" ++ qqqq)%string ++ "3")%string) (XQ 12 1))));
       (("5" ++ qqqq)%string,
         (XAdd (XDiv (XNeg (XGet (("F" ++ qqqq)%string ++ "5p")%string)) (XQ 3 1)) (XDiv (XMul (XQ 4 1) (XGet (("F" ++ qqqq)%string ++ "7p")%string)) (XQ 3 1))));
       (("7" ++ qqqq)%string,
         (XAdd (XSub (XDiv (XGet (("F" ++ qqqq)%string ++ "5p")%string) (XQ 3 1)) (XDiv (XGet (("F" ++ qqqq)%string ++ "7p")%string) (XQ 3 1))) (XGet (("F" ++ qqqq)%string ++ "9p")%string)));
       (("9" ++ qqqq)%string,
         (XSub (XDiv (XGet (("F" ++ qqqq)%string ++ "5p")%string) (XQ 48 1)) (XDiv (XGet (("F" ++ qqqq)%string ++ "7p")%string) (XQ 48 1))));
       (("1p" ++ qqqq)%string,
         (XAdd (XDiv (XNeg (XGet (("F" ++ qqqq)%string ++ "1p")%string)) (XQ 3 1)) (XDiv (XMul (XQ 4 1) (XGet (("F" ++ qqqq)%string ++ "3p")%string)) (XQ 3 1))));
       (("3p" ++ qqqq)%string,
         (XSub (XDiv (XGet (("F" ++ qqqq)%string ++ "1p")%string) (XQ 12 1)) (XDiv (XGet (("F" ++ qqqq)%string ++ "3p")%string) (XQ 12 1))));
       (("5p" ++ qqqq)%string,
         (XAdd (XDiv (XNeg (XGet (("F" ++ qqqq)%string ++ "5")%string)) (XQ 3 1)) (XDiv (XMul (XQ 4 1) (XGet (("F" ++ qqqq)%string ++ "7")%string)) (XQ 3 1))));
       (("7p" ++ qqqq)%string,
         (XAdd (XSub (XDiv (XGet (("F" ++ qqqq)%string ++ "5")%string) (XQ 3 1)) (XDiv (XGet (("F" ++ qqqq)%string ++ "7")%string) (XQ 3 1))) (XGet (("F" ++ qqqq)%string ++ "9")%string)));
       (("9p" ++ qqqq)%string,
         (XSub (XDiv (XGet (("F" ++ qqqq)%string ++ "5")%string) (XQ 48 1)) (XDiv (XGet (("F" ++ qqqq)%string ++ "7")%string) (XQ 48 1))))]
  else
  if mem qqqq ["dbbb"; "sbbb"; "dsss"] then
    Ok [(("1" ++ qqqq)%string,
         (XAdd (XDiv (XNeg (XGet (("F" ++ qqqq)%string ++ "1")%string)) (XQ 3 1)) (XDiv (XMul (XQ 4 1) (XGet (("F" ++ qqqq)%string ++ "3")%string)) (XQ 3 1))));
       (("3" ++ qqqq)%string,
         (XSub (XDiv (XGet (("F" ++ qqqq)%string ++ "1")%string) (XQ 12 1)) (XDiv (XGet (("F" ++ qqqq)%string ++ "3")%string) (XQ 12 1))));
       (("5" ++ qqqq)%string,
         (XAdd (XDiv (XNeg (XGet (("F" ++ qqqq)%string ++ "5")%string)) (XQ 3 1)) (XDiv (XMul (XQ 4 1) (XGet (("F" ++ qqqq)%string ++ "7")%string)) (XQ 3 1))));
       (("7" ++ qqqq)%string,
         (XAdd (XSub (XDiv (XGet (("F" ++ qqqq)%string ++ "5")%string) (XQ 3 1)) (XDiv (XGet (("F" ++ qqqq)%string ++ "7")%string) (XQ 3 1))) (XGet (("F" ++ qqqq)%string ++ "9")%string)));
       (("9" ++ qqqq)%string,
         (XSub (XDiv (XGet (("F" ++ qqqq)%string ++ "5")%string) (XQ 48 1)) (XDiv (XGet (("F" ++ qqqq)%string ++ "7")%string) (XQ 48 1))));
       (("1p" ++ qqqq)%string,
         (XAdd (XDiv (XNeg (XGet (("F" ++ qqqq)%string ++ "1p")%string)) (XQ 3 1)) (XDiv (XMul (XQ 4 1) (XGet (("F" ++ qqqq)%string ++ "3p")%string)) (XQ 3 1))));
       (("3p" ++ qqqq)%string,
         (XSub (XDiv (XGet (("F" ++ qqqq)%string ++ "1p")%string) (XQ 12 1)) (XDiv (XGet (("F" ++ qqqq)%string ++ "3p")%string) (XQ 12 1))));
       (("5p" ++ qqqq)%string,
         (XAdd (XDiv (XNeg (XGet (("F" ++ qqqq)%string ++ "5p")%string)) (XQ 3 1)) (XDiv (XMul (XQ 4 1) (XGet (("F" ++ qqqq)%string ++ "7p")%string)) (XQ 3 1))));
       (("7p" ++ qqqq)%string,
         (XAdd (XSub (XDiv (XGet (("F" ++ qqqq)%string ++ "5p")%string) (XQ 3 1)) (XDiv (XGet (("F" ++ qqqq)%string ++ "7p")%string) (XQ 3 1))) (XGet (("F" ++ qqqq)%string ++ "9p")%string)));
       (("9p" ++ qqqq)%string,
         (XSub (XDiv (XGet (("F" ++ qqqq)%string ++ "5p")%string) (XQ 48 1)) (XDiv (XGet (("F" ++ qqqq)%string ++ "7p")%string) (XQ 48 1))))]
  else
  if mem qqqq ["sbuu"; "sbdd"; "sbuu"; "sbuc"; "sbcu"; "sbcc"; "dbuu"; "dbss"; "dbuu"; "dbuc"; "dbcu"; "dbcc"; "dsuu"; "dsbb"; "dsuu"; "dsuc"; "dscu"; "dscc"] then
    Ok [(("1" ++ qqqq)%string,
         (XAdd (XSub (XAdd (XDiv (XNeg (XGet (("F" ++ qqqq)%string ++ "1")%string)) (XQ 3 1)) (XDiv (XMul (XQ 4 1) (XGet (("F" ++ qqqq)%string ++ "3")%string)) (XQ 3 1))) (XDiv (XGet (("F" ++ qqqq)%string ++ "2")%string) (XMul (XQ 3 1) (XQ 3 1)))) (XDiv (XMul (XQ 4 1) (XGet (("F" ++ qqqq)%string ++ "4")%string)) (XMul (XQ 3 1) (XQ 3 1)))));
       (("2" ++ qqqq)%string,
         (XAdd (XDiv (XMul (XQ (-2) 1) (XGet (("F" ++ qqqq)%string ++ "2")%string)) (XQ 3 1)) (XDiv (XMul (XQ 8 1) (XGet (("F" ++ qqqq)%string ++ "4")%string)) (XQ 3 1))));
       (("3" ++ qqqq)%string,
         (XSub (XAdd (XSub (XDiv (XGet (("F" ++ qqqq)%string ++ "1")%string) (XQ 12 1)) (XDiv (XGet (("F" ++ qqqq)%string ++ "3")%string) (XQ 12 1))) (XDiv (XGet (("F" ++ qqqq)%string ++ "2")%string) (XMul (XQ 12 1) (XQ 3 1)))) (XDiv (XGet (("F" ++ qqqq)%string ++ "4")%string) (XMul (XQ 12 1) (XQ 3 1)))));
       (("4" ++ qqqq)%string,
         (XSub (XDiv (XGet (("F" ++ qqqq)%string ++ "2")%string) (XQ 6 1)) (XDiv (XGet (("F" ++ qqqq)%string ++ "4")%string) (XQ 6 1))));
       (("5" ++ qqqq)%string,
         (XAdd (XSub (XAdd (XDiv (XNeg (XGet (("F" ++ qqqq)%string ++ "5")%string)) (XQ 3 1)) (XDiv (XMul (XQ 4 1) (XGet (("F" ++ qqqq)%string ++ "7")%string)) (XQ 3 1))) (XDiv (XGet (("F" ++ qqqq)%string ++ "6")%string) (XMul (XQ 3 1) (XQ 3 1)))) (XDiv (XMul (XQ 4 1) (XGet (("F" ++ qqqq)%string ++ "8")%string)) (XMul (XQ 3 1) (XQ 3 1)))));
       (("6" ++ qqqq)%string,
         (XAdd (XDiv (XMul (XQ (-2) 1) (XGet (("F" ++ qqqq)%string ++ "6")%string)) (XQ 3 1)) (XDiv (XMul (XQ 8 1) (XGet (("F" ++ qqqq)%string ++ "8")%string)) (XQ 3 1))));
       (("7" ++ qqqq)%string,
         (XSub (XAdd (XAdd (XAdd (XSub (XDiv (XGet (("F" ++ qqqq)%string ++ "5")%string) (XQ 3 1)) (XDiv (XGet (("F" ++ qqqq)%string ++ "7")%string) (XQ 3 1))) (XGet (("F" ++ qqqq)%string ++ "9")%string)) (XDiv (XGet (("F" ++ qqqq)%string ++ "10")%string) (XQ 3 1))) (XDiv (XGet (("F" ++ qqqq)%string ++ "6")%string) (XMul (XQ 3 1) (XQ 3 1)))) (XDiv (XGet (("F" ++ qqqq)%string ++ "8")%string) (XMul (XQ 3 1) (XQ 3 1)))));
       (("8" ++ qqqq)%string,
         (XSub (XAdd (XMul (XQ 2 1) (XGet (("F" ++ qqqq)%string ++ "10")%string)) (XDiv (XMul (XQ 2 1) (XGet (("F" ++ qqqq)%string ++ "6")%string)) (XQ 3 1))) (XDiv (XMul (XQ 2 1) (XGet (("F" ++ qqqq)%string ++ "8")%string)) (XQ 3 1))));
       (("9" ++ qqqq)%string,
         (XSub (XAdd (XSub (XDiv (XGet (("F" ++ qqqq)%string ++ "5")%string) (XQ 48 1)) (XDiv (XGet (("F" ++ qqqq)%string ++ "7")%string) (XQ 48 1))) (XDiv (XGet (("F" ++ qqqq)%string ++ "6")%string) (XMul (XQ 48 1) (XQ 3 1)))) (XDiv (XGet (("F" ++ qqqq)%string ++ "8")%string) (XMul (XQ 48 1) (XQ 3 1)))));
       (("10" ++ qqqq)%string,
         (XSub (XDiv (XGet (("F" ++ qqqq)%string ++ "6")%string) (XQ 24 1)) (XDiv (XGet (("F" ++ qqqq)%string ++ "8")%string) (XQ 24 1))));
       (("1p" ++ qqqq)%string,
         (XAdd (XSub (XAdd (XDiv (XNeg (XGet (("F" ++ qqqq)%string ++ "1p")%string)) (XQ 3 1)) (XDiv (XMul (XQ 4 1) (XGet (("F" ++ qqqq)%string ++ "3p")%string)) (XQ 3 1))) (XDiv (XGet (("F" ++ qqqq)%string ++ "2p")%string) (XMul (XQ 3 1) (XQ 3 1)))) (XDiv (XMul (XQ 4 1) (XGet (("F" ++ qqqq)%string ++ "4p")%string)) (XMul (XQ 3 1) (XQ 3 1)))));
       (("2p" ++ qqqq)%string,
         (XAdd (XDiv (XMul (XQ (-2) 1) (XGet (("F" ++ qqqq)%string ++ "2p")%string)) (XQ 3 1)) (XDiv (XMul (XQ 8 1) (XGet (("F" ++ qqqq)%string ++ "4p")%string)) (XQ 3 1))));
       (("3p" ++ qqqq)%string,
         (XSub (XAdd (XSub (XDiv (XGet (("F" ++ qqqq)%string ++ "1p")%string) (XQ 12 1)) (XDiv (XGet (("F" ++ qqqq)%string ++ "3p")%string) (XQ 12 1))) (XDiv (XGet (("F" ++ qqqq)%string ++ "2p")%string) (XMul (XQ 12 1) (XQ 3 1)))) (XDiv (XGet (("F" ++ qqqq)%string ++ "4p")%string) (XMul (XQ 12 1) (XQ 3 1)))));
       (("4p" ++ qqqq)%string,
         (XSub (XDiv (XGet (("F" ++ qqqq)%string ++ "2p")%string) (XQ 6 1)) (XDiv (XGet (("F" ++ qqqq)%string ++ "4p")%string) (XQ 6 1))));
       (("5p" ++ qqqq)%string,
         (XAdd (XSub (XAdd (XDiv (XNeg (XGet (("F" ++ qqqq)%string ++ "5p")%string)) (XQ 3 1)) (XDiv (XMul (XQ 4 1) (XGet (("F" ++ qqqq)%string ++ "7p")%string)) (XQ 3 1))) (XDiv (XGet (("F" ++ qqqq)%string ++ "6p")%string) (XMul (XQ 3 1) (XQ 3 1)))) (XDiv (XMul (XQ 4 1) (XGet (("F" ++ qqqq)%string ++ "8p")%string)) (XMul (XQ 3 1) (XQ 3 1)))));
       (("6p" ++ qqqq)%string,
         (XAdd (XDiv (XMul (XQ (-2) 1) (XGet (("F" ++ qqqq)%string ++ "6p")%string)) (XQ 3 1)) (XDiv (XMul (XQ 8 1) (XGet (("F" ++ qqqq)%string ++ "8p")%string)) (XQ 3 1))));
       (("7p" ++ qqqq)%string,
         (XSub (XAdd (XAdd (XAdd (XSub (XDiv (XGet (("F" ++ qqqq)%string ++ "5p")%string) (XQ 3 1)) (XDiv (XGet (("F" ++ qqqq)%string ++ "7p")%string) (XQ 3 1))) (XGet (("F" ++ qqqq)%string ++ "9p")%string)) (XDiv (XGet (("F" ++ qqqq)%string ++ "10p")%string) (XQ 3 1))) (XDiv (XGet (("F" ++ qqqq)%string ++ "6p")%string) (XMul (XQ 3 1) (XQ 3 1)))) (XDiv (XGet (("F" ++ qqqq)%string ++ "8p")%string) (XMul (XQ 3 1) (XQ 3 1)))));
       (("8p" ++ qqqq)%string,
         (XSub (XAdd (XMul (XQ 2 1) (XGet (("F" ++ qqqq)%string ++ "10p")%string)) (XDiv (XMul (XQ 2 1) (XGet (("F" ++ qqqq)%string ++ "6p")%string)) (XQ 3 1))) (XDiv (XMul (XQ 2 1) (XGet (("F" ++ qqqq)%string ++ "8p")%string)) (XQ 3 1))));
       (("9p" ++ qqqq)%string,
         (XSub (XAdd (XSub (XDiv (XGet (("F" ++ qqqq)%string ++ "5p")%string) (XQ 48 1)) (XDiv (XGet (("F" ++ qqqq)%string ++ "7p")%string) (XQ 48 1))) (XDiv (XGet (("F" ++ qqqq)%string ++ "6p")%string) (XMul (XQ 48 1) (XQ 3 1)))) (XDiv (XGet (("F" ++ qqqq)%string ++ "8p")%string) (XMul (XQ 48 1) (XQ 3 1)))));
       (("10p" ++ qqqq)%string,
         (XSub (XDiv (XGet (("F" ++ qqqq)%string ++ "6p")%string) (XQ 24 1)) (XDiv (XGet (("F" ++ qqqq)%string ++ "8p")%string) (XQ 24 1))))]
  else
  Err ValueError.

(** _Fierz_to_EOS_V, wet.py 476-517 *)
Definition Fierz_to_EOS_V : res tmpl :=
  let Vtb := (XV F3 F3) in
  let Vts := (XV F3 F2) in
  let dic :=
    [("b->s::c1",
       (XAdd (XSub (XAdd (XSub (XAdd (XDiv (XMul (XQ (-2) 1) (XGet "Fsbbb1")) (XQ 5 1)) (XGet "Fsbcc1")) (XDiv (XMul (XQ 6 1) (XGet "Fsbdd1")) (XQ 5 1))) (XDiv (XMul (XQ 4 1) (XGet "Fsbdd2")) (XQ 5 1))) (XDiv (XMul (XQ 2 1) (XGet "Fsbss1")) (XQ 5 1))) (XGet "Fsbuu1")));
     ("b->s::c2",
       (XAdd (XAdd (XSub (XSub (XAdd (XAdd (XAdd (XDiv (XMul (XQ (-4) 1) (XGet "Fsbbb1")) (XQ 15 1)) (XDiv (XGet "Fsbcc1") (XQ 6 1))) (XDiv (XGet "Fsbcc2") (XQ 2 1))) (XDiv (XGet "Fsbdd1") (XQ 5 1))) (XDiv (XMul (XQ 7 1) (XGet "Fsbdd2")) (XQ 15 1))) (XDiv (XMul (XQ 4 1) (XGet "Fsbss1")) (XQ 15 1))) (XDiv (XGet "Fsbuu1") (XQ 6 1))) (XDiv (XGet "Fsbuu2") (XQ 2 1))));
     ("b->s::c3",
       (XAdd (XAdd (XAdd (XAdd (XSub (XAdd (XAdd (XAdd (XSub (XAdd (XAdd (XAdd (XAdd (XDiv (XMul (XQ (-4) 1) (XGet "Fsbbb1")) (XQ 45 1)) (XDiv (XMul (XQ 4 1) (XGet "Fsbbb3")) (XQ 15 1))) (XDiv (XMul (XQ 4 1) (XGet "Fsbbb4")) (XQ 45 1))) (XDiv (XMul (XQ 4 1) (XGet "Fsbcc3")) (XQ 15 1))) (XDiv (XMul (XQ 4 1) (XGet "Fsbcc4")) (XQ 45 1))) (XDiv (XMul (XQ 7 1) (XGet "Fsbdd1")) (XQ 45 1))) (XDiv (XGet "Fsbdd2") (XQ 15 1))) (XDiv (XMul (XQ 4 1) (XGet "Fsbdd3")) (XQ 15 1))) (XDiv (XMul (XQ 4 1) (XGet "Fsbdd4")) (XQ 45 1))) (XDiv (XMul (XQ 4 1) (XGet "Fsbss1")) (XQ 45 1))) (XDiv (XMul (XQ 4 1) (XGet "Fsbss3")) (XQ 15 1))) (XDiv (XMul (XQ 4 1) (XGet "Fsbss4")) (XQ 45 1))) (XDiv (XMul (XQ 4 1) (XGet "Fsbuu3")) (XQ 15 1))) (XDiv (XMul (XQ 4 1) (XGet "Fsbuu4")) (XQ 45 1))));
     ("b->s::c4",
       (XAdd (XAdd (XSub (XAdd (XSub (XAdd (XAdd (XAdd (XDiv (XMul (XQ (-2) 1) (XGet "Fsbbb1")) (XQ 15 1)) (XDiv (XMul (XQ 8 1) (XGet "Fsbbb4")) (XQ 15 1))) (XDiv (XMul (XQ 8 1) (XGet "Fsbcc4")) (XQ 15 1))) (XDiv (XMul (XQ 4 1) (XGet "Fsbdd1")) (XQ 15 1))) (XDiv (XMul (XQ 2 1) (XGet "Fsbdd2")) (XQ 5 1))) (XDiv (XMul (XQ 8 1) (XGet "Fsbdd4")) (XQ 15 1))) (XDiv (XMul (XQ 2 1) (XGet "Fsbss1")) (XQ 15 1))) (XDiv (XMul (XQ 8 1) (XGet "Fsbss4")) (XQ 15 1))) (XDiv (XMul (XQ 8 1) (XGet "Fsbuu4")) (XQ 15 1))));
     ("b->s::c5",
       (XSub (XSub (XSub (XSub (XAdd (XSub (XSub (XSub (XAdd (XSub (XSub (XSub (XSub (XDiv (XGet "Fsbbb1") (XQ 45 1)) (XDiv (XGet "Fsbbb3") (XQ 60 1))) (XDiv (XGet "Fsbbb4") (XQ 180 1))) (XDiv (XGet "Fsbcc3") (XQ 60 1))) (XDiv (XGet "Fsbcc4") (XQ 180 1))) (XDiv (XMul (XQ 7 1) (XGet "Fsbdd1")) (XQ 180 1))) (XDiv (XGet "Fsbdd2") (XQ 60 1))) (XDiv (XGet "Fsbdd3") (XQ 60 1))) (XDiv (XGet "Fsbdd4") (XQ 180 1))) (XDiv (XGet "Fsbss1") (XQ 45 1))) (XDiv (XGet "Fsbss3") (XQ 60 1))) (XDiv (XGet "Fsbss4") (XQ 180 1))) (XDiv (XGet "Fsbuu3") (XQ 60 1))) (XDiv (XGet "Fsbuu4") (XQ 180 1))));
     ("b->s::c6",
       (XSub (XSub (XAdd (XSub (XAdd (XSub (XSub (XSub (XDiv (XGet "Fsbbb1") (XQ 30 1)) (XDiv (XGet "Fsbbb4") (XQ 30 1))) (XDiv (XGet "Fsbcc4") (XQ 30 1))) (XDiv (XGet "Fsbdd1") (XQ 15 1))) (XDiv (XGet "Fsbdd2") (XQ 10 1))) (XDiv (XGet "Fsbdd4") (XQ 30 1))) (XDiv (XGet "Fsbss1") (XQ 30 1))) (XDiv (XGet "Fsbss4") (XQ 30 1))) (XDiv (XGet "Fsbuu4") (XQ 30 1))))] in
  let prefactor := (XDiv (XDiv (XDiv (XDiv (XRt (XQ 2 1)) (XPar "GF")) Vtb) (XConj Vts)) (XQ 4 1)) in
  Ok (mul_all prefactor dic).

(** JMS_to_Fierz_lep, wet.py 523-554 *)
Definition JMS_to_Fierz_lep (ddll : string) : res tmpl :=
  let! s_ := flav dflav (ch 0 ddll) in
  let! b_ := flav dflav (ch 1 ddll) in
  let! l_ := flav lflav (slice (Some (4)%Z) (Some (find "n" ddll 0)) ddll) in
  let! lp_ := flav lflav (slice (Some ((find "_" ddll 5) + (1)%Z)%Z) (Some (Z.of_nat (String.length ddll))) ddll) in
  let ind := (replace (replace ddll "l_" "") "nu_" "") in
  Ok [((("F" ++ ind)%string ++ "9")%string,
       (XAdd (XDiv (XArr "VdeLR" [s_; b_; l_; lp_]) (XQ 2 1)) (XDiv (XArr "VedLL" [l_; lp_; s_; b_]) (XQ 2 1))));
     ((("F" ++ ind)%string ++ "10")%string,
       (XSub (XDiv (XArr "VdeLR" [s_; b_; l_; lp_]) (XQ 2 1)) (XDiv (XArr "VedLL" [l_; lp_; s_; b_]) (XQ 2 1))));
     ((("F" ++ ind)%string ++ "S")%string,
       (XAdd (XDiv (XConj (XArr "SedRL" [lp_; l_; b_; s_])) (XQ 2 1)) (XDiv (XArr "SedRR" [l_; lp_; s_; b_]) (XQ 2 1))));
     ((("F" ++ ind)%string ++ "P")%string,
       (XAdd (XDiv (XNeg (XConj (XArr "SedRL" [lp_; l_; b_; s_]))) (XQ 2 1)) (XDiv (XArr "SedRR" [l_; lp_; s_; b_]) (XQ 2 1))));
     ((("F" ++ ind)%string ++ "T")%string,
       (XAdd (XDiv (XArr "TedRR" [l_; lp_; s_; b_]) (XQ 2 1)) (XDiv (XConj (XArr "TedRR" [lp_; l_; b_; s_])) (XQ 2 1))));
     ((("F" ++ ind)%string ++ "T5")%string,
       (XSub (XDiv (XArr "TedRR" [l_; lp_; s_; b_]) (XQ 2 1)) (XDiv (XConj (XArr "TedRR" [lp_; l_; b_; s_])) (XQ 2 1))));
     ((("F" ++ ind)%string ++ "9p")%string,
       (XAdd (XDiv (XArr "VedLR" [l_; lp_; s_; b_]) (XQ 2 1)) (XDiv (XArr "VedRR" [l_; lp_; s_; b_]) (XQ 2 1))));
     ((("F" ++ ind)%string ++ "10p")%string,
       (XAdd (XDiv (XNeg (XArr "VedLR" [l_; lp_; s_; b_])) (XQ 2 1)) (XDiv (XArr "VedRR" [l_; lp_; s_; b_]) (XQ 2 1))));
     ((("F" ++ ind)%string ++ "Sp")%string,
       (XAdd (XDiv (XArr "SedRL" [l_; lp_; s_; b_]) (XQ 2 1)) (XDiv (XConj (XArr "SedRR" [lp_; l_; b_; s_])) (XQ 2 1))));
     ((("F" ++ ind)%string ++ "Pp")%string,
       (XSub (XDiv (XArr "SedRL" [l_; lp_; s_; b_]) (XQ 2 1)) (XDiv (XConj (XArr "SedRR" [lp_; l_; b_; s_])) (XQ 2 1))));
     ((("F" ++ ind)%string ++ "nu")%string,
       (XArr "VnudLL" [l_; lp_; s_; b_]));
     ((("F" ++ ind)%string ++ "nup")%string,
       (XArr "VnudLR" [l_; lp_; s_; b_]))].

(** Fierz_to_Bern_lep, wet.py 557-576 *)
Definition Fierz_to_Bern_lep (ddll : string) : res tmpl :=
  let ind := (replace (replace ddll "l_" "") "nu_" "") in
  Ok [(("1" ++ ind)%string,
       (XAdd (XDiv (XMul (XQ 5 1) (XGet (("F" ++ ind)%string ++ "10")%string)) (XQ 3 1)) (XGet (("F" ++ ind)%string ++ "9")%string)));
     (("3" ++ ind)%string,
       (XDiv (XNeg (XGet (("F" ++ ind)%string ++ "10")%string)) (XQ 6 1)));
     (("5" ++ ind)%string,
       (XSub (XGet (("F" ++ ind)%string ++ "S")%string) (XDiv (XMul (XQ 5 1) (XGet (("F" ++ ind)%string ++ "P")%string)) (XQ 3 1))));
     (("7" ++ ind)%string,
       (XAdd (XAdd (XDiv (XMul (XQ 2 1) (XGet (("F" ++ ind)%string ++ "P")%string)) (XQ 3 1)) (XGet (("F" ++ ind)%string ++ "T")%string)) (XGet (("F" ++ ind)%string ++ "T5")%string)));
     (("9" ++ ind)%string,
       (XDiv (XGet (("F" ++ ind)%string ++ "P")%string) (XQ 24 1)));
     (("1p" ++ ind)%string,
       (XSub (XGet (("F" ++ ind)%string ++ "9p")%string) (XDiv (XMul (XQ 5 1) (XGet (("F" ++ ind)%string ++ "10p")%string)) (XQ 3 1))));
     (("3p" ++ ind)%string,
       (XDiv (XGet (("F" ++ ind)%string ++ "10p")%string) (XQ 6 1)));
     (("5p" ++ ind)%string,
       (XAdd (XDiv (XMul (XQ 5 1) (XGet (("F" ++ ind)%string ++ "Pp")%string)) (XQ 3 1)) (XGet (("F" ++ ind)%string ++ "Sp")%string)));
     (("7p" ++ ind)%string,
       (XSub (XAdd (XDiv (XMul (XQ (-2) 1) (XGet (("F" ++ ind)%string ++ "Pp")%string)) (XQ 3 1)) (XGet (("F" ++ ind)%string ++ "T")%string)) (XGet (("F" ++ ind)%string ++ "T5")%string)));
     (("9p" ++ ind)%string,
       (XDiv (XNeg (XGet (("F" ++ ind)%string ++ "Pp")%string)) (XQ 24 1)));
     (("nu1" ++ ind)%string,
       (XGet (("F" ++ ind)%string ++ "nu")%string));
     (("nu1p" ++ ind)%string,
       (XGet (("F" ++ ind)%string ++ "nup")%string))].

(** Bern_to_Fierz_lep, wet.py 579-596 *)
Definition Bern_to_Fierz_lep (ddll : string) : res tmpl :=
  let ind := (replace (replace ddll "l_" "") "nu_" "") in
  Ok [((("F" ++ ind)%string ++ "9")%string,
       (XAdd (XGet ("1" ++ ind)%string) (XMul (XQ 10 1) (XGet ("3" ++ ind)%string))));
     ((("F" ++ ind)%string ++ "10")%string,
       (XMul (XQ (-6) 1) (XGet ("3" ++ ind)%string)));
     ((("F" ++ ind)%string ++ "S")%string,
       (XAdd (XGet ("5" ++ ind)%string) (XMul (XQ 40 1) (XGet ("9" ++ ind)%string))));
     ((("F" ++ ind)%string ++ "P")%string,
       (XMul (XQ 24 1) (XGet ("9" ++ ind)%string)));
     ((("F" ++ ind)%string ++ "T")%string,
       (XSub (XSub (XAdd (XDiv (XGet ("7" ++ ind)%string) (XQ 2 1)) (XDiv (XGet ("7p" ++ ind)%string) (XQ 2 1))) (XMul (XQ 8 1) (XGet ("9" ++ ind)%string))) (XMul (XQ 8 1) (XGet ("9p" ++ ind)%string))));
     ((("F" ++ ind)%string ++ "T5")%string,
       (XAdd (XSub (XSub (XDiv (XGet ("7" ++ ind)%string) (XQ 2 1)) (XDiv (XGet ("7p" ++ ind)%string) (XQ 2 1))) (XMul (XQ 8 1) (XGet ("9" ++ ind)%string))) (XMul (XQ 8 1) (XGet ("9p" ++ ind)%string))));
     ((("F" ++ ind)%string ++ "9p")%string,
       (XAdd (XGet ("1p" ++ ind)%string) (XMul (XQ 10 1) (XGet ("3p" ++ ind)%string))));
     ((("F" ++ ind)%string ++ "10p")%string,
       (XMul (XQ 6 1) (XGet ("3p" ++ ind)%string)));
     ((("F" ++ ind)%string ++ "Sp")%string,
       (XAdd (XGet ("5p" ++ ind)%string) (XMul (XQ 40 1) (XGet ("9p" ++ ind)%string))));
     ((("F" ++ ind)%string ++ "Pp")%string,
       (XMul (XQ (-24) 1) (XGet ("9p" ++ ind)%string)));
     ((("F" ++ ind)%string ++ "nu")%string,
       (XGet ("nu1" ++ ind)%string));
     ((("F" ++ ind)%string ++ "nup")%string,
       (XGet ("nu1p" ++ ind)%string))].

(** Fierz_to_Flavio_lep, wet.py 599-634 *)
Definition Fierz_to_Flavio_lep (ddll : string) (include_charged : bool) : res tmpl :=
  let! xi := (if String.eqb (slice None (Some (2)%Z) ddll) "sb" then Ok (XMul (XV F3 F3) (XConj (XV F3 F2))) else if String.eqb (slice None (Some (2)%Z) ddll) "db" then Ok (XMul (XV F3 F3) (XConj (XV F3 F1))) else if String.eqb (slice None (Some (2)%Z) ddll) "ds" then Ok (XMul (XV F3 F2) (XConj (XV F3 F1))) else Err ValueError) in
  let ind := (replace (replace ddll "l_" "") "nu_" "") in
  let indfl := ((rev_str (slice (Some 0%Z) (Some 2%Z) ddll)) ++ (slice (Some (2)%Z) None ind))%string in
  let indnu := ((rev_str (slice (Some 0%Z) (Some 2%Z) ddll)) ++ (slice (Some (2)%Z) None (replace (replace ddll "l_" "nu") "nu_" "nu")))%string in
  let e := (XRt (XMul (XMul (XQ 4 1) XPi) (XPar "alpha_e"))) in
  let mb := (XPar "m_b") in
  let dic :=
    [(("CL_" ++ indnu)%string,
       (XMul (XDiv (XMul (XQ 8 1) (XMul XPi XPi)) (XMul e e)) (XGet (("F" ++ ind)%string ++ "nu")%string)));
     (("CR_" ++ indnu)%string,
       (XMul (XDiv (XMul (XQ 8 1) (XMul XPi XPi)) (XMul e e)) (XGet (("F" ++ ind)%string ++ "nup")%string)))] in
  let dic := if include_charged then dic ++
    [(("C9_" ++ indfl)%string,
       (XMul (XDiv (XMul (XQ 16 1) (XMul XPi XPi)) (XMul e e)) (XGet (("F" ++ ind)%string ++ "9")%string)));
     (("C9p_" ++ indfl)%string,
       (XMul (XDiv (XMul (XQ 16 1) (XMul XPi XPi)) (XMul e e)) (XGet (("F" ++ ind)%string ++ "9p")%string)));
     (("C10_" ++ indfl)%string,
       (XMul (XDiv (XMul (XQ 16 1) (XMul XPi XPi)) (XMul e e)) (XGet (("F" ++ ind)%string ++ "10")%string)));
     (("C10p_" ++ indfl)%string,
       (XMul (XDiv (XMul (XQ 16 1) (XMul XPi XPi)) (XMul e e)) (XGet (("F" ++ ind)%string ++ "10p")%string)));
     (("CS_" ++ indfl)%string,
       (XMul (XDiv (XDiv (XMul (XQ 16 1) (XMul XPi XPi)) (XMul e e)) mb) (XGet (("F" ++ ind)%string ++ "S")%string)));
     (("CSp_" ++ indfl)%string,
       (XMul (XDiv (XDiv (XMul (XQ 16 1) (XMul XPi XPi)) (XMul e e)) mb) (XGet (("F" ++ ind)%string ++ "Sp")%string)));
     (("CP_" ++ indfl)%string,
       (XMul (XDiv (XDiv (XMul (XQ 16 1) (XMul XPi XPi)) (XMul e e)) mb) (XGet (("F" ++ ind)%string ++ "P")%string)));
     (("CPp_" ++ indfl)%string,
       (XMul (XDiv (XDiv (XMul (XQ 16 1) (XMul XPi XPi)) (XMul e e)) mb) (XGet (("F" ++ ind)%string ++ "Pp")%string)))]
    else dic in
  let prefactor := (XDiv (XDiv (XDiv (XRt (XQ 2 1)) (XPar "GF")) xi) (XQ 4 1)) in
  Ok (mul_all prefactor dic).

(** Flavio_to_Fierz_lep, wet.py 637-671 *)
Definition Flavio_to_Fierz_lep (ddll : string) : res tmpl :=
  let! xi := (if String.eqb (slice None (Some (2)%Z) ddll) "sb" then Ok (XMul (XV F3 F3) (XConj (XV F3 F2))) else if String.eqb (slice None (Some (2)%Z) ddll) "db" then Ok (XMul (XV F3 F3) (XConj (XV F3 F1))) else if String.eqb (slice None (Some (2)%Z) ddll) "ds" then Ok (XMul (XV F3 F2) (XConj (XV F3 F1))) else Err ValueError) in
  let ind := (replace (replace ddll "l_" "") "nu_" "") in
  let indfl := ((rev_str (slice (Some 0%Z) (Some 2%Z) ddll)) ++ (slice (Some (2)%Z) None ind))%string in
  let indnu := ((rev_str (slice (Some 0%Z) (Some 2%Z) ddll)) ++ (slice (Some (2)%Z) None (replace (replace ddll "l_" "nu") "nu_" "nu")))%string in
  let e := (XRt (XMul (XMul (XQ 4 1) XPi) (XPar "alpha_e"))) in
  let mb := (XPar "m_b") in
  let dic :=
    [((("F" ++ ind)%string ++ "9")%string,
       (XDiv (XGet ("C9_" ++ indfl)%string) (XDiv (XMul (XQ 16 1) (XMul XPi XPi)) (XMul e e))));
     ((("F" ++ ind)%string ++ "9p")%string,
       (XDiv (XGet ("C9p_" ++ indfl)%string) (XDiv (XMul (XQ 16 1) (XMul XPi XPi)) (XMul e e))));
     ((("F" ++ ind)%string ++ "10")%string,
       (XDiv (XGet ("C10_" ++ indfl)%string) (XDiv (XMul (XQ 16 1) (XMul XPi XPi)) (XMul e e))));
     ((("F" ++ ind)%string ++ "10p")%string,
       (XDiv (XGet ("C10p_" ++ indfl)%string) (XDiv (XMul (XQ 16 1) (XMul XPi XPi)) (XMul e e))));
     ((("F" ++ ind)%string ++ "S")%string,
       (XDiv (XGet ("CS_" ++ indfl)%string) (XDiv (XDiv (XMul (XQ 16 1) (XMul XPi XPi)) (XMul e e)) mb)));
     ((("F" ++ ind)%string ++ "Sp")%string,
       (XDiv (XGet ("CSp_" ++ indfl)%string) (XDiv (XDiv (XMul (XQ 16 1) (XMul XPi XPi)) (XMul e e)) mb)));
     ((("F" ++ ind)%string ++ "P")%string,
       (XDiv (XGet ("CP_" ++ indfl)%string) (XDiv (XDiv (XMul (XQ 16 1) (XMul XPi XPi)) (XMul e e)) mb)));
     ((("F" ++ ind)%string ++ "Pp")%string,
       (XDiv (XGet ("CPp_" ++ indfl)%string) (XDiv (XDiv (XMul (XQ 16 1) (XMul XPi XPi)) (XMul e e)) mb)));
     ((("F" ++ ind)%string ++ "nu")%string,
       (XDiv (XGet ("CL_" ++ indnu)%string) (XDiv (XMul (XQ 8 1) (XMul XPi XPi)) (XMul e e))));
     ((("F" ++ ind)%string ++ "nup")%string,
       (XDiv (XGet ("CR_" ++ indnu)%string) (XDiv (XMul (XQ 8 1) (XMul XPi XPi)) (XMul e e))));
     ((("F" ++ ind)%string ++ "T")%string,
       (XQ 0 1));
     ((("F" ++ ind)%string ++ "T5")%string,
       (XQ 0 1))] in
  let prefactor := (XDiv (XDiv (XDiv (XRt (XQ 2 1)) (XPar "GF")) xi) (XQ 4 1)) in
  Ok (div_all dic prefactor).

(** Fierz_to_EOS_lep, wet.py 674-698 *)
Definition Fierz_to_EOS_lep (ddll : string) : res tmpl :=
  let Vtb := (XV F3 F3) in
  let Vts := (XV F3 F2) in
  let ind := (replace (replace ddll "l_" "") "nu_" "") in
  let ind2 := (slice (Some (2)%Z) None (replace (replace ddll "l_" "") "nu_" "")) in
  let e := (XRt (XMul (XMul (XQ 4 1) XPi) (XPar "alpha_e"))) in
  let dic :=
    [((("b->s" ++ ind2)%string ++ "::c9")%string,
       (XMul (XDiv (XMul (XQ 16 1) (XMul XPi XPi)) (XMul e e)) (XGet (("F" ++ ind)%string ++ "9")%string)));
     ((("b->s" ++ ind2)%string ++ "::c9'")%string,
       (XMul (XDiv (XMul (XQ 16 1) (XMul XPi XPi)) (XMul e e)) (XGet (("F" ++ ind)%string ++ "9p")%string)));
     ((("b->s" ++ ind2)%string ++ "::c10")%string,
       (XMul (XDiv (XMul (XQ 16 1) (XMul XPi XPi)) (XMul e e)) (XGet (("F" ++ ind)%string ++ "10")%string)));
     ((("b->s" ++ ind2)%string ++ "::c10'")%string,
       (XMul (XDiv (XMul (XQ 16 1) (XMul XPi XPi)) (XMul e e)) (XGet (("F" ++ ind)%string ++ "10p")%string)));
     ((("b->s" ++ ind2)%string ++ "::cS")%string,
       (XMul (XDiv (XMul (XQ 16 1) (XMul XPi XPi)) (XMul e e)) (XGet (("F" ++ ind)%string ++ "S")%string)));
     ((("b->s" ++ ind2)%string ++ "::cS'")%string,
       (XMul (XDiv (XMul (XQ 16 1) (XMul XPi XPi)) (XMul e e)) (XGet (("F" ++ ind)%string ++ "Sp")%string)));
     ((("b->s" ++ ind2)%string ++ "::cP")%string,
       (XMul (XDiv (XMul (XQ 16 1) (XMul XPi XPi)) (XMul e e)) (XGet (("F" ++ ind)%string ++ "P")%string)));
     ((("b->s" ++ ind2)%string ++ "::cP'")%string,
       (XMul (XDiv (XMul (XQ 16 1) (XMul XPi XPi)) (XMul e e)) (XGet (("F" ++ ind)%string ++ "Pp")%string)));
     ((("b->s" ++ ind2)%string ++ "::cT")%string,
       (XMul (XDiv (XMul (XQ 16 1) (XMul XPi XPi)) (XMul e e)) (XGet (("F" ++ ind)%string ++ "T")%string)));
     ((("b->s" ++ ind2)%string ++ "::cT5")%string,
       (XMul (XDiv (XMul (XQ 16 1) (XMul XPi XPi)) (XMul e e)) (XGet (("F" ++ ind)%string ++ "T5")%string)))] in
  let prefactor := (XDiv (XDiv (XDiv (XDiv (XRt (XQ 2 1)) (XPar "GF")) Vtb) (XConj Vts)) (XQ 4 1)) in
  Ok (mul_all prefactor dic).

(** JMS_to_FormFlavor_lep, wet.py 700-723 *)
Definition JMS_to_FormFlavor_lep (dd : string) : res tmpl :=
  let! b_ := flav dflav (ch 0 dd) in
  let! s_ := flav dflav (ch 1 dd) in
  Ok [((("CVLL_" ++ dd)%string ++ "mm")%string,
       (XArr "VedLL" [F2; F2; s_; b_]));
     ((("CVRR_" ++ dd)%string ++ "mm")%string,
       (XArr "VedRR" [F2; F2; s_; b_]));
     ((("CVLR_" ++ dd)%string ++ "mm")%string,
       (XArr "VdeLR" [s_; b_; F2; F2]));
     ((("CVRL_" ++ dd)%string ++ "mm")%string,
       (XArr "VedLR" [F2; F2; s_; b_]));
     ((("CSLL_" ++ dd)%string ++ "mm")%string,
       (XConj (XArr "SedRR" [F2; F2; b_; s_])));
     ((("CSRR_" ++ dd)%string ++ "mm")%string,
       (XArr "SedRR" [F2; F2; s_; b_]));
     ((("CSLR_" ++ dd)%string ++ "mm")%string,
       (XArr "SedRL" [F2; F2; s_; b_]));
     ((("CSRL_" ++ dd)%string ++ "mm")%string,
       (XConj (XArr "SedRL" [F2; F2; b_; s_])));
     ((("CTLL_" ++ dd)%string ++ "mm")%string,
       (XConj (XArr "TedRR" [F2; F2; b_; s_])));
     ((("CTRR_" ++ dd)%string ++ "mm")%string,
       (XArr "TedRR" [F2; F2; s_; b_]));
     ("CVLL_sdnn",
       (XAdd (XAdd (XMul (XQ (1) 3) (XArr "VnudLL" [F1; F1; (fl_pred s_); s_])) (XMul (XQ (1) 3) (XArr "VnudLL" [F2; F2; (fl_pred s_); s_]))) (XMul (XQ (1) 3) (XArr "VnudLL" [F3; F3; (fl_pred s_); s_]))));
     ("CVRL_sdnn",
       (XAdd (XAdd (XMul (XQ (1) 3) (XArr "VnudLR" [F1; F1; (fl_pred s_); s_])) (XMul (XQ (1) 3) (XArr "VnudLR" [F2; F2; (fl_pred s_); s_]))) (XMul (XQ (1) 3) (XArr "VnudLR" [F3; F3; (fl_pred s_); s_]))))].

(** JMS_to_Fierz_chrom, wet.py 726-736 *)
Definition JMS_to_Fierz_chrom (dd : string) : res tmpl :=
  let! s_ := flav dflav (ch 0 dd) in
  let! b_ := flav dflav (ch 1 dd) in
  Ok [(("F7gamma" ++ dd)%string,
       (XArr "dgamma" [s_; b_]));
     (("F8g" ++ dd)%string,
       (XArr "dG" [s_; b_]));
     (("F7pgamma" ++ dd)%string,
       (XConj (XArr "dgamma" [b_; s_])));
     (("F8pg" ++ dd)%string,
       (XConj (XArr "dG" [b_; s_])))].

(** Fierz_to_Bern_chrom, wet.py 739-750 *)
Definition Fierz_to_Bern_chrom (dd : string) : res tmpl :=
  let e := (XRt (XMul (XMul (XQ 4 1) XPi) (XPar "alpha_e"))) in
  let gs := (XRt (XMul (XMul (XQ 4 1) XPi) (XPar "alpha_s"))) in
  let mb := (XPar "m_b") in
  Ok [(("7gamma" ++ dd)%string,
       (XMul (XDiv (XDiv (XMul gs gs) e) mb) (XGet ("F7gamma" ++ dd)%string)));
     (("8g" ++ dd)%string,
       (XMul (XDiv gs mb) (XGet ("F8g" ++ dd)%string)));
     (("7pgamma" ++ dd)%string,
       (XMul (XDiv (XDiv (XMul gs gs) e) mb) (XGet ("F7pgamma" ++ dd)%string)));
     (("8pg" ++ dd)%string,
       (XMul (XDiv gs mb) (XGet ("F8pg" ++ dd)%string)))].

(** Bern_to_Fierz_chrom, wet.py 753-764 *)
Definition Bern_to_Fierz_chrom (dd : string) : res tmpl :=
  let e := (XRt (XMul (XMul (XQ 4 1) XPi) (XPar "alpha_e"))) in
  let gs := (XRt (XMul (XMul (XQ 4 1) XPi) (XPar "alpha_s"))) in
  let mb := (XPar "m_b") in
  Ok [(("F7gamma" ++ dd)%string,
       (XDiv (XGet ("7gamma" ++ dd)%string) (XDiv (XDiv (XMul gs gs) e) mb)));
     (("F8g" ++ dd)%string,
       (XDiv (XGet ("8g" ++ dd)%string) (XDiv gs mb)));
     (("F7pgamma" ++ dd)%string,
       (XDiv (XGet ("7pgamma" ++ dd)%string) (XDiv (XDiv (XMul gs gs) e) mb)));
     (("F8pg" ++ dd)%string,
       (XDiv (XGet ("8pg" ++ dd)%string) (XDiv gs mb)))].

(** Fierz_to_Flavio_chrom, wet.py 767-791 *)
Definition Fierz_to_Flavio_chrom (dd : string) : res tmpl :=
  let! xi := (if String.eqb dd "sb" then Ok (XMul (XV F3 F3) (XConj (XV F3 F2))) else if String.eqb dd "db" then Ok (XMul (XV F3 F3) (XConj (XV F3 F1))) else if String.eqb dd "ds" then Ok (XMul (XV F3 F2) (XConj (XV F3 F1))) else Err ValueError) in
  let ddfl := (rev_str dd) in
  let e := (XRt (XMul (XMul (XQ 4 1) XPi) (XPar "alpha_e"))) in
  let gs := (XRt (XMul (XMul (XQ 4 1) XPi) (XPar "alpha_s"))) in
  let mb := (XPar "m_b") in
  let dic :=
    [(("C7_" ++ ddfl)%string,
       (XMul (XDiv (XDiv (XMul (XQ 16 1) (XMul XPi XPi)) e) mb) (XGet ("F7gamma" ++ dd)%string)));
     (("C8_" ++ ddfl)%string,
       (XMul (XDiv (XDiv (XMul (XQ 16 1) (XMul XPi XPi)) gs) mb) (XGet ("F8g" ++ dd)%string)));
     (("C7p_" ++ ddfl)%string,
       (XMul (XDiv (XDiv (XMul (XQ 16 1) (XMul XPi XPi)) e) mb) (XGet ("F7pgamma" ++ dd)%string)));
     (("C8p_" ++ ddfl)%string,
       (XMul (XDiv (XDiv (XMul (XQ 16 1) (XMul XPi XPi)) gs) mb) (XGet ("F8pg" ++ dd)%string)))] in
  let prefactor := (XDiv (XDiv (XDiv (XRt (XQ 2 1)) (XPar "GF")) xi) (XQ 4 1)) in
  Ok (mul_all prefactor dic).

(** Flavio_to_Fierz_chrom, wet.py 794-818 *)
Definition Flavio_to_Fierz_chrom (dd : string) : res tmpl :=
  let! xi := (if String.eqb dd "sb" then Ok (XMul (XV F3 F3) (XConj (XV F3 F2))) else if String.eqb dd "db" then Ok (XMul (XV F3 F3) (XConj (XV F3 F1))) else if String.eqb dd "ds" then Ok (XMul (XV F3 F2) (XConj (XV F3 F1))) else Err ValueError) in
  let ddfl := (rev_str dd) in
  let e := (XRt (XMul (XMul (XQ 4 1) XPi) (XPar "alpha_e"))) in
  let gs := (XRt (XMul (XMul (XQ 4 1) XPi) (XPar "alpha_s"))) in
  let mb := (XPar "m_b") in
  let dic :=
    [(("F7gamma" ++ dd)%string,
       (XDiv (XGet ("C7_" ++ ddfl)%string) (XDiv (XDiv (XMul (XQ 16 1) (XMul XPi XPi)) e) mb)));
     (("F8g" ++ dd)%string,
       (XDiv (XGet ("C8_" ++ ddfl)%string) (XDiv (XDiv (XMul (XQ 16 1) (XMul XPi XPi)) gs) mb)));
     (("F7pgamma" ++ dd)%string,
       (XDiv (XGet ("C7p_" ++ ddfl)%string) (XDiv (XDiv (XMul (XQ 16 1) (XMul XPi XPi)) e) mb)));
     (("F8pg" ++ dd)%string,
       (XDiv (XGet ("C8p_" ++ ddfl)%string) (XDiv (XDiv (XMul (XQ 16 1) (XMul XPi XPi)) gs) mb)))] in
  let prefactor := (XDiv (XDiv (XDiv (XRt (XQ 2 1)) (XPar "GF")) xi) (XQ 4 1)) in
  Ok (div_all dic prefactor).

(** Fierz_to_EOS_chrom, wet.py 821-846 *)
Definition Fierz_to_EOS_chrom (dd : string) : res tmpl :=
  let Vtb := (XV F3 F3) in
  let Vts := (XV F3 F2) in
  let e := (XRt (XMul (XMul (XQ 4 1) XPi) (XPar "alpha_e"))) in
  let gs := (XRt (XMul (XMul (XQ 4 1) XPi) (XPar "alpha_s"))) in
  let mb := (XPar "m_b") in
  let ms := (XPar "m_s") in
  let dic :=
    [("b->s::c7",
       (XSub (XDiv (XMul (XDiv (XMul (XMul (XQ 16 1) (XMul XPi XPi)) mb) e) (XGet ("F7gamma" ++ dd)%string)) (XSub (XMul mb mb) (XMul ms ms))) (XDiv (XMul (XDiv (XMul (XMul (XQ 16 1) (XMul XPi XPi)) ms) e) (XGet ("F7pgamma" ++ dd)%string)) (XSub (XMul mb mb) (XMul ms ms)))));
     ("b->s::c7'",
       (XAdd (XDiv (XMul (XDiv (XMul (XMul (XQ (-16) 1) (XMul XPi XPi)) ms) e) (XGet ("F7gamma" ++ dd)%string)) (XSub (XMul mb mb) (XMul ms ms))) (XDiv (XMul (XDiv (XMul (XMul (XQ 16 1) (XMul XPi XPi)) mb) e) (XGet ("F7pgamma" ++ dd)%string)) (XSub (XMul mb mb) (XMul ms ms)))));
     ("b->s::c8",
       (XSub (XDiv (XMul (XDiv (XMul (XMul (XQ 16 1) (XMul XPi XPi)) mb) gs) (XGet ("F8g" ++ dd)%string)) (XSub (XMul mb mb) (XMul ms ms))) (XDiv (XMul (XDiv (XMul (XMul (XQ 16 1) (XMul XPi XPi)) ms) gs) (XGet ("F8pg" ++ dd)%string)) (XSub (XMul mb mb) (XMul ms ms)))));
     ("b->s::c8'",
       (XAdd (XDiv (XMul (XDiv (XMul (XMul (XQ (-16) 1) (XMul XPi XPi)) ms) gs) (XGet ("F8g" ++ dd)%string)) (XSub (XMul mb mb) (XMul ms ms))) (XDiv (XMul (XDiv (XMul (XMul (XQ 16 1) (XMul XPi XPi)) mb) gs) (XGet ("F8pg" ++ dd)%string)) (XSub (XMul mb mb) (XMul ms ms)))))] in
  let prefactor := (XDiv (XDiv (XDiv (XDiv (XRt (XQ 2 1)) (XPar "GF")) Vtb) (XConj Vts)) (XQ 4 1)) in
  Ok (mul_all prefactor dic).

(** JMS_to_FormFlavor_chrom, wet.py 849-880 *)
Definition JMS_to_FormFlavor_chrom (qq : string) : res tmpl :=
  let e := (XRt (XMul (XMul (XQ 4 1) XPi) (XPar "alpha_e"))) in
  let gs := (XRt (XMul (XMul (XQ 4 1) XPi) (XPar "alpha_s"))) in
  if dmem dflav (ch 0 qq) then
    let! s_ := flav dflav (ch 0 qq) in
    let! b_ := flav dflav (ch 1 qq) in
    Ok [(("CAR_" ++ qq)%string,
         (XDiv (XArr "dgamma" [s_; b_]) e));
       (("CGR_" ++ qq)%string,
         (XDiv (XArr "dG" [s_; b_]) gs));
       (("CAL_" ++ qq)%string,
         (XDiv (XConj (XArr "dgamma" [b_; s_])) e));
       (("CGL_" ++ qq)%string,
         (XDiv (XConj (XArr "dG" [b_; s_])) gs))]
  else
  if dmem llflav (ch 0 qq) then
    let! l1_ := flav llflav (ch 0 qq) in
    let! l2_ := flav llflav (ch 1 qq) in
    Ok [(("CAR_" ++ qq)%string,
         (XDiv (XArr "egamma" [l1_; l2_]) e));
       (("CAL_" ++ qq)%string,
         (XDiv (XConj (XArr "egamma" [l2_; l1_])) gs))]
  else
  if dmem uflav (ch 0 qq) then
    let! u_ := flav uflav (ch 0 qq) in
    let! c_ := flav uflav (ch 1 qq) in
    Ok [(("CAR_" ++ qq)%string,
         (XDiv (XArr "ugamma" [u_; c_]) e));
       (("CGR_" ++ qq)%string,
         (XDiv (XArr "uG" [u_; c_]) gs));
       (("CAL_" ++ qq)%string,
         (XDiv (XConj (XArr "ugamma" [c_; u_])) e));
       (("CGL_" ++ qq)%string,
         (XDiv (XConj (XArr "uG" [c_; u_])) gs))]
  else
  Err ValueError (* returns a string, which dict.update rejects *).
