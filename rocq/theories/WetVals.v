(** Values of single coefficients: EOS dipoles against flavio, formflavor dipoles and neutrinos. *)
From Coq Require Import String Ascii List Bool Arith ZArith QArith Qreals Reals Lra.
From Verif Require Import PyBase PyDict Cplx Tensor Wc Params Smeft SmeftNames WetExpr WetStr WetTab Wet WetJms WetNf WetSpec WetChk WetThm.
Import ListNotations.
Open Scope string_scope.
Open Scope list_scope.
Open Scope nat_scope.
#[local] Opaque Ceq_dec.

Definition rt4pi (a : string) : atom := ART (XMul (XMul (XQ 4 1) XPi) (XPar a)).
(** The normal forms of the dipoles: [op] is dgamma or dG, [a] the coupling. *)
Definition pre : list atom := [ART (XQ 2 1); APi; APi].
Definition eos_dip (op a : string) (prime : bool) : lform :=
  let den := [APar "GF"; AV F3 F3 false; AV F3 F2 true; AOp msq; rt4pi a] in
  if prime then [(DArr op [F3; F2] true, (4%Q, (pre ++ [APar "m_b"], den))); (DArr op [F2; F3] false, ((-4)%Q, (pre ++ [APar "m_s"], den)))]
  else [(DArr op [F3; F2] true, ((-4)%Q, (pre ++ [APar "m_s"], den))); (DArr op [F2; F3] false, (4%Q, (pre ++ [APar "m_b"], den)))].
Definition flavio_dip (op a : string) (prime : bool) : lform :=
  let den := [APar "GF"; AV F3 F3 false; AV F3 F2 true; rt4pi a; APar "m_b"] in
  [(if prime then DArr op [F3; F2] true else DArr op [F2; F3] false, (4%Q, (pre, den)))].
Definition dips : list (string * string * string * bool) :=
  [("7", "dgamma", "alpha_e", false); ("7", "dgamma", "alpha_e", true); ("8", "dG", "alpha_s", false); ("8", "dG", "alpha_s", true)].
Definition eos_name (n : string) (prime : bool) : string := ("b->s::c" ++ n ++ if prime then "'" else "")%string.
Definition flavio_name (n : string) (prime : bool) : string := ("C" ++ n ++ (if prime then "p" else "") ++ "_bs")%string.
Definition ff_dip : list (string * (string * idx * bool) * string) :=
  flat_map (fun xy => match xy with (s, i, j) =>
    [(("CAR_" ++ s)%string, ("dgamma", [i; j], false), "alpha_e"); (("CAL_" ++ s)%string, ("dgamma", [j; i], true), "alpha_e");
     (("CGR_" ++ s)%string, ("dG", [i; j], false), "alpha_s"); (("CGL_" ++ s)%string, ("dG", [j; i], true), "alpha_s")] end)
    [("sb", F2, F3); ("db", F1, F3); ("dd", F1, F1)] ++
  [("CAR_uu", ("ugamma", [F1; F1], false), "alpha_e"); ("CAL_uu", ("ugamma", [F1; F1], true), "alpha_e");
   ("CGR_uu", ("uG", [F1; F1], false), "alpha_s"); ("CGL_uu", ("uG", [F1; F1], true), "alpha_s")] ++
  flat_map (fun xy => match xy with (s, i, j) =>
    [(("CAR_" ++ s)%string, ("egamma", [i; j], false), "alpha_e"); (("CAL_" ++ s)%string, ("egamma", [j; i], true), "alpha_s")] end)
    [("em", F1, F2); ("et", F1, F3); ("mt", F2, F3)].
Definition dip_form (t : string * idx * bool) (a : string) : lform := match t with (op, x, b) => [(DArr op x b, (1%Q, ([], [rt4pi a])))] end.
Definition nn_form (op : string) : lform := map (fun i => (DArr op [i; i; F3; F1] false, (1 # 3, mone))) [F1; F2; F3].
Definition vals_ok : bool :=
  forallb (fun t => match t with (n, op, a, b) => leqb amE (getf nJF (flavio_name n b)) (flavio_dip op a b) end) dips &&
  forallb (fun t => match t with (k, t, a) => leqb amJ (getf nJX k) (dip_form t a) end) ff_dip &&
  (leqb amJ (getf nJX "CVLL_sdnn") (nn_form "VnudLL") && leqb amJ (getf nJX "CVRL_sdnn") (nn_form "VnudLR")).
Lemma chk_vals : vals_ok = true.
Proof. vm_cast_no_check (eq_refl true). Qed.
Lemma map_eq_at {A B} (f g : A -> B) l : map f l = map g l -> forall x, In x l -> f x = g x.
Proof. induction l as [|y l IH]; simpl; intros H x []; injection H; intros; subst; auto. Qed.
Lemma eos_forms : map (fun t => match t with (n, op, a, b) => getf nJE (eos_name n b) end) dips =
                  map (fun t => match t with (n, op, a, b) => eos_dip op a b end) dips.
Proof. vm_compute. reflexivity. Qed.
#[local] Opaque JMS_to_Bern_prog JMS_to_flavio_prog JMS_to_FormFlavor_prog JMS_to_EOS_prog Bern_to_flavio_prog flavio_to_Bern_prog.
#[local] Opaque nf nf_ok deqb leqb nJB nJF nJX nJE nBF nFB.

Section Vals.
Variable ckm_tree : R -> R -> R -> R -> mat.
Variable qcd_mb qcd_ms : R -> R -> R -> res R.
Variable qcd_as : R -> R -> res R.
Notation okp := (okp ckm_tree qcd_mb qcd_ms qcd_as).
Notation jenv := (jenv ckm_tree).
Notation outJ := (outJ ckm_tree).
Variables (J : list string) (scale : R) (input : option params) (p : params).
Hypothesis (GJ : good J) (GP : okp scale input p).
(** The entry of a completed array. *)
Definition value (keys : list string) (c : dict string C) (op : string) (x : idx) : C :=
  match entry_of keys c op x with Some z => z | None => C0 end.
Lemma value_arr c op x : jms_ix op x = true -> arr0 (jenv J c p) op x = value J c op x.
Proof. intros H. destruct GJ as [L Hc]. unfold value. rewrite (arr_entry ckm_tree J c p op x L Hc H). reflexivity. Qed.
Lemma par_eq s : In s used -> dget p s = Some (param p s).
Proof.
  intros I. destruct (amJ_ok ckm_tree qcd_mb qcd_ms qcd_as J scale input p GJ GP []) as (A & _). destruct (A s I) as (r & E).
  cbn [jenv WetNf.jenv e_par] in E. unfold param. rewrite E. reflexivity.
Qed.
Lemma rt_val c a : In a ["alpha_e"; "alpha_s"] -> aval (jenv J c p) (rt4pi a) = RtoC (sqrt (4 * PI * param p a)).
Proof.
  intros I. assert (In a used /\ 0 < param p a)%R as [U P].
  { destruct GP as (_ & _ & A & B & _). destruct I as [<-|[<-|[]]]; (split; [simpl; auto 6|assumption]). }
  unfold rt4pi, aval, sval, strip. cbn [eval jenv WetNf.jenv e_par bind lift2]. rewrite (par_eq a U). cbn [bind lift2]. unfold qc.
  assert (Cmul (Cmul (RtoC (4 / 1)) (RtoC PI)) (RtoC (param p a)) = RtoC (4 * PI * param p a)) as ->.
  { rewrite <- !RtoC_mul. f_equal. field. }
  cbn [Im Re RtoC fst snd]. destruct (Req_EM_T 0 0) as [_|N]; [|congruence].
  destruct (Rlt_dec (4 * PI * param p a) 0) as [N|_]; [|reflexivity].
  pose proof PI_RGT_0 as Q. pose proof (Rmult_lt_0_compat _ _ Q P) as Q2. lra.
Qed.
Lemma rt_nz c a : In a ["alpha_e"; "alpha_s"] -> aval (jenv J c p) (rt4pi a) <> C0.
Proof.
  intros I. rewrite rt_val by auto. intros E. apply (f_equal fst) in E. cbn [RtoC fst C0] in E. apply sqrt_eq_0 in E.
  - assert (0 < param p a)%R as P by (destruct GP as (_ & _ & A & B & _); destruct I as [<-|[<-|[]]]; auto).
    pose proof PI_RGT_0 as Q. pose proof (Rmult_lt_0_compat _ _ Q P) as Q2. lra.
  - assert (0 < param p a)%R as P by (destruct GP as (_ & _ & A & B & _); destruct I as [<-|[<-|[]]]; auto).
    pose proof PI_RGT_0 as Q. pose proof (Rmult_lt_0_compat _ _ Q P) as Q2. lra.
Qed.
Lemma msq_val c : aval (jenv J c p) (AOp msq) = RtoC (param p "m_b" * param p "m_b" - param p "m_s" * param p "m_s").
Proof.
  unfold aval, sval, msq, strip. cbn [eval jenv WetNf.jenv e_par]. rewrite (par_eq "m_b"), (par_eq "m_s") by (simpl; auto 6).
  cbn [bind lift2]. rewrite <- !RtoC_mul, <- RtoC_sub. reflexivity.
Qed.
Lemma eos_form n op a b : In (n, op, a, b) dips -> getf nJE (eos_name n b) = eos_dip op a b.
Proof.
  intros I. exact (map_eq_at _ _ _ eos_forms _ I).
Qed.
Lemma dip_fits op x : In op ["dgamma"; "dG"] -> In x [[F2; F3]; [F3; F2]] -> jms_ix op x = true.
Proof. intros [<-|[<-|[]]] [<-|[<-|[]]]; reflexivity. Qed.
Theorem eos_dipoles c n op a b : light p -> In (n, op, a, b) dips ->
  Cmul (RtoC (param p "m_b")) (num_of (outJ nJF J c p) (flavio_name n b)) =
  Cadd (Cmul (RtoC (param p "m_b")) (num_of (outJ nJE J c p) (eos_name n b)))
       (Cmul (RtoC (param p "m_s")) (num_of (outJ nJE J c p) (eos_name n (negb b)))).
Proof.
  intros M I. assert (In (n, op, a, negb b) dips) as I'.
  { destruct I as [E|[E|[E|[E|[]]]]]; injection E as <- <- <- <-; simpl; auto. }
  assert (In a ["alpha_e"; "alpha_s"]) as IA.
  { destruct I as [E|[E|[E|[E|[]]]]]; injection E as <- <- <- <-; simpl; auto. }
  unfold WetThm.outJ. rewrite !dget_dmap_lval, (eos_form n op a b I), (eos_form n op a (negb b) I').
  destruct (and3 _ _ _ chk_vals) as (V & _). rewrite forallb_forall in V. specialize (V _ I). cbv beta iota in V.
  rewrite (leqb_val amE _ _ _ (amE_ok ckm_tree qcd_mb qcd_ms qcd_as J scale input p GJ GP c M) V). clear V.
  destruct GP as (_ & N1 & _ & _ & N2 & N3). pose proof (rt_nz c a IA) as N4. pose proof (N3 F3 F3) as N5. pose proof (N3 F3 F2) as N6.
  assert (Csub (Cmul (RtoC (param p "m_b")) (RtoC (param p "m_b"))) (Cmul (RtoC (param p "m_s")) (RtoC (param p "m_s"))) <> C0) as N7.
  { rewrite <- !RtoC_mul, <- RtoC_sub. intros E. apply M. apply (f_equal fst) in E. cbn [RtoC fst C0] in E. lra. }
  apply RtoC_neq0 in N1. apply RtoC_neq0 in N2.
  assert (Cconj (e_ckm (jenv J c p) F3 F2) <> C0) as N6'.
  { intros E. apply N6. rewrite <- (Cconj_conj (ckm_of ckm_tree p F3 F2)). cbn [jenv WetNf.jenv e_ckm] in E. rewrite E. apply Cconj_0. }
  assert (forall q : Q, cfval (jenv J c p) (q, (pre, [APar "GF"; AV F3 F3 false; AV F3 F2 true; rt4pi a; APar "m_b"])) =
     Cmul (RtoC (Q2R q)) (Cdiv (prod (jenv J c p) pre) (Cmul (RtoC (param p "GF")) (Cmul (e_ckm (jenv J c p) F3 F3)
       (Cmul (Cconj (e_ckm (jenv J c p) F3 F2)) (Cmul (aval (jenv J c p) (rt4pi a)) (RtoC (param p "m_b")))))))) as E1.
  { intros q. unfold cfval, mval. cbn [fst snd]. f_equal. f_equal. cbn [prod aval cj]. change (e_par (jenv J c p)) with p. ring. }
  assert (forall (q : Q) m, cfval (jenv J c p) (q, (pre ++ [APar m], [APar "GF"; AV F3 F3 false; AV F3 F2 true; AOp msq; rt4pi a])) =
     Cmul (RtoC (Q2R q)) (Cdiv (Cmul (prod (jenv J c p) pre) (RtoC (param p m))) (Cmul (RtoC (param p "GF")) (Cmul (e_ckm (jenv J c p) F3 F3)
       (Cmul (Cconj (e_ckm (jenv J c p) F3 F2)) (Cmul (aval (jenv J c p) (AOp msq)) (aval (jenv J c p) (rt4pi a)))))))) as E2.
  { intros q m. unfold cfval, mval. cbn [fst snd]. rewrite prod_app. f_equal. f_equal; cbn [prod]; [change (aval (jenv J c p) (APar m)) with (RtoC (param p m)); ring|].
    change (aval (jenv J c p) (APar "GF")) with (RtoC (param p "GF")).
    change (aval (jenv J c p) (AV F3 F3 false)) with (e_ckm (jenv J c p) F3 F3).
    change (aval (jenv J c p) (AV F3 F2 true)) with (Cconj (e_ckm (jenv J c p) F3 F2)). ring. }
  unfold eos_dip, flavio_dip. destruct b; cbn [negb lval fst snd]; rewrite E1, !E2, msq_val, RtoC_sub, !RtoC_mul;
    replace (Q2R 4) with 4%R by (unfold Q2R; simpl; field); replace (Q2R (-4)) with (Ropp 4) by (unfold Q2R; simpl; field); rewrite (RtoC_opp 4);
    field; repeat split; auto; apply C1_neq_0.
Qed.
Theorem ff_dipole c k op x b a : In (k, (op, x, b), a) ff_dip ->
  num_of (outJ nJX J c p) k = Cdiv (cj b (value J c op x)) (RtoC (sqrt (4 * PI * param p a))).
Proof.
  intros I. destruct (and3 _ _ _ chk_vals) as (_ & V & _). rewrite forallb_forall in V. specialize (V _ I). cbv beta iota in V.
  unfold WetThm.outJ. rewrite dget_dmap_lval. rewrite (leqb_val amJ _ _ _ (amJ_ok ckm_tree qcd_mb qcd_ms qcd_as J scale input p GJ GP c) V).
  assert (jms_ix op x = true /\ In a ["alpha_e"; "alpha_s"]) as [F A].
  { clear - I. cbn in I. repeat (destruct I as [E|I]; [injection E as <- <- <- <- <-; split; [reflexivity|simpl; auto]|]). destruct I. }
  unfold dip_form. cbn [lval fst snd dtval]. rewrite value_arr by auto. unfold cfval, mval. cbn [fst snd prod]. rewrite rt_val by auto.
  pose proof (rt_nz c a A) as N. rewrite rt_val in N by auto. replace (Q2R 1) with 1%R by (unfold Q2R; simpl; field). change (RtoC 1) with C1. field. auto.
Qed.
Theorem ff_neutrinos c k op : In (k, op) [("CVLL_sdnn", "VnudLL"); ("CVRL_sdnn", "VnudLR")] ->
  num_of (outJ nJX J c p) k =
  Cdiv (Cadd (Cadd (value J c op [F1; F1; F3; F1]) (value J c op [F2; F2; F3; F1])) (value J c op [F3; F3; F3; F1])) (RtoC 3).
Proof.
  intros I. destruct (and3 _ _ _ chk_vals) as (_ & _ & V). apply andb_true_iff in V. destruct V as [V1 V2].
  assert (leqb amJ (getf nJX k) (nn_form op) = true) as V by (destruct I as [E|[E|[]]]; injection E as <- <-; assumption).
  unfold WetThm.outJ. rewrite dget_dmap_lval. rewrite (leqb_val amJ _ _ _ (amJ_ok ckm_tree qcd_mb qcd_ms qcd_as J scale input p GJ GP c) V).
  assert (forall i, jms_ix op [i; i; F3; F1] = true) as F by (intros i; destruct I as [E|[E|[]]]; injection E as <- <-; destruct i; reflexivity).
  unfold nn_form. cbn [map lval fst snd dtval cj]. rewrite !value_arr by auto. unfold cfval. cbn [fst snd]. rewrite mone_val.
  replace (Q2R (1 # 3)) with (/ 3)%R by (unfold Q2R; simpl; field). unfold Cdiv. rewrite <- RtoC_inv by lra. ring.
Qed.
End Vals.
