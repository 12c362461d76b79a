(** The value of every matched coefficient, in terms of coefficient dictionaries. *)
From Coq Require Import String List Bool Arith Reals Lra Psatz.
From Verif Require Import PyBase PyDict Cplx Tensor SmeftSyntax SmeftTab Wc Params Smeft SmeftSymm SmeftSymmFacts SmeftSpec SmeftNames SmeftRot SmeftWarsaw SmeftIll SmeftMass
  MatchOps MatchTab Match MatchFacts MatchSpec MatchRot MatchThm MatchSm MatchLin MatchWarsaw MatchGf MatchExch MatchMix
  WetExpr Wet WetJms WetNf WetSpec WetChk WetThm MatchWet MatchEx MatchUser.
Import ListNotations.
Open Scope string_scope.
Open Scope list_scope.
Open Scope R_scope.
Lemma phie_arrays : match symm1 "phie" (array_in [("phie_11", C1)] "phie" Sh2) with A2 m => m F1 F1 = C1 | _ => False end.
Proof. reflexivity. Qed.
Lemma VnueLR_named : match_shape "VnueLR" = Some Sh4 /\ ~ In "VnueLR" rd_names.
Proof. split; [|apply (proj1 (mem_notIn _ "VnueLR" rd_names))]; vm_compute; reflexivity. Qed.
#[local] Opaque WC_keys match_tab C_keys_shape.
#[local] Opaque JMS_to_Bern_prog JMS_to_flavio_prog JMS_to_FormFlavor_prog JMS_to_EOS_prog Bern_to_flavio_prog flavio_to_Bern_prog.
#[local] Opaque nJB nJF nJX nJE nBF nFB.

Section Val.
Variable ckm_tree : R -> R -> R -> R -> mat.
Variables (J : list string) (input : option params).
Let p := merge_params input.
Let V := ckm_of ckm_tree p.
Definition value_of (d : dict string C) (op : string) : arr :=
  match match_shape op with Some sh => match_value p (coefficients d) op sh | None => A0 C0 end.
Lemma val_get d o c w op v : match_all ckm_tree J d input = Ok o -> read_smeft d = Ok c -> match_all_array (add_missing c) p = Ok w -> dget w op = Some v ->
  v = value_of d op.
Proof.
  intros M R0 E D. destruct (match_exch _ _ _ _ _ (add_missing_proper c (read_proper d c R0)) E D) as (_ & s & Ms & Ev).
  unfold value_of, coefficients. rewrite Ms, R0. exact Ev.
Qed.
Lemma value_num d o op s y : match_all ckm_tree J d input = Ok o -> dget jms_slots op = Some s -> ~ In op unrotated -> In (cname op y) J ->
  length y = length s -> num_of o (cname op y) = entry (new_downs V s (value_of d op)) y.
Proof.
  intros M S Nu I Ly. destruct (match_inv _ _ _ _ _ M) as (c & w & R0 & Mw & _).
  destruct (matched_inv _ _ _ _ Mw) as (w0 & M0 & Rd & _). destruct (slots_shape op s S) as [In0 Sh].
  assert (exists v, dget w0 op = Some v) as (v & D).
  { destruct (dget w0 op) as [v|] eqn:D; eauto. exfalso. apply dget_None in D. apply D. rewrite (match_array_keys _ _ _ M0). exact In0. }
  pose proof (rotate_down_spec _ _ _ _ _ _ Rd S D Nu) as D'. rewrite (val_get d o c w0 op v M R0 M0 D) in D'.
  apply (match_num ckm_tree J d input o c w op _ y M R0 Mw D' I).
  destruct Sh as [[Z Ln]|[Z Ln]]; [left|right]; split; congruence.
Qed.
Lemma value_rest d o op y : match_all ckm_tree J d input = Ok o -> In op match_names -> ~ In op rd_names -> In (cname op y) J ->
  (match_shape op = Some Sh4 /\ length y = 4%nat \/ match_shape op = Some Sh2 /\ length y = 2%nat) -> num_of o (cname op y) = entry (value_of d op) y.
Proof.
  intros M In0 Nu I Sh. destruct (match_inv _ _ _ _ _ M) as (c & w & R0 & Mw & _).
  destruct (matched_inv _ _ _ _ Mw) as (w0 & M0 & Rd & _).
  assert (exists v, dget w0 op = Some v) as (v & D).
  { destruct (dget w0 op) as [v|] eqn:D; eauto. exfalso. apply dget_None in D. apply D. rewrite (match_array_keys _ _ _ M0). exact In0. }
  pose proof D as D'. rewrite <- (rotate_down_rest _ _ _ _ Rd Nu) in D'. rewrite (val_get d o c w0 op v M R0 M0 D) in D'.
  exact (match_num ckm_tree J d input o c w op _ y M R0 Mw D' I Sh).
Qed.
End Val.
(** ** When the matching is defined *)
Lemma weak_as A p : proper A -> phiWB A = 0 -> let q := dset p "GF" (true_GF A p) in
  weak A p (vT A p) = weak nothing q (vT nothing q) /\ forall k, with_gz A k = with_gz nothing k.
Proof.
  intros P H q.
  assert (phiWB nothing = 0) as H0 by reflexivity.
  assert (vT A p = vT nothing q) as ->.
  { unfold vT. rewrite (Rabs_re _ (gfx_real A p P)). fold (bare_GF A p). rewrite <- true_bare.
    assert (gfx nothing q = RtoC (true_GF A p)) as ->.
    { unfold gfx, q, param. rewrite dget_dset. change (keqb "GF" "GF") with true. cbv iota. unfold nothing, g4, g2. cbn [dget]. unfold tzero, mzero. ring. }
    rewrite Cabs_R. reflexivity. }
  assert (forall k, k <> "GF" -> param q k = param p k) as Q.
  { intros k N. unfold q, param. rewrite dget_dset. destruct (keqb "GF" k) eqn:E; [apply keqb_eq in E; congruence|reflexivity]. }
  split.
  - unfold weak. rewrite (Q "alpha_e") by discriminate.
    assert (g2b q (vT nothing q) = g2b p (vT nothing q)) as -> by (unfold g2b; rewrite (Q "m_W") by discriminate; reflexivity).
    assert (forall v, eps A v = eps nothing v) as Ee by (intros v; unfold eps; rewrite H, H0; reflexivity).
    rewrite Ee, H, H0. reflexivity.
  - intros k. unfold with_gz. rewrite H, H0. reflexivity.
Qed.
Lemma nothing_sm p : sm_like nothing p.
Proof. apply blank_sm. intros o w D. discriminate D. Qed.
Definition with_GF (p : params) (G : R) : params := dset p "GF" G.
Lemma match_array_ok A p : proper A -> phiWB A = 0 ->
  ((exists w, match_all_array A p = Ok w) <-> sm_ok p /\ sm_ok (with_GF p (true_GF A p))).
Proof.
  intros P H. destruct (weak_as A p P H) as [W Z]. split.
  - intros (w & E). split; [exact (match_array_sm _ _ _ E)|]. unfold match_all_array in E.
    destruct (weak A p (vT A p)) as [k|] eqn:Wk; [|discriminate]. cbn [bind] in E.
    destruct (weak (dmap azero A) p (vT (dmap azero A) p)) as [k0|]; [|discriminate]. cbn [bind] in E.
    destruct (with_gz A k) as [k'|] eqn:Zk; [|discriminate]. cbn [bind] in E.
    destruct (Req_EM_T (param p "m_Z") 0) as [|Nz]; [discriminate|].
    apply (weak_sm_only nothing _ k k' (nothing_sm _)); [symmetry; exact W|rewrite <- Z; exact Zk|].
    unfold param, with_GF. rewrite dget_dset. exact Nz.
  - intros [S S']. unfold match_all_array. destruct (weak_sm nothing _ (nothing_sm _) S') as (k & Wk & Zk).
    unfold with_GF in Wk. rewrite <- W in Wk. rewrite Wk. cbn [bind].
    destruct (weak_sm (dmap azero A) p (blank_sm _ _ (azero_blank A)) S) as (k0 & -> & Zk0). cbn [bind]. rewrite Z, Zk. cbn [bind].
    destruct (Req_EM_T (param p "m_Z") 0) as [E|_]; [destruct S as (_ & N & _); contradiction|]. rewrite Zk0. cbn [bind]. eauto.
Qed.
Lemma match_defined ckm_tree J d input : let p := merge_params input in let A := coefficients d in good_dict d -> phiWB A = 0 ->
  ((exists o, match_all ckm_tree J d input = Ok o) <-> sm_ok p /\ sm_ok (with_GF p (true_GF A p))).
Proof.
  intros p A G H. destruct (read_good d G) as (c & R0). assert (A = add_missing c) as EA by (unfold A, coefficients; rewrite R0; reflexivity).
  pose proof (add_missing_proper c (read_proper d c R0)) as P. rewrite <- EA in P. rewrite <- (match_array_ok A p P H). split.
  - intros (o & M). destruct (match_inv _ _ _ _ _ M) as (c' & w & R1 & Mw & _). assert (c' = c) as -> by congruence.
    destruct (matched_inv _ _ _ _ Mw) as (w0 & M0 & _). exists w0. rewrite EA. exact M0.
  - intros (w0 & M0). rewrite EA in M0. unfold match_all. rewrite R0. cbn [bind].
    destruct (matched_ok ckm_tree p c w0 M0) as (w & E). fold p. rewrite E. cbn [bind]. eauto.
Qed.

(** ** A shift of the coupling of the Z to right-handed electrons *)
Definition phie_ex : dict string C := [("phie_11", C1)].
Lemma phie_good : good_dict phie_ex.
Proof.
  split; [repeat constructor; simpl; tauto|]. intros k [<-|[]]. exists "phie", Sh2, [F1; F1].
  split; [|split; [|split]]; try reflexivity. apply idx2_in.
Qed.
Lemma phie_coeffs : let A := coefficients phie_ex in
  g2 A "phie" F1 F1 = C1 /\ g2 A "phil1" = mzero /\ g2 A "phil3" = mzero /\ g4 A "ll" = tzero /\ g4 A "le" = tzero /\ phiWB A = 0.
Proof.
  destruct (read_good _ phie_good) as (c & E). unfold coefficients. rewrite E. cbv zeta.
  assert (forall op s, op <> "phie" -> no_us op = true -> op_shape op = Some s -> dget (add_missing c) op = Some (zeros s) \/ dget (add_missing c) op = None) as H.
  { intros op s N P S. apply (read_zero phie_ex c op s phie_good E S). intros x. apply one_name. intros K. apply N.
    apply (f_equal name_part) in K. rewrite name_part_sname in K by auto. exact K. }
  assert (match dget (add_missing c) "phie" with Some (A2 m) => m F1 F1 = C1 | _ => False end) as H3.
  { rewrite add_missing_get, (read_get _ _ _ phie_good E).
    assert (op_shape "phie" = Some Sh2) as -> by reflexivity. assert (is_wc "phie" = true) as -> by reflexivity.
    assert (touched phie_ex "phie" = true) as -> by reflexivity. cbn [andb]. exact phie_arrays. }
  unfold g2, g4, phiWB, g0. destruct (dget (add_missing c) "phie") as [[|m|]|]; try contradiction. split; auto. repeat split.
  - destruct (H "phil1" Sh2) as [-> | ->]; reflexivity || discriminate.
  - destruct (H "phil3" Sh2) as [-> | ->]; reflexivity || discriminate.
  - destruct (H "ll" Sh4) as [-> | ->]; reflexivity || discriminate.
  - destruct (H "le" Sh4) as [-> | ->]; reflexivity || discriminate.
  - destruct (H "phiWB" Sh0) as [-> | ->]; reflexivity || discriminate.
Qed.
Lemma phie_case ckm_tree J : In "VnueLR_1111" J -> exists o x, match_all ckm_tree J phie_ex None = Ok o /\
  num_of o "VnueLR_1111" = RtoC x /\ 0 < x.
Proof.
  intros I. destruct phie_coeffs as (Q1 & Q2 & Q3 & Q4 & Q5 & Q6). destruct (read_good _ phie_good) as (c & E).
  assert (coefficients phie_ex = add_missing c) as Ec by (unfold coefficients; rewrite E; reflexivity).
  set (p := default_parameters).
  assert (gfx (coefficients phie_ex) p = RtoC (param p "GF")) as G.
  { unfold gfx. rewrite Q3, Q4. unfold tzero, mzero. ring. }
  destruct (match_like_ok ckm_tree J phie_ex None c default_sm E) as (o & M); [rewrite <- Ec; exact (conj G Q6)|].
  destruct VnueLR_named as [Sh Nr].
  assert (true_GF (coefficients phie_ex) p = param p "GF") as EG.
  { rewrite true_bare. unfold bare_GF. rewrite G. reflexivity. }
  set (x := e_Z (coup_ew p (param p "GF") 0)). set (v := vev2 (param p "GF")).
  exists o, (x * (v / 4)). split; auto.
  change "VnueLR_1111" with (cname "VnueLR" [F1; F1; F1; F1]) in I |- *.
  assert (In "VnueLR" match_names) as Imn.
  { exact (proj1 (slots_shape "VnueLR" _ eq_refl)). }
  rewrite (value_rest ckm_tree J None phie_ex o "VnueLR" [F1; F1; F1; F1] M Imn Nr I (or_introl (conj Sh eq_refl))).
  unfold value_of. rewrite Sh. change (merge_params None) with p. unfold match_value. rewrite EG, Q6.
  pose proof default_sm as S. change (merge_params None) with p in S. pose proof (sm_pos p S) as [Pe PD].
  assert (0 < v) as Pv. { unfold v, vev2. destruct S as (NG & _). pose proof sqrt2_pos. pose proof (Rabs_pos_lt _ NG). apply Rdiv_lt_0_compat; nra. }
  assert (vev p = sqrt v) as Vv by reflexivity.
  split.
  - cbn [tree exch arr_add asub]. change (look (fun _ : string -> Tensor.ten => tzero) (dget tree4 "VnueLR") (g4 (coefficients phie_ex))) with (g4 (coefficients phie_ex) "le").
    rewrite Q5. change (mem "VnueLR" octets) with false.
    change (look [] (dget jms_slots "VnueLR")) with (vec LH RH MatchSpec.Nu MatchSpec.Nu MatchSpec.El MatchSpec.El).
    unfold vec, exchange, z_exchange, w_exchange, w_cur, z_cur, z_shift, tadd, tsub. cbn [chirality_eqb fermion_eqb andb negb coloured entry].
    unfold SmeftSymm.of_ten. rewrite Q1, Q2, Q3. unfold nothing, g2, mzero, tzero. cbn [dget]. fold x. change (e_v2 (coup_ew p (param p "GF") 0)) with v.
    change (delta F1 F1) with C1. unfold isospin, electric. apply C_ext; unfold Cadd, Csub, Cneg, Cmul, RtoC, C0, C1, Re, Im; cbn [fst snd]; field.
  - assert (coup_g p (param p "GF") = sm_g2 p) as Eg by reflexivity. assert (coup_e p = sm_e p) as Ee by reflexivity.
    assert (0 < x); [|assert (0 < v / 4) by lra; apply Rmult_lt_0_compat; auto].
    unfold x, coup_ew, e_Z. rewrite Rmult_0_r, Eg, Ee. unfold sm_D in PD. rewrite mix0_gz by lra.
    assert (0 < sqrt (sm_g2 p ^ 2 - sm_e p ^ 2)) as Pd by (apply sqrt_lt_R0; lra).
    assert (sm_g2 p <> 0) as Ng by (intros Z; rewrite Z in PD; nra).
    destruct S as (_ & Nz & _). apply Rdiv_lt_0_compat; rewrite <- Rsqr_pow2; apply Rsqr_pos_lt; auto.
    unfold Rdiv. apply Rmult_integral_contrapositive_currified; [apply pow_nonzero; auto|apply Rinv_neq_0_compat; lra].
Qed.

(** ** The couplings of the Standard Model *)
Lemma couplings_sm p G : sm_ok (with_GF p G) ->
  let v2 := 1 / (sqrt 2 * Rabs G) in let s2 := PI * param p "alpha_e" * v2 / (param p "m_W" * param p "m_W") in
  coup_ew p G 0 = EW v2 s2 (4 * Rabs G / sqrt 2) (4 * (param p "m_W" * param p "m_W") / (v2 * (1 - s2) * (param p "m_Z" * param p "m_Z"))) /\
  coup_s p G 0 * coup_s p G 0 = s2 /\ coup_c p G 0 * coup_c p G 0 = 1 - s2 /\ (0 < param p "m_W" -> 0 < coup_s p G 0 /\ 0 < coup_c p G 0).
Proof.
  intros S v2 s2. assert (forall k, k <> "GF" -> param (with_GF p G) k = param p k) as Q.
  { intros k N. unfold with_GF, param. rewrite dget_dset. destruct (keqb "GF" k) eqn:E; [apply keqb_eq in E; congruence|reflexivity]. }
  assert (param (with_GF p G) "GF" = G) as QG by (unfold with_GF, param; rewrite dget_dset; change (keqb "GF" "GF") with true; reflexivity).
  pose proof (sm_pos _ S) as [Pe PD]. destruct S as (NG & Nz & Pa & Pw). rewrite (Q "m_Z") in Nz by discriminate.
  rewrite (Q "alpha_e") in Pa, Pw by discriminate. rewrite (Q "m_W") in Pw by discriminate. rewrite QG in NG, Pw.
  unfold sm_D, sm_g2, sm_e, vev in PD. rewrite QG, (Q "m_W"), (Q "alpha_e") in PD by discriminate. fold (vev2 G) in PD. fold (coup_g p G) in PD. fold (coup_e p) in PD.
  unfold sm_e in Pe. rewrite Q in Pe by discriminate. fold (coup_e p) in Pe.
  set (e := coup_e p) in *. set (g := coup_g p G) in *. set (w := param p "m_W") in *. set (z := param p "m_Z") in *. set (al := param p "alpha_e") in *.
  pose proof sqrt2_pos as S2. pose proof (Rabs_pos_lt _ NG) as AG. assert (sqrt 2 * sqrt 2 = 2) as SS by (apply sqrt_sqrt; lra).
  assert (0 < v2) as Pv by (unfold v2; apply Rdiv_lt_0_compat; nra). change (vev2 G) with v2 in *.
  assert (0 < sqrt v2) as Psv by (apply sqrt_lt_R0; auto). assert (sqrt v2 * sqrt v2 = v2) as Sv by (apply sqrt_sqrt; lra).
  assert (w <> 0) as Nw. { intros E. rewrite E in Pw. pose proof PI_RGT_0. nra. }
  assert (g <> 0) as Ng by (apply (m_g e g); lra).
  assert (g * g = 4 * (w * w) / v2) as Eg2. { unfold g, coup_g. fold w. change (vev2 G) with v2. rewrite <- Sv at 3. field. lra. }
  assert (e * e = 4 * PI * al) as Ee2. { unfold e, coup_e. fold al. apply sqrt_sqrt. pose proof PI_RGT_0. nra. }
  set (d := sqrt (g ^ 2 - e ^ 2)). assert (0 < d) as Pd by (apply sqrt_lt_R0; lra).
  assert (d * d = g * g - e * e) as Ed2. { unfold d. rewrite sqrt_sqrt by lra. ring. }
  assert (coup_s p G 0 = e / g) as Es. { unfold coup_s. rewrite Rmult_0_r. apply mix0_s; fold e g; lra. }
  assert (coup_c p G 0 = d / g) as Ec. { unfold coup_c. rewrite Rmult_0_r. apply mix0_c; fold e g; lra. }
  assert ((e / g) * (e / g) = s2) as E1.
  { transitivity (e * e / (g * g)); [field; auto|]. rewrite Ee2, Eg2. unfold s2. fold w. field. split; lra. }
  assert ((d / g) * (d / g) = 1 - s2) as E2. { rewrite <- E1. transitivity (d * d / (g * g)); [field; auto|]. rewrite Ed2. field. auto. }
  assert (0 < 1 - s2) as P1. { rewrite <- E2. assert (d / g <> 0) as N by (unfold Rdiv; apply Rmult_integral_contrapositive_currified; [lra|apply Rinv_neq_0_compat; auto]). nra. }
  rewrite Es, Ec. split; [|split; [exact E1|split; [exact E2|]]].
  - unfold coup_ew. rewrite Es. change (vev2 G) with v2. fold z. rewrite Rmult_0_r. fold e g. rewrite mix0_gz by lra. fold d. f_equal.
    + rewrite <- E1. ring.
    + transitivity (2 * (sqrt 2 * sqrt 2) * Rabs G / sqrt 2); [unfold v2; field; lra|]. rewrite SS. field. lra.
    + transitivity ((g * g) / ((d / g) * (d / g)) / (z * z)); [field; repeat split; lra|]. rewrite E2, Eg2. field. repeat split; lra.
  - intros Pw0. assert (0 < g) as Pg by (unfold g, coup_g; fold w; change (vev2 G) with v2; apply Rdiv_lt_0_compat; lra).
    split; apply Rdiv_lt_0_compat; auto.
Qed.
