(** Muon decay: the Fermi constant is an input of the matching, so the coefficient that mediates
    muon decay in WET receives no New Physics at first order. *)
From Coq Require Import String List Bool Arith Reals Lra Psatz.
From Verif Require Import PyBase PyDict Cplx Tensor SmeftSyntax SmeftTab Wc Params Smeft SmeftSpec SmeftNames SmeftRot SmeftWarsaw SmeftIll
  MatchOps MatchTab Match MatchSpec MatchFacts MatchRot MatchThm MatchSm.
Import ListNotations.
Open Scope string_scope.
Open Scope list_scope.
Open Scope R_scope.
#[local] Opaque WC_keys C_keys_shape.

(** Fermi constant as it would be without the New Physics in muon decay *)
Definition bare_GF (A : arrays) (p : params) : R := Re (gfx A p).
Lemma conj_real z : z = Cconj z -> z = RtoC (Re z).
Proof. destruct z as [a b]. unfold Cconj, RtoC, Re. simpl. intros E. injection E as E. f_equal. lra. Qed.
Lemma gfx_real A p : proper A -> gfx A p = RtoC (bare_GF A p).
Proof.
  intros P. apply conj_real. unfold gfx. destruct (a_ll A P) as [Hl Xl]. pose proof (a_phil3 A P) as Hp.
  assert (g4 A "ll" F2 F1 F1 F2 = Cconj (g4 A "ll" F1 F2 F2 F1)) as El by apply Hl.
  pose proof (Hp F2 F2) as E2. pose proof (Hp F1 F1) as E1.
  rewrite El, !Cconj_sub, Cconj_mul, !Cconj_add, !Cconj_sub, !Cconj_neg, !Cconj_mul, !Cconj_R, Cconj_conj, <- E1, <- E2. ring.
Qed.
Lemma weak_inv A p v k k' : weak A p v = Ok k -> with_gz A k = Ok k' ->
  exists x, v = Some x /\ c_v k' = x /\ c_g2 k' = 2 * param p "m_W" / x /\ param p "m_W" <> 0.
Proof.
  unfold weak. cbv zeta. destruct (Rlt_dec _ 0); [discriminate|]. destruct (Rlt_dec _ 0) as [|L]; [discriminate|].
  destruct (Req_EM_T _ 0) as [|Z]; [discriminate|]. destruct (Req_EM_T _ 0); [discriminate|]. intros E.
  apply Ok_inj in E. subst k. unfold with_gz. destruct (Req_EM_T _ 0); [discriminate|]. intros E. apply Ok_inj in E. subst k'.
  cbn [c_v c_g2]. destruct v as [x|]; cbn [g2b fin] in *.
  - exists x. repeat split; auto. intros W. rewrite W in *.
    assert (2 * 0 / x = 0) as E by (unfold Rdiv; ring). rewrite E in *. nra.
  - nra.
Qed.
Lemma vT_inv A p x : proper A -> 0 < bare_GF A p -> vT A p = Some x -> x <> 0 /\ x ^ 2 = 1 / (sqrt 2 * bare_GF A p).
Proof.
  intros P G. unfold vT. rewrite (gfx_real A p P), Cabs_R, Rabs_right by lra. destruct (Req_EM_T _ 0); [discriminate|].
  intros E. injection E as <-. pose proof sqrt2_pos.
  assert (1 / sqrt 2 / bare_GF A p = 1 / (sqrt 2 * bare_GF A p)) as -> by (field; lra).
  assert (0 < 1 / (sqrt 2 * bare_GF A p)) as H1 by (apply Rdiv_lt_0_compat; nra).
  split; [apply Rgt_not_eq, sqrt_lt_R0; auto|]. apply pow2_sqrt. lra.
Qed.
Lemma muon_decay A p w : proper A -> 0 < bare_GF A p -> 0 < param p "GF" -> match_all_array A p = Ok w ->
  g2 A "phil1" F2 F1 = C0 -> g2 A "phil3" F2 F1 = C0 ->
  exists t, dget w "VnueLL" = Some (A4 t) /\
    t F2 F1 F1 F2 = (- (RtoC (sqrt 2 / bare_GF A p) * g2 A "phil3" F2 F2 * g2 A "phil3" F1 F1))%C.
Proof.
  intros P Gx G E Z1 Z3. unfold match_all_array in E.
  destruct (weak A p (vT A p)) as [k|] eqn:Wk; [|discriminate]. cbn [bind] in E.
  destruct (weak (dmap azero A) p (vT (dmap azero A) p)) as [k0|] eqn:Wk0; [|discriminate]. cbn [bind] in E.
  destruct (with_gz A k) as [k'|] eqn:Zk; [|discriminate]. cbn [bind] in E.
  destruct (Req_EM_T (param p "m_Z") 0); [discriminate|].
  destruct (with_gz (dmap azero A) k0) as [k0'|] eqn:Zk0; [|discriminate]. cbn [bind] in E. apply Ok_inj in E. subst w.
  rewrite (map_dget (fun kf => asub (snd kf k' p A) (snd kf k0' p (dmap azero A))) match_tab "VnueLL" m_VnueLL match_names_NoDup)
    by (unfold match_tab; cbn [In]; repeat (first [left; reflexivity|right])).
  cbn [snd]. unfold m_VnueLL. cbn [asub]. eexists. split; [reflexivity|].
  destruct (weak_inv _ _ _ _ _ Wk Zk) as (x & Vx & Kv & Kg & W). destruct (weak_inv _ _ _ _ _ Wk0 Zk0) as (x0 & Vx0 & Kv0 & Kg0 & _).
  destruct (vT_inv A p x P Gx Vx) as [Nx Sx].
  pose proof (azero_proper A P) as P0.
  assert (bare_GF (dmap azero A) p = param p "GF") as B0.
  { unfold bare_GF. rewrite (proj1 (blank_sm _ p (azero_blank A))). reflexivity. }
  destruct (vT_inv (dmap azero A) p x0 P0) as [Nx0 Sx0]; [rewrite B0; auto|auto|]. rewrite B0 in Sx0.
  unfold tsub, tadd, tscale, e_stpr, e_pt_rs, e_pr_st, wl, znu, zel, madd, msub, mscale, mconj.
  rewrite !(g2_blank (dmap azero A)), !(g4_blank (dmap azero A)) by apply azero_blank. unfold mzero, tzero.
  rewrite Z1, Z3.
  assert (meye F2 F1 = C0) as -> by reflexivity. assert (meye F2 F2 = C1) as -> by reflexivity. assert (meye F1 F1 = C1) as -> by reflexivity.
  pose proof (a_phil3 A P F1 F1) as H1. pose proof (a_phil3 A P F2 F2) as H2.
  apply conj_real in H1. apply conj_real in H2.
  set (a := Re (g2 A "phil3" F2 F2)) in *. set (b := Re (g2 A "phil3" F1 F1)) in *. rewrite H1, H2.
  set (l := (g4 A "ll" F2 F1 F1 F2 + g4 A "ll" F1 F2 F2 F1)%C).
  assert (l = RtoC (Re l)) as Hl.
  { apply conj_real. unfold l. rewrite Cconj_add. destruct (a_ll A P) as [Hl _].
    rewrite <- (Hl F1 F2 F2 F1), <- (Hl F2 F1 F1 F2). ring. }
  assert (bare_GF A p = param p "GF" - sqrt 2 / 4 * (- Re l + 2 * a + 2 * b)) as EG.
  { assert (RtoC (bare_GF A p) = RtoC (param p "GF" - sqrt 2 / 4 * (- Re l + 2 * a + 2 * b))) as X.
    { rewrite <- gfx_real by auto. unfold gfx. rewrite H1, H2.
      transitivity (RtoC (param p "GF") - RtoC (sqrt 2 / 4) * (- l + RtoC 2 * RtoC a + RtoC 2 * RtoC b))%C; [unfold l; ring|].
      rewrite Hl at 1. rewrite <- !RtoC_mul, <- RtoC_opp, <- !RtoC_add, <- RtoC_mul, <- RtoC_sub. reflexivity. }
    injection X as X. exact X. }
  rewrite Cconj_add, Cconj_mul, Cconj_1, !Cconj_R.
  rewrite Kv, Kg, Kv0, Kg0.
  transitivity (RtoC (Re l) - RtoC ((2 * param p "m_W" / x) ^ 2 / (2 * param p "m_W" ^ 2) * (1 + x ^ 2 * a) * (1 + x ^ 2 * b))
    + RtoC ((2 * param p "m_W" / x0) ^ 2 / (2 * param p "m_W" ^ 2)))%C.
  { rewrite <- Hl. unfold l. rewrite !RtoC_mul, !RtoC_add, !RtoC_mul, Cconj_add, Cconj_mul, Cconj_1, ?Cconj_0, ?Cconj_R. change (RtoC 1) with C1. ring. }
  assert ((2 * param p "m_W" / x) ^ 2 / (2 * param p "m_W" ^ 2) = 2 * sqrt 2 * bare_GF A p) as ->.
  { transitivity (2 / x ^ 2); [field; split; auto|]. rewrite Sx. pose proof sqrt2_pos. field. split; lra. }
  assert ((2 * param p "m_W" / x0) ^ 2 / (2 * param p "m_W" ^ 2) = 2 * sqrt 2 * param p "GF") as ->.
  { transitivity (2 / x0 ^ 2); [field; split; auto|]. rewrite Sx0. pose proof sqrt2_pos. field. split; lra. }
  rewrite Sx, <- RtoC_sub, <- RtoC_add, <- !RtoC_mul, <- RtoC_opp. f_equal.
  pose proof sqrt2_pos as S2. assert (sqrt 2 * sqrt 2 = 2) as Q2 by (apply sqrt_sqrt; lra).
  assert (2 * sqrt 2 * param p "GF" = 2 * sqrt 2 * bare_GF A p + (- Re l + 2 * a + 2 * b)) as ->.
  { rewrite EG. replace (2 * sqrt 2 * (param p "GF" - sqrt 2 / 4 * (- Re l + 2 * a + 2 * b)))
      with (2 * sqrt 2 * param p "GF" - sqrt 2 * sqrt 2 / 2 * (- Re l + 2 * a + 2 * b)) by field. rewrite Q2. field. }
  assert (sqrt 2 / bare_GF A p = 2 * (1 / (sqrt 2 * bare_GF A p))) as ->. { transitivity (sqrt 2 * sqrt 2 / (sqrt 2 * bare_GF A p)); [field; split; lra|]. rewrite Q2. unfold Rdiv. ring. }
  field. split; lra.
Qed.
