(** Couplings of W and Z in the matching, and the value of every matched coefficient. *)
From Coq Require Import String List Bool Arith Reals Lra Psatz FunctionalExtensionality.
From Verif Require Import PyBase PyDict Cplx Tensor SmeftSyntax SmeftTab Wc Params Smeft SmeftSpec SmeftNames SmeftRot SmeftWarsaw SmeftIll
  MatchOps MatchTab Match MatchSpec MatchFacts MatchRot MatchThm MatchSm MatchLin MatchGf MatchExch.
Import ListNotations.
Open Scope string_scope.
Open Scope list_scope.
Open Scope R_scope.
#[local] Opaque WC_keys C_keys_shape match_tab.

(** ** The couplings *)
(** GF as it would be measured without the New Physics in muon decay *)
Definition true_GF (A : arrays) (p : params) : R :=
  param p "GF" + sqrt 2 / 4 * Re (g4 A "ll" F2 F1 F1 F2 + g4 A "ll" F1 F2 F2 F1) - sqrt 2 / 2 * Re (g2 A "phil3" F1 F1 + g2 A "phil3" F2 F2).
Lemma true_bare A p : true_GF A p = bare_GF A p.
Proof. unfold true_GF, bare_GF, gfx, Re, Cadd, Csub, Cneg, Cmul, RtoC. cbn [fst snd]. field. Qed.
(** Jenkins, Manohar, Stoffer, section 2: charge [e] and coupling [g] of the W are fixed by alpha_e and
    m_W; [t] is v^2 C_phiWB.  Hypercharge coupling, sine and cosine of the weak angle, charge
    and coupling of the Z. *)
Section Mixing.
Variables e g t : R.
Definition mix_g1 : R := e * g / sqrt (g ^ 2 - e ^ 2) + e ^ 2 * g / (g ^ 2 - e ^ 2) * t.
Definition mix_s : R := mix_g1 / sqrt (mix_g1 ^ 2 + g ^ 2) * (1 + t / 2 * (g / mix_g1) * ((g ^ 2 - mix_g1 ^ 2) / (mix_g1 ^ 2 + g ^ 2))).
Definition mix_c : R := g / sqrt (mix_g1 ^ 2 + g ^ 2) * (1 - t / 2 * (mix_g1 / g) * ((g ^ 2 - mix_g1 ^ 2) / (mix_g1 ^ 2 + g ^ 2))).
Definition mix_e : R := g * mix_s - 1 / 2 * t * g * mix_c.
Definition mix_gz : R := mix_e / (mix_s * mix_c) * (1 + (mix_g1 ^ 2 + g ^ 2) / (2 * mix_g1 * g) * t).
End Mixing.
(** Couplings for Fermi constant [G], and C_phiWB = [h] *)
Section Couplings.
Variables (p : params) (G h : R).
Definition vev2 : R := 1 / (sqrt 2 * Rabs G).
Definition coup_g : R := 2 * param p "m_W" / sqrt vev2.
Definition coup_e : R := sqrt (4 * PI * param p "alpha_e").
Definition coup_s : R := mix_s coup_e coup_g (vev2 * h).
Definition coup_c : R := mix_c coup_e coup_g (vev2 * h).
Definition coup_ew : ew := EW vev2 (coup_s ^ 2) (2 / vev2) (mix_gz coup_e coup_g (vev2 * h) ^ 2 / param p "m_Z" ^ 2).
End Couplings.
Lemma Rabs_re z : z = RtoC (Re z) -> Cabs z = Rabs (Re z).
Proof. intros E. rewrite E at 1. rewrite Cabs_R. reflexivity. Qed.
Lemma weak_couplings A p k k' : proper A -> weak A p (vT A p) = Ok k -> with_gz A k = Ok k' ->
  let G := true_GF A p in let h := phiWB A in
  G <> 0 /\ c_v k' = sqrt (vev2 G) /\ c_s k' = coup_s p G h /\ c_c k' = coup_c p G h /\ ew_of k' p = coup_ew p G h.
Proof.
  intros P W Z G h. destruct (weak_inv _ _ _ _ _ W Z) as (v & Ev & Kv & Kg & Mw).
  unfold vT in Ev. rewrite (Rabs_re _ (gfx_real A p P)) in Ev. fold (bare_GF A p) in Ev. rewrite <- true_bare in Ev. fold G in Ev.
  destruct (Req_EM_T (Rabs G) 0) as [|N]; [discriminate|]. injection Ev as Ev.
  assert (G <> 0) as NG by (intros E; apply N; rewrite E; apply Rabs_R0). split; auto.
  pose proof sqrt2_pos as S2. pose proof (Rabs_pos_lt _ NG) as PG.
  assert (0 < vev2 G) as V2 by (unfold vev2; apply Rdiv_lt_0_compat; nra).
  assert (v = sqrt (vev2 G)) as Ev'. { rewrite <- Ev. f_equal. unfold vev2. field. split; lra. }
  assert (v ^ 2 = vev2 G) as Sv. { rewrite Ev'. apply pow2_sqrt. lra. }
  assert (vT A p = Some v) as VT. { unfold vT. rewrite (Rabs_re _ (gfx_real A p P)). fold (bare_GF A p). rewrite <- true_bare. fold G.
    destruct (Req_EM_T (Rabs G) 0); [contradiction|]. rewrite Ev. reflexivity. }
  split; [congruence|]. rewrite VT in W. revert W Z. unfold weak. cbv zeta. destruct (Rlt_dec _ 0); [discriminate|].
  destruct (Rlt_dec _ 0); [discriminate|]. destruct (Req_EM_T _ 0); [discriminate|]. destruct (Req_EM_T _ 0); [discriminate|].
  cbn [g2b fin] in *. intros E. apply Ok_inj in E. subst k. unfold with_gz. cbn [c_v c_g2 c_g1 c_s c_c c_e].
  destruct (Req_EM_T _ 0); [discriminate|]. intros E. apply Ok_inj in E. subst k'. cbn [c_v c_g2 c_g1 c_s c_c c_e c_gz ew_of] in *.
  assert (2 * param p "m_W" / v = coup_g p G) as Eg by (rewrite Ev'; reflexivity).
  assert (eps A v = vev2 G * h) as Ee by (unfold eps; rewrite Sv; unfold h; ring).
  rewrite Eg, Ee. fold h. fold (coup_e p).
  assert (coup_e p * coup_g p G / sqrt (coup_g p G ^ 2 - coup_e p ^ 2) + coup_e p ^ 2 * coup_g p G / (coup_g p G ^ 2 - coup_e p ^ 2) * (vev2 G * h)
    = mix_g1 (coup_e p) (coup_g p G) (vev2 G * h)) as E1 by reflexivity. rewrite !E1.
  match goal with |- ?s1 = _ /\ ?c1 = _ /\ _ => assert (s1 = coup_s p G h) as Es; [|assert (c1 = coup_c p G h) as Ec] end.
  { unfold coup_s, mix_s, Rdiv. ring. }
  { unfold coup_c, mix_c, Rdiv. ring. }
  rewrite !Es, !Ec, Sv. split; [reflexivity|]. split; [reflexivity|]. unfold ew_of, coup_ew. cbn [c_v c_g2 c_g1 c_s c_c c_e c_gz]. rewrite Sv. f_equal.
  - rewrite <- Eg, <- Sv. field. split; auto. intros E. rewrite E in Sv. lra.
  - f_equal. f_equal. unfold mix_gz, mix_e. fold (coup_s p G h). fold (coup_c p G h). unfold Rdiv. ring.
Qed.

(** ** Every matched operator *)
Definition nothing : arrays := [].
Lemma gs_zero A : g0 (dmap azero A) = g0 nothing /\ g2 (dmap azero A) = g2 nothing /\ g4 (dmap azero A) = g4 nothing.
Proof.
  assert (blank nothing) as B by (intros o w D; discriminate D). pose proof (azero_blank A) as B'.
  repeat split; apply functional_extensionality; intros o; rewrite ?g0_blank, ?g2_blank, ?g4_blank by auto; reflexivity.
Qed.
Lemma tree_zero v s c op sh : tree v s c nothing op sh = match sh with Sh0 => A0 C0 | Sh2 => A2 mzero | Sh4 => A4 tzero end.
Proof.
  unfold tree. destruct sh; f_equal.
  - destruct (dget (tree2 v s c) op) as [f|] eqn:D; [|reflexivity]. apply dget_In in D. unfold tree2 in D. cbn [In] in D. cbn [look].
    apply mat_ext. intros i j.
    repeat (destruct D as [D|D]; [injection D as <- <-; change (g2 nothing) with (fun _ : string => mzero); unfold mzero; cbv beta; ring|]). contradiction.
  - destruct (dget tree4 op) as [f|] eqn:D; [|reflexivity]. apply dget_In in D. unfold tree4 in D. cbn [In] in D. cbn [look].
    apply ten_ext. intros p q r t.
    repeat (destruct D as [D|D]; [injection D as <- <-; change (g4 nothing) with (fun _ : string => tzero); unfold tzero; cbv beta; ring|]). contradiction.
Qed.
Lemma tree_g v s c A B op sh : g0 A = g0 B -> g2 A = g2 B -> g4 A = g4 B -> tree v s c A op sh = tree v s c B op sh.
Proof. intros E0 E2 E4. unfold tree. rewrite E0, E2, E4. reflexivity. Qed.
Lemma exch_g x A B op sh : g2 A = g2 B -> exch x A op sh = exch x B op sh.
Proof. intros E. unfold exch. rewrite E. reflexivity. Qed.
Lemma tree_sh v s c A op sh : a_shape (tree v s c A op sh) = sh. Proof. destruct sh; reflexivity. Qed.
Lemma exch_sh x A op sh : a_shape (exch x A op sh) = sh. Proof. destruct sh; reflexivity. Qed.
Lemma add_sub u v w sh : a_shape u = sh -> a_shape v = sh -> a_shape w = sh ->
  asub (arr_add u v) (arr_add (match sh with Sh0 => A0 C0 | Sh2 => A2 mzero | Sh4 => A4 tzero end) w) = arr_add u (asub v w).
Proof.
  destruct sh, u as [?|?|?], v as [?|?|?], w as [?|?|?]; try discriminate; intros _ _ _; cbn [arr_add asub]; f_equal.
  - ring.
  - apply mat_ext. intros. unfold msub, madd, mzero. ring.
  - apply ten_ext. intros. unfold tsub, tadd, tzero. ring.
Qed.
Lemma proper_zero_GF A p : true_GF (dmap azero A) p = param p "GF" /\ phiWB (dmap azero A) = 0.
Proof.
  destruct (gs_zero A) as (E0 & E2 & E4). unfold true_GF, phiWB. rewrite E0, E2, E4.
  unfold nothing, g4, g2, g0, tzero, mzero, Re, Cadd, C0. cbn [dget fst snd]. split; ring.
Qed.
(** [G], [h]: Fermi constant and C_phiWB of the input *)
Definition match_value (p : params) (A : arrays) (op : string) (sh : shape) : arr :=
  let G := true_GF A p in let h := phiWB A in
  arr_add (tree (sqrt (vev2 G)) (coup_s p G h) (coup_c p G h) A op sh)
    (asub (exch (coup_ew p G h) A op sh) (exch (coup_ew p (param p "GF") 0) nothing op sh)).
Lemma match_exch A p w op v : proper A -> match_all_array A p = Ok w -> dget w op = Some v ->
  true_GF A p <> 0 /\ exists s, match_shape op = Some s /\ v = match_value p A op s.
Proof.
  intros P E D. destruct (match_array_fits _ _ _ _ _ E D) as (s & M & F). unfold match_all_array in E.
  destruct (weak A p (vT A p)) as [k|] eqn:W; [|discriminate]. cbn [bind] in E.
  destruct (weak (dmap azero A) p (vT (dmap azero A) p)) as [k0|] eqn:W0; [|discriminate]. cbn [bind] in E.
  destruct (with_gz A k) as [k'|] eqn:Z; [|discriminate]. cbn [bind] in E.
  destruct (Req_EM_T (param p "m_Z") 0); [discriminate|].
  destruct (with_gz (dmap azero A) k0) as [k0'|] eqn:Z0; [|discriminate]. cbn [bind] in E. apply Ok_inj in E. subst w.
  destruct (weak_couplings A p k k' P W Z) as (NG & Kv & Ks & Kc & Kx).
  destruct (weak_couplings _ p k0 k0' (azero_proper A P) W0 Z0) as (_ & _ & _ & _ & Kx0).
  destruct (proper_zero_GF A p) as [EG Eh]. rewrite EG, Eh in Kx0. split; auto. exists s. split; auto.
  apply dget_In in D. apply in_map_iff in D. destruct D as ([o f] & D & I). injection D as <- <-. cbn [fst snd] in *.
  assert (a_shape (f k' p A) = s) as Sh by (destruct (f k' p A), (f k0' p (dmap azero A)), s; simpl in F |- *; tauto).
  assert (a_shape (f k0' p (dmap azero A)) = s) as Sh0.
  { rewrite <- Sh. pose proof (table_rank k' p A k0' p (dmap azero A) o f I) as R.
    destruct (f k' p A), (f k0' p (dmap azero A)); simpl in R |- *; tauto. }
  rewrite (table_exch A k' p o f I), (table_exch (dmap azero A) k0' p o f I), Sh, Sh0, Kv, Ks, Kc, Kx, Kx0.
  destruct (gs_zero A) as (E0 & E2 & E4). rewrite (tree_g _ _ _ _ nothing o s E0 E2 E4), tree_zero, (exch_g _ _ nothing o s E2).
  apply add_sub; [apply tree_sh|apply exch_sh|apply exch_sh].
Qed.

(** ** The couplings without C_phiWB *)
Section Mix0.
Variables e g : R.
Hypothesis E : 0 < e.
Hypothesis G : e ^ 2 < g ^ 2.
Let d := sqrt (g ^ 2 - e ^ 2).
Lemma m_g : g <> 0. Proof. intros ->. nra. Qed.
Lemma m_d : 0 < d. Proof. apply sqrt_lt_R0. lra. Qed.
Lemma m_d2 : d ^ 2 = g ^ 2 - e ^ 2. Proof. apply pow2_sqrt. lra. Qed.
Lemma m_phase : let g1 := mix_g1 e g 0 in g1 <> 0 /\ g1 = e * g / d /\ g1 ^ 2 = e ^ 2 * g ^ 2 / d ^ 2 /\ sqrt (g1 ^ 2 + g ^ 2) = g ^ 2 / d /\
  g1 ^ 2 + g ^ 2 = g ^ 4 / d ^ 2.
Proof.
  destruct (weak_phase e g (g ^ 2 - e ^ 2) 0) as (H1 & H2 & H3 & H4 & H5 & _); try lra. cbv zeta. change (sqrt (g ^ 2 - e ^ 2)) with d in H2, H3, H4, H5.
  rewrite <- m_d2 in H2, H3, H4, H5.
  assert (mix_g1 e g 0 = e * g / d + e ^ 2 * g / d ^ 2 * 0) as Q by (unfold mix_g1; fold d; rewrite <- m_d2; reflexivity).
  rewrite Q. split; auto. split; [ring|auto].
Qed.
Lemma mix0_s : mix_s e g 0 = e / g.
Proof.
  destruct m_phase as (N & E1 & E2 & E3 & E4). unfold mix_s. rewrite E3, E1. pose proof m_d. pose proof m_g. unfold Rdiv at 4. rewrite !Rmult_0_l. field. split; lra.
Qed.
Lemma mix0_c : mix_c e g 0 = d / g.
Proof.
  destruct m_phase as (N & E1 & E2 & E3 & E4). unfold mix_c. rewrite E3. pose proof m_d. pose proof m_g. unfold Rdiv at 3. rewrite !Rmult_0_l. field. split; lra.
Qed.
Lemma mix0_e : mix_e e g 0 = e.
Proof. unfold mix_e. rewrite mix0_s. pose proof m_g. field. auto. Qed.
Lemma mix0_gz : mix_gz e g 0 = g ^ 2 / d.
Proof. unfold mix_gz. rewrite mix0_e, mix0_s, mix0_c, Rmult_0_r. pose proof m_d. pose proof m_g. field. repeat split; lra. Qed.

(** ** First order in C_phiWB *)
Let a := e * g / d.
Let b := e ^ 2 * g / d ^ 2.
Let u (t : R) := a + b * t.
Let r (t : R) := sqrt (u t ^ 2 + g ^ 2).
Lemma u_mix t : mix_g1 e g t = u t.
Proof. unfold mix_g1, u, a, b. fold d. rewrite <- m_d2. reflexivity. Qed.
Lemma r_pos t : 0 < u t ^ 2 + g ^ 2. Proof. pose proof m_g. nra. Qed.
Lemma D_ext f h x l : (forall t, f t = h t) -> derivable_pt_lim h x l -> derivable_pt_lim f x l.
Proof. intros Q D eps H. destruct (D eps H) as (dl & K). exists dl. intros t. rewrite !Q. apply K. Qed.
Lemma D_val f x l l' : l = l' -> derivable_pt_lim f x l -> derivable_pt_lim f x l'. Proof. intros ->. auto. Qed.
Lemma Du : derivable_pt_lim u 0 b.
Proof.
  apply (D_val _ _ (0 + (0 * 0 + b * 1))); [ring|].
  apply (derivable_pt_lim_plus (fun _ => a) (fun t => b * t)); [apply derivable_pt_lim_const|].
  apply (derivable_pt_lim_mult (fun _ => b) (fun t => t)); [apply derivable_pt_lim_const|apply derivable_pt_lim_id].
Qed.
Lemma Du2 : derivable_pt_lim (fun t => u t ^ 2) 0 (2 * a * b).
Proof.
  apply (D_ext _ (fun t => u t * u t)); [intros; ring|]. apply (D_val _ _ (b * u 0 + u 0 * b)); [unfold u; ring|].
  apply (derivable_pt_lim_mult u u); apply Du.
Qed.
Lemma DN : derivable_pt_lim (fun t => u t ^ 2 + g ^ 2) 0 (2 * a * b).
Proof.
  apply (D_val _ _ (2 * a * b + 0)); [ring|]. apply (derivable_pt_lim_plus (fun t => u t ^ 2) (fun _ => g ^ 2)); [apply Du2|apply derivable_pt_lim_const].
Qed.
Lemma r0 : r 0 = g ^ 2 / d /\ u 0 = a.
Proof. destruct m_phase as (_ & E1 & _ & E3 & _). split; [unfold r; rewrite <- u_mix; exact E3|unfold u; ring]. Qed.
Lemma Dr : derivable_pt_lim r 0 (a * b / (g ^ 2 / d)).
Proof.
  apply (D_val _ _ (/ (2 * r 0) * (2 * a * b))).
  - rewrite (proj1 r0). pose proof m_d. pose proof m_g. field. split; lra.
  - apply (derivable_pt_lim_comp (fun t => u t ^ 2 + g ^ 2) sqrt); [apply DN|]. apply derivable_pt_lim_sqrt, r_pos.
Qed.
Lemma r_nz t : r t <> 0. Proof. apply Rgt_not_eq, sqrt_lt_R0, r_pos. Qed.
Lemma r_sq t : u t ^ 2 + g ^ 2 = r t ^ 2. Proof. symmetry. apply pow2_sqrt, Rlt_le, r_pos. Qed.
(** Sine and cosine without dividing by the hypercharge coupling *)
Let F (t : R) := (g ^ 2 - u t ^ 2) / (r t * (r t * r t)).
Let sn (t : R) := u t / r t + t * (g / 2 * F t).
Let cs (t : R) := g / r t - t * (u t / 2 * F t).
Lemma DF : exists l, derivable_pt_lim F 0 l.
Proof.
  eexists. apply (derivable_pt_lim_div (fun t => g ^ 2 - u t ^ 2) (fun t => r t * (r t * r t))).
  - apply (derivable_pt_lim_minus (fun _ => g ^ 2) (fun t => u t ^ 2)); [apply derivable_pt_lim_const|apply Du2].
  - apply (derivable_pt_lim_mult r (fun t => r t * r t)); [apply Dr|]. apply (derivable_pt_lim_mult r r); apply Dr.
  - pose proof (r_nz 0). repeat apply Rmult_integral_contrapositive_currified; auto.
Qed.
Lemma D_t f l : derivable_pt_lim f 0 l -> derivable_pt_lim (fun t => t * f t) 0 (f 0).
Proof.
  intros D. apply (D_val _ _ (1 * f 0 + 0 * l)); [ring|]. apply (derivable_pt_lim_mult (fun t => t) f); auto. apply derivable_pt_lim_id.
Qed.
Lemma Dsn : derivable_pt_lim sn 0 (d / g / 2).
Proof.
  destruct DF as (l & HF). pose proof m_d. pose proof m_g. destruct r0 as [R0 U0].
  apply (D_val _ _ ((b * r 0 - a * b / (g ^ 2 / d) * u 0) / Rsqr (r 0) + g / 2 * F 0)).
  - unfold F, Rsqr. rewrite R0, U0. unfold a, b. assert (e ^ 2 = g ^ 2 - d ^ 2) as Q by (rewrite m_d2; ring).
    field [Q]; split; lra.
  - apply (derivable_pt_lim_plus (fun t => u t / r t) (fun t => t * (g / 2 * F t))).
    + apply (derivable_pt_lim_div u r); [apply Du|apply Dr|apply r_nz].
    + apply (D_t (fun t => g / 2 * F t) (0 * F 0 + g / 2 * l)).
      apply (derivable_pt_lim_mult (fun _ => g / 2) F); [apply derivable_pt_lim_const|auto].
Qed.
Lemma Dcs : derivable_pt_lim cs 0 (- (e / g / 2)).
Proof.
  destruct DF as (l & HF). pose proof m_d. pose proof m_g. destruct r0 as [R0 U0].
  apply (D_val _ _ ((0 * r 0 - a * b / (g ^ 2 / d) * g) / Rsqr (r 0) - u 0 / 2 * F 0)).
  - unfold F, Rsqr. rewrite R0, U0. unfold a, b. assert (e ^ 2 = g ^ 2 - d ^ 2) as Q by (rewrite m_d2; ring).
    field [Q]; split; lra.
  - apply (derivable_pt_lim_minus (fun t => g / r t) (fun t => t * (u t / 2 * F t))).
    + apply (derivable_pt_lim_div (fun _ => g) r); [apply derivable_pt_lim_const|apply Dr|apply r_nz].
    + apply (D_t (fun t => u t / 2 * F t) ((b * 2 - 0 * u 0) / Rsqr 2 * F 0 + u 0 / 2 * l)).
      apply (derivable_pt_lim_mult (fun t => u t / 2) F); auto.
      apply (derivable_pt_lim_div u (fun _ => 2)); [apply Du|apply derivable_pt_lim_const|lra].
Qed.
Lemma D_loc f h x l del : 0 < del -> (forall t, Rabs t < del -> f (x + t) = h (x + t)) -> derivable_pt_lim h x l -> derivable_pt_lim f x l.
Proof.
  intros Pd Q D ep H. destruct (D ep H) as (dl & K). assert (0 < Rmin del dl) as Pm by (apply Rmin_pos; auto; apply cond_pos).
  exists (mkposreal _ Pm). cbn [pos]. intros t Nt Lt. pose proof (Rmin_l del dl). pose proof (Rmin_r del dl).
  assert (f x = h x) as Q0. { replace x with (x + 0) by ring. apply Q. rewrite Rabs_R0. auto. }
  rewrite Q0, Q by lra. apply K; auto. lra.
Qed.
Lemma u_nz t : Rabs t < d / e -> u (0 + t) <> 0.
Proof.
  intros L. pose proof m_d. pose proof m_g. unfold u, a, b. rewrite Rplus_0_l.
  replace (e * g / d + e ^ 2 * g / d ^ 2 * t) with (e * g / d * (1 + e / d * t)) by (field; lra).
  assert (0 < e / d) as K by (apply Rdiv_lt_0_compat; auto).
  assert (e / d * Rabs t < 1). { apply (Rmult_lt_compat_l (e / d)) in L; auto. replace (e / d * (d / e)) with 1 in L by (field; lra). exact L. }
  assert (Rabs (e / d * t) < 1) as L1 by (rewrite Rabs_mult, (Rabs_right (e / d)) by lra; auto). apply Rabs_def2 in L1.
  apply Rmult_integral_contrapositive_currified; [|lra]. unfold Rdiv. repeat apply Rmult_integral_contrapositive_currified; try lra; auto.
  apply Rinv_neq_0_compat. lra.
Qed.
Lemma s_sn t : Rabs t < d / e -> mix_s e g (0 + t) = sn (0 + t).
Proof.
  intros L. pose proof (u_nz t L). pose proof (r_nz (0 + t)) as N. unfold mix_s, sn, F. rewrite u_mix. change (sqrt (u (0 + t) ^ 2 + g ^ 2)) with (r (0 + t)).
  rewrite r_sq. field. auto.
Qed.
Lemma c_cs t : mix_c e g t = cs t.
Proof.
  pose proof m_g. pose proof (r_nz t) as N. unfold mix_c, cs, F. rewrite u_mix. change (sqrt (u t ^ 2 + g ^ 2)) with (r t).
  rewrite r_sq. field. auto.
Qed.
Lemma de_pos : 0 < d / e. Proof. pose proof m_d. apply Rdiv_lt_0_compat; auto. Qed.
Lemma D_mix_s : derivable_pt_lim (mix_s e g) 0 (d / g / 2).
Proof. apply (D_loc _ sn 0 _ (d / e) de_pos s_sn Dsn). Qed.
Lemma D_mix_c : derivable_pt_lim (mix_c e g) 0 (- (e / g / 2)).
Proof. apply (D_ext _ cs); [exact c_cs|exact Dcs]. Qed.
Lemma D_mix_e : derivable_pt_lim (mix_e e g) 0 0.
Proof.
  pose proof m_g. apply (D_ext _ (fun t => g * mix_s e g t - t * (g / 2 * mix_c e g t))); [intros; unfold mix_e; field|].
  apply (D_val _ _ ((0 * mix_s e g 0 + g * (d / g / 2)) - g / 2 * mix_c e g 0)).
  - rewrite mix0_c. field. auto.
  - apply (derivable_pt_lim_minus (fun t => g * mix_s e g t) (fun t => t * (g / 2 * mix_c e g t))).
    + apply (derivable_pt_lim_mult (fun _ => g) (mix_s e g)); [apply derivable_pt_lim_const|apply D_mix_s].
    + apply (D_t (fun t => g / 2 * mix_c e g t) (0 * mix_c e g 0 + g / 2 * - (e / g / 2))).
      apply (derivable_pt_lim_mult (fun _ => g / 2) (mix_c e g)); [apply derivable_pt_lim_const|apply D_mix_c].
Qed.
Lemma D_mix_gz : derivable_pt_lim (mix_gz e g) 0 (mix_gz e g 0 * (e / d)).
Proof.
  pose proof m_g. pose proof m_d. destruct r0 as [R0 U0].
  set (H1 t := (u t ^ 2 + g ^ 2) / (2 * u t * g)). set (Q t := mix_e e g t / (mix_s e g t * mix_c e g t)).
  assert (forall t, mix_gz e g t = Q t + Q t * (t * H1 t)) as X.
  { intros t. unfold mix_gz, Q, H1. rewrite u_mix. unfold Rdiv. ring. }
  assert (exists l, derivable_pt_lim H1 0 l) as (l1 & D1).
  { eexists. apply (derivable_pt_lim_div (fun t => u t ^ 2 + g ^ 2) (fun t => 2 * u t * g)).
    - apply DN.
    - apply (derivable_pt_lim_mult (fun t => 2 * u t) (fun _ => g)); [|apply derivable_pt_lim_const].
      apply (derivable_pt_lim_mult (fun _ => 2) u); [apply derivable_pt_lim_const|apply Du].
    - pose proof (u_nz 0) as N. rewrite Rplus_0_r, Rabs_R0 in N. specialize (N de_pos).
      repeat apply Rmult_integral_contrapositive_currified; auto; lra. }
  assert (mix_s e g 0 * mix_c e g 0 <> 0) as Nsc.
  { rewrite mix0_s, mix0_c. unfold Rdiv. repeat apply Rmult_integral_contrapositive_currified; try lra; apply Rinv_neq_0_compat; auto. }
  assert (derivable_pt_lim Q 0 ((0 * (mix_s e g 0 * mix_c e g 0) - (d / g / 2 * mix_c e g 0 + mix_s e g 0 * - (e / g / 2)) * mix_e e g 0)
     / Rsqr (mix_s e g 0 * mix_c e g 0))) as DQ.
  { apply (derivable_pt_lim_div (mix_e e g) (fun t => mix_s e g t * mix_c e g t)); auto; [apply D_mix_e|].
    apply (derivable_pt_lim_mult (mix_s e g) (mix_c e g)); [apply D_mix_s|apply D_mix_c]. }
  apply (D_ext _ _ _ _ X).
  refine (D_val _ _ _ _ _ (derivable_pt_lim_plus Q (fun t => Q t * (t * H1 t)) 0 _ _ DQ
    (derivable_pt_lim_mult Q (fun t => t * H1 t) 0 _ _ DQ (D_t H1 l1 D1)))).
  rewrite mix0_gz. unfold Q, H1. rewrite mix0_e, mix0_s, mix0_c, U0. unfold a, Rsqr.
  assert (e ^ 2 = g ^ 2 - d ^ 2) as Qe by (rewrite m_d2; ring). field [Qe]; repeat split; lra.
Qed.
End Mix0.
