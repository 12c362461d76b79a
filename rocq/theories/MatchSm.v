(** Matching without New Physics: when it is defined and what it gives. *)
From Coq Require Import String List Bool Arith Reals Lra Psatz.
From Verif Require Import PyBase PyDict Cplx Tensor SmeftSyntax SmeftTab Wc Params Smeft SmeftSpec SmeftNames SmeftRot SmeftWarsaw SmeftIll
  MatchOps MatchTab Match MatchSpec MatchFacts MatchRot MatchThm.
Import ListNotations.
Open Scope string_scope.
Open Scope list_scope.
Open Scope R_scope.
#[local] Opaque WC_keys C_keys_shape match_tab.
Lemma Ok_inj {T} (x y : T) : Ok x = Ok y -> x = y.
Proof. intros E. injection E as E. exact E. Qed.

(** ** Zero coefficients *)
Definition silent (d : dict string C) : Prop := forall k z, In (k, z) d -> z = C0.
Definition blank (c : arrays) : Prop := forall op v, dget c op = Some v -> azero v = v.
Lemma aset_blank v pre : azero v = v -> azero (aset v pre C0) = aset v pre C0.
Proof.
  destruct v as [z|m|t]; intros E; [reflexivity| |].
  - injection E as E. unfold aset, azero. f_equal. rewrite <- E. apply mat_ext. intros i j. unfold mzero.
    destruct (is_prefix pre [i; j]); reflexivity.
  - injection E as E. unfold aset, azero. f_equal. rewrite <- E. apply ten_ext. intros i j k l. unfold tzero.
    destruct (is_prefix pre [i; j; k; l]); reflexivity.
Qed.
Lemma zeros_blank s : azero (zeros s) = zeros s. Proof. destruct s; reflexivity. Qed.
Lemma w2a_blank d : silent d -> forall c c', blank c -> wcxf2arrays_from c d = Ok c' -> blank c'.
Proof.
  induction d as [|[k z] t IH]; intros N c c' H E; simpl in E; [inversion E; subst; exact H|].
  assert (z = C0) as -> by (apply (N k); left; reflexivity).
  destruct (w2a_step c k C0) as [c1|e] eqn:S; [|discriminate]. simpl in E.
  apply (IH (fun k z I => N k z (or_intror I)) c1); auto. clear IH E N t c'.
  unfold w2a_step, dlookup in S. destruct (dget C_keys_shape (name_part k)) as [s0|] eqn:X; [|discriminate].
  simpl in S. intros op v D. assert (forall X, Ok X = Ok c1 -> X = c1) as J by congruence.
  destruct s0; [|destruct (parse_index _ _) as [pre|]; [|discriminate]..]; simpl in S; apply J in S; subst c1;
    rewrite dget_dset in D; (match type of D with context [keqb ?a ?b] => destruct (keqb a b) end; [injection D as <-|eauto]).
  - reflexivity.
  - apply aset_blank. destruct (dget c (name_part k)) eqn:A; [eauto|reflexivity].
  - apply aset_blank. destruct (dget c (name_part k)) eqn:A; [eauto|reflexivity].
Qed.
Lemma read_blank d c : silent d -> read_smeft d = Ok c -> blank c.
Proof.
  intros N. unfold read_smeft, wcxf2arrays. destruct (wcxf2arrays_from [] d) as [c0|] eqn:E; [|discriminate]. simpl. intros S op w D.
  assert (blank c0) as B by (eapply w2a_blank; eauto; discriminate).
  destruct (symmetrize_entries _ _ _ (w2a_wf d [] c0 (NoDup_nil _) E) S op w D) as [(v & D0 & A)|X]; [|discriminate].
  pose proof (symm_arr_wc _ _ _ A) as M.
  destruct (wc_shape op) as (s & Z & _); [exact (proj2 (mem_In _ op WC_keys) M)|].
  assert (fits s v) as F. { eapply (w2a_fits d [] c0); eauto. discriminate. }
  destruct (symmetrize_one op s v M Z F) as (w' & S' & F' & Y & K).
  unfold symmetrize, symmetrize_from in S'. rewrite A in S'. simpl in S'. injection S' as ->.
  assert (v = zeros s) as -> by (rewrite <- (B _ _ D0); destruct s, v; simpl in F; try contradiction; reflexivity).
  rewrite K by apply zeros_symm. apply zeros_blank.
Qed.
Lemma fill_wf l : forall c, wf c -> wf (fold_left fill1 l c).
Proof. induction l as [|k t IH]; intros c W; simpl; auto. apply IH. unfold fill1. destruct (dmem c k); auto. apply wf_dset; auto. Qed.
Lemma add_missing_wf c : wf c -> wf (add_missing c).
Proof. exact (fill_wf WC_keys c). Qed.
Lemma symmetrize_wf c : forall acc c', wf acc -> symmetrize_from acc c = Ok c' -> wf c'.
Proof.
  induction c as [|[k v] t IH]; intros acc c' W E; simpl in E; [inversion E; subst; auto|].
  destruct (symm_arr k v) as [[a|]|]; [|discriminate|]; simpl in E.
  - eapply IH; [|eauto]. apply wf_dset; auto.
  - eapply IH; eauto.
Qed.
Lemma read_wf d c : read_smeft d = Ok c -> wf c.
Proof.
  unfold read_smeft. destruct (wcxf2arrays d) as [c0|]; [|discriminate]. simpl. apply symmetrize_wf. constructor.
Qed.
Lemma blank_same A : wf A -> blank A -> dmap azero A = A.
Proof.
  intros W B. rewrite <- (dmap_id _ _ A) at 2. apply dmap_ext. intros k v I. apply (B k). apply In_dget; auto.
Qed.
Lemma blank_filled c : blank c -> blank (add_missing c).
Proof.
  intros B op v D. rewrite add_missing_get in D. destruct (dget c op) as [w|] eqn:E.
  - injection D as <-. eauto.
  - destruct (mem op WC_keys); [|discriminate]. injection D as <-. destruct (op_shape op); [apply zeros_blank|reflexivity].
Qed.

(** ** When the couplings are defined *)
(** The parameters describe a Standard Model: non-zero Fermi constant and Z mass, positive
    fine structure constant and a W mass large enough for sin^2 of the weak angle to be below 1. *)
Definition sm_ok (p : params) : Prop :=
  param p "GF" <> 0 /\ param p "m_Z" <> 0 /\ 0 < param p "alpha_e" /\
  PI * param p "alpha_e" < sqrt 2 * Rabs (param p "GF") * param p "m_W" ^ 2.
(** No New Physics in the relations between the inputs and the couplings *)
Definition sm_like (A : arrays) (p : params) : Prop := gfx A p = RtoC (param p "GF") /\ phiWB A = 0.
(** The couplings of the Standard Model at tree level *)
Definition vev (p : params) : R := sqrt (1 / (sqrt 2 * Rabs (param p "GF"))).
Definition sm_e (p : params) : R := sqrt (4 * PI * param p "alpha_e").
Definition sm_g2 (p : params) : R := 2 * param p "m_W" / vev p.

Lemma sqrt2_pos : 0 < sqrt 2. Proof. apply sqrt_lt_R0; lra. Qed.
Lemma vev_sq p : param p "GF" <> 0 -> 0 < vev p /\ vev p ^ 2 = 1 / (sqrt 2 * Rabs (param p "GF")).
Proof.
  intros G. pose proof sqrt2_pos. pose proof (Rabs_pos_lt _ G). assert (0 < sqrt 2 * Rabs (param p "GF")) by nra.
  assert (0 < 1 / (sqrt 2 * Rabs (param p "GF"))) by (apply Rdiv_lt_0_compat; lra).
  unfold vev. split; [apply sqrt_lt_R0; auto|]. apply pow2_sqrt. lra.
Qed.
Lemma vT_sm A p : sm_like A p -> vT A p = if Req_EM_T (param p "GF") 0 then None else Some (vev p).
Proof.
  intros [G _]. unfold vT. rewrite G, Cabs_R. destruct (Req_EM_T (param p "GF") 0) as [E|N].
  - rewrite E, Rabs_R0. destruct (Req_EM_T 0 0); [reflexivity|congruence].
  - destruct (Req_EM_T (Rabs (param p "GF")) 0) as [E|_]; [elim (Rabs_no_R0 _ N E)|].
    unfold vev. do 2 f_equal. pose proof sqrt2_pos. pose proof (Rabs_no_R0 _ N). field. split; lra.
Qed.
Lemma g2_sq p : param p "GF" <> 0 -> sm_g2 p ^ 2 = 4 * (sqrt 2 * Rabs (param p "GF") * param p "m_W" ^ 2).
Proof.
  intros G. destruct (vev_sq p G) as [V Q]. pose proof sqrt2_pos. pose proof (Rabs_pos_lt _ G).
  unfold sm_g2. replace ((2 * param p "m_W" / vev p) ^ 2) with (4 * param p "m_W" ^ 2 / vev p ^ 2) by (field; lra).
  rewrite Q. field. split; lra.
Qed.
Definition sm_s (p : params) : R := sm_e p / sm_g2 p.
Definition sm_D (p : params) : R := sm_g2 p ^ 2 - sm_e p ^ 2.

Lemma weak_phase : forall e g D ep : R, ep = 0 -> 0 < e -> 0 < D -> D = g ^ 2 - e ^ 2 ->
  let g1 := e * g / sqrt D + e ^ 2 * g / D * ep in
  g <> 0 /\ g1 <> 0 /\ g1 ^ 2 = e ^ 2 * g ^ 2 / D /\ g1 ^ 2 + g ^ 2 = g ^ 4 / D /\
  sqrt (g1 ^ 2 + g ^ 2) = g ^ 2 / sqrt D /\
  g1 / sqrt (g1 ^ 2 + g ^ 2) * (1 + ep / 2 * g / g1 * ((g ^ 2 - g1 ^ 2) / (g1 ^ 2 + g ^ 2))) = e / g /\
  g / sqrt (g1 ^ 2 + g ^ 2) * (1 - ep / 2 * g1 / g * ((g ^ 2 - g1 ^ 2) / (g1 ^ 2 + g ^ 2))) = sqrt D / g.
Proof.
  intros e g D ep -> He HD ED g1. assert (g <> 0) as Hg by (intros ->; nra).
  assert (0 < sqrt D) as Hs by (apply sqrt_lt_R0; auto). assert (sqrt D ^ 2 = D) as Q by (apply pow2_sqrt; lra).
  assert (g1 = e * g / sqrt D) as E1 by (unfold g1; ring). 
  assert (g1 ^ 2 = e ^ 2 * g ^ 2 / D) as E2. { rewrite E1. rewrite <- Q at 2. field. lra. }
  assert (g1 ^ 2 + g ^ 2 = g ^ 4 / D) as E3. { rewrite E2. rewrite ED. field. lra. }
  assert (sqrt (g1 ^ 2 + g ^ 2) = g ^ 2 / sqrt D) as E4.
  { rewrite E3. apply Rsqr_inj.
    - apply sqrt_pos.
    - apply Rlt_le, Rdiv_lt_0_compat; auto. nra.
    - rewrite Rsqr_sqrt; [|apply Rlt_le, Rdiv_lt_0_compat; auto; assert (0 < g ^ 2) by nra; nra].
      unfold Rsqr. rewrite <- Q at 1. field. lra. }
  assert (g1 <> 0) as E5.
  { rewrite E1. unfold Rdiv. apply Rmult_integral_contrapositive_currified; [nra|]. apply Rinv_neq_0_compat. lra. }
  split; auto. split; auto. split; auto. split; auto. split; auto. rewrite E4. clearbody g1. split.
  - transitivity (g1 / (g ^ 2 / sqrt D) * 1); [unfold Rdiv; ring|]. rewrite E1. field. split; [auto|lra].
  - transitivity (g / (g ^ 2 / sqrt D) * 1); [unfold Rdiv; ring|]. field. split; [auto|lra].
Qed.

Definition sm_coup (p : params) : coup :=
  let e := sm_e p in let g := sm_g2 p in let r := sqrt (sm_D p) in
  Coup (vev p) g (e * g / r) (e / g) (r / g) e (g ^ 2 / r).
Lemma sm_pos p : sm_ok p -> 0 < sm_e p /\ 0 < sm_D p.
Proof.
  intros (G & _ & Ha & Hw). pose proof PI_RGT_0. assert (0 < 4 * PI * param p "alpha_e") by nra.
  split; [apply sqrt_lt_R0; auto|]. unfold sm_D. rewrite (g2_sq p G). unfold sm_e. rewrite pow2_sqrt by lra. lra.
Qed.
Lemma weak_sm A p : sm_like A p -> sm_ok p -> exists k, weak A p (vT A p) = Ok k /\ with_gz A k = Ok (sm_coup p).
Proof.
  intros S H. destruct (sm_pos p H) as [He HD]. destruct H as (G & _ & Ha & Hw). rewrite (vT_sm A p S).
  destruct S as [_ S]. destruct (Req_EM_T (param p "GF") 0) as [E|_]; [contradiction|].
  destruct (weak_phase (sm_e p) (sm_g2 p) (sm_D p) (eps A (vev p))) as (H1 & H2 & H3 & H4 & H5 & H6 & H7); auto.
  { unfold eps. rewrite S. ring. }
  pose proof (sqrt_lt_R0 _ HD) as Hs.
  assert (sm_g2 p * (sm_e p / sm_g2 p) - 1 / 2 * (sqrt (sm_D p) / sm_g2 p) * sm_g2 p * vev p ^ 2 * phiWB A = sm_e p) as H8
    by (rewrite S; field; auto).
  assert (0 < 4 * PI * param p "alpha_e") as H9 by (pose proof PI_RGT_0; nra).
  eexists. split.
  - unfold weak. cbn [g2b fin]. fold (sm_e p). fold (sm_g2 p). fold (sm_D p).
    destruct (Rlt_dec (4 * PI * param p "alpha_e") 0) as [L|_]; [exfalso; lra|].
    cbv zeta. destruct (Rlt_dec (sm_D p) 0); [exfalso; lra|]. destruct (Req_EM_T (sm_D p) 0); [exfalso; lra|].
    destruct (Req_EM_T _ 0) as [L|_]; [contradiction|]. rewrite H6, H7, H8. reflexivity.
  - unfold with_gz. cbn [c_v c_g2 c_g1 c_s c_c c_e].
    destruct (Req_EM_T _ 0) as [L|_].
    { exfalso. apply Rmult_integral in L. destruct L as [L|L]; apply Rmult_integral in L; destruct L as [L|L]; try lra;
        revert L; apply Rinv_neq_0_compat; auto. }
    unfold sm_coup. f_equal. f_equal.
    + unfold eps. rewrite S. field. lra.
    + rewrite S. rewrite Rmult_0_r, Rplus_0_r. field. split; [lra|]. split; [auto|lra].
Qed.
(** The converse: without New Physics the matching is defined only for such parameters. *)
Lemma weak_sm_only A p k k' : sm_like A p -> weak A p (vT A p) = Ok k -> with_gz A k = Ok k' -> param p "m_Z" <> 0 -> sm_ok p.
Proof.
  intros S. rewrite (vT_sm A p S). destruct S as [_ S]. unfold weak.
  destruct (Rlt_dec (4 * PI * param p "alpha_e") 0) as [|L1]; [discriminate|]. cbv zeta. fold (sm_e p).
  destruct (Req_EM_T (param p "GF") 0) as [E|G]; cbn [g2b fin].
  - destruct (Rlt_dec _ 0) as [|L2]; [discriminate|]. destruct (Req_EM_T _ 0) as [|L3]; [discriminate|]. nra.
  - fold (sm_g2 p). fold (sm_D p).
    destruct (Rlt_dec (sm_D p) 0) as [|L2]; [discriminate|]. destruct (Req_EM_T (sm_D p) 0) as [|L3]; [discriminate|].
    destruct (Req_EM_T _ 0) as [|L4]; [discriminate|]. intros _ _ Z. split; auto. split; auto.
    assert (0 < param p "alpha_e") as Ha.
    { pose proof PI_RGT_0. destruct (Req_EM_T (param p "alpha_e") 0) as [E|N]; [|nra].
      exfalso. apply L4. unfold eps. rewrite S. unfold sm_e. rewrite E, Rmult_0_r, sqrt_0. unfold Rdiv. ring. }
    split; auto. assert (0 < sm_D p) as HD by lra. unfold sm_D in HD. rewrite (g2_sq p G) in HD. unfold sm_e in HD.
    rewrite pow2_sqrt in HD by lra. lra.
Qed.

(** ** Coefficients that are all zero *)
Lemma g0_blank A op : blank A -> g0 A op = C0.
Proof. intros B. unfold g0. destruct (dget A op) as [[z|m|t]|] eqn:D; auto. specialize (B _ _ D). injection B as <-. reflexivity. Qed.
Lemma g2_blank A op : blank A -> g2 A op = mzero.
Proof. intros B. unfold g2. destruct (dget A op) as [[z|m|t]|] eqn:D; auto. specialize (B _ _ D). injection B as <-. reflexivity. Qed.
Lemma g4_blank A op : blank A -> g4 A op = tzero.
Proof. intros B. unfold g4. destruct (dget A op) as [[z|m|t]|] eqn:D; auto. specialize (B _ _ D). injection B as <-. reflexivity. Qed.
Lemma blank_sm A p : blank A -> sm_like A p.
Proof.
  intros B. split.
  - unfold gfx. rewrite g4_blank, g2_blank by auto. unfold tzero, mzero. ring.
  - unfold phiWB. rewrite g0_blank by auto. reflexivity.
Qed.
Lemma azero_blank A : blank (dmap azero A).
Proof. intros op v D. rewrite dget_dmap in D. destruct (dget A op) as [w|]; [|discriminate]. injection D as <-. destruct w; reflexivity. Qed.
(** The matching of any input is defined exactly if its own couplings and those of the Standard Model are. *)
Lemma match_array_sm A p w : match_all_array A p = Ok w -> sm_ok p.
Proof.
  unfold match_all_array. destruct (weak A p (vT A p)) as [k|]; [|discriminate]. cbn [bind].
  destruct (weak (dmap azero A) p (vT (dmap azero A) p)) as [k0|] eqn:W; [|discriminate]. cbn [bind].
  destruct (with_gz A k) as [k'|]; [|discriminate]. cbn [bind].
  destruct (Req_EM_T (param p "m_Z") 0); [discriminate|].
  destruct (with_gz (dmap azero A) k0) as [k0'|] eqn:Z; [|discriminate]. intros _.
  apply (weak_sm_only (dmap azero A) p k0 k0'); auto. apply blank_sm, azero_blank.
Qed.
Lemma match_array_like A p : sm_ok p -> sm_like A p ->
  match_all_array A p = Ok (map (fun kf => (fst kf, asub (snd kf (sm_coup p) p A) (snd kf (sm_coup p) p (dmap azero A)))) match_tab).
Proof.
  intros H L. unfold match_all_array. destruct (weak_sm A p L H) as (k & -> & E). cbn [bind].
  destruct (weak_sm (dmap azero A) p (blank_sm _ p (azero_blank A)) H) as (k0 & -> & E0). cbn [bind]. rewrite E. cbn [bind].
  destruct (Req_EM_T (param p "m_Z") 0) as [Z|_]; [elim (proj1 (proj2 H) Z)|]. rewrite E0. reflexivity.
Qed.
Lemma asub_same v : asub v v = azero v.
Proof.
  destruct v; simpl; f_equal.
  - ring.
  - apply mat_ext; intros; unfold msub, mzero; ring.
  - apply ten_ext; intros; unfold tsub, tzero; ring.
Qed.
Lemma match_array_blank A p w : wf A -> blank A -> match_all_array A p = Ok w -> blank w.
Proof.
  intros W B E. rewrite (match_array_like A p (match_array_sm _ _ _ E) (blank_sm A p B)) in E. apply Ok_inj in E. subst w.
  intros op v D. apply dget_In in D. apply in_map_iff in D. destruct D as ([o f] & E & I). injection E as <- <-.
  cbn [fst snd]. rewrite (blank_same A W B), asub_same. destruct (f (sm_coup p) p A); reflexivity.
Qed.
Lemma S3_0 : S3 (fun _ => C0) = C0. Proof. unfold S3. ring. Qed.
Lemma slot_zero n m : on_slot n m tzero = tzero.
Proof.
  apply ten_ext; intros. unfold tzero. destruct n as [|[|[|]]]; unfold on_slot; (etransitivity; [|apply S3_0]); apply S3_ext; intros; ring.
Qed.
Lemma rd_zero V : forall op f, In (op, f) rd_tab -> f V tzero = tzero.
Proof.
  intros op f I. apply rd_forms in I. cbn [In] in I.
  repeat (destruct I as [<-|I]; [rewrite ?slot_all, ?slot_kl, ?slot_ij, ?slot_ik, ?slot_j, ?slot_k, ?slot_l, ?slot_zero; reflexivity|]). contradiction.
Qed.
Section Sm.
Variable ckm_tree : R -> R -> R -> R -> mat.
Lemma matched_blank p c w : wf c -> blank c -> matched ckm_tree p c = Ok w -> blank w.
Proof.
  intros W B E. destruct (matched_inv _ _ _ _ E) as (w0 & M & R & _).
  pose proof (match_array_blank _ _ _ (add_missing_wf c W) (blank_filled c B) M) as B0.
  destruct (rotate_down_get _ _ _ R) as [A A']. intros op v D.
  destruct (in_dec string_dec op rd_names) as [I|N].
  - destruct (in_names op I) as (f & F). destruct (A op f F) as (x & D0 & D1).
    assert (x = tzero) as -> by (specialize (B0 _ _ D0); injection B0 as <-; reflexivity).
    rewrite (rd_zero _ _ _ F) in D1. rewrite D1 in D. injection D as <-. reflexivity.
  - rewrite A' in D by auto. eauto.
Qed.
Lemma match_inv J d input o : match_all ckm_tree J d input = Ok o -> exists c w, read_smeft d = Ok c /\
  matched ckm_tree (merge_params input) c = Ok w /\ o = key_filter J (out_names (fun k => negb (dmem c k)) w) /\
  wf w /\ plain w.
Proof.
  unfold match_all. destruct (read_smeft d) as [c|]; [|discriminate]. cbn [bind].
  destruct (matched ckm_tree (merge_params input) c) as [w|] eqn:M; [|discriminate]. cbn [bind]. intros E. apply Ok_inj in E. subst o.
  exists c, w. split; auto. split; auto. split; auto. destruct (matched_inv _ _ _ _ M) as (_ & _ & _ & K). split.
  - unfold wf. rewrite K. apply match_names_NoDup.
  - intros k I. rewrite K in I. apply match_names_plain; auto.
Qed.
Lemma out_wf filled w : wf (out_names filled w).
Proof. apply wf_dict_of. Qed.
Lemma match_get J d input o k z : match_all ckm_tree J d input = Ok o -> dget o k = Some z -> exists c w op v x,
  read_smeft d = Ok c /\ matched ckm_tree (merge_params input) c = Ok w /\ In k J /\ dget w op = Some v /\
  In x (out_idx (fun k => negb (dmem c k)) op v) /\ k = sname op x /\ z = out_val v x.
Proof.
  intros M D. destruct (match_inv _ _ _ _ M) as (c & w & Rd & Mw & -> & W & P). rewrite key_filter_get in D by apply out_wf.
  destruct (mem k J) eqn:K; [|discriminate]. apply mem_In in K. apply out_keys in D; auto.
  destruct D as (op & v & x & D & I & E1 & E2). exists c, w, op, v, x. auto 10.
Qed.
Lemma match_silent J d input o k z : silent d -> match_all ckm_tree J d input = Ok o -> dget o k = Some z -> z = C0.
Proof.
  intros N M D. destruct (match_get _ _ _ _ _ _ M D) as (c & w & op & v & x & Rd & Mw & _ & Dv & I & _ & ->).
  pose proof (matched_blank _ _ _ (read_wf _ _ Rd) (read_blank _ _ N Rd) Mw _ _ Dv) as B.
  destruct v as [a|m|t]; simpl in B; injection B as <-; [reflexivity| |]; unfold out_val, entry;
    repeat (destruct x as [|? x]; try reflexivity).
Qed.
Lemma match_needs_sm J d input o : match_all ckm_tree J d input = Ok o -> sm_ok (merge_params input).
Proof.
  intros M. destruct (match_inv _ _ _ _ M) as (c & w & Rd & Mw & _). destruct (matched_inv _ _ _ _ Mw) as (w0 & E & _).
  eapply match_array_sm; eauto.
Qed.
Lemma match_like_ok J d input c : sm_ok (merge_params input) -> read_smeft d = Ok c -> sm_like (add_missing c) (merge_params input) ->
  exists o, match_all ckm_tree J d input = Ok o.
Proof.
  intros S Rd L. unfold match_all. rewrite Rd. cbn [bind].
  destruct (matched_ok ckm_tree (merge_params input) c _ (match_array_like _ _ S L)) as (w & ->). cbn [bind]. eauto.
Qed.
Lemma match_silent_ok J d input c : sm_ok (merge_params input) -> silent d -> read_smeft d = Ok c -> exists o, match_all ckm_tree J d input = Ok o.
Proof. intros S N Rd. eapply match_like_ok; eauto. apply blank_sm, blank_filled. eapply read_blank; eauto. Qed.
Lemma read_good d : good_dict d -> exists c, read_smeft d = Ok c.
Proof.
  intros G. destruct (wcxf2arrays_good d G) as (c & H & Rc). unfold read_smeft. rewrite H. cbn [bind].
  rewrite symmetrize_spec by exact (represents_typed _ _ Rc). eauto.
Qed.
End Sm.
