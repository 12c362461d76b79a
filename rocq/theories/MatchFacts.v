(** Facts about matching: what is read, symmetries of the matched arrays, rotation to the
    down-quark mass basis. *)
From Coq Require Import String List Bool Arith Reals Lra.
From Verif Require Import PyBase PyDict Cplx Tensor SmeftSyntax SmeftTab Wc Params Smeft SmeftSpec SmeftNames SmeftRot SmeftWarsaw SmeftIll
  MatchOps MatchTab Match.
Import ListNotations.
Open Scope string_scope.
Open Scope list_scope.
#[local] Opaque WC_keys C_keys_shape.

(** ** The arrays read from any accepted input are symmetric. *)
Definition proper1 (op : string) (v : arr) : Prop :=
  exists s, op_shape op = Some s /\ fits s v /\ index_symmetry op v.
Definition some_proper (c : arrays) : Prop := forall op v, dget c op = Some v -> In op WC_keys /\ proper1 op v.
(** Every SMEFT operator is there, with an array that has its symmetries. *)
Definition proper (A : arrays) : Prop := forall op, In op WC_keys -> exists v, dget A op = Some v /\ proper1 op v.

Lemma aset_fits s v pre z : fits s v -> fits s (aset v pre z).
Proof. destruct s, v; simpl; auto. Qed.
Lemma w2a_fits d : forall c c', (forall op v s, dget c op = Some v -> op_shape op = Some s -> fits s v) ->
  wcxf2arrays_from c d = Ok c' -> forall op v s, dget c' op = Some v -> op_shape op = Some s -> fits s v.
Proof.
  induction d as [|[k z] t IH]; intros c c' H E; simpl in E; [inversion E; subst; exact H|].
  destruct (w2a_step c k z) as [c1|e] eqn:S; [|discriminate]. simpl in E. apply (IH c1); auto.
  clear IH E t c'. unfold w2a_step, dlookup in S. destruct (dget C_keys_shape (name_part k)) as [s0|] eqn:N; [|discriminate].
  simpl in S. intros op v s D Z.
  assert (forall X, Ok X = Ok c1 -> X = c1) as J by congruence.
  destruct s0.
  - apply J in S. subst c1. rewrite dget_dset in D. destruct (keqb k op) eqn:K; [|eauto].
    apply keqb_eq in K. subst op. injection D as <-. pose proof (shape_no_us _ _ Z) as U.
    unfold name_part in N. rewrite split_us_plain in N by auto. simpl in N. unfold op_shape in Z. rewrite N in Z. injection Z as <-. exact I.
  - destruct (parse_index _ _) as [pre|] eqn:P; [|discriminate]. simpl in S. apply J in S. subst c1.
    rewrite dget_dset in D. destruct (keqb (name_part k) op) eqn:K; [|eauto].
    apply keqb_eq in K. subst op. injection D as <-. apply aset_fits. destruct (dget c (name_part k)) as [a|] eqn:A.
    + eapply H; eauto.
    + unfold op_shape in Z. rewrite N in Z. injection Z as <-. exact I.
  - destruct (parse_index _ _) as [pre|] eqn:P; [|discriminate]. simpl in S. apply J in S. subst c1.
    rewrite dget_dset in D. destruct (keqb (name_part k) op) eqn:K; [|eauto].
    apply keqb_eq in K. subst op. injection D as <-. apply aset_fits. destruct (dget c (name_part k)) as [a|] eqn:A.
    + eapply H; eauto.
    + unfold op_shape in Z. rewrite N in Z. injection Z as <-. exact I.
Qed.
Lemma w2a_wf d : forall c c', wf c -> wcxf2arrays_from c d = Ok c' -> wf c'.
Proof.
  induction d as [|[k z] t IH]; intros c c' H E; simpl in E; [inversion E; subst; exact H|].
  destruct (w2a_step c k z) as [c1|e] eqn:S; [|discriminate]. simpl in E. apply (IH c1); auto.
  unfold w2a_step in S. destruct (dlookup C_keys_shape (name_part k)) as [s0|]; [|discriminate]. simpl in S.
  assert (forall X, Ok X = Ok c1 -> X = c1) as J by congruence.
  destruct s0; [|destruct (parse_index _ _); [|discriminate]..]; simpl in S; apply J in S; subst; apply wf_dset; auto.
Qed.
Lemma symm_arr_wc op v r : symm_arr op v = Some r -> In op WC_keys.
Proof.
  assert (forall l, forallb (fun k => mem k WC_keys) l = true -> mem op l = true -> In op WC_keys) as G.
  { intros l H M. apply mem_In in M. rewrite forallb_forall in H. exact (proj1 (mem_In _ op WC_keys) (H _ M)). }
  unfold symm_arr.
  repeat match goal with |- (if mem op ?l then _ else _) = _ -> _ =>
    let M := fresh in destruct (mem op l) eqn:M; [intros _; refine (G l _ M); vm_compute; reflexivity|clear M] end.
  discriminate.
Qed.
Lemma symmetrize_entries c : forall acc c', wf c -> symmetrize_from acc c = Ok c' ->
  forall op w, dget c' op = Some w -> (exists v, dget c op = Some v /\ symm_arr op v = Some (Ok w)) \/ dget acc op = Some w.
Proof.
  induction c as [|[k v] t IH]; intros acc c' W E op w D; simpl in E; [inversion E; subst; auto|].
  inversion W as [|x l NI W' Ex]; subst.
  assert (forall v', dget t op = Some v' -> dget ((k, v) :: t) op = Some v') as Keep.
  { intros v' H. simpl. destruct (keqb op k) eqn:K; auto. apply keqb_eq in K. subst. elim NI. exact (dget_Some_key _ _ _ H). }
  destruct (symm_arr k v) as [r|] eqn:S.
  - destruct r as [a|]; [|discriminate]. simpl in E. destruct (IH _ _ W' E op w D) as [(v' & D' & S')|D'].
    + left. exists v'. split; auto.
    + rewrite dget_dset in D'. destruct (keqb k op) eqn:K; auto. apply keqb_eq in K. subst op. injection D' as <-.
      left. exists v. split; auto. simpl. rewrite keqb_refl. reflexivity.
  - destruct (IH _ _ W' E op w D) as [(v' & D' & S')|D']; auto. left. exists v'. auto.
Qed.
Lemma read_proper d c : read_smeft d = Ok c -> some_proper c.
Proof.
  unfold read_smeft, wcxf2arrays. destruct (wcxf2arrays_from [] d) as [c0|] eqn:E; [|discriminate]. simpl. intros S op w D.
  destruct (symmetrize_entries _ _ _ (w2a_wf d [] c0 (NoDup_nil _) E) S op w D) as [(v & D0 & A)|X]; [|discriminate].
  pose proof (symm_arr_wc _ _ _ A) as M. split; auto.
  destruct (wc_shape op) as (s & Z & _); [exact (proj2 (mem_In _ op WC_keys) M)|].
  assert (fits s v) as F. { eapply (w2a_fits d [] c0); eauto. discriminate. }
  exists s. split; auto. destruct (symmetrize_one op s v M Z F) as (w' & S' & F' & Y & _).
  unfold symmetrize, symmetrize_from in S'. rewrite A in S'. simpl in S'. injection S' as ->. auto.
Qed.

(** ** add_missing *)
Definition fill1 (c : arrays) (k : string) : arrays :=
  if dmem c k then c else dset c k (match dget C_keys_shape k with Some s => zeros s | None => A0 C0 end).
Lemma fill_get l : forall c op, dget (fold_left fill1 l c) op =
  match dget c op with Some v => Some v | None =>
    if mem op l then Some (match dget C_keys_shape op with Some s => zeros s | None => A0 C0 end) else None end.
Proof.
  induction l as [|k t IH]; intros c op.
  - simpl. destruct (dget c op); reflexivity.
  - cbn [fold_left]. rewrite IH. unfold fill1, dmem. destruct (dget c k) as [v|] eqn:D.
    + destruct (dget c op) eqn:E; auto. cbn [mem existsb]. destruct (keqb op k) eqn:K; auto.
      apply keqb_eq in K. subst. congruence.
    + rewrite dget_dset. destruct (keqb k op) eqn:K.
      * apply keqb_eq in K. subst op. rewrite D. cbn [mem existsb]. rewrite keqb_refl. reflexivity.
      * destruct (dget c op); auto. cbn [mem existsb]. destruct (keqb op k) eqn:K'; auto.
        apply keqb_eq in K'. subst. rewrite keqb_refl in K. discriminate.
Qed.
Lemma add_missing_get c op : dget (add_missing c) op =
  match dget c op with Some v => Some v | None =>
    if mem op WC_keys then Some (match op_shape op with Some s => zeros s | None => A0 C0 end) else None end.
Proof. exact (fill_get WC_keys c op). Qed.
Lemma zeros_symm op s : index_symmetry op (zeros s).
Proof.
  unfold index_symmetry. destruct (sym_kind op), s; simpl; auto; unfold hermitian, symmetric_mat, currents, ee_currents, identical_currents,
    currents, qque_symmetry, qqql_symmetry; repeat split; intros; rewrite ?Cconj_0; reflexivity.
Qed.
Lemma proper_zeros op : In op WC_keys -> exists s, op_shape op = Some s /\ proper1 op (zeros s).
Proof.
  intros M. destruct (wc_shape op) as (s & Z & _); [exact (proj2 (mem_In _ op WC_keys) M)|]. exists s. split; auto. exists s.
  split; auto. split; [destruct s; exact I|apply zeros_symm].
Qed.
Lemma add_missing_proper c : some_proper c -> proper (add_missing c).
Proof.
  intros H op M. rewrite add_missing_get. destruct (dget c op) as [v|] eqn:D.
  - exists v. split; auto. apply (H _ _ D).
  - rewrite (proj2 (mem_In _ op WC_keys) M). destruct (proper_zeros op M) as (s & Z & P). rewrite Z. eauto.
Qed.
Lemma azero_proper A : proper A -> proper (dmap azero A).
Proof.
  intros H op M. destruct (H op M) as (v & D & s & Z & F & _). rewrite dget_dmap, D. exists (azero v). split; auto.
  exists s. split; auto. assert (azero v = zeros s) as -> by (destruct s, v; simpl in F; try contradiction; reflexivity).
  split; [destruct s; exact I|apply zeros_symm].
Qed.
Lemma all_zero A op : proper A -> In op WC_keys -> exists s, op_shape op = Some s /\ dget (dmap azero A) op = Some (zeros s).
Proof.
  intros H M. destruct (H op M) as (v & D & s & Z & F & _). exists s. split; auto. rewrite dget_dmap, D.
  destruct s, v; simpl in F; try contradiction; reflexivity.
Qed.

(** ** Symmetries of the arrays the formulas use *)
Lemma proper_in A op : proper A -> mem op WC_keys = true -> exists v, dget A op = Some v /\ proper1 op v.
Proof. intros H M. apply H. exact (proj1 (mem_In _ op WC_keys) M). Qed.
Ltac acc A op := let H := fresh in intros H; destruct (proper_in A op H) as (v & D & s & Z & F & Y); [vm_compute; reflexivity|];
  vm_compute in Z; injection Z as <-; destruct v; simpl in F; try contradiction; unfold g0, g2, g4; rewrite D; exact Y.
Section Accessors.
Variable A : arrays.
Lemma a_phil1 : proper A -> hermitian (g2 A "phil1"). Proof. acc A "phil1". Qed.
Lemma a_phil3 : proper A -> hermitian (g2 A "phil3"). Proof. acc A "phil3". Qed.
Lemma a_phie : proper A -> hermitian (g2 A "phie"). Proof. acc A "phie". Qed.
Lemma a_phiq1 : proper A -> hermitian (g2 A "phiq1"). Proof. acc A "phiq1". Qed.
Lemma a_phiq3 : proper A -> hermitian (g2 A "phiq3"). Proof. acc A "phiq3". Qed.
Lemma a_phiu : proper A -> hermitian (g2 A "phiu"). Proof. acc A "phiu". Qed.
Lemma a_phid : proper A -> hermitian (g2 A "phid"). Proof. acc A "phid". Qed.
Lemma a_llphiphi : proper A -> symmetric_mat (g2 A "llphiphi"). Proof. acc A "llphiphi". Qed.
Lemma a_ll : proper A -> identical_currents (g4 A "ll"). Proof. acc A "ll". Qed.
Lemma a_qq1 : proper A -> identical_currents (g4 A "qq1"). Proof. acc A "qq1". Qed.
Lemma a_qq3 : proper A -> identical_currents (g4 A "qq3"). Proof. acc A "qq3". Qed.
Lemma a_uu : proper A -> identical_currents (g4 A "uu"). Proof. acc A "uu". Qed.
Lemma a_dd : proper A -> identical_currents (g4 A "dd"). Proof. acc A "dd". Qed.
Lemma a_ee : proper A -> ee_currents (g4 A "ee"). Proof. acc A "ee". Qed.
Lemma a_lq1 : proper A -> currents (g4 A "lq1"). Proof. acc A "lq1". Qed.
Lemma a_lq3 : proper A -> currents (g4 A "lq3"). Proof. acc A "lq3". Qed.
Lemma a_eu : proper A -> currents (g4 A "eu"). Proof. acc A "eu". Qed.
Lemma a_ed : proper A -> currents (g4 A "ed"). Proof. acc A "ed". Qed.
Lemma a_ud1 : proper A -> currents (g4 A "ud1"). Proof. acc A "ud1". Qed.
Lemma a_ud8 : proper A -> currents (g4 A "ud8"). Proof. acc A "ud8". Qed.
Lemma a_le : proper A -> currents (g4 A "le"). Proof. acc A "le". Qed.
Lemma a_lu : proper A -> currents (g4 A "lu"). Proof. acc A "lu". Qed.
Lemma a_ld : proper A -> currents (g4 A "ld"). Proof. acc A "ld". Qed.
Lemma a_qe : proper A -> currents (g4 A "qe"). Proof. acc A "qe". Qed.
Lemma a_qu1 : proper A -> currents (g4 A "qu1"). Proof. acc A "qu1". Qed.
Lemma a_qu8 : proper A -> currents (g4 A "qu8"). Proof. acc A "qu8". Qed.
Lemma a_qd1 : proper A -> currents (g4 A "qd1"). Proof. acc A "qd1". Qed.
Lemma a_qd8 : proper A -> currents (g4 A "qd8"). Proof. acc A "qd8". Qed.
End Accessors.
Create HintDb msym.
#[local] Hint Resolve a_phil1 a_phil3 a_phie a_phiq1 a_phiq3 a_phiu a_phid a_llphiphi a_ll a_qq1 a_qq3 a_uu a_dd a_ee a_lq1 a_lq3 a_eu a_ed a_ud1 a_ud8
  a_le a_lu a_ld a_qe a_qu1 a_qu8 a_qd1 a_qd8 : msym.

(** The operations of the formulas respect the symmetries. *)
Definition exchange (t : ten) : Prop := forall p r s u, t p r s u = t s u p r.
Definition fierz (t : ten) : Prop := forall p r s u, t p r s u = t p u s r.
Lemma h_eye : hermitian meye. Proof. intros i j. unfold meye. rewrite delta_conj, delta_sym. reflexivity. Qed.
Lemma h_add a b : hermitian a -> hermitian b -> hermitian (madd a b).
Proof. intros H K i j. unfold madd. rewrite Cconj_add, <- H, <- K. reflexivity. Qed.
Lemma h_sub a b : hermitian a -> hermitian b -> hermitian (msub a b).
Proof. intros H K i j. unfold msub. rewrite Cconj_sub, <- H, <- K. reflexivity. Qed.
Lemma h_scale x a : hermitian a -> hermitian (mscale x a).
Proof. intros H i j. unfold mscale. rewrite Cconj_mul, Cconj_R, <- H. reflexivity. Qed.
#[local] Hint Resolve h_eye h_add h_sub h_scale : msym.
Lemma z_nu k A : proper A -> hermitian (znu k A). Proof. intros; unfold znu; auto 12 with msym. Qed.
Lemma z_el k A : proper A -> hermitian (zel k A). Proof. intros; unfold zel; auto 12 with msym. Qed.
Lemma z_er k A : proper A -> hermitian (zer k A). Proof. intros; unfold zer; auto 12 with msym. Qed.
Lemma z_ul k A : proper A -> hermitian (zul k A). Proof. intros; unfold zul; auto 12 with msym. Qed.
Lemma z_ur k A : proper A -> hermitian (zur k A). Proof. intros; unfold zur; auto 12 with msym. Qed.
Lemma z_dl k A : proper A -> hermitian (zdl k A). Proof. intros; unfold zdl; auto 12 with msym. Qed.
Lemma z_dr k A : proper A -> hermitian (zdr k A). Proof. intros; unfold zdr; auto 12 with msym. Qed.
#[local] Hint Resolve z_nu z_el z_er z_ul z_ur z_dl z_dr : msym.
Lemma c_zero : currents tzero. Proof. intros p r s u. symmetry. apply Cconj_0. Qed.
Lemma c_add a b : currents a -> currents b -> currents (tadd a b).
Proof. intros H K p r s u. unfold tadd. rewrite Cconj_add, <- H, <- K. reflexivity. Qed.
Lemma c_sub a b : currents a -> currents b -> currents (tsub a b).
Proof. intros H K p r s u. unfold tsub. rewrite Cconj_sub, <- H, <- K. reflexivity. Qed.
Lemma c_scale x a : currents a -> currents (tscale x a).
Proof. intros H p r s u. unfold tscale. rewrite Cconj_mul, Cconj_R, <- H. reflexivity. Qed.
Lemma c_same a : identical_currents a -> currents a. Proof. intros H; apply H. Qed.
Lemma c_stpr a : currents a -> currents (e_stpr a).
Proof. intros H p r s u. unfold e_stpr. apply H. Qed.
Lemma c_ptsr a : identical_currents a -> currents (e_ptsr a).
Proof. intros [H K] p r s u. unfold e_ptsr. rewrite K. apply H. Qed.
Lemma c_srpt a : identical_currents a -> currents (e_srpt a).
Proof. intros [H K] p r s u. unfold e_srpt. rewrite K. apply H. Qed.
Lemma c_prst a b : hermitian a -> hermitian b -> currents (e_pr_st a b).
Proof. intros H K p r s u. unfold e_pr_st. rewrite Cconj_mul, <- H, <- K. reflexivity. Qed.
Lemma c_ptrs a : currents (e_pt_rs a (mconj a)).
Proof. intros p r s u. unfold e_pt_rs, mconj. rewrite Cconj_mul, Cconj_conj. apply (f_equal (fun z => z)). ring. Qed.
Lemma c_ptsr2 a : hermitian a -> currents (e_pt_sr a a).
Proof. intros H p r s u. unfold e_pt_sr. rewrite Cconj_mul, <- !H. ring. Qed.
#[local] Hint Resolve c_zero c_add c_sub c_scale c_same c_stpr c_ptsr c_srpt c_prst c_ptrs c_ptsr2 : msym.
Lemma x_zero : exchange tzero. Proof. intros p r s u. reflexivity. Qed.
Lemma x_add a b : exchange a -> exchange b -> exchange (tadd a b).
Proof. intros H K p r s u. unfold tadd. rewrite H, K. reflexivity. Qed.
Lemma x_sub a b : exchange a -> exchange b -> exchange (tsub a b).
Proof. intros H K p r s u. unfold tsub. rewrite H, K. reflexivity. Qed.
Lemma x_scale x a : exchange a -> exchange (tscale x a).
Proof. intros H p r s u. unfold tscale. rewrite H. reflexivity. Qed.
Lemma x_same a : identical_currents a -> exchange a. Proof. intros [_ H]; exact H. Qed.
Lemma x_prst a : exchange (e_pr_st a a).
Proof. intros p r s u. unfold e_pr_st. ring. Qed.
Lemma x_ptsr a : exchange (e_pt_sr a a).
Proof. intros p r s u. unfold e_pt_sr. ring. Qed.
Lemma ee_same a : ee_currents a -> identical_currents a. Proof. intros H; apply H. Qed.
Lemma same_intro a : currents a -> exchange a -> identical_currents a. Proof. exact (@conj _ _). Qed.
#[local] Hint Resolve x_zero x_add x_sub x_scale x_same x_prst x_ptsr ee_same : msym.
Lemma f_sub a b : fierz a -> fierz b -> fierz (tsub a b).
Proof. intros H K p r s u. unfold tsub. rewrite H, K. reflexivity. Qed.

(** ** Index symmetries of the JMS operators (arXiv:1709.04486), independent of the lists in wet.py *)
Inductive jkind := JHerm | JBoth | JExchange | JSymmetric | JNone.
Definition jms_kind (op : string) : jkind :=
  if mem op ["VnueLL"; "VnuuLL"; "VnudLL"; "VeuLL"; "VedLL"; "V1udLL"; "V8udLL"; "VeuRR"; "VedRR"; "V1udRR"; "V8udRR";
             "VnueLR"; "VeeLR"; "VnuuLR"; "VnudLR"; "VeuLR"; "VedLR"; "VueLR"; "VdeLR"; "V1uuLR"; "V8uuLR"; "V1udLR"; "V8udLR";
             "V1duLR"; "V8duLR"; "V1ddLR"; "V8ddLR"] then JHerm
  else if mem op ["VnunuLL"; "VeeLL"; "VuuLL"; "VddLL"; "VeeRR"; "VuuRR"; "VddRR"] then JBoth
  else if mem op ["SeeRR"; "S1uuRR"; "S8uuRR"; "S1ddRR"; "S8ddRR"; "SnunuLL"] then JExchange
  else if mem op ["nu"] then JSymmetric
  else JNone.
Definition jms_symmetry (op : string) (v : arr) : Prop :=
  match jms_kind op, v with
  | JHerm, A4 t => currents t
  | JBoth, A4 t => identical_currents t
  | JExchange, A4 t => exchange t
  | JSymmetric, A2 m => symmetric_mat m
  | JNone, _ => True
  | _, _ => False
  end.
Lemma s_scale x a : symmetric_mat a -> symmetric_mat (mscale x a).
Proof. intros H i j. unfold mscale. rewrite H. reflexivity. Qed.
#[local] Hint Resolve s_scale : msym.
Definition of_kind (k : jkind) (v : arr) : Prop :=
  match k, v with
  | JHerm, A4 t => currents t
  | JBoth, A4 t => identical_currents t
  | JExchange, A4 t => exchange t
  | JSymmetric, A2 m => symmetric_mat m
  | JNone, _ => True
  | _, _ => False
  end.
Lemma k_herm t : currents t -> of_kind JHerm (A4 t). Proof. auto. Qed.
Lemma k_both t : currents t -> exchange t -> of_kind JBoth (A4 t). Proof. exact (same_intro t). Qed.
Lemma k_exch t : exchange t -> of_kind JExchange (A4 t). Proof. auto. Qed.
Lemma k_symm t : symmetric_mat t -> of_kind JSymmetric (A2 t). Proof. auto. Qed.
Lemma k_none v : of_kind JNone v. Proof. exact I. Qed.
Lemma table_symm k p A : proper A -> forall op f, In (op, f) match_tab -> jms_symmetry op (f k p A).
Proof.
  intros P op f I. unfold match_tab in I. cbn [In] in I.
  repeat (destruct I as [I|I]; [injection I as <- <-;
    match goal with |- jms_symmetry ?o (?f k p A) =>
      let v := eval hnf in (f k p A) in let j := eval vm_compute in (jms_kind o) in change (of_kind j v) end;
    (apply k_none || apply k_herm || apply k_both || apply k_exch || apply k_symm); auto 15 with msym|]).
  contradiction.
Qed.
