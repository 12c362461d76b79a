(** symmetrize and flavor_rotation on dictionaries of arrays. *)
From Coq Require Import String Ascii List Bool Arith ZArith Reals Lia Lra.
From Verif Require Import PyBase PyDict Cplx Tensor SmeftSyntax SmeftTab SmeftSymm Smeft SmeftSpec SmeftSymmFacts SmeftNames.
Import ListNotations.
Open Scope string_scope.
Open Scope list_scope.
Open Scope nat_scope.
#[local] Opaque exec srun WC_keys rot_tab.

(** ** Symmetrisation of one array *)
Definition kind_tab (s : symkind) : list stmt :=
  match s with
  | SReal => [SIm0 []] | SGeneral => [] | SHermitian => symm_2_tab | SSymmetric => symm_9_tab
  | SCurrents => symm_5_tab | SIdentical => symm_4_tab | SEe => symm_6_tab | SQque => symm_7_tab | SQqql => symm_8_tab
  end.
Definition op_tab (op : string) : list stmt := kind_tab (sym_kind op).
Definition shape_of (v : arr) : shape := match v with A0 _ => Sh0 | A2 _ => Sh2 | A4 _ => Sh4 end.
Definition symm1 (op : string) (v : arr) : arr := arr_of (shape_of v) (exec (op_tab op) (entry v)).
Lemma fits_shape s v : fits s v -> shape_of v = s.
Proof. destruct s, v; simpl; tauto. Qed.
Lemma fits_symm1 s op v : fits s v -> fits s (symm1 op v).
Proof. intros F. unfold symm1. rewrite (fits_shape _ _ F). apply fits_arr_of. Qed.

Definition kind_eqb (a b : symkind) : bool :=
  match a, b with
  | SReal, SReal | SGeneral, SGeneral | SHermitian, SHermitian | SSymmetric, SSymmetric
  | SCurrents, SCurrents | SIdentical, SIdentical | SEe, SEe | SQque, SQque | SQqql, SQqql => true
  | _, _ => false
  end.
Lemma kind_eqb_eq a b : kind_eqb a b = true -> a = b.
Proof. destruct a, b; simpl; congruence. Qed.
Definition shape_eqb (a b : shape) : bool :=
  match a, b with Sh0, Sh0 | Sh2, Sh2 | Sh4, Sh4 => true | _, _ => false end.
Lemma shape_eqb_eq a b : shape_eqb a b = true -> a = b.
Proof. destruct a, b; simpl; congruence. Qed.
(** All operators in [l] have shape [s], kind [q] and are Wilson coefficients. *)
Definition chk (l : list string) (s : shape) (q : symkind) : bool :=
  forallb (fun k => match op_shape k with Some s' => shape_eqb s' s | None => false end && kind_eqb (sym_kind k) q
                    && mem k WC_keys) l.
Lemma chk_sound l s q k : chk l s q = true -> mem k l = true ->
  op_shape k = Some s /\ sym_kind k = q /\ mem k WC_keys = true.
Proof.
  unfold chk. rewrite forallb_forall. intros H M. apply mem_In in M. specialize (H k M).
  rewrite !andb_true_iff in H. destruct H as [[H1 H2] H3]. split; [|split]; auto using kind_eqb_eq.
  destruct (op_shape k); try discriminate. f_equal. apply shape_eqb_eq; auto.
Qed.
Lemma mem_app (k : string) l m : mem k (l ++ m) = mem k l || mem k m.
Proof. unfold mem. apply existsb_app. Qed.
Lemma RtoC_exec z : exec [SIm0 []] (entry (A0 z)) [] = RtoC (Re z).
Proof. reflexivity. Qed.
Lemma symm_arr_wc k s v : mem k WC_keys = true -> op_shape k = Some s -> fits s v ->
  symm_arr k v = Some (Ok (symm1 k v)).
Proof.
  intros M E F. unfold symm_arr.
  assert (forall l s' q, chk l s' q = true -> mem k l = true -> s = s' /\ sym_kind k = q) as K.
  { intros l s' q C0' M'. destruct (chk_sound l s' q k C0' M') as (A & B & _). split; congruence. }
  destruct (mem k symm_keys_0) eqn:M0.
  { apply (K _ Sh0 SReal) in M0; [|vm_compute; reflexivity]. destruct M0 as [-> Q]. destruct v; simpl in F; try tauto.
    unfold symm1, op_tab. rewrite Q. reflexivity. }
  rewrite mem_app. destruct (mem k symm_keys_1) eqn:M1.
  { apply (K _ Sh2 SGeneral) in M1; [|vm_compute; reflexivity]. destruct M1 as [-> Q]. destruct v; simpl in F; try tauto.
    unfold symm1, op_tab. rewrite Q. reflexivity. }
  destruct (mem k symm_keys_3) eqn:M3.
  { apply (K _ Sh4 SGeneral) in M3; [|vm_compute; reflexivity]. destruct M3 as [-> Q]. destruct v; simpl in F; try tauto.
    unfold symm1, op_tab. rewrite Q. reflexivity. }
  simpl orb. cbv iota.
  destruct (mem k symm_keys_2) eqn:M2.
  { apply (K _ Sh2 SHermitian) in M2; [|vm_compute; reflexivity]. destruct M2 as [-> Q]. destruct v; simpl in F; try tauto.
    unfold symm1, op_tab. rewrite Q. reflexivity. }
  destruct (mem k symm_keys_4) eqn:M4.
  { apply (K _ Sh4 SIdentical) in M4; [|vm_compute; reflexivity]. destruct M4 as [-> Q]. destruct v; simpl in F; try tauto.
    unfold symm1, op_tab. rewrite Q. reflexivity. }
  destruct (mem k symm_keys_5) eqn:M5.
  { apply (K _ Sh4 SCurrents) in M5; [|vm_compute; reflexivity]. destruct M5 as [-> Q]. destruct v; simpl in F; try tauto.
    unfold symm1, op_tab. rewrite Q. reflexivity. }
  destruct (mem k symm_keys_6) eqn:M6.
  { apply (K _ Sh4 SEe) in M6; [|vm_compute; reflexivity]. destruct M6 as [-> Q]. destruct v; simpl in F; try tauto.
    unfold symm1, op_tab. rewrite Q. reflexivity. }
  destruct (mem k symm_keys_7) eqn:M7.
  { apply (K _ Sh4 SQque) in M7; [|vm_compute; reflexivity]. destruct M7 as [-> Q]. destruct v; simpl in F; try tauto.
    unfold symm1, op_tab. rewrite Q. reflexivity. }
  destruct (mem k symm_keys_8) eqn:M8.
  { apply (K _ Sh4 SQqql) in M8; [|vm_compute; reflexivity]. destruct M8 as [-> Q]. destruct v; simpl in F; try tauto.
    unfold symm1, op_tab. rewrite Q. reflexivity. }
  destruct (mem k symm_keys_9) eqn:M9.
  { apply (K _ Sh2 SSymmetric) in M9; [|vm_compute; reflexivity]. destruct M9 as [-> Q]. destruct v; simpl in F; try tauto.
    unfold symm1, op_tab. rewrite Q. reflexivity. }
  exfalso.
  assert (forallb (fun k => mem k symm_keys_0 || mem k symm_keys_1 || mem k symm_keys_2 || mem k symm_keys_3 ||
     mem k symm_keys_4 || mem k symm_keys_5 || mem k symm_keys_6 || mem k symm_keys_7 || mem k symm_keys_8 || mem k symm_keys_9) WC_keys = true) as H
    by (vm_compute; reflexivity).
  rewrite forallb_forall in H. apply mem_In in M. specialize (H k M).
  rewrite M0, M1, M2, M3, M4, M5, M6, M7, M8, M9 in H. discriminate.
Qed.
Lemma symm_arr_other k v : mem k WC_keys = false -> symm_arr k v = None.
Proof.
  intros M. unfold symm_arr. rewrite mem_app.
  assert (forall l, forallb (fun k => mem k WC_keys) l = true -> mem k l = false) as K.
  { intros l H. rewrite forallb_forall in H. destruct (mem k l) eqn:E; auto. apply mem_In in E.
    rewrite (H k E) in M. discriminate. }
  rewrite (K symm_keys_0), (K symm_keys_1), (K symm_keys_2), (K symm_keys_3), (K symm_keys_4), (K symm_keys_5),
    (K symm_keys_6), (K symm_keys_7), (K symm_keys_8), (K symm_keys_9) by (vm_compute; reflexivity). reflexivity.
Qed.

(** ** The dictionary version *)
Definition is_wc (op : string) : bool := mem op WC_keys.
Lemma symmetrize_from_spec c : forall acc, typed c -> wf acc -> (forall k, In k (dkeys acc) -> ~ In k (dkeys c)) ->
  symmetrize_from acc c =
  Ok (acc ++ map (fun kv => (fst kv, symm1 (fst kv) (snd kv))) (filter (fun kv => is_wc (fst kv)) c)).
Proof.
  induction c as [|[k v] t IH]; intros acc T W D; simpl; [rewrite app_nil_r; reflexivity|].
  assert (typed t) as Tt.
  { destruct T as [W' T]. inversion W'; subst. split; auto. intros; apply T; right; auto. }
  assert (~ In k (dkeys t)) as Nk by (destruct T as [W' _]; inversion W'; auto).
  destruct (proj2 T k v (or_introl eq_refl)) as (s & E & F).
  unfold is_wc at 1. simpl. destruct (mem k WC_keys) eqn:M.
  - rewrite (symm_arr_wc k s v) by auto. simpl. rewrite dset_fresh.
    + rewrite IH; auto.
      * simpl. rewrite <- app_assoc. reflexivity.
      * unfold wf, dkeys in *. rewrite map_app. simpl. apply NoDup_snoc; auto.
        intros I. apply (D k I). left; reflexivity.
      * intros k' I J. unfold dkeys in I. rewrite map_app, in_app_iff in I. destruct I as [I|[<-|[]]].
        -- apply (D k' I). right; auto.
        -- tauto.
    + intros I. apply (D k I). left; reflexivity.
  - rewrite symm_arr_other by auto. rewrite IH; auto. intros k' I J. apply (D k' I). right; auto.
Qed.
Lemma symmetrize_spec c : typed c ->
  symmetrize c = Ok (map (fun kv => (fst kv, symm1 (fst kv) (snd kv))) (filter (fun kv => is_wc (fst kv)) c)).
Proof. intros T. unfold symmetrize. rewrite symmetrize_from_spec; auto. constructor. Qed.
Definition symmetrized (c : arrays) : arrays :=
  map (fun kv => (fst kv, symm1 (fst kv) (snd kv))) (filter (fun kv => is_wc (fst kv)) c).
Lemma dget_map_key (f : string -> arr -> arr) (d : arrays) k :
  dget (map (fun kv => (fst kv, f (fst kv) (snd kv))) d) k = option_map (f k) (dget d k).
Proof.
  induction d as [|[k' v'] t IH]; simpl; auto. destruct (keqb k k') eqn:E; auto.
  apply keqb_eq in E; subst; reflexivity.
Qed.
Lemma symmetrized_get c k : typed c ->
  dget (symmetrized c) k = if is_wc k then option_map (symm1 k) (dget c k) else None.
Proof.
  intros [W T]. unfold symmetrized. rewrite dget_map_key. rewrite dget_filter by auto. simpl.
  destruct (dget c k); simpl; destruct (is_wc k); reflexivity.
Qed.
Lemma symmetrized_keys c : dkeys (symmetrized c) = filter is_wc (dkeys c).
Proof.
  unfold symmetrized, dkeys. rewrite map_map. simpl. induction c as [|[k v] t IH]; simpl; auto.
  destruct (is_wc k); simpl; rewrite ?IH; reflexivity.
Qed.
Lemma symmetrized_typed c : typed c -> typed (symmetrized c).
Proof.
  intros [W T]. split.
  - unfold wf. rewrite symmetrized_keys. apply NoDup_filter; auto.
  - intros op v I. unfold symmetrized in I. apply in_map_iff in I. destruct I as ([k w] & E & I).
    simpl in E. injection E as <- <-. apply filter_In in I. destruct I as [I _].
    destruct (T _ _ I) as (s & E & F). exists s. split; auto. apply fits_symm1; auto.
Qed.

(** ** Properties of symm1 *)
(** Shape expected for each symmetry kind. *)
Definition kind_shape (q : symkind) (s : shape) : bool :=
  match q, s with
  | SReal, Sh0 | SHermitian, Sh2 | SSymmetric, Sh2 | SGeneral, Sh2 | SGeneral, Sh4
  | SCurrents, Sh4 | SIdentical, Sh4 | SEe, Sh4 | SQque, Sh4 | SQqql, Sh4 => true
  | _, _ => false
  end.
Lemma wc_shapes : forallb (fun k => match op_shape k with Some s => kind_shape (sym_kind k) s | None => false end) WC_keys = true.
Proof. vm_compute; reflexivity. Qed.
Lemma wc_shape op : is_wc op = true -> exists s, op_shape op = Some s /\ kind_shape (sym_kind op) s = true.
Proof.
  intros M. apply mem_In in M. pose proof wc_shapes as H. rewrite forallb_forall in H. specialize (H op M).
  destruct (op_shape op) as [s|]; [|discriminate]. eauto.
Qed.
Lemma symm1_fix s op v : is_wc op = true -> op_shape op = Some s -> fits s v -> index_symmetry op v -> symm1 op v = v.
Proof.
  intros M E F Y. destruct (wc_shape op M) as (s' & E' & K). assert (s' = s) as -> by congruence.
  unfold symm1, op_tab, index_symmetry in *. rewrite (fits_shape _ _ F).
  destruct (sym_kind op) eqn:Q; destruct s; try discriminate K; destruct v; simpl in F; try contradiction;
    cbn [kind_tab arr_of entry].
  - simpl in Y. f_equal. transitivity (RtoC (Re z)); [exact (RtoC_exec z)|]. apply C_ext; unfold Re, Im, RtoC in *; simpl; auto.
  - reflexivity.
  - reflexivity.
  - f_equal. apply symm2_fix; auto.
  - f_equal. apply symm9_fix; auto.
  - f_equal. apply symm5_fix; auto.
  - f_equal. apply symm4_fix; auto.
  - f_equal. apply symm6_fix; auto.
  - f_equal. apply symm7_fix; auto.
  - f_equal. apply symm8_fix; auto.
Qed.
Lemma symm1_ok s op v : is_wc op = true -> op_shape op = Some s -> fits s v -> index_symmetry op (symm1 op v).
Proof.
  intros M E F. destruct (wc_shape op M) as (s' & E' & K). assert (s' = s) as -> by congruence.
  unfold symm1, op_tab, index_symmetry in *. rewrite (fits_shape _ _ F).
  destruct (sym_kind op) eqn:Q; destruct s; try discriminate K; destruct v; simpl in F; try contradiction;
    cbn [kind_tab arr_of entry]; auto.
  - apply symm2_ok.
  - apply symm9_ok.
  - apply symm5_ok.
  - apply symm4_ok.
  - apply symm6_ok.
  - apply symm7_ok.
  - apply symm8_ok.
Qed.
Lemma reads_nil dom : forallb (reads_reps [] (srun [])) dom = true.
Proof. induction dom; simpl; auto. Qed.
Lemma reads_sreal : forallb (reads_reps [SIm0 []] (srun [SIm0 []])) [[]] = true.
Proof. vm_compute; reflexivity. Qed.
Definition is_rep (op : string) (c : cell) : bool := representative (op_tab op) c.
Lemma entry_out s v x : fits s v -> ~ In x (idxs s) -> entry v x = C0.
Proof.
  destruct s, v; simpl fits; intros F N; try contradiction; destruct x as [|a [|b [|c [|d [|]]]]]; simpl; auto;
    exfalso; apply N; try (left; reflexivity); try apply idx2_in; apply idx4_in.
Qed.
(** The result only depends on the representatives, and leaves them alone. *)
Lemma symm1_reads s op v w : is_wc op = true -> op_shape op = Some s -> fits s v -> fits s w ->
  (forall x, In x (idxs s) -> forall im, is_rep op (im, x) = true -> cellval (entry v) (im, x) = cellval (entry w) (im, x)) ->
  symm1 op v = symm1 op w.
Proof.
  intros M E F G H. destruct (wc_shape op M) as (s' & E' & K). assert (s' = s) as -> by congruence.
  unfold symm1. rewrite (fits_shape _ _ F), (fits_shape _ _ G). apply arr_of_ext.
  assert (forall c, representative (op_tab op) c = true -> cellval (entry v) c = cellval (entry w) c) as H'.
  { intros [im x] R. destruct (in_dec (list_eq_dec (fun a b : fl => ltac:(decide equality))) x (idxs s)) as [I|N]; auto.
    unfold cellval; simpl. rewrite !(entry_out s) by auto. reflexivity. }
  apply reads_reps_sound; auto. clear H H'.
  unfold op_tab. destruct (sym_kind op); destruct s; try discriminate K; cbn [kind_tab idxs];
    auto using reads_nil, reads_sreal, reads_2, reads_4, reads_5, reads_6, reads_7, reads_8, reads_9.
Qed.
Lemma symm1_reps op s v x im : fits s v -> In x (idxs s) -> is_rep op (im, x) = true ->
  cellval (entry (symm1 op v)) (im, x) = cellval (entry v) (im, x).
Proof.
  intros F I R. unfold symm1. rewrite (fits_shape _ _ F). unfold cellval; simpl.
  rewrite entry_arr_of by auto. exact (representative_kept (op_tab op) (entry v) (im, x) R).
Qed.

(** ** Rotations *)
Open Scope C_scope.
Definition slot1 (M : mat) (t : ten) : ten := fun a b c d => S3 (fun i => M i a * t i b c d).
Definition slot2 (M : mat) (t : ten) : ten := fun a b c d => S3 (fun i => M i b * t a i c d).
Definition slot3 (M : mat) (t : ten) : ten := fun a b c d => S3 (fun i => M i c * t a b i d).
Definition slot4 (M : mat) (t : ten) : ten := fun a b c d => S3 (fun i => M i d * t a b c i).
Lemma einsum4_slots B D A X t : einsum4 B D A X t = slot1 A (slot2 B (slot3 X (slot4 D t))).
Proof.
  apply ten_ext; intros a b c d. unfold einsum4, slot1, slot2, slot3, slot4.
  apply S3_ext; intros i. rewrite S3_mul_l. apply S3_ext; intros j. rewrite S3_mul_l, S3_mul_l.
  apply S3_ext; intros k. rewrite !S3_mul_l. apply S3_ext; intros l. ring.
Qed.
Lemma slot11 M N t : slot1 N (slot1 M t) = slot1 (mmul M N) t.
Proof. apply ten_ext; intros; unfold slot1, mmul, S3; ring. Qed.
Lemma slot22 M N t : slot2 N (slot2 M t) = slot2 (mmul M N) t.
Proof. apply ten_ext; intros; unfold slot2, mmul, S3; ring. Qed.
Lemma slot33 M N t : slot3 N (slot3 M t) = slot3 (mmul M N) t.
Proof. apply ten_ext; intros; unfold slot3, mmul, S3; ring. Qed.
Lemma slot44 M N t : slot4 N (slot4 M t) = slot4 (mmul M N) t.
Proof. apply ten_ext; intros; unfold slot4, mmul, S3; ring. Qed.
Lemma slot21 M N t : slot2 N (slot1 M t) = slot1 M (slot2 N t).
Proof. apply ten_ext; intros; unfold slot1, slot2, S3; ring. Qed.
Lemma slot31 M N t : slot3 N (slot1 M t) = slot1 M (slot3 N t).
Proof. apply ten_ext; intros; unfold slot1, slot3, S3; ring. Qed.
Lemma slot41 M N t : slot4 N (slot1 M t) = slot1 M (slot4 N t).
Proof. apply ten_ext; intros; unfold slot1, slot4, S3; ring. Qed.
Lemma slot32 M N t : slot3 N (slot2 M t) = slot2 M (slot3 N t).
Proof. apply ten_ext; intros; unfold slot2, slot3, S3; ring. Qed.
Lemma slot42 M N t : slot4 N (slot2 M t) = slot2 M (slot4 N t).
Proof. apply ten_ext; intros; unfold slot2, slot4, S3; ring. Qed.
Lemma slot43 M N t : slot4 N (slot3 M t) = slot3 M (slot4 N t).
Proof. apply ten_ext; intros; unfold slot3, slot4, S3; ring. Qed.
Lemma einsum4_comp B D A X B' D' A' X' t :
  einsum4 B' D' A' X' (einsum4 B D A X t) = einsum4 (mmul B B') (mmul D D') (mmul A A') (mmul X X') t.
Proof.
  rewrite !einsum4_slots.
  rewrite (slot41 A), (slot42 B), (slot43 X), slot44.
  rewrite (slot31 A), (slot32 B), slot33.
  rewrite (slot21 A), slot22. rewrite slot11. reflexivity.
Qed.
Lemma einsum4_eye t : einsum4 meye meye meye meye t = t.
Proof.
  rewrite einsum4_slots. apply ten_ext; intros a b c d. unfold slot1, slot2, slot3, slot4, meye.
  rewrite S3_delta_l, S3_delta_l, S3_delta_l, S3_delta_l. reflexivity.
Qed.
Lemma einsum4_lin B D A X z w t u :
  einsum4 B D A X (fun i j k l => z * t i j k l + w * u i j k l) =
  (fun a b c d => z * einsum4 B D A X t a b c d + w * einsum4 B D A X u a b c d).
Proof.
  apply ten_ext; intros a b c d. unfold einsum4.
  rewrite !S3_mul_l, S3_add. apply S3_ext; intros i. rewrite !S3_mul_l, S3_add. apply S3_ext; intros j.
  rewrite !S3_mul_l, S3_add. apply S3_ext; intros k. rewrite !S3_mul_l, S3_add. apply S3_ext; intros l. ring.
Qed.
Close Scope C_scope.
(** Products of the five flavour rotations. *)
Definition ucomp (u w : umats) : umats :=
  UMats (mmul (u_q u) (u_q w)) (mmul (u_u u) (u_u w)) (mmul (u_d u) (u_d w)) (mmul (u_l u) (u_l w)) (mmul (u_e u) (u_e w)).
Definition uone : umats := UMats meye meye meye meye meye.
Definition udag (u : umats) : umats := UMats (mdag (u_q u)) (mdag (u_u u)) (mdag (u_d u)) (mdag (u_l u)) (mdag (u_e u)).
Lemma umat_comp u w x : umat (ucomp u w) x = mmul (umat u x) (umat w x).
Proof. destruct x as [[] []]; unfold umat; simpl; rewrite ?mconj_mul; reflexivity. Qed.
Lemma umat_one x : umat uone x = meye.
Proof. destruct x as [[] []]; unfold umat; simpl; rewrite ?mconj_eye; reflexivity. Qed.
Definition rot1 (u : umats) (r : rot) (v : arr) : arr :=
  match r, v with
  | R2 l x, A2 m => A2 (mmul (mmul (mT (umat u l)) m) (umat u x))
  | R4 b d a x, A4 t => A4 (einsum4 (umat u b) (umat u d) (umat u a) (umat u x) t)
  | _, _ => v
  end.
Lemma rot1_comp u w r v : rot1 w r (rot1 u r v) = rot1 (ucomp u w) r v.
Proof.
  destruct r, v; simpl; auto.
  - f_equal. rewrite !umat_comp, mT_mul, !mmul_assoc. reflexivity.
  - f_equal. rewrite einsum4_comp, !umat_comp. reflexivity.
Qed.
Lemma rot1_one r v : rot1 uone r v = v.
Proof.
  destruct r, v; simpl; auto; rewrite !umat_one.
  - rewrite mT_eye, mmul_1_l, mmul_1_r. reflexivity.
  - rewrite einsum4_eye. reflexivity.
Qed.
Lemma fits_rot1 s u r v : fits s v -> fits s (rot1 u r v).
Proof. destruct s, r, v; simpl; auto. Qed.
Definition op_rot (op : string) : rot := match dget rot_tab op with Some r => r | None => RNone end.
Definition rot_fits (r : rot) (s : shape) : bool :=
  match r, s with RNone, Sh0 | R2 _ _, Sh2 | R4 _ _ _ _, Sh4 => true | _, _ => false end.
Lemma rot_tab_ok : forallb (fun kr : string * rot => is_wc (fst kr) &&
    match op_shape (fst kr) with Some s => rot_fits (snd kr) s | None => false end) rot_tab = true.
Proof. vm_compute; reflexivity. Qed.
Lemma rot_tab_all : forallb (fun k => dmem rot_tab k) WC_keys = true.
Proof. vm_compute; reflexivity. Qed.
Lemma rot_tab_wf : wf rot_tab.
Proof.
  assert (forall l : list string, (fix nd l := match l with [] => true | x :: t => negb (mem x t) && nd t end) l = true -> NoDup l) as G.
  { induction l as [|x t IH]; intros H; constructor; apply andb_true_iff in H; destruct H as [H1 H2]; auto.
    apply (proj1 (mem_notIn _ _ _)). apply negb_true_iff; auto. }
  apply G. vm_compute; reflexivity.
Qed.
Definition rotated (u : umats) (c : arrays) : arrays :=
  flat_map (fun kr => match dget c (fst kr) with Some v => [(fst kr, rot1 u (snd kr) v)] | None => [] end) rot_tab.
Lemma rotate_ok u r s v : rot_fits r s = true -> fits s v -> rotate u r v = Ok (rot1 u r v).
Proof. destruct r, s, v; simpl; try discriminate; tauto. Qed.
Lemma flavor_rotation_spec c u : typed c -> flavor_rotation c u = Ok (rotated u c).
Proof.
  intros [W T]. unfold flavor_rotation, rotated.
  pose proof rot_tab_ok as H. pose proof rot_tab_wf as N. rewrite forallb_forall in H.
  assert (forall tab acc, incl tab rot_tab -> NoDup (dkeys tab) -> (forall k, In k (dkeys acc) -> ~ In k (dkeys tab)) ->
    flavor_rotation_from u acc tab c =
    Ok (acc ++ flat_map (fun kr => match dget c (fst kr) with Some v => [(fst kr, rot1 u (snd kr) v)] | None => [] end) tab)) as G.
  { induction tab as [|[k r] t IH]; simpl; intros acc I ND D; [rewrite app_nil_r; auto|].
    inversion ND as [|? ? Hn ND']; subst.
    assert (incl t rot_tab) as It by (intros z Hz; apply I; right; auto).
    destruct (dget c k) as [v|] eqn:E.
    - pose proof (H (k, r) (I (k, r) (or_introl eq_refl))) as Hk. cbn [fst snd] in Hk.
      apply andb_true_iff in Hk. destruct Hk as [_ Hk].
      apply dget_In in E. destruct (T _ _ E) as (s & Es & F). rewrite Es in Hk.
      rewrite (rotate_ok u r s v) by auto. simpl. rewrite dset_fresh by (intros J; apply (D k J); left; reflexivity).
      rewrite IH; auto.
      + rewrite <- app_assoc. reflexivity.
      + intros k' J. unfold dkeys in J. rewrite map_app, in_app_iff in J. destruct J as [J|[<-|[]]]; auto.
        intros J'. apply (D k' J). right; auto.
    - rewrite IH; auto. intros k' J J'. apply (D k' J). right; auto. }
  rewrite (G rot_tab []); auto.
  - intros z Hz; auto.
Qed.
Lemma rotated_keys u c k : In k (dkeys (rotated u c)) <-> is_wc k = true /\ In k (dkeys c).
Proof.
  unfold rotated, dkeys. rewrite in_map_iff. split.
  - intros ([k' v] & <- & I). apply in_flat_map in I. destruct I as ([k2 r] & Ir & I). cbn [fst snd] in *.
    destruct (dget c k2) as [w|] eqn:E; [|destruct I]. destruct I as [I|[]]. injection I as <- _. split.
    + pose proof rot_tab_ok as H. rewrite forallb_forall in H. specialize (H _ Ir). cbn [fst] in H.
      apply andb_true_iff in H. tauto.
    + eapply dget_Some_key; eauto.
  - intros [M I]. apply mem_In in M. pose proof rot_tab_all as H. rewrite forallb_forall in H. specialize (H k M).
    unfold dmem in H. destruct (dget rot_tab k) as [r|] eqn:E; [|discriminate]. apply dget_In in E.
    apply key_dget in I. destruct I as (v & I). exists (k, rot1 u r v). split; auto.
    apply in_flat_map. exists (k, r). split; auto. cbn [fst snd]. rewrite I. left; reflexivity.
Qed.
Lemma rotated_wf u c : wf (rotated u c).
Proof.
  unfold rotated. pose proof rot_tab_wf as N. revert N. unfold wf. generalize rot_tab.
  induction l as [|[k r] t IH]; simpl; intros N; [constructor|].
  inversion N as [|? ? Hn N']; subst. cbn [fst snd].
  destruct (dget c k); simpl; auto. constructor; auto.
  intros I. apply Hn. clear - I. unfold dkeys in *. apply in_map_iff in I. destruct I as ([k2 v] & E & I).
  simpl in E. subst. apply in_flat_map in I. destruct I as ([k2 r2] & Ir & I). cbn [fst snd] in I.
  destruct (dget c k2); [|destruct I]. destruct I as [I|[]]. injection I as <- _. apply (in_map fst) in Ir. exact Ir.
Qed.
Lemma rotated_get u c k : dget (rotated u c) k = if is_wc k then option_map (rot1 u (op_rot k)) (dget c k) else None.
Proof.
  destruct (dget (rotated u c) k) as [v|] eqn:E.
  - pose proof (dget_Some_key _ _ _ E) as I. apply rotated_keys in I. destruct I as [-> I].
    apply dget_In in E. unfold rotated in E. apply in_flat_map in E. destruct E as ([k2 r] & Ir & E). cbn [fst snd] in E.
    destruct (dget c k2) as [w|] eqn:G; [|destruct E]. destruct E as [E|[]]. injection E as <- <-.
    rewrite G. simpl. unfold op_rot. rewrite (In_dget _ _ _ rot_tab_wf Ir). reflexivity.
  - destruct (is_wc k) eqn:M; auto. destruct (dget c k) as [v|] eqn:G; auto. exfalso.
    apply dget_None in E. apply E. apply rotated_keys. split; auto. eapply dget_Some_key; eauto.
Qed.
Lemma rotated_typed u c : typed c -> typed (rotated u c).
Proof.
  intros [W T]. split; [apply rotated_wf|]. intros op v I. apply In_dget in I; [|apply rotated_wf].
  rewrite rotated_get in I. destruct (is_wc op); try discriminate. destruct (dget c op) as [w|] eqn:E; try discriminate.
  injection I as <-. apply dget_In in E. destruct (T _ _ E) as (s & Es & F). exists s. split; auto.
  apply fits_rot1; auto.
Qed.
