(** Rotations and symmetries; Warsaw <-> Warsaw up; Warsaw mass. *)
From Coq Require Import String Ascii List Bool Arith ZArith Reals Lia Lra.
From Verif Require Import PyBase PyDict Cplx Tensor SmeftSyntax SmeftTab SmeftSymm Wc WetN Params Smeft SmeftSpec SmeftSymmFacts SmeftNames SmeftRot.
Import ListNotations.
Open Scope string_scope.
Open Scope list_scope.
Open Scope nat_scope.
#[local] Opaque exec srun WC_keys rot_tab.

(** ** Rotations preserve the index symmetries *)
Open Scope C_scope.
Lemma S4_cc (f : fl -> fl -> fl -> fl -> C) :
  S3 (fun i => S3 (fun j => S3 (fun k => S3 (fun l => f i j k l)))) =
  S3 (fun i => S3 (fun j => S3 (fun k => S3 (fun l => f j i l k)))).
Proof.
  rewrite S3_swap. apply S3_ext; intros i. apply S3_ext; intros j. rewrite S3_swap. reflexivity.
Qed.
Lemma S4_mid (f : fl -> fl -> fl -> fl -> C) :
  S3 (fun i => S3 (fun j => S3 (fun k => S3 (fun l => f i j k l)))) =
  S3 (fun i => S3 (fun j => S3 (fun k => S3 (fun l => f i k j l)))).
Proof.
  apply S3_ext; intros i. rewrite S3_swap. reflexivity.
Qed.
Lemma S4_pr (f : fl -> fl -> fl -> fl -> C) :
  S3 (fun i => S3 (fun j => S3 (fun k => S3 (fun l => f i j k l)))) =
  S3 (fun i => S3 (fun j => S3 (fun k => S3 (fun l => f j i k l)))).
Proof. rewrite S3_swap. reflexivity. Qed.
Lemma S4_34 (f : fl -> fl -> fl -> fl -> C) :
  S3 (fun i => S3 (fun j => S3 (fun k => S3 (fun l => f i j k l)))) =
  S3 (fun i => S3 (fun j => S3 (fun k => S3 (fun l => f i j l k)))).
Proof. apply S3_ext; intros i. apply S3_ext; intros j. rewrite S3_swap. reflexivity. Qed.
Ltac s4ext := apply S3_ext; intros i; apply S3_ext; intros j; apply S3_ext; intros k; apply S3_ext; intros l.
Lemma rot_currents B D t : currents t -> currents (einsum4 B D (mconj B) (mconj D) t).
Proof.
  intros H p r s u. unfold einsum4. rewrite !S3_conj.
  rewrite S4_cc. apply S3_ext; intros i. rewrite !S3_conj. apply S3_ext; intros j. rewrite !S3_conj.
  apply S3_ext; intros k. rewrite !S3_conj. apply S3_ext; intros l.
  rewrite (H j i l k). unfold mconj. rewrite !Cconj_mul, !Cconj_conj. ring.
Qed.
Lemma rot_swap B A t : (forall p r s u, t p r s u = t s u p r) ->
  forall p r s u, einsum4 B B A A t p r s u = einsum4 B B A A t s u p r.
Proof.
  intros H p r s u. unfold einsum4. rewrite S4_mid, S4_pr, S4_34, S4_mid.
  s4ext. rewrite (H k l i j). ring.
Qed.
Lemma S4_fz (f : fl -> fl -> fl -> fl -> C) :
  S3 (fun i => S3 (fun j => S3 (fun k => S3 (fun l => f i j k l)))) =
  S3 (fun i => S3 (fun j => S3 (fun k => S3 (fun l => f i l k j)))).
Proof. rewrite S4_34, S4_mid. rewrite S4_34. reflexivity. Qed.
Lemma rot_fierz B A t : (forall p r s u, t p r s u = t p u s r) ->
  forall p r s u, einsum4 B B A A t p r s u = einsum4 B B A A t p u s r.
Proof.
  intros H p r s u. unfold einsum4. rewrite S4_fz. s4ext. rewrite (H i l k j). ring.
Qed.
Lemma rot_qque B D X t : qque_symmetry t -> qque_symmetry (einsum4 B D B X t).
Proof. intros H p r s u. unfold einsum4. rewrite S4_pr. s4ext. rewrite (H j i k l). ring. Qed.
Lemma S4_add (f g : fl -> fl -> fl -> fl -> C) :
  S3 (fun i => S3 (fun j => S3 (fun k => S3 (fun l => f i j k l)))) +
  S3 (fun i => S3 (fun j => S3 (fun k => S3 (fun l => g i j k l)))) =
  S3 (fun i => S3 (fun j => S3 (fun k => S3 (fun l => f i j k l + g i j k l)))).
Proof.
  rewrite S3_add. apply S3_ext; intros i. rewrite S3_add. apply S3_ext; intros j.
  rewrite S3_add. apply S3_ext; intros k. rewrite S3_add. reflexivity.
Qed.
Lemma rot_qqql B D t : qqql_symmetry t -> qqql_symmetry (einsum4 B D B B t).
Proof.
  intros H p r s u. unfold einsum4.
  (* bring all four terms to B i p B j r B k s D l u *)
  rewrite (S4_pr (fun i j k l => B j p * D l u * B i r * B k s * t i j k l)).
  rewrite (S4_pr (fun i j k l => B j p * D l u * B i s * B k r * t i j k l)).
  rewrite (S4_mid (fun i j k l => B i p * D l u * B j s * B k r * t j i k l)).
  rewrite (S4_mid (fun i j k l => B j r * D l u * B i s * B k p * t i j k l)).
  rewrite (S4_pr (fun i j k l => B k r * D l u * B i s * B j p * t i k j l)).
  rewrite (S4_mid (fun i j k l => B k r * D l u * B j s * B i p * t j k i l)).
  rewrite !S4_add. s4ext.
  transitivity (B i p * B j r * B k s * D l u * (t i j k l + t j i k l)); [ring|].
  rewrite (H i j k l). ring.
Qed.
Lemma rot_hermitian M m : hermitian m -> hermitian (mmul (mmul (mT (mconj M)) m) M).
Proof.
  intros H i j. unfold mmul, mT, mconj. rewrite S3_conj.
  transitivity (S3 (fun k => S3 (fun l => Cconj (M l i) * m l k * M k j))).
  { apply S3_ext; intros k. rewrite S3_mul_r. reflexivity. }
  rewrite S3_swap. apply S3_ext; intros k. rewrite Cconj_mul, S3_conj, S3_mul_r.
  apply S3_ext; intros l. rewrite (H k l), !Cconj_mul, !Cconj_conj. ring.
Qed.
Lemma rot_symmetric M m : symmetric_mat m -> symmetric_mat (mmul (mmul (mT M) m) M).
Proof.
  intros H i j. unfold mmul, mT.
  transitivity (S3 (fun k => S3 (fun l => M l i * m l k * M k j))).
  { apply S3_ext; intros k. rewrite S3_mul_r. reflexivity. }
  rewrite S3_swap. apply S3_ext; intros k. rewrite S3_mul_r.
  apply S3_ext; intros l. rewrite (H k l). ring.
Qed.
Close Scope C_scope.
Definition fld_eqb (a b : fld) : bool :=
  match a, b with Qf, Qf | Uf, Uf | Df, Df | Lf, Lf | Ef, Ef => true | _, _ => false end.
Lemma fld_eqb_eq a b : fld_eqb a b = true -> a = b.
Proof. destruct a, b; simpl; congruence. Qed.
Definition same (x y : fld * bool) : bool := fld_eqb (fst x) (fst y) && Bool.eqb (snd x) (snd y).
Definition flip (x : fld * bool) : fld * bool := (fst x, negb (snd x)).
Lemma same_eq x y : same x y = true -> x = y.
Proof.
  destruct x, y; unfold same; simpl. rewrite andb_true_iff. intros [A B]. apply fld_eqb_eq in A.
  apply Bool.eqb_prop in B. congruence.
Qed.
#[local] Opaque same.
Lemma umat_flip u x : umat u (flip x) = mconj (umat u x).
Proof. destruct x as [f []]; unfold umat, flip; simpl; rewrite ?mconj_conj; reflexivity. Qed.
Definition rot_respects (q : symkind) (r : rot) : bool :=
  match q, r with
  | SGeneral, _ => true
  | SReal, RNone => true
  | SHermitian, R2 l x => same l (flip x)
  | SSymmetric, R2 l x => same l x
  | SCurrents, R4 b d a x => same a (flip b) && same x (flip d)
  | SIdentical, R4 b d a x | SEe, R4 b d a x => same a (flip b) && same x (flip d) && same d b
  | SQque, R4 b d a x => same a b
  | SQqql, R4 b d a x => same a b && same x b
  | _, _ => false
  end.
Lemma rots_respect : forallb (fun k => rot_respects (sym_kind k) (op_rot k)) WC_keys = true.
Proof. vm_compute; reflexivity. Qed.
Lemma rot_respect op : is_wc op = true -> rot_respects (sym_kind op) (op_rot op) = true.
Proof. intros M. apply mem_In in M. pose proof rots_respect as H. rewrite forallb_forall in H. auto. Qed.
Lemma rot1_symm u op v : is_wc op = true -> index_symmetry op v -> index_symmetry op (rot1 u (op_rot op) v).
Proof.
  intros M. pose proof (rot_respect op M) as K. unfold index_symmetry.
  destruct (sym_kind op), (op_rot op), v; try discriminate K; cbn [rot1]; auto; simpl in K;
    repeat match goal with H : _ && _ = true |- _ => apply andb_true_iff in H; destruct H end;
    repeat match goal with H : same _ _ = true |- _ => apply same_eq in H; subst end;
    rewrite ?umat_flip; intros Y.
  - apply rot_hermitian; auto.
  - apply rot_symmetric; auto.
  - apply rot_currents; auto.
  - destruct Y as [Y1 Y2]. split; [apply rot_currents; auto|apply rot_swap; auto].
  - destruct Y as [[Y1 Y2] Y3]. split; [split; [apply rot_currents; auto|apply rot_swap; auto]|apply rot_fierz; auto].
  - apply rot_qque; auto.
  - apply rot_qqql; auto.
Qed.

(** ** A left inverse is a right inverse *)
Open Scope C_scope.
Definition det (a : mat) : C :=
  a F1 F1 * (a F2 F2 * a F3 F3 - a F2 F3 * a F3 F2) - a F1 F2 * (a F2 F1 * a F3 F3 - a F2 F3 * a F3 F1)
  + a F1 F3 * (a F2 F1 * a F3 F2 - a F2 F2 * a F3 F1).
Definition nx (i : fl) : fl := match i with F1 => F2 | F2 => F3 | F3 => F1 end.
(** Adjugate *)
Definition adj (a : mat) : mat := fun i j =>
  a (nx j) (nx i) * a (nx (nx j)) (nx (nx i)) - a (nx j) (nx (nx i)) * a (nx (nx j)) (nx i).
Lemma adj_mul a i j : mmul (adj a) a i j = det a * delta i j.
Proof. destruct i, j; unfold mmul, adj, det, S3, delta, nx, fl_eqb; ring. Qed.
Lemma det_mul a b : det (mmul a b) = det a * det b.
Proof. unfold det, mmul, S3. ring. Qed.
Lemma det_eye : det meye = 1.
Proof. unfold det, meye, delta, fl_eqb. ring. Qed.
Lemma right_inverse a b : mmul b a = meye -> mmul a b = meye.
Proof.
  intros H. assert (det b * det a = 1) as D by (rewrite <- det_mul, H; apply det_eye).
  (* det b * adj a = b *)
  assert (forall i j, det b * mmul (mmul b a) (mmul a b) i j = det b * mmul (mmul b a) (mmul a b) i j) as _ by auto.
  assert (mmul (fun i j => det a * b i j) a = mmul (adj a) a) as E.
  { apply mat_ext; intros i j. rewrite adj_mul. transitivity (det a * mmul b a i j).
    - unfold mmul, S3. ring.
    - rewrite H. reflexivity. }
  (* a adj(a) = det a as well *)
  assert (forall i j, mmul a (adj a) i j = det a * delta i j) as A2.
  { intros i j; destruct i, j; unfold mmul, adj, det, S3, delta, nx, fl_eqb; ring. }
  (* multiply E on the right by adj a *)
  assert (forall i j, det a * (det a * b i j) = det a * adj a i j) as E2.
  { intros i j. transitivity (mmul (mmul (fun i j => det a * b i j) a) (adj a) i j).
    - rewrite <- mmul_assoc. unfold mmul at 1. transitivity (S3 (fun k => (det a * (det a * b i k)) * delta k j)).
      + rewrite (S3_delta_r (fun k => det a * (det a * b i k))). reflexivity.
      + apply S3_ext; intros k. rewrite A2. ring.
    - rewrite E, <- mmul_assoc. unfold mmul at 1. transitivity (S3 (fun k => (det a * adj a i k) * delta k j)).
      + apply S3_ext; intros k. rewrite A2. ring.
      + rewrite (S3_delta_r (fun k => det a * adj a i k)). reflexivity. }
  assert (forall i j, b i j = det b * adj a i j) as E3.
  { intros i j. transitivity ((det b * det a) * (det b * det a) * b i j); [rewrite D; ring|].
    transitivity (det b * det b * (det a * (det a * b i j))); [ring|]. rewrite E2.
    transitivity (det b * (det b * det a) * adj a i j); [ring|]. rewrite D. ring. }
  apply mat_ext; intros i j. transitivity (det b * mmul a (adj a) i j).
  - unfold mmul. rewrite S3_mul_l. apply S3_ext; intros k. rewrite E3. ring.
  - rewrite A2. transitivity ((det b * det a) * delta i j); [ring|]. rewrite D. unfold meye. ring.
Qed.
Close Scope C_scope.
Lemma unitary_right a : unitary a -> mmul a (mdag a) = meye.
Proof. apply right_inverse. Qed.

(** ** The two translators *)
Definition uq_only (v : mat) : umats := UMats v meye meye meye meye.
Lemma ucomp_uq v w : ucomp (uq_only v) (uq_only w) = uq_only (mmul v w).
Proof. unfold ucomp, uq_only; simpl. rewrite mmul_1_l. reflexivity. Qed.
Lemma rotate_q_spec v d : good_dict d ->
  exists c r, wcxf2arrays d = Ok c /\ represents c d /\ typed c /\ symmetrize c = Ok (symmetrized c) /\
    rotate_q v d = Ok r /\ r = arrays2wcxf (rotated (uq_only v) (symmetrized c)).
Proof.
  intros G. destruct (wcxf2arrays_good d G) as (c & H & Rc). pose proof (represents_typed _ _ Rc) as T.
  exists c, (arrays2wcxf (rotated (uq_only v) (symmetrized c))). repeat (split; auto).
  - apply symmetrize_spec; auto.
  - unfold rotate_q. rewrite H. cbn [bind]. rewrite symmetrize_spec by auto. cbn [bind].
    fold (symmetrized c). fold (uq_only v).
    rewrite flavor_rotation_spec by (apply symmetrized_typed; auto). reflexivity.
Qed.
Lemma rotate_q_get v d r op s x : good_dict d -> rotate_q v d = Ok r -> op_shape op = Some s -> In x (idxs s) ->
  dget r (sname op x) =
  if is_wc op && touched d op
  then Some (entry (rot1 (uq_only v) (op_rot op) (symm1 op (array_in d op s))) x) else None.
Proof.
  intros G H E I. destruct (rotate_q_spec v d G) as (c & r' & H1 & [W Rc] & T & _ & H2 & Er).
  assert (r' = r) as -> by congruence. subst r.
  rewrite (arrays2wcxf_get _ op s x) by (auto using rotated_typed, symmetrized_typed).
  rewrite rotated_get, symmetrized_get by auto. rewrite Rc, E.
  destruct (is_wc op), (touched d op); reflexivity.
Qed.
Lemma key_filter_get ks (d : dict string C) k : wf d ->
  dget (key_filter ks d) k = if mem k ks then dget d k else None.
Proof.
  intros W. unfold key_filter. rewrite dget_filter by auto. simpl. destruct (dget d k); simpl; destruct (mem k ks); auto.
Qed.
Lemma good_filter ks d : good_dict d -> good_dict (key_filter ks d).
Proof.
  intros [W G]. split; [apply wf_filter; auto|]. intros k I. apply G. unfold key_filter, dkeys in *.
  apply in_map_iff in I. destruct I as (kv & E & I). apply filter_In in I. apply in_map_iff. exists kv; tauto.
Qed.
Lemma rotate_q_good v d r : good_dict d -> rotate_q v d = Ok r -> good_dict r.
Proof.
  intros G H. destruct (rotate_q_spec v d G) as (c & r' & _ & _ & T & _ & H2 & Er).
  assert (r' = r) as -> by congruence. subst r. apply arrays2wcxf_good, rotated_typed, symmetrized_typed; auto.
Qed.
(** [ks] contains the name of every entry that has a representative part. *)
Definition lists_reps (ks : list string) : Prop :=
  forall op s x im, is_wc op = true -> op_shape op = Some s -> In x (idxs s) -> is_rep op (im, x) = true ->
    In (sname op x) ks.
Lemma some_rep_b : forallb (fun k => match op_shape k with
    | Some s => existsb (fun x => is_rep k (false, x)) (idxs s) | None => false end) WC_keys = true.
Proof. vm_compute; reflexivity. Qed.
Lemma some_rep op s : is_wc op = true -> op_shape op = Some s -> exists x, In x (idxs s) /\ is_rep op (false, x) = true.
Proof.
  intros M E. apply mem_In in M. pose proof some_rep_b as H. rewrite forallb_forall in H. specialize (H op M).
  rewrite E in H. apply existsb_exists in H. exact H.
Qed.
Lemma array_in_fits d op s : fits s (array_in d op s).
Proof. apply fits_arr_of. Qed.
(** Symmetrising the filtered result of a rotation gives back the rotated arrays. *)
Lemma symm_of_filtered v d r ks op s : good_dict d -> rotate_q v d = Ok r -> lists_reps ks ->
  is_wc op = true -> op_shape op = Some s ->
  touched (key_filter ks r) op = touched d op /\
  (touched d op = true -> symm1 op (array_in (key_filter ks r) op s)
     = rot1 (uq_only v) (op_rot op) (symm1 op (array_in d op s))).
Proof.
  intros G H L M E. pose proof (rotate_q_good v d r G H) as Gr. split.
  - destruct (touched d op) eqn:Td.
    + destruct (some_rep op s M E) as (x & I & R). unfold touched. apply existsb_exists. exists (sname op x).
      split; [|rewrite name_part_sname by eauto using shape_no_us; apply String.eqb_refl].
      eapply dget_Some_key. rewrite key_filter_get by apply (proj1 Gr).
      assert (mem (sname op x) ks = true) as -> by (apply (proj2 (mem_In _ _ _)); eapply L; eauto).
      rewrite (rotate_q_get v d r op s x) by auto. rewrite M, Td. simpl. reflexivity.
    + destruct (touched (key_filter ks r) op) eqn:Q; auto. exfalso.
      unfold touched in Q. apply existsb_exists in Q. destruct Q as (k & I & Q). apply String.eqb_eq in Q.
      destruct (good_filter ks r Gr) as [_ Gk]. destruct (Gk k I) as (op' & s' & x & E' & Ix & ->).
      rewrite name_part_sname in Q by eauto using shape_no_us. subst op'.
      apply key_dget in I. destruct I as (z & I). rewrite key_filter_get in I by apply (proj1 Gr).
      destruct (mem (sname op x) ks); try discriminate. rewrite (rotate_q_get v d r op s' x) in I by auto.
      rewrite M, Td in I. discriminate.
  - intros Td. set (w := rot1 (uq_only v) (op_rot op) (symm1 op (array_in d op s))).
    assert (fits s w) as Fw by (apply fits_rot1, fits_symm1, array_in_fits).
    transitivity (symm1 op w).
    + apply (symm1_reads s); auto using array_in_fits. intros x I im R. unfold cellval; simpl.
      unfold array_in. rewrite entry_arr_of by auto.
      assert (dval (key_filter ks r) (sname op x) = entry w x) as ->; [|reflexivity].
      unfold dval. rewrite key_filter_get by apply (proj1 Gr).
      assert (mem (sname op x) ks = true) as -> by (apply (proj2 (mem_In _ _ _)); eapply L; eauto).
      rewrite (rotate_q_get v d r op s x) by auto. rewrite M, Td. simpl. reflexivity.
    + apply (symm1_fix s); auto. apply rot1_symm; auto. apply (symm1_ok s); auto using array_in_fits.
Qed.
(** Rotating, filtering and rotating back symmetrises the coefficients. *)
Lemma rotate_back v w d ks r r2 : good_dict d -> lists_reps ks -> mmul v w = meye ->
  rotate_q v d = Ok r -> rotate_q w (key_filter ks r) = Ok r2 ->
  exists c, wcxf2arrays d = Ok c /\ symmetrize c = Ok (symmetrized c) /\
  forall k, dget r2 k = dget (arrays2wcxf (symmetrized c)) k.
Proof.
  intros G L U H H2. destruct (rotate_q_spec v d G) as (c & r' & H1 & [W Rc] & T & Hs & _ & _).
  exists c. repeat (split; auto). intros k.
  pose proof (rotate_q_good v d r G H) as Gr. pose proof (good_filter ks r Gr) as Gf.
  pose proof (rotate_q_good w _ r2 Gf H2) as G2.
  assert (good_name k -> dget r2 k = dget (arrays2wcxf (symmetrized c)) k) as GN.
  { intros (op & s & x & E & I & ->).
    rewrite (rotate_q_get w (key_filter ks r) r2 op s x) by auto.
    rewrite (arrays2wcxf_get _ op s x) by (auto using symmetrized_typed).
    rewrite symmetrized_get by auto. rewrite Rc, E.
    destruct (is_wc op) eqn:M; auto.
    destruct (symm_of_filtered v d r ks op s G H L M E) as [-> K].
    destruct (touched d op) eqn:Td; simpl; auto. rewrite K by auto.
    rewrite rot1_comp, ucomp_uq, U. unfold uq_only. fold uone. rewrite rot1_one. reflexivity. }
  destruct (dget r2 k) as [z|] eqn:E1.
  - rewrite <- E1. rewrite <- E1 in GN. apply GN. apply (proj2 G2). eapply dget_Some_key; eauto.
  - destruct (dget (arrays2wcxf (symmetrized c)) k) as [z|] eqn:E2; auto.
    apply GN. apply (proj2 (arrays2wcxf_good _ (symmetrized_typed c T))). eapply dget_Some_key; eauto.
Qed.
