(** The field content of the SMEFT operators, and flavor_rotation as the change of
    coefficients under a redefinition of the fermion fields. *)
From Coq Require Import String Ascii List Bool Arith ZArith Reals Lia Lra.
From Verif Require Import PyBase PyDict Cplx Tensor SmeftSyntax SmeftTab SmeftSymm Wc WetN Params Smeft SmeftSpec SmeftSymmFacts SmeftNames SmeftRot SmeftWarsaw SmeftMass SmeftIll.
Import ListNotations.
Open Scope string_scope.
Open Scope list_scope.
Open Scope nat_scope.
#[local] Opaque exec srun WC_keys rot_tab.

(** ** Specification *)
(** A fermion field of an operator and whether it is barred (conjugated). *)
Definition fbar (f : fld) : fld * bool := (f, true).
Definition fplain (f : fld) : fld * bool := (f, false).
Definition current (f : fld) : list (fld * bool) := [fbar f; fplain f].
(** Operator names and their fermions in the order of the flavour indices
    (arXiv:1008.4884, tables 2-4). *)
Definition field_content : list (list string * list (fld * bool)) :=
  [ (["ephi"; "eW"; "eB"], [fbar Lf; fplain Ef]);
    (["uphi"; "uW"; "uB"; "uG"], [fbar Qf; fplain Uf]);
    (["dphi"; "dW"; "dB"; "dG"], [fbar Qf; fplain Df]);
    (["phil1"; "phil3"], current Lf);
    (["phiq1"; "phiq3"], current Qf);
    (["phie"], current Ef);
    (["phiu"], current Uf);
    (["phid"], current Df);
    (["phiud"], [fbar Uf; fplain Df]);
    (["llphiphi"], [fplain Lf; fplain Lf]);
    (["ll"], current Lf ++ current Lf);
    (["ee"], current Ef ++ current Ef);
    (["qq1"; "qq3"], current Qf ++ current Qf);
    (["uu"], current Uf ++ current Uf);
    (["dd"], current Df ++ current Df);
    (["lq1"; "lq3"], current Lf ++ current Qf);
    (["le"], current Lf ++ current Ef);
    (["lu"], current Lf ++ current Uf);
    (["ld"], current Lf ++ current Df);
    (["qe"], current Qf ++ current Ef);
    (["qu1"; "qu8"], current Qf ++ current Uf);
    (["qd1"; "qd8"], current Qf ++ current Df);
    (["eu"], current Ef ++ current Uf);
    (["ed"], current Ef ++ current Df);
    (["ud1"; "ud8"], current Uf ++ current Df);
    (["ledq"], [fbar Lf; fplain Ef; fbar Df; fplain Qf]);
    (["lequ1"; "lequ3"], [fbar Lf; fplain Ef; fbar Qf; fplain Uf]);
    (["quqd1"; "quqd8"], [fbar Qf; fplain Uf; fbar Qf; fplain Df]);
    (["duql"], [fplain Df; fplain Uf; fplain Qf; fplain Lf]);
    (["qque"], [fplain Qf; fplain Qf; fplain Uf; fplain Ef]);
    (["qqql"], [fplain Qf; fplain Qf; fplain Qf; fplain Lf]);
    (["duue"], [fplain Df; fplain Uf; fplain Uf; fplain Ef]) ].
(** The fermions of an operator; the bosonic operators have none. *)
Definition fields (op : string) : list (fld * bool) :=
  match find (fun e => mem op (fst e)) field_content with Some e => snd e | None => [] end.
Open Scope C_scope.
(** The matrix of a field, conjugated for a barred one. *)
Definition ubar (u : umats) (fb : fld * bool) (i a : fl) : C :=
  let m := match fst fb with Qf => u_q u | Uf => u_u u | Df => u_d u | Lf => u_l u | Ef => u_e u end in
  if snd fb then Cconj (m i a) else m i a.
(** One operator contracted with a vector for each of its fermions:
    Σ_x C_x ψ1[x1] ψ2[x2] ... *)
Fixpoint contract (psi : list (fl -> C)) (f : idx -> C) : C :=
  match psi with
  | [] => f []
  | v :: t => S3 (fun i => v i * contract t (fun y => f (i :: y)))
  end.
(** ψ = U ψ', field by field (ψ̄ = U* ψ̄') *)
Fixpoint redefine (u : umats) (fs : list (fld * bool)) (psi : list (fl -> C)) : list (fl -> C) :=
  match fs, psi with
  | fb :: fs', v :: t => (fun i => S3 (fun a => ubar u fb i a * v a)) :: redefine u fs' t
  | _, _ => []
  end.
(** Coefficients in terms of the new fields *)
Fixpoint transformed (u : umats) (fs : list (fld * bool)) (f : idx -> C) (x : idx) : C :=
  match fs, x with
  | [], [] => f []
  | fb :: fs', a :: x' => S3 (fun i => ubar u fb i a * transformed u fs' (fun y => f (i :: y)) x')
  | _, _ => C0
  end.

(** ** The two forms agree *)
Lemma contract_ext psi : forall f g, (forall x, length x = length psi -> f x = g x) -> contract psi f = contract psi g.
Proof.
  induction psi as [|v t IH]; intros f g E; simpl; auto. apply S3_ext; intros i. f_equal. apply IH.
  intros x L. apply E. simpl. congruence.
Qed.
Lemma contract_scale psi : forall c f, contract psi (fun y => c * f y) = c * contract psi f.
Proof.
  induction psi as [|v t IH]; intros c f; simpl; auto. rewrite S3_mul_l. apply S3_ext; intros i. rewrite IH. ring.
Qed.
Lemma contract_S3 psi : forall (f : fl -> idx -> C), contract psi (fun y => S3 (fun i => f i y)) = S3 (fun i => contract psi (f i)).
Proof.
  induction psi as [|v t IH]; intros f; simpl; auto.
  transitivity (S3 (fun j => S3 (fun i => v j * contract t (fun y => f i (j :: y))))).
  - apply S3_ext; intros j. rewrite (IH (fun i y => f i (j :: y))). apply S3_mul_l.
  - apply S3_swap.
Qed.
Lemma contract_transformed u fs : forall psi f, length psi = length fs ->
  contract psi (transformed u fs f) = contract (redefine u fs psi) f.
Proof.
  induction fs as [|fb fs IH]; intros [|v t] f L; simpl in L; try discriminate; auto.
  simpl contract. injection L as L.
  transitivity (S3 (fun a => S3 (fun i => v a * ubar u fb i a * contract t (transformed u fs (fun y => f (i :: y)))))).
  - apply S3_ext; intros a. rewrite contract_S3, S3_mul_l. apply S3_ext; intros i. rewrite contract_scale. ring.
  - rewrite S3_swap. apply S3_ext; intros i. rewrite <- IH by auto. rewrite S3_mul_r. apply S3_ext; intros a. ring.
Qed.
Close Scope C_scope.

(** ** The code *)
Definition fb_eqb (a b : fld * bool) : bool :=
  match fst a, fst b with Qf, Qf | Uf, Uf | Df, Df | Lf, Lf | Ef, Ef => Bool.eqb (snd a) (snd b) | _, _ => false end.
Lemma fb_eqb_eq a b : fb_eqb a b = true -> a = b.
Proof. destruct a as [[] []], b as [[] []]; cbn; intros H; first [reflexivity | discriminate H]. Qed.
Definition rot_fields (r : rot) : list (fld * bool) :=
  match r with RNone => [] | R2 l x => [l; x] | R4 b d a c => [a; b; c; d] end.
Fixpoint fbs_eqb (a b : list (fld * bool)) : bool :=
  match a, b with [], [] => true | x :: s, y :: t => fb_eqb x y && fbs_eqb s t | _, _ => false end.
Lemma fbs_eqb_eq a : forall b, fbs_eqb a b = true -> a = b.
Proof.
  induction a as [|x s IH]; intros [|y t]; simpl; try discriminate; auto.
  rewrite andb_true_iff. intros [A B]. f_equal; auto using fb_eqb_eq.
Qed.
Lemma rot_fields_ok op : In op WC_keys -> rot_fields (op_rot op) = fields op.
Proof.
  assert (forallb (fun k => fbs_eqb (rot_fields (op_rot k)) (fields k)) WC_keys = true) as H by (vm_compute; reflexivity).
  rewrite forallb_forall in H. intros I. apply fbs_eqb_eq; auto.
Qed.
Lemma fields_rank op : In op WC_keys -> op_shape op = Some match length (fields op) with 0 => Sh0 | 2 => Sh2 | _ => Sh4 end
  /\ (length (fields op) = 0 \/ length (fields op) = 2 \/ length (fields op) = 4).
Proof.
  assert (forallb (fun k => match op_shape k with Some s => shape_eqb s match length (fields k) with 0 => Sh0 | 2 => Sh2 | _ => Sh4 end | None => false end
     && ((length (fields k) =? 0) || (length (fields k) =? 2) || (length (fields k) =? 4))) WC_keys = true) as H by (vm_compute; reflexivity).
  rewrite forallb_forall in H. intros I. specialize (H op I). rewrite !andb_true_iff, !orb_true_iff, !Nat.eqb_eq in H.
  destruct H as [H1 H2]. split; [|tauto]. destruct (op_shape op); try discriminate. f_equal. apply shape_eqb_eq; auto.
Qed.
Lemma rot1_transformed u op s v x : In op WC_keys -> op_shape op = Some s -> fits s v -> In x (idxs s) ->
  entry (rot1 u (op_rot op) v) x = transformed u (fields op) (entry v) x.
Proof.
  intros M E F I. rewrite <- (rot_fields_ok op M). destruct (fields_rank op M) as [E' L].
  rewrite <- (rot_fields_ok op M) in E', L.
  assert (forall r v s x, In x (idxs s) -> fits s v ->
            s = match length (rot_fields r) with 0 => Sh0 | 2 => Sh2 | _ => Sh4 end ->
            entry (rot1 u r v) x = transformed u (rot_fields r) (entry v) x) as K.
  { clear. assert (forall f i a, umat u f i a = ubar u f i a) as Q by (intros [[] []]; reflexivity).
    intros r v s x I F Es. destruct r as [|l y|b d a c]; simpl in Es; subst s; destruct v as [z|m|t]; simpl in F; try contradiction.
    - destruct I as [<-|[]]. reflexivity.
    - pose proof (idxs_length _ _ I) as L. destruct x as [|i [|j [|]]]; try discriminate L. cbn [rot1 entry rot_fields transformed].
      unfold of_mat, mmul, mT. transitivity (S3 (fun k => S3 (fun q => Cmul (Cmul (umat u l q i) (m q k)) (umat u y k j)))).
      + apply S3_ext; intros k. rewrite S3_mul_r. reflexivity.
      + rewrite S3_swap. apply S3_ext; intros q. rewrite S3_mul_l. apply S3_ext; intros k.
        rewrite !Q. ring.
    - pose proof (idxs_length _ _ I) as L. destruct x as [|i [|j [|k [|q [|]]]]]; try discriminate L. cbn [rot1 entry rot_fields transformed].
      unfold of_ten, einsum4.
      apply S3_ext; intros i'. rewrite S3_mul_l. apply S3_ext; intros j'. rewrite !S3_mul_l. apply S3_ext; intros k'.
      rewrite !S3_mul_l. apply S3_ext; intros q'.
      rewrite !Q. ring. }
  apply (K (op_rot op) v s x I F). congruence.
Qed.
Lemma rotation_transforms u op s v : In op WC_keys -> op_shape op = Some s -> fits s v ->
  exists w, flavor_rotation [(op, v)] u = Ok [(op, w)] /\ fits s w /\
    forall x, In x (idxs s) -> entry w x = transformed u (fields op) (entry v) x.
Proof.
  intros M E F. assert (typed [(op, v)]) as T.
  { split; [repeat constructor; simpl; tauto|]. intros op' v' [I|[]]. injection I as <- <-. eauto. }
  destruct (rotation_linear u op s v v C1 C1 M E F F) as (w & _ & H & _). exists w. split; auto.
  pose proof H as H'. rewrite flavor_rotation_spec in H' by auto. injection H' as H'.
  pose proof (rotated_get u [(op, v)] op) as G. rewrite H' in G. unfold is_wc in G. rewrite (proj2 (mem_In _ _ _) M) in G.
  cbn [dget] in G. rewrite keqb_refl in G. simpl in G. injection G as ->.
  pose proof (rotated_typed u _ T) as [_ T2]. rewrite H' in T2.
  destruct (T2 op _ (or_introl eq_refl)) as (s' & E2 & F2). assert (s' = s) as -> by congruence.
  split; auto. intros x I. apply (rot1_transformed u op s); auto.
Qed.

Lemma rotation_lagrangian u op s v : In op WC_keys -> op_shape op = Some s -> fits s v ->
  exists w, flavor_rotation [(op, v)] u = Ok [(op, w)] /\
    forall psi, length psi = length (fields op) ->
      contract psi (entry w) = contract (redefine u (fields op) psi) (entry v).
Proof.
  intros M E F. destruct (rotation_transforms u op s v M E F) as (w & H & _ & K). exists w. split; auto.
  intros psi L. rewrite <- contract_transformed by auto. apply contract_ext. intros x Lx. apply K.
  apply length_idxs. destruct (fields_rank op M) as [E2 L2]. rewrite E in E2. injection E2 as ->.
  rewrite Lx, L. destruct L2 as [-> | [-> | ->]]; reflexivity.
Qed.

(** ** The Warsaw translators *)
Lemma rotate_q_fields v d r op s x : good_dict d -> rotate_q v d = Ok r -> In op WC_keys -> op_shape op = Some s ->
  In x (idxs s) -> touched d op = true ->
  exists c sy a, wcxf2arrays d = Ok c /\ symmetrize c = Ok sy /\ dget sy op = Some a /\
    dget r (sname op x) = Some (transformed (uq_only v) (fields op) (entry a) x).
Proof.
  intros G H M E I T. destruct (rotate_q_spec v d G) as (c & r' & H1 & [W Rc] & Ty & Hs & _ & _).
  exists c, (symmetrized c), (symm1 op (array_in d op s)). split; [|split; [|split]]; auto.
  - rewrite symmetrized_get by auto. unfold is_wc. rewrite (proj2 (mem_In _ _ _) M), Rc, E, T. reflexivity.
  - rewrite (rotate_q_get v d r op s x) by auto. unfold is_wc. rewrite (proj2 (mem_In _ _ _) M), T. cbn [andb]. f_equal.
    apply (rot1_transformed _ op s); auto. apply fits_symm1. apply fits_arr_of.
Qed.
Lemma filtered_fields v ks d r op s x : good_dict d -> rotate_q v d = Ok r -> In op WC_keys -> op_shape op = Some s ->
  In x (idxs s) -> touched d op = true -> In (sname op x) ks ->
  exists c sy a, wcxf2arrays d = Ok c /\ symmetrize c = Ok sy /\ dget sy op = Some a /\
    dget (key_filter ks r) (sname op x) = Some (transformed (uq_only v) (fields op) (entry a) x).
Proof.
  intros G H M E I T K. destruct (rotate_q_fields v d r op s x G H M E I T) as (c & sy & a & A & B & D & F).
  exists c, sy, a. split; [|split; [|split]]; auto. rewrite key_filter_get by exact (proj1 (rotate_q_good v d r G H)).
  rewrite (proj2 (mem_In _ _ _) K). exact F.
Qed.
Lemma up_fields ckm_tree p ks d r op s x : good_dict d -> warsaw_to_warsaw_up ckm_tree ks p d = Ok r ->
  In op WC_keys -> op_shape op = Some s -> In x (idxs s) -> touched d op = true -> In (sname op x) ks ->
  exists c sy a, wcxf2arrays d = Ok c /\ symmetrize c = Ok sy /\ dget sy op = Some a /\
    dget r (sname op x) = Some (transformed (UMats (mdag (ckm_of ckm_tree (merge_params p))) meye meye meye meye) (fields op) (entry a) x).
Proof.
  intros G H. unfold warsaw_to_warsaw_up in H.
  destruct (rotate_q (mdag (ckm_of ckm_tree (merge_params p))) d) as [r'|] eqn:Q; cbn [bind] in H; try discriminate.
  injection H as <-. intros. exact (filtered_fields _ ks d r' op s x G Q H H0 H1 H2 H3).
Qed.
Lemma down_fields ckm_tree p ks d r op s x : good_dict d -> warsaw_up_to_warsaw ckm_tree ks p d = Ok r ->
  In op WC_keys -> op_shape op = Some s -> In x (idxs s) -> touched d op = true -> In (sname op x) ks ->
  exists c sy a, wcxf2arrays d = Ok c /\ symmetrize c = Ok sy /\ dget sy op = Some a /\
    dget r (sname op x) = Some (transformed (UMats (ckm_of ckm_tree (merge_params p)) meye meye meye meye) (fields op) (entry a) x).
Proof.
  intros G H. unfold warsaw_up_to_warsaw in H.
  destruct (rotate_q (ckm_of ckm_tree (merge_params p)) d) as [r'|] eqn:Q; cbn [bind] in H; try discriminate.
  injection H as <-. intros. exact (filtered_fields _ ks d r' op s x G Q H H0 H1 H2 H3).
Qed.

(** ** An index on an operator without flavour *)
Lemma scalar_suffix op ind z : op_shape op = Some Sh0 ->
  wcxf2arrays [((op ++ "_" ++ ind)%string, z)] = Ok [((op ++ "_" ++ ind)%string, A0 z)] /\
  symmetrize [((op ++ "_" ++ ind)%string, A0 z)] = Ok [].
Proof.
  intros E. pose proof (shape_no_us _ _ E) as N. split.
  - unfold wcxf2arrays. cbn [wcxf2arrays_from]. unfold w2a_step. rewrite name_part_app by auto. unfold dlookup.
    pose proof E as E'. unfold op_shape in E'. rewrite E'. reflexivity.
  - unfold symmetrize. cbn [symmetrize_from]. rewrite symm_arr_other; auto.
    destruct (mem (op ++ "_" ++ ind)%string WC_keys) eqn:M; auto. exfalso. apply mem_In in M.
    assert (forallb no_us WC_keys = true) as H by (vm_compute; reflexivity).
    rewrite forallb_forall in H. specialize (H _ M). clear -H. induction op as [|a t IH]; simpl in H; [discriminate|].
    rewrite andb_true_iff in H. tauto.
Qed.
Lemma scalar_suffix_dropped ckm_tree ks p op ind z : op_shape op = Some Sh0 ->
  warsaw_to_warsaw_up ckm_tree ks p [((op ++ "_" ++ ind)%string, z)] = Ok [] /\
  warsaw_up_to_warsaw ckm_tree ks p [((op ++ "_" ++ ind)%string, z)] = Ok [].
Proof.
  intros E. destruct (scalar_suffix op ind z E) as [A B]. unfold warsaw_to_warsaw_up, warsaw_up_to_warsaw, rotate_q.
  rewrite A. cbn [bind]. rewrite B. cbn [bind].
  assert (forall u, flavor_rotation [] u = Ok []) as F.
  { intros u. rewrite flavor_rotation_spec; [reflexivity|]. split; [constructor|]. intros ? ? []. }
  rewrite !F. split; reflexivity.
Qed.
