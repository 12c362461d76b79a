(** Which entries symmetrize leaves alone; Warsaw <-> Warsaw up; Warsaw mass. *)
From Coq Require Import String Ascii List Bool Arith ZArith Reals Lia Lra.
From Verif Require Import PyBase PyDict Cplx Tensor SmeftSyntax SmeftTab SmeftSymm Wc WetN Params Smeft SmeftSpec SmeftSymmFacts SmeftNames SmeftRot SmeftWarsaw.
Import ListNotations.
Open Scope string_scope.
Open Scope list_scope.
Open Scope nat_scope.
#[local] Opaque exec srun WC_keys rot_tab.

Lemma is_wc_In op : is_wc op = true <-> In op WC_keys.
Proof. exact (mem_In _ op WC_keys). Qed.
Definition part (im : bool) (z : C) : R := if im then Im z else Re z.
(** symmetrize leaves this part of entry [x] of [op] alone, whatever the array. *)
Definition keeps (op : string) (im : bool) (x : idx) : Prop :=
  forall s v w, op_shape op = Some s -> fits s v -> symmetrize [(op, v)] = Ok [(op, w)] ->
    part im (entry w x) = part im (entry v x).
Lemma symmetrize_single op s v : is_wc op = true -> op_shape op = Some s -> fits s v ->
  symmetrize [(op, v)] = Ok [(op, symm1 op v)].
Proof.
  intros M E F. rewrite symmetrize_spec.
  - simpl. rewrite M. reflexivity.
  - split; [repeat constructor; simpl; tauto|]. intros op' v' [I|[]]. injection I as <- <-. eauto.
Qed.
Lemma cellval_part f im x : cellval f (im, x) = part im (f x).
Proof. reflexivity. Qed.
Lemma fits_zeros s : fits s (zeros s).
Proof. destruct s; exact I. Qed.
Lemma entry_zeros s x : entry (zeros s) x = C0.
Proof. destruct s; simpl; destruct x as [|a [|b [|c [|d [|]]]]]; reflexivity. Qed.
Lemma zeros_symm op s : index_symmetry op (zeros s).
Proof.
  unfold index_symmetry. destruct (sym_kind op), s; simpl; auto; repeat split; intros; try reflexivity;
    try (symmetry; apply Cconj_0). 
  all: intros ? *; symmetry; apply Cconj_0.
Qed.
Lemma keeps_iff op s im x : is_wc op = true -> op_shape op = Some s -> In x (idxs s) ->
  (keeps op im x <-> is_rep op (im, x) = true).
Proof.
  intros M E I. split.
  - intros K. destruct (is_rep op (im, x)) eqn:Q; auto. exfalso.
    set (one := if im then (0, 1)%R else (1, 0)%R).
    set (v := arr_of s (fun y => if idx_eqb x y then one else C0)).
    assert (fits s v) as F by apply fits_arr_of.
    specialize (K s v (symm1 op v) E F (symmetrize_single op s v M E F)).
    assert (symm1 op v = zeros s) as Z.
    { transitivity (symm1 op (zeros s)); [|apply (symm1_fix s); auto using fits_zeros, zeros_symm].
      apply (symm1_reads s); auto using fits_zeros. intros y Iy im' R. rewrite !cellval_part.
      unfold v. rewrite entry_arr_of by auto. rewrite entry_zeros.
      destruct (idx_eqb x y) eqn:Exy; auto. apply idx_eqb_eq in Exy; subst y.
      destruct im, im'; try congruence; unfold one; reflexivity. }
    rewrite Z, entry_zeros in K. unfold v in K. rewrite entry_arr_of in K by auto.
    assert (idx_eqb x x = true) as Hx by (apply idx_eqb_eq; auto). rewrite Hx in K.
    destruct im; unfold part, one, Re, Im, C0, RtoC in K; simpl in K; lra.
  - intros R s' v w E' F H. assert (s' = s) as -> by congruence.
    rewrite (symmetrize_single op s v) in H by auto. injection H as <-.
    pose proof (symm1_reps op s v x im F I R) as Q. rewrite !cellval_part in Q. exact Q.
Qed.
(** The names of all entries with a part that symmetrize keeps are listed. *)
Definition lists_kept (ks : list string) : Prop :=
  forall op s x im, In op WC_keys -> op_shape op = Some s -> In x (idxs s) -> keeps op im x -> In (sname op x) ks.
Lemma lists_kept_reps ks : lists_kept ks -> lists_reps ks.
Proof.
  intros L op s x im M E I R. apply (L op s x im); auto.
  - apply is_wc_In; exact M.
  - apply (keeps_iff op s); auto.
Qed.
Lemma kept_decides op s v w : In op WC_keys -> op_shape op = Some s -> fits s v -> fits s w ->
  (forall x im, In x (idxs s) -> keeps op im x -> part im (entry v x) = part im (entry w x)) ->
  symmetrize [(op, v)] = symmetrize [(op, w)].
Proof.
  intros M E F G H. apply is_wc_In in M. rewrite !(symmetrize_single op s) by auto.
  do 3 f_equal. apply (symm1_reads s); auto. intros x I im R. apply H; auto. apply (keeps_iff op s); auto.
Qed.
(** Kept cells of an operator *)
Definition cells (s : shape) : list cell := flat_map (fun x => [(false, x); (true, x)]) (idxs s).
Lemma in_cells s im x : In (im, x) (cells s) <-> In x (idxs s).
Proof.
  unfold cells. rewrite in_flat_map. split.
  - intros (y & I & [Q|[Q|[]]]); injection Q as <- <-; auto.
  - intros I. exists x. split; auto. destruct im; simpl; auto.
Qed.
Definition nodup_cells : bool :=
  forallb (fun s => (fix nd l := match l with [] => true | x :: t => negb (existsb (cell_eqb x) t) && nd t end) (cells s)) [Sh0; Sh2; Sh4].
Lemma cells_NoDup s : NoDup (cells s).
Proof.
  assert (nodup_cells = true) as H by (vm_compute; reflexivity).
  unfold nodup_cells in H. rewrite forallb_forall in H. specialize (H s).
  assert (In s [Sh0; Sh2; Sh4]) as I by (destruct s; simpl; auto). specialize (H I). revert H.
  generalize (cells s) as l. induction l as [|x t IH]; intros H; constructor; apply andb_true_iff in H; destruct H as [H1 H2]; auto.
  intros J. apply negb_true_iff in H1. rewrite <- not_true_iff_false in H1. apply H1. apply existsb_exists.
  exists x. split; auto. apply cell_eqb_refl.
Qed.
(** Number of real parameters: Alonso et al., arXiv:1312.2014, table 5 for three generations. *)
Definition real_parameters (q : symkind) (s : shape) : nat :=
  match q, s with
  | SReal, _ => 1 | SGeneral, Sh2 => 18 | SGeneral, _ => 162 | SHermitian, _ => 9 | SSymmetric, _ => 12
  | SCurrents, _ => 81 | SIdentical, _ => 45 | SEe, _ => 36 | SQque, _ => 108 | SQqql, _ => 114
  end.
Lemma counts_b : forallb (fun op => match op_shape op with
   | Some s => Nat.eqb (length (filter (is_rep op) (cells s))) (real_parameters (sym_kind op) s)
   | None => false end) WC_keys = true.
Proof. vm_compute; reflexivity. Qed.
Lemma kept_count op s : In op WC_keys -> op_shape op = Some s ->
  exists l, NoDup l /\ (forall im x, In (im, x) l <-> In x (idxs s) /\ keeps op im x) /\
    length l = real_parameters (sym_kind op) s.
Proof.
  intros M E. exists (filter (is_rep op) (cells s)). split; [apply NoDup_filter, cells_NoDup|]. split.
  - intros im x. rewrite filter_In, in_cells. split; intros [I K]; split; auto;
      apply (keeps_iff op s); auto; apply is_wc_In; auto.
  - pose proof counts_b as H. rewrite forallb_forall in H. specialize (H op M). rewrite E in H.
    apply Nat.eqb_eq; exact H.
Qed.
Lemma im0_b : forallb (fun op => match op_shape op with
   | Some s => forallb (fun x => if is_rep op (false, x)
        then is_rep op (true, x) || holds (srun (op_tab op)) [(1%Z, (true, x))] else true) (idxs s)
   | None => false end) WC_keys = true.
Proof. vm_compute; reflexivity. Qed.
Lemma symm1_restores op s v x : In op WC_keys -> op_shape op = Some s -> fits s v -> In x (idxs s) ->
  keeps op false x -> (keeps op true x \/ Im (entry v x) = 0%R) -> entry (symm1 op v) x = entry v x.
Proof.
  intros M E F I K0 K1. assert (is_wc op = true) as M' by (apply is_wc_In; auto).
  pose proof (symmetrize_single op s v M' E F) as Q. apply C_ext.
  - exact (K0 s v _ E F Q).
  - destruct K1 as [K1|K1]; [exact (K1 s v _ E F Q)|]. rewrite K1.
    apply (keeps_iff op s) in K0; auto.
    pose proof im0_b as H. rewrite forallb_forall in H. specialize (H op M). rewrite E in H.
    rewrite forallb_forall in H. specialize (H x I). rewrite K0 in H. apply orb_true_iff in H. destruct H as [H|H].
    + pose proof (symm1_reps op s v x true F I H) as Q2. rewrite !cellval_part in Q2. simpl in Q2. congruence.
    + unfold symm1. rewrite (fits_shape _ _ F). rewrite entry_arr_of by auto.
      pose proof (holds_sound (op_tab op) (entry v) _ H) as Q2. cbv [fval fold_right fst snd] in Q2.
      unfold cellval in Q2. cbn [fst snd] in Q2. lra.
Qed.

(** ** Warsaw -> Warsaw up -> Warsaw *)
Section Warsaw.
Variable ckm_tree : R -> R -> R -> R -> mat.
Variable msvd_values : mat -> fl -> C.
Lemma translators_total p ks d : good_dict d ->
  (exists u, warsaw_to_warsaw_up ckm_tree ks p d = Ok u /\ good_dict u) /\
  (exists u, warsaw_up_to_warsaw ckm_tree ks p d = Ok u /\ good_dict u).
Proof.
  intros G. split; unfold warsaw_to_warsaw_up, warsaw_up_to_warsaw.
  - destruct (rotate_q_spec (mdag (ckm_of ckm_tree (merge_params p))) d G) as (c & r & _ & _ & _ & _ & H & _).
    rewrite H. cbn [bind]. eexists; split; eauto. apply good_filter. eapply rotate_q_good; eauto.
  - destruct (rotate_q_spec (ckm_of ckm_tree (merge_params p)) d G) as (c & r & _ & _ & _ & _ & H & _).
    rewrite H. cbn [bind]. eexists; split; eauto. apply good_filter. eapply rotate_q_good; eauto.
Qed.
Lemma up_down p b1 b2 d u d' : good_dict d -> lists_kept b2 -> unitary (ckm_of ckm_tree (merge_params p)) ->
  warsaw_to_warsaw_up ckm_tree b2 p d = Ok u -> warsaw_up_to_warsaw ckm_tree b1 p u = Ok d' ->
  exists c sy, wcxf2arrays d = Ok c /\ symmetrize c = Ok sy /\
    forall k, dget d' k = if mem k b1 then dget (arrays2wcxf sy) k else None.
Proof.
  intros G L U. unfold warsaw_to_warsaw_up, warsaw_up_to_warsaw. intros H1 H2.
  destruct (rotate_q (mdag _) d) as [r|] eqn:E1; [|discriminate]. cbn [bind] in H1. injection H1 as <-.
  destruct (rotate_q _ (key_filter b2 r)) as [r2|] eqn:E2; [|discriminate]. cbn [bind] in H2. injection H2 as <-.
  destruct (rotate_back _ _ d b2 r r2 G (lists_kept_reps _ L) U E1 E2) as (c & Hc & Hs & K).
  exists c, (symmetrized c). repeat (split; auto). intros k. rewrite key_filter_get.
  - rewrite K. reflexivity.
  - apply (proj1 (rotate_q_good _ _ _ (good_filter b2 r (rotate_q_good _ _ _ G E1)) E2)).
Qed.
Lemma down_up p b1 b2 d u d' : good_dict d -> lists_kept b1 -> unitary (ckm_of ckm_tree (merge_params p)) ->
  warsaw_up_to_warsaw ckm_tree b1 p d = Ok u -> warsaw_to_warsaw_up ckm_tree b2 p u = Ok d' ->
  exists c sy, wcxf2arrays d = Ok c /\ symmetrize c = Ok sy /\
    forall k, dget d' k = if mem k b2 then dget (arrays2wcxf sy) k else None.
Proof.
  intros G L U. unfold warsaw_to_warsaw_up, warsaw_up_to_warsaw. intros H1 H2.
  destruct (rotate_q _ d) as [r|] eqn:E1; [|discriminate]. cbn [bind] in H1. injection H1 as <-.
  destruct (rotate_q (mdag _) (key_filter b1 r)) as [r2|] eqn:E2; [|discriminate]. cbn [bind] in H2. injection H2 as <-.
  destruct (rotate_back _ _ d b1 r r2 G (lists_kept_reps _ L) (unitary_right _ U) E1 E2) as (c & Hc & Hs & K).
  exists c, (symmetrized c). repeat (split; auto). intros k. rewrite key_filter_get.
  - rewrite K. reflexivity.
  - apply (proj1 (rotate_q_good _ _ _ (good_filter b1 r (rotate_q_good _ _ _ G E1)) E2)).
Qed.
Lemma symmetrised_dict_get d c sy op s x : good_dict d -> wcxf2arrays d = Ok c -> symmetrize c = Ok sy ->
  In op WC_keys -> op_shape op = Some s -> In x (idxs s) ->
  keeps op false x -> (keeps op true x \/ Im (dval d (sname op x)) = 0%R) ->
  dget (arrays2wcxf sy) (sname op x) =
  match dget d (sname op x) with Some z => Some z | None => if touched d op then Some C0 else None end.
Proof.
  intros G Hc Hs M E I K0 K1. destruct (wcxf2arrays_good d G) as (c' & Hc' & Rc). assert (c' = c) as -> by congruence.
  pose proof (represents_typed _ _ Rc) as T. rewrite symmetrize_spec in Hs by auto. injection Hs as <-.
  fold (symmetrized c). assert (is_wc op = true) as M' by (apply is_wc_In; auto).
  rewrite (arrays2wcxf_get _ op s x) by (auto using symmetrized_typed).
  rewrite symmetrized_get, M' by auto. rewrite (proj2 Rc), E.
  destruct (touched d op) eqn:Td.
  - cbn [option_map]. assert (entry (array_in d op s) x = dval d (sname op x)) as Q
      by (unfold array_in; rewrite entry_arr_of by auto; reflexivity).
    rewrite (symm1_restores op s) by (auto using array_in_fits; rewrite ?Q; auto).
    rewrite Q. unfold dval. destruct (dget d (sname op x)); reflexivity.
  - rewrite untouched_dval by eauto using shape_no_us. reflexivity.
Qed.

(** ** Warsaw mass *)
Lemma toarray_fill_good op d : op_shape op = Some Sh2 -> good_dict d -> forall f,
  toarray_fill op d (arr_of Sh2 f) =
  Ok (arr_of Sh2 (fun x => match dget d (sname op x) with Some z => z | None => f x end)).
Proof.
  intros E. induction d as [|[k z] t IH]; intros G f; [reflexivity|].
  assert (good_dict t) as Gt.
  { destruct G as [W G]. inversion W; subst. split; auto. intros k' I. apply G. right; auto. }
  assert (~ In k (dkeys t)) as Nk by (destruct G as [W _]; inversion W; auto).
  destruct (proj2 G k (or_introl eq_refl)) as (op' & s' & x & E' & I & ->).
  cbn [toarray_fill]. rewrite name_part_sname by eauto using shape_no_us.
  destruct (String.eqb op' op) eqn:Q; cbn [negb].
  - apply String.eqb_eq in Q. subst op'. assert (s' = Sh2) as -> by congruence.
    assert (length x = 2) as Lx by (apply (idxs_length Sh2); auto).
    rewrite index_part_sname by (eauto using shape_no_us; intros ->; discriminate).
    rewrite parse_digits by lia. cbn [bind]. rewrite aset_arr_of by auto. rewrite IH by auto. f_equal.
    apply arr_of_ext. intros y Iy. cbn [dget].
    destruct (keqb (sname op y) (sname op x)) eqn:Q.
    + apply keqb_eq in Q. rewrite Q. apply dget_None in Nk. rewrite Nk.
      apply sname_inj in Q; eauto using shape_no_us. destruct Q as [_ ->].
      assert (idx_eqb x x = true) as -> by (apply idx_eqb_eq; auto). reflexivity.
    + destruct (dget t (sname op y)); auto. destruct (idx_eqb x y) eqn:Q2; auto.
      apply idx_eqb_eq in Q2. subst y. rewrite keqb_refl in Q. discriminate.
  - rewrite IH by auto. f_equal. apply arr_of_ext. intros y Iy. cbn [dget].
    destruct (keqb (sname op y) (sname op' x)) eqn:Q2; auto.
    apply keqb_eq in Q2. apply sname_inj in Q2; eauto using shape_no_us. destruct Q2 as [-> _].
    rewrite String.eqb_refl in Q. discriminate.
Qed.
Lemma smeft_toarray_good op d : op_shape op = Some Sh2 -> is_wc op = true -> good_dict d ->
  exists m, smeft_toarray op d = Ok m /\ A2 m = symm1 op (array_in d op Sh2).
Proof.
  intros E M G. unfold smeft_toarray. unfold dlookup. unfold op_shape in E. rewrite E. cbn [bind].
  rewrite zeros_arr_of, toarray_fill_good by auto. cbn [bind].
  assert ((arr_of Sh2 (fun x => match dget d (sname op x) with Some z => z | None => C0 end)) = array_in d op Sh2) as -> by reflexivity.
  rewrite (symmetrize_single op Sh2) by auto using array_in_fits. cbn [bind dget]. rewrite keqb_refl. cbn [bind].
  pose proof (fits_symm1 Sh2 op _ (array_in_fits d op Sh2)) as F.
  destruct (symm1 op (array_in d op Sh2)) as [|m|]; simpl in F; try contradiction. eauto.
Qed.
Definition mat_in (d : dict string C) (op : string) : mat := fun i j => dval d (sname op [i; j]).
Lemma smeft_toarray_general op d : op_shape op = Some Sh2 -> is_wc op = true -> sym_kind op = SGeneral -> good_dict d ->
  smeft_toarray op d = Ok (mat_in d op).
Proof.
  intros E M K G. destruct (smeft_toarray_good op d E M G) as (m & -> & Q).
  rewrite (symm1_fix Sh2) in Q; auto using array_in_fits.
  - unfold array_in in Q. simpl in Q. injection Q as ->. reflexivity.
  - unfold index_symmetry. rewrite K. exact I.
Qed.
Lemma fromarray_wf op m : wf (smeft_fromarray op m).
Proof. apply wf_dict_of. Qed.
Lemma fromarray_get op m i j : no_us op = true -> dget (smeft_fromarray op m) (sname op [i; j]) = Some (m i j).
Proof.
  intros N. apply In_dget; [apply fromarray_wf|]. unfold smeft_fromarray. rewrite dict_of_wf.
  - apply in_map_iff. exists [i; j]. split; auto using idx2_in.
  - rewrite map_map. cbn [fst]. apply NoDup_map_inj; [|apply (idxs_NoDup Sh2)].
    intros x y Ix Iy Q. apply idx2_shape in Ix, Iy. destruct Ix as (a & b & ->), Iy as (a' & b' & ->).
    apply (sname_inj op op [a; b] [a'; b']) in Q; auto. tauto.
Qed.
Lemma fromarray_keys op m k : In k (dkeys (smeft_fromarray op m)) <-> exists i j, k = sname op [i; j].
Proof.
  unfold smeft_fromarray. unfold dict_of. rewrite In_dkeys_dupdate. split.
  - intros [[]|I]. rewrite map_map in I. cbn [fst] in I. apply in_map_iff in I. destruct I as (x & <- & I).
    apply idx2_shape in I. destruct I as (i & j & ->). exists i, j. reflexivity.
  - intros (i & j & ->). right. rewrite map_map. apply in_map_iff. exists [i; j]. split; auto using idx2_in.
Qed.
Lemma from_update (acc : dict string C) op m k : no_us op = true ->
  dget (dupdate acc (smeft_fromarray op m)) k =
  match dget (smeft_fromarray op m) k with Some z => Some z | None => dget acc k end.
Proof. intros N. rewrite dget_dupdate. rewrite dget_last_wf by apply fromarray_wf. reflexivity. Qed.
Definition up_ops : list string := ["uphi"; "uG"; "uW"; "uB"].
Lemma from_update_other (acc : dict string C) op m k : no_us op = true -> name_part k <> op ->
  dget (dupdate acc (smeft_fromarray op m)) k = dget acc k.
Proof.
  intros N Q. rewrite from_update by auto. destruct (dget (smeft_fromarray op m) k) eqn:D; auto.
  apply dget_Some_key in D. apply fromarray_keys in D. destruct D as (i & j & ->).
  rewrite name_part_sname in Q by auto. contradiction.
Qed.
Lemma from_update_same (acc : dict string C) op m i j : no_us op = true ->
  dget (dupdate acc (smeft_fromarray op m)) (sname op [i; j]) = Some (m i j).
Proof. intros N. rewrite from_update, fromarray_get by auto. reflexivity. Qed.
Lemma warsawmass_spec p d : good_dict d ->
  let V := ckm_of ckm_tree (merge_params p) in
  exists o ll, warsaw_to_warsawmass ckm_tree msvd_values p d = Ok o /\
    smeft_toarray "llphiphi" d = Ok ll /\ symmetric_mat ll /\
    (forall k, ~ In (name_part k) ("llphiphi" :: up_ops) -> dget o k = dget d k) /\
    (forall op i j, In op up_ops -> dget o (sname op [i; j]) = Some (mmul V (mat_in d op) i j)) /\
    (forall i j, dget o (sname "llphiphi" [i; j]) = Some (if fl_eqb i j then msvd_values ll i else C0)) /\
    (forall k, In k (dkeys o) -> In k (dkeys d) \/ exists op i j, In op ("llphiphi" :: up_ops) /\ k = sname op [i; j]).
Proof.
  intros G V.
  destruct (smeft_toarray_good "llphiphi" d eq_refl eq_refl G) as (ll & Hll & Qll).
  unfold warsaw_to_warsawmass. fold V. unfold rotate_up.
  rewrite (smeft_toarray_general "uphi" d) by auto. cbn [bind].
  rewrite (smeft_toarray_general "uG" d) by auto. cbn [bind].
  rewrite (smeft_toarray_general "uW" d) by auto. cbn [bind].
  rewrite (smeft_toarray_general "uB" d) by auto. cbn [bind].
  rewrite Hll. cbn [bind].
  eexists. exists ll. split; [reflexivity|]. split; [reflexivity|]. split.
  { pose proof (symm1_ok Sh2 "llphiphi" (array_in d "llphiphi" Sh2) eq_refl eq_refl (array_in_fits _ _ _)) as Y.
    rewrite <- Qll in Y. exact Y. }
  split; [|split; [|split]].
  - intros k N. rewrite !from_update_other; auto; intros Q; apply N; rewrite Q; simpl; tauto.
  - intros op i j I. rewrite from_update_other; [|reflexivity|].
    2:{ rewrite name_part_sname; [|destruct I as [<-|[<-|[<-|[<-|[]]]]]; reflexivity].
        intros ->. destruct I as [I|[I|[I|[I|[]]]]]; discriminate I. }
    destruct I as [<-|[<-|[<-|[<-|[]]]]].
    + rewrite !from_update_other by (try reflexivity; rewrite name_part_sname by reflexivity; discriminate).
      rewrite from_update_same by reflexivity. reflexivity.
    + rewrite !(from_update_other _ "uB"), !(from_update_other _ "uW") by (try reflexivity; rewrite name_part_sname by reflexivity; discriminate).
      rewrite from_update_same by reflexivity. reflexivity.
    + rewrite !(from_update_other _ "uB") by (try reflexivity; rewrite name_part_sname by reflexivity; discriminate).
      rewrite from_update_same by reflexivity. reflexivity.
    + rewrite from_update_same by reflexivity. reflexivity.
  - intros i j. rewrite from_update_same by reflexivity. reflexivity.
  - intros k. rewrite !In_dkeys_dupdate.
    assert (forall op m, In k (map fst (smeft_fromarray op m)) -> exists i j, k = sname op [i; j]) as K
      by (intros op m; apply fromarray_keys).
    intros [[[[[I|I]|I]|I]|I]|I]; auto; right; apply K in I; destruct I as (i & j & ->); do 3 eexists; split; eauto; simpl; tauto.
Qed.
(** The original matrices can be recovered. *)
Lemma warsawmass_recover v m i j : unitary v ->
  S3 (fun k => Cmul (Cconj (v k i)) (mmul v m k j)) = m i j.
Proof.
  intros U. transitivity (mmul (mdag v) (mmul v m) i j); [reflexivity|]. rewrite mmul_assoc, U, mmul_1_l. reflexivity.
Qed.
End Warsaw.
