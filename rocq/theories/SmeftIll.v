(** Ill-formed names; dictionary-level facts about flavor_rotation; the
    registered SMEFT translators. *)
From Coq Require Import String Ascii List Bool Arith ZArith Reals Lia Lra.
From Verif Require Import PyBase PyDict Cplx Tensor SmeftSyntax SmeftTab SmeftSymm Wc WetN Params Smeft SmeftSpec SmeftSymmFacts SmeftNames SmeftRot SmeftWarsaw SmeftMass.
Import ListNotations.
Open Scope string_scope.
Open Scope list_scope.
Open Scope nat_scope.
#[local] Opaque exec srun WC_keys rot_tab.

(** ** Names *)
Definition is_digit (a : ascii) : bool :=
  let n := nat_of_ascii a in (48 <=? n) && (n <=? 57).
Definition small_digit (a : ascii) : bool :=
  let n := nat_of_ascii a in (48 <=? n) && (n <=? 51).
Lemma int_char_digit a : is_digit a = true -> int_char a = Ok (nat_of_ascii a - 48).
Proof. unfold is_digit, int_char. intros ->. reflexivity. Qed.
Lemma int_char_bad a : is_digit a = false -> int_char a = Err ValueError.
Proof. unfold is_digit, int_char. intros ->. reflexivity. Qed.
Lemma ints_ok l : forallb is_digit l = true -> mapM int_char l = Ok (map (fun a => nat_of_ascii a - 48) l).
Proof.
  induction l as [|a t IH]; simpl; auto. rewrite andb_true_iff. intros [H1 H2].
  unfold mapM in *. simpl. rewrite int_char_digit by auto. cbn [bind]. rewrite IH by auto. reflexivity.
Qed.
Lemma ints_bad l : forallb is_digit l = false -> mapM int_char l = Err ValueError.
Proof.
  induction l as [|a t IH]; simpl; [discriminate|]. destruct (is_digit a) eqn:D; simpl; intros H.
  - unfold mapM in *. simpl. rewrite int_char_digit by auto. cbn [bind]. rewrite IH by auto. reflexivity.
  - unfold mapM in *. simpl. rewrite int_char_bad by auto. reflexivity.
Qed.
Definition read_char (a : ascii) : fl :=
  match nat_of_ascii a - 48 with 1 => F1 | 2 => F2 | _ => F3 end.
Lemma axis_ok a : small_digit a = true -> axis_pos (nat_of_ascii a - 48) = Ok (read_char a).
Proof.
  unfold small_digit, read_char. rewrite andb_true_iff, !Nat.leb_le. intros [H1 H2].
  assert (nat_of_ascii a - 48 <= 3) as L by lia. clear H1 H2.
  destruct (nat_of_ascii a - 48) as [|[|[|[|n]]]]; try reflexivity. lia.
Qed.
Lemma axis_bad a : is_digit a = true -> small_digit a = false -> axis_pos (nat_of_ascii a - 48) = Err IndexError.
Proof.
  unfold is_digit, small_digit. rewrite andb_true_iff, andb_false_iff, !Nat.leb_le, !Nat.leb_gt. intros [H1 H2] H3.
  assert (nat_of_ascii a - 48 > 3) as L by lia.
  destruct (nat_of_ascii a - 48) as [|[|[|[|n]]]]; try lia. reflexivity.
Qed.
Lemma small_is_digit a : small_digit a = true -> is_digit a = true.
Proof. unfold is_digit, small_digit. rewrite !andb_true_iff, !Nat.leb_le. lia. Qed.
Lemma axes_ok l : forallb small_digit l = true ->
  mapM axis_pos (map (fun a => nat_of_ascii a - 48) l) = Ok (map read_char l).
Proof.
  unfold mapM. induction l as [|a t IH]; auto. cbn [forallb map]. rewrite andb_true_iff. intros [H1 H2].
  cbn [sequence]. rewrite axis_ok by auto. cbn [bind]. rewrite IH by auto. reflexivity.
Qed.
Lemma axes_bad l : forallb is_digit l = true -> forallb small_digit l = false ->
  mapM axis_pos (map (fun a => nat_of_ascii a - 48) l) = Err IndexError.
Proof.
  unfold mapM. induction l as [|a t IH]; cbn [forallb map]; [discriminate|]. rewrite andb_true_iff. intros [H1 H2].
  cbn [sequence]. destruct (small_digit a) eqn:D; cbn [andb]; intros H.
  - rewrite axis_ok by auto. cbn [bind]. rewrite IH by auto. reflexivity.
  - rewrite axis_bad by auto. reflexivity.
Qed.
Lemma index_part_app op ind : no_us op = true -> no_us ind = true -> index_part (op ++ "_" ++ ind)%string = ind.
Proof.
  intros N M. unfold index_part. rewrite split_us_app by auto. rewrite split_us_plain by auto. reflexivity.
Qed.
Lemma name_part_app op ind : no_us op = true -> name_part (op ++ "_" ++ ind)%string = op.
Proof. intros N. unfold name_part. rewrite split_us_app by auto. reflexivity. Qed.
Definition rank_of (op : string) : nat :=
  match op_shape op with Some Sh2 => 2 | Some Sh4 => 4 | _ => 0 end.
Lemma index_outcome op s ind z : op_shape op = Some s -> s <> Sh0 -> no_us ind = true ->
  wcxf2arrays [((op ++ "_" ++ ind)%string, z)] =
  if forallb is_digit (chars ind) then
    if (length (chars ind) <=? rank_of op) && forallb small_digit (chars ind)
    then Ok [(op, aset (zeros s) (map read_char (chars ind)) z)]
    else Err IndexError
  else Err ValueError.
Proof.
  intros E Ns N. pose proof (shape_no_us _ _ E) as No. unfold wcxf2arrays. cbn [wcxf2arrays_from].
  unfold w2a_step. rewrite name_part_app, index_part_app by auto. unfold dlookup, rank_of.
  pose proof E as E'. unfold op_shape in E'. rewrite E', E. cbn [bind].
  assert (rank s = match s with Sh0 => 0 | Sh2 => 2 | Sh4 => 4 end) as Hr by (destruct s; [congruence|reflexivity|reflexivity]).
  transitivity (let! pre := parse_index (rank s) ind in Ok [(op, aset (zeros s) pre z)]).
  { destruct s; try congruence; cbn [rank]; destruct (parse_index _ ind); reflexivity. }
  unfold parse_index. destruct (forallb is_digit (chars ind)) eqn:D.
  - rewrite ints_ok by auto. cbn [bind]. rewrite map_length.
    assert (match Some s with Some Sh2 => 2 | Some Sh4 => 4 | _ => 0 end = rank s) as -> by (destruct s; [congruence|reflexivity|reflexivity]).
    destruct (rank s <? length (chars ind)) eqn:L.
    + apply Nat.ltb_lt in L. assert (length (chars ind) <=? rank s = false) as -> by (apply Nat.leb_gt; auto). reflexivity.
    + apply Nat.ltb_ge in L. assert (length (chars ind) <=? rank s = true) as -> by (apply Nat.leb_le; auto).
      cbn [andb]. destruct (forallb small_digit (chars ind)) eqn:S.
      * rewrite axes_ok by auto. reflexivity.
      * rewrite axes_bad by auto. reflexivity.
  - rewrite ints_bad by auto. reflexivity.
Qed.
Lemma unknown_operator k z : (forall s, op_shape (name_part k) <> Some s) -> wcxf2arrays [(k, z)] = Err KeyError.
Proof.
  intros N. unfold wcxf2arrays; cbn [wcxf2arrays_from]. unfold w2a_step, dlookup.
  unfold op_shape in N. destruct (dget C_keys_shape (name_part k)) eqn:E; [exfalso; eapply N; reflexivity|reflexivity].
Qed.
(** One bad name anywhere makes the whole call fail. *)
Lemma step_error_indep c c' k z e : w2a_step c k z = Err e -> w2a_step c' k z = Err e.
Proof.
  unfold w2a_step. destruct (dlookup C_keys_shape (name_part k)) as [s|x]; cbn [bind]; auto.
  destruct s; try discriminate; destruct (parse_index _ (index_part k)); cbn [bind]; try discriminate; auto.
Qed.
Lemma bad_name_fails d k z e : wcxf2arrays [(k, z)] = Err e -> In (k, z) d -> exists e', wcxf2arrays d = Err e'.
Proof.
  intros H. unfold wcxf2arrays in *. cbn [wcxf2arrays_from] in H.
  destruct (w2a_step [] k z) as [c|x] eqn:Q; cbn [bind] in H; [discriminate|]. injection H as ->.
  generalize (@nil (string * arr)) as c0.
  induction d as [|[k' z'] t IH]; intros c0 I; [destruct I|]. destruct I as [I|I]; cbn [wcxf2arrays_from].
  - injection I as -> ->. rewrite (step_error_indep [] c0 k z e Q). cbn [bind]. eauto.
  - destruct (w2a_step c0 k' z'); cbn [bind]; eauto.
Qed.
(** '0' in an index is read as '3'. *)
Definition zero_to_three (a : ascii) : ascii := if Ascii.eqb a "0" then "3"%char else a.
Fixpoint smap (f : ascii -> ascii) (s : string) : string :=
  match s with EmptyString => EmptyString | String a t => String (f a) (smap f t) end.
Lemma chars_smap f s : chars (smap f s) = map f (chars s).
Proof. induction s as [|a t IH]; simpl; auto. rewrite IH; reflexivity. Qed.
Lemma zero_three a : is_digit (zero_to_three a) = is_digit a /\ small_digit (zero_to_three a) = small_digit a /\
  read_char (zero_to_three a) = read_char a /\ (Ascii.eqb a "_" = Ascii.eqb (zero_to_three a) "_").
Proof.
  unfold zero_to_three. destruct (Ascii.eqb a "0") eqn:E; auto. apply Ascii.eqb_eq in E. subst. auto.
Qed.
Lemma zero_read_as_three op s ind z : op_shape op = Some s -> s <> Sh0 -> no_us ind = true ->
  wcxf2arrays [((op ++ "_" ++ ind)%string, z)] = wcxf2arrays [((op ++ "_" ++ smap zero_to_three ind)%string, z)].
Proof.
  intros E Ns N. rewrite !(index_outcome op s) by (auto; clear - N; induction ind as [|a t IH]; simpl in *; auto;
    destruct (zero_three a) as (_ & _ & _ & <-); rewrite andb_true_iff in *; destruct N; split; auto).
  rewrite chars_smap. rewrite map_length, map_map.
  assert (forall f, (forall a, f (zero_to_three a) = f a) -> forallb f (map zero_to_three (chars ind)) = forallb f (chars ind)) as Q.
  { intros f Hf. induction (chars ind) as [|a t IH]; simpl; auto. rewrite Hf, IH; reflexivity. }
  rewrite !Q by (intros a; destruct (zero_three a) as (? & ? & ? & ?); auto).
  assert (map (fun x => read_char (zero_to_three x)) (chars ind) = map read_char (chars ind)) as ->
    by (apply map_ext; intros a; destruct (zero_three a) as (_ & _ & ? & _); auto).
  reflexivity.
Qed.
(** A truncated index assigns a whole block. *)
Lemma truncated_fills op s p z : op_shape op = Some s -> s <> Sh0 -> length p <= rank_of op ->
  exists v, wcxf2arrays [((op ++ "_" ++ digits p)%string, z)] = Ok [(op, v)] /\
    forall x, In x (idxs s) -> entry v x = if is_prefix p x then z else C0.
Proof.
  intros E Ns L. pose proof (digits_no_us p) as N. exists (aset (zeros s) p z). split.
  - unfold wcxf2arrays; cbn [wcxf2arrays_from]. unfold w2a_step.
    pose proof (shape_no_us _ _ E) as No. rewrite name_part_app, index_part_app by auto. unfold dlookup.
    pose proof E as E'. unfold op_shape in E'. rewrite E'. cbn [bind]. unfold rank_of in L. rewrite E in L.
    destruct s; try congruence; rewrite parse_digits by exact L; reflexivity.
  - intros x I. destruct s; try congruence; simpl in I.
    + apply idx2_shape in I. destruct I as (i & j & ->). reflexivity.
    + apply idx4_shape in I. destruct I as (i & j & k & l & ->). reflexivity.
Qed.

(** ** flavor_rotation *)
Lemma rotated_dkeys u c : dkeys (rotated u c) = filter (fun k => dmem c k) (dkeys rot_tab).
Proof.
  unfold rotated, dkeys. generalize rot_tab as tab. induction tab as [|[k r] t IH]; auto.
  cbn [flat_map map filter fst snd]. unfold dmem at 1. destruct (dget c k); simpl; rewrite IH; reflexivity.
Qed.
Lemma dmem_rotated u c k : is_wc k = true -> dmem (rotated u c) k = dmem c k.
Proof. intros M. unfold dmem. rewrite rotated_get, M. destruct (dget c k); reflexivity. Qed.
Lemma rotated_comp u w c : rotated w (rotated u c) = rotated (ucomp u w) c.
Proof.
  apply dict_ext; [apply rotated_wf| |].
  - rewrite !rotated_dkeys. apply filter_ext_in. intros k I. apply dmem_rotated.
    pose proof rot_tab_ok as H. rewrite forallb_forall in H. unfold dkeys in I. apply in_map_iff in I.
    destruct I as (kr & <- & I). specialize (H _ I). apply andb_true_iff in H. tauto.
  - intros k _. rewrite !rotated_get. destruct (is_wc k); auto. destruct (dget c k); simpl; auto.
    rewrite rot1_comp. reflexivity.
Qed.
Lemma rotation_compose c u w : typed c ->
  exists c1 c2, flavor_rotation c u = Ok c1 /\ flavor_rotation c1 w = Ok c2 /\ flavor_rotation c (ucomp u w) = Ok c2.
Proof.
  intros T. exists (rotated u c), (rotated (ucomp u w) c).
  rewrite !flavor_rotation_spec by auto using rotated_typed. rewrite rotated_comp. auto.
Qed.
Lemma rotation_identity c : typed c -> exists c', flavor_rotation c uone = Ok c' /\
  forall op, dget c' op = if mem op WC_keys then dget c op else None.
Proof.
  intros T. exists (rotated uone c). split; [apply flavor_rotation_spec; auto|]. intros op. rewrite rotated_get.
  unfold is_wc. destruct (mem op WC_keys); auto. destruct (dget c op); simpl; auto. rewrite rot1_one; reflexivity.
Qed.
Definition all_unitary (u : umats) : Prop :=
  unitary (u_q u) /\ unitary (u_u u) /\ unitary (u_d u) /\ unitary (u_l u) /\ unitary (u_e u).
Lemma ucomp_dag u : all_unitary u -> ucomp u (udag u) = uone.
Proof.
  intros (A & B & D & E & F). unfold ucomp, udag, uone; simpl. rewrite !unitary_right by auto. reflexivity.
Qed.
Lemma rotation_inverse c u : typed c -> all_unitary u ->
  exists c1 c2, flavor_rotation c u = Ok c1 /\ flavor_rotation c1 (udag u) = Ok c2 /\
    forall op, dget c2 op = if mem op WC_keys then dget c op else None.
Proof.
  intros T U. destruct (rotation_compose c u (udag u) T) as (c1 & c2 & H1 & H2 & H3).
  exists c1, c2. repeat (split; auto). rewrite ucomp_dag in H3 by auto.
  destruct (rotation_identity c T) as (c' & H & K). assert (c' = c2) as <- by congruence. exact K.
Qed.
(** Entrywise combination of two arrays of the same operator. *)
Definition lincomb (z w : C) (a b : arr) : arr :=
  arr_of (shape_of a) (fun x => Cadd (Cmul z (entry a x)) (Cmul w (entry b x))).
Open Scope C_scope.
Lemma mmul_lin_l z w a b m : mmul (fun i j => z * a i j + w * b i j) m = (fun i j => z * mmul a m i j + w * mmul b m i j).
Proof. apply mat_ext; intros i j. unfold mmul, S3. ring. Qed.
Lemma mmul_lin_r z w a b m : mmul m (fun i j => z * a i j + w * b i j) = (fun i j => z * mmul m a i j + w * mmul m b i j).
Proof. apply mat_ext; intros i j. unfold mmul, S3. ring. Qed.
Close Scope C_scope.
Lemma rot1_lin u r s z w a b : fits s a -> fits s b ->
  rot1 u r (lincomb z w a b) = if rot_fits r s then lincomb z w (rot1 u r a) (rot1 u r b) else rot1 u r (lincomb z w a b).
Proof.
  intros F G. destruct (rot_fits r s) eqn:Q; auto.
  destruct r, s; try discriminate Q; destruct a, b; simpl in F, G; try contradiction.
  - reflexivity.
  - unfold lincomb. cbn [shape_of arr_of rot1]. f_equal. unfold to_mat.
    cbn [entry of_mat]. rewrite mmul_lin_r, mmul_lin_l. reflexivity.
  - unfold lincomb. cbn [shape_of arr_of rot1]. f_equal. unfold to_ten.
    cbn [entry of_ten]. rewrite einsum4_lin. reflexivity.
Qed.
Lemma op_rot_fits op s : is_wc op = true -> op_shape op = Some s -> rot_fits (op_rot op) s = true.
Proof.
  intros M E. unfold op_rot. pose proof rot_tab_ok as H. pose proof rot_tab_all as A.
  rewrite forallb_forall in H, A. apply is_wc_In in M. specialize (A op M). unfold dmem in A.
  destruct (dget rot_tab op) as [r|] eqn:D; [|discriminate]. apply dget_In in D. specialize (H _ D). cbn [fst snd] in H.
  apply andb_true_iff in H. rewrite E in H. tauto.
Qed.
Lemma rotation_linear u op s a b z w : In op WC_keys -> op_shape op = Some s -> fits s a -> fits s b ->
  exists a' b', flavor_rotation [(op, a)] u = Ok [(op, a')] /\ flavor_rotation [(op, b)] u = Ok [(op, b')] /\
    flavor_rotation [(op, lincomb z w a b)] u = Ok [(op, lincomb z w a' b')].
Proof.
  intros M E F G. apply is_wc_In in M.
  assert (forall v, fits s v -> flavor_rotation [(op, v)] u = Ok [(op, rot1 u (op_rot op) v)]) as K.
  { intros v Fv. assert (typed [(op, v)]) as T.
    { split; [repeat constructor; simpl; tauto|]. intros op' v' [I|[]]. injection I as <- <-. eauto. }
    rewrite flavor_rotation_spec by auto. f_equal.
    apply dict_ext; [apply rotated_wf| |].
    - rewrite rotated_dkeys.
      assert (forall l, NoDup l -> In op l -> filter (fun k => dmem [(op, v)] k) l = [op]) as Q.
      { induction l as [|x t IH]; [intros _ []|]. intros ND I. inversion ND as [|? ? N1 N2]; subst. cbn [filter].
        unfold dmem at 1. cbn [dget]. destruct I as [->|I].
        - rewrite keqb_refl. f_equal.
          clear IH. induction t as [|y t IHt]; auto. cbn [filter]. unfold dmem at 1. cbn [dget].
          destruct (keqb y op) eqn:Qy; [apply keqb_eq in Qy; subst; exfalso; apply N1; left; auto|].
          apply IHt. + constructor; inversion ND as [|? ? A B]; inversion B; subst; auto. intros J; apply N1; right; auto.
          + intros J; apply N1; right; auto.
          + inversion N2; auto.
        - destruct (keqb x op) eqn:Qx; [apply keqb_eq in Qx; subst; contradiction|]. apply IH; auto. }
      apply (Q _ rot_tab_wf). pose proof rot_tab_all as A. rewrite forallb_forall in A. apply is_wc_In in M.
      apply dmem_In. exact (A op M).
    - intros k I. apply rotated_keys in I. destruct I as [Mk [<-|[]]]. rewrite rotated_get, Mk. cbn [dget fst]. rewrite keqb_refl.
      reflexivity. }
  exists (rot1 u (op_rot op) a), (rot1 u (op_rot op) b). rewrite (K a F), (K b G). repeat (split; auto).
  rewrite K by (unfold lincomb; rewrite (fits_shape _ _ F); apply fits_arr_of).
  rewrite (rot1_lin u _ s) by auto. rewrite (op_rot_fits op s) by auto. reflexivity.
Qed.
Lemma rotation_keeps_symmetry c u : typed c -> (forall op v, dget c op = Some v -> index_symmetry op v) ->
  exists c', flavor_rotation c u = Ok c' /\ forall op v, dget c' op = Some v -> index_symmetry op v.
Proof.
  intros T Y. exists (rotated u c). split; [apply flavor_rotation_spec; auto|]. intros op v H.
  rewrite rotated_get in H. destruct (is_wc op) eqn:M; try discriminate. destruct (dget c op) as [a|] eqn:D; try discriminate.
  injection H as <-. apply rot1_symm; auto.
Qed.

(** ** symmetrize on a dictionary *)
Lemma symmetrize_contract c : typed c -> exists c', symmetrize c = Ok c' /\
  dkeys c' = filter (fun k => mem k WC_keys) (dkeys c) /\
  (forall op v, dget c' op = Some v -> index_symmetry op v) /\
  (forall op v, In op WC_keys -> dget c op = Some v -> index_symmetry op v -> dget c' op = Some v) /\
  (forall op v, In op WC_keys -> dget c op = Some v -> exists w, symmetrize [(op, v)] = Ok [(op, w)] /\ dget c' op = Some w) /\
  symmetrize c' = Ok c'.
Proof.
  intros T. exists (symmetrized c). split; [apply symmetrize_spec; auto|].
  assert (forall op v, dget c op = Some v -> exists s, op_shape op = Some s /\ fits s v) as Ts.
  { intros op v D. apply dget_In in D. exact (proj2 T _ _ D). }
  split; [apply symmetrized_keys|]. split; [|split; [|split]].
  - intros op v H. rewrite symmetrized_get in H by auto. destruct (is_wc op) eqn:M; try discriminate.
    destruct (dget c op) as [a|] eqn:D; try discriminate. injection H as <-. destruct (Ts _ _ D) as (s & E & F).
    apply (symm1_ok s); auto.
  - intros op v M D Y. apply is_wc_In in M. rewrite symmetrized_get, M, D by auto. destruct (Ts _ _ D) as (s & E & F). simpl.
    rewrite (symm1_fix s); auto.
  - intros op v M D. apply is_wc_In in M. destruct (Ts _ _ D) as (s & E & F). exists (symm1 op v).
    rewrite (symmetrize_single op s) by auto. split; auto. rewrite symmetrized_get, M, D by auto. reflexivity.
  - pose proof (symmetrized_typed c T) as T'. rewrite symmetrize_spec by auto. fold (symmetrized (symmetrized c)).
    apply (f_equal (@Ok arrays)). apply dict_ext; [apply (proj1 (symmetrized_typed _ T'))| |].
    + rewrite symmetrized_keys, symmetrized_keys. clear. generalize (dkeys c).
      induction l as [|k t IH]; simpl; auto. destruct (is_wc k) eqn:M; simpl; rewrite ?M, ?IH; auto.
    + intros k _. rewrite symmetrized_get by auto. destruct (is_wc k) eqn:M.
      * destruct (dget (symmetrized c) k) as [v|] eqn:D; auto. simpl. f_equal.
        destruct (proj2 T' k v (dget_In _ _ _ D)) as (s & E & F). apply (symm1_fix s); auto.
        rewrite symmetrized_get, M in D by auto. destruct (dget c k) as [a|] eqn:Da; try discriminate. injection D as <-.
        destruct (Ts _ _ Da) as (s' & E' & F'). apply (symm1_ok s'); auto.
      * rewrite symmetrized_get, M by auto. reflexivity.
Qed.
(** A single operator: result, symmetry *)
Lemma symmetrize_one op s v : In op WC_keys -> op_shape op = Some s -> fits s v ->
  exists w, symmetrize [(op, v)] = Ok [(op, w)] /\ fits s w /\ index_symmetry op w /\ (index_symmetry op v -> w = v).
Proof.
  intros M E F. apply is_wc_In in M. exists (symm1 op v). split; [apply (symmetrize_single op s); auto|].
  split; [apply fits_symm1; auto|]. split; [apply (symm1_ok s); auto|]. intros Y. apply (symm1_fix s); auto.
Qed.
(** The operator's class is determined: exactly one list of C_symm_keys contains it. *)
Definition symm_lists : list (list string) :=
  [symm_keys_0; symm_keys_1; symm_keys_2; symm_keys_3; symm_keys_4; symm_keys_5; symm_keys_6; symm_keys_7; symm_keys_8; symm_keys_9].
Lemma one_class op : In op WC_keys -> length (filter (mem op) symm_lists) = 1.
Proof.
  intros M. assert (forallb (fun op => Nat.eqb (length (filter (mem op) symm_lists)) 1) WC_keys = true) as H by (vm_compute; reflexivity).
  rewrite forallb_forall in H. apply Nat.eqb_eq. auto.
Qed.
