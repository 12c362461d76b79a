(** Property theorems C14 - C24: SMEFT arrays, symmetries, rotations, translators. *)
From Coq Require Import String Ascii List Bool Arith ZArith Reals Lra.
From Verif Require Import PyBase PyDict Cplx Tensor SmeftTab Wc Params Smeft SmeftSpec SmeftNames SmeftRot SmeftWarsaw SmeftMass SmeftIll SmeftReg SmeftFields.
Import ListNotations.
Open Scope string_scope.
Open Scope list_scope.
Open Scope nat_scope.

(** C14 *)
Theorem C14_symmetrize_symmetric : forall op s v, In op WC_keys -> op_shape op = Some s -> fits s v ->
  exists w, symmetrize [(op, v)] = Ok [(op, w)] /\ fits s w /\ index_symmetry op w.
Proof.
  intros op s v M E F. destruct (symmetrize_one op s v M E F) as (w & A & B & D & _). exists w. auto.
Qed.
Example C14_case : In "qq1" WC_keys /\ op_shape "qq1" = Some SmeftSyntax.Sh4 /\
  fits SmeftSyntax.Sh4 (A4 (fun i j k l => if idx_eqb [i; j; k; l] [F1; F2; F1; F3] then C1 else C0)) /\
  sym_kind "qq1" = SIdentical /\ sym_kind "ee" = SEe /\ sym_kind "qqql" = SQqql.
Proof. repeat split. apply (mem_In _ "qq1" WC_keys). vm_compute; reflexivity. Qed.

(** C15 *)
Theorem C15_symmetrize_fixes : forall op s v, In op WC_keys -> op_shape op = Some s -> fits s v ->
  index_symmetry op v -> symmetrize [(op, v)] = Ok [(op, v)].
Proof.
  intros op s v M E F Y. destruct (symmetrize_one op s v M E F) as (w & A & _ & _ & B). rewrite (B Y) in A. exact A.
Qed.
Theorem C15_idempotent : forall c, typed c -> exists c', symmetrize c = Ok c' /\ symmetrize c' = Ok c'.
Proof.
  intros c T. destruct (symmetrize_contract c T) as (c' & A & _ & _ & _ & _ & B). exists c'. auto.
Qed.
Example C15_case : index_symmetry "phiq1" (A2 (fun i j => if fl_eqb i j then C1 else C0)) /\
  ~ index_symmetry "phiq1" (A2 (fun i j => if idx_eqb [i; j] [F1; F2] then C1 else C0)).
Proof.
  split.
  - intros i j. destruct i, j; simpl; rewrite ?Cconj_1, ?Cconj_0; reflexivity.
  - intros H. specialize (H F1 F2). simpl in H. rewrite Cconj_0 in H. injection H. lra.
Qed.

(** C16: [keeps op im x] says that symmetrize never changes that part of entry x. *)
Theorem C16_reads_kept_entries : forall op s v w, In op WC_keys -> op_shape op = Some s -> fits s v -> fits s w ->
  (forall x im, In x (idxs s) -> keeps op im x -> part im (entry v x) = part im (entry w x)) ->
  symmetrize [(op, v)] = symmetrize [(op, w)].
Proof. exact kept_decides. Qed.
Theorem C16_symmetric_arrays_determined : forall op s v w, In op WC_keys -> op_shape op = Some s -> fits s v -> fits s w ->
  index_symmetry op v -> index_symmetry op w ->
  (forall x im, In x (idxs s) -> keeps op im x -> part im (entry v x) = part im (entry w x)) -> v = w.
Proof.
  intros op s v w M E F G Y Z H. pose proof (kept_decides op s v w M E F G H) as Q.
  rewrite (C15_symmetrize_fixes op s v), (C15_symmetrize_fixes op s w) in Q by auto. congruence.
Qed.
(** The kept parts are as many as the operator has independent real parameters. *)
Theorem C16_parameter_count : forall op s, In op WC_keys -> op_shape op = Some s ->
  exists l, NoDup l /\ (forall im x, In (im, x) l <-> In x (idxs s) /\ keeps op im x) /\
    length l = real_parameters (sym_kind op) s.
Proof. exact kept_count. Qed.
Example C16_case : keeps "phiq1" true [F1; F2] /\ ~ keeps "phiq1" true [F2; F1] /\ ~ keeps "phiq1" true [F1; F1] /\
  keeps "phiq1" false [F1; F1].
Proof.
  repeat split; try (apply (keeps_iff "phiq1" SmeftSyntax.Sh2); auto using idx2_in; vm_compute; reflexivity).
  - intros K. apply (keeps_iff "phiq1" SmeftSyntax.Sh2) in K; auto using idx2_in. vm_compute in K; discriminate.
  - intros K. apply (keeps_iff "phiq1" SmeftSyntax.Sh2) in K; auto using idx2_in. vm_compute in K; discriminate.
Qed.

(** C17 *)
Theorem C17_symmetrize_dictionary : forall c, typed c -> exists c', symmetrize c = Ok c' /\
  dkeys c' = filter (fun k => mem k WC_keys) (dkeys c) /\
  (forall op v, dget c' op = Some v -> index_symmetry op v) /\
  (forall op v, In op WC_keys -> dget c op = Some v -> index_symmetry op v -> dget c' op = Some v) /\
  (forall op v, In op WC_keys -> dget c op = Some v -> exists w, symmetrize [(op, v)] = Ok [(op, w)] /\ dget c' op = Some w) /\
  symmetrize c' = Ok c'.
Proof. exact symmetrize_contract. Qed.
Theorem C17_one_class : forall op, In op WC_keys -> length (filter (mem op) symm_lists) = 1.
Proof. exact one_class. Qed.
Example C17_case : typed [("g", A0 C1); ("phiq1", A2 (fun _ _ => C1))] /\
  (forall c', symmetrize [("g", A0 C1); ("phiq1", A2 (fun _ _ => C1))] = Ok c' -> dkeys c' = ["phiq1"]).
Proof.
  assert (typed [("g", A0 C1); ("phiq1", A2 (fun _ _ => C1))]) as T.
  { split; [repeat constructor; simpl; intuition discriminate|].
    intros op v [I|[I|[]]]; injection I as <- <-; eexists; split; try reflexivity; exact Logic.I. }
  split; auto. intros c' H. destruct (symmetrize_contract _ T) as (c2 & H2 & K & _).
  assert (c2 = c') as <- by congruence. rewrite K. vm_compute. reflexivity.
Qed.

(** C18 *)
Theorem C18_arrays_roundtrip : forall c, typed c ->
  exists c', wcxf2arrays (arrays2wcxf c) = Ok c' /\ wf c' /\ forall op, dget c' op = dget c op.
Proof. exact arrays_roundtrip. Qed.
Theorem C18_no_name_twice : forall c, typed c ->
  NoDup (map fst (flat_map (fun kv => entries (fst kv) (snd kv)) c)) /\
  arrays2wcxf c = flat_map (fun kv => entries (fst kv) (snd kv)) c.
Proof. intros c T. split; [exact (flat_keys_NoDup c T)|exact (arrays2wcxf_eq c T)]. Qed.
Theorem C18_entry_names : forall c op s x, typed c -> op_shape op = Some s -> In x (idxs s) ->
  dget (arrays2wcxf c) (sname op x) = option_map (fun v => entry v x) (dget c op).
Proof. exact arrays2wcxf_get. Qed.
Theorem C18_names_roundtrip : forall d, good_dict d -> exists c, wcxf2arrays d = Ok c /\
  forall op s x, op_shape op = Some s -> In x (idxs s) ->
    dget (arrays2wcxf c) (sname op x) =
      match dget d (sname op x) with
      | Some z => Some z
      | None => if touched d op then Some C0 else None
      end.
Proof. exact dict_roundtrip. Qed.
Example C18_case : sname "qq1" [F1; F2; F1; F3] = "qq1_1213" /\ sname "G" [] = "G" /\
  good_dict [("qq1_1213", C1); ("G", C1)] /\ touched [("qq1_1213", C1); ("G", C1)] "qq1" = true.
Proof.
  repeat split; try reflexivity.
  - repeat constructor; simpl; intuition discriminate.
  - intros k [<-|[<-|[]]].
    + exists "qq1", SmeftSyntax.Sh4, [F1; F2; F1; F3]. repeat split. apply (idx4_in F1 F2 F1 F3).
    + exists "G", SmeftSyntax.Sh0, []. repeat split. left; reflexivity.
Qed.

(** C19 *)
Theorem C19_unknown_operator : forall k z, (forall s, op_shape (name_part k) <> Some s) ->
  wcxf2arrays [(k, z)] = Err KeyError.
Proof. exact unknown_operator. Qed.
Theorem C19_index_outcome : forall op s ind z, op_shape op = Some s -> s <> SmeftSyntax.Sh0 -> no_us ind = true ->
  wcxf2arrays [((op ++ "_" ++ ind)%string, z)] =
  if forallb is_digit (chars ind) then
    if (length (chars ind) <=? rank_of op) && forallb small_digit (chars ind)
    then Ok [(op, aset (zeros s) (map read_char (chars ind)) z)]
    else Err IndexError
  else Err ValueError.
Proof. exact index_outcome. Qed.
Theorem C19_one_bad_name : forall d k z e, wcxf2arrays [(k, z)] = Err e -> In (k, z) d ->
  exists e', wcxf2arrays d = Err e'.
Proof. exact bad_name_fails. Qed.
Theorem C19_zero_is_three : forall op s ind z, op_shape op = Some s -> s <> SmeftSyntax.Sh0 -> no_us ind = true ->
  wcxf2arrays [((op ++ "_" ++ ind)%string, z)] = wcxf2arrays [((op ++ "_" ++ smap zero_to_three ind)%string, z)].
Proof. exact zero_read_as_three. Qed.
Theorem C19_truncated_index : forall op s p z, op_shape op = Some s -> s <> SmeftSyntax.Sh0 -> length p <= rank_of op ->
  exists v, wcxf2arrays [((op ++ "_" ++ digits p)%string, z)] = Ok [(op, v)] /\
    forall x, In x (idxs s) -> entry v x = if is_prefix p x then z else C0.
Proof. exact truncated_fills. Qed.
(** An index on an operator without flavour structure is accepted, and the
    coefficient is then lost. *)
Theorem C19_scalar_index : forall op ind z, op_shape op = Some SmeftSyntax.Sh0 ->
  wcxf2arrays [((op ++ "_" ++ ind)%string, z)] = Ok [((op ++ "_" ++ ind)%string, A0 z)].
Proof. exact (fun op ind z E => proj1 (scalar_suffix op ind z E)). Qed.
Theorem C19_scalar_index_dropped : forall ckm_tree ks p op ind z, op_shape op = Some SmeftSyntax.Sh0 ->
  warsaw_to_warsaw_up ckm_tree ks p [((op ++ "_" ++ ind)%string, z)] = Ok [] /\
  warsaw_up_to_warsaw ckm_tree ks p [((op ++ "_" ++ ind)%string, z)] = Ok [].
Proof. exact scalar_suffix_dropped. Qed.
(** Not every ill-formed index is rejected. *)
Theorem C19_all_illformed_rejected_refuted :
  exists k z c, ~ good_name k /\ wcxf2arrays [(k, z)] = Ok c.
Proof.
  exists "qq1_0112", C1. eexists. split; [|reflexivity].
  intros (op & s & x & E & I & Q). destruct x as [|i x].
  - cbn [sname] in Q. subst op. vm_compute in E. discriminate.
  - pose proof (f_equal index_part Q) as Qi.
    rewrite index_part_sname in Qi; [|eauto using shape_no_us|discriminate].
    change (index_part "qq1_0112") with "0112" in Qi. cbn [digits] in Qi. injection Qi as Q1 _. destruct i; discriminate Q1.
Qed.
Example C19_case :
  wcxf2arrays [("qq1_1214", C1)] = Err IndexError /\ wcxf2arrays [("qq1_12x3", C1)] = Err ValueError /\
  wcxf2arrays [("foo_11", C1)] = Err KeyError /\ wcxf2arrays [("uphi_0", C1); ("qq1_12131", C1)] = Err IndexError /\
  op_shape "G" = Some SmeftSyntax.Sh0 /\ wcxf2arrays [("G_5", C1)] = Ok [("G_5", A0 C1)].
Proof. repeat split. Qed.

(** C20 *)
Theorem C20_identity : forall c, typed c -> exists c', flavor_rotation c uone = Ok c' /\
  forall op, dget c' op = if mem op WC_keys then dget c op else None.
Proof. exact rotation_identity. Qed.
Theorem C20_compose : forall c u w, typed c ->
  exists c1 c2, flavor_rotation c u = Ok c1 /\ flavor_rotation c1 w = Ok c2 /\ flavor_rotation c (ucomp u w) = Ok c2.
Proof. exact rotation_compose. Qed.
Theorem C20_inverse : forall c u, typed c -> all_unitary u ->
  exists c1 c2, flavor_rotation c u = Ok c1 /\ flavor_rotation c1 (udag u) = Ok c2 /\
    forall op, dget c2 op = if mem op WC_keys then dget c op else None.
Proof. exact rotation_inverse. Qed.
Theorem C20_linear : forall u op s a b z w, In op WC_keys -> op_shape op = Some s -> fits s a -> fits s b ->
  exists a' b', flavor_rotation [(op, a)] u = Ok [(op, a')] /\ flavor_rotation [(op, b)] u = Ok [(op, b')] /\
    flavor_rotation [(op, lincomb z w a b)] u = Ok [(op, lincomb z w a' b')].
Proof. exact rotation_linear. Qed.
(** The coefficients of an operator transform like its fields: each index is
    contracted with the matrix of the field at that position, conjugated if the
    field is barred. *)
Theorem C20_fields : forall u op s v, In op WC_keys -> op_shape op = Some s -> fits s v ->
  exists w, flavor_rotation [(op, v)] u = Ok [(op, w)] /\ fits s w /\
    forall x, In x (idxs s) -> entry w x = transformed u (fields op) (entry v) x.
Proof. exact rotation_transforms. Qed.
(** The operator contracted with its fields is the same before the rotation, with
    fields U psi, and after it, with fields psi. *)
Theorem C20_operator_unchanged : forall u op s v, In op WC_keys -> op_shape op = Some s -> fits s v ->
  exists w, flavor_rotation [(op, v)] u = Ok [(op, w)] /\
    forall psi, length psi = length (fields op) ->
      contract psi (entry w) = contract (redefine u (fields op) psi) (entry v).
Proof. exact rotation_lagrangian. Qed.
Example C20_fields_case : In "ledq" WC_keys /\ length (fields "ledq") = 4 /\
  forall V z, transformed (UMats V meye meye meye meye) (fields "uphi") (fun x => if idx_eqb x [F1; F2] then z else C0) [F3; F2]
              = Cmul (Cconj (V F1 F3)) z.
Proof.
  split; [apply (mem_In _ "ledq" WC_keys); vm_compute; reflexivity|]. split; [reflexivity|]. intros V z.
  change (fields "uphi") with [(SmeftSyntax.Qf, true); (SmeftSyntax.Uf, false)].
  cbn [transformed]. unfold S3, ubar. cbn -[Cmul Cconj Cadd C0 C1]. unfold meye, delta. cbn -[Cmul Cconj Cadd C0 C1]. ring.
Qed.
Example C20_case : all_unitary (UMats (sign_ckm 1 0 0 0) meye meye meye meye) /\
  typed [("qq1", A4 (fun _ _ _ _ => C1))] /\
  flavor_rotation [("phiu", A2 (fun _ _ => C1))] uone <> Ok [].
Proof.
  split; [|split].
  - assert (unitary meye) as U by (unfold unitary; rewrite mmul_1_r; unfold mdag; rewrite mconj_eye, mT_eye; reflexivity).
    repeat split; simpl; auto. apply sign_ckm_unitary.
  - split; [repeat constructor; simpl; tauto|]. intros op v [I|[]]; injection I as <- <-; eexists; split; try reflexivity; exact Logic.I.
  - vm_compute. discriminate.
Qed.

(** C21 *)
Theorem C21_rotation_keeps_symmetry : forall c u, typed c -> (forall op v, dget c op = Some v -> index_symmetry op v) ->
  exists c', flavor_rotation c u = Ok c' /\ forall op v, dget c' op = Some v -> index_symmetry op v.
Proof. exact rotation_keeps_symmetry. Qed.
Example C21_case : index_symmetry "ee" (A4 (fun _ _ _ _ => C1)) /\ index_symmetry "qqql" (A4 (fun _ _ _ _ => C1)) /\
  ~ index_symmetry "qque" (A4 (fun i _ _ _ => if fl_eqb i F1 then C1 else C0)).
Proof.
  repeat split.
  - intros p r s u. rewrite Cconj_1; reflexivity.
  - intros H. specialize (H F1 F2 F1 F1). simpl in H. injection H. lra.
Qed.

(** C22: translating up and back down gives the coefficients of the symmetrised
    arrays, restricted to the names listed by the basis. *)
Theorem C22_up_down : forall ckm_tree p b1 b2 d u d', good_dict d -> lists_kept b2 ->
  unitary (ckm_of ckm_tree (merge_params p)) ->
  warsaw_to_warsaw_up ckm_tree b2 p d = Ok u -> warsaw_up_to_warsaw ckm_tree b1 p u = Ok d' ->
  exists c sy, wcxf2arrays d = Ok c /\ symmetrize c = Ok sy /\
    forall k, dget d' k = if mem k b1 then dget (arrays2wcxf sy) k else None.
Proof. exact up_down. Qed.
Theorem C22_down_up : forall ckm_tree p b1 b2 d u d', good_dict d -> lists_kept b1 ->
  unitary (ckm_of ckm_tree (merge_params p)) ->
  warsaw_up_to_warsaw ckm_tree b1 p d = Ok u -> warsaw_to_warsaw_up ckm_tree b2 p u = Ok d' ->
  exists c sy, wcxf2arrays d = Ok c /\ symmetrize c = Ok sy /\
    forall k, dget d' k = if mem k b2 then dget (arrays2wcxf sy) k else None.
Proof. exact down_up. Qed.
(** Both translators succeed on every dictionary of well-formed names. *)
Theorem C22_total : forall ckm_tree p ks d, good_dict d ->
  (exists u, warsaw_to_warsaw_up ckm_tree ks p d = Ok u /\ good_dict u) /\
  (exists u, warsaw_up_to_warsaw ckm_tree ks p d = Ok u /\ good_dict u).
Proof. exact translators_total. Qed.
(** Coefficients of representative entries come back unchanged (a coefficient
    whose imaginary part is redundant has to be real). *)
Theorem C22_restores : forall ckm_tree p b1 b2 d u d' op s x, good_dict d -> lists_kept b2 ->
  unitary (ckm_of ckm_tree (merge_params p)) ->
  warsaw_to_warsaw_up ckm_tree b2 p d = Ok u -> warsaw_up_to_warsaw ckm_tree b1 p u = Ok d' ->
  In op WC_keys -> op_shape op = Some s -> In x (idxs s) -> In (sname op x) b1 ->
  keeps op false x -> (keeps op true x \/ Im (dval d (sname op x)) = 0%R) ->
  dget d' (sname op x) =
  match dget d (sname op x) with Some z => Some z | None => if touched d op then Some C0 else None end.
Proof.
  intros ckm p b1 b2 d u d' op s x G L U H1 H2 M E I B K0 K1.
  destruct (up_down ckm p b1 b2 d u d' G L U H1 H2) as (c & sy & Hc & Hs & K). rewrite K.
  rewrite (proj2 (mem_In _ _ _) B). exact (symmetrised_dict_get d c sy op s x G Hc Hs M E I K0 K1).
Qed.
(** The translators rewrite the operators for q = V^dagger q' and q = V q'. *)
Theorem C22_up_fields : forall ckm_tree p ks d r op s x, good_dict d -> warsaw_to_warsaw_up ckm_tree ks p d = Ok r ->
  In op WC_keys -> op_shape op = Some s -> In x (idxs s) -> touched d op = true -> In (sname op x) ks ->
  exists c sy a, wcxf2arrays d = Ok c /\ symmetrize c = Ok sy /\ dget sy op = Some a /\
    dget r (sname op x) = Some (transformed (UMats (mdag (ckm_of ckm_tree (merge_params p))) meye meye meye meye)
                                  (fields op) (entry a) x).
Proof. exact up_fields. Qed.
Theorem C22_down_fields : forall ckm_tree p ks d r op s x, good_dict d -> warsaw_up_to_warsaw ckm_tree ks p d = Ok r ->
  In op WC_keys -> op_shape op = Some s -> In x (idxs s) -> touched d op = true -> In (sname op x) ks ->
  exists c sy a, wcxf2arrays d = Ok c /\ symmetrize c = Ok sy /\ dget sy op = Some a /\
    dget r (sname op x) = Some (transformed (UMats (ckm_of ckm_tree (merge_params p)) meye meye meye meye)
                                  (fields op) (entry a) x).
Proof. exact down_fields. Qed.
Example C22_case : lists_kept kept_names /\ good_dict [("uphi_11", C1)] /\
  (forall p, unitary (ckm_of sign_ckm (merge_params p))) /\ In "uphi_11" kept_names /\
  exists u, warsaw_to_warsaw_up sign_ckm kept_names None [("uphi_11", C1)] = Ok u /\
    dget u "uphi_11" = Some (Cneg C1).
Proof.
  split; [exact kept_names_list|]. split; [apply good_uphi|]. split; [intros; apply sign_ckm_unitary|].
  split; [apply (mem_In _ "uphi_11" kept_names); vm_compute; reflexivity|].
  exact (uphi_up None _ sign_ckm_default).
Qed.

(** C23 *)
Theorem C23_parameters_ignored : forall fs ckm msvd wk uk r o t p q, wc_eft o = "SMEFT" ->
  smeft_target (wc_basis o) t = true ->
  translate fs (register_smeft ckm msvd wk uk r) o t p = translate fs (register_smeft ckm msvd wk uk r) o t q.
Proof. exact ignores_parameters. Qed.
(** The underlying function does depend on them. *)
Theorem C23_parameters_used_refuted : exists ckm msvd wk uk d p u u',
  (forall a b c g, unitary (ckm a b c g)) /\
  (forall r, exists tr, reg_lookup (register_smeft ckm msvd wk uk r) ("SMEFT", "Warsaw", "Warsaw up") = Ok tr /\
     forall scale, t_fun tr d scale (Some p) = Ok u) /\
  warsaw_to_warsaw_up ckm uk (Some p) d = Ok u' /\ dget u "uphi_11" <> dget u' "uphi_11".
Proof.
  destruct (uphi_up None _ sign_ckm_default) as (u & Hu & Gu).
  destruct (uphi_up (Some [("Vus", 0%R)]) _ sign_ckm_zero) as (u' & Hu' & Gu').
  exists sign_ckm, (fun m i => m i i), kept_names, kept_names, [("uphi_11", C1)], [("Vus", 0%R)], u, u'.
  split; [exact sign_ckm_unitary|]. split; [|split; auto].
  - intros r. destruct (registered_lookup sign_ckm (fun m i => m i i) kept_names kept_names r) as ((tr & A & B) & _).
    exists tr. split; auto. intros sc. rewrite B. exact Hu.
  - rewrite Gu, Gu'. intros Q. injection Q. unfold meye, delta; simpl. lra.
Qed.
Example C23_case : smeft_target "Warsaw" "Warsaw up" = true /\ smeft_target "Warsaw" "Warsaw mass" = true.
Proof. split; reflexivity. Qed.

(** C24 *)
Theorem C24_warsawmass : forall ckm_tree msvd_values p d, good_dict d ->
  let V := ckm_of ckm_tree (merge_params p) in
  exists o ll, warsaw_to_warsawmass ckm_tree msvd_values p d = Ok o /\
    smeft_toarray "llphiphi" d = Ok ll /\ symmetric_mat ll /\
    (forall k, ~ In (name_part k) ("llphiphi" :: up_ops) -> dget o k = dget d k) /\
    (forall op i j, In op up_ops -> dget o (sname op [i; j]) = Some (mmul V (mat_in d op) i j)) /\
    (forall i j, dget o (sname "llphiphi" [i; j]) = Some (if fl_eqb i j then msvd_values ll i else C0)) /\
    (forall k, In k (dkeys o) -> In k (dkeys d) \/ exists op i j, In op ("llphiphi" :: up_ops) /\ k = sname op [i; j]).
Proof. exact warsawmass_spec. Qed.
Theorem C24_recover : forall v m i j, unitary v ->
  S3 (fun k => Cmul (Cconj (v k i)) (mmul v m k j)) = m i j.
Proof. exact warsawmass_recover. Qed.
Example C24_case : good_dict [("uphi_11", C1)] /\ mat_in [("uphi_11", C1)] "uphi" F1 F1 = C1 /\
  mat_in [("uphi_11", C1)] "uphi" F1 F2 = C0 /\ name_part "phiq1_12" = "phiq1".
Proof. repeat split; try apply good_uphi. Qed.

Print Assumptions C14_symmetrize_symmetric.
Print Assumptions C15_symmetrize_fixes.
Print Assumptions C15_idempotent.
Print Assumptions C16_reads_kept_entries.
Print Assumptions C16_symmetric_arrays_determined.
Print Assumptions C16_parameter_count.
Print Assumptions C17_symmetrize_dictionary.
Print Assumptions C17_one_class.
Print Assumptions C18_arrays_roundtrip.
Print Assumptions C18_no_name_twice.
Print Assumptions C18_entry_names.
Print Assumptions C18_names_roundtrip.
Print Assumptions C19_unknown_operator.
Print Assumptions C19_index_outcome.
Print Assumptions C19_one_bad_name.
Print Assumptions C19_zero_is_three.
Print Assumptions C19_truncated_index.
Print Assumptions C19_all_illformed_rejected_refuted.
Print Assumptions C19_scalar_index.
Print Assumptions C19_scalar_index_dropped.
Print Assumptions C20_fields.
Print Assumptions C20_operator_unchanged.
Print Assumptions C20_identity.
Print Assumptions C20_compose.
Print Assumptions C20_inverse.
Print Assumptions C20_linear.
Print Assumptions C21_rotation_keeps_symmetry.
Print Assumptions C22_up_down.
Print Assumptions C22_down_up.
Print Assumptions C22_up_fields.
Print Assumptions C22_down_fields.
Print Assumptions C22_total.
Print Assumptions C22_restores.
Print Assumptions C23_parameters_ignored.
Print Assumptions C23_parameters_used_refuted.
Print Assumptions C24_warsawmass.
Print Assumptions C24_recover.
