(** The SMEFT translators as registered: wcxf/translators/__init__.py 6-18. *)
From Coq Require Import String Ascii List Bool Arith ZArith Reals Lia Lra.
From Verif Require Import PyBase PyDict Cplx Tensor SmeftSyntax SmeftTab SmeftSymm Wc WetN Params Smeft SmeftSpec SmeftSymmFacts SmeftNames SmeftRot SmeftWarsaw SmeftMass.
Import ListNotations.
Open Scope string_scope.
Open Scope list_scope.
Open Scope nat_scope.
#[local] Opaque exec srun WC_keys rot_tab.
Section Reg.
Variable fs : string -> option R.
Variable ckm_tree : R -> R -> R -> R -> mat.
Variable msvd_values : mat -> fl -> C.
(** [Basis['SMEFT', 'Warsaw'].all_wcs] and [Basis['SMEFT', 'Warsaw up'].all_wcs] *)
Variables warsaw_keys up_keys : list string.
(** translators/__init__.py 6-8: parameters are not passed on. *)
Definition tr_warsawmass : convfun := fun d _ _ => warsaw_to_warsawmass ckm_tree msvd_values None d.
(** translators/__init__.py 11-13 *)
Definition tr_warsaw_up : convfun := fun d _ _ => warsaw_to_warsaw_up ckm_tree up_keys None d.
(** translators/__init__.py 16-18 *)
Definition tr_up_warsaw : convfun := fun d _ _ => warsaw_up_to_warsaw ckm_tree warsaw_keys None d.
(** the three decorators, on top of the registry [r] *)
Definition register_smeft (r : treg) : treg :=
  new_translator (new_translator (new_translator r "SMEFT" "Warsaw" "Warsaw mass" tr_warsawmass)
    "SMEFT" "Warsaw" "Warsaw up" tr_warsaw_up) "SMEFT" "Warsaw up" "Warsaw" tr_up_warsaw.
Definition smeft_target (b t : string) : bool :=
  (String.eqb b "Warsaw" && String.eqb t "Warsaw mass") || (String.eqb b "Warsaw" && String.eqb t "Warsaw up")
  || (String.eqb b "Warsaw up" && String.eqb t "Warsaw").
Lemma ignores_parameters r o t p q : wc_eft o = "SMEFT" -> smeft_target (wc_basis o) t = true ->
  translate fs (register_smeft r) o t p = translate fs (register_smeft r) o t q.
Proof.
  intros E B. unfold translate. rewrite E.
  unfold smeft_target in B. rewrite !orb_true_iff, !andb_true_iff, !String.eqb_eq in B.
  unfold register_smeft, new_translator. rewrite !reg_lookup_set.
  destruct B as [[[-> ->]|[-> ->]]|[-> ->]]; reflexivity.
Qed.
(** The registered functions are the plain ones without parameters. *)
Lemma registered_lookup r :
  (exists tr, reg_lookup (register_smeft r) ("SMEFT", "Warsaw", "Warsaw up") = Ok tr /\ t_fun tr = tr_warsaw_up) /\
  (exists tr, reg_lookup (register_smeft r) ("SMEFT", "Warsaw up", "Warsaw") = Ok tr /\ t_fun tr = tr_up_warsaw) /\
  (exists tr, reg_lookup (register_smeft r) ("SMEFT", "Warsaw", "Warsaw mass") = Ok tr /\ t_fun tr = tr_warsawmass).
Proof.
  unfold register_smeft, new_translator. rewrite !reg_lookup_set. repeat split; eexists; split; reflexivity.
Qed.
End Reg.

(** Names of all entries with a kept part. *)
Definition kept_names : list string :=
  flat_map (fun op => match op_shape op with
    | Some s => map (sname op) (filter (fun x => is_rep op (false, x) || is_rep op (true, x)) (idxs s))
    | None => [] end) WC_keys.
Lemma kept_names_list : lists_kept kept_names.
Proof.
  intros op s x im M E I K. unfold kept_names. apply in_flat_map. exists op. split; auto. rewrite E.
  apply in_map. apply filter_In. split; auto. apply (keeps_iff op s) in K; auto; [|apply is_wc_In; auto].
  apply orb_true_iff. destruct im; auto.
Qed.
(** A test matrix for ckm_tree: unitary, and sensitive to its first argument. *)
Definition sign_ckm (vus _ _ _ : R) : mat :=
  fun i j => if Req_EM_T vus 0 then delta i j else Cneg (delta i j).
Lemma sign_ckm_unitary a b c g : unitary (sign_ckm a b c g).
Proof.
  unfold unitary, sign_ckm. apply mat_ext; intros i j. unfold mmul, mdag, mT, mconj, meye.
  destruct (Req_EM_T a 0); destruct i, j; unfold S3, delta, fl_eqb; rewrite ?Cconj_neg, ?Cconj_0, ?Cconj_1; ring.
Qed.
Lemma sign_ckm_default : ckm_of sign_ckm (merge_params None) = fun i j => Cneg (delta i j).
Proof.
  unfold ckm_of, sign_ckm. assert (param (merge_params None) "Vus" = (2243 / 10000)%R) as -> by reflexivity.
  destruct (Req_EM_T (2243 / 10000) 0); [lra|reflexivity].
Qed.
Lemma sign_ckm_zero : ckm_of sign_ckm (merge_params (Some [("Vus", 0%R)])) = meye.
Proof.
  unfold ckm_of, sign_ckm. assert (param (merge_params (Some [("Vus", 0%R)])) "Vus" = 0%R) as -> by reflexivity.
  destruct (Req_EM_T 0 0); [reflexivity|lra].
Qed.
Lemma good_uphi z : good_dict [("uphi_11", z)].
Proof.
  split; [repeat constructor; simpl; tauto|]. intros k [<-|[]]. exists "uphi", Sh2, [F1; F1].
  repeat split. apply (idx2_in F1 F1).
Qed.
Lemma uphi_up p v : ckm_of sign_ckm (merge_params p) = v ->
  exists u, warsaw_to_warsaw_up sign_ckm kept_names p [("uphi_11", C1)] = Ok u /\
    dget u "uphi_11" = Some (v F1 F1).
Proof.
  intros V. pose proof (good_uphi C1) as G. unfold warsaw_to_warsaw_up. rewrite V.
  destruct (rotate_q_spec (mdag v) _ G) as (c & r & _ & _ & _ & _ & H & _). rewrite H. cbn [bind].
  eexists. split; [reflexivity|]. rewrite key_filter_get by apply (proj1 (rotate_q_good _ _ _ G H)).
  assert (mem "uphi_11" kept_names = true) as -> by (vm_compute; reflexivity).
  pose proof (rotate_q_get (mdag v) _ r "uphi" Sh2 [F1; F1] G H eq_refl (idx2_in F1 F1)) as Q.
  change (sname "uphi" [F1; F1]) with "uphi_11" in Q. rewrite Q. clear Q.
  assert (is_wc "uphi" && touched [("uphi_11", C1)] "uphi" = true) as -> by (vm_compute; reflexivity).
  f_equal. rewrite (symm1_fix Sh2 "uphi") by (try reflexivity; apply array_in_fits).
  assert (op_rot "uphi" = R2 (Qf, true) (Uf, false)) as -> by (vm_compute; reflexivity).
  assert (array_in [("uphi_11", C1)] "uphi" Sh2 = A2 (fun i j => if fl_eqb i F1 && fl_eqb j F1 then C1 else C0)) as ->.
  { unfold array_in. cbn [arr_of]. f_equal. apply mat_ext; intros [] []; reflexivity. }
  cbn [rot1 entry of_mat]. unfold umat, uq_only; cbn [fst snd u_q u_u]. rewrite mmul_1_r.
  unfold mmul, mT, mconj, mdag, mT, mconj, S3, fl_eqb; cbn [andb]. rewrite Cconj_conj. ring.
Qed.
