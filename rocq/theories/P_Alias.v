(** SMEFT names with the index 0 and other unusual indices: additions to C24 and C75. *)
From Coq Require Import String Ascii List Bool Arith ZArith Reals Lra Lia FunctionalExtensionality Permutation.
From Verif Require Import PyBase PyDict Cplx Tensor SmeftTab Wc Params Smeft SmeftSpec SmeftNames SmeftRot SmeftWarsaw SmeftMass SmeftIll SmeftReg SmeftFields Package PackMatch Order OrderSession OrderPackage OrderInst.
From Verif Require WetExpr.
From Verif Require P_Classes.
Import ListNotations.
Open Scope string_scope.
Open Scope list_scope.
Open Scope nat_scope.

Lemma alias_arrays x y : wcxf2arrays [("ephi_13", x); ("ephi_10", y)] = wcxf2arrays [("ephi_13", y)] /\
  wcxf2arrays [("ephi_10", y); ("ephi_13", x)] = wcxf2arrays [("ephi_13", x)].
Proof.
  assert (forall f g : mat, (forall i j, f i j = g i j) -> Ok [("ephi", A2 f)] = Ok [("ephi", A2 g)]) as K
    by (intros f g H; assert (f = g) as -> by (extensionality i; extensionality j; apply H); reflexivity).
  split; apply K; intros i j; destruct i, j; reflexivity.
Qed.
Lemma good_ephi z : good_dict [("ephi_13", z)].
Proof.
  split; [repeat constructor; cbn; tauto|]. intros k [<-|[]]. exists "ephi", SmeftSyntax.Sh2, [F1; F3]. repeat split; cbn; tauto.
Qed.
Lemma up_ephi ckm ks p z : In "ephi_13" ks -> exists r, warsaw_to_warsaw_up ckm ks p [("ephi_13", z)] = Ok r /\ wf r /\ dget r "ephi_13" = Some z.
Proof.
  intros I. pose proof (good_ephi z) as G. unfold warsaw_to_warsaw_up. set (V := mdag (ckm_of ckm (merge_params p))). destruct (rotate_ok V _ G) as (r & E).
  exists (key_filter ks r). split; [rewrite E; reflexivity|]. pose proof (proj1 (rotate_q_good V _ r G E)) as W. split; [apply PyDict.wf_filter, W|].
  destruct (filtered_fields V ks _ r "ephi" SmeftSyntax.Sh2 [F1; F3] G E) as (c & sy & a & A & B & D & F); try (vm_compute; reflexivity); try exact I.
  - apply (mem_In _ "ephi" WC_keys). vm_compute. reflexivity.
  - cbn. tauto.
  - change (sname "ephi" [F1; F3]) with "ephi_13" in F. rewrite F. f_equal. set (m := fun i j : fl => if is_prefix [F1; F3] [i; j] then z else C0).
    assert (forall u v : arrays, Ok u = Ok v -> u = v) as Oi by (intros u v X; congruence).
    change (Ok [("ephi", A2 m)] = Ok c) in A. apply Oi in A. subst c. change (Ok [("ephi", A2 m)] = Ok sy) in B. apply Oi in B. subst sy.
    change (Some (A2 m) = Some a) in D. injection D as <-. unfold m. clear. destruct z as [a b]. cbn. csimp. apply injective_projections; cbn; ring.
Qed.

(** ** Names with the index 0: the order of the coefficients *)
Section Installed.
Variable float_of_str : string -> option R.
Variable ckm_tree : R -> R -> R -> R -> mat.
Variable msvd_values : mat -> fl -> C.
Variable qcd_mb qcd_ms : R -> R -> R -> res R.
Variable qcd_as : R -> R -> res R.
Variable all_wcs_of : string -> string -> list string.
Variable with_nan : dict string WetExpr.cval -> res (dict string C).
Notation translators := (Package.installed ckm_tree msvd_values qcd_mb qcd_ms qcd_as all_wcs_of with_nan).
(** The index 0 is read as 3 (C19_zero_is_three), so "ephi_10" and "ephi_13" are the same coefficient, and the one that comes
    last in the file wins. *)
Theorem C75_alias_refuted : forall x y scale p, x <> C0 -> y <> C0 -> In "ephi_13" (all_wcs_of "SMEFT" "Warsaw up") ->
  exists w w1 u u1 d d1, same_wc w w1 /\ wc_scale w = scale /\ fst (wc_dict float_of_str w) = Ok [("ephi_13", x); ("ephi_10", y)] /\
    fst (Wc.translate float_of_str translators w "Warsaw up" p) = Ok u /\ fst (Wc.translate float_of_str translators w1 "Warsaw up" p) = Ok u1 /\
    fst (wc_dict float_of_str u) = Ok d /\ fst (wc_dict float_of_str u1) = Ok d1 /\ dget d "ephi_13" = Some y /\ dget d1 "ephi_13" = Some x.
Proof.
  intros x y scale p X Y I.
  set (d := [("ephi_13", x); ("ephi_10", y)]). set (d1 := [("ephi_10", y); ("ephi_13", x)]).
  assert (wf d) as Wd by (repeat constructor; cbn; intuition discriminate).
  destruct (up_ephi ckm_tree (all_wcs_of "SMEFT" "Warsaw up") None y I) as (r & R & Wr & Gr).
  destruct (up_ephi ckm_tree (all_wcs_of "SMEFT" "Warsaw up") None x I) as (r1 & R1 & Wr1 & Gr1).
  exists (new_wc "SMEFT" "Warsaw" scale (dict2values d)), (new_wc "SMEFT" "Warsaw" scale (dict2values d1)). eexists. eexists. exists (filter nonzero r), (filter nonzero r1).
  split; [|split; [reflexivity|split; [apply new_dict|split; [|split; [|split; [|split; [|split]]]]]]].
  - split; [reflexivity|]. split; [reflexivity|]. split; [reflexivity|]. split; [reflexivity|]. split; [reflexivity|]. cbn [new_wc wc_values]. apply (written_values float_of_str); [exact Wd|apply perm_swap].
  - eapply (translate_eq float_of_str ckm_tree msvd_values qcd_mb qcd_ms qcd_as all_wcs_of with_nan "SMEFT" "Warsaw" "Warsaw up" (tr_warsaw_up ckm_tree (all_wcs_of "SMEFT" "Warsaw up")) (new_wc "SMEFT" "Warsaw" scale (dict2values d)) p d r); [reflexivity|reflexivity|reflexivity|apply new_dict|].
    unfold tr_warsaw_up. rewrite <- R. unfold warsaw_to_warsaw_up, rotate_q. unfold d. rewrite (proj1 (alias_arrays x y)). reflexivity.
  - eapply (translate_eq float_of_str ckm_tree msvd_values qcd_mb qcd_ms qcd_as all_wcs_of with_nan "SMEFT" "Warsaw" "Warsaw up" (tr_warsaw_up ckm_tree (all_wcs_of "SMEFT" "Warsaw up")) (new_wc "SMEFT" "Warsaw" scale (dict2values d1)) p d1 r1); [reflexivity|reflexivity|reflexivity|apply new_dict|].
    unfold tr_warsaw_up. rewrite <- R1. unfold warsaw_to_warsaw_up, rotate_q. unfold d1. rewrite (proj2 (alias_arrays x y)). reflexivity.
  - apply new_dict.
  - apply new_dict.
  - rewrite P_Classes.C11_nonzero_entries by exact Wr. rewrite Gr. destruct (Ceq_dec y C0); [contradiction|reflexivity].
  - rewrite P_Classes.C11_nonzero_entries by exact Wr1. rewrite Gr1. destruct (Ceq_dec x C0); [contradiction|reflexivity].
Qed.
End Installed.
(** A basis file listing the name meets the hypothesis. *)
Example C75_alias_case : C1 <> C0 /\ Ci <> C0 /\ In "ephi_13" kept_names.
Proof.
  split; [|split]; [intros Q; injection Q as Q; lra..|]. apply (mem_In _ "ephi_13" kept_names). vm_compute. reflexivity.
Qed.

(** ** Warsaw to Warsaw mass *)
Definition mass_ops : list string := ["uphi"; "uG"; "uW"; "uB"; "llphiphi"].
(** Wrong indices of the five operators: what [int] cannot read gives ValueError, a number above 3 or too many indices IndexError ... *)
Lemma fill_bad op k z d e : name_part k = op -> parse_index 2 (index_part k) = Err e -> In (k, z) d -> forall a, exists e', toarray_fill op d a = Err e'.
Proof.
  intros <- P. induction d as [|[k' z'] t IH]; intros I a; [destruct I|]. cbn [toarray_fill]. destruct I as [I|I].
  - injection I as -> ->. rewrite String.eqb_refl. cbn [negb]. rewrite P. cbn. eauto.
  - destruct (negb _); [auto|]. destruct (parse_index 2 (index_part k')); cbn [bind]; eauto.
Qed.
Lemma fill_only op k z e : name_part k = op -> parse_index 2 (index_part k) = Err e -> forall a, toarray_fill op [(k, z)] a = Err e.
Proof. intros <- P a. cbn [toarray_fill]. rewrite String.eqb_refl. cbn [negb]. rewrite P. reflexivity. Qed.
Lemma fill_other op k z a : name_part k <> op -> toarray_fill op [(k, z)] a = Ok a.
Proof. intros N. cbn. apply String.eqb_neq in N. rewrite N. reflexivity. Qed.
Lemma parse_two ind : parse_index 2 ind =
  if forallb is_digit (chars ind) then
    if (length (chars ind) <=? 2) && forallb small_digit (chars ind) then Ok (map read_char (chars ind)) else Err IndexError
  else Err ValueError.
Proof.
  unfold parse_index. destruct (forallb is_digit (chars ind)) eqn:D; [|rewrite ints_bad by auto; reflexivity].
  rewrite ints_ok by auto. cbn [bind]. rewrite map_length. destruct (2 <? length (chars ind)) eqn:L.
  - apply Nat.ltb_lt in L. assert (length (chars ind) <=? 2 = false) as -> by (apply Nat.leb_gt; auto). reflexivity.
  - apply Nat.ltb_ge in L. assert (length (chars ind) <=? 2 = true) as -> by (apply Nat.leb_le; auto). cbn [andb].
    destruct (forallb small_digit (chars ind)) eqn:S; [rewrite axes_ok by auto|rewrite axes_bad by auto]; reflexivity.
Qed.
Section Mass.
Variable ckm_tree : R -> R -> R -> R -> mat.
Variable msvd_values : mat -> fl -> C.
Notation mass := (warsaw_to_warsawmass ckm_tree msvd_values).
Lemma toarray_err op k z d e : In op mass_ops -> name_part k = op -> parse_index 2 (index_part k) = Err e -> In (k, z) d -> exists e', smeft_toarray op d = Err e'.
Proof.
  intros M N P I. unfold smeft_toarray. destruct (dlookup C_keys_shape op) as [s|]; cbn [bind]; [|eauto].
  destruct (fill_bad op k z d e N P I (zeros s)) as (e' & ->). cbn. eauto.
Qed.
Lemma toarray_one op k z e : In op mass_ops -> name_part k = op -> parse_index 2 (index_part k) = Err e -> smeft_toarray op [(k, z)] = Err e.
Proof.
  intros M N P. unfold smeft_toarray. assert (exists s, dlookup C_keys_shape op = Ok s) as (s & ->).
  { unfold dlookup. destruct M as [<-|[<-|[<-|[<-|[<-|[]]]]]]; eexists; vm_compute; reflexivity. }
  cbn [bind]. rewrite (fill_only op k z e N P). reflexivity.
Qed.
Lemma toarray_skip op k z : In op mass_ops -> name_part k <> op -> exists m, smeft_toarray op [(k, z)] = Ok m.
Proof.
  intros M N. unfold smeft_toarray.
  destruct M as [<-|[<-|[<-|[<-|[<-|[]]]]]]; (assert (dlookup C_keys_shape _ = Ok SmeftSyntax.Sh2) as -> by (vm_compute; reflexivity)); cbn [bind]; rewrite fill_other by exact N; cbn [bind]; eexists; reflexivity.
Qed.
Theorem C24_bad_index : forall op ind z p, In op mass_ops -> no_us ind = true ->
  forallb is_digit (chars ind) && ((length (chars ind) <=? 2) && forallb small_digit (chars ind)) = false ->
  mass p [((op ++ "_" ++ ind)%string, z)] = Err (if forallb is_digit (chars ind) then IndexError else ValueError).
Proof.
  intros op ind z p M N B. assert (no_us op = true) as No by (destruct M as [<-|[<-|[<-|[<-|[<-|[]]]]]]; reflexivity).
  pose proof (parse_two ind) as P. pose proof (name_part_app op ind No) as Nm. pose proof (index_part_app op ind No N) as Ix.
  set (e := if forallb is_digit (chars ind) then IndexError else ValueError).
  assert (parse_index 2 (index_part (op ++ "_" ++ ind)%string) = Err e) as Pe.
  { rewrite Ix, P. unfold e. destruct (forallb is_digit (chars ind)); [|reflexivity]. cbn [andb] in B. rewrite B. reflexivity. }
  pose proof (toarray_one op _ z e M Nm Pe) as E. unfold warsaw_to_warsawmass, rotate_up.
  set (k := (op ++ "_" ++ ind)%string) in *.
  assert (forall op', In op' mass_ops -> (op' = op /\ smeft_toarray op' [(k, z)] = Err e) \/ exists m, smeft_toarray op' [(k, z)] = Ok m) as Q.
  { intros op' I. destruct (string_dec op' op) as [->|D]; [left; auto|right; apply toarray_skip; [exact I|congruence]]. }
  assert (forall op', In op' mass_ops -> op' <> op -> exists m, smeft_toarray op' [(k, z)] = Ok m) as S by (intros op' I D; destruct (Q op' I) as [[? _]|]; [contradiction|auto]).
  clearbody k. destruct M as [<-|[<-|[<-|[<-|[<-|[]]]]]];
    repeat match goal with |- context [smeft_toarray ?o _] =>
      let m := fresh "m" in let H := fresh "H" in
      first [rewrite E; cbn [bind]; reflexivity | destruct (S o) as (m & H); [unfold mass_ops; cbn; tauto|discriminate|rewrite H; clear H; cbn [bind]]] end.
Qed.
(** ... also when other coefficients are present. *)
Theorem C24_one_bad_index : forall op ind z d p, In op mass_ops -> no_us ind = true ->
  forallb is_digit (chars ind) && ((length (chars ind) <=? 2) && forallb small_digit (chars ind)) = false -> In ((op ++ "_" ++ ind)%string, z) d ->
  exists e, mass p d = Err e.
Proof.
  intros op ind z d p M N B I. assert (no_us op = true) as No by (destruct M as [<-|[<-|[<-|[<-|[<-|[]]]]]]; reflexivity).
  assert (exists e, parse_index 2 (index_part (op ++ "_" ++ ind)%string) = Err e) as (e & Pe).
  { rewrite (index_part_app op ind No N), parse_two. destruct (forallb is_digit (chars ind)); [|eauto]. cbn [andb] in B. rewrite B. eauto. }
  destruct (toarray_err op _ z d e M (name_part_app op ind No) Pe I) as (e' & E). unfold warsaw_to_warsawmass, rotate_up.
  destruct M as [<-|[<-|[<-|[<-|[<-|[]]]]]];
    repeat match goal with |- context [smeft_toarray ?o d] => destruct (smeft_toarray o d) eqn:?; cbn [bind]; [|eauto] end; discriminate.
Qed.
(** All other names are kept with their coefficients, whether or not they are names of the basis. *)
Theorem C24_other_names : forall p d o k, mass p d = Ok o -> ~ In (name_part k) mass_ops -> dget o k = dget d k.
Proof.
  intros p d o k E N. unfold warsaw_to_warsawmass, rotate_up in E.
  assert (forall (acc : dict string C) op m, In op mass_ops -> dget (dupdate acc (smeft_fromarray op m)) k = dget acc k) as K.
  { intros acc op m I. assert (no_us op = true) as No by (destruct I as [<-|[<-|[<-|[<-|[<-|[]]]]]]; reflexivity).
    assert (~ In k (dkeys (smeft_fromarray op m))) as Nk.
    { intros J. apply N. unfold smeft_fromarray in J. cut (name_part k = op); [intros ->; exact I|].
      clear - J No. unfold dict_of in J. apply In_dkeys_dupdate in J. destruct J as [[]|J]. rewrite map_map in J. apply in_map_iff in J. destruct J as (x & <- & _). cbn [fst].
      unfold cname. apply name_part_app. exact No. }
    rewrite dget_dupdate, dget_last_wf by apply wf_dict_of. apply dget_None in Nk. rewrite Nk. reflexivity. }
  assert (forall x y : dict string C, Ok x = Ok y -> x = y) as Oi by (intros x y X; congruence).
  repeat match type of E with context [smeft_toarray ?q d] => destruct (smeft_toarray q d); [|discriminate]; cbn [bind] in E end.
  apply Oi in E. rewrite <- E. rewrite !K by (unfold mass_ops; cbn; tauto). reflexivity.
Qed.
End Mass.
(** Three cases of wrong indices, and an unknown name. *)
Example C24_bad_case : forall ckm msvd,
  warsaw_to_warsawmass ckm msvd None [("uphi_123", C1)] = Err IndexError /\ warsaw_to_warsawmass ckm msvd None [("llphiphi_14", C1)] = Err IndexError /\
  warsaw_to_warsawmass ckm msvd None [("uG_1x", C1)] = Err ValueError /\ exists o, warsaw_to_warsawmass ckm msvd None [("foo_123", C1)] = Ok o /\ dget o "foo_123" = Some C1.
Proof.
  intros ckm msvd. split; [apply (C24_bad_index ckm msvd "uphi" "123"); [cbn; tauto|reflexivity..]|]. split; [apply (C24_bad_index ckm msvd "llphiphi" "14"); [cbn; tauto|reflexivity..]|].
  split; [apply (C24_bad_index ckm msvd "uG" "1x"); [cbn; tauto|reflexivity..]|].
  destruct (warsaw_to_warsawmass ckm msvd None [("foo_123", C1)]) as [o|e] eqn:E.
  - exists o. split; [reflexivity|]. rewrite (C24_other_names ckm msvd None _ o "foo_123" E); [reflexivity|]. cbn. intuition discriminate.
  - exfalso. revert E. unfold warsaw_to_warsawmass, rotate_up.
    repeat match goal with |- context [smeft_toarray ?q ?d] => let m := fresh "m" in let H := fresh "H" in destruct (toarray_skip q "foo_123" C1) as (m & H); [unfold mass_ops; cbn; tauto|discriminate|rewrite H; clear H; cbn [bind]] end. discriminate.
Qed.

Print Assumptions C75_alias_refuted.
Print Assumptions C24_bad_index.
Print Assumptions C24_one_bad_index.
Print Assumptions C24_other_names.
