(** Facts for P_Wet. *)
From Coq Require Import String Ascii List Bool Arith ZArith QArith Reals Lra Lia.
From Verif Require Import PyBase PyDict Cplx Tensor Wc Params Smeft SmeftNames WetExpr WetStr WetTab Wet WetJms WetNf WetSpec WetChk WetThm WetVals WetList.
Import ListNotations.
Open Scope string_scope.
Open Scope list_scope.
Open Scope nat_scope.
#[local] Opaque Ceq_dec.

Lemma sdnu_in : In "CL_sdnuenue" (names flavio_sdnu). Proof. vm_compute. auto. Qed.
Lemma sdnu_flavio : In "CL_sdnuenue" (names flavio).
Proof. apply (proj1 (mem_In _ "CL_sdnuenue" (names flavio))). vm_compute. reflexivity. Qed.
Lemma tensor_in : In ("7sbee", "9sbee") tensors. Proof. vm_compute. auto. Qed.
Lemma tensor_bern : In "7sbee" (names bern_of_flavio).
Proof. apply (proj1 (mem_In _ "7sbee" (names bern_of_flavio))). vm_compute. reflexivity. Qed.
Lemma in_flavio_read k : In k (names flavio) -> ~ In k (names flavio_sdnu) -> In k flavio_read.
Proof.
  intros A B. unfold flavio_read. apply filter_In. split; auto. apply negb_true_iff. destruct (mem k (names flavio_sdnu)) eqn:M; auto.
  apply mem_In in M. contradiction.
Qed.
Lemma in_bern_kept k : In k (names bern_of_flavio) -> ~ In k (map fst tensors) -> In k bern_kept.
Proof.
  intros A B. unfold bern_kept. apply filter_In. split; auto. apply negb_true_iff. destruct (mem k (map fst tensors)) eqn:M; auto.
  apply mem_In in M. contradiction.
Qed.
Lemma dips_all n b : In n ["7"; "8"] -> exists op a, In (n, op, a, b) dips.
Proof. intros [<-|[<-|[]]]; destruct b; [exists "dgamma", "alpha_e"|exists "dgamma", "alpha_e"|exists "dG", "alpha_s"|exists "dG", "alpha_s"]; simpl; auto. Qed.
Lemma mirror_chk : forallb (fun t => forallb (fun x => match mirror (fst t) x with Some (op', x', _) => jms_ix op' x' | None => true end) (all_ix (snd t))) jms_fields = true.
Proof. vm_cast_no_check (eq_refl true). Qed.
Lemma mirror_fits op x op' x' b : jms_ix op x = true -> mirror op x = Some (op', x', b) -> jms_ix op' x' = true.
Proof.
  intros H M. unfold jms_ix in H. destruct (dget jms_fields op) as [fs|] eqn:F; [|discriminate]. apply dget_In in F.
  pose proof mirror_chk as Q. rewrite forallb_forall in Q. specialize (Q _ F). cbn [fst snd] in Q. rewrite forallb_forall in Q.
  specialize (Q x (all_ix_fits _ _ H)). rewrite M in Q. exact Q.
Qed.
#[local] Opaque JMS_to_Bern_prog JMS_to_flavio_prog JMS_to_FormFlavor_prog JMS_to_EOS_prog Bern_to_flavio_prog flavio_to_Bern_prog.
#[local] Opaque nJB nJF nJX nJE nBF nFB bern_read flavio_read bern flavio eos formflavor J0 mirror_names nf nf_ok deqb leqb bern_of_flavio.
Lemma nJB_data : jdata nJB = true. Proof. exact (proj1 (proj2 (and4 _ _ _ _ chk_JB))). Qed.
Lemma nJF_data : jdata nJF = true. Proof. exact (proj1 (proj2 (and4 _ _ _ _ chk_JF))). Qed.
Lemma nJX_data : jdata nJX = true. Proof. exact (proj1 (proj2 (and3 _ _ _ chk_JX))). Qed.
Lemma nJE_data : jdata nJE = true. Proof. exact (proj1 (proj2 (and5 _ _ _ _ _ chk_JE))). Qed.
Lemma nBF_data : gdata bern_read nBF = true. Proof. exact (proj1 (proj2 (and5 _ _ _ _ _ chk_BF))). Qed.
Lemma nFB_data : gdata flavio_read nFB = true. Proof. exact (proj1 (proj2 (and5 _ _ _ _ _ chk_FB))). Qed.
Lemma nJB_flav : jflav bern nJB = true. Proof. exact (proj1 (proj2 (proj2 (and4 _ _ _ _ chk_JB)))). Qed.
Lemma nJF_flav : jflav flavio nJF = true. Proof. exact (proj1 (proj2 (proj2 (and4 _ _ _ _ chk_JF)))). Qed.
Lemma nJE_flav : jflav eos nJE = true. Proof. exact (proj1 (proj2 (proj2 (and5 _ _ _ _ _ chk_JE)))). Qed.
Lemma nBF_flav : gflav bern flavio nBF = true. Proof. exact (proj1 (proj2 (proj2 (and5 _ _ _ _ _ chk_BF)))). Qed.
Lemma nFB_flav : gflav flavio bern_of_flavio nFB = true. Proof. exact (proj1 (proj2 (proj2 (and5 _ _ _ _ _ chk_FB)))). Qed.
Lemma bern_nodup : NoDup (names bern). Proof. exact (proj2 (proj2 (chk_ok _ _ _ _ _ (proj1 (and4 _ _ _ _ chk_JB))))). Qed.
Lemma flavio_nodup : NoDup (names flavio). Proof. exact (proj2 (proj2 (chk_ok _ _ _ _ _ (proj1 (and4 _ _ _ _ chk_JF))))). Qed.
Lemma ff_nodup : NoDup (names formflavor). Proof. exact (proj2 (proj2 (chk_ok _ _ _ _ _ (proj1 (and3 _ _ _ chk_JX))))). Qed.
Lemma eos_nodup : NoDup (names eos). Proof. exact (proj2 (proj2 (chk_ok _ _ _ _ _ (proj1 (and5 _ _ _ _ _ chk_JE))))). Qed.
Lemma bernf_nodup : NoDup (names bern_of_flavio). Proof. exact (proj2 (proj2 (chk_ok _ _ _ _ _ (proj1 (and5 _ _ _ _ _ chk_FB))))). Qed.

Section Aux.
Variable ckm_tree : R -> R -> R -> R -> mat.
Variables (J : list string) (p : params).
Hypothesis GJ : good J.
Lemma out_nil n k : jdata n = true -> num_of (outJ ckm_tree n J [] p) k = C0.
Proof.
  intros D. assert (multiple (RtoC 0) [] []) as M by (intros j; change (RtoC 0) with C0; unfold num_of; simpl; ring).
  pose proof (lin_scale ckm_tree J p GJ n 0 [] [] D M k) as E. rewrite E. change (RtoC 0) with C0. ring.
Qed.
Lemma dget_filter_out {V} (d : dict string V) f k : f k = true -> dget (filter (fun kv => f (fst kv)) d) k = dget d k.
Proof.
  intros H. induction d as [|[j v] t IH]; simpl; auto. destruct (f j) eqn:E; simpl; destruct (keqb k j) eqn:K; auto.
  apply keqb_eq in K. subst j. congruence.
Qed.
Lemma ff_dep c1 c2 k r : In (k, r) formflavor -> ~ In k (names ff_nu) ->
  (forall op x, jms_ix op x = true -> related r (jms_content op x) = true -> num_of c1 (cname op x) = num_of c2 (cname op x)) ->
  num_of (outJ ckm_tree nJX J c1 p) k = num_of (outJ ckm_tree nJX J c2 p) k.
Proof.
  intros I N S. pose proof (proj2 (proj2 (and3 _ _ _ chk_JX))) as Q.
  pose proof (jflav_dep ckm_tree J p GJ formflavor _ c1 c2 k r Q (In_dget _ _ _ ff_nodup I) S) as E.
  unfold outJ in *. rewrite !dget_dmap_lval in *. unfold getf in *. rewrite (dget_filter_out nJX (fun k => negb (mem k (names ff_nu))) k) in E; auto.
  apply negb_true_iff. destruct (mem k (names ff_nu)) eqn:M; auto. apply mem_In in M. contradiction.
Qed.
End Aux.

(** ** Arrays *)
Lemma array_entry J c a op x y : listing_ok J -> JMS_to_array J c = Ok a -> no_us op = true -> In (cname op y) J -> length x = length y -> x <> [] ->
  exists r, dget a op = Some r /\ n_rank r = length x /\ n_ent r x = full J c op x.
Proof. intros L E N I Q X. destruct (jms_array J c L) as (a' & E' & _ & H). rewrite E in E'. injection E' as <-. exact (H op x y N I Q X). Qed.
Lemma array_listed J c a op x : listing_ok J -> JMS_to_array J c = Ok a -> no_us op = true -> In (cname op x) J -> x <> [] ->
  forall v, jval c (cname op x) = Some v -> exists r, dget a op = Some r /\ n_rank r = length x /\ n_ent r x = Some v.
Proof.
  intros L E N I X v V. destruct (array_entry J c a op x x L E N I eq_refl X) as (r & A & B & D). exists r. split; auto. split; auto. rewrite D.
  unfold full, raw. rewrite (proj2 (mem_In _ (cname op x) J) I), V.
  destruct (mem op herm_ops); [|destruct (mem op cur_ops); [|destruct (mem op both_ops)]]; reflexivity.
Qed.
Lemma array_completed J c a op x y : listing_ok J -> JMS_to_array J (nums c) = Ok a ->
  no_us op = true -> In (cname op y) J -> length x = length y -> x <> [] ->
  exists r, dget a op = Some r /\
  ((exists m, In m (members op x) /\ In (cname op (fst m)) J /\ n_ent r x = Some (cj (snd m) (num_of c (cname op (fst m))))) \/
   (n_ent r x = None /\ forall m, In m (members op x) -> ~ In (cname op (fst m)) J)).
Proof.
  intros L E N I Q X. destruct (array_entry J _ a op x y L E N I Q X) as (r & A & _ & D). exists r. split; auto. rewrite D, first_find.
  unfold entry_of, pick. destruct (List.find _ (members op x)) as [m|] eqn:F.
  - left. apply find_some in F. destruct F as [F1 F2]. apply mem_In in F2. exists m. auto.
  - right. split; [reflexivity|]. intros m M K. pose proof (find_none _ _ F m M) as Z. cbv beta in Z.
    rewrite (proj2 (mem_In _ (cname op (fst m)) J) K) in Z. discriminate.
Qed.
Lemma array_ignored J c c' : (forall k, In k J -> dget c k = dget c' k) -> JMS_to_array J c = JMS_to_array J c'.
Proof.
  intros H. unfold JMS_to_array, fill. do 2 f_equal. f_equal. apply map_ext_in. intros k I. rewrite (H k I). reflexivity.
Qed.

(** ** Examples *)
Lemma in_J0 : mem "VddLL_1213" J0 = true /\ mem "VddLL_1312" J0 = false.
Proof.
  split; [rewrite (J0_mem "VddLL" [F1; F2; F1; F3] eq_refl : mem "VddLL_1213" J0 = _)|rewrite (J0_mem "VddLL" [F1; F3; F1; F2] eq_refl : mem "VddLL_1312" J0 = _)];
    vm_compute; reflexivity.
Qed.
Lemma pick_case : pick J0 "VddLL" [F1; F2; F1; F3] = Some ([F1; F2; F1; F3], false) /\
  pick J0 "VddLL" [F1; F3; F1; F2] = Some ([F1; F2; F1; F3], false) /\ pick J0 "VddLL" [F2; F1; F3; F1] = Some ([F1; F2; F1; F3], true) /\
  pick J0 "VnudLL" [F1; F1; F3; F1] = Some ([F1; F1; F1; F3], true) /\ pick J0 "VnudLL" [F2; F2; F3; F1] = Some ([F2; F2; F1; F3], true) /\
  pick J0 "VnudLL" [F3; F3; F3; F1] = Some ([F3; F3; F1; F3], true) /\ pick J0 "egamma" [F2; F1] = Some ([F2; F1], false).
Proof. rewrite !pick0_eq by reflexivity. repeat split; vm_compute; reflexivity. Qed.
Lemma c29_case : listing_ok J0 /\ In "VddLL_1213" J0 /\ ~ In "VddLL_1312" J0 /\
  exists a r, JMS_to_array J0 (nums [("VddLL_1213", Ci)]) = Ok a /\ dget a "VddLL" = Some r /\ n_ent r [F1; F2; F1; F3] = Some Ci /\
              n_ent r [F1; F3; F1; F2] = Some Ci /\ n_ent r [F2; F1; F3; F1] = Some (Cconj Ci).
Proof.
  destruct J0_good as [L _]. destruct in_J0 as [I2 I1]. apply mem_In in I2.
  split; auto. split; auto. split; [intros I; rewrite (proj2 (mem_In _ "VddLL_1312" J0) I) in I1; discriminate I1|].
  destruct (jms_array J0 (nums [("VddLL_1213", Ci)]) L) as (a & E & _). destruct pick_case as (P1 & P2 & P3 & _).
  destruct (array_entry J0 _ a "VddLL" [F1; F2; F1; F3] [F1; F2; F1; F3] L E) as (r & A & _ & D1); [reflexivity|exact I2|reflexivity|discriminate|].
  exists a, r. split; auto. split; auto. rewrite D1, first_find. unfold entry_of. rewrite P1. split; [reflexivity|].
  destruct (array_entry J0 _ a "VddLL" [F1; F3; F1; F2] [F1; F2; F1; F3] L E) as (r2 & A2 & _ & D2); [reflexivity|exact I2|reflexivity|discriminate|].
  destruct (array_entry J0 _ a "VddLL" [F2; F1; F3; F1] [F1; F2; F1; F3] L E) as (r3 & A3 & _ & D3); [reflexivity|exact I2|reflexivity|discriminate|].
  rewrite A in A2, A3. injection A2 as <-. injection A3 as <-. rewrite D2, D3, !first_find. unfold entry_of. rewrite P2, P3. split; reflexivity.
Qed.
Lemma nu_value c i : value J0 c "VnudLL" [i; i; F3; F1] = Cconj (num_of c (cname "VnudLL" [i; i; F1; F3])).
Proof. destruct pick_case as (_ & _ & _ & P1 & P2 & P3 & _). unfold value, entry_of. destruct i; [rewrite P1|rewrite P2|rewrite P3]; reflexivity. Qed.
(** The only JMS coefficient of [nu_bd] changes b and d. *)
Definition nu_bd : dict string C := [("VnudLL_1113", RtoC 3)].
Lemma nu_bd_related op x : jms_ix op x = true -> related (dd ds) (jms_content op x) = true -> num_of nu_bd (cname op x) = C0.
Proof.
  intros H R. unfold num_of, nu_bd. cbn [dget]. destruct (keqb (cname op x) "VnudLL_1113") eqn:E; [|reflexivity]. exfalso.
  apply keqb_eq in E. change "VnudLL_1113" with (cname "VnudLL" [F1; F1; F1; F3]) in E.
  assert (no_us op = true /\ x <> []) as [N X].
  { unfold jms_ix in H. destruct (dget jms_fields op) as [fs|] eqn:F; [|discriminate]. pose proof (dget_In _ _ _ F) as I. split.
    - assert (forallb (fun t => no_us (fst t)) jms_fields = true) as Q by reflexivity. rewrite forallb_forall in Q. exact (Q _ I).
    - intros ->. assert (forallb (fun t => negb (fits (snd t) [])) jms_fields = true) as Q by reflexivity. rewrite forallb_forall in Q.
      specialize (Q _ I). cbn [snd] in Q. rewrite H in Q. discriminate. }
  apply cname_inj in E; auto; [|discriminate]. destruct E as [-> ->]. vm_compute in R. discriminate.
Qed.
Lemma nu_bd_value i : value J0 nu_bd "VnudLL" [i; i; F3; F1] = match i with F1 => RtoC 3 | _ => C0 end.
Proof.
  rewrite nu_value. destruct i; [change (num_of nu_bd (cname "VnudLL" [F1; F1; F1; F3])) with (RtoC 3); apply Cconj_R| |];
    [change (num_of nu_bd (cname "VnudLL" [F2; F2; F1; F3])) with C0|change (num_of nu_bd (cname "VnudLL" [F3; F3; F1; F3])) with C0]; apply Cconj_0.
Qed.
Lemma eg_value c : value J0 c "egamma" [F2; F1] = num_of c "egamma_21".
Proof. destruct pick_case as (_ & _ & _ & _ & _ & _ & P). unfold value, entry_of. rewrite P. reflexivity. Qed.

(** Exchanging left and right in VddLL_2323 = 1. *)
Definition left1 : dict string C := [("VddLL_2323", C1)].
Definition right1 : dict string C := [("VddRR_2323", C1)].
Definition is1 (k : string) (op : string) (x : idx) : bool := match pick0 op x with Some m => String.eqb (cname op (fst m)) k | None => false end.
Lemma is1_value k op x : no_us op = true -> value J0 [(k, C1)] op x = if is1 k op x then C1 else C0.
Proof.
  intros N. unfold value, entry_of. rewrite pick0_eq by auto. unfold is1. destruct (pick0 op x) as [m|]; [|reflexivity].
  cbn [option_map]. unfold num_of. cbn [dget]. change (keqb (cname op (fst m)) k) with (String.eqb (cname op (fst m)) k).
  destruct (String.eqb (cname op (fst m)) k); destruct (snd m); cbn [cj]; auto using Cconj_1, Cconj_0.
Qed.
Lemma mirror1_chk : forallb (fun t => no_us (fst t) && forallb (fun x => match mirror (fst t) x with
    | Some (op', x', _) => no_us op' && Bool.eqb (is1 "VddRR_2323" (fst t) x) (is1 "VddLL_2323" op' x') | None => true end) (all_ix (snd t))) jms_fields = true.
Proof. vm_cast_no_check (eq_refl true). Qed.
Lemma mirror1 op x op' x' b : jms_ix op x = true -> mirror op x = Some (op', x', b) -> value J0 right1 op x = cj b (value J0 left1 op' x').
Proof.
  intros H M. unfold jms_ix in H. destruct (dget jms_fields op) as [fs|] eqn:F; [|discriminate]. apply dget_In in F.
  pose proof mirror1_chk as Q. rewrite forallb_forall in Q. specialize (Q _ F). cbn [fst snd] in Q. apply andb_true_iff in Q. destruct Q as [N Q].
  rewrite forallb_forall in Q. specialize (Q x (all_ix_fits _ _ H)). rewrite M in Q. apply andb_true_iff in Q. destruct Q as [N' Q].
  apply eqb_prop in Q. unfold left1, right1. rewrite !is1_value by auto. rewrite Q. destruct (is1 "VddLL_2323" op' x'); destruct b; cbn [cj]; auto.
  - symmetry. apply Cconj_1.
  - symmetry. apply Cconj_0.
Qed.
Transparent bern flavio formflavor bern_read flavio_read mirror_names.
Lemma mirror1_in : In ("1psbsb", "1sbsb") mirror_names.
Proof. unfold mirror_names. apply in_or_app. left. vm_compute. auto. Qed.
Lemma nn_in : In ("CVLL_sdnn", dd ds) formflavor.
Proof. unfold formflavor. rewrite !in_app_iff. do 5 right. left. left. reflexivity. Qed.
Lemma bern_read_in : incl bern_read (names bern).
Proof.
  assert (forallb (fun k => mem k (names bern)) bern_read = true) as H by (vm_compute; reflexivity).
  intros k I. rewrite forallb_forall in H. specialize (H k I). cbv beta in H. exact (proj1 (mem_In _ k (names bern)) H).
Qed.
Lemma flavio_read_in : incl flavio_read (names flavio).
Proof. intros k I. unfold flavio_read in I. apply filter_In in I. apply I. Qed.
Lemma sum_case : sum_of [("a", C1)] [("b", C1)] [("b", C1); ("a", C1)].
Proof.
  intros k. unfold num_of. cbn [dget]. destruct (keqb k "a") eqn:A, (keqb k "b") eqn:B; try ring.
  apply keqb_eq in A. apply keqb_eq in B. subst. discriminate.
Qed.
Lemma multiple_case : multiple Ci [("a", C1)] [("a", Ci)].
Proof. intros k. unfold num_of. cbn [dget]. destruct (keqb k "a"); ring. Qed.
Lemma flav_case : In ("CVLL_bsbs", [(Qd F2, true); (Qd F3, false); (Qd F2, true); (Qd F3, false)]) flavio /\
  related [(Qd F2, true); (Qd F3, false); (Qd F2, true); (Qd F3, false)] (jms_content "VddLL" [F2; F3; F2; F3]) = true /\
  related [(Qd F2, true); (Qd F3, false); (Qd F2, true); (Qd F3, false)] (jms_content "VddLL" [F2; F3; F1; F3]) = false.
Proof. repeat split. left. reflexivity. Qed.
Lemma three_thirds : Cdiv (Cadd (Cadd (RtoC 3) C0) C0) (RtoC 3) = C1.
Proof. field. apply RtoC_neq0; lra. Qed.
Lemma not_third : C1 <> Cdiv (Cadd (Cadd C0 C0) C0) (RtoC 3).
Proof. replace (Cdiv (Cadd (Cadd C0 C0) C0) (RtoC 3)) with C0; [apply C1_neq_0|]. field. apply RtoC_neq0; lra. Qed.
Lemma pick_sd i : pick J0 "VnudLL" [i; i; F1; F2] = Some ([i; i; F1; F2], false) /\ pick J0 "VnudLL" [i; i; F2; F1] = Some ([i; i; F1; F2], true).
Proof. rewrite !pick0_eq by reflexivity. destruct i; split; vm_compute; reflexivity. Qed.
Lemma nu_bd_sd i : value J0 nu_bd "VnudLL" [i; i; F1; F2] = C0.
Proof. unfold value, entry_of. rewrite (proj1 (pick_sd i)). destruct i; reflexivity. Qed.
Lemma nu_bd_ds i : value J0 nu_bd "VnudLL" [i; i; F2; F1] = C0.
Proof. unfold value, entry_of. rewrite (proj2 (pick_sd i)). destruct i; apply Cconj_0. Qed.
Lemma cal_in : In ("CAL_em", ("egamma", [F2; F1], true), "alpha_s") ff_dip. Proof. unfold ff_dip. rewrite !in_app_iff. right. right. vm_compute. auto. Qed.
Lemma car_in : In ("CAR_em", ("egamma", [F1; F2], false), "alpha_e") ff_dip. Proof. unfold ff_dip. rewrite !in_app_iff. right. right. vm_compute. auto. Qed.
Lemma nums_inj c c' : nums c = nums c' -> c = c'.
Proof.
  revert c'. induction c as [|[k z] t IH]; destruct c' as [|[k' z'] t']; unfold nums, dmap; simpl; try discriminate; auto.
  intros E. injection E as -> -> E. f_equal. apply IH. exact E.
Qed.
Lemma eg_value12 : value J0 [("egamma_21", C1)] "egamma" [F1; F2] = C0.
Proof. unfold value, entry_of. rewrite pick0_eq by reflexivity. replace (pick0 "egamma" [F1; F2]) with (Some ([F1; F2], false)) by (vm_compute; reflexivity). reflexivity. Qed.
Lemma zero_div z : Cdiv (cj false C0) z = C0.
Proof. unfold Cdiv. cbn [cj]. ring. Qed.
Lemma alpha_differ : Cdiv (cj true (num_of [("egamma_21", C1)] "egamma_21")) (RtoC (sqrt (4 * PI * param p1 "alpha_s"))) <>
  Cdiv (Cconj (num_of [("egamma_21", C1)] "egamma_21")) (RtoC (sqrt (4 * PI * param p1 "alpha_e"))).
Proof.
  change (num_of [("egamma_21", C1)] "egamma_21") with C1. cbn [cj]. rewrite Cconj_1.
  assert (0 < param p1 "alpha_e" < 1)%R as A by (split; vm_compute; lra). change (param p1 "alpha_s") with 1%R.
  pose proof PI_RGT_0 as P.
  assert (0 < sqrt (4 * PI * param p1 "alpha_e"))%R as S1 by (apply sqrt_lt_R0; apply Rmult_lt_0_compat; lra).
  assert (sqrt (4 * PI * param p1 "alpha_e") < sqrt (4 * PI * 1))%R as S2.
  { assert (4 * PI * param p1 "alpha_e" < 4 * PI * 1)%R by (apply Rmult_lt_compat_l; lra).
    assert (0 < 4 * PI * param p1 "alpha_e")%R by (apply Rmult_lt_0_compat; lra). apply sqrt_lt_1; lra. }
  intros E. assert (forall r, (0 < r)%R -> Cdiv C1 (RtoC r) = RtoC (/ r)) as D.
  { intros r R. rewrite RtoC_inv by lra. unfold Cdiv. ring. }
  rewrite !D in E by lra. apply RtoC_inj in E. pose proof (Rinv_lt_contravar _ _ (Rmult_lt_0_compat _ _ S1 (Rlt_trans _ _ _ S1 S2)) S2). lra.
Qed.
Lemma eos_case : In ("b->smumu::c9", "C9_bsmumu") eos_same /\ In ("b->smumu::cS'", "CSp_bsmumu") eos_mb /\ light p1.
Proof.
  split; [|split; [|apply p1_light]].
  - apply in_flat_map. exists F2. split; [simpl; auto|left; reflexivity].
  - apply in_flat_map. exists F2. split; [simpl; auto|right; left; reflexivity].
Qed.
