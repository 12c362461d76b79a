(** The matching in terms of coefficient dictionaries. *)
From Coq Require Import String List Bool Arith Reals Lra.
From Verif Require Import PyBase PyDict Cplx Tensor SmeftSyntax SmeftTab Wc Params Smeft SmeftSymm SmeftSymmFacts SmeftSpec SmeftNames SmeftRot SmeftWarsaw SmeftIll SmeftMass
  MatchOps MatchTab Match MatchFacts MatchSpec MatchRot MatchThm MatchSm MatchLin MatchWarsaw MatchGf WetExpr Wet WetJms WetNf WetSpec WetChk WetThm MatchWet MatchEx.
Import ListNotations.
Open Scope string_scope.
Open Scope list_scope.
Open Scope nat_scope.

(** Coefficients that change neither the couplings of W and Z nor muon decay. *)
Definition no_shift (d : dict string C) : Prop :=
  (forall op x, In op current_ops -> dval d (sname op x) = C0) /\ dval d "phiWB" = C0 /\ dval d "ll_1221" = C0.
Lemma current_shapes : forallb (fun op => match op_shape op with Some Sh2 => true | _ => false end) current_ops = true.
Proof. vm_compute. reflexivity. Qed.
Lemma ll_1221 d : match symm1 "ll" (array_in d "ll" Sh4) with A4 t => t F1 F2 F2 F1 = RtoC (Re (dval d "ll_1221")) /\ t F2 F1 F1 F2 = RtoC (Re (dval d "ll_1221")) | _ => False end.
Proof. split; reflexivity. Qed.
Lemma muon_named : match_shape "VnueLL" = Some Sh4 /\ ~ In "VnueLL" rd_names.
Proof. split; [|apply (proj1 (mem_notIn _ "VnueLL" rd_names))]; vm_compute; reflexivity. Qed.
Lemma dgamma_named : match_shape "dgamma" = Some Sh2 /\ ~ In "dgamma" rd_names.
Proof. split; [|apply (proj1 (mem_notIn _ "dgamma" rd_names))]; vm_compute; reflexivity. Qed.
Definition dB_ex : dict string C := [("dB_12", C1)].
Lemma dB_arrays : match symm1 "dB" (array_in dB_ex "dB" Sh2) with A2 m => m F1 F2 = C1 | _ => False end.
Proof. reflexivity. Qed.
Lemma phil3_arrays : match symm1 "phil3" (array_in [("phil3_11", C1); ("phil3_22", RtoC (-1))] "phil3" Sh2) with
  A2 m => m F1 F1 = C1 /\ m F2 F2 = RtoC (-1) /\ m F2 F1 = C0 | _ => False end.
Proof. split; [reflexivity|]. split; [reflexivity|]. apply Cconj_0. Qed.
#[local] Opaque WC_keys match_tab C_keys_shape.
#[local] Opaque JMS_to_Bern_prog JMS_to_flavio_prog JMS_to_FormFlavor_prog JMS_to_EOS_prog Bern_to_flavio_prog flavio_to_Bern_prog.
#[local] Opaque nJB nJF nJX nJE nBF nFB.
Lemma array_zero d op s : (forall x, dval d (sname op x) = C0) -> array_in d op s = zeros s.
Proof. intros H. unfold array_in. rewrite zeros_arr_of. destruct s; cbn [arr_of]; f_equal; auto; [apply mat_ext|apply ten_ext]; intros; apply H. Qed.
Lemma read_zero d c op s : good_dict d -> read_smeft d = Ok c -> op_shape op = Some s -> (forall x, dval d (sname op x) = C0) ->
  dget (add_missing c) op = Some (zeros s) \/ dget (add_missing c) op = None.
Proof.
  intros G E Z H. rewrite add_missing_get, (read_get _ _ _ G E), Z, (array_zero d op s H). destruct (is_wc op) eqn:M; cbn [andb].
  - assert (symm1 op (zeros s) = zeros s) as X by (apply (symm1_fix s); auto using MatchFacts.zeros_symm, fits_zeros).
    rewrite X. change (mem op WC_keys) with (is_wc op). rewrite M. destruct (touched d op); auto.
  - change (mem op WC_keys) with (is_wc op). rewrite M. auto.
Qed.
Lemma no_shift_quiet d c : good_dict d -> no_shift d -> read_smeft d = Ok c -> quiet (add_missing c).
Proof.
  intros G (Hc & Hw & Hl) E. split; [|split].
  - intros op I. pose proof current_shapes as S. rewrite forallb_forall in S. specialize (S op I).
    destruct (op_shape op) as [[]|] eqn:Z; try discriminate. unfold g2.
    destruct (read_zero d c op _ G E Z (fun x => Hc op x I)) as [-> | ->]; reflexivity.
  - unfold phiWB, g0. assert (op_shape "phiWB" = Some Sh0) as Z by reflexivity.
    rewrite add_missing_get, (read_get _ _ _ G E), Z. assert (array_in d "phiWB" Sh0 = zeros Sh0) as ->.
    { unfold array_in. cbn [arr_of zeros]. f_equal. exact Hw. }
    assert (is_wc "phiWB" = true) as W by reflexivity. rewrite W. cbn [andb].
    assert (symm1 "phiWB" (zeros Sh0) = zeros Sh0) as -> by (apply (symm1_fix Sh0); auto using MatchFacts.zeros_symm, fits_zeros).
    change (mem "phiWB" WC_keys) with (is_wc "phiWB"). rewrite W. destruct (touched d "phiWB"); reflexivity.
  - unfold g4. assert (op_shape "ll" = Some Sh4) as Z by reflexivity.
    rewrite add_missing_get, (read_get _ _ _ G E), Z. assert (is_wc "ll" = true) as W by reflexivity. rewrite W. cbn [andb].
    change (mem "ll" WC_keys) with (is_wc "ll"). rewrite W. pose proof (ll_1221 d) as L.
    destruct (touched d "ll").
    + destruct (symm1 "ll" (array_in d "ll" Sh4)) as [| |t]; try contradiction. destruct L as [-> ->]. rewrite Hl. change (RtoC (Re C0)) with C0. ring.
    + cbn [zeros]. unfold tzero. ring.
Qed.

Section User.
Variable ckm_tree : R -> R -> R -> R -> mat.
Variables (U J : list string) (input : option params).
Let p := merge_params input.
Let V := ckm_of ckm_tree p.
Notation warsaw_to_jms := (warsaw_to_jms ckm_tree U J input).
(** Whatever the listings, the matching of such coefficients is defined if the Standard Model is. *)
Lemma up_ok d : good_dict d -> exists u, warsaw_to_warsaw_up ckm_tree U input d = Ok u.
Proof.
  intros G. destruct (rotate_q_spec (mdag V) d G) as (c & r & _ & _ & _ & _ & E & _). unfold warsaw_to_warsaw_up. fold p V. rewrite E. cbn [bind]. eauto.
Qed.
Lemma warsaw_total d : good_dict d -> no_shift d -> lists_reps U -> sm_ok p -> exists o, warsaw_to_jms d = Ok o.
Proof.
  intros G N L S. destruct (up_ok d G) as (u & E). destruct (read_good d G) as (c0 & R0).
  unfold MatchWet.warsaw_to_jms. rewrite E. cbn [bind]. unfold warsaw_to_warsaw_up in E. fold p V in E.
  destruct (rotate_q (mdag V) d) as [r|] eqn:Er; [|discriminate]. cbn [bind] in E. apply Ok_inj in E. subst u.
  destruct (read_good _ (good_filter U r (rotate_q_good (mdag V) d r G Er))) as (c1 & R1).
  apply (match_like_ok ckm_tree J _ input c1 S R1). apply quiet_like.
  exact (up_quiet _ _ _ _ _ _ G Er L R0 R1 (no_shift_quiet d c0 G N R0)).
Qed.
(** The value of a listed coefficient *)
Definition coefficients (d : dict string C) : arrays := match read_smeft d with Ok c => add_missing c | Err _ => [] end.
Definition tree_of (d : dict string C) (op : string) : arr :=
  match match_shape op with Some sh => tree (vev p) (sm_s p) (weak_c p) (coefficients d) op sh | None => A0 C0 end.
Lemma warsaw_num d o op s y : unitary V -> good_dict d -> no_shift d -> lists_reps U -> warsaw_to_jms d = Ok o ->
  dget jms_slots op = Some s -> ~ In op unrotated -> In (cname op y) J -> length y = length s ->
  num_of o (cname op y) = entry (new_left is_up (mdag V) s (tree_of d op)) y.
Proof.
  intros Hu G N L E S Nu I Ly. destruct (jms_inv _ _ _ _ _ _ E) as (u & Eu & M). unfold warsaw_up_to_jms in M.
  destruct (match_inv _ _ _ _ _ M) as (c1 & w & R1 & Mw & _). destruct (read_good d G) as (c0 & R0).
  destruct (warsaw_matched ckm_tree U d u input c0 c1 w op s Hu G L Eu R0 R1 (no_shift_quiet d c0 G N R0) Mw S Nu) as (sh & Ms & D).
  fold p V in D. unfold tree_of, coefficients. rewrite Ms, R0. apply (match_num ckm_tree J u input o c1 w op _ y M R1 Mw D I).
  destruct (slots_shape op s S) as [_ [[Z Ln]|[Z Ln]]]; [left|right]; split; congruence.
Qed.
Lemma forgotten_num d o op s y : good_dict d -> no_shift d -> lists_reps U -> warsaw_to_jms d = Ok o ->
  dget jms_slots op = Some s -> ~ In op rd_names -> In (cname op y) J -> length y = length s ->
  num_of o (cname op y) = entry (new_left is_quark (mdag V) s (tree_of d op)) y.
Proof.
  intros G N L E S Nu I Ly. destruct (jms_inv _ _ _ _ _ _ E) as (u & Eu & M). unfold warsaw_up_to_jms in M.
  destruct (match_inv _ _ _ _ _ M) as (c1 & w & R1 & Mw & _). destruct (read_good d G) as (c0 & R0).
  destruct (warsaw_forgotten ckm_tree U d u input c0 c1 w op s G L Eu R0 R1 (no_shift_quiet d c0 G N R0) Mw S Nu) as (sh & Ms & D).
  fold p V in D. unfold tree_of, coefficients. rewrite Ms, R0. apply (match_num ckm_tree J u input o c1 w op _ y M R1 Mw D I).
  destruct (slots_shape op s S) as [_ [[Z Ln]|[Z Ln]]]; [left|right]; split; congruence.
Qed.
End User.

(** ** Muon decay *)
Lemma muon_num ckm_tree J d input o : let p := merge_params input in let A := coefficients d in
  match_all ckm_tree J d input = Ok o -> (0 < param p "GF")%R -> (0 < bare_GF A p)%R -> g2 A "phil1" F2 F1 = C0 -> g2 A "phil3" F2 F1 = C0 ->
  In "VnueLL_2112" J ->
  num_of o "VnueLL_2112" = Cneg (Cmul (Cmul (RtoC (sqrt 2 / bare_GF A p)) (g2 A "phil3" F2 F2)) (g2 A "phil3" F1 F1)).
Proof.
  intros p A M G B Z1 Z3 I. destruct (match_inv _ _ _ _ _ M) as (c & w & R0 & Mw & _).
  assert (A = add_missing c) as EA by (unfold A, coefficients; rewrite R0; reflexivity).
  destruct (matched_inv _ _ _ _ Mw) as (w0 & M0 & Rd & _). rewrite EA in *. destruct muon_named as (Sh & N).
  destruct (muon_decay _ _ _ (add_missing_proper c (read_proper d c R0)) B G M0 Z1 Z3) as (t & D & E).
  rewrite <- (rotate_down_rest _ _ _ _ Rd N) in D. change "VnueLL_2112" with (cname "VnueLL" [F2; F1; F1; F2]) in *.
  rewrite (match_num ckm_tree J d input o c w "VnueLL" _ [F2; F1; F1; F2] M R0 Mw D I); [exact E|]. left. split; auto.
Qed.

(** ** A dipole *)
Lemma dB_good : good_dict dB_ex.
Proof.
  split; [repeat constructor; simpl; tauto|]. intros k [<-|[]]. exists "dB", Sh2, [F1; F2].
  split; [|split; [|split]]; try reflexivity. apply idx2_in.
Qed.
Lemma one_name k z k' : k' <> k -> dval [(k, z)] k' = C0.
Proof. intros N. unfold dval. simpl. destruct (keqb k' k) eqn:E; [apply keqb_eq in E; congruence|reflexivity]. Qed.
Lemma one_no_shift k z : ~ In (name_part k) current_ops -> k <> "phiWB" -> k <> "ll_1221" -> no_shift [(k, z)].
Proof.
  intros N N1 N2. split; [|split; apply one_name; congruence]. intros op x I. apply one_name. intros <-. apply N.
  rewrite name_part_sname; auto. unfold current_ops in I. repeat (destruct I as [<-|I]; [reflexivity|]). contradiction.
Qed.
Lemma dB_no_shift : no_shift dB_ex.
Proof. apply one_no_shift; [|discriminate|discriminate]. apply (proj1 (mem_notIn _ (name_part "dB_12") current_ops)). vm_compute. reflexivity. Qed.
Lemma dB_tree input : entry (tree_of input dB_ex "dgamma") [F1; F2] = RtoC (vev (merge_params input) / sqrt 2 * weak_c (merge_params input)).
Proof.
  unfold tree_of. rewrite (proj1 dgamma_named). destruct (read_good _ dB_good) as (c & E). unfold coefficients. rewrite E.
  transitivity (Cmul (RtoC (vev (merge_params input) / sqrt 2)) (Csub (Cmul (RtoC (weak_c (merge_params input))) (g2 (add_missing c) "dB" F1 F2))
    (Cmul (RtoC (sm_s (merge_params input))) (g2 (add_missing c) "dW" F1 F2)))); [reflexivity|].
  assert (g2 (add_missing c) "dB" F1 F2 = C1) as ->.
  { unfold g2. rewrite add_missing_get, (read_get _ _ _ dB_good E).
    assert (op_shape "dB" = Some Sh2) as -> by reflexivity. assert (is_wc "dB" = true) as -> by reflexivity.
    assert (touched dB_ex "dB" = true) as -> by reflexivity. cbn [andb]. pose proof dB_arrays as H.
    destruct (symm1 "dB" (array_in dB_ex "dB" Sh2)); try contradiction. exact H. }
  assert (g2 (add_missing c) "dW" F1 F2 = C0) as ->.
  { unfold g2. destruct (read_zero dB_ex c "dW" Sh2 dB_good E) as [-> | ->]; try reflexivity. intros x. apply one_name. intros H.
    apply (f_equal name_part) in H. rewrite name_part_sname in H by reflexivity. discriminate H. }
  rewrite RtoC_mul. ring.
Qed.
Lemma weak_c_pos p : sm_ok p -> (0 < vev p / sqrt 2 * weak_c p)%R \/ (vev p / sqrt 2 * weak_c p < 0)%R.
Proof.
  intros S. pose proof (sm_pos p S) as [_ D]. destruct S as (G & _ & A & W). destruct (vev_sq p G) as [V _].
  assert (0 < sqrt 2)%R by (apply sqrt_lt_R0; lra). assert (0 < vev p / sqrt 2)%R by (apply Rdiv_lt_0_compat; auto).
  assert (0 < sqrt (sm_D p))%R by (apply sqrt_lt_R0; auto).
  assert (sm_g2 p <> 0)%R as Ng. { intros Z. unfold sm_D in D. rewrite Z in D. pose proof (pow2_ge_0 (sm_e p)). lra. }
  unfold weak_c. assert (0 < / sm_g2 p \/ / sm_g2 p < 0)%R as [I|I].
  { destruct (Rdichotomy _ _ Ng) as [L|L]; [right; apply Rinv_lt_0_compat; auto|left; apply Rinv_0_lt_compat; auto]. }
  - left. apply Rmult_lt_0_compat; auto. apply Rmult_lt_0_compat; auto.
  - right. unfold Rdiv at 2. assert (sqrt (sm_D p) * / sm_g2 p < 0)%R by nra. nra.
Qed.
Lemma no_left_same who W s v : (forall f b c, In (f, b, c) s -> who f = true -> c = RH) -> new_left who W s v = v.
Proof.
  intros H. assert (forall a, In a s -> field_mat who W a = meye) as F.
  { intros [[f b] c] I. unfold field_mat. destruct c; auto. destruct (who f) eqn:E; auto. specialize (H f b LH I E). discriminate. }
  clear H. destruct v as [z|m|t]; unfold new_left; auto; f_equal.
  - generalize 0. induction s as [|a s IH]; intros n; auto. rewrite left_slot2, F, slot2_eye by (left; auto). apply IH. intros; apply F; right; auto.
  - generalize 0. induction s as [|a s IH]; intros n; auto. rewrite left_slot, F, slot_eye by (left; auto). apply IH. intros; apply F; right; auto.
Qed.

(** Opposite shifts of the couplings of electron and muon *)
Definition mu_ex : dict string C := [("phil3_11", C1); ("phil3_22", RtoC (-1))].
Lemma mu_good : good_dict mu_ex.
Proof.
  split; [repeat constructor; simpl; intuition discriminate|]. intros k [<-|[<-|[]]].
  - exists "phil3", Sh2, [F1; F1]. split; [|split; [|split]]; try reflexivity. apply idx2_in.
  - exists "phil3", Sh2, [F2; F2]. split; [|split; [|split]]; try reflexivity. apply idx2_in.
Qed.
Lemma mu_phil3 : let A := coefficients mu_ex in
  g2 A "phil3" F1 F1 = C1 /\ g2 A "phil3" F2 F2 = RtoC (-1) /\ g2 A "phil3" F2 F1 = C0 /\ g2 A "phil1" = mzero /\ g4 A "ll" = tzero /\ phiWB A = 0%R.
Proof.
  destruct (read_good _ mu_good) as (c & E). unfold coefficients. rewrite E. cbv zeta.
  assert (forall op, op <> "phil3" -> forall x, dval mu_ex (sname op x) = C0 \/ no_us op = false) as Z.
  { intros op N x. destruct (no_us op) eqn:P; auto. left. unfold dval, mu_ex. cbn [dget].
    destruct (keqb (sname op x) "phil3_11") eqn:K1; [exfalso; apply keqb_eq in K1; apply (f_equal name_part) in K1; rewrite name_part_sname in K1 by auto; apply N; exact K1|].
    destruct (keqb (sname op x) "phil3_22") eqn:K2; [exfalso; apply keqb_eq in K2; apply (f_equal name_part) in K2; rewrite name_part_sname in K2 by auto; apply N; exact K2|reflexivity]. }
  assert (forall op s, op <> "phil3" -> no_us op = true -> op_shape op = Some s -> dget (add_missing c) op = Some (zeros s) \/ dget (add_missing c) op = None) as H.
  { intros op s N P S. apply (read_zero mu_ex c op s mu_good E S). intros x. destruct (Z op N x); congruence. }
  assert (match dget (add_missing c) "phil3" with Some (A2 m) => m F1 F1 = C1 /\ m F2 F2 = RtoC (-1) /\ m F2 F1 = C0 | _ => False end) as H3.
  { rewrite add_missing_get, (read_get _ _ _ mu_good E).
    assert (op_shape "phil3" = Some Sh2) as -> by reflexivity. assert (is_wc "phil3" = true) as -> by reflexivity.
    assert (touched mu_ex "phil3" = true) as -> by reflexivity. cbn [andb]. exact phil3_arrays. }
  unfold g2, g4, phiWB, g0. destruct (dget (add_missing c) "phil3") as [[|m|]|]; try contradiction.
  destruct H3 as (X & Y & W). split; auto. split; auto. split; auto. split; [|split].
  - destruct (H "phil1" Sh2) as [-> | ->]; reflexivity || discriminate.
  - destruct (H "ll" Sh4) as [-> | ->]; reflexivity || discriminate.
  - destruct (H "phiWB" Sh0) as [-> | ->]; reflexivity || discriminate.
Qed.
Lemma mu_case ckm_tree J : In "VnueLL_2112" J -> exists o, match_all ckm_tree J mu_ex None = Ok o /\
  bare_GF (coefficients mu_ex) default_parameters = param default_parameters "GF" /\
  num_of o "VnueLL_2112" = RtoC (sqrt 2 / param default_parameters "GF").
Proof.
  intros I. destruct mu_phil3 as (X & Y & W & Q & L & F). destruct (read_good _ mu_good) as (c & E).
  assert (coefficients mu_ex = add_missing c) as Ec by (unfold coefficients; rewrite E; reflexivity).
  assert (gfx (coefficients mu_ex) default_parameters = RtoC (param default_parameters "GF")) as G.
  { unfold gfx. rewrite X, Y, L. unfold tzero. replace (-1)%R with (- (1))%R by ring. rewrite RtoC_opp. change (RtoC 1) with C1. ring. }
  destruct (match_like_ok ckm_tree J mu_ex None c default_sm E) as (o & M); [rewrite <- Ec; exact (conj G F)|].
  assert (bare_GF (coefficients mu_ex) default_parameters = param default_parameters "GF") as B by (unfold bare_GF; rewrite G; reflexivity).
  exists o. split; auto. split; auto.
  assert (0 < param default_parameters "GF")%R as P by (change (param default_parameters "GF") with (11663787 / 1000000000000)%R; lra).
  assert (g2 (coefficients mu_ex) "phil1" F2 F1 = C0) as Q' by (rewrite Q; reflexivity).
  rewrite (muon_num ckm_tree J mu_ex None o M P) by (try assumption; change (merge_params None) with default_parameters; rewrite B; exact P).
  change (merge_params None) with default_parameters. rewrite B, X, Y. replace (-1)%R with (- (1))%R by ring. rewrite RtoC_opp. change (RtoC 1) with C1. ring.
Qed.
