(** Concrete inputs of the matching: cases that meet the hypotheses of the theorems, and counterexamples. *)
From Coq Require Import String List Bool Arith Reals Lra.
From Verif Require Import PyBase PyDict Cplx Tensor SmeftSyntax SmeftTab Wc Params Smeft SmeftSymm SmeftSymmFacts SmeftSpec SmeftNames SmeftRot SmeftWarsaw SmeftIll
  MatchOps MatchTab Match MatchFacts MatchSpec MatchRot MatchThm MatchSm MatchLin MatchWarsaw.
Import ListNotations.
Open Scope string_scope.
Open Scope list_scope.
Open Scope nat_scope.
Lemma vee_named : In "VeeLL" match_names /\ match_shape "VeeLL" = Some Sh4.
Proof. split; [apply (proj1 (mem_In _ "VeeLL" match_names))|]; vm_compute; reflexivity. Qed.
#[local] Opaque WC_keys match_tab.

(** The default parameters are fine. *)
Lemma default_sm : sm_ok (merge_params None).
Proof.
  unfold sm_ok. change (param (merge_params None) "GF") with (11663787 / 1000000000000)%R.
  change (param (merge_params None) "m_Z") with (911876 / 10000)%R. change (param (merge_params None) "alpha_e") with (10 / 1279)%R.
  change (param (merge_params None) "m_W") with (80385 / 1000)%R.
  split; [lra|]. split; [lra|]. split; [lra|]. rewrite Rabs_pos_eq by lra.
  pose proof PI_4 as P4. assert (1 < sqrt 2)%R as S2 by (rewrite <- sqrt_1 at 1; apply sqrt_lt_1; lra).
  apply Rle_lt_trans with (4 * (10 / 1279))%R; [nra|].
  apply Rlt_trans with (1 * (11663787 / 1000000000000) * (80385 / 1000) ^ 2)%R; [lra|].
  apply Rmult_lt_compat_r; [lra|]. apply Rmult_lt_compat_r; lra.
Qed.

(** ** One coefficient of ll *)
Definition ll_ex : dict string C := [("ll_1331", C1)].
Lemma ll_good : good_dict ll_ex.
Proof.
  split; [repeat constructor; simpl; tauto|]. intros k [<-|[]]. exists "ll", Sh4, [F1; F3; F3; F1].
  split; [|split; [|split]]; try reflexivity. apply idx4_in.
Qed.
Lemma ll_arrays : exists c, read_smeft ll_ex = Ok c /\ (forall op, op <> "ll" -> dget c op = None) /\
  g4 c "ll" F1 F3 F3 F1 = C1 /\ g4 c "ll" F1 F1 F3 F3 = C0 /\ g4 c "ll" F2 F1 F1 F2 = C0 /\ g4 c "ll" F1 F2 F2 F1 = C0 /\ dmem c "ll" = true.
Proof.
  destruct (read_good ll_ex ll_good) as (c & E). exists c. split; auto. split.
  - intros op N. rewrite (read_get _ _ _ ll_good E). destruct (op_shape op) as [s|]; auto.
    assert (touched ll_ex op = false) as ->; [|rewrite andb_false_r; reflexivity].
    change (touched ll_ex op) with (String.eqb "ll" op || false). rewrite orb_false_r. apply String.eqb_neq. congruence.
  - assert (dget c "ll" = Some (symm1 "ll" (array_in ll_ex "ll" Sh4))) as D.
    { rewrite (read_get _ _ _ ll_good E). Transparent WC_keys. reflexivity. }
    unfold g4, dmem. rewrite D. repeat split.
Qed.
#[local] Opaque WC_keys.
Lemma ll_filled c : read_smeft ll_ex = Ok c ->
  g4 (add_missing c) "ll" = g4 c "ll" /\ (forall op, op <> "ll" -> g2 (add_missing c) op = mzero /\ g0 (add_missing c) op = C0).
Proof.
  intros E. destruct ll_arrays as (c' & E' & N & _ & _ & _ & _ & M). assert (c' = c) as -> by congruence.
  split.
  - unfold g4. rewrite add_missing_get. unfold dmem in M. destruct (dget c "ll"); [reflexivity|discriminate].
  - intros op L. unfold g2, g0. rewrite add_missing_get, (N op L). destruct (mem op WC_keys); [|auto]. destruct (op_shape op) as [[]|]; auto.
Qed.
Lemma ll_quiet c : read_smeft ll_ex = Ok c -> quiet (add_missing c).
Proof.
  intros E. destruct (ll_filled c E) as [G4 G2]. destruct ll_arrays as (c' & E' & _ & _ & _ & Z1 & Z2 & _). assert (c' = c) as -> by congruence.
  split; [|split].
  - intros op I. apply G2. intros ->. simpl in I. repeat (destruct I as [I|I]; [discriminate|]). contradiction.
  - unfold phiWB. rewrite (proj2 (G2 "phiWB" ltac:(discriminate))). reflexivity.
  - rewrite G4, Z1, Z2. ring.
Qed.
Section Ex.
Variable ckm_tree : R -> R -> R -> R -> mat.
(** (ē1 γ e3)(ē3 γ e1) = (ē1 γ e1)(ē3 γ e3) by a Fierz identity; the matching writes ll_1331 only to the first. *)
Lemma fierz_case J : In "VeeLL_1331" J -> In "VeeLL_1133" J ->
  exists o, match_all ckm_tree J ll_ex None = Ok o /\ dget o "VeeLL_1331" = Some C1 /\ dget o "VeeLL_1133" = Some C0.
Proof.
  intros I1 I2. destruct ll_arrays as (c & E & _ & Z1 & Z2 & _).
  destruct (match_like_ok ckm_tree J ll_ex None c default_sm E (quiet_like _ _ (ll_quiet c E))) as (o & M).
  exists o. split; auto. destruct (match_inv _ _ _ _ _ M) as (c' & w & E' & Mw & -> & W & P). assert (c' = c) as -> by congruence.
  destruct (matched_inv _ _ _ _ Mw) as (w0 & M0 & Rd & K).
  destruct vee_named as [In0 Sh].
  rewrite <- (match_array_keys _ _ _ M0) in In0. apply key_dget in In0. destruct In0 as (v & Dv).
  destruct (match_quiet _ _ _ _ _ default_sm (ll_quiet c E) M0 Dv) as (s & Ms & Vs).
  rewrite Sh in Ms. injection Ms as <-.
  assert (tree (vev (merge_params None)) (sm_s (merge_params None)) (sqrt (sm_D (merge_params None)) / sm_g2 (merge_params None)) (add_missing c) "VeeLL" Sh4 = A4 (g4 c "ll")) as T.
  { rewrite <- (proj1 (ll_filled c E)). reflexivity. }
  rewrite T in Vs. subst v.
  assert (dget w "VeeLL" = Some (A4 (g4 c "ll"))) as D.
  { rewrite (rotate_down_rest _ _ _ _ Rd); auto. apply (proj1 (mem_notIn _ "VeeLL" rd_names)). vm_compute. reflexivity. }
  split.
  - rewrite key_filter_get by apply out_wf. rewrite (proj2 (mem_In _ _ J) I1).
    change "VeeLL_1331" with (sname "VeeLL" [F1; F3; F3; F1]). rewrite (out_get _ _ _ _ _ W P D) by (apply idx4_in). rewrite <- Z1. reflexivity.
  - rewrite key_filter_get by apply out_wf. rewrite (proj2 (mem_In _ _ J) I2).
    change "VeeLL_1133" with (sname "VeeLL" [F1; F1; F3; F3]). rewrite (out_get _ _ _ _ _ W P D) by (apply idx4_in). rewrite <- Z2. reflexivity.
Qed.
End Ex.

(** ** Operators with left-handed down quarks that rotate_down leaves as they are *)
Definition flip1 : mat := fun i j => if fl_eqb i j then (if fl_eqb i F1 then Cneg C1 else C1) else C0.
Lemma flip1_unitary : unitary flip1.
Proof. unfold unitary. apply mat_ext. intros i j. destruct i, j; cbv [mmul mdag mconj mT flip1 meye S3 delta keqb Key_fl fl_eqb]; rewrite ?Cconj_neg, ?Cconj_1, ?Cconj_0; ring. Qed.
Definition ones (s : list slot) : arr := if Nat.eqb (length s) 2 then A2 (fun _ _ => C1) else A4 (fun _ _ _ _ => C1).
Definition uniform : arrays := map (fun kv : string * list slot => (fst kv, ones (snd kv))) jms_slots.
Lemma flip1_dip m : entry (new_left is_quark (mdag flip1) (dip Dn) (A2 m)) [F1; F2] = Cneg (entry (A2 m) [F1; F2]).
Proof.
  cbv [entry new_left new_left2 dip is_quark on_slot2 of_mat]. cbv [S3 mconj mdag mT flip1 delta keqb Key_fl fl_eqb].
  rewrite ?Cconj_conj, ?Cconj_neg, ?Cconj_0, ?Cconj_1, ?Cconj_conj. ring.
Qed.
Lemma neg1 : Cneg C1 <> C1.
Proof. intros H. injection H. lra. Qed.
Lemma uniform_rank : forallb (fun k => match dget uniform k with Some (A4 _) => true | _ => false end) rd_names = true.
Proof. vm_compute. reflexivity. Qed.
Lemma uniform_rotates V : exists c', rotate_down V uniform = Ok c'.
Proof.
  apply rotate_down_ok. intros k I. pose proof uniform_rank as H. rewrite forallb_forall in H. specialize (H k I).
  destruct (dget uniform k) as [[| |t]|] eqn:E; try discriminate. exists t. exact E.
Qed.
Definition probe (v : arr) : C := match v with A0 z => z | A2 m => m F1 F2 | A4 t => t F1 F1 F2 F1 end.
Definition probe' (v : arr) : C := match v with A0 z => z | A2 m => m F1 F2 | A4 t => t F1 F1 F1 F1 end.
Lemma unrotated_wrong op : In op unrotated -> exists s v c', dget jms_slots op = Some s /\ left_down s = true /\
  dget uniform op = Some v /\ rotate_down flip1 uniform = Ok c' /\ dget c' op <> Some (new_downs flip1 s v).
Proof.
  intros I. destruct (uniform_rotates flip1) as (c' & E).
  assert (exists s v, dget jms_slots op = Some s /\ left_down s = true /\ dget uniform op = Some v /\ ~ In op rd_names /\ v <> new_downs flip1 s v) as (s & v & S & L & D & N & X).
  { unfold unrotated in I. repeat (destruct I as [<-|I]); [..|contradiction];
      (do 2 eexists; split; [reflexivity|]; split; [reflexivity|]; split; [reflexivity|]; split; [match goal with |- ~ In ?o ?l => apply (proj1 (mem_notIn _ o l)) end; vm_compute; reflexivity|]; intros H).
    all: apply neg1; symmetry.
    1-6: apply (f_equal probe) in H; refine (eq_trans H _); cbn; cbv [S3 delta flip1 mconj keqb Key_fl fl_eqb]; rewrite ?Cconj_neg, ?Cconj_1, ?Cconj_0; ring.
    apply (f_equal probe') in H; refine (eq_trans H _); cbn; cbv [S3 delta flip1 mconj keqb Key_fl fl_eqb]; rewrite ?Cconj_neg, ?Cconj_1, ?Cconj_0; ring. }
  exists s, v, c'. do 4 (split; auto). rewrite (rotate_down_rest _ _ _ _ E N), D. congruence.
Qed.
