(** Matching: symmetries after the rotation, the written coefficients, the Standard Model point. *)
From Coq Require Import String List Bool Arith Reals Lra.
From Verif Require Import PyBase PyDict Cplx Tensor SmeftSyntax SmeftTab Wc Params Smeft SmeftSpec SmeftNames SmeftRot SmeftWarsaw SmeftIll
  MatchOps MatchTab Match MatchSpec MatchFacts MatchRot.
Import ListNotations.
Open Scope string_scope.
Open Scope list_scope.
Open Scope nat_scope.
#[local] Opaque WC_keys C_keys_shape.

(** ** The rotation respects the symmetries *)
Section Sym.
Local Open Scope C_scope.
Lemma rd_all_einsum U x : rd_all U x = einsum4 U U (mconj U) (mconj U) x.
Proof.
  apply ten_ext; intros a b c d. unfold rd_all, einsum4. apply S3_ext; intros i. apply S3_ext; intros j.
  apply S3_ext; intros k. apply S3_ext; intros l. ring.
Qed.
Lemma all_symm U x : identical_currents x -> identical_currents (rd_all U x).
Proof. intros [H K]. rewrite rd_all_einsum. split; [apply rot_currents; auto|apply rot_swap; auto]. Qed.
Lemma kl_symm U x : currents x -> currents (rd_kl U x).
Proof.
  intros H p r s u. unfold rd_kl. rewrite S3_swap, S3_conj. apply S3_ext; intros l. rewrite S3_conj. apply S3_ext; intros k.
  unfold mconj. rewrite !Cconj_mul, !Cconj_conj, <- H. ring.
Qed.
Lemma ij_symm U x : currents x -> currents (rd_ij U x).
Proof.
  intros H p r s u. unfold rd_ij. rewrite S3_swap, S3_conj. apply S3_ext; intros l. rewrite S3_conj. apply S3_ext; intros k.
  unfold mconj. rewrite !Cconj_mul, !Cconj_conj, <- H. ring.
Qed.
Lemma ik_symm U x : exchange x -> exchange (rd_ik U x).
Proof.
  intros H p r s u. unfold rd_ik. rewrite S3_swap. apply S3_ext; intros k. apply S3_ext; intros i. rewrite (H i r k u). ring.
Qed.
End Sym.
Lemma rd_symm V x : forall op f, In (op, f) rd_tab -> jms_symmetry op (A4 x) -> jms_symmetry op (A4 (f V x)).
Proof.
  intros op f I. unfold rd_tab in I. cbn [map app In] in I.
  repeat (destruct I as [I|I]; [injection I as <- <-;
    first [exact (all_symm V x)|exact (kl_symm V x)|exact (ij_symm V x)|exact (ik_symm V x)|exact (fun _ => Logic.I)]|]).
  contradiction.
Qed.
Lemma asub_symm op v w : jms_symmetry op v -> jms_symmetry op w -> jms_symmetry op (asub v w).
Proof.
  unfold jms_symmetry. destruct (jms_kind op), v, w; simpl; try tauto.
  - apply c_sub.
  - intros [A B] [A' B']. split; [apply c_sub; auto|exact (x_sub _ _ B B')].
  - apply x_sub.
  - intros H K i j. unfold msub. rewrite H, K. reflexivity.
Qed.

(** ** The arrays *)
Definition same_rank (v w : arr) : Prop := match v, w with A0 _, A0 _ | A2 _, A2 _ | A4 _, A4 _ => True | _, _ => False end.
Lemma table_rank k p A k' p' A' : forall op f, In (op, f) match_tab -> same_rank (f k p A) (f k' p' A').
Proof.
  intros op f I. unfold match_tab in I. cbn [In] in I.
  repeat (destruct I as [I|I]; [injection I as <- <-; exact Logic.I|]). contradiction.
Qed.
Definition match_names : list string := map fst match_tab.
Lemma match_names_NoDup : NoDup match_names.
Proof.
  assert (forall l : list string, (fix nd l := match l with [] => true | x :: t => negb (mem x t) && nd t end) l = true -> NoDup l) as G.
  { induction l as [|x t IH]; intros H; constructor; apply andb_true_iff in H; destruct H as [H1 H2]; auto.
    apply negb_true_iff in H1. intros I. apply (mem_In _ x t) in I. congruence. }
  apply G. vm_compute. reflexivity.
Qed.
Lemma match_names_plain op : In op match_names -> no_us op = true.
Proof.
  assert (forallb no_us match_names = true) as H by (vm_compute; reflexivity). rewrite forallb_forall in H. apply H.
Qed.
Lemma match_array_inv A p w : match_all_array A p = Ok w -> exists k k0,
  w = map (fun kf => (fst kf, asub (snd kf k p A) (snd kf k0 p (dmap azero A)))) match_tab.
Proof.
  unfold match_all_array.
  destruct (weak A p (vT A p)) as [k|]; [|discriminate]. cbn [bind].
  destruct (weak (dmap azero A) p (vT (dmap azero A) p)) as [k0|]; [|discriminate]. cbn [bind].
  destruct (with_gz A k) as [k'|]; [|discriminate]. cbn [bind].
  destruct (Req_EM_T (param p "m_Z") 0); [discriminate|].
  destruct (with_gz (dmap azero A) k0) as [k0'|]; [|discriminate]. cbn [bind].
  intros E. exists k', k0'. injection E as E. symmetry. exact E.
Qed.
Lemma match_array_keys A p w : match_all_array A p = Ok w -> dkeys w = match_names.
Proof. intros E. apply match_array_inv in E. destruct E as (k & k0 & ->). unfold dkeys. rewrite map_map. reflexivity. Qed.
Lemma map_dget (g : string * (coup -> params -> arrays -> arr) -> arr) : forall l op f, NoDup (map fst l) -> In (op, f) l ->
  dget (map (fun kf => (fst kf, g kf)) l) op = Some (g (op, f)).
Proof.
  intros l op f N I. apply In_dget.
  - unfold wf, dkeys. rewrite map_map. exact N.
  - apply (in_map (fun kf => (fst kf, g kf))) in I. exact I.
Qed.
Lemma match_array_symm A p w : proper A -> match_all_array A p = Ok w -> forall op v, dget w op = Some v -> jms_symmetry op v.
Proof.
  intros P E op v D. apply match_array_inv in E. destruct E as (k & k0 & ->). apply dget_In in D. apply in_map_iff in D.
  destruct D as ([o f] & E & I). injection E as <- <-. cbn [fst snd]. apply asub_symm; apply table_symm; auto. apply azero_proper; auto.
Qed.
(** Shape of a matched operator *)
Definition one_coup : coup := Coup 0 0 0 0 0 0 0.
Definition shape_of (v : arr) : shape := match v with A0 _ => Sh0 | A2 _ => Sh2 | A4 _ => Sh4 end.
Definition match_shape (op : string) : option shape := option_map (fun f => shape_of (f one_coup [] [])) (dget match_tab op).
Lemma asub_fits s v w : fits s v -> same_rank v w -> fits s (asub v w).
Proof. destruct s, v, w; simpl; tauto. Qed.
Lemma rank_fits v w : same_rank v w -> fits (shape_of v) w.
Proof. destruct v, w; simpl; tauto. Qed.
Lemma match_array_fits A p w op v : match_all_array A p = Ok w -> dget w op = Some v -> exists s, match_shape op = Some s /\ fits s v.
Proof.
  intros E D. apply match_array_inv in E. destruct E as (k & k0 & ->). apply dget_In in D. apply in_map_iff in D.
  destruct D as ([o f] & E & I). injection E as <- <-. unfold match_shape.
  rewrite (In_dget _ o f match_names_NoDup I). cbn [option_map fst snd]. eexists; split; [reflexivity|].
  apply asub_fits; [|eapply table_rank; eauto]. apply rank_fits. eapply table_rank; eauto.
Qed.
Lemma rd_names_four : forallb (fun k => match match_shape k with Some Sh4 => true | _ => false end) rd_names = true.
Proof. reflexivity. Qed.

Section Matched.
Variable ckm_tree : R -> R -> R -> R -> mat.
Lemma matched_inv p c w : matched ckm_tree p c = Ok w -> exists w0, match_all_array (add_missing c) p = Ok w0 /\
  rotate_down (ckm_of ckm_tree p) w0 = Ok w /\ dkeys w = match_names.
Proof.
  unfold matched. destruct (match_all_array (add_missing c) p) as [w0|] eqn:E; [|discriminate]. cbn [bind]. intros R.
  exists w0. split; auto. split; auto. rewrite (rotate_down_keys _ _ _ R). eapply match_array_keys; eauto.
Qed.
Lemma matched_ok p c w0 : match_all_array (add_missing c) p = Ok w0 -> exists w, matched ckm_tree p c = Ok w.
Proof.
  intros E. unfold matched. rewrite E. cbn [bind]. apply rotate_down_ok. intros k I.
  pose proof rd_names_four as F. rewrite forallb_forall in F. specialize (F k I).
  assert (In k (dkeys w0)) as K.
  { rewrite (match_array_keys _ _ _ E). unfold match_shape in F. destruct (dget match_tab k) as [f|] eqn:D; [|discriminate].
    exact (dget_Some_key _ _ _ D). }
  apply key_dget in K. destruct K as (v & D). destruct (match_array_fits _ _ _ _ _ E D) as (s & S & Fs). rewrite S in F.
  destruct s; try discriminate. destruct v; try contradiction. eexists; eauto.
Qed.
Lemma matched_symm p c w : some_proper c -> matched ckm_tree p c = Ok w -> forall op v, dget w op = Some v -> jms_symmetry op v.
Proof.
  intros P E op v D. destruct (matched_inv _ _ _ E) as (w0 & M & R & _).
  pose proof (match_array_symm _ _ _ (add_missing_proper _ P) M) as S. destruct (rotate_down_get _ _ _ R) as [A B].
  destruct (in_dec string_dec op rd_names) as [I|N].
  - destruct (in_names op I) as (f & F). destruct (A op f F) as (x & D0 & D1). assert (v = A4 (f (ckm_of ckm_tree p) x)) as -> by congruence.
    apply rd_symm; auto.
  - rewrite B in D by auto. apply S; auto.
Qed.
Lemma matched_fits p c w op v : matched ckm_tree p c = Ok w -> dget w op = Some v -> exists s, match_shape op = Some s /\ fits s v.
Proof.
  intros E D. destruct (matched_inv _ _ _ E) as (w0 & M & R & _). destruct (rotate_down_get _ _ _ R) as [A B].
  destruct (in_dec string_dec op rd_names) as [I|N].
  - destruct (in_names op I) as (f & F). destruct (A op f F) as (x & D0 & D1). assert (v = A4 (f (ckm_of ckm_tree p) x)) as -> by congruence.
    destruct (match_array_fits _ _ _ _ _ M D0) as (s & S & G). exists s. split; [auto|]. clear - G. destruct s; simpl in G |- *; tauto.
  - rewrite B in D by auto. eapply match_array_fits; eauto.
Qed.
End Matched.

(** ** The written names *)
Definition out_idx (filled : string -> bool) (op : string) (v : arr) : list idx :=
  match v with A0 _ => if filled op then [[F1]] else [[]] | A2 _ => idx2 | A4 _ => idx4 end.
Definition out_val (v : arr) (x : idx) : C := match v with A0 z => z | _ => entry v x end.
Lemma out_entries_map filled op v : out_entries filled (op, v) = map (fun x => (sname op x, out_val v x)) (out_idx filled op v).
Proof.
  destruct v as [z|m|t]; unfold out_entries; cbn [fst snd out_idx].
  - destruct (filled op); reflexivity.
  - rewrite (entries_map op Sh2 (A2 m) I). reflexivity.
  - rewrite (entries_map op Sh4 (A4 t) I). reflexivity.
Qed.
Lemma out_idx_NoDup filled op v : NoDup (out_idx filled op v).
Proof.
  destruct v; simpl; [|apply (idxs_NoDup Sh2)|apply (idxs_NoDup Sh4)].
  destruct (filled op); repeat constructor; simpl; tauto.
Qed.
Definition plain (w : arrays) : Prop := forall k, In k (dkeys w) -> no_us k = true.
Lemma flat_out_in filled w k z : In (k, z) (flat_map (out_entries filled) w) <->
  exists op v x, In (op, v) w /\ In x (out_idx filled op v) /\ k = sname op x /\ z = out_val v x.
Proof.
  rewrite in_flat_map. split.
  - intros ([op v] & I & J). rewrite out_entries_map in J. apply in_map_iff in J. destruct J as (x & E & Ix). injection E as <- <-. eauto 8.
  - intros (op & v & x & I & Ix & -> & ->). exists (op, v). split; auto. rewrite out_entries_map.
    apply (in_map (fun x => (sname op x, out_val v x))). auto.
Qed.
Lemma flat_out_NoDup filled w : wf w -> plain w -> NoDup (map fst (flat_map (out_entries filled) w)).
Proof.
  induction w as [|[op v] t IH]; intros W P; [constructor|]. cbn [flat_map]. rewrite map_app.
  inversion W as [|? ? NI W']; subst. assert (no_us op = true) as U by (apply P; simpl; auto).
  assert (plain t) as P' by (intros k I; apply P; simpl; auto).
  apply NoDup_app_intro; auto.
  - rewrite out_entries_map, map_map. cbn [fst]. apply NoDup_map_inj; [|apply out_idx_NoDup].
    intros x y _ _ E. apply sname_inj in E; auto. tauto.
  - intros k I J. rewrite out_entries_map, map_map in I. apply in_map_iff in I. destruct I as (x & E & _). cbn [fst] in E. subst k.
    apply in_map_iff in J. destruct J as ([k z] & E & J). cbn [fst] in E. subst k. apply flat_out_in in J.
    destruct J as (op' & v' & x' & I' & _ & E & _). apply (in_map fst) in I'. cbn [fst] in I'.
    apply sname_inj in E; auto. destruct E as [<- _]. contradiction.
Qed.
Lemma out_get filled w op v x : wf w -> plain w -> dget w op = Some v -> In x (out_idx filled op v) ->
  dget (out_names filled w) (sname op x) = Some (out_val v x).
Proof.
  intros W P D I. unfold out_names. rewrite dict_of_wf by (apply flat_out_NoDup; auto).
  apply In_dget; [apply flat_out_NoDup; auto|]. apply flat_out_in. exists op, v, x. apply dget_In in D. auto.
Qed.
Lemma out_keys filled w k z : wf w -> plain w -> dget (out_names filled w) k = Some z ->
  exists op v x, dget w op = Some v /\ In x (out_idx filled op v) /\ k = sname op x /\ z = out_val v x.
Proof.
  intros W P D. unfold out_names in D. rewrite dict_of_wf in D by (apply flat_out_NoDup; auto). apply dget_In in D.
  apply flat_out_in in D. destruct D as (op & v & x & I & Ix & -> & ->). exists op, v, x. split; auto. apply In_dget; auto.
Qed.
