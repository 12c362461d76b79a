(** What the normal forms say about the WET translators. *)
From Coq Require Import String Ascii List Bool Arith ZArith QArith Qreals Reals Lra.
From Verif Require Import PyBase PyDict Cplx Tensor Wc Params Smeft SmeftNames WetExpr WetStr WetTab Wet WetJms WetNf WetSpec WetChk.
Import ListNotations.
Open Scope string_scope.
Open Scope list_scope.
Open Scope nat_scope.
#[local] Opaque Ceq_dec.
Lemma nJB_eq : nJB = nf amJ none JMS_to_Bern_prog. Proof. reflexivity. Qed.
Lemma nJF_eq : nJF = nf amJ none JMS_to_flavio_prog. Proof. reflexivity. Qed.
Lemma nJX_eq : nJX = nf amJ none JMS_to_FormFlavor_prog. Proof. reflexivity. Qed.
Lemma nJE_eq : nJE = nf amE none JMS_to_EOS_prog. Proof. reflexivity. Qed.
Lemma nBF_eq : nBF = nf am0 (reads bern_read) Bern_to_flavio_prog. Proof. reflexivity. Qed.
Lemma nFB_eq : nFB = nf am0 (reads flavio_read) flavio_to_Bern_prog. Proof. reflexivity. Qed.
#[local] Opaque JMS_to_Bern_prog JMS_to_flavio_prog JMS_to_FormFlavor_prog JMS_to_EOS_prog Bern_to_flavio_prog flavio_to_Bern_prog.
#[local] Opaque nf nf_ok deqb leqb mirror_names.
#[local] Opaque nJB nJF nJX nJE nBF nFB bern_read flavio_read bern flavio eos formflavor.

Lemma and4 a b c e : a && b && c && e = true -> a = true /\ b = true /\ c = true /\ e = true.
Proof. rewrite !andb_true_iff. tauto. Qed.
Lemma and3 a b c : a && b && c = true -> a = true /\ b = true /\ c = true.
Proof. rewrite !andb_true_iff. tauto. Qed.
Lemma and5 a b c e f : a && b && c && e && f = true -> a = true /\ b = true /\ c = true /\ e = true /\ f = true.
Proof. rewrite !andb_true_iff. tauto. Qed.
Lemma chk_ok a g q n s : chk a g q n s = true -> nf_ok a g q = true /\ dkeys n = names s /\ NoDup (names s).
Proof.
  unfold chk. rewrite !andb_true_iff. intros [[A B] D]. split; auto. split; [apply names_eqb_eq|apply nodupb_ok]; auto.
Qed.

(** Sums and multiples of sets of coefficients; a missing coefficient is 0. *)
Definition sum_of (c1 c2 c3 : dict string C) : Prop := forall k, num_of c3 k = Cadd (num_of c1 k) (num_of c2 k).
Definition multiple (z : C) (c1 c2 : dict string C) : Prop := forall k, num_of c2 k = Cmul z (num_of c1 k).
Definition irredundant (keys : list string) : Prop :=
  forall op x, In op cur_ops -> In (cname op x) keys -> In (cname op (cur_ix x)) keys -> cur_ix x = x.

Lemma dget_dmap_lval v n k : num_of (dmap (lval v) n) k = lval v (getf n k).
Proof. unfold num_of, getf. rewrite dget_dmap. destruct (dget n k); reflexivity. Qed.
Lemma getf_data (P : datum * coef -> bool) n k t :
  forallb (fun kf : string * lform => forallb P (snd kf)) n = true -> In t (getf n k) -> P t = true.
Proof.
  intros H I. unfold getf in I. destruct (dget n k) as [f|] eqn:E; [|destruct I]. apply dget_In in E.
  rewrite forallb_forall in H. specialize (H _ E). cbn [snd] in H. rewrite forallb_forall in H. auto.
Qed.
Lemma cj_add b x y : cj b (Cadd x y) = Cadd (cj b x) (cj b y).
Proof. destruct b; simpl; auto. apply Cconj_add. Qed.
Lemma cj_mulR b r x : cj b (Cmul (RtoC r) x) = Cmul (RtoC r) (cj b x).
Proof. destruct b; simpl; auto. rewrite Cconj_mul, Cconj_R. reflexivity. Qed.
Lemma cj_cj b c x : cj b (cj c x) = cj (xorb b c) x.
Proof. destruct b, c; simpl; auto. apply Cconj_conj. Qed.

Section Thm.
Variable ckm_tree : R -> R -> R -> R -> mat.
Variable qcd_mb qcd_ms : R -> R -> R -> res R.
Variable qcd_as : R -> R -> res R.
Notation JMS_to_Bern := (JMS_to_Bern ckm_tree qcd_mb qcd_ms qcd_as).
Notation JMS_to_flavio := (JMS_to_flavio ckm_tree qcd_mb qcd_ms qcd_as).
Notation JMS_to_EOS := (JMS_to_EOS ckm_tree qcd_mb qcd_ms qcd_as).
Notation JMS_to_FormFlavor := (JMS_to_FormFlavor ckm_tree qcd_mb qcd_ms qcd_as).
Notation Bern_to_flavio := (Bern_to_flavio ckm_tree qcd_mb qcd_ms qcd_as).
Notation flavio_to_Bern := (flavio_to_Bern ckm_tree qcd_mb qcd_ms qcd_as).
Notation okp := (okp ckm_tree qcd_mb qcd_ms qcd_as).
Notation jenv := (jenv ckm_tree).
Notation fenv := (fenv ckm_tree).

Definition outJ (n : dict string lform) J c p : dict string C := dmap (lval (jenv J c p)) n.
Definition outG (n : dict string lform) B c p : dict string C := dmap (lval (fenv B c p)) n.
Definition good (J : list string) : Prop := listing_ok J /\ complete J.
Definition light (p : params) : Prop := (param p "m_b" * param p "m_b" <> param p "m_s" * param p "m_s")%R.

Section Run.
Variables (J : list string) (scale : R) (input : option params) (p : params).
Hypothesis (GJ : good J) (GP : okp scale input p).
Lemma amJ_ok c : env_ok amJ (jenv J c p).
Proof. destruct GJ. eapply jenv_ok; eauto. Qed.
Lemma run_JB c : JMS_to_Bern J (nums c) scale input = Ok (nums (outJ nJB J c p)).
Proof.
  destruct GJ as [L Hc]. rewrite nJB_eq.
  exact (from_JMS_nf _ _ _ _ JMS_to_Bern_prog amJ J c scale input p L GP Hc (amJ_ok c) (proj1 (chk_ok _ _ _ _ _ (proj1 (and4 _ _ _ _ chk_JB))))).
Qed.
Lemma run_JF c : JMS_to_flavio J (nums c) scale input = Ok (nums (outJ nJF J c p)).
Proof.
  destruct GJ as [L Hc]. rewrite nJF_eq.
  exact (from_JMS_nf _ _ _ _ JMS_to_flavio_prog amJ J c scale input p L GP Hc (amJ_ok c) (proj1 (chk_ok _ _ _ _ _ (proj1 (and4 _ _ _ _ chk_JF))))).
Qed.
Lemma run_JX c : JMS_to_FormFlavor J (nums c) scale input = Ok (nums (outJ nJX J c p)).
Proof.
  destruct GJ as [L Hc]. rewrite nJX_eq.
  exact (from_JMS_nf _ _ _ _ JMS_to_FormFlavor_prog amJ J c scale input p L GP Hc (amJ_ok c) (proj1 (chk_ok _ _ _ _ _ (proj1 (and3 _ _ _ chk_JX))))).
Qed.
Lemma run_JE c : light p -> JMS_to_EOS J (nums c) scale input = Ok (nums (outJ nJE J c p)).
Proof.
  destruct GJ as [L Hc]. intros M. rewrite nJE_eq.
  exact (from_JMS_nf _ _ _ _ JMS_to_EOS_prog amE J c scale input p L GP Hc (jenv_okE _ _ _ _ J c scale input p L Hc GP M)
    (proj1 (chk_ok _ _ _ _ _ (proj1 (and5 _ _ _ _ _ chk_JE))))).
Qed.
Lemma run_BF B c : NoDup B -> incl bern_read B -> Bern_to_flavio B (nums c) scale input = Ok (nums (outG nBF B c p)).
Proof.
  intros N I. rewrite nBF_eq.
  exact (from_flat_nf _ _ _ _ Bern_to_flavio_prog bern_read B c scale input p N I GP (proj1 (chk_ok _ _ _ _ _ (proj1 (and5 _ _ _ _ _ chk_BF))))).
Qed.
Lemma run_FB F c : NoDup F -> incl flavio_read F -> flavio_to_Bern F (nums c) scale input = Ok (nums (outG nFB F c p)).
Proof.
  intros N I. rewrite nFB_eq.
  exact (from_flat_nf _ _ _ _ flavio_to_Bern_prog flavio_read F c scale input p N I GP (proj1 (chk_ok _ _ _ _ _ (proj1 (and5 _ _ _ _ _ chk_FB))))).
Qed.

(** ** Names *)
Lemma keys_JB c : dkeys (outJ nJB J c p) = names bern.
Proof. unfold outJ. rewrite dkeys_dmap. apply (chk_ok _ _ _ _ _ (proj1 (and4 _ _ _ _ chk_JB))). Qed.
Lemma keys_JF c : dkeys (outJ nJF J c p) = names flavio.
Proof. unfold outJ. rewrite dkeys_dmap. apply (chk_ok _ _ _ _ _ (proj1 (and4 _ _ _ _ chk_JF))). Qed.
Lemma keys_JX c : dkeys (outJ nJX J c p) = names formflavor.
Proof. unfold outJ. rewrite dkeys_dmap. apply (chk_ok _ _ _ _ _ (proj1 (and3 _ _ _ chk_JX))). Qed.
Lemma keys_JE c : dkeys (outJ nJE J c p) = names eos.
Proof. unfold outJ. rewrite dkeys_dmap. apply (chk_ok _ _ _ _ _ (proj1 (and5 _ _ _ _ _ chk_JE))). Qed.
Lemma keys_BF B c : dkeys (outG nBF B c p) = names flavio.
Proof. unfold outG. rewrite dkeys_dmap. apply (chk_ok _ _ _ _ _ (proj1 (and5 _ _ _ _ _ chk_BF))). Qed.
Lemma keys_FB F c : dkeys (outG nFB F c p) = names bern_of_flavio.
Proof. unfold outG. rewrite dkeys_dmap. apply (chk_ok _ _ _ _ _ (proj1 (and5 _ _ _ _ _ chk_FB))). Qed.

(** ** Entries *)
Lemma dt_pick op x b : jms_ix op x = true -> exists y s, In (y, s) (members op x) /\
  (forall c, dtval (jenv J c p) (DArr op x b) = cj (xorb b s) (num_of c (cname op y))) /\ pick J op x = Some (y, s).
Proof.
  intros H. destruct GJ as [L Hc]. destruct (complete_pick _ _ _ Hc H) as ([y s] & P & I & _). exists y, s. split; auto. split; auto.
  intros c. pose proof (arr_entry ckm_tree J c p op x L Hc H) as E. unfold entry_of in E. rewrite P in E. cbn [option_map fst snd] in E.
  cbn [dtval]. injection E as <-. apply cj_cj.
Qed.
Lemma jdata_ix n k t : jdata n = true -> In t (getf n k) -> exists op x b, fst t = DArr op x b /\ jms_ix op x = true.
Proof.
  intros H I. pose proof (getf_data _ _ _ _ H I) as Q. cbv beta in Q. destruct (fst t) as [|op x b]; [discriminate|]. eauto.
Qed.
Lemma lin_add n c1 c2 c3 : jdata n = true -> sum_of c1 c2 c3 -> sum_of (outJ n J c1 p) (outJ n J c2 p) (outJ n J c3 p).
Proof.
  intros D S k. unfold outJ. rewrite !dget_dmap_lval. apply lval_add; try reflexivity.
  intros t I. apply in_map_iff in I. destruct I as (t' & <- & I). destruct (jdata_ix _ _ _ D I) as (op & x & b & -> & Q).
  destruct (dt_pick op x b Q) as (y & s & _ & E & _). rewrite !E, S. apply cj_add.
Qed.
Lemma lin_scale n r c1 c2 : jdata n = true -> multiple (RtoC r) c1 c2 -> multiple (RtoC r) (outJ n J c1 p) (outJ n J c2 p).
Proof.
  intros D S k. unfold outJ. rewrite !dget_dmap_lval. apply lval_scale; try reflexivity.
  intros t I. apply in_map_iff in I. destruct I as (t' & <- & I). destruct (jdata_ix _ _ _ D I) as (op & x & b & -> & Q).
  destruct (dt_pick op x b Q) as (y & s & _ & E & _). rewrite !E, S. apply cj_mulR.
Qed.
Lemma jflav_dep q n c1 c2 k r : jflav q n = true -> dget q k = Some r ->
  (forall op x, jms_ix op x = true -> related r (jms_content op x) = true -> num_of c1 (cname op x) = num_of c2 (cname op x)) ->
  num_of (outJ n J c1 p) k = num_of (outJ n J c2 p) k.
Proof.
  intros H Q S. unfold outJ. rewrite !dget_dmap_lval. apply lval_ext; try reflexivity.
  unfold getf. destruct (dget n k) as [f|] eqn:E; [|intros t []]. intros t I. apply in_map_iff in I. destruct I as (t' & <- & I).
  unfold jflav in H. rewrite forallb_forall in H. specialize (H _ (dget_In _ _ _ E)). cbn [fst snd] in H. rewrite Q in H.
  rewrite forallb_forall in H. specialize (H _ I). destruct (fst t') as [|op x b]; [discriminate|]. rewrite forallb_forall in H.
  assert (jms_ix op x = true) as X.
  { assert (In (x, false) (members op x)) as M.
    { unfold members. destruct (mem op herm_ops); [|destruct (mem op cur_ops); [|destruct (mem op both_ops)]]; simpl; auto. }
    specialize (H _ M). apply andb_true_iff in H. tauto. }
  destruct (dt_pick op x b X) as (y & s & M & V & _). rewrite !V. f_equal. specialize (H _ M). cbn [fst] in H. apply andb_true_iff in H.
  apply S; tauto.
Qed.

(** ** Dictionaries *)
Lemma get0_fenv B c k : NoDup B -> In k B -> get0 (e_get (fenv B c p)) k = num_of c k.
Proof. intros N I. unfold get0. cbn [fenv WetNf.fenv e_get]. rewrite get0_fill by auto. reflexivity. Qed.
Lemma gdata_in l n k t : gdata l n = true -> In t (getf n k) -> exists j, fst t = DGet j false /\ In j l.
Proof.
  intros H I. pose proof (getf_data _ _ _ _ H I) as Q. cbv beta in Q. destruct (fst t) as [j b|]; [|discriminate].
  apply andb_true_iff in Q. destruct Q as [Q1 Q2]. apply negb_true_iff in Q1. subst b. apply mem_In in Q2. eauto.
Qed.
Lemma ling_add l n B c1 c2 c3 : NoDup B -> incl l B -> gdata l n = true -> sum_of c1 c2 c3 ->
  sum_of (outG n B c1 p) (outG n B c2 p) (outG n B c3 p).
Proof.
  intros N I D S k. unfold outG. rewrite !dget_dmap_lval. apply lval_add; try reflexivity.
  intros t M. apply in_map_iff in M. destruct M as (t' & <- & M). destruct (gdata_in _ _ _ _ D M) as (j & -> & Q).
  cbn [dtval cj]. rewrite !get0_fenv by auto. apply S.
Qed.
Lemma ling_scale l n B z c1 c2 : NoDup B -> incl l B -> gdata l n = true -> multiple z c1 c2 ->
  multiple z (outG n B c1 p) (outG n B c2 p).
Proof.
  intros N I D S k. unfold outG. rewrite !dget_dmap_lval. apply lval_scale; try reflexivity.
  intros t M. apply in_map_iff in M. destruct M as (t' & <- & M). destruct (gdata_in _ _ _ _ D M) as (j & -> & Q).
  cbn [dtval cj]. rewrite !get0_fenv by auto. apply S.
Qed.
Lemma gflav_dep i q l n B c1 c2 k r : NoDup B -> incl l B -> gdata l n = true -> gflav i q n = true -> dget q k = Some r ->
  (forall j s, In (j, s) i -> same_charge r s = true -> num_of c1 j = num_of c2 j) ->
  num_of (outG n B c1 p) k = num_of (outG n B c2 p) k.
Proof.
  intros N I D H Q S. unfold outG. rewrite !dget_dmap_lval. apply lval_ext; try reflexivity.
  intros t M. apply in_map_iff in M. destruct M as (t' & <- & M). destruct (gdata_in _ _ _ _ D M) as (j & E & QQ).
  rewrite E. cbn [dtval cj]. rewrite !get0_fenv by auto.
  unfold getf in M. destruct (dget n k) as [f|] eqn:F; [|destruct M].
  unfold gflav in H. rewrite forallb_forall in H. specialize (H _ (dget_In _ _ _ F)). cbn [fst snd] in H. rewrite Q in H.
  rewrite forallb_forall in H. specialize (H _ M). rewrite E in H. destruct (dget i j) as [s|] eqn:G; [|discriminate].
  apply (S j s); auto. exact (dget_In _ _ _ G).
Qed.
Lemma gdata_noarr l n k : gdata l n = true -> no_arr (getf n k) = true.
Proof.
  intros H. unfold no_arr. apply forallb_forall. intros t I. destruct (gdata_in _ _ _ _ H I) as (j & -> & _). reflexivity.
Qed.
(** Values of a composition *)
Lemma compose_vals a v l n2 n1 B o : env_ok a v -> e_par v = p -> e_ckm v = ckm_of ckm_tree p -> NoDup B -> incl l B -> gdata l n2 = true ->
  wf n2 -> o = dmap (lval v) n1 -> outG n2 B o p = dmap (lval v) (compose a n2 n1).
Proof.
  intros OK E1 E2 N I D W ->. unfold outG, compose, dmap. rewrite map_map. apply map_ext_in. intros [k f] M. cbn [fst snd]. f_equal.
  assert (getf n2 k = f) as G by (unfold getf; rewrite (In_dget _ _ _ W M); reflexivity).
  apply (lsubst_val a v); auto.
  - rewrite <- G. eapply gdata_noarr; eauto.
  - intros j c T. apply in_map_iff in T. destruct T as (t & T1 & T2). rewrite <- G in T2.
    destruct (gdata_in _ _ _ _ D T2) as (j' & T3 & T4). rewrite T1 in T3. injection T3 as -> ->.
    rewrite get0_fenv by auto. change (map _ n1) with (dmap (lval v) n1). rewrite dget_dmap_lval. unfold getf. destruct (dget n1 j'); reflexivity.
Qed.
Lemma nBF_wf : wf nBF.
Proof. unfold wf. destruct (chk_ok _ _ _ _ _ (proj1 (and5 _ _ _ _ _ chk_BF))) as (_ & -> & H). exact H. Qed.
Lemma nFB_wf : wf nFB.
Proof. unfold wf. destruct (chk_ok _ _ _ _ _ (proj1 (and5 _ _ _ _ _ chk_FB))) as (_ & -> & H). exact H. Qed.
Theorem via_bern B c : NoDup B -> incl bern_read B -> outG nBF B (outJ nJB J c p) p = outJ nJF J c p.
Proof.
  intros N I. destruct (and5 _ _ _ _ _ chk_BF) as (_ & D & _).
  rewrite (compose_vals amJ (jenv J c p) bern_read nBF nJB B (outJ nJB J c p) (amJ_ok c) eq_refl eq_refl N I D nBF_wf eq_refl).
  destruct (and4 _ _ _ _ chk_JF) as (_ & _ & _ & H).
  exact (eq_sym (deqb_vals amJ _ _ _ (amJ_ok c) H)).
Qed.
Lemma am0_ok B c : env_ok am0 (fenv B c p).
Proof. eapply fenv_ok; eauto. Qed.
Lemma one_var B c k : NoDup B -> In k B -> lval (fenv B c p) (var k) = num_of c k.
Proof.
  intros N I. unfold var, lval. cbn [snd fst dtval cj]. rewrite get0_fenv by auto. unfold cfval. cbn [fst snd]. rewrite mone_val.
  replace (Q2R 1) with 1%R by (unfold Q2R; simpl; field). change (RtoC 1) with C1. ring.
Qed.
Lemma compose_getf a n2 n1 k : getf (compose a n2 n1) k = match dget n2 k with Some f => lsubst a (dget n1) f | None => [] end.
Proof.
  unfold getf, compose. induction n2 as [|[j f] t IH]; simpl; auto. destruct (keqb k j); auto.
Qed.
Theorem flavio_bern_flavio F B c : NoDup F -> NoDup B -> incl flavio_read F -> incl bern_read B ->
  (forall k, In k flavio_read -> num_of (outG nBF B (outG nFB F c p) p) k = num_of c k) /\
  (forall k, In k (names flavio_sdnu) -> num_of (outG nBF B (outG nFB F c p) p) k = C0).
Proof.
  intros NF NB IF IB. destruct (and5 _ _ _ _ _ chk_BF) as (_ & D & _ & Rs & Z).
  rewrite (compose_vals am0 (fenv F c p) bern_read nBF nFB B (outG nFB F c p) (am0_ok F c) eq_refl eq_refl NB IB D nBF_wf eq_refl).
  split; intros k I; rewrite dget_dmap_lval.
  - unfold restored in Rs. rewrite forallb_forall in Rs. rewrite (leqb_val am0 _ _ _ (am0_ok F c) (Rs k I)). apply one_var; auto.
  - rewrite forallb_forall in Z. rewrite (leqb_val am0 _ _ _ (am0_ok F c) (Z k I)). reflexivity.
Qed.
Lemma kept_read : forallb (fun k => mem k bern_read) (names bern_of_flavio) = true.
Proof. vm_cast_no_check (eq_refl true). Qed.
Lemma tensors_read : forallb (fun ab => mem (fst ab) (names bern_of_flavio) && mem (snd ab) (names bern_of_flavio)) tensors = true.
Proof. vm_cast_no_check (eq_refl true). Qed.
Theorem bern_flavio_bern F B c : NoDup F -> NoDup B -> incl flavio_read F -> incl bern_read B ->
  (forall k, In k bern_kept -> num_of (outG nFB F (outG nBF B c p) p) k = num_of c k) /\
  (forall k k', In (k, k') tensors -> num_of (outG nFB F (outG nBF B c p) p) k = Cmul (RtoC 16) (num_of c k')).
Proof.
  intros NF NB IF IB. destruct (and5 _ _ _ _ _ chk_FB) as (_ & D & _ & Rs & Z).
  rewrite (compose_vals am0 (fenv B c p) flavio_read nFB nBF F (outG nBF B c p) (am0_ok B c) eq_refl eq_refl NF IF D nFB_wf eq_refl).
  pose proof kept_read as KR. pose proof tensors_read as TR. rewrite forallb_forall in KR, TR.
  split; [intros k I|intros k k' I]; rewrite dget_dmap_lval.
  - unfold restored in Rs. rewrite forallb_forall in Rs. rewrite (leqb_val am0 _ _ _ (am0_ok B c) (Rs k I)). apply one_var; auto.
    unfold bern_kept in I. apply filter_In in I. destruct I as [I _]. apply IB. specialize (KR _ I). apply mem_In in KR. exact KR.
  - rewrite forallb_forall in Z. specialize (Z _ I). cbn [fst snd] in Z. rewrite (leqb_val am0 _ _ _ (am0_ok B c) Z).
    unfold times16, lval. cbn [fst snd dtval cj]. rewrite get0_fenv; auto.
    + unfold cfval. cbn [fst snd]. rewrite mone_val. replace (Q2R 16) with 16%R by (unfold Q2R; simpl; field). ring.
    + specialize (TR _ I). cbn [fst snd] in TR. apply andb_true_iff in TR. destruct TR as [_ TR]. apply mem_In in TR.
      apply IB. specialize (KR _ TR). apply mem_In in KR. exact KR.
Qed.

(** ** Parity *)
Lemma canon_val c op x : irredundant J -> jms_ix op x = true -> mem op cur_ops = true -> jms_ix op (cur_ix x) = true ->
  arr0 (jenv J c p) op (cur_ix x) = arr0 (jenv J c p) op x.
Proof.
  intros IR H M H'. destruct GJ as [L Hc].
  assert (length x = 4) as L4.
  { unfold jms_ix in H. destruct (dget jms_fields op) as [fs|] eqn:F; [|discriminate]. apply fits_len in H. rewrite H.
    apply mem_In in M. cbn [In cur_ops] in M. repeat (destruct M as [<-|M]; [injection F as <-; reflexivity|]). destruct M. }
  destruct (four_len x L4) as (i & j & k & m & ->).
  pose proof (arr_entry ckm_tree J c p op _ L Hc H) as E. pose proof (arr_entry ckm_tree J c p op _ L Hc H') as E'.
  cut (Some (arr0 (jenv J c p) op (cur_ix [i; j; k; m])) = Some (arr0 (jenv J c p) op [i; j; k; m])); [congruence|].
  rewrite <- E, <- E'. unfold entry_of, pick, members.
  assert (mem op herm_ops = false) as ->.
  { destruct (mem op herm_ops) eqn:HH; auto. destruct (proj1 (sym_disjoint op) HH). congruence. }
  rewrite M. cbn [List.find fst cur_ix].
  destruct (mem (cname op [k; m; i; j]) J) eqn:M1; destruct (mem (cname op [i; j; k; m]) J) eqn:M2; try reflexivity.
  apply mem_In in M1. apply mem_In in M2. apply mem_In in M. rewrite (IR op [i; j; k; m] M M2 M1 : [k; m; i; j] = _). reflexivity.
Qed.
Lemma parity c1 c2 : irredundant J ->
  (forall op x op' x' b, jms_ix op x = true -> mirror op x = Some (op', x', b) ->
     arr0 (jenv J c2 p) op x = cj b (arr0 (jenv J c1 p) op' x')) ->
  forall k k', In (k, k') mirror_names -> num_of (outJ nJB J c2 p) k = num_of (outJ nJB J c1 p) k'.
Proof.
  intros IR H k k' I. destruct (and4 _ _ _ _ chk_JB) as (_ & _ & _ & P). rewrite forallb_forall in P. specialize (P _ I).
  unfold pchk in P. cbn [fst snd] in P. apply and3 in P. destruct P as (P1 & P2 & P3). rewrite forallb_forall in P1, P2.
  unfold outJ. rewrite !dget_dmap_lval.
  assert (forall f, (forall t, In t f -> exists op x b, fst t = DArr op x b /\ jms_ix op x = true /\ (mem op cur_ops = true -> jms_ix op (cur_ix x) = true)) ->
    lval (jenv J c1 p) (lmap canon f) = lval (jenv J c1 p) f) as CV.
  { clear - GJ IR. induction f as [|t f IH]; intros Q; auto. cbn [lmap map lval fst snd]. unfold lmap in IH. rewrite IH by (intros; apply Q; simpl; auto).
    f_equal. f_equal. destruct (Q t) as (op & x & b & -> & X & Y); [simpl; auto|]. cbn [canon].
    destruct (mem op cur_ops) eqn:M; [|reflexivity]. destruct (idx_leb x (cur_ix x)); [reflexivity|]. cbn [andb negb dtval]. f_equal. apply canon_val; auto. }
  transitivity (lval (jenv J c1 p) (lmap mirror_d (getf nJB k))).
  { clear - H P1. induction (getf nJB k) as [|t f IH]; auto. cbn [lmap map lval fst snd]. unfold lmap in IH.
    rewrite IH by (intros; apply P1; simpl; auto). rewrite (cfval_same (jenv J c1 p) (jenv J c2 p)) by reflexivity. f_equal. f_equal.
    specialize (P1 t (or_introl eq_refl)). apply andb_true_iff in P1. destruct P1 as [P _]. destruct (fst t) as [|op x b]; [discriminate|].
    cbn [has_mirror] in P. destruct (mirror op x) as [[[op' x'] b']|] eqn:E; [|discriminate]. apply andb_true_iff in P. destruct P as [P Q].
    cbn [mirror_d]. rewrite E. cbn [dtval]. rewrite (H op x op' x' b' P E), cj_cj. f_equal. apply xorb_comm. }
  rewrite <- (CV (lmap mirror_d (getf nJB k))), <- (CV (getf nJB k')).
  - apply (leqb_val amJ); auto. apply amJ_ok.
  - intros t T. specialize (P2 t T). clear - P2. destruct (fst t) as [|op x b]; [discriminate|]. exists op, x, b. split; auto.
    apply orb_true_iff in P2. destruct P2 as [P2|P2]; apply andb_true_iff in P2; destruct P2 as [Q1 Q2]; split; auto.
    intros E. rewrite E in Q2. discriminate.
  - intros t T. unfold lmap in T. destruct (proj1 (in_map_iff _ _ _) T) as (t' & <- & T'). clear T. rename T' into T. cbn [fst]. specialize (P1 t' T). clear - P1. apply andb_true_iff in P1.
    destruct P1 as [Q1 Q2]. destruct (fst t') as [|op x b]; [discriminate|]. cbn [has_mirror mirror_d] in *.
    destruct (mirror op x) as [[[op' x'] b']|]; [|discriminate]. apply andb_true_iff in Q1. destruct Q1 as [Q3 Q4].
    exists op', x', (xorb b' b). split; auto. split; auto. intros M.
    cbn [canon] in Q2. rewrite M in Q2. destruct (idx_leb x' (cur_ix x')) eqn:E; cbn [andb negb] in Q2; auto.
    clear - Q4 M. unfold jms_ix in *. destruct (dget jms_fields op') as [fs|] eqn:F; [|discriminate].
    apply mem_In in M. cbn [In cur_ops] in M.
    repeat (destruct M as [<-|M]; [injection F as <-; destruct x' as [|a [|a1 [|a2 [|a3 [|]]]]]; try discriminate;
      cbn [fits cur_ix] in *; rewrite ?andb_true_iff in *; tauto|]). destruct M.
Qed.

(** ** EOS and flavio *)
Lemma amE_ok c : light p -> env_ok amE (jenv J c p).
Proof. destruct GJ. intros. eapply jenv_okE; eauto. Qed.
Theorem eos_equal c k k' : light p -> In (k, k') eos_same -> num_of (outJ nJE J c p) k = num_of (outJ nJF J c p) k'.
Proof.
  intros M I. destruct (and5 _ _ _ _ _ chk_JE) as (_ & _ & _ & H & _). rewrite forallb_forall in H. specialize (H _ I).
  unfold outJ. rewrite !dget_dmap_lval. apply (leqb_val amE); auto. apply amE_ok; auto.
Qed.
Theorem eos_times_mb c k k' : light p -> In (k, k') eos_mb ->
  num_of (outJ nJE J c p) k = Cmul (RtoC (param p "m_b")) (num_of (outJ nJF J c p) k').
Proof.
  intros M I. destruct (and5 _ _ _ _ _ chk_JE) as (_ & _ & _ & _ & H). rewrite forallb_forall in H. specialize (H _ I).
  cbn [fst snd] in H. unfold outJ. rewrite !dget_dmap_lval. rewrite (leqb_val amE _ _ _ (amE_ok c M) H). rewrite (lscale_val amE _ (amE_ok c M)).
  f_equal. unfold mb1. rewrite one_val. reflexivity.
Qed.
End Run.
End Thm.
