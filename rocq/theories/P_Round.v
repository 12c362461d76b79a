(** C76: rounding errors of the translators between bases of WET. *)
From Coq Require Import String List Bool Arith ZArith Reals Lra Lia.
From Verif Require Import PyBase PyDict Cplx Tensor Wc Params WetExpr Wet WetJms WetNf WetSpec WetChk WetThm WetVals WetList WetAux WetNames Round RoundErr RoundWet RoundArith P_Wet.
Import ListNotations.
Open Scope string_scope.
Open Scope list_scope.
Open Scope R_scope.

(** After [n] operations with relative error [eps] each. *)
Definition growth (eps : R) (n : nat) : R := (/ (1 - eps)) ^ n - 1.
(** The rounded translator [TA] fails as the exact one [T] does and gives the same names; its values differ from the exact ones by at most
    [growth eps n] times the sum of the absolute values of the terms, which is what the translator [TS] gives. *)
Definition within (n : nat) (eps : R) (T TA TS : translator) : Prop := forall c,
  match T c with
  | Err e => TA c = Err e
  | Ok d => exists da ds, TA c = Ok da /\ TS c = Ok ds /\ dkeys da = dkeys d /\
      forall k x, dget d k = Some x ->
        match x with
        | None => dget da k = Some None
        | Some z => exists za s, dget da k = Some (Some za) /\ dget ds k = Some (Some s) /\ Cabs (Csub za z) <= growth eps n * Cabs s
        end
  end.
(** The largest error is at most [K] times the largest coefficient. *)
Definition differ_by (b : R) (o oa : dict string C) : Prop := dkeys oa = dkeys o /\ forall k, Cabs (Csub (num_of oa k) (num_of o k)) <= b.
Definition largest (c : dict string C) (M : R) : Prop := forall k, Cabs (num_of c k) <= M.
Definition uniform (n : nat) (T : translator) (TA : arith -> translator) : Prop :=
  exists K, forall A eps c M, rounding A eps -> largest c M ->
    exists o oa, T (nums c) = Ok (nums o) /\ TA A (nums c) = Ok (nums oa) /\ differ_by (growth eps n * (K * M)) o oa.

Lemma agrees_within n eps T TA TS : (forall c, agrees eps n (T c) (TA c) (TS c)) -> within n eps T TA TS.
Proof.
  intros H c. specialize (H c). unfold agrees in H. destruct (T c) as [d|e]; [|exact H]. destruct H as (da & dm & E & S & C). exists da, dm. split; [exact E|]. split; [exact S|]. split; [apply (close_keys _ _ _ _ _ C)|].
  intros k x G. pose proof (close_get _ _ _ _ _ k C) as Q. rewrite G in Q. destruct Q as (xa & m & Ga & Gm & Q). destruct x, xa, m; try contradiction Q; [|assumption]. eexists _, _. split; [exact Ga|]. split; [exact Gm|]. apply Q.
Qed.
Lemma agrees_nums n eps d ra rm : agrees eps n (Ok (nums d)) ra rm -> exists oa om, ra = Ok (nums oa) /\ rm = Ok (nums om) /\ dkeys oa = dkeys d /\ forall k, Cabs (Csub (num_of oa k) (num_of d k)) <= growth eps n * Cabs (num_of om k).
Proof. intros (da & dm & E & S & C). destruct (close_nums _ _ _ _ _ C) as (oa & om & -> & -> & K & _ & H). eauto 8. Qed.
Lemma growth_pos eps n : 0 <= eps < 1 -> 0 <= growth eps n.
Proof. intros E. unfold growth. assert (1 <= / (1 - eps)) by (rewrite <- Rinv_1 at 1; apply Rinv_le_contravar; lra). pose proof (pow_R1_Rle (/ (1 - eps)) n H). lra. Qed.
Lemma growth_mono eps n m : 0 <= eps < 1 -> (n <= m)%nat -> growth eps n <= growth eps m.
Proof. intros E L. unfold growth. assert (1 <= / (1 - eps)) by (rewrite <- Rinv_1 at 1; apply Rinv_le_contravar; lra). pose proof (Rle_pow (/ (1 - eps)) n m H L). lra. Qed.
Lemma largest_pos c M : largest c M -> 0 <= M.
Proof. intros H. pose proof (Cabs_ge0 (num_of c "")). specialize (H ""). lra. Qed.

Lemma post_JB : pr_post (prog0 JMS_to_Bern_prog) = Some (fun v => XMul pref v). Proof. vm_compute. reflexivity. Qed.
Lemma post_BF : pr_post (prog0 Bern_to_flavio_prog) = Some (fun v => XDiv v pref). Proof. vm_compute. reflexivity. Qed.
Lemma post_FB : pr_post (prog0 flavio_to_Bern_prog) = Some (fun v => XMul pref v). Proof. vm_compute. reflexivity. Qed.
Lemma fits_none o cp cv ca n P q : pr_post (prog0 q) = None -> forallb (forallb fine_t) (pr_steps (prog0 q)) && Nat.leb (ops_s o cp cv ca n (pr_steps (prog0 q))) P = true -> fits o cp cv ca n P q.
Proof. intros E H. apply andb_true_iff in H. destruct H as [H L]. split; [exact H|]. rewrite E. apply Nat.leb_le, L. Qed.
Lemma fits_some o cp cv ca n P q f m : pr_post (prog0 q) = Some f -> (forall k, fine (f (XGet k)) = true /\ ops o cp cv ca m (f (XGet k)) <= P)%nat -> forallb (forallb fine_t) (pr_steps (prog0 q)) && Nat.eqb (ops_s o cp cv ca n (pr_steps (prog0 q))) m = true -> fits o cp cv ca n P q.
Proof. intros E F H. apply andb_true_iff in H. destruct H as [H L]. apply Nat.eqb_eq in L. split; [exact H|]. rewrite E, L. exact F. Qed.
Lemma fits_JF : fits 1 0 0 0 0 30 JMS_to_flavio_prog.
Proof. apply fits_none; vm_compute; reflexivity. Qed.
Lemma fits_JX : fits 1 0 0 0 0 8 JMS_to_FormFlavor_prog.
Proof. apply fits_none; vm_compute; reflexivity. Qed.
Lemma fits_JB : fits 1 0 0 0 0 25 JMS_to_Bern_prog.
Proof. apply (fits_some 1 0 0 0 0 25 _ _ 19 post_JB); [intros k; split; [reflexivity|cbn; lia]|vm_compute; reflexivity]. Qed.
Lemma fits_BF n m : (n, m) = (0, 46)%nat \/ (n, m) = (25, 71)%nat \/ (n, m) = (46, 92)%nat -> fits 1 0 0 0 n m Bern_to_flavio_prog.
Proof. intros [[= -> ->]|[[= -> ->]|[= -> ->]]]; [apply (fits_some 1 0 0 0 0 46 _ _ 40 post_BF)|apply (fits_some 1 0 0 0 25 71 _ _ 65 post_BF)|apply (fits_some 1 0 0 0 46 92 _ _ 86 post_BF)]; (try (intros k; split; [reflexivity|cbn; lia])); vm_compute; reflexivity. Qed.
Lemma fits_FB n m : (n, m) = (0, 46)%nat \/ (n, m) = (46, 92)%nat -> fits 1 0 0 0 n m flavio_to_Bern_prog.
Proof. intros [[= -> ->]|[= -> ->]]; [apply (fits_some 1 0 0 0 0 46 _ _ 40 post_FB)|apply (fits_some 1 0 0 0 46 92 _ _ 86 post_FB)]; (try (intros k; split; [reflexivity|cbn; lia])); vm_compute; reflexivity. Qed.
Lemma lin_JF : linear JMS_to_flavio_prog. Proof. split; [vm_compute; reflexivity|]. replace (pr_post (prog0 JMS_to_flavio_prog)) with (@None (ex -> ex)) by (vm_compute; reflexivity). exact I. Qed.
Lemma lin_JX : linear JMS_to_FormFlavor_prog. Proof. split; [vm_compute; reflexivity|]. replace (pr_post (prog0 JMS_to_FormFlavor_prog)) with (@None (ex -> ex)) by (vm_compute; reflexivity). exact I. Qed.
Lemma lin_JB : linear JMS_to_Bern_prog. Proof. split; [vm_compute; reflexivity|]. rewrite post_JB. intros k. reflexivity. Qed.
Lemma lin_BF : linear Bern_to_flavio_prog. Proof. split; [vm_compute; reflexivity|]. rewrite post_BF. intros k. reflexivity. Qed.
Lemma lin_FB : linear flavio_to_Bern_prog. Proof. split; [vm_compute; reflexivity|]. rewrite post_FB. intros k. reflexivity. Qed.

Section Wet.
Variable ckm_tree : R -> R -> R -> R -> mat.
Variable qcd_mb qcd_ms : R -> R -> R -> res R.
Variable qcd_as : R -> R -> res R.
Variables (J B F : list string) (scale : R) (input : option params).
Notation to_Bern := (to_Bern ckm_tree qcd_mb qcd_ms qcd_as J scale input).
Notation to_flavio := (to_flavio ckm_tree qcd_mb qcd_ms qcd_as J scale input).
Notation to_formflavor := (to_formflavor ckm_tree qcd_mb qcd_ms qcd_as J scale input).
Notation Bern_flavio := (Bern_flavio ckm_tree qcd_mb qcd_ms qcd_as B scale input).
Notation flavio_Bern := (flavio_Bern ckm_tree qcd_mb qcd_ms qcd_as F scale input).
(** The translators with the arithmetic [A]. *)
Definition to_BernA (A : arith) : translator := fun c => from_JMSA ckm_tree qcd_mb qcd_ms qcd_as A JMS_to_Bern_prog J c scale input.
Definition to_flavioA (A : arith) : translator := fun c => from_JMSA ckm_tree qcd_mb qcd_ms qcd_as A JMS_to_flavio_prog J c scale input.
Definition to_formflavorA (A : arith) : translator := fun c => from_JMSA ckm_tree qcd_mb qcd_ms qcd_as A JMS_to_FormFlavor_prog J c scale input.
Definition Bern_flavioA (A : arith) : translator := fun c => from_flatA ckm_tree qcd_mb qcd_ms qcd_as A Bern_to_flavio_prog B c scale input.
Definition flavio_BernA (A : arith) : translator := fun c => from_flatA ckm_tree qcd_mb qcd_ms qcd_as A flavio_to_Bern_prog F c scale input.

Theorem C76_exact : forall c, to_BernA exactA c = to_Bern c /\ to_flavioA exactA c = to_flavio c /\ to_formflavorA exactA c = to_formflavor c /\
  Bern_flavioA exactA c = Bern_flavio c /\ flavio_BernA exactA c = flavio_Bern c.
Proof. intros c. repeat split; first [apply from_JMS_exact|apply from_flat_exact]. Qed.

(** No conditions on coefficients, parameters or listings. *)
Theorem C76_terms : forall A eps, rounding A eps ->
  within 25 eps to_Bern (to_BernA A) (to_BernA sizeA) /\ within 30 eps to_flavio (to_flavioA A) (to_flavioA sizeA) /\
  within 8 eps to_formflavor (to_formflavorA A) (to_formflavorA sizeA) /\
  within 46 eps Bern_flavio (Bern_flavioA A) (Bern_flavioA sizeA) /\ within 46 eps flavio_Bern (flavio_BernA A) (flavio_BernA sizeA).
Proof.
  intros A eps Rd. repeat split; apply agrees_within; intros c.
  - exact (JMS_close ckm_tree qcd_mb qcd_ms qcd_as A eps Rd 25 _ J c scale input fits_JB).
  - exact (JMS_close ckm_tree qcd_mb qcd_ms qcd_as A eps Rd 30 _ J c scale input fits_JF).
  - exact (JMS_close ckm_tree qcd_mb qcd_ms qcd_as A eps Rd 8 _ J c scale input fits_JX).
  - exact (flat_close ckm_tree qcd_mb qcd_ms qcd_as A eps Rd 0 46 _ B c c c scale input (fits_BF 0 46 (or_introl eq_refl)) (close_refl A eps Rd 0 c)).
  - exact (flat_close ckm_tree qcd_mb qcd_ms qcd_as A eps Rd 0 46 _ F c c c scale input (fits_FB 0 46 (or_introl eq_refl)) (close_refl A eps Rd 0 c)).
Qed.

Variable p : params.
Hypothesis J_good : good J.
Hypothesis B_ok : NoDup B /\ incl bern_read B.
Hypothesis F_ok : NoDup F /\ incl flavio_read F.
Hypothesis p_ok : okp ckm_tree qcd_mb qcd_ms qcd_as scale input p.

Lemma uniform_of n keys T TA : (forall c, exists o, T (nums c) = Ok (nums o)) ->
  (forall A eps c, rounding A eps -> agrees eps n (T c) (TA A c) (TA sizeA c)) ->
  (forall M c c1, 0 <= M -> le_dict (lev M) (fill keys c) (fill keys c1) -> both M (TA sizeA c) (TA sizeA c1)) -> uniform n T TA.
Proof.
  intros Tot Ag Le. destruct (Tot (ones keys)) as (o1 & E1). pose proof (Ag exactA 0 (nums (ones keys)) rounding_exact) as H1. rewrite E1 in H1. destruct (agrees_nums _ _ _ _ _ H1) as (_ & s1 & _ & S1 & _).
  exists (total s1). intros A eps c M Rd L. pose proof (largest_pos c M L) as M0. destruct (Tot c) as (o & E). pose proof (Ag A eps (nums c) Rd) as H. rewrite E in H. destruct (agrees_nums _ _ _ _ _ H) as (oa & om & Ea & Em & K & D).
  exists o, oa. split; [exact E|]. split; [exact Ea|]. split; [exact K|]. intros k. eapply Rle_trans; [apply D|]. apply Rmult_le_compat_l; [apply growth_pos, (r_eps A eps Rd)|].
  pose proof (Le M (nums c) (nums (ones keys)) M0 (ones_le M keys c L)) as Q. rewrite Em, S1 in Q. pose proof (ld_num M om s1 M0 Q k). pose proof (total_num s1 k). pose proof (Cabs_ge0 (num_of s1 k)). nra.
Qed.
Let totJ (T : translator) q (Y : yields T q) : forall c, exists o, T (nums c) = Ok (nums o).
Proof. intros c. destruct (proj1 Y c) as (o & E & _). eauto. Qed.
Let Y := C35_same_names ckm_tree qcd_mb qcd_ms qcd_as J B F scale input p J_good B_ok F_ok p_ok.

Theorem C76_uniform : uniform 25 to_Bern to_BernA /\ uniform 30 to_flavio to_flavioA /\ uniform 8 to_formflavor to_formflavorA /\
  uniform 46 Bern_flavio Bern_flavioA /\ uniform 46 flavio_Bern flavio_BernA.
Proof.
  destruct Y as (Y1 & Y2 & Y3 & _ & Y4 & Y5). repeat split.
  - apply (uniform_of 25 J); [exact (totJ _ _ Y1)|intros A eps c Rd; exact (JMS_close _ _ _ _ A eps Rd 25 _ J c scale input fits_JB)|intros M c c1 M0 L; exact (JMS_size _ _ _ _ M _ J c c1 scale input M0 lin_JB L)].
  - apply (uniform_of 30 J); [exact (totJ _ _ Y2)|intros A eps c Rd; exact (JMS_close _ _ _ _ A eps Rd 30 _ J c scale input fits_JF)|intros M c c1 M0 L; exact (JMS_size _ _ _ _ M _ J c c1 scale input M0 lin_JF L)].
  - apply (uniform_of 8 J); [exact (totJ _ _ Y3)|intros A eps c Rd; exact (JMS_close _ _ _ _ A eps Rd 8 _ J c scale input fits_JX)|intros M c c1 M0 L; exact (JMS_size _ _ _ _ M _ J c c1 scale input M0 lin_JX L)].
  - apply (uniform_of 46 B); [exact (totJ _ _ Y4)|intros A eps c Rd; exact (flat_close _ _ _ _ A eps Rd 0 46 _ B c c c scale input (fits_BF 0 46 (or_introl eq_refl)) (close_refl A eps Rd 0 c))|intros M c c1 M0 L; exact (flat_size _ _ _ _ M _ B c c1 scale input M0 lin_BF L)].
  - apply (uniform_of 46 F); [exact (totJ _ _ Y5)|intros A eps c Rd; exact (flat_close _ _ _ _ A eps Rd 0 46 _ F c c c scale input (fits_FB 0 46 (or_introl eq_refl)) (close_refl A eps Rd 0 c))|intros M c c1 M0 L; exact (flat_size _ _ _ _ M _ F c c1 scale input M0 lin_FB L)].
Qed.
(** All coefficients zero: the rounded translators give exact zeros. *)
Theorem C76_zero : forall A eps c, rounding A eps -> (forall k, num_of c k = C0) ->
  Forall (fun TA => exists o, TA A (nums c) = Ok (nums o) /\ forall k, num_of o k = C0) [to_BernA; to_flavioA; to_formflavorA; Bern_flavioA; flavio_BernA].
Proof.
  intros A eps c Rd Z. assert (largest c 0) as L by (intros k; rewrite Z, Cabs_0; lra). destruct C76_uniform as (U1 & U2 & U3 & U4 & U5).
  pose proof (C33_zero ckm_tree qcd_mb qcd_ms qcd_as J B F scale input p J_good B_ok F_ok p_ok) as (Z1 & Z2 & Z3 & _ & Z4 & Z5).
  assert (forall n T TA, uniform n T TA -> zero_to_zero T -> exists o, TA A (nums c) = Ok (nums o) /\ forall k, num_of o k = C0) as H.
  { intros n T TA [K U] ZT. destruct (U A eps c 0 Rd L) as (o & oa & E & Ea & _ & D). exists oa. split; [exact Ea|]. intros k. destruct (ZT c Z) as (o' & E' & Zo). rewrite E in E'.
    assert (num_of o k = C0) as Q by (rewrite <- (Zo k); unfold num_of; assert (dget (nums o) k = dget (nums o') k) as G by congruence; unfold nums in G; rewrite !dget_dmap in G; destruct (dget o k), (dget o' k); try discriminate; [injection G; auto|reflexivity]).
    specialize (D k). rewrite Q in D. replace (Csub (num_of oa k) C0) with (num_of oa k) in D by ring. rewrite !Rmult_0_r in D. apply Cabs_zero. pose proof (Cabs_ge0 (num_of oa k)). lra. }
  apply Forall_cons; [exact (H _ _ _ U1 Z1)|]. apply Forall_cons; [exact (H _ _ _ U2 Z2)|]. apply Forall_cons; [exact (H _ _ _ U3 Z3)|]. apply Forall_cons; [exact (H _ _ _ U4 Z4)|]. apply Forall_cons; [exact (H _ _ _ U5 Z5)|]. apply Forall_nil.
Qed.

(** Two translations after each other. *)
Definition composed (n : nat) (T1 T2 : translator) (TA1 TA2 : arith -> translator) : Prop :=
  exists K, forall A eps c M, rounding A eps -> largest c M ->
    exists d o da oa, T1 (nums c) = Ok d /\ T2 d = Ok (nums o) /\ TA1 A (nums c) = Ok da /\ TA2 A da = Ok (nums oa) /\ differ_by (growth eps n * (K * M)) o oa.
Lemma composed_of n m keys T1 T2 TA1 TA2 : (forall c, exists d o, T1 (nums c) = Ok d /\ T2 d = Ok (nums o)) ->
  (forall A eps c, rounding A eps -> agrees eps n (T1 c) (TA1 A c) (TA1 sizeA c)) ->
  (forall M c c1, 0 <= M -> le_dict (lev M) (fill keys c) (fill keys c1) -> both M (TA1 sizeA c) (TA1 sizeA c1)) ->
  (forall A eps d da dm, rounding A eps -> close_dict eps n d da dm -> agrees eps m (T2 d) (TA2 A da) (TA2 sizeA dm)) ->
  (forall M c c1, 0 <= M -> le_dict (lev M) c c1 -> both M (TA2 sizeA c) (TA2 sizeA c1)) -> composed m T1 T2 TA1 TA2.
Proof.
  intros Tot Ag Le Ag2 Le2. destruct (Tot (ones keys)) as (d1 & o1 & D1 & E1). pose proof (Ag exactA 0 (nums (ones keys)) rounding_exact) as H1. rewrite D1 in H1. destruct H1 as (da1 & dm1 & _ & S1 & C1).
  pose proof (Ag2 exactA 0 _ _ _ rounding_exact C1) as H1. rewrite E1 in H1. destruct (agrees_nums _ _ _ _ _ H1) as (_ & s1 & _ & T & _).
  exists (total s1). intros A eps c M Rd L. pose proof (largest_pos c M L) as M0. destruct (Tot c) as (d & o & D & E). pose proof (Ag A eps (nums c) Rd) as H. rewrite D in H. destruct H as (da & dm & Ea & Em & Cd).
  pose proof (Ag2 A eps _ _ _ Rd Cd) as H2. rewrite E in H2. destruct (agrees_nums _ _ _ _ _ H2) as (oa & om & Ea2 & Em2 & K & Df).
  exists d, o, da, oa. split; [exact D|]. split; [exact E|]. split; [exact Ea|]. split; [exact Ea2|]. split; [exact K|]. intros k. eapply Rle_trans; [apply Df|]. apply Rmult_le_compat_l; [apply growth_pos, (r_eps A eps Rd)|].
  pose proof (Le M (nums c) (nums (ones keys)) M0 (ones_le M keys c L)) as Q. rewrite Em, S1 in Q. pose proof (Le2 M dm dm1 M0 Q) as Q2. rewrite Em2, T in Q2. pose proof (ld_num M om s1 M0 Q2 k). pose proof (total_num s1 k). pose proof (Cabs_ge0 (num_of s1 k)). nra.
Qed.
Lemma nums_inj x y : nums x = nums y -> x = y.
Proof. revert y. induction x as [|[k z] x IH]; intros [|[k' z'] y] H; cbn in H; try discriminate; [reflexivity|]. unfold nums, dmap in H. cbn in H. injection H as -> -> H. f_equal. apply IH, H. Qed.
Let Oi {X} (x y : X) : Ok x = Ok y -> x = y.
Proof. intros H. injection H. auto. Qed.
(** The direct translation from JMS to flavio and the detour by Bern agree (C30) up to rounding. *)
Theorem C76_detour : exists K, forall A eps c M, rounding A eps -> largest c M ->
  exists f b f', to_flavioA A (nums c) = Ok (nums f) /\ to_BernA A (nums c) = Ok b /\ Bern_flavioA A b = Ok (nums f') /\ differ_by (growth eps 71 * (K * M)) f f'.
Proof.
  destruct C76_uniform as (_ & [K1 U1] & _).
  assert (composed 71 to_Bern Bern_flavio to_BernA Bern_flavioA) as [K2 U2].
  { apply (composed_of 25 71 J).
    - intros c. destruct (C30_direct_equals_detour ckm_tree qcd_mb qcd_ms qcd_as J B scale input p J_good B_ok p_ok c) as (b & f & E1 & E2 & E3). destruct (totJ _ _ (proj1 (proj2 Y)) c) as (o & E). rewrite E in E2. apply Oi in E2. subst f. eauto.
    - intros A eps c Rd. exact (JMS_close _ _ _ _ A eps Rd 25 _ J c scale input fits_JB).
    - intros M c c1 M0 L. exact (JMS_size _ _ _ _ M _ J c c1 scale input M0 lin_JB L).
    - intros A eps d da dm Rd C. exact (flat_close _ _ _ _ A eps Rd 25 71 _ B d da dm scale input (fits_BF 25 71 (or_intror (or_introl eq_refl))) C).
    - intros M c c1 M0 L. exact (flat_size _ _ _ _ M _ B c c1 scale input M0 lin_BF (le_fill' M B c c1 M0 L)). }
  exists (Rabs K1 + Rabs K2). intros A eps c M Rd L. pose proof (largest_pos c M L) as M0. destruct (U1 A eps c M Rd L) as (o1 & f & E1 & Ea1 & N1 & D1). destruct (U2 A eps c M Rd L) as (d & o2 & b & f' & E2 & E2' & Eb & Ef & N2 & D2).
  exists f, b, f'. split; [exact Ea1|]. split; [exact Eb|]. split; [exact Ef|].
  destruct (C30_direct_equals_detour ckm_tree qcd_mb qcd_ms qcd_as J B scale input p J_good B_ok p_ok c) as (b0 & f0 & X1 & X2 & X3). rewrite E2 in X1. apply Oi in X1. subst b0. rewrite E1 in X2. apply Oi in X2. subst f0. rewrite E2' in X3. apply Oi, nums_inj in X3. subst o2.
  split; [rewrite N2, N1; reflexivity|]. intros k. replace (Csub (num_of f' k) (num_of f k)) with (Cadd (Csub (num_of f' k) (num_of o1 k)) (Cneg (Csub (num_of f k) (num_of o1 k)))) by ring.
  eapply Rle_trans; [apply Cabs_add|]. rewrite Cabs_neg. specialize (D1 k). specialize (D2 k). pose proof (r_eps A eps Rd) as E. pose proof (growth_mono eps 30 71 E ltac:(lia)) as G. pose proof (growth_pos eps 30 E).
  assert (growth eps 30 * (K1 * M) <= growth eps 71 * (Rabs K1 * M)).
  { pose proof (Rle_abs K1). pose proof (Rabs_pos K1). apply Rle_trans with (growth eps 30 * (Rabs K1 * M)); [apply Rmult_le_compat_l; nra|apply Rmult_le_compat_r; nra]. }
  assert (growth eps 71 * (K2 * M) <= growth eps 71 * (Rabs K2 * M)) by (pose proof (Rle_abs K2); apply Rmult_le_compat_l; nra). lra.
Qed.
(** What C31 and C32 restore is restored up to rounding. *)
Theorem C76_restored_flavio : exists K, forall A eps c M, rounding A eps -> largest c M ->
  exists b f, flavio_BernA A (nums c) = Ok b /\ Bern_flavioA A b = Ok (nums f) /\
    forall k, In k (names flavio) -> ~ In k (names flavio_sdnu) -> Cabs (Csub (num_of f k) (num_of c k)) <= growth eps 92 * (K * M).
Proof.
  pose proof (C31_restored ckm_tree qcd_mb qcd_ms qcd_as B F scale input p B_ok F_ok p_ok) as R31.
  assert (composed 92 flavio_Bern Bern_flavio flavio_BernA Bern_flavioA) as [K U].
  { apply (composed_of 46 92 F).
    - intros c. destruct (R31 c) as (b & f & E1 & E2 & _). eauto.
    - intros A eps c Rd. exact (flat_close _ _ _ _ A eps Rd 0 46 _ F c c c scale input (fits_FB 0 46 (or_introl eq_refl)) (close_refl A eps Rd 0 c)).
    - intros M c c1 M0 L. exact (flat_size _ _ _ _ M _ F c c1 scale input M0 lin_FB L).
    - intros A eps d da dm Rd C. exact (flat_close _ _ _ _ A eps Rd 46 92 _ B d da dm scale input (fits_BF 46 92 (or_intror (or_intror eq_refl))) C).
    - intros M c c1 M0 L. exact (flat_size _ _ _ _ M _ B c c1 scale input M0 lin_BF (le_fill' M B c c1 M0 L)). }
  exists K. intros A eps c M Rd L. destruct (U A eps c M Rd L) as (d & o & b & f & E1 & E2 & Eb & Ef & _ & D). exists b, f. split; [exact Eb|]. split; [exact Ef|]. intros k I N.
  destruct (R31 c) as (b' & f' & X1 & X2 & X & _). rewrite E1 in X1. apply Oi in X1. subst b'. rewrite E2 in X2. apply Oi, nums_inj in X2. subst f'. rewrite <- (X k I N). apply D.
Qed.
Theorem C76_restored_Bern : exists K, forall A eps c M, rounding A eps -> largest c M ->
  exists f b, Bern_flavioA A (nums c) = Ok f /\ flavio_BernA A f = Ok (nums b) /\
    forall k, In k (names bern_of_flavio) -> ~ In k (map fst tensors) -> Cabs (Csub (num_of b k) (num_of c k)) <= growth eps 92 * (K * M).
Proof.
  pose proof (C32_restored ckm_tree qcd_mb qcd_ms qcd_as B F scale input p B_ok F_ok p_ok) as R32.
  assert (composed 92 Bern_flavio flavio_Bern Bern_flavioA flavio_BernA) as [K U].
  { apply (composed_of 46 92 B).
    - intros c. destruct (R32 c) as (b & f & E1 & E2 & _). eauto.
    - intros A eps c Rd. exact (flat_close _ _ _ _ A eps Rd 0 46 _ B c c c scale input (fits_BF 0 46 (or_introl eq_refl)) (close_refl A eps Rd 0 c)).
    - intros M c c1 M0 L. exact (flat_size _ _ _ _ M _ B c c1 scale input M0 lin_BF L).
    - intros A eps d da dm Rd C. exact (flat_close _ _ _ _ A eps Rd 46 92 _ F d da dm scale input (fits_FB 46 92 (or_intror eq_refl)) C).
    - intros M c c1 M0 L. exact (flat_size _ _ _ _ M _ F c c1 scale input M0 lin_FB (le_fill' M F c c1 M0 L)). }
  exists K. intros A eps c M Rd L. destruct (U A eps c M Rd L) as (d & o & b & f & E1 & E2 & Eb & Ef & _ & D). exists b, f. split; [exact Eb|]. split; [exact Ef|]. intros k I N.
  destruct (R32 c) as (b' & f' & X1 & X2 & _ & X & _). rewrite E1 in X1. apply Oi in X1. subst b'. rewrite E2 in X2. apply Oi, nums_inj in X2. subst f'. rewrite <- (X k I N). apply D.
Qed.
End Wet.

(** Python's complex arithmetic, with any rounding of the reals as accurate as that of doubles. *)
Theorem C76_double : forall rnd, (forall x, Rabs (rnd x - x) <= / 2 ^ 53 * Rabs x) ->
  rounding (floatA rnd) (11 * / 2 ^ 53) /\ forall n, (n <= 100)%nat -> growth (11 * / 2 ^ 53) n <= INR n * (12 * / 2 ^ 53).
Proof.
  intros rnd H. assert (0 < / 2 ^ 53 <= / 1000000) as U by (split; [apply Rinv_0_lt_compat, pow_lt; lra|apply Rinv_le_contravar; lra]).
  split; [apply float_rounding; [lra|exact H]|]. set (u := / 2 ^ 53) in *. clearbody u. intros n L. unfold growth.
  assert (forall m, 1 - INR m * (11 * u) <= (1 - 11 * u) ^ m) as Be.
  { induction m as [|m IH]; [cbn; lra|]. rewrite S_INR. cbn [pow]. pose proof (pos_INR m). nra. }
  specialize (Be n). assert (INR n <= 100) by (replace 100 with (INR 100) by (cbn; lra); apply le_INR, L). pose proof (pos_INR n). rewrite pow_inv by lra.
  assert (INR n * (11 * u) <= 1 / 100) by nra. assert (/ (1 - 11 * u) ^ n <= / (1 - INR n * (11 * u))) by (apply Rinv_le_contravar; lra). eapply Rle_trans; [apply Rplus_le_compat_r; eassumption|].
  apply Rmult_le_reg_r with (1 - INR n * (11 * u)); [lra|]. rewrite Rmult_plus_distr_r, Rinv_l by lra. set (w := INR n * u). replace (INR n * (12 * u)) with (12 * w) by (unfold w; ring). replace (INR n * (11 * u)) with (11 * w) in * by (unfold w; ring). assert (0 <= w) by (unfold w; apply Rmult_le_pos; lra). nra.
Qed.

(** To EOS: all results but the four dipole coefficients, which are divided by m_b^2 - m_s^2.  Their sizes do not matter: they are left out. *)
Definition eos_dipoles : list string := ["b->s::c7"; "b->s::c7'"; "b->s::c8"; "b->s::c8'"].
Definition EOS_rest : res prog := rmap (drop_p eos_dipoles) JMS_to_EOS_prog.
Lemma fits_JE : fits 1 0 0 0 0 31 EOS_rest.
Proof. apply fits_none; vm_compute; reflexivity. Qed.
Lemma EOS_drop V f g h J c scale input A d : from_JMSA V f g h A JMS_to_EOS_prog J c scale input = Ok d ->
  exists d', from_JMSA V f g h A EOS_rest J c scale input = Ok d' /\ same_but eos_dipoles d d'.
Proof.
  intros H. unfold from_JMSA in *. destruct (get_parameters f g h scale input) as [p|]; cbn [bind] in *; [|discriminate]. destruct (JMS_to_array J c) as [a|]; cbn [bind] in *; [|discriminate].
  unfold EOS_rest. assert (forall q, JMS_to_EOS_prog = Ok q -> pr_post q = None /\ Forall (fun ts => ts <> []) (pr_steps q)) as Q.
  { intros q Hq. assert (pr_post (prog0 JMS_to_EOS_prog) = None) as P1 by (vm_compute; reflexivity). assert (forallb (fun ts => match ts with [] => false | _ => true end) (pr_steps (prog0 JMS_to_EOS_prog)) = true) as P2 by (vm_compute; reflexivity).
    rewrite Hq in P1, P2. cbn [prog0] in *. split; [exact P1|]. apply Forall_forall. intros ts I. rewrite forallb_forall in P2. specialize (P2 ts I). destruct ts; discriminate. }
  destruct JMS_to_EOS_prog as [q|]; cbn [rmap bind] in *; [|discriminate]. destruct (Q q eq_refl) as [Pn Fn]. clear Q. unfold run_progA in *. cbn [drop_p pr_steps pr_post]. rewrite Pn in *.
  destruct (run_stepsA A _ [] (pr_steps q)) as [x|] eqn:Ex; cbn [bind] in H; [|discriminate]. injection H as <-.
  destruct (drop_steps eos_dipoles A (pr_steps q) _ [] [] x Fn (fun k _ => eq_refl) Ex) as (x' & -> & S). cbn [bind]. eauto.
Qed.
Theorem C76_EOS : forall ckm_tree qcd_mb qcd_ms qcd_as J c scale input A eps d da, rounding A eps ->
  JMS_to_EOS ckm_tree qcd_mb qcd_ms qcd_as J c scale input = Ok d ->
  from_JMSA ckm_tree qcd_mb qcd_ms qcd_as A JMS_to_EOS_prog J c scale input = Ok da ->
  exists ds, from_JMSA ckm_tree qcd_mb qcd_ms qcd_as sizeA EOS_rest J c scale input = Ok ds /\
    forall k z, ~ In k eos_dipoles -> dget d k = Some (Some z) ->
      exists za s, dget da k = Some (Some za) /\ dget ds k = Some (Some s) /\ Cabs (Csub za z) <= growth eps 31 * Cabs s.
Proof.
  intros V f g h J c scale input A eps d da Rd E Ea.
  pose proof (fun A d => EOS_drop V f g h J c scale input A d) as Dr.
  unfold JMS_to_EOS in E. rewrite <- from_JMS_exact in E. destruct (Dr _ _ E) as (d' & E' & S'). destruct (Dr _ _ Ea) as (da' & Ea' & Sa'). rewrite from_JMS_exact in E'.
  pose proof (JMS_close V f g h A eps Rd 31 _ J c scale input fits_JE) as H. rewrite E' in H. destruct H as (xa & dm & X & Em & C). rewrite Ea' in X. assert (da' = xa) by congruence. subst xa. exists dm. split; [exact Em|].
  intros k z N G. assert (mem k eos_dipoles = false) as M by (destruct (mem k eos_dipoles) eqn:Q; [apply mem_In in Q; contradiction|reflexivity]).
  pose proof (close_get _ _ _ _ _ k C) as Q. rewrite (S' k M), G in Q. destruct Q as (za & s & Ga & Gm & Q). destruct za as [za|], s as [s|]; try contradiction Q. exists za, s. split; [rewrite <- (Sa' k M); exact Ga|]. split; [exact Gm|]. apply Q.
Qed.

(** Every operation too large by one part in 2^53. *)
Definition up (x : R) : R := x * (1 + / 2 ^ 53).
Example C76_case : rounding (floatA up) (11 * / 2 ^ 53) /\ f_add (floatA up) C1 C1 <> Cadd C1 C1 /\
  good J0 /\ okp ckm1 mb4 ms1 as1 5 None p1 /\ (NoDup (names bern) /\ incl bern_read (names bern)) /\ (NoDup (names flavio) /\ incl flavio_read (names flavio)) /\ largest [("VddLL_1213", Ci)] 1 /\
  exists o oa, to_flavioA ckm1 mb4 ms1 as1 J0 5 None (floatA up) (nums [("VddLL_1213", Ci)]) = Ok (nums oa) /\ to_flavio ckm1 mb4 ms1 as1 J0 5 None (nums [("VddLL_1213", Ci)]) = Ok (nums o).
Proof.
  assert (0 < / 2 ^ 53 <= / 1000000) as U by (split; [apply Rinv_0_lt_compat, pow_lt; lra|apply Rinv_le_contravar; lra]).
  assert (rounding (floatA up) (11 * / 2 ^ 53)) as Rd by (apply C76_double; intros x; unfold up; replace (x * (1 + / 2 ^ 53) - x) with (/ 2 ^ 53 * x) by ring; rewrite Rabs_mult, (Rabs_right (/ 2 ^ 53)) by lra; lra).
  assert (largest [("VddLL_1213", Ci)] 1) as L by (intros k; unfold num_of; cbn; destruct (keqb k "VddLL_1213"); [unfold Cabs; cbn; replace (0 * 0 + 1 * 1) with 1 by ring; rewrite sqrt_1; lra|rewrite Cabs_0; lra]).
  split; [exact Rd|]. split; [intros E; cbn in E; unfold cadd, up in E; set (u := / 2 ^ 53) in *; clearbody u; injection E as E _; cbn in E; lra|].
  split; [exact J0_good|]. split; [exact p1_ok|]. split; [exact (conj bern_nodup bern_read_in)|]. split; [exact (conj flavio_nodup flavio_read_in)|]. split; [exact L|].
  destruct (C76_uniform ckm1 mb4 ms1 as1 J0 (names bern) (names flavio) 5 None p1 J0_good (conj bern_nodup bern_read_in) (conj flavio_nodup flavio_read_in) p1_ok) as (_ & [K H] & _).
  destruct (H _ _ _ _ Rd L) as (o & oa & E & Ea & _). exists o, oa. split; [exact Ea|exact E].
Qed.
Print Assumptions C76_exact.
Print Assumptions C76_terms.
Print Assumptions C76_uniform.
Print Assumptions C76_zero.
Print Assumptions C76_detour.
Print Assumptions C76_restored_flavio.
Print Assumptions C76_restored_Bern.
Print Assumptions C76_double.
Print Assumptions C76_EOS.
Print Assumptions C76_case.
