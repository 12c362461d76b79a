(** qcd.py follows one renormalisation-group trajectory: if the rundec methods map
    points of a trajectory to points of the same trajectory, so do the functions of
    qcd.py. *)
From Coq Require Import String List Bool Arith ZArith Reals Lra Lia.
From Verif Require Import PyBase Qcd.
Import ListNotations.
Open Scope list_scope.
#[local] Opaque MZ.

(** Where the number of flavours changes: pole mass, scale and the larger number
    of flavours (top, bottom, charm). *)
Definition thresholds : list thr := [Thr 170 170 6; Thr 4.8 4.8 5; Thr 1.3 1.3 4]%R.

Section Traj.
Variable AlphasExact : fval -> fval -> fval -> fval -> fval.
Variable AlL2AlH AlH2AlL : fval -> fval -> thr -> fval -> fval.
Variable mMS2mMS : fval -> fval -> fval -> fval -> fval.
Variable mH2mL mL2mH : fval -> fval -> fval -> thr -> fval -> fval.
(** alpha_s and a quark mass as functions of the scale and the number of flavours *)
Variable al : fval -> Z -> fval.
(** The rundec methods for alpha_s stay on the trajectory [al]. *)
Definition runs_alpha : Prop :=
  (forall n mu mu', AlphasExact (al mu n) mu mu' (Fin (IZR n)) = al mu' n) /\
  (forall t mu mu', In t thresholds -> AlL2AlH (al mu (nf t - 1)%Z) mu t mu' = al mu' (nf t)) /\
  (forall t mu mu', In t thresholds -> AlH2AlL (al mu (nf t)) mu t mu' = al mu' (nf t - 1)%Z).
(** Those for a mass stay on the trajectory [m] when given alpha_s on [al]. *)
Definition runs_mass (m : fval -> Z -> fval) : Prop :=
  (forall n mu mu', mMS2mMS (m mu n) (al mu n) (al mu' n) (Fin (IZR n)) = m mu' n) /\
  (forall t mu mu', In t thresholds -> mL2mH (m mu (nf t - 1)%Z) (al mu (nf t - 1)%Z) mu t mu' = m mu' (nf t)) /\
  (forall t mu mu', In t thresholds -> mH2mL (m mu (nf t)) (al mu (nf t)) mu t mu' = m mu' (nf t - 1)%Z).
(** The point a call starts from: m_b(m_b) with 5 flavours, m_c(m_c) with 4,
    m_s(2 GeV) with 3. *)
Definition start (m : fval -> Z -> fval) (c : call) : Prop :=
  match c with
  | CAlpha _ _ _ => m = al
  | CMb x _ _ _ => val x = m (val x) 5%Z
  | CMc x _ _ _ => val x = m (val x) 4%Z
  | CMs x _ _ _ => val x = m (Fin 2) 3%Z
  end.
Definition as_arg (c : call) : asarg := match c with CAlpha _ _ a | CMb _ _ _ a | CMc _ _ _ a | CMs _ _ _ a => a end.
(** The short cut of m_c, which does not look at f. *)
Definition charm_short_cut (c : call) : Prop :=
  match c with CMc m s f _ => feq (val s) (val m) = true /\ is_f f 4 = false | _ => False end.

Lemma feq_eq a b : feq a b = true -> a = b.
Proof. destruct a, b; simpl; try discriminate; auto. unfold Req_b. destruct (Req_EM_T r r0); congruence. Qed.
Lemma tt_in : In thr_t thresholds. Proof. simpl; auto. Qed.
Lemma tb_in : In thr_b thresholds. Proof. simpl; auto. Qed.
Lemma tc_in : In thr_c thresholds. Proof. simpl; auto. Qed.

Hypothesis RA : runs_alpha.
Let alpha_s := alpha_s AlphasExact AlL2AlH AlH2AlL.
Lemma alpha_traj s f a r : val (as_val a) = al (val MZ) 5%Z -> alpha_s s f a = Ok r ->
  exists z, val f = Fin (IZR z) /\ In z [3; 4; 5; 6]%Z /\ val r = al (val s) z.
Proof.
  intros A. destruct RA as (R1 & R2 & R3). unfold alpha_s, Qcd.alpha_s. rewrite A.
  destruct (feq (val s) (val MZ) && is_f f 5) eqn:E.
  { intros H. injection H as <-. apply andb_true_iff in E. destruct E as [E F]. apply is_f_iff in F. apply feq_eq in E.
    exists 5%Z. rewrite E. simpl; auto 12. }
  destruct (sane s f); [|discriminate]. cbn [bind].
  destruct (is_f f 5) eqn:F5.
  { intros H. injection H as <-. apply is_f_iff in F5. exists 5%Z. rewrite F5. rewrite R1. simpl; auto 12. }
  destruct (is_f f 6) eqn:F6.
  { intros H. injection H as <-. apply is_f_iff in F6. exists 6%Z. rewrite F6.
    rewrite (R2 thr_t _ _ tt_in). simpl; auto 12. }
  destruct (is_f f 4) eqn:F4.
  { intros H. injection H as <-. apply is_f_iff in F4. exists 4%Z. rewrite F4.
    rewrite (R3 thr_b _ _ tb_in). simpl; auto 12. }
  destruct (is_f f 3) eqn:F3; [|discriminate].
  intros H. injection H as <-. apply is_f_iff in F3. exists 3%Z. rewrite F3.
  rewrite (R3 thr_b _ _ tb_in). change (nf thr_b - 1)%Z with (nf thr_c). rewrite (R3 thr_c _ _ tc_in). simpl; auto 12.
Qed.
Lemma alpha_int s z a r : val (as_val a) = al (val MZ) 5%Z -> alpha_s s (int z) a = Ok r -> val r = al (val s) z.
Proof.
  intros A H. destruct (alpha_traj _ _ _ _ A H) as (y & E & _ & V). cbn in E. injection E as E. apply eq_IZR in E. subst y. auto.
Qed.
Lemma alpha_f s f z a r : val (as_val a) = al (val MZ) 5%Z -> is_f f z = true -> alpha_s s f a = Ok r -> val r = al (val s) z.
Proof.
  intros A F H. destruct (alpha_traj _ _ _ _ A H) as (y & E & _ & V). apply is_f_iff in F. rewrite F in E. injection E as E.
  apply eq_IZR in E. subst y. auto.
Qed.
Let eval := eval AlphasExact AlL2AlH AlH2AlL mMS2mMS mH2mL mL2mH.
Lemma eval_traj m c r : runs_mass m \/ (exists s f a, c = CAlpha s f a) -> start m c -> val (as_val (as_arg c)) = al (val MZ) 5%Z ->
  ~ charm_short_cut c -> eval c = Ok r ->
  exists z, val (c_f c) = Fin (IZR z) /\ val r = m (val (c_scale c)) z.
Proof.
  intros RM St A NC. unfold eval, Qcd.eval.
  destruct c as [s f a|x s f a|x s f a|x s f a]; cbn [start as_arg c_f c_scale charm_short_cut] in *.
  - intros H. subst m. destruct (alpha_traj s f a r A H) as (z & E & _ & V). eauto.
  - destruct RM as [(M1 & M2 & M3)|(? & ? & ? & ?)]; [|discriminate]. unfold m_b.
    destruct (feq (val s) (val x) && is_f f 5) eqn:E.
    { intros H. cbn in H. injection H as <-. apply andb_true_iff in E. destruct E as [E F]. apply is_f_iff in F. apply feq_eq in E.
      exists 5%Z. rewrite E. auto. }
    unfold ret, sbind, alpha_pure. destruct (sane s f); cbn [fst]; [|discriminate].
    fold alpha_s. destruct (alpha_s x (int 5) (AsKw (as_val a))) as [amb|] eqn:Eb; cbn [fst]; [|discriminate].
    apply (alpha_int _ _ (AsKw (as_val a))) in Eb; [|exact A].
    destruct (is_f f 5) eqn:F5.
    { destruct (alpha_s s f (AsKw (as_val a))) as [asc|] eqn:Es; cbn [fst]; [|discriminate]. intros H. injection H as <-.
      apply (alpha_f _ _ 5 (AsKw (as_val a))) in Es; [|exact A|auto]. apply is_f_iff in F5. exists 5%Z. rewrite F5. split; auto.
      cbn [val]. rewrite Eb, Es. rewrite St at 1. apply M1. }
    destruct (is_f f 4) eqn:F4.
    { cbn [fst]. intros H. injection H as <-. apply is_f_iff in F4. exists 4%Z. split; auto. cbn [val]. rewrite Eb.
      rewrite St at 1. apply (M3 thr_b _ _ tb_in). }
    destruct (is_f f 3) eqn:F3.
    { destruct (alpha_s (flt 1.3) (int 4) (AsKw (as_val a))) as [amc|] eqn:Ec; cbn [fst]; [|discriminate].
      intros H. injection H as <-. apply (alpha_int _ _ (AsKw (as_val a))) in Ec; [|exact A].
      apply is_f_iff in F3. exists 3%Z. split; auto. cbn [val]. rewrite Eb, Ec. rewrite St at 1.
      rewrite (M3 thr_b _ _ tb_in). apply (M3 thr_c _ _ tc_in). }
    destruct (is_f f 6) eqn:F6; cbn [fst]; [|discriminate].
    intros H. injection H as <-. apply is_f_iff in F6. exists 6%Z. split; auto. cbn [val]. rewrite Eb.
    rewrite St at 1. apply (M2 thr_t _ _ tt_in).
  - destruct RM as [(M1 & M2 & M3)|(? & ? & ? & ?)]; [|discriminate]. unfold m_c.
    destruct (feq (val s) (val x)) eqn:E.
    { intros H. cbn in H. injection H as <-. destruct (is_f f 4) eqn:F; [|exfalso; apply NC; auto]. apply is_f_iff in F. apply feq_eq in E.
      exists 4%Z. rewrite E. auto. }
    unfold ret, sbind, alpha_pure. destruct (sane s f); cbn [fst]; [|discriminate].
    fold alpha_s. destruct (alpha_s x (int 4) (AsKw (as_val a))) as [amc|] eqn:Ec; cbn [fst]; [|discriminate].
    apply (alpha_int _ _ (AsKw (as_val a))) in Ec; [|exact A].
    destruct (is_f f 4) eqn:F4.
    { destruct (alpha_s s f (AsKw (as_val a))) as [asc|] eqn:Es; cbn [fst]; [|discriminate]. intros H. injection H as <-.
      apply (alpha_f _ _ 4 (AsKw (as_val a))) in Es; [|exact A|auto]. apply is_f_iff in F4. exists 4%Z. rewrite F4. split; auto.
      cbn [val]. rewrite Ec, Es. rewrite St at 1. apply M1. }
    destruct (is_f f 3) eqn:F3.
    { cbn [fst]. intros H. injection H as <-. apply is_f_iff in F3. exists 3%Z. split; auto. cbn [val]. rewrite Ec.
      rewrite St at 1. apply (M3 thr_c _ _ tc_in). }
    destruct (is_f f 5) eqn:F5; cbn [fst]; [|discriminate].
    intros H. injection H as <-. apply is_f_iff in F5. exists 5%Z. split; auto. cbn [val]. rewrite Ec.
    rewrite St at 1. apply (M2 thr_b _ _ tb_in).
  - destruct RM as [(M1 & M2 & M3)|(? & ? & ? & ?)]; [|discriminate]. unfold m_s.
    destruct (feq (val s) (Fin 2) && is_f f 3) eqn:E.
    { intros H. cbn in H. injection H as <-. apply andb_true_iff in E. destruct E as [E F]. apply is_f_iff in F. apply feq_eq in E.
      exists 3%Z. rewrite E. auto. }
    unfold ret, sbind, alpha_pure. destruct (sane s f); cbn [fst]; [|discriminate].
    fold alpha_s. destruct (alpha_s (int 2) (int 3) (AsKw (as_val a))) as [a2|] eqn:E2; cbn [fst]; [|discriminate].
    apply (alpha_int _ _ (AsKw (as_val a))) in E2; [|exact A]. cbn [val int] in E2.
    destruct (is_f f 3) eqn:F3.
    { destruct (alpha_s s f (AsKw (as_val a))) as [asc|] eqn:Es; cbn [fst]; [|discriminate]. intros H. injection H as <-.
      apply (alpha_f _ _ 3 (AsKw (as_val a))) in Es; [|exact A|auto]. apply is_f_iff in F3. exists 3%Z. rewrite F3. split; auto.
      cbn [val]. rewrite E2, Es. rewrite St. apply M1. }
    destruct (is_f f 4) eqn:F4.
    { cbn [fst]. intros H. injection H as <-. apply is_f_iff in F4. exists 4%Z. split; auto. cbn [val]. rewrite E2, St.
      apply (M2 thr_c _ _ tc_in). }
    destruct (is_f f 5) eqn:F5; cbn [fst]; [|discriminate].
    destruct (alpha_s (flt 1.3) (int 4) (AsKw (as_val a))) as [amc|] eqn:Ec; cbn [fst]; [|discriminate].
    intros H. injection H as <-. apply (alpha_int _ _ (AsKw (as_val a))) in Ec; [|exact A].
    apply is_f_iff in F5. exists 5%Z. split; auto. cbn [val]. rewrite E2, Ec, St.
    rewrite (M2 thr_c _ _ tc_in). apply (M2 thr_b _ _ tb_in).
Qed.
End Traj.

(** A trajectory that depends on scale and flavours, and methods that follow it. *)
Definition ex_al (mu : fval) (n : Z) : fval := match mu with Fin r => Fin (r + IZR n) | x => x end.
Definition ex_m (mu : fval) (n : Z) : fval := match mu with Fin r => Fin (r + IZR (n - 4)) | x => x end.
Definition ex_run (g : fval -> Z -> fval) (mu' f : fval) : fval :=
  match mu', f with Fin r, Fin k => match g (Fin 0) 0%Z with Fin o => Fin (r + (o + k)) | x => x end | x, _ => x end.
Definition ex_exact (_ _ mu' f : fval) : fval := ex_run ex_al mu' f.
Definition ex_up (_ _ : fval) (t : thr) (mu' : fval) : fval := ex_al mu' (nf t).
Definition ex_down (_ _ : fval) (t : thr) (mu' : fval) : fval := ex_al mu' (nf t - 1).
(** [al mu' n] has the scale in it: mass = alpha_s - 4 *)
Definition ex_ms (_ _ a' _ : fval) : fval := match a' with Fin r => Fin (r - 4) | x => x end.
Definition ex_mup (_ _ _ : fval) (t : thr) (mu' : fval) : fval := ex_m mu' (nf t).
Definition ex_mdown (_ _ _ : fval) (t : thr) (mu' : fval) : fval := ex_m mu' (nf t - 1).
Lemma ex_runs : runs_alpha ex_exact ex_up ex_down ex_al.
Proof.
  repeat split; auto. intros n mu mu'. unfold ex_exact, ex_run, ex_al. destruct mu'; auto. f_equal. ring.
Qed.
Lemma ex_runs_m : runs_mass ex_ms ex_mdown ex_mup ex_al ex_m.
Proof.
  repeat split; auto. intros n mu mu'. unfold ex_ms, ex_al, ex_m. destruct mu'; auto. f_equal. rewrite minus_IZR. ring.
Qed.
