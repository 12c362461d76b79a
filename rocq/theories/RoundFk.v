(** Rounding in the translators between FlavorKit and JMS, wcxf/translators/wet.py 1224-1283: the loops of FlavorKit.v in an arithmetic with
    relative errors, and with parameters that carry errors. *)
From Coq Require Import String Ascii List Bool Arith ZArith Reals Lra Lia.
From Verif Require Import PyBase PyDict Cplx Tensor Wc Params Smeft Wet WetNf FkTab FlavorKit Round RoundErr.
Import ListNotations.
Open Scope string_scope.
Open Scope list_scope.
Open Scope R_scope.
#[local] Opaque Ceq_dec fk_jms fk_jms_conj revert.

Section FkA.
Variable A : arith.
Variable p : params.
(** [sqrt(4* pi * p['alpha_e'])] *)
Definition charge_eA : res C :=
  let x := f_mul A (f_mul A (f_q A 4 1) (f_pi A)) (RtoC (param p "alpha_e")) in
  if Rlt_dec (Re x) 0 then Err ValueError else Ok (RtoC (f_rt A (Re x))).
(** A division of floats *)
Definition fdivA (a b : C) : res C := if Ceq_dec b C0 then Err ZeroDivisionError else Ok (f_div A a b).
(** [FlavorKit.fk_one] with the operations of [A]: [1/2 * e * m * v], from the left. *)
Definition fk_oneA (m : option R) (k : string) (v : C) : res (option R * (string * C)) :=
  match dget fk_jms k with
  | Some t => Ok (m, (t, v))
  | None =>
  match dget fk_jms_conj k with
  | Some t => Ok (m, (t, Cconj v))
  | None =>
  if String.eqb k "AVLL_2231" then Ok (m, ("VeeLL_1223", v))
  else if String.eqb k "AVRR_2231" then Ok (m, ("VeeRR_1223", v))
  else if String.eqb (substring 0 4 k) "K2R_" then
    let ind := rev_str (substring 4 (String.length k - 4) k) in
    let! e := charge_eA in
    let! c := at_ ind 1 in
    let m' := mass p m c in
    let! r := bound m' in
    Ok (m', (("egamma_" ++ ind)%string, f_mul A (f_mul A (f_mul A (f_q A 1 2) e) (RtoC r)) v))
  else Err ValueError
  end end.
Fixpoint fk_runA (m : option R) (acc : dict string C) (l : list (string * C)) : res (dict string C) :=
  match l with
  | [] => Ok acc
  | (k, v) :: r => let! x := fk_oneA m k v in fk_runA (fst x) (dset acc (fst (snd x)) (snd (snd x))) r
  end.
(** [FlavorKit.jms_one] with the operations of [A]: [2 / e / m * v]. *)
Definition jms_oneA (m : option R) (k : string) (v : C) : res (option R * option (string * C)) :=
  match dget (revert fk_jms) k with
  | Some t => Ok (m, Some (t, v))
  | None =>
  match dget (revert fk_jms_conj) k with
  | Some t => Ok (m, Some (t, Cconj v))
  | None =>
  if String.eqb k "VeeLL_1223" then Ok (m, Some ("AVLL_2231", v))
  else if String.eqb k "VeeRR_1223" then Ok (m, Some ("AVRR_2231", v))
  else if String.eqb (hd "" (split_us k)) "egamma" then
    let! part := match split_us k with _ :: q :: _ => Ok q | _ => Err IndexError end in
    let ind := rev_str part in
    let! a := at_ ind 0 in
    let! b := at_ ind 1 in
    if Ascii.eqb a b then Ok (m, None)
    else
      let! e := charge_eA in
      let m' := mass p m a in
      let! r := bound m' in
      let! x := fdivA (f_q A 2 1) e in
      let! y := fdivA x (RtoC r) in
      Ok (m', Some (("K2R_" ++ ind)%string, f_mul A y v))
  else Ok (m, None)
  end end.
Fixpoint jms_runA (m : option R) (acc : dict string C) (l : list (string * C)) : res (dict string C) :=
  match l with
  | [] => Ok acc
  | (k, v) :: r => let! x := jms_oneA m k v in
                   jms_runA (fst x) (match snd x with Some (k', v') => dset acc k' v' | None => acc end) r
  end.
End FkA.

(** ** Errors *)
Section Err.
Variables (eps : R) (A : arith) (o cp : nat).
Hypothesis E1 : 0 <= eps < 1.
Hypothesis Rd : errs eps A o.
Variables p p' : params.
Hypothesis Cp : close_par eps cp p p'.
Definition off (n : nat) (z za : C) : Prop := exists f, fac eps n f /\ za = Cmul z f.
Lemma facR_one n : facR eps n 1.
Proof. induction n; [constructor|]. rewrite <- (Rmult_1_r 1). constructor; [|assumption]. exists 0. rewrite Rabs_R0. split; [lra|left; ring]. Qed.
Lemma fac_one n : fac eps n C1.
Proof. apply (facR_C eps E1 n 1). apply facR_one. Qed.
Lemma off_up n m z za : (n <= m)%nat -> off n z za -> off m z za.
Proof.
  intros L (f & F & ->). exists (Cmul f C1). split; [|ring]. replace m with (n + (m - n))%nat by lia. apply fac_mul; [exact F|apply fac_one].
Qed.
Lemma off_conj n z za : off n z za -> off n (Cconj z) (Cconj za).
Proof.
  intros (f & F & ->). exists (Cconj f). split; [apply fac_conj; assumption|]. unfold Cconj, Cmul, Re, Im. destruct z, f. cbn. f_equal; ring.
Qed.
Lemma off_near n z za : off n z za -> Cabs (Csub za z) <= (grow eps ^ n - 1) * Cabs z.
Proof.
  intros (f & F & ->). replace (Csub (Cmul z f) z) with (Cmul (Csub f C1) z) by ring. rewrite Cabs_mul. apply Rmult_le_compat_r; [apply Cabs_ge0|]. apply fac_near; assumption.
Qed.
Lemma par_off k : exists f, facR eps cp f /\ param p' k = param p k * f.
Proof.
  unfold param. specialize (Cp k). destruct (dget p k) as [x|]; [destruct Cp as (f & F & ->); eauto|]. rewrite Cp. exists 1. split; [apply facR_one|ring].
Qed.
Lemma charge_off : match charge_e p with
  | Err x => charge_eA A p' = Err x
  | Ok e => exists f, facR eps (5 * o + cp) f /\ charge_eA A p' = Ok (RtoC (e * f)) end.
Proof.
  unfold charge_e, charge_eA. destruct (op_q eps E1 A o Rd 4 1) as (f1 & F1 & ->). destruct (op_pi eps E1 A o Rd) as (f2 & F2 & ->).
  destruct (op_mulR eps E1 A o Rd (4 / 1 * f1) (PI * f2)) as (f3 & F3 & ->). destruct (par_off "alpha_e") as (fa & Fa & ->).
  destruct (op_mulR eps E1 A o Rd (4 / 1 * f1 * (PI * f2) * f3) (param p "alpha_e" * fa)) as (f4 & F4 & ->). set (a := param p "alpha_e").
  assert (facR eps (o + (o + (o + (cp + o)))) (f1 * (f2 * (f3 * (fa * f4))))) as G by (repeat (apply facR_mul; [assumption|]); assumption).
  set (g := f1 * (f2 * (f3 * (fa * f4)))) in *. replace (4 / 1 * f1 * (PI * f2) * f3 * (a * fa) * f4) with (4 * PI * a * g) by (unfold g; field).
  pose proof (facR_pos eps E1 _ _ G) as P. cbn [Re RtoC fst]. destruct (Rlt_dec (4 * PI * a) 0) as [N|N], (Rlt_dec (4 * PI * a * g) 0) as [N'|N']; [reflexivity|exfalso; apply N'; nra|exfalso; apply N; nra|].
  destruct (op_rt eps E1 A o Rd (4 * PI * a * g)) as (f5 & F5 & ->); [lra|]. exists (sqrt g * f5). split.
  - replace (5 * o + cp)%nat with ((o + (o + (o + (cp + o)))) + o)%nat by lia. apply facR_mul; [|exact F5]. apply facR_sqrt; assumption.
  - rewrite sqrt_mult by lra. do 2 f_equal. ring.
Qed.
Definition mrel (m m' : option R) : Prop := match m, m' with Some r, Some r' => exists f, facR eps cp f /\ r' = r * f | None, None => True | _, _ => False end.
Lemma mass_off m m' c : mrel m m' -> mrel (mass p m c) (mass p' m' c).
Proof.
  intros H. unfold mass. destruct (Ascii.eqb c "1"); [destruct (par_off "m_e") as (f & F & ->); cbn; eauto|]. destruct (Ascii.eqb c "2"); [destruct (par_off "m_mu") as (f & F & ->); cbn; eauto|].
  destruct (Ascii.eqb c "3"); [destruct (par_off "m_tau") as (f & F & ->); cbn; eauto|]. exact H.
Qed.
Lemma bound_off m m' : mrel m m' -> match bound m with Err x => bound m' = Err x | Ok r => exists f, facR eps cp f /\ bound m' = Ok (r * f) end.
Proof. destruct m, m'; cbn; try tauto. intros (f & F & ->). eauto. Qed.
Lemma RtoC_0 x : RtoC x = C0 <-> x = 0.
Proof. split; [intros E; injection E; auto|intros ->; exact eq_refl]. Qed.
Lemma fdiv_off a b n f m g : facR eps n f -> facR eps m g ->
  match fdiv a b with Err x => fdivA A (RtoC (a * f)) (RtoC (b * g)) = Err x | Ok q => exists h, facR eps (n + m + o) h /\ fdivA A (RtoC (a * f)) (RtoC (b * g)) = Ok (RtoC (q * h)) end.
Proof.
  intros F G. pose proof (facR_pos eps E1 _ _ G) as P. unfold fdiv, fdivA. destruct (Req_EM_T b 0) as [->|N].
  - destruct (Ceq_dec (RtoC (0 * g)) C0) as [_|N]; [exact eq_refl|]. exfalso. apply N, RtoC_0. ring.
  - assert (b * g <> 0) as Z by (intros Q; apply Rmult_integral in Q; lra). destruct (Ceq_dec (RtoC (b * g)) C0) as [Q|_]; [apply RtoC_0 in Q; contradiction|].
    destruct (op_divR eps E1 A o Rd (a * f) (b * g) Z) as (h & H & ->). exists (f * / g * h). split; [apply facR_mul; [|exact H]; apply facR_mul; [exact F|apply facR_inv; assumption]|]. do 2 f_equal. field. split; lra.
Qed.
Lemma mul_off r n f m v va : facR eps n f -> off m v va -> off (n + m + o) (Cmul (RtoC r) v) (f_mul A (RtoC (r * f)) va).
Proof.
  intros F (g & G & ->). destruct (op_mul eps E1 A o Rd (RtoC (r * f)) (Cmul v g)) as (h & H & ->). exists (Cmul (Cmul (RtoC f) g) h). split; [apply fac_mul; [|exact H]; apply fac_mul; [apply facR_C; assumption|exact G]|].
  rewrite RtoC_mul. ring.
Qed.
Definition total_errs (n : nat) : nat := (n + (9 * o + 2 * cp))%nat.
Lemma fk_one_off m m' n k v va : mrel m m' -> off n v va ->
  match fk_one p m k v with
  | Err x => fk_oneA A p' m' k va = Err x
  | Ok (m1, (t, w)) => exists m1' wa, fk_oneA A p' m' k va = Ok (m1', (t, wa)) /\ mrel m1 m1' /\ off (total_errs n) w wa
  end.
Proof.
  intros M V. unfold fk_one, fk_oneA. pose proof (off_up n (total_errs n) _ _ ltac:(unfold total_errs; lia) V) as V'.
  destruct (dget fk_jms k) as [t|]; [eexists _, _; split; [reflexivity|]; split; assumption|]. destruct (dget fk_jms_conj k) as [t|]; [eexists _, _; split; [reflexivity|]; split; [assumption|apply off_conj; assumption]|].
  destruct (String.eqb k "AVLL_2231"); [eexists _, _; split; [reflexivity|]; split; assumption|]. destruct (String.eqb k "AVRR_2231"); [eexists _, _; split; [reflexivity|]; split; assumption|]. destruct (String.eqb (substring 0 4 k) "K2R_"); [|exact eq_refl].
  set (ind := rev_str (substring 4 (String.length k - 4) k)). pose proof charge_off as Q. revert Q; destruct (charge_e p) as [e|x]; intros Q; [|rewrite Q; exact eq_refl]. destruct Q as (f & F & ->). cbn [bind].
  destruct (at_ ind 1) as [c|x]; cbn [bind]; [|exact eq_refl]. pose proof (mass_off m m' c M) as M'. pose proof (bound_off _ _ M') as B. revert B; destruct (bound (mass p m c)) as [r|x]; intros B; [|rewrite B; exact eq_refl]. destruct B as (g & G & ->). cbn [bind].
  eexists _, _. split; [exact eq_refl|]. split; [exact M'|].
  destruct (op_q eps E1 A o Rd 1 2) as (f1 & F1 & ->). destruct (op_mulR eps E1 A o Rd (1 / 2 * f1) (e * f)) as (f2 & F2 & ->). destruct (op_mulR eps E1 A o Rd (1 / 2 * f1 * (e * f) * f2) (r * g)) as (f3 & F3 & ->).
  replace (1 / 2 * f1 * (e * f) * f2 * (r * g) * f3) with (1 / 2 * e * r * (f1 * (f * (f2 * (g * f3))))) by ring.
  eapply off_up; [|apply (mul_off (1 / 2 * e * r) (o + ((5 * o + cp) + (o + (cp + o)))) _ n); [repeat (apply facR_mul; [assumption|]); assumption|exact V]]. unfold total_errs. lia.
Qed.
Definition d_off (n : nat) : dict string C -> dict string C -> Prop := Forall2 (fun a b => fst a = fst b /\ off n (snd a) (snd b)).
Lemma d_off_dset n d d' k v v' : d_off n d d' -> off n v v' -> d_off n (dset d k v) (dset d' k v').
Proof.
  intros H V. induction H as [|[a x] [b y] d d' [E O] H IH]; cbn; [constructor; [auto|constructor]|]. cbn in E, O. subst b. destruct (keqb k a); constructor; auto.
Qed.
Lemma d_off_keys n d d' : d_off n d d' -> dkeys d' = dkeys d.
Proof. induction 1 as [|[a x] [b y] d d' [E O] H IH]; cbn; [exact eq_refl|]. cbn in E. subst b. unfold dkeys in *. cbn. f_equal. exact IH. Qed.
Lemma d_off_get n d d' k : d_off n d d' -> match dget d k with Some z => exists za, dget d' k = Some za /\ off n z za | None => dget d' k = None end.
Proof. induction 1 as [|[a x] [b y] d d' [E O] H IH]; cbn; [exact eq_refl|]. cbn in E, O. subst b. destruct (keqb k a); [eauto|exact IH]. Qed.
Lemma d_off_refl d : d_off 0 d d.
Proof. induction d; constructor; auto. split; [exact eq_refl|]. exists C1. split; [constructor|ring]. Qed.
Definition r_off (n : nat) (r r' : res (dict string C)) : Prop := match r with Err x => r' = Err x | Ok d => exists d', r' = Ok d' /\ d_off n d d' end.
Lemma fk_run_off n l la : d_off n l la -> forall m m' d d', mrel m m' -> d_off (total_errs n) d d' -> r_off (total_errs n) (fk_run p m d l) (fk_runA A p' m' d' la).
Proof.
  induction 1 as [|[k v] [k' va] l la [E V] H IH]; intros m m' d d' M D; cbn [fk_run fk_runA]; [cbn; eauto|]. cbn in E, V. subst k'.
  pose proof (fk_one_off m m' n k v va M V) as Q. revert Q; destruct (fk_one p m k v) as [[m1 [t w]]|x]; intros Q; [|rewrite Q; exact eq_refl]. destruct Q as (m1' & wa & -> & M1 & W). cbn [bind fst snd].
  apply IH; [exact M1|]. apply d_off_dset; assumption.
Qed.
Lemma jms_one_off m m' n k v va : mrel m m' -> off n v va ->
  match jms_one p m k v with
  | Err x => jms_oneA A p' m' k va = Err x
  | Ok (m1, None) => exists m1', jms_oneA A p' m' k va = Ok (m1', None) /\ mrel m1 m1'
  | Ok (m1, Some (t, w)) => exists m1' wa, jms_oneA A p' m' k va = Ok (m1', Some (t, wa)) /\ mrel m1 m1' /\ off (total_errs n) w wa
  end.
Proof.
  intros M V. unfold jms_one, jms_oneA. pose proof (off_up n (total_errs n) _ _ ltac:(unfold total_errs; lia) V) as V'.
  destruct (dget (revert fk_jms) k) as [t|]; [eexists _, _; split; [reflexivity|]; split; assumption|]. destruct (dget (revert fk_jms_conj) k) as [t|]; [eexists _, _; split; [reflexivity|]; split; [assumption|apply off_conj; assumption]|].
  destruct (String.eqb k "VeeLL_1223"); [eexists _, _; split; [reflexivity|]; split; assumption|]. destruct (String.eqb k "VeeRR_1223"); [eexists _, _; split; [reflexivity|]; split; assumption|]. destruct (String.eqb (hd "" (split_us k)) "egamma"); [|eexists; split; [reflexivity|exact M]].
  destruct (match split_us k with _ :: q :: _ => Ok q | _ => Err IndexError end) as [q|x]; cbn [bind]; [|exact eq_refl].
  destruct (at_ (rev_str q) 0) as [a|x]; cbn [bind]; [|exact eq_refl]. destruct (at_ (rev_str q) 1) as [b|x]; cbn [bind]; [|exact eq_refl]. destruct (Ascii.eqb a b); [eexists; split; [reflexivity|exact M]|].
  pose proof charge_off as Q. revert Q; destruct (charge_e p) as [e|x]; intros Q; [|rewrite Q; exact eq_refl]. destruct Q as (f & F & ->). cbn [bind].
  pose proof (mass_off m m' a M) as M'. pose proof (bound_off _ _ M') as B. revert B; destruct (bound (mass p m a)) as [r|x]; intros B; [|rewrite B; exact eq_refl]. destruct B as (g & G & ->). cbn [bind].
  destruct (op_q eps E1 A o Rd 2 1) as (f1 & F1 & ->). replace (2 / 1 * f1) with (2 * f1) by field.
  pose proof (fdiv_off 2 e _ _ _ _ F1 F) as D. revert D; destruct (fdiv 2 e) as [x|x]; intros D; [|rewrite D; exact eq_refl]. destruct D as (h & H & ->). cbn [bind].
  pose proof (fdiv_off x r _ _ _ _ H G) as D. revert D; destruct (fdiv x r) as [y|y]; intros D; [|rewrite D; exact eq_refl]. destruct D as (h' & H' & ->). cbn [bind].
  eexists _, _. split; [exact eq_refl|]. split; [exact M'|]. eapply off_up; [|exact (mul_off y _ _ n _ _ H' V)]. unfold total_errs. lia.
Qed.
Lemma jms_run_off n l la : d_off n l la -> forall m m' d d', mrel m m' -> d_off (total_errs n) d d' -> r_off (total_errs n) (jms_run p m d l) (jms_runA A p' m' d' la).
Proof.
  induction 1 as [|[k v] [k' va] l la [E V] H IH]; intros m m' d d' M D; cbn [jms_run jms_runA]; [cbn; eauto|]. cbn in E, V. subst k'.
  pose proof (jms_one_off m m' n k v va M V) as Q. revert Q; destruct (jms_one p m k v) as [[m1 [[t w]|]]|x]; intros Q; [| |rewrite Q; exact eq_refl].
  - destruct Q as (m1' & wa & -> & M1 & W). cbn [bind fst snd]. apply IH; [exact M1|]. apply d_off_dset; assumption.
  - destruct Q as (m1' & -> & M1). cbn [bind fst snd]. apply IH; assumption.
Qed.
End Err.
