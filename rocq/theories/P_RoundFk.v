(** C76 and C77 for FlavorKit: rounding errors of the translators between FlavorKit and JMS and onwards to flavio, and how they react to changes of
    the parameters and the coefficients. *)
From Coq Require Import String Ascii List Bool Arith ZArith Reals Lra Lia.
From Verif Require Import PyBase PyDict Cplx Tensor Wc Params Smeft WetExpr Wet WetNf WetList WetParams FkTab FlavorKit Round RoundErr RoundWet RoundArith P_Wet P_WetMore P_Round P_Sens RoundFk.
Import ListNotations.
Open Scope string_scope.
Open Scope list_scope.
Open Scope R_scope.
#[local] Opaque Ceq_dec fk_jms fk_jms_conj revert.

(** The same failure; or the same names, and every number is right up to the fraction [growth eps n] of itself. *)
Definition right_up_to (n : nat) (eps : R) (r ra : res (dict string C)) : Prop :=
  match r with
  | Err e => ra = Err e
  | Ok d => exists da, ra = Ok da /\ dkeys da = dkeys d /\
      forall k z, dget d k = Some z -> exists za, dget da k = Some za /\ Cabs (Csub za z) <= growth eps n * Cabs z
  end.
(** Coefficients with the same names in the same order, each changed by at most the fraction [eps]. *)
Definition moved_nums (eps : R) : dict string C -> dict string C -> Prop := Forall2 (fun a b => fst a = fst b /\ Cabs (Csub (snd b) (snd a)) <= eps * Cabs (snd a)).
Lemma r_off_right eps n r ra : 0 <= eps < 1 -> r_off eps n r ra -> right_up_to n eps r ra.
Proof.
  intros E H. destruct r as [d|x]; [|exact H]. destruct H as (da & -> & D). exists da. split; [reflexivity|]. split; [apply (d_off_keys _ _ _ _ D)|].
  intros k z G. pose proof (d_off_get _ _ _ _ k D) as Q. rewrite G in Q. destruct Q as (za & Gz & O). exists za. split; [exact Gz|]. apply (off_near eps E), O.
Qed.
Lemma moved_off eps c c' : 0 <= eps < 1 -> moved_nums eps c c' -> d_off eps 1 c c'.
Proof.
  intros E. induction 1 as [|a b c c' [K N] H IH]; constructor; [|exact IH]. split; [exact K|]. destruct (near_factor eps E _ _ N) as (f & F & ->). exists f. split; [apply fac_1, F|reflexivity].
Qed.

Section Fk.
Variables qcd_mb qcd_ms : R -> R -> R -> res R.
Variable qcd_as : R -> R -> res R.
Variables (scale : R) (input : option params).
Notation to_JMS c := (FlavorKit_to_JMS qcd_mb qcd_ms qcd_as c scale input).
Notation to_FK c := (JMS_to_FlavorKit qcd_mb qcd_ms qcd_as c scale input).
(** The translators with the arithmetic [A]. *)
Definition to_JMSA (A : arith) (c : dict string C) : res (dict string C) := let! p := get_parameters qcd_mb qcd_ms qcd_as scale input in fk_runA A p None [] c.
Definition to_FKA (A : arith) (c : dict string C) : res (dict string C) := let! p := get_parameters qcd_mb qcd_ms qcd_as scale input in jms_runA A p None [] c.

Lemma fk_d_off A eps c ca n : rounding A eps -> d_off eps n c ca -> r_off eps (n + 9) (to_JMS c) (to_JMSA A ca) /\ r_off eps (n + 9) (to_FK c) (to_FKA A ca).
Proof.
  intros Rd D. unfold FlavorKit_to_JMS, JMS_to_FlavorKit, to_JMSA, to_FKA. destruct (get_parameters qcd_mb qcd_ms qcd_as scale input) as [p|x]; [|split; reflexivity]. cbn [bind].
  pose proof (r_eps A eps Rd) as E. assert (errs eps A 1) as Er by (left; auto). pose proof (par_refl eps p) as Cp. replace (n + 9)%nat with (total_errs 1 0 n) by (unfold total_errs; lia).
  split; [apply (fk_run_off eps A 1 0 E Er p p Cp n c ca D)|apply (jms_run_off eps A 1 0 E Er p p Cp n c ca D)]; try exact I; constructor.
Qed.
(** No conditions on coefficients or parameters; each number is right on its own, however small. *)
Theorem C76_FlavorKit : forall A eps c, rounding A eps -> right_up_to 9 eps (to_JMS c) (to_JMSA A c) /\ right_up_to 9 eps (to_FK c) (to_FKA A c).
Proof.
  intros A eps c Rd. destruct (fk_d_off A eps c c 0 Rd (d_off_refl eps c)) as [H1 H2]. pose proof (r_eps A eps Rd) as E. split; apply (r_off_right eps 9 _ _ E); assumption.
Qed.
(** Only the lepton dipoles are calculated; everything else is copied without error, in any arithmetic. *)
Theorem C76_FlavorKit_copied : forall A c,
  ((forall k, In k (dkeys c) -> substring 0 4 k <> "K2R_") -> to_JMSA A c = to_JMS c) /\
  ((forall k, In k (dkeys c) -> hd "" (split_us k) <> "egamma") -> to_FKA A c = to_FK c).
Proof.
  intros A c. unfold FlavorKit_to_JMS, JMS_to_FlavorKit, to_JMSA, to_FKA. destruct (get_parameters qcd_mb qcd_ms qcd_as scale input) as [p|x]; [|split; reflexivity]. cbn [bind]. split; intros N.
  - assert (forall m acc, fk_runA A p m acc c = fk_run p m acc c) as H; [|apply H]. induction c as [|[k v] c IH]; intros m acc; [reflexivity|]. cbn [fk_runA fk_run].
    assert (fk_oneA A p m k v = fk_one p m k v) as ->.
    { unfold fk_oneA, fk_one. assert (String.eqb (substring 0 4 k) "K2R_" = false) as -> by (apply String.eqb_neq, N; left; reflexivity). reflexivity. }
    destruct (fk_one p m k v); cbn [bind]; [|reflexivity]. apply IH. intros k' I. apply N. right. exact I.
  - assert (forall m acc, jms_runA A p m acc c = jms_run p m acc c) as H; [|apply H]. induction c as [|[k v] c IH]; intros m acc; [reflexivity|]. cbn [jms_runA jms_run].
    assert (jms_oneA A p m k v = jms_one p m k v) as ->.
    { unfold jms_oneA, jms_one. assert (String.eqb (hd "" (split_us k)) "egamma" = false) as -> by (apply String.eqb_neq, N; left; reflexivity). reflexivity. }
    destruct (jms_one p m k v); cbn [bind]; [|reflexivity]. apply IH. intros k' I. apply N. right. exact I.
Qed.
(** The round trip of C39 up to rounding. *)
Theorem C76_FlavorKit_restored : forall p A eps c, get_parameters qcd_mb qcd_ms qcd_as scale input = Ok p -> usable_fk p -> rounding A eps -> wf c -> incl (dkeys c) fk_names ->
  exists d, to_JMSA A c = Ok d /\ right_up_to 18 eps (Ok c) (to_FKA A d).
Proof.
  intros p A eps c P U Rd W K. destruct (C39_round_trip qcd_mb qcd_ms qcd_as scale input p P U c W K) as (d & E1 & _ & _ & E2).
  destruct (fk_d_off A eps c c 0 Rd (d_off_refl eps c)) as [H _]. rewrite E1 in H. destruct H as (da & Ea & D). exists da. split; [exact Ea|].
  destruct (fk_d_off A eps d da 9 Rd D) as [_ H]. rewrite E2 in H. exact (r_off_right eps 18 _ _ (r_eps A eps Rd) H).
Qed.

(** From FlavorKit by JMS to flavio. *)
Variable ckm_tree : R -> R -> R -> R -> mat.
Variable J : list string.
Lemma fits_FkJF : fits 1 0 0 9 0 39 JMS_to_flavio_prog.
Proof. apply fits_none; vm_compute; reflexivity. Qed.
Lemma off_fill eps n keys d da : 0 <= eps < 1 -> d_off eps n d da -> le_dict (near_by eps n) (fill keys (nums d)) (fill keys (nums da)).
Proof.
  intros E D. apply le_fill. intros k _. unfold nums. rewrite !dget_dmap. pose proof (d_off_get _ _ _ _ k D) as Q. destruct (dget d k) as [z|].
  - destruct Q as (za & -> & f & F & ->). cbn. apply (close_fac eps E); [exact F|reflexivity].
  - rewrite Q. exact (nb_refl eps n E (Some C0)).
Qed.
Theorem C76_FlavorKit_flavio : forall A eps c d, rounding A eps -> to_JMS c = Ok d ->
  exists da, to_JMSA A c = Ok da /\
    results_within 39 eps (to_flavio ckm_tree qcd_mb qcd_ms qcd_as J scale input (nums d)) (to_flavioA ckm_tree qcd_mb qcd_ms qcd_as J scale input A (nums da))
      (to_flavioA ckm_tree qcd_mb qcd_ms qcd_as J scale input sizeA (nums d)).
Proof.
  intros A eps c d Rd E. destruct (fk_d_off A eps c c 0 Rd (d_off_refl eps c)) as [H _]. rewrite E in H. destruct H as (da & Ea & D). exists da. split; [exact Ea|]. apply agrees_results.
  pose proof (r_eps A eps Rd) as E1. unfold FlavorKit_to_JMS in E. destruct (get_parameters qcd_mb qcd_ms qcd_as scale input) as [p|x] eqn:P; [|discriminate].
  exact (JMS_close2 ckm_tree qcd_mb qcd_ms qcd_as eps A 1 0 0 9 E1 (or_introl (conj eq_refl Rd)) ckm_tree qcd_mb qcd_ms qcd_as 39 _ J (nums d) (nums da) scale input scale input p p P P (par_refl eps p) (ckm_refl eps _) (off_fill eps 9 J d da E1 D) fits_FkJF).
Qed.
End Fk.

(** Other parameters and coefficients, in exact and in rounding arithmetic: each number changes by at most about three times the largest change of a parameter or coefficient. *)
Theorem C77_FlavorKit : forall qcd_mb qcd_ms qcd_as scale input qcd_mb' qcd_ms' qcd_as' scale' input' p p' eps c c', 0 <= eps < 1 ->
  get_parameters qcd_mb qcd_ms qcd_as scale input = Ok p -> get_parameters qcd_mb' qcd_ms' qcd_as' scale' input' = Ok p' -> moved eps p p' -> moved_nums eps c c' ->
  right_up_to 3 eps (FlavorKit_to_JMS qcd_mb qcd_ms qcd_as c scale input) (FlavorKit_to_JMS qcd_mb' qcd_ms' qcd_as' c' scale' input') /\
  right_up_to 3 eps (JMS_to_FlavorKit qcd_mb qcd_ms qcd_as c scale input) (JMS_to_FlavorKit qcd_mb' qcd_ms' qcd_as' c' scale' input') /\
  forall A, rounding A eps ->
    right_up_to 12 eps (FlavorKit_to_JMS qcd_mb qcd_ms qcd_as c scale input) (to_JMSA qcd_mb' qcd_ms' qcd_as' scale' input' A c') /\
    right_up_to 12 eps (JMS_to_FlavorKit qcd_mb qcd_ms qcd_as c scale input) (to_FKA qcd_mb' qcd_ms' qcd_as' scale' input' A c').
Proof.
  intros f g h scale input f' g' h' scale' input' p p' eps c c' E P P' Mp Mc. unfold FlavorKit_to_JMS, JMS_to_FlavorKit, to_JMSA, to_FKA. rewrite P, P'. cbn [bind].
  pose proof (par_moved eps p p' E Mp) as Cp. pose proof (moved_off eps c c' E Mc) as D.
  assert (forall A o, errs eps A o -> r_off eps (3 + 9 * o) (fk_run p None [] c) (fk_runA A p' None [] c') /\ r_off eps (3 + 9 * o) (jms_run p None [] c) (jms_runA A p' None [] c')) as H.
  { intros A o Er. replace (3 + 9 * o)%nat with (total_errs o 1 1) by (unfold total_errs; lia).
    split; [apply (fk_run_off eps A o 1 E Er p p' Cp 1 c c' D)|apply (jms_run_off eps A o 1 E Er p p' Cp 1 c c' D)]; try exact I; constructor. }
  assert (forall l m acc, fk_runA exactA p' m acc l = fk_run p' m acc l) as X1.
  { assert (charge_eA exactA p' = rmap RtoC (charge_e p')) as Ch.
    { unfold charge_eA, charge_e. cbn [f_q f_mul f_pi f_rt exactA]. assert (Re (Cmul (Cmul (qc 4 1) (RtoC PI)) (RtoC (param p' "alpha_e"))) = 4 * PI * param p' "alpha_e") as -> by (unfold Re, Cmul, qc, RtoC; cbn; field). destruct (Rlt_dec (4 * PI * param p' "alpha_e") 0); reflexivity. }
    induction l as [|[k v] l IH]; intros m acc; [reflexivity|]. cbn [fk_runA fk_run]. assert (fk_oneA exactA p' m k v = fk_one p' m k v) as ->; [|destruct (fk_one p' m k v); cbn [bind]; [apply IH|reflexivity]].
    unfold fk_oneA, fk_one. rewrite Ch. destruct (dget fk_jms k); [reflexivity|]. destruct (dget fk_jms_conj k); [reflexivity|]. destruct (String.eqb k "AVLL_2231"); [reflexivity|]. destruct (String.eqb k "AVRR_2231"); [reflexivity|]. destruct (String.eqb (substring 0 4 k) "K2R_"); [|reflexivity].
    destruct (charge_e p') as [e|]; cbn [rmap bind]; [|reflexivity]. destruct (at_ _ 1) as [a|]; cbn [bind]; [|reflexivity]. destruct (bound (mass p' m a)) as [r|]; cbn [bind]; [|reflexivity]. do 4 f_equal.
    cbn [f_q f_mul exactA]. f_equal. unfold Cmul, qc, RtoC, Re, Im. cbn. f_equal; field. }
  assert (forall l m acc, jms_runA exactA p' m acc l = jms_run p' m acc l) as X2.
  { assert (charge_eA exactA p' = rmap RtoC (charge_e p')) as Ch.
    { unfold charge_eA, charge_e. cbn [f_q f_mul f_pi f_rt exactA]. assert (Re (Cmul (Cmul (qc 4 1) (RtoC PI)) (RtoC (param p' "alpha_e"))) = 4 * PI * param p' "alpha_e") as -> by (unfold Re, Cmul, qc, RtoC; cbn; field). destruct (Rlt_dec (4 * PI * param p' "alpha_e") 0); reflexivity. }
    assert (forall a b, fdivA exactA (RtoC a) (RtoC b) = rmap RtoC (fdiv a b)) as Dv.
    { intros a b. unfold fdivA, fdiv. destruct (Req_EM_T b 0) as [->|N]; destruct (Ceq_dec (RtoC _) C0) as [Q|Q]; [reflexivity|exfalso; apply Q; reflexivity|apply RtoC_0 in Q; contradiction|]. cbn [f_div exactA rmap]. rewrite (div_R a b N). reflexivity. }
    induction l as [|[k v] l IH]; intros m acc; [reflexivity|]. cbn [jms_runA jms_run]. assert (jms_oneA exactA p' m k v = jms_one p' m k v) as ->; [|destruct (jms_one p' m k v); cbn [bind]; [apply IH|reflexivity]].
    unfold jms_oneA, jms_one. rewrite Ch. destruct (dget (revert fk_jms) k); [reflexivity|]. destruct (dget (revert fk_jms_conj) k); [reflexivity|]. destruct (String.eqb k "VeeLL_1223"); [reflexivity|]. destruct (String.eqb k "VeeRR_1223"); [reflexivity|]. destruct (String.eqb (hd "" (split_us k)) "egamma"); [|reflexivity].
    destruct (match split_us k with _ :: q :: _ => Ok q | _ => Err IndexError end) as [q|]; cbn [bind]; [|reflexivity]. destruct (at_ _ 0) as [a|]; cbn [bind]; [|reflexivity]. destruct (at_ _ 1) as [b|]; cbn [bind]; [|reflexivity]. destruct (Ascii.eqb a b); [reflexivity|].
    destruct (charge_e p') as [e|]; cbn [rmap bind]; [|reflexivity]. destruct (bound (mass p' m a)) as [r|]; cbn [bind]; [|reflexivity].
    assert (f_q exactA 2 1 = RtoC 2) as -> by (cbn; unfold qc; f_equal; field). rewrite Dv. destruct (fdiv 2 e) as [x|]; cbn [rmap bind]; [|reflexivity]. rewrite Dv. destruct (fdiv x r) as [y|]; reflexivity. }
  assert (errs eps exactA 0) as Er0 by (right; split; [reflexivity|exact rounding_exact]). destruct (H exactA 0%nat Er0) as [H1 H2]. rewrite X1 in H1. rewrite X2 in H2.
  split; [exact (r_off_right eps 3 _ _ E H1)|]. split; [exact (r_off_right eps 3 _ _ E H2)|]. intros A Rd. destruct (H A 1%nat (or_introl (conj eq_refl Rd))) as [H3 H4].
  split; [exact (r_off_right eps 12 _ _ E H3)|exact (r_off_right eps 12 _ _ E H4)].
Qed.
Example C76_FlavorKit_case : let c := [("K2R_12", Ci); ("AVLL_2231", C1)] in
  get_parameters mb4 ms1 as1 5 None = Ok p1 /\ usable_fk p1 /\ rounding (floatA up) (11 * / 2 ^ 53) /\ wf c /\ incl (dkeys c) fk_names /\
  exists z za, FlavorKit_to_JMS mb4 ms1 as1 c 5 None = Ok [("egamma_21", z); ("VeeLL_1223", C1)] /\ to_JMSA mb4 ms1 as1 5 None (floatA up) c = Ok [("egamma_21", za); ("VeeLL_1223", C1)] /\ z <> C0.
Proof.
  intros c. destruct C39_case as (P & U & K & _). destruct C76_case as (Rd & _). split; [exact P|]. split; [exact U|]. split; [exact Rd|]. assert (wf c) as W by (unfold wf, dkeys; cbn; repeat constructor; cbn; intuition discriminate).
  assert (incl (dkeys c) fk_names) as I by (intros k [<-|[<-|[]]]; apply K; cbn; auto). split; [exact W|]. split; [exact I|].
  destruct (C39_round_trip mb4 ms1 as1 5 None p1 P U c W I) as (d & E & _ & L & _). pose proof (C39_values mb4 ms1 as1 5 None p1 P U c d W I E) as V.
  destruct d as [|[t z] [|[t' z'] [|? ?]]]; try discriminate L. inversion V as [|? ? ? ? V1 V2]; subst. inversion V2 as [|? ? ? ? V3 _]; subst. clear V V2. cbn [fst snd] in V1, V3.
  assert (forall k, In k ["K2R_12"; "AVLL_2231"] -> dget fk_jms k = None /\ dget fk_jms_conj k = None) as T by (intros k [<-|[<-|[]]]; split; vm_compute; reflexivity).
  assert (t = "egamma_21" /\ z = Cmul (RtoC (1 / 2 * sqrt (4 * PI * param p1 "alpha_e") * lepton_mass p1 F1)) Ci) as [-> Ez].
  { destruct (T "K2R_12" (or_introl eq_refl)) as [T1 T2]. destruct V1 as [(x & H & _)|[(x & H & _)|[[H _]|[[H _]|(i & j & H & Q)]]]]; try congruence. destruct i, j; try discriminate H. injection Q as -> ->. split; reflexivity. }
  assert (t' = "VeeLL_1223" /\ z' = C1) as [-> ->].
  { destruct (T "AVLL_2231" (or_intror (or_introl eq_refl))) as [T1 T2]. destruct V3 as [(x & H & _)|[(x & H & _)|[[_ Q]|[[H _]|(i & j & H & Q)]]]]; try congruence; [injection Q as -> ->; split; reflexivity|destruct i, j; discriminate H]. }
  destruct (fk_d_off mb4 ms1 as1 5 None _ _ c c 0 Rd (d_off_refl _ c)) as [H _]. rewrite E in H. destruct H as (da & Ea & D). inversion D as [|? [k1 za] ? ? [K1 O1] D2]; subst. inversion D2 as [|? [k2 zb] ? ? [K2 O2] D3]; subst. inversion D3; subst. cbn [fst snd] in *. subst k1 k2.
  assert (zb = C1) as ->.
  { pose proof Ea as Ea'. unfold to_JMSA in Ea'. rewrite P in Ea'. cbn [bind c fk_runA] in Ea'. destruct (fk_oneA (floatA up) p1 None "K2R_12" Ci) as [[m [a b]]|]; cbn [bind fst snd] in Ea'; [|discriminate].
    assert (fk_oneA (floatA up) p1 m "AVLL_2231" C1 = Ok (m, ("VeeLL_1223", C1))) as Q by (unfold fk_oneA; destruct (T "AVLL_2231" (or_intror (or_introl eq_refl))) as [-> ->]; reflexivity). rewrite Q in Ea'. cbn [bind fst snd dset] in Ea'.
    injection Ea' as Ea'. cbn in Ea'. destruct (keqb "VeeLL_1223" a); congruence. }
  exists (Cmul (RtoC (1 / 2 * sqrt (4 * PI * param p1 "alpha_e") * lepton_mass p1 F1)) Ci), za. split; [exact E|]. split; [exact Ea|].
  apply Cmul_neq; [|intros Q; injection Q; lra]. intros Q. apply RtoC_0 in Q. destruct U as (U1 & U2 & _). assert (0 < sqrt (4 * PI * param p1 "alpha_e")) as S by (apply sqrt_lt_R0; pose proof PI_RGT_0; apply Rmult_lt_0_compat; [lra|exact U1]).
  apply Rmult_integral in Q. destruct Q as [Q|Q]; [lra|]. apply U2. exact Q.
Qed.
Print Assumptions C76_FlavorKit.
Print Assumptions C76_FlavorKit_copied.
Print Assumptions C76_FlavorKit_restored.
Print Assumptions C76_FlavorKit_flavio.
Print Assumptions C76_FlavorKit_case.
Print Assumptions C77_FlavorKit.
