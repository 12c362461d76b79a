(** C39 (FlavorKit) and C40 (parameters of the WET translators). *)
From Coq Require Import String Ascii List Bool Arith ZArith Reals Lra Lia.
From Verif Require Import PyBase PyDict Cplx Tensor Wc Params Smeft Qcd Wet WetNf WetList WetParams FkTab FlavorKit.
Import ListNotations.
Open Scope string_scope.
Open Scope list_scope.
Open Scope nat_scope.
#[local] Opaque Ceq_dec fk_jms fk_jms_conj.

(** C39.  [fk_names]: the names in the two tables, AVLL_2231, AVRR_2231 and K2R_ij with i <> j.
    [usable_fk]: alpha_e > 0 and no lepton is massless. *)
Section C39.
Variable qcd_mb qcd_ms : R -> R -> R -> res R.
Variable qcd_as : R -> R -> res R.
Variables (scale : R) (input : option params) (p : params).
Hypothesis P : get_parameters qcd_mb qcd_ms qcd_as scale input = Ok p.
Hypothesis U : usable_fk p.
Let to_JMS c := FlavorKit_to_JMS qcd_mb qcd_ms qcd_as c scale input.
Let to_FK c := JMS_to_FlavorKit qcd_mb qcd_ms qcd_as c scale input.
Theorem C39_round_trip : forall c, wf c -> incl (dkeys c) fk_names ->
  exists d, to_JMS c = Ok d /\ wf d /\ length d = length c /\ to_FK d = Ok c.
Proof.
  intros c W K. unfold to_JMS, to_FK, FlavorKit_to_JMS, JMS_to_FlavorKit. rewrite P. cbn [bind].
  destruct (fk_round p U c W) as (d & E & Wd & B & T); [intros k I; apply fk_names_common; apply K; exact I|].
  exists d. do 2 (split; auto). split; auto. clear -T. induction T; simpl; auto.
Qed.
(** Which number goes where. *)
Theorem C39_values : forall c d, wf c -> incl (dkeys c) fk_names -> to_JMS c = Ok d ->
  Forall2 (fun kv tw =>
    (exists t, dget fk_jms (fst kv) = Some t /\ tw = (t, snd kv)) \/
    (exists t, dget fk_jms_conj (fst kv) = Some t /\ tw = (t, Cconj (snd kv))) \/
    (fst kv = "AVLL_2231" /\ tw = ("VeeLL_1223", snd kv)) \/ (fst kv = "AVRR_2231" /\ tw = ("VeeRR_1223", snd kv)) \/
    (exists i j, fst kv = cname "K2R" [i; j] /\
       tw = (cname "egamma" [j; i], Cmul (RtoC (1 / 2 * sqrt (4 * PI * param p "alpha_e") * lepton_mass p i)) (snd kv)))) c d.
Proof.
  intros c d W K. unfold to_JMS, FlavorKit_to_JMS. rewrite P. cbn [bind]. intros E.
  destruct (fk_round p U c W) as (d' & E' & _ & _ & T); [intros k I; apply fk_names_common; apply K; exact I|].
  rewrite E in E'. injection E' as <-. exact (fk_values p U c d T).
Qed.
Theorem C39_no_collision : forall k k' t v v' m m' n n' w w', In k fk_names -> In k' fk_names ->
  fk_one p m k v = Ok (n, (t, w)) -> fk_one p m' k' v' = Ok (n', (t, w')) -> k = k'.
Proof. exact (fk_collision p U). Qed.
Theorem C39_unknown : forall c k, In k (dkeys c) -> ~ In k fk_names -> (forall k', In k' (dkeys c) -> substring 0 4 k' = "K2R_" -> In k' fk_names) ->
  to_JMS c = Err ValueError.
Proof.
  intros c k I N K. unfold to_JMS, FlavorKit_to_JMS. rewrite P. cbn [bind]. exact (fk_unknown_names p U c k I N K).
Qed.
(** JMS coefficients without counterpart are dropped, the others restored. *)
Theorem C39_back : forall c, wf c -> (forall t, In t (dkeys c) -> hd "" (split_us t) = "egamma" -> exists i j, t = cname "egamma" [i; j]) ->
  exists d, to_FK c = Ok d /\ incl (dkeys d) fk_names /\ to_JMS d = Ok (filter (fun tv => has_fk (fst tv)) c).
Proof.
  intros c W N. unfold to_JMS, to_FK, FlavorKit_to_JMS, JMS_to_FlavorKit. rewrite P. cbn [bind].
  destruct (jms_round p U c W N) as (d & E & K & B). exists d. split; auto. split; auto.
  intros k I. destruct (K k I) as (t & _ & Q). apply fk_names_common. exists t. exact Q.
Qed.
(** A name K2R_.. that FlavorKit does not have is taken with whatever mass was used last. *)
Theorem C39_stale_mass_refuted : forall x y, to_JMS [("K2R_41", y)] = Err UnboundLocalError /\
  exists w, to_JMS [("K2R_12", x); ("K2R_41", y)] =
  Ok [("egamma_21", w); ("egamma_14", Cmul (RtoC (1 / 2 * sqrt (4 * PI * param p "alpha_e") * param p "m_e")) y)].
Proof. intros x y. unfold to_JMS, FlavorKit_to_JMS. rewrite P. cbn [bind]. exact (stale_mass p x y U). Qed.
(** Diagonal dipoles go to JMS but do not come back. *)
Theorem C39_diagonal_refuted : forall x, exists d, to_JMS [("K2R_11", x)] = Ok d /\ to_FK d = Ok [].
Proof.
  intros x. unfold to_JMS, to_FK, FlavorKit_to_JMS, JMS_to_FlavorKit. rewrite P. cbn [bind].
  destruct (diagonal p x U) as (w & A & B). eauto.
Qed.
End C39.
(** Generation indices: the bilinears are transposed where the number is copied, and kept where it is conjugated, in either order
    of the two bilinears. *)
Theorem C39_indices : (forall k t, dget fk_jms k = Some t -> In (idx t) (swapped (idx k))) /\
  (forall k t, dget fk_jms_conj k = Some t -> In (idx t) (kept (idx k))).
Proof. exact (conj idx_swapped idx_kept). Qed.
Example C39_case : get_parameters mb4 ms1 as1 5 None = Ok p1 /\ usable_fk p1 /\ incl ["AVLL_2231"; "K2R_12"; "DSRR_2323"; "BVLL_2111"] fk_names /\
  has_fk "egamma_21" = true /\ has_fk "egamma_22" = false /\ has_fk "VuuRR_1111" = false.
Proof.
  split; [apply p1_ok|]. split; [unfold usable_fk; change (0 < 10 / 1279 /\ 5109989461 / 10000000000000 <> 0 /\ 1056583745 / 10000000000 <> 0 /\ 177686 / 100000 <> 0)%R; lra|]. split; [intros k I; destruct fk_has as (A & B & C & D); destruct I as [<-|[<-|[<-|[<-|[]]]]]; assumption|].
  exact has_fk_case.
Qed.

(** C40.  [run h]: the dictionaries in memory after the history [h] of calls of get_parameters and util/qcd.py, creations of
    dictionaries, and writes to dictionaries other than the shared defaults. *)
Section C40.
Variable AlphasExact : fval -> fval -> fval -> fval -> fval.
Variable AlL2AlH AlH2AlL : fval -> fval -> thr -> fval -> fval.
Variable mMS2mMS : fval -> fval -> fval -> fval -> fval.
Variable mH2mL mL2mH : fval -> fval -> fval -> thr -> fval -> fval.
Let get := get_parameters_st AlphasExact AlL2AlH AlH2AlL mMS2mMS mH2mL mL2mH.
Let run := run AlphasExact AlL2AlH AlH2AlL mMS2mMS mH2mL mL2mH.
Let eval := eval AlphasExact AlL2AlH AlH2AlL mMS2mMS mH2mL mL2mH.
Let q_mb := q_mb AlphasExact AlL2AlH AlH2AlL mMS2mMS mH2mL mL2mH.
Let q_ms := q_ms AlphasExact AlL2AlH AlH2AlL mMS2mMS mH2mL mL2mH.
Let q_as := q_as AlphasExact AlL2AlH AlH2AlL mMS2mMS mH2mL mL2mH.
(** No dictionary that existed before a call is changed by it, whether it succeeds or not. *)
Theorem C40_nothing_changed : forall s scale f input l, l < length (cells s) -> cell (snd (get s scale f input)) l = cell s l.
Proof. exact (st_unchanged AlphasExact AlL2AlH AlH2AlL mMS2mMS mH2mL mL2mH). Qed.
Theorem C40_defaults_kept : forall h, Forall fair h -> cell (run h) DEFAULT = defaults.
Proof. intros h F. apply (run_inv AlphasExact AlL2AlH AlH2AlL mMS2mMS mH2mL mL2mH h F). Qed.
(** The fourteen names, in this order; those that do not run are the user's or else the default; the three that do are computed
    from the user's or else the default.  The returned dictionary is new. *)
Theorem C40_result : forall h scale f input l s', Forall fair h -> valid (run h) input -> is_real scale = true -> is_int f = true ->
  (forall u, input = Some u -> wf (cell (run h) u)) ->
  let u := option_map (cell (run h)) input in
  (forall v, chosen u "m_b" = Some v -> is_real v = true) ->
  get (run h) scale f input = (Ok l, s') ->
  length (cells (run h)) <= l /\ dkeys (cell s' l) = names14 /\
  (forall k, In k copied -> option_map val (dget (cell s' l) k) = option_map val (chosen u k)) /\
  exists m a s mb ms als, chosen u "m_b" = Some m /\ chosen u "alpha_s" = Some a /\ chosen u "m_s" = Some s /\
    eval (CMb m scale f (AsPos a)) = Ok mb /\ eval (CMs s scale f (AsPos a)) = Ok ms /\ eval (CAlpha scale f (AsPos a)) = Ok als /\
    option_map val (dget (cell s' l) "m_b") = Some (val mb) /\ option_map val (dget (cell s' l) "m_s") = Some (val ms) /\
    option_map val (dget (cell s' l) "alpha_s") = Some (val als).
Proof.
  intros h scale f input l s' F V R I W u M. exact (result_st AlphasExact AlL2AlH AlH2AlL mMS2mMS mH2mL mL2mH h scale f input F V R I W M l s').
Qed.
(** It fails only with ValueError, and not for a positive scale, three to five flavours and a positive m_b. *)
Theorem C40_errors : forall h scale f input, Forall fair h -> valid (run h) input -> is_real scale = true -> is_int f = true ->
  (forall u, input = Some u -> wf (cell (run h) u)) ->
  (forall v, chosen (option_map (cell (run h)) input) "m_b" = Some v -> is_real v = true) ->
  (exists l, fst (get (run h) scale f input) = Ok l) \/ fst (get (run h) scale f input) = Err ValueError.
Proof. exact (errors_st AlphasExact AlL2AlH AlH2AlL mMS2mMS mH2mL mL2mH). Qed.
Theorem C40_total : forall h scale f input, Forall fair h -> valid (run h) input -> scale_ok scale = true -> is_int f = true -> In (val f) [Fin 3; Fin 4; Fin 5] ->
  (forall u, input = Some u -> wf (cell (run h) u)) ->
  (forall v, chosen (option_map (cell (run h)) input) "m_b" = Some v -> scale_ok v = true) ->
  exists l, fst (get (run h) scale f input) = Ok l.
Proof. exact (total_st AlphasExact AlL2AlH AlH2AlL mMS2mMS mH2mL mL2mH). Qed.
(** Other names in the user's dictionary have no effect. *)
Theorem C40_unknown_ignored : forall h h' scale f input input' l s l' s', Forall fair h -> Forall fair h' -> valid (run h) input -> valid (run h') input' ->
  is_real scale = true -> is_int f = true ->
  (forall u, input = Some u -> wf (cell (run h) u)) -> (forall u, input' = Some u -> wf (cell (run h') u)) ->
  (forall k, In k names14 -> chosen (option_map (cell (run h)) input) k = chosen (option_map (cell (run h')) input') k) ->
  (forall v, chosen (option_map (cell (run h)) input) "m_b" = Some v -> is_real v = true) ->
  get (run h) scale f input = (Ok l, s) -> get (run h') scale f input' = (Ok l', s') -> same_dict (cell s l) (cell s' l').
Proof. exact (ignored_st AlphasExact AlL2AlH AlH2AlL mMS2mMS mH2mL mL2mH). Qed.
(** The same for the parameters as the translators of C29-C39 see them. *)
Theorem C40_translators : forall scale input p, get_parameters q_mb q_ms q_as scale input = Ok p ->
  forall h u, Forall fair h -> input = option_map (fun _ => u) input -> exists l, fst (get (run (h ++ [New (lift u)])) (flt scale) (int 5) (option_map (fun _ => length (cells (run h))) input)) = Ok l /\
  same_dict (cell (snd (get (run (h ++ [New (lift u)])) (flt scale) (int 5) (option_map (fun _ => length (cells (run h))) input))) l) (lift p).
Proof. exact (translators_st AlphasExact AlL2AlH AlH2AlL mMS2mMS mH2mL mL2mH). Qed.
Theorem C40_bad_scale : forall scale input, (scale <= 0)%R -> scale <> param (merge_params input) "m_b" ->
  get_parameters q_mb q_ms q_as scale input = Err ValueError.
Proof. exact (wet_bad_scale AlphasExact AlL2AlH AlH2AlL mMS2mMS mH2mL mL2mH). Qed.
End C40.
Example C40_case :
  Forall fair [New [("m_b", flt 5); ("x", flt 1)]; Get (flt 10) (int 5) (Some 1); Write 1 [("m_b", flt 4)]; Write 3 []; Get (flt 10) (int 5) (Some 0)] /\
  chosen (Some [("m_b", flt 5); ("x", flt 1)]) "m_b" = Some (flt 5) /\ chosen (Some [("m_b", flt 5); ("x", flt 1)]) "gamma" = Some (flt (127 / 100)).
Proof. split; [repeat constructor; discriminate|]. split; reflexivity. Qed.
Print Assumptions C39_round_trip.
Print Assumptions C39_values.
Print Assumptions C39_no_collision.
Print Assumptions C39_unknown.
Print Assumptions C39_back.
Print Assumptions C39_stale_mass_refuted.
Print Assumptions C39_diagonal_refuted.
Print Assumptions C39_indices.
Print Assumptions C40_nothing_changed.
Print Assumptions C40_defaults_kept.
Print Assumptions C40_result.
Print Assumptions C40_errors.
Print Assumptions C40_total.
Print Assumptions C40_unknown_ignored.
Print Assumptions C40_translators.
Print Assumptions C40_bad_scale.
