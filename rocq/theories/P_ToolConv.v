(** C68: wcxf2eos and wcxf2smeftsim on actual files, alone and after the command line tool.  json, yaml, the order of
    [glob] and pylha are variables. *)
From Coq Require Import String Ascii List Bool Arith ZArith Reals Lra Permutation.
From Verif Require Import PyBase PyDict Cplx Tensor Wc WetN Params Smeft SmeftSpec SmeftNames SmeftMass SmeftReg SmeftWarsaw SmeftTab
  MatchSpec MatchRot MatchSm MatchThm Match MatchWarsaw MatchWet MatchEx
  WetExpr Wet WetJms WetNf WetSpec WetChk WetThm WetVals WetList WetAux FkTab FlavorKit Package PackWet PackMatch PackEx MatchUser P_Package
  Dump DumpInit Tex Eos Cli Tool P_Tool SmeftSimSyntax SmeftSimTab SmeftSim SmeftSimText Sci SmeftSimPrint ToolConv.
From Verif Require Bases BasesFacts.
Import ListNotations.
Open Scope string_scope.
Open Scope list_scope.
Open Scope nat_scope.
#[local] Opaque JMS_to_Bern_prog JMS_to_flavio_prog JMS_to_FormFlavor_prog JMS_to_EOS_prog Bern_to_flavio_prog flavio_to_Bern_prog.

Section C68.
Variable float_of_str : string -> option R.
Variables json_dumps yaml_dump : doc -> string.
Variables json_loads yaml_load : string -> res doc.
Variable world : Bases.world.
Variable order : list string -> list string.
Variable odd_dict : attrs -> res (dict string num).
Variable isdir : string -> bool.
Variable lha : tcard -> string.
Notation file_of := (Tool.file_of float_of_str json_loads yaml_load).
Notation eos_run := (eos_tool float_of_str yaml_dump json_loads yaml_load world order odd_dict isdir).
Notation parameters := (sm_of yaml_load order).
Notation card_run := (smeftsim_tool float_of_str json_loads yaml_load world odd_dict lha).
Notation valid := (ToolConv.valid world).
(** A usable parameter dictionary: every entry has a number "central". *)
Definition centrals (sm : dict string doc) : Prop := wf sm /\ forall k v, In (k, v) sm -> exists m y, v = DMap m /\ dget m "central" = Some (DNum y).
(** The parameter file: the SM value plus [np k] for each of central, min and max *)
Definition holds (out : dict string (dict string R)) (sm : dict string doc) (np : string -> R -> Prop) : Prop :=
  dkeys out = dkeys sm /\ forall k m y x, dget sm k = Some (DMap m) -> dget m "central" = Some (DNum y) -> np k x ->
    exists e, dget out k = Some e /\ dget e "central" = Some (y + x)%R /\ dget e "min" = Some (y + x)%R /\ dget e "max" = Some (y + x)%R.
Lemma holds_eq w sm out d : fst (wc_dict float_of_str w) = Ok d -> wcxf2eos float_of_str w sm = Ok out -> holds out sm (fun k x => eos_np k d = Ok x).
Proof.
  intros D O. split; [exact (proj1 (wcxf2eos_ok _ _ _ _ O))|]. intros k m y x S M N.
  destruct (wcxf2eos_value float_of_str w sm out k m y x O S M) as (e & E & Q); [unfold get_eos_np; rewrite D; exact N|].
  exists e. split; [exact E|]. repeat split; apply Q; simpl; auto.
Qed.

(** wcxf2eos on a valid file: status 0, and the output is the parameter file. *)
Theorem C68_eos : forall f prefix o h s w d sm, eos_args_ok isdir o h ->
  let s0 := truncate (eos_target o h) s in
  file_of (source_text f s0) w -> valid w -> fst (wc_dict float_of_str w) = Ok d ->
  parameters (params_dir prefix) (files s0) = Ok sm -> centrals sm -> (forall k, In k (dkeys sm) -> exists x, eos_np k d = Ok x) ->
  exists out, eos_run f prefix o h s = (0%Z, put (eos_target o h) (yaml_dump (eos_doc out)) s) /\ holds out sm (fun k x => eos_np k d = Ok x).
Proof.
  intros f prefix o h s w d sm A s0 F V D S [_ C] N.
  destruct (eos_all_fine float_of_str w sm d D C) as [out O]; [intros k v I; apply N; exact (in_map fst _ _ I)|].
  exists out. split; [|exact (holds_eq w sm out d D O)].
  exact (eos_ok float_of_str yaml_dump json_loads yaml_load world order odd_dict isdir f prefix o h s w sm out A F V S O).
Qed.
(** A lepton non-universal coefficient stops it; the output file is left empty. *)
Theorem C68_eos_stops : forall f prefix o h s w d sm, eos_args_ok isdir o h ->
  let s0 := truncate (eos_target o h) s in
  file_of (source_text f s0) w -> valid w -> fst (wc_dict float_of_str w) = Ok d ->
  parameters (params_dir prefix) (files s0) = Ok sm -> centrals sm -> (exists k, In k (dkeys sm) /\ eos_np k d = Err ValueError) ->
  eos_run f prefix o h s = (1%Z, St (files s0) (seen s ++ [Trace ValueError])).
Proof.
  intros f prefix o h s w d sm A s0 F V D S [_ C] (k & I & N).
  apply (eos_fail float_of_str yaml_dump json_loads yaml_load world order odd_dict isdir f prefix o h s w sm ValueError A F V S); [|discriminate].
  unfold wcxf2eos, mapM, get_eos_np. rewrite D. cbn [bind]. clear S. unfold dkeys in I. revert C I. clear -N.
  induction sm as [|[q v] sm IH]; intros C I; [destruct I|]. cbn [map sequence fst snd].
  destruct (C q v) as (m & y & -> & M); [left; reflexivity|]. cbn [central]. unfold dlookup at 1. rewrite M. cbn [bind].
  destruct (eos_np q d) as [x|e] eqn:E.
  - cbn [bind plus]. destruct I as [I|I]; [cbn [fst] in I; congruence|]. rewrite IH; auto. intros k0 v0 I0. apply (C k0 v0). right; exact I0.
  - cbn [bind]. assert (e = ValueError) as ->; [|reflexivity]. revert E. unfold eos_np, np_branch.
    repeat match goal with |- context [match ?t with _ => _ end] => destruct t end; congruence.
Qed.
(** The parameter files that define a name twice must agree; then the order in which they are read does not matter. *)
Theorem C68_any_order : forall order' f prefix o h s w sm out ds, (forall l, Permutation (order l) l) -> (forall l, Permutation (order' l) l) -> eos_args_ok isdir o h ->
  let s0 := truncate (eos_target o h) s in
  file_of (source_text f s0) w -> valid w ->
  parameters (params_dir prefix) (files s0) = Ok sm -> wcxf2eos float_of_str w sm = Ok out ->
  mapM (fun p => yaml_load (text_of (files s0) p)) (filter (in_dir (params_dir prefix)) (dkeys (files s0))) = Ok ds ->
  Forall good_file ds -> agree_files ds ->
  exists out', eos_tool float_of_str yaml_dump json_loads yaml_load world order' odd_dict isdir f prefix o h s = (0%Z, put (eos_target o h) (yaml_dump (eos_doc out')) s) /\
    forall k, dget out' k = dget out k.
Proof.
  intros order' f prefix o h s w sm out ds P P' A s0 F V S O D G U.
  set (L := filter (in_dir (params_dir prefix)) (dkeys (files s0))) in *.
  assert (forall l, Permutation l L -> exists ds', sm_docs yaml_load (files s0) l = Ok ds' /\ Permutation ds' ds) as Q.
  { intros l Pl. apply Permutation_sym in Pl. clear S O G U. revert ds D. unfold sm_docs. unfold mapM. generalize (fun p => yaml_load (text_of (files s0) p)) as g. intros g.
    induction Pl as [|x l l' Pl IH|x y l|l l' l'' Pl IH Pl' IH']; intros ds D.
    - exists ds. auto.
    - cbn [map sequence] in *. destruct (g x) as [v|]; [|discriminate]. cbn [bind] in *. destruct (sequence (map g l)) as [r|]; [|discriminate].
      cbn [bind] in D. injection D as <-. destruct (IH r eq_refl) as (r' & -> & R). exists (v :: r'). split; [reflexivity|]. constructor. exact R.
    - cbn [map sequence] in *. destruct (g y) as [v|]; [|discriminate]. destruct (g x) as [u|]; [|discriminate]. cbn [bind] in *.
      destruct (sequence (map g l)) as [r|]; [|discriminate]. cbn [bind] in *. injection D as <-. exists (u :: v :: r). split; [reflexivity|]. constructor.
    - destruct (IH ds D) as (r & E & R). destruct (IH' r E) as (r' & E' & R'). exists r'. split; [exact E'|]. exact (Permutation_trans R' R). }
  unfold sm_of in S. destruct (proj1 (sm_files_docs yaml_load _ _ _ _) S) as (d1 & D1 & S1).
  destruct (Q (order L) (P L)) as (d1' & E1 & R1). unfold listing in D1. fold L in D1. rewrite E1 in D1. injection D1 as <-.
  destruct (Q (order' L) (P' L)) as (d2 & E2 & R2).
  assert (Forall good_file d1' /\ agree_files d1') as [G1 U1].
  { split; [apply Forall_forall; intros x I; apply (Permutation_in _ R1) in I; rewrite Forall_forall in G; auto|].
    intros x y k v v' I I'. apply (Permutation_in _ R1) in I, I'. apply U; auto. }
  destruct (sm_perm d1' d2 sm (Permutation_trans R1 (Permutation_sym R2)) G1 U1 S1) as (sm' & S2 & K).
  assert (Forall good_file d2) as G2 by (apply Forall_forall; intros x I; apply (Permutation_in _ R2) in I; rewrite Forall_forall in G; auto).
  assert (wf sm /\ wf sm') as [W1 W2].
  { split; [exact (sm_wf d1' G1 [] sm (NoDup_nil _) S1)|exact (sm_wf d2 G2 [] sm' (NoDup_nil _) S2)]. }
  destruct (eos_same float_of_str w sm sm' out K W1 W2 O) as (out' & O' & H). exists out'. split; [|exact H].
  apply (eos_ok float_of_str yaml_dump json_loads yaml_load world order' odd_dict isdir f prefix o h s w sm' out' A F V); [|exact O'].
  unfold sm_of, listing. apply sm_files_docs. exists d2. split; [exact E2|exact S2].
Qed.
(** Finding: the basis is not looked at.  A valid file of another basis gives the SM values, with status 0. *)
Theorem C68_wrong_basis_refuted : forall f prefix o h s w d sm, eos_args_ok isdir o h ->
  let s0 := truncate (eos_target o h) s in
  file_of (source_text f s0) w -> valid w -> fst (wc_dict float_of_str w) = Ok d -> (forall n, In n (dkeys d) -> has ":" n = false) ->
  parameters (params_dir prefix) (files s0) = Ok sm -> centrals sm -> (forall k, In k (dkeys sm) -> has ":" k = true) ->
  exists out, eos_run f prefix o h s = (0%Z, put (eos_target o h) (yaml_dump (eos_doc out)) s) /\ holds out sm (fun _ x => x = 0%R).
Proof.
  intros f prefix o h s w d sm A s0 F V D N S C K. destruct (C68_eos f prefix o h s w d sm A F V D S C) as (out & R & H & H').
  - intros k I. exists 0%R. apply eos_np_colon; auto.
  - exists out. split; [exact R|]. split; [exact H|]. intros k m y x E M ->. apply (H' k m y 0%R E M).
    apply eos_np_colon; auto. apply K. exact (dget_Some_key _ _ _ E).
Qed.
(** Finding: an output file among the parameter files is emptied before they are read; the program then fails whatever
    the input. *)
Theorem C68_home_in_prefix_refuted : forall f prefix o h s w p, eos_args_ok isdir o h -> (forall l, Permutation (order l) l) ->
  (forall t, yaml_load t <> Err SystemExit) -> yaml_load "" = Ok DNull ->
  eos_target o h = DFile p -> in_dir (params_dir prefix) p = true ->
  file_of (source_text f (truncate (DFile p) s)) w -> valid w ->
  exists e, eos_run f prefix o h s = (1%Z, St (dset (files s) p "") (seen s ++ [Trace e])).
Proof. exact (eos_overwrites float_of_str yaml_dump json_loads yaml_load world order odd_dict isdir). Qed.

(** wcxf2smeftsim *)
Theorem C68_smeftsim : forall set scheme L f o key s w d, model_set set -> input_scheme scheme ->
  file_of (source_text f s) w -> valid w -> wc_basis w = "Warsaw mass" -> fst (wc_dict float_of_str w) = Ok d ->
  (complete set d -> exists c tc a b, make_card d set L scheme = Ok c /\ printed_card c tc /\ smeftsim_card_text set scheme = Ok (a, b) /\
     card_run set scheme L f o key s = (0%Z, put (DFile o) (a ++ lha tc ++ b)%string s)) /\
  (missing set d -> card_run set scheme L f o key s = (1%Z, St (dset (files s) o "") (seen s ++ [Trace KeyError]))).
Proof.
  intros set scheme L f o key s w d M I F V B D0.
  assert (values2dict float_of_str (wc_values w) = Ok d) as D.
  { destruct F as (m & sc & _ & _ & _ & _ & _ & _ & _ & Cn & _). unfold wc_dict in D0. rewrite Cn in D0. destruct (values2dict float_of_str (wc_values w)); exact D0. }
  split.
  - intros K. pose proof D as Dv. rewrite typed_values in Dv. destruct (typed_dict float_of_str (wc_values w)) as [dn|] eqn:Q; [|discriminate].
    cbn [rmap] in Dv. injection Dv as Dv. destruct (proj2 (proj2 (make_card_error_iff d set L scheme M)) K) as [c H].
    pose proof (make_rel dn set L scheme) as R. rewrite Dv, H in R. destruct (make_tcard dn set L scheme) as [tc|] eqn:T0; [|tauto].
    destruct (proj1 (SmeftSimText.defined set scheme) (conj M I)) as ([a b] & T). exists c, tc, a, b. split; [exact H|]. split; [exact R|]. split; [exact T|].
    exact (smeftsim_fine float_of_str json_loads yaml_load world odd_dict lha set scheme L f o key s w dn tc (a, b) M F V B Q T0 T).
  - exact (smeftsim_missing float_of_str json_loads yaml_load world odd_dict lha set scheme L f o key s w d M F V B D).
Qed.
End C68.

(** The installed package: a file is first translated or matched by the command line tool. *)
Section C68_installed.
Variable float_of_str : string -> option R.
Variables json_dumps yaml_dump : doc -> string.
Variables json_loads yaml_load : string -> res doc.
Variable world : Bases.world.
Variable odd : attrs -> list string -> res wc.
Variable basis_ : Type.
Variable EFT_load : string -> res unit.
Variable Basis_load : string -> res basis_.
Variable basis_validate : basis_ -> res unit.
Variable printable : doc -> Prop.
Hypothesis json_roundtrip : forall d, printable d -> json_loads (json_dumps d) = Ok d.
Hypothesis yaml_roundtrip : forall d, printable d -> yaml_load (yaml_dump d) = Ok d.
Hypothesis yaml_not_json : forall m, m <> [] -> printable (DMap m) ->
  exists x, json_loads (yaml_dump (DMap m)) = Err x /\ (x = ValueError \/ x = JSONDecodeError).
Variable ckm_tree : R -> R -> R -> R -> mat.
Variable msvd_values : mat -> fl -> C.
Variable qcd_mb qcd_ms : R -> R -> R -> res R.
Variable qcd_as : R -> R -> res R.
Variable lists : string -> string -> list string.
Variable with_nan : dict string WetExpr.cval -> res (dict string C).
Variable order : list string -> list string.
Variable odd_dict : attrs -> res (dict string num).
Variable isdir : string -> bool.
Variable lha : tcard -> string.
Notation translators := (installed ckm_tree msvd_values qcd_mb qcd_ms qcd_as lists with_nan).
Notation matchers := (installed_m ckm_tree qcd_mb qcd_ms qcd_as lists with_nan).
Notation shell := (Tool.shell float_of_str json_dumps yaml_dump json_loads yaml_load translators matchers world odd basis_ EFT_load Basis_load basis_validate).
Notation file_of := (Tool.file_of float_of_str json_loads yaml_load).
Notation call := (Tool.call float_of_str translators matchers).
Notation eos_run := (eos_tool float_of_str yaml_dump json_loads yaml_load world order odd_dict isdir).
Notation parameters := (sm_of yaml_load order).
Notation card_run := (smeftsim_tool float_of_str json_loads yaml_load world odd_dict lha).
Notation valid := (ToolConv.valid world).
Notation J := (lists "WET" "JMS").
Hypothesis J_good : good J.
Variables (s : st) (a q fmt : string) (w : wc) (p : params).
Hypothesis apart : a <> q.
Hypothesis format : format_ok fmt.
Hypothesis is_file : file_of (content s a) w.
Hypothesis p_ok : okp ckm_tree qcd_mb qcd_ms qcd_as (wc_scale w) None p.

Lemma after_call x w' : call x w = Ok w' -> printable (DMap (entries w')) ->
  let r := shell [(x, fmt, q)] a s in fst (fst r) = [0%Z] /\ file_of (content (snd r) q) w'.
Proof.
  intros C P. cbv zeta. 
  assert (Tool.all_print float_of_str translators matchers printable [x] w) as A.
  { intros [|n] v Z E; [congruence|]. cbn [firstn] in E. rewrite firstn_nil in E. cbn [Tool.calls] in E. rewrite C in E. injection E as <-. exact P. }
  pose proof (C66_chain float_of_str json_dumps yaml_dump json_loads yaml_load translators matchers world odd basis_ EFT_load Basis_load basis_validate printable json_roundtrip yaml_roundtrip yaml_not_json
    [(x, fmt, q)] a s w w' (conj apart (conj format I)) is_file) as H. cbn [map fst Tool.calls] in H. rewrite C in H. destruct (H eq_refl A) as [H1 H2]. split; [exact H1|].
  assert (snd (fst (shell [(x, fmt, q)] a s)) = q) as Q.
  { cbn [Tool.shell]. destruct (Tool.tool _ _ _ _ _ _ _ _ _ _ _ _ _ _ s) as [n s1]. reflexivity. }
  rewrite Q in H2. exact H2.
Qed.
(** wcxf2eos on the file [q] just written, output to [r] *)
Definition eos_after (o : dict string C) (s1 : st) (prefix r : string) (sm : dict string doc) : Prop :=
  parameters (params_dir prefix) (files (truncate (DFile r) s1)) = Ok sm -> centrals sm -> (forall k, In k (dkeys sm) -> exists x, eos_np k o = Ok x) ->
  exists out, eos_run (SFile q) prefix (DFile r) None s1 = (0%Z, put (DFile r) (yaml_dump (eos_doc out)) s1) /\ holds out sm (fun k x => eos_np k o = Ok x).
Lemma eos_names : forall n, In n (names eos) -> contains "lnu" n = false /\ has "{" n = false.
Proof.
  assert (forallb (fun n => negb (contains "lnu" n) && negb (has "{" n)) (names eos) = true) as H by (vm_cast_no_check (eq_refl true)).
  rewrite forallb_forall in H. intros n I. apply H in I. apply andb_true_iff in I as [I1 I2]. apply negb_true_iff in I1, I2. auto.
Qed.
Lemma eos_chain o s1 prefix r sm e : dkeys o = names eos -> q <> r -> file_of (content s1 q) (new_wc e "EOS" (wc_scale w) (dict2values (filter Wc.nonzero o))) ->
  valid (new_wc e "EOS" (wc_scale w) (dict2values (filter Wc.nonzero o))) -> eos_after o s1 prefix r sm.
Proof.
  intros K N F V S C X.
  assert (wf o) as Wo by (unfold wf; rewrite K; exact eos_nodup).
  assert (forall k, eos_np k (filter Wc.nonzero o) = eos_np k o) as Z.
  { intros k. apply eos_np_nonzero; auto. intros n I. apply eos_names. rewrite <- K. exact I. }
  destruct (C68_eos float_of_str yaml_dump json_loads yaml_load world order odd_dict isdir (SFile q) prefix (DFile r) None s1
    (new_wc e "EOS" (wc_scale w) (dict2values (filter Wc.nonzero o))) (filter Wc.nonzero o) sm) as (out & R & H & H').
  - discriminate.
  - cbn [eos_target source_text]. rewrite content_other by congruence. exact F.
  - exact V.
  - apply new_dict.
  - exact S.
  - exact C.
  - intros k I. rewrite Z. apply X. exact I.
  - exists out. split; [exact R|]. split; [exact H|]. intros k m y x E M Q. apply (H' k m y x E M). rewrite Z. exact Q.
Qed.
(** JMS to EOS with the tool, then wcxf2eos: the SM values plus the real and imaginary parts of the translated coefficients. *)
Theorem C68_from_JMS : forall c, wc_eft w = "WET" -> wc_basis w = "JMS" -> light p -> coefficients_of float_of_str w = Ok c ->
  exists o w', JMS_to_EOS ckm_tree qcd_mb qcd_ms qcd_as J (nums c) (wc_scale w) None = Ok (nums o) /\
    fst (do_translate float_of_str ckm_tree msvd_values qcd_mb qcd_ms qcd_as lists with_nan w "EOS" None) = Ok w' /\
    (printable (DMap (entries w')) -> valid w' ->
     let r := shell [(STranslate "EOS", fmt, q)] a s in fst (fst r) = [0%Z] /\
     forall prefix out_file sm, q <> out_file -> eos_after o (snd r) prefix out_file sm).
Proof.
  intros c E Hb L D. exists (outJ ckm_tree nJE J c p), (new_wc "WET" "EOS" (wc_scale w) (dict2values (filter Wc.nonzero (outJ ckm_tree nJE J c p)))).
  pose proof (to_EOS_eq float_of_str ckm_tree msvd_values qcd_mb qcd_ms qcd_as lists with_nan J_good w None p c p_ok D L E Hb) as T.
  split; [exact (run_JE ckm_tree qcd_mb qcd_ms qcd_as J (wc_scale w) None p J_good p_ok c L)|]. split; [exact T|]. intros P V.
  destruct (after_call (STranslate "EOS") _ T P) as [A F]. split; [exact A|]. intros prefix r sm N.
  exact (eos_chain _ _ prefix r sm "WET" (keys_JE ckm_tree J p c) N F V).
Qed.
(** The same for a SMEFT file that is matched to EOS. *)
Theorem C68_from_SMEFT : forall c u j, wc_eft w = "SMEFT" -> wc_basis w = "Warsaw" -> light p -> coefficients_of float_of_str w = Ok c ->
  warsaw_to_warsaw_up ckm_tree (lists "SMEFT" "Warsaw up") None c = Ok u -> match_all ckm_tree J u None = Ok j ->
  exists o w', JMS_to_EOS ckm_tree qcd_mb qcd_ms qcd_as J (nums j) (wc_scale w) None = Ok (nums o) /\
    fst (do_match float_of_str ckm_tree qcd_mb qcd_ms qcd_as lists with_nan w "WET" "EOS" None) = Ok w' /\
    (printable (DMap (entries w')) -> valid w' ->
     let r := shell [(SMatch "WET" "EOS", fmt, q)] a s in fst (fst r) = [0%Z] /\
     forall prefix out_file sm, q <> out_file -> eos_after o (snd r) prefix out_file sm).
Proof.
  intros c u j E Hb L D U M. exists (outJ ckm_tree nJE J j p), (new_wc "WET" "EOS" (wc_scale w) (dict2values (filter Wc.nonzero (outJ ckm_tree nJE J j p)))).
  pose proof (run_JE ckm_tree qcd_mb qcd_ms qcd_as J (wc_scale w) None p J_good p_ok j L) as R.
  assert (fst (do_match float_of_str ckm_tree qcd_mb qcd_ms qcd_as lists with_nan w "WET" "EOS" None) =
    Ok (new_wc "WET" "EOS" (wc_scale w) (dict2values (filter Wc.nonzero (outJ ckm_tree nJE J j p))))) as T.
  { pose proof (C63_matchings float_of_str ckm_tree qcd_mb qcd_ms qcd_as lists with_nan w "WET" "EOS" None) as T. rewrite E, Hb in T.
    lazymatch type of T with context [matching ?a1 ?b1 ?c1 ?d1 ?e1 ?f1 ?g1 ?h1 ?i1 ?j1] =>
      let m := eval hnf in (matching a1 b1 c1 d1 e1 f1 g1 h1 i1 j1) in change (matching a1 b1 c1 d1 e1 f1 g1 h1 i1 j1) with m in T; cbv iota beta in T end.
    refine (eq_trans T _). rewrite D. cbn [bind]. rewrite U. cbn [bind]. rewrite M. cbn [bind]. rewrite R, plain_nums. reflexivity. }
  split; [exact R|]. split; [exact T|]. intros P V.
  destruct (after_call (SMatch "WET" "EOS") _ T P) as [A F]. split; [exact A|]. intros prefix r sm N.
  exact (eos_chain _ _ prefix r sm "WET" (keys_JE ckm_tree J p j) N F V).
Qed.
Lemma mass_wf c d : wf c -> warsaw_to_warsawmass ckm_tree msvd_values None c = Ok d -> wf d.
Proof.
  intros W. unfold warsaw_to_warsawmass. assert (forall v acc op r, wf acc -> rotate_up v c acc op = Ok r -> wf r) as K.
  { intros v acc op r A. unfold rotate_up. destruct (smeft_toarray op c); [|discriminate]. intros [= <-]. apply wf_dupdate. exact A. }
  repeat match goal with |- context [rotate_up ?v c ?acc ?op] => let E := fresh "E" in destruct (rotate_up v c acc op) eqn:E; [cbn [bind]; apply K in E; [|assumption]|discriminate] end.
  destruct (smeft_toarray _ c); [|discriminate]. intros H. refine (eq_ind _ (fun r => match r with Ok x => wf x | Err _ => True end) _ _ H). apply wf_dupdate. assumption.
Qed.
(** Finding: coefficients that vanish are not written, and wcxf2smeftsim wants all of them.  A Warsaw file in which one
    of the coefficients that are simply copied is missing or zero, translated to "Warsaw mass", gives no card. *)
Theorem C68_translated_refuted : forall c n set scheme L o key, wc_eft w = "SMEFT" -> wc_basis w = "Warsaw" -> coefficients_of float_of_str w = Ok c -> good_dict c ->
  model_set set -> In n (needed set) -> ~ In (name_part n) ("llphiphi" :: up_ops) -> dget c n = None \/ dget c n = Some C0 ->
  exists w', fst (do_translate float_of_str ckm_tree msvd_values qcd_mb qcd_ms qcd_as lists with_nan w "Warsaw mass" None) = Ok w' /\
    (printable (DMap (entries w')) -> valid w' ->
     let r := shell [(STranslate "Warsaw mass", fmt, q)] a s in fst (fst r) = [0%Z] /\
     card_run set scheme L (SFile q) o key (snd r) = (1%Z, St (dset (files (snd r)) o "") (seen (snd r) ++ [Trace KeyError]))).
Proof.
  intros c n set scheme L o key E Hb D G M I U Z.
  destruct (warsawmass_spec ckm_tree msvd_values None c G) as (d & ll & R & _ & _ & K & _ & _ & KK).
  exists (new_wc "SMEFT" "Warsaw mass" (wc_scale w) (dict2values (filter Wc.nonzero d))).
  assert (fst (do_translate float_of_str ckm_tree msvd_values qcd_mb qcd_ms qcd_as lists with_nan w "Warsaw mass" None) =
    Ok (new_wc "SMEFT" "Warsaw mass" (wc_scale w) (dict2values (filter Wc.nonzero d)))) as T.
  { pose proof (C63_translations float_of_str ckm_tree msvd_values qcd_mb qcd_ms qcd_as lists with_nan w "Warsaw mass" None) as T. rewrite E, Hb in T.
    lazymatch type of T with context [translation ?a1 ?b1 ?c1 ?d1 ?e1 ?f1 ?g1 ?h1 ?i1 ?j1] =>
      let m := eval hnf in (translation a1 b1 c1 d1 e1 f1 g1 h1 i1 j1) in change (translation a1 b1 c1 d1 e1 f1 g1 h1 i1 j1) with m in T; cbv iota beta in T end.
    refine (eq_trans T _). rewrite D. cbn [bind].
    exact (f_equal (fun r => bind r (fun d0 => Ok (new_wc "SMEFT" "Warsaw mass" (wc_scale w) (dict2values (filter Wc.nonzero d0))))) R). }
  split; [exact T|]. intros P V. destruct (after_call (STranslate "Warsaw mass") _ T P) as [A F]. cbv zeta. split; [exact A|].
  apply (smeftsim_missing float_of_str json_loads yaml_load world odd_dict lha set scheme L (SFile q) o key _ _ (filter Wc.nonzero d) M F V eq_refl).
  - exact (values_roundtrip float_of_str (filter Wc.nonzero d)).
  - exists n. split; [exact I|]. rewrite dget_filter by exact (mass_wf c d (proj1 G) R). rewrite (K n U). destruct Z as [-> | ->]; [reflexivity|].
    unfold Wc.nonzero. cbn [snd]. destruct (Ceq_dec C0 C0); [reflexivity|congruence].
Qed.
End C68_installed.

(** A parameter directory with two relevant files and one that is not, and a coefficient file in the basis EOS. *)
Definition sm1 : doc := DMap [("@metadata@", DMap [("wcxf-relevant", DBool true)]); ("ublnu::Re{cVL}", DMap [("central", DNum 1)])].
Definition sm2 : doc := DMap [("sb::c9", DMap [("central", DNum 4)]); ("@metadata@", DMap [("wcxf-relevant", DBool true)])].
Definition sm3 : doc := DMap [("mass::b", DMap [("central", DNum 5)])].
Definition wc1 : wc := new_wc "WET" "EOS" 5 [("ubenue::cVL", DNum 2); ("ubmunumu::cVL", DNum 2)].
Definition wc2 : wc := new_wc "WET" "flavio" 5 [("C9_bsmumu", DNum 2)].
Definition toy_texts (t : string) : res doc :=
  if String.eqb t "one" then Ok sm1 else if String.eqb t "two" then Ok sm2 else if String.eqb t "three" then Ok sm3 else
  if String.eqb t "wc" then Ok (DMap (entries wc1)) else if String.eqb t "wc2" then Ok (DMap (entries wc2)) else if String.eqb t "" then Ok DNull else Err YAMLError.
Definition no_json (t : string) : res doc := Err JSONDecodeError.
Definition toy_world : Bases.world :=
  Bases.wrun [Bases.NewEFT "WET" ["ubenu"; "sb"]; Bases.NewBasis "WET" "EOS" None [("ubenu", Some [("ubenue::cVL", None); ("ubmunumu::cVL", None)])];
              Bases.NewBasis "WET" "flavio" None [("sb", Some [("C9_bsmumu", None)])]].
Definition toy_dir : st := St [("in", "wc"); ("/usr/share/eos/parameters/c.yaml", "three"); ("/usr/share/eos/parameters/a.yaml", "one");
  ("/usr/share/eos/parameters/readme.txt", "x"); ("/usr/share/eos/parameters/old/b.yaml", "y"); ("/usr/share/eos/parameters/b.yaml", "two"); ("in2", "wc2")] [].
Definition toy_sm : dict string doc := [("ublnu::Re{cVL}", DMap [("central", DNum 1)]); ("sb::c9", DMap [("central", DNum 4)])].
Lemma toy_file fs t w : toy_texts t = Ok (DMap (entries w)) -> wc_cache w = None -> file_of fs no_json toy_texts t w.
Proof.
  intros T K. exists (entries w), (DNum (wc_scale w)). split; [unfold load_text, no_json; rewrite T; reflexivity|].
  split; [repeat constructor; simpl; intuition discriminate|]. do 5 (split; [reflexivity|]). split; [exact K|].
  intros k I. unfold reserved in I. simpl in I. repeat (destruct I as [<-|I]; [reflexivity|]). destruct I.
Qed.
Lemma toy_get (m : dict string doc) k v : In (k, v) m -> forallb (fun kv => match snd kv with DMap m => match dget m "central" with Some (DNum _) => true | _ => false end | _ => false end) m = true ->
  exists m' y, v = DMap m' /\ dget m' "central" = Some (DNum y).
Proof.
  intros I H. rewrite forallb_forall in H. apply H in I. cbn [snd] in I. destruct v as [| | | | |m']; try discriminate. exists m'.
  destruct (dget m' "central") as [[]|]; try discriminate. eauto.
Qed.
Lemma toy_centrals : centrals toy_sm.
Proof. split; [repeat constructor; simpl; intuition discriminate|]. intros k v I. exact (toy_get toy_sm k v I eq_refl). Qed.
Definition toy_files : list doc := [sm3; sm1; sm2].
Lemma toy_agree : agree_files toy_files.
Proof.
  intros f g k v v' I I' R R' K G G'.
  assert (forall x, In x toy_files -> is_relevant x -> x = sm1 \/ x = sm2) as Q.
  { intros x [<-|[<-|[<-|[]]]] (m & mm & u & E1 & E2 & _); auto. injection E1 as <-. discriminate. }
  apply Q in R, R'; auto. destruct R as [-> | ->], R' as [-> | ->]; try congruence; unfold file_get, sm1, sm2 in *; cbn [dget] in *.
  - destruct (keqb k "ublnu::Re{cVL}") eqn:E1; [apply keqb_eq in E1; subst k; discriminate G'|].
    destruct (keqb k "@metadata@") eqn:E2; [apply keqb_eq in E2; congruence|discriminate].
  - destruct (keqb k "ublnu::Re{cVL}") eqn:E1; [apply keqb_eq in E1; subst k; discriminate G|].
    destruct (keqb k "@metadata@") eqn:E2; [apply keqb_eq in E2; congruence|discriminate].
Qed.
(** Which files are read: PREFIX/share/eos/parameters/NAME.yaml where NAME is not empty, does not begin with a dot and has no slash;
    a slash at the end of PREFIX does not matter.  Where [--eoshome] writes. *)
Definition proper (a : string) : Prop := exists b c, a = (b ++ String c "")%string /\ c <> "/"%char.
Lemma slash_end_app a c : slash_end (a ++ String c "") = Ascii.eqb c "/".
Proof. induction a as [|d a IH]; [reflexivity|]. cbn [append slash_end]. destruct (a ++ String c "")%string as [|e t] eqn:Q; [destruct a; discriminate|exact IH]. Qed.
Lemma app_str a b c : ((a ++ b) ++ c = a ++ (b ++ c))%string.
Proof. induction a; cbn; congruence. Qed.
Lemma join_rel a b : proper a -> match b with String "/" _ => False | _ => True end -> join a b = (a ++ "/" ++ b)%string /\ join (a ++ "/") b = (a ++ "/" ++ b)%string.
Proof.
  intros (d & c & -> & N) H. assert (forall x y : string, match b with String "/" _ => x | _ => y end = y) as M by (intros x y; destruct b as [|[[] [] [] [] [] [] [] []] b]; try reflexivity; contradiction).
  unfold join. rewrite !M, slash_end_app. assert (Ascii.eqb c "/" = false) as -> by (apply Ascii.eqb_neq; exact N). split; [reflexivity|].
  change "/" with (String "/" "") at 1 2. rewrite slash_end_app. cbn. rewrite !app_str. reflexivity.
Qed.
Lemma proper_app a b : proper b -> proper (a ++ b).
Proof. intros (d & c & -> & N). exists (a ++ d)%string, c. rewrite app_str. auto. Qed.
Lemma params_dir_iff prefix : proper prefix -> params_dir prefix = (prefix ++ "/share/eos/parameters")%string /\ params_dir (prefix ++ "/") = params_dir prefix.
Proof.
  intros P. unfold params_dir. destruct (join_rel prefix "share/eos" P I) as [-> ->]. split; [|reflexivity].
  assert (proper (prefix ++ "/" ++ "share/eos")) as Q by (apply proper_app; exists "/share/eo", "s"%char; split; [reflexivity|discriminate]).
  destruct (join_rel _ "parameters" Q I) as [-> _]. rewrite app_str. reflexivity.
Qed.
Lemma ends_iff e s : ends e s = true <-> exists a, s = (a ++ e)%string.
Proof.
  induction s as [|c s IH]; cbn [ends].
  - rewrite orb_false_r, String.eqb_eq. split; [intros ->; exists ""; reflexivity|intros ([|? ?] & E); [symmetry; exact E|discriminate]].
  - rewrite orb_true_iff, String.eqb_eq, IH. split.
    + intros [->|[a ->]]; [exists ""; reflexivity|exists (String c a); reflexivity].
    + intros ([|d a] & E); [left; symmetry; exact E|]. injection E as -> ->. right. exists a. reflexivity.
Qed.
Lemma prefix_iff w s : starts w s = true <-> exists t, s = (w ++ t)%string.
Proof.
  split; [|intros (t & ->); apply starts_app]. revert s. induction w as [|a w IH]; intros s H; [exists s; reflexivity|]. destruct s as [|b s]; cbn in H; [discriminate|].
  apply andb_true_iff in H. destruct H as [H1 H2]. apply Ascii.eqb_eq in H1. subst. destruct (IH s H2) as (t & ->). exists t. reflexivity.
Qed.
Lemma has_iff c s : has c s = true <-> exists a b, s = (a ++ String c b)%string.
Proof.
  induction s as [|d s IH]; cbn [has]; [split; [discriminate|intros ([|? ?] & b & E); discriminate]|]. rewrite orb_true_iff, Ascii.eqb_eq, IH. split.
  - intros [->|(a & b & ->)]; [exists "", s; reflexivity|exists (String d a), b; reflexivity].
  - intros ([|e a] & b & E); injection E as -> ->; [left; reflexivity|right; eauto].
Qed.
Theorem C68_files : forall prefix p, proper prefix ->
  (in_dir (params_dir prefix) p = true <->
   exists c n, p = (prefix ++ "/share/eos/parameters/" ++ String c n ++ ".yaml")%string /\ c <> "."%char /\ forall a b, String c n <> (a ++ "/" ++ b)%string) /\
  params_dir (prefix ++ "/") = params_dir prefix.
Proof.
  intros prefix p P. destruct (params_dir_iff prefix P) as [D D']. split; [|exact D']. rewrite D. unfold in_dir, yaml_name, no_slash.
  assert (((prefix ++ "/share/eos/parameters") ++ "/")%string = (prefix ++ "/share/eos/parameters/")%string) as -> by (rewrite app_str; reflexivity).
  rewrite !andb_true_iff, prefix_iff, !negb_true_iff, ends_iff. split.
  - intros ((t & ->) & (S & H) & a & E). rewrite sdrop_app in *. subst t. destruct a as [|c n]; [discriminate|]. exists c, n. split; [rewrite app_str; reflexivity|]. split.
    + intros ->. discriminate.
    + intros x y Q. rewrite Q in S. rewrite has_app in S. assert (has "/" (x ++ "/" ++ y) = true) as Z by (apply has_iff; exists x, y; reflexivity). rewrite Z in S. discriminate.
  - intros (c & n & -> & N & S). rewrite <- app_str. split; [eexists; reflexivity|]. rewrite sdrop_app. split; [split|exists (String c n); reflexivity].
    + rewrite has_app. apply orb_false_iff. split; [|reflexivity]. destruct (has "/" (String c n)) eqn:Q; [|reflexivity]. apply has_iff in Q. destruct Q as (a & b & Q). exfalso. exact (S a b Q).
    + cbn [append starts]. assert (Ascii.eqb "." c = false) as -> by (apply Ascii.eqb_neq; congruence). reflexivity.
Qed.
Theorem C68_eoshome : forall home o, proper home -> eos_target o (Some home) = DFile (home ++ "/parameters/wcxf.yaml") /\ eos_target o (Some (home ++ "/")%string) = eos_target o (Some home).
Proof.
  intros home o P. unfold eos_target. destruct (join_rel home "parameters" P I) as [-> ->]. split; [|reflexivity].
  assert (proper (home ++ "/" ++ "parameters")) as Q by (apply proper_app; exists "/parameter", "s"%char; split; [reflexivity|discriminate]).
  destruct (join_rel _ "wcxf.yaml" Q I) as [-> _]. rewrite app_str. reflexivity.
Qed.
Example C68_case : forall fs odd_dict isdir,
  let s0 := truncate DStdout toy_dir in
  file_of fs no_json toy_texts (source_text (SFile "in") s0) wc1 /\ ToolConv.valid toy_world wc1 /\
  fst (wc_dict fs wc1) = Ok [("ubenue::cVL", RtoC 2); ("ubmunumu::cVL", RtoC 2)] /\
  sm_of toy_texts (@rev string) (params_dir "/usr") (files s0) = Ok [("sb::c9", DMap [("central", DNum 4)]); ("ublnu::Re{cVL}", DMap [("central", DNum 1)])] /\
  sm_of toy_texts (fun l => l) (params_dir "/usr") (files s0) = Ok toy_sm /\ centrals toy_sm /\
  mapM (fun p => toy_texts (text_of (files s0) p)) (filter (in_dir (params_dir "/usr")) (dkeys (files s0))) = Ok toy_files /\ Forall good_file toy_files /\ agree_files toy_files /\
  eos_np "ublnu::Re{cVL}" [("ubenue::cVL", RtoC 2); ("ubmunumu::cVL", RtoC 2)] = Ok 2%R /\ eos_np "sb::c9" [("ubenue::cVL", RtoC 2); ("ubmunumu::cVL", RtoC 2)] = Ok 0%R /\
  exists out, eos_tool fs toy_yaml no_json toy_texts toy_world (fun l => l) odd_dict isdir (SFile "in") "/usr" DStdout None toy_dir = (0%Z, put DStdout (toy_yaml (eos_doc out)) toy_dir) /\
    exists e, dget out "ublnu::Re{cVL}" = Some e /\ dget e "central" = Some (1 + 2)%R.
Proof.
  intros fs odd_dict isdir s0.
  assert (eos_np "ublnu::Re{cVL}" [("ubenue::cVL", RtoC 2); ("ubmunumu::cVL", RtoC 2)] = Ok 2%R) as N.
  { change ((if Ceq_dec (RtoC 2) (RtoC 2) then Ok 2%R else Err ValueError) = Ok 2%R). destruct (Ceq_dec _ _); [reflexivity|congruence]. }
  assert (file_of fs no_json toy_texts (source_text (SFile "in") s0) wc1) as F by (apply toy_file; reflexivity).
  assert (ToolConv.valid toy_world wc1) as V by reflexivity.
  assert (sm_of toy_texts (fun l => l) (params_dir "/usr") (files s0) = Ok toy_sm) as S by reflexivity.
  assert (fst (wc_dict fs wc1) = Ok [("ubenue::cVL", RtoC 2); ("ubmunumu::cVL", RtoC 2)]) as D by reflexivity.
  split; [exact F|]. split; [exact V|]. split; [exact D|]. split; [reflexivity|]. split; [exact S|]. split; [exact toy_centrals|]. split; [reflexivity|].
  split; [repeat constructor; simpl; intuition discriminate|]. split; [exact toy_agree|]. split; [exact N|]. split; [reflexivity|].
  assert (exists out, wcxf2eos fs wc1 toy_sm = Ok out) as [out O].
  { apply (eos_all_fine fs wc1 toy_sm _ D (proj2 toy_centrals)). intros k v [I|[I|[]]]; injection I as <- <-; eauto. exists 0%R. reflexivity. }
  exists out. split.
  - exact (eos_ok fs toy_yaml no_json toy_texts toy_world (fun l => l) odd_dict isdir (SFile "in") "/usr" DStdout None toy_dir wc1 toy_sm out (ltac:(discriminate)) F V S O).
  - destruct (wcxf2eos_value fs wc1 toy_sm out "ublnu::Re{cVL}" [("central", DNum 1)] 1%R 2%R O eq_refl eq_refl N) as (e & E & Q).
    exists e. split; [exact E|]. apply Q. simpl; auto.
Qed.
(** The findings apply: a flavio file, and a parameter directory that is also the home directory. *)
Example C68_refuted_case : forall fs,
  file_of fs no_json toy_texts (source_text (SFile "in2") (truncate DStdout toy_dir)) wc2 /\ ToolConv.valid toy_world wc2 /\
  fst (wc_dict fs wc2) = Ok [("C9_bsmumu", RtoC 2)] /\ has ":" "C9_bsmumu" = false /\ (forall k, In k (dkeys toy_sm) -> has ":" k = true) /\
  eos_target DStdout (Some "/usr/share/eos") = DFile "/usr/share/eos/parameters/wcxf.yaml" /\
  in_dir (params_dir "/usr") "/usr/share/eos/parameters/wcxf.yaml" = true /\ toy_texts "" = Ok DNull /\ (forall t, toy_texts t <> Err SystemExit).
Proof.
  intros fs. split; [apply toy_file; reflexivity|]. repeat (split; [reflexivity|]). split; [intros k [<-|[<-|[]]]; reflexivity|]. repeat (split; [reflexivity|]).
  intros t. unfold toy_texts. repeat match goal with |- context [if ?b then _ else _] => destruct b; [discriminate|] end. discriminate.
Qed.
(** All names of the basis EOS have a colon, those of the other bases do not. *)
Theorem C68_names : (forall n, In n (names eos) -> has ":" n = true) /\ (forall n, In n (names flavio ++ names bern) -> has ":" n = false).
Proof.
  assert (forallb (has ":") (names eos) && forallb (fun n => negb (has ":" n)) (names flavio ++ names bern) = true) as H by (vm_cast_no_check (eq_refl true)).
  apply andb_true_iff in H as [H1 H2]. rewrite forallb_forall in H1, H2. split; [exact H1|]. intros n I. apply H2 in I. apply negb_true_iff in I. exact I.
Qed.

(** A world with one basis *)
Definition one_basis (e b : string) (l : list string) : Bases.world :=
  Bases.wrun [Bases.NewEFT e []; Bases.NewBasis e b None [("s", Some (map (fun k => (k, None)) l))]].
Lemma one_basis_valid w : ToolConv.valid (one_basis (wc_eft w) (wc_basis w) (dkeys (wc_values w))) w.
Proof.
  unfold ToolConv.valid. generalize (wc_eft w) (wc_basis w) (dkeys (wc_values w)). intros e b l. apply BasesFacts.wc_validate_iff. exists [], 0, l.
  assert (one_basis e b l = Bases.World (Some [(e, [])]) (Some [((e, b), 0)]) [Bases.BObj e b (Some 0) (Some None)] [[("s", Some (map (fun k => (k, None)) l))]]) as -> by reflexivity.
  split; [|split; [|split]].
  - unfold Bases.lookup_reg, dlookup. cbn [Bases.w_efts dget]. rewrite keqb_refl. reflexivity.
  - unfold BasesFacts.basis_get, Bases.lookup_reg, dlookup. cbn [Bases.w_bases dget]. rewrite keqb_refl. reflexivity.
  - unfold Bases.all_wcs, Bases.sectors_of. cbn. rewrite app_nil_r. f_equal. unfold dkeys. rewrite map_map. cbn [fst]. apply map_id.
  - apply incl_refl.
Qed.
Lemma toy_file_in f l w : NoDup (map wc_basis l) -> In w l -> wc_cache w = None -> file_of f (toy_json_loads l) (toy_yaml_load l) ("J" ++ wc_basis w)%string w.
Proof.
  intros N I K. exists (entries w), (DNum (wc_scale w)). split; [unfold load_text, toy_json_loads; cbn [append]; rewrite (toy_find l w JSONDecodeError N I); reflexivity|].
  split; [repeat constructor; simpl; intuition discriminate|]. do 5 (split; [reflexivity|]). split; [exact K|].
  intros k Ik. unfold reserved in Ik. simpl in Ik. repeat (destruct Ik as [<-|Ik]; [reflexivity|]). destruct Ik.
Qed.
(** Printers and a basis for which the chains go through *)
Example C68_chain_case : forall f msvd with_nan w, wc_cache w = None -> wc_eft w = "WET" -> wc_basis w = "JMS" -> wc_scale w = 5%R -> wc_values w = dict2values [("VddLL_1213", Ci)] ->
  exists l world w', NoDup (map wc_basis l) /\ file_of f (toy_json_loads l) (toy_yaml_load l) "JJMS" w /\ good (lists0 "WET" "JMS") /\
    okp ckm1 mb4 ms1 as1 (wc_scale w) None p1 /\ light p1 /\ coefficients_of f w = Ok [("VddLL_1213", Ci)] /\
    fst (do_translate f ckm1 msvd mb4 ms1 as1 lists0 with_nan w "EOS" None) = Ok w' /\ toy_printable l (DMap (entries w')) /\ ToolConv.valid world w'.
Proof.
  intros f msvd with_nan w K E Hb S V.
  assert (coefficients_of f w = Ok [("VddLL_1213", Ci)]) as D.
  { unfold coefficients_of, wc_dict. rewrite K, V, values_roundtrip. reflexivity. }
  assert (okp ckm1 mb4 ms1 as1 (wc_scale w) None p1) as P by (rewrite S; exact p1_ok).
  pose proof (to_EOS_eq f ckm1 msvd mb4 ms1 as1 lists0 with_nan J0_good w None p1 _ P D p1_light E Hb) as T.
  match type of T with _ = Ok ?x => set (w' := x) in T; exists [w; w'], (one_basis (wc_eft w') (wc_basis w') (dkeys (wc_values w'))), w' end.
  assert (NoDup (map wc_basis [w; w'])) as N by (cbn [map]; rewrite Hb; repeat constructor; simpl; intuition discriminate).
  split; [exact N|]. split; [pose proof (toy_file_in f [w; w'] w N (or_introl eq_refl) K) as F; rewrite Hb in F; exact F|].
  split; [exact J0_good|]. split; [exact P|]. split; [exact p1_light|]. split; [exact D|]. split; [exact T|].
  split; [exists w'; simpl; auto|]. apply one_basis_valid.
Qed.
(** A Warsaw file with one coefficient: no card after translating. *)
Example C68_translated_case : forall f msvd with_nan w, wc_cache w = None -> wc_eft w = "SMEFT" -> wc_basis w = "Warsaw" -> wc_values w = dict2values [("uphi_11", C1)] ->
  exists l world w', NoDup (map wc_basis l) /\ file_of f (toy_json_loads l) (toy_yaml_load l) "JWarsaw" w /\
    coefficients_of f w = Ok [("uphi_11", C1)] /\ good_dict [("uphi_11", C1)] /\ (In "G" (needed "A") /\ ~ In (name_part "G") ("llphiphi" :: up_ops)) /\
    fst (do_translate f ckm1 msvd mb4 ms1 as1 lists0 with_nan w "Warsaw mass" None) = Ok w' /\ toy_printable l (DMap (entries w')) /\ ToolConv.valid world w'.
Proof.
  intros f msvd with_nan w K E Hb V.
  assert (coefficients_of f w = Ok [("uphi_11", C1)]) as D.
  { unfold coefficients_of, wc_dict. rewrite K, V, values_roundtrip. reflexivity. }
  destruct (warsawmass_spec ckm1 msvd None _ (good_uphi C1)) as (d & _ & R & _).
  assert (fst (do_translate f ckm1 msvd mb4 ms1 as1 lists0 with_nan w "Warsaw mass" None) = Ok (new_wc "SMEFT" "Warsaw mass" (wc_scale w) (dict2values (filter Wc.nonzero d)))) as T.
  { pose proof (C63_translations f ckm1 msvd mb4 ms1 as1 lists0 with_nan w "Warsaw mass" None) as T. rewrite E, Hb in T.
    lazymatch type of T with context [translation ?a1 ?b1 ?c1 ?d1 ?e1 ?f1 ?g1 ?h1 ?i1 ?j1] =>
      let m := eval hnf in (translation a1 b1 c1 d1 e1 f1 g1 h1 i1 j1) in change (translation a1 b1 c1 d1 e1 f1 g1 h1 i1 j1) with m in T; cbv iota beta in T end.
    refine (eq_trans T _). rewrite D. cbn [bind].
    exact (f_equal (fun r => bind r (fun d0 => Ok (new_wc "SMEFT" "Warsaw mass" (wc_scale w) (dict2values (filter Wc.nonzero d0))))) R). }
  match type of T with _ = Ok ?x => set (w' := x) in T; exists [w; w'], (one_basis (wc_eft w') (wc_basis w') (dkeys (wc_values w'))), w' end.
  assert (NoDup (map wc_basis [w; w'])) as N by (cbn [map]; rewrite Hb; repeat constructor; simpl; intuition discriminate).
  split; [exact N|]. split; [pose proof (toy_file_in f [w; w'] w N (or_introl eq_refl) K) as F; rewrite Hb in F; exact F|].
  split; [exact D|]. split; [exact (good_uphi C1)|]. split; [split|].
  - assert (existsb (String.eqb "G") (needed "A") = true) as G by (vm_cast_no_check (eq_refl true)).
    apply existsb_exists in G. destruct G as (x & I & Q). apply String.eqb_eq in Q. rewrite Q. exact I.
  - intros I. cbn in I. repeat (destruct I as [I|I]; [discriminate|]). destruct I.
  - split; [exact T|]. split; [exists w'; simpl; auto|]. apply one_basis_valid.
Qed.
Print Assumptions C68_files.
Print Assumptions C68_eoshome.
Print Assumptions C68_eos.
Print Assumptions C68_eos_stops.
Print Assumptions C68_any_order.
Print Assumptions C68_wrong_basis_refuted.
Print Assumptions C68_home_in_prefix_refuted.
Print Assumptions C68_smeftsim.
Print Assumptions C68_from_JMS.
Print Assumptions C68_from_SMEFT.
Print Assumptions C68_translated_refuted.
Print Assumptions C68_names.
