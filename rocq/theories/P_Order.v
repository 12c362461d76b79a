(** C75: the order of the keys in the files.  PyYAML writes the keys of mappings sorted; JSON keeps the order.  Here a file
    is only assumed to give back the same document up to the order of the keys.  The json and yaml packages, the order of
    [glob], LaTeX and pylha are variables. *)
From Coq Require Import String Ascii List Bool Arith ZArith Reals Lra Permutation.
From Verif Require Import PyBase PyDict Cplx Tensor Wc Dump DumpInit Tex Eos Cli Params WetExpr FlavorKit Package PackMatch Tool P_Tool SmeftSimSyntax SmeftSimTab SmeftSim SmeftSimText Sci SmeftSimPrint ToolConv P_ToolConv
  Args ArgsFacts ArgsForms ArgsThm ArgsAny P_Args Session P_Session Order OrderSession OrderPackage OrderInst OrderSort.
From Verif Require Bases LoadBasis LoadBasisThm P_Validate JsonText JsonSpec Wet WetList SmeftSyntax Smeft.
Import ListNotations.
Open Scope string_scope.
Open Scope list_scope.
Open Scope nat_scope.

Section C75.
Variable stdin : string.
Variable creatable : string -> bool.
Variable float_of_str : string -> option R.
Variables json_dumps yaml_dump : doc -> string.
Variables json_loads yaml_load : string -> res doc.
Variable translators : treg.
Variable matchers : mreg.
Variable world : Bases.world.
Variable odd : attrs -> list string -> res wc.
Variable odd_dict : attrs -> res (dict string num).
Variable order : list string -> list string.
Variable isdir : string -> bool.
Variable latex : string -> texrun.
Variable lha : tcard -> string.
Variable unusual : line -> st -> Z * st.
Notation session := (Session.session stdin creatable float_of_str json_dumps yaml_dump json_loads yaml_load translators matchers world odd odd_dict order isdir latex lha unusual).
Notation typable := (Session.typable creatable).
Notation file_of := (Tool.file_of float_of_str json_loads yaml_load).
Notation call := (Tool.call float_of_str translators matchers).
Notation calls := (Tool.calls float_of_str translators matchers).
Notation steps l := (map (fun x : step * string * string => fst (fst x)) l).
Notation outputs l := (map (fun x : step * string * string => snd x) l).
Notation parameters := (sm_of yaml_load order).
Notation valid := (ToolConv.valid world).

Variable printable : doc -> Prop.
Notation all_print := (Tool.all_print float_of_str translators matchers printable).
(** The laws of the printers and readers: nothing is said on the order of the keys. *)
Hypothesis json_roundtrip : forall d, printable d -> exists d', json_loads (json_dumps d) = Ok d' /\ same_doc d d'.
Hypothesis yaml_roundtrip : forall d, printable d -> exists d', yaml_load (yaml_dump d) = Ok d' /\ same_doc d d'.
Hypothesis yaml_not_json : forall m, m <> [] -> printable (DMap m) ->
  exists x, json_loads (yaml_dump (DMap m)) = Err x /\ (x = ValueError \/ x = JSONDecodeError).
Hypothesis printable_same : forall d d', printable d -> same_doc d d' -> printable d'.
(** The methods called one after the other do not depend on the order of the coefficients: so for the installed
    translators and matchers, C75_package. *)
Notation order_free := (Order.order_free float_of_str translators matchers).
(** A call that fails whatever the order *)
Notation always_fails := (OrderSession.always_fails float_of_str translators matchers).
Definition plain_file (w : wc) : Prop := wc_cache w = None /\ distinct (DMap (wc_values w)).

(** Typed translations and matchings, each on the file written before, leave a file with the coefficients that the methods
    compute one after the other.  Nothing is printed and no other file changes. *)
Theorem C75_chain : forall l p s w w', chain_ok l p -> typable l -> file_name p -> dmem (files s) p = true -> file_of (content s p) w -> plain_file w ->
  calls (steps l) w = Ok w' -> all_print (steps l) w -> order_free (steps l) w ->
  let r := session (chain_lines l p) s in
  fst r = map (fun _ => 0%Z) l /\ (exists w2, file_of (content (snd r) (last_file l p)) w2 /\ same_wc w' w2) /\ seen (snd r) = seen s /\
  forall f, ~ In f (outputs l) -> dget (files (snd r)) f = dget (files s) f.
Proof.
  intros l p s w w' K T N D F [Pc Pd] C A O r.
  destruct (chain_same stdin creatable float_of_str json_dumps yaml_dump json_loads yaml_load translators matchers world odd odd_dict order isdir latex lha unusual
    printable json_roundtrip yaml_roundtrip yaml_not_json printable_same l p s w w w' K T N D (same_wc_refl w Pc Pd) F C A O) as (H1 & H2 & H3 & H4 & H5 & _).
  auto.
Qed.
Theorem C75_chain_stops : forall l1 x fmt q l2 p s w v, json_loads "" = Err JSONDecodeError -> yaml_load "" = Ok DNull ->
  chain_ok (l1 ++ (x, fmt, q) :: l2) p -> typable (l1 ++ (x, fmt, q) :: l2) -> file_name p -> dmem (files s) p = true ->
  file_of (content s p) w -> plain_file w -> calls (steps l1) w = Ok v -> all_print (steps l1) w -> order_free (steps l1) w -> always_fails x v ->
  fst (session (chain_lines (l1 ++ (x, fmt, q) :: l2) p) s) = map (fun _ => 0%Z) l1 ++ 1%Z :: map (fun _ => 1%Z) l2.
Proof.
  intros l1 x fmt q l2 p s w v Je Ye K T N D F [Pc Pd] C A O X.
  exact (chain_fails_same stdin creatable float_of_str json_dumps yaml_dump json_loads yaml_load translators matchers world odd odd_dict order isdir latex lha unusual
    printable json_roundtrip yaml_roundtrip yaml_not_json printable_same Je Ye l1 x fmt q l2 p s w w v K T N D (same_wc_refl w Pc Pd) F C A O X).
Qed.
Theorem C75_chain_validate : forall l p s w w', chain_ok l p -> typable l -> file_name p -> dmem (files s) p = true -> file_of (content s p) w -> plain_file w ->
  calls (steps l) w = Ok w' -> all_print (steps l) w -> order_free (steps l) w -> file_name (last_file l p) ->
  let r := session (chain_lines l p ++ [Wcxf ["validate"; "wc"; last_file l p]]) s in
  (valid w' -> fst r = map (fun _ => 0%Z) l ++ [0%Z] /\ seen (snd r) = seen s ++ [Printed "Validation successful."]) /\
  (forall e, fst (Bases.wc_validate world (wc_eft w') (wc_basis w') (dkeys (wc_values w'))) = Err e -> e <> AttributeError -> e <> SystemExit ->
     fst r = map (fun _ => 0%Z) l ++ [1%Z] /\ seen (snd r) = seen s ++ [Trace e]).
Proof.
  intros l p s w w' K T N D F [Pc Pd] C A O Nl r.
  destruct (chain_same stdin creatable float_of_str json_dumps yaml_dump json_loads yaml_load translators matchers world odd odd_dict order isdir latex lha unusual
    printable json_roundtrip yaml_roundtrip yaml_not_json printable_same l p s w w w' K T N D (same_wc_refl w Pc Pd) F C A O) as (H1 & (w2 & H2 & Sw) & H3 & H4 & _ & _).
  unfold r. rewrite session_app. destruct (session (chain_lines l p) s) as [ns s1]. cbn [fst snd] in H1, H2, H3, H4. subst ns.
  cbn [Session.session]. rewrite validate_line by (auto; cbn; discriminate).
  assert (file_of (P_Tool.input (SFile (last_file l p)) DStdout s1) w2) as F1 by exact H2.
  pose proof (C66_validate float_of_str json_dumps yaml_dump json_loads yaml_load translators matchers world odd
      LoadBasis.loaded (LoadBasis.eft_load json_loads yaml_load) (LoadBasis.basis_load json_loads yaml_load world) (LoadBasis.doc_validate world (P_Validate.tex_of latex)) (SFile (last_file l p)) s1 w2 F1) as V.
  rewrite <- (same_validate world w' w2 Sw) in V. unfold LoadBasisThm.tool. rewrite V. unfold ToolConv.valid. split.
  - intros Vw. rewrite Vw. cbn [fst snd seen]. rewrite H4. split; reflexivity.
  - intros e Ve Na Ns. rewrite Ve. destruct e; try congruence; cbn [fst snd seen]; rewrite H4; split; reflexivity.
Qed.
(** ... or made into parameters for EOS, with the parameter files as they were before the session. *)
Theorem C75_chain_eos : forall l p s w w' d sm prefix o, chain_ok l p -> typable l -> file_name p -> dmem (files s) p = true -> file_of (content s p) w -> plain_file w ->
  calls (steps l) w = Ok w' -> all_print (steps l) w -> order_free (steps l) w -> file_name (last_file l p) -> file_name o -> creatable o = true -> plain prefix -> last_file l p <> o ->
  (forall g, Permutation (order g) g) -> (forall q, In q (o :: outputs l) -> in_dir (params_dir prefix) q = false) ->
  valid w' -> fst (wc_dict float_of_str w') = Ok d -> parameters (params_dir prefix) (files s) = Ok sm -> centrals sm -> (forall k, In k (dkeys sm) -> exists x, eos_np k d = Ok x) ->
  let r := session (chain_lines l p ++ [Wcxf2eos [last_file l p; "--eosprefix"; prefix; "--output"; o]]) s in
  fst r = map (fun _ => 0%Z) l ++ [0%Z] /\ seen (snd r) = seen s /\
  exists out, dget (files (snd r)) o = Some (yaml_dump (eos_doc out)) /\ P_ToolConv.holds out sm (fun k x => eos_np k d = Ok x).
Proof.
  intros l p s w w' d sm prefix o K T N D F [Pc Pd] C A O Nl No Co Pp Nlo Po Out V Dw S Ce E r.
  destruct (chain_same stdin creatable float_of_str json_dumps yaml_dump json_loads yaml_load translators matchers world odd odd_dict order isdir latex lha unusual
    printable json_roundtrip yaml_roundtrip yaml_not_json printable_same l p s w w w' K T N D (same_wc_refl w Pc Pd) F C A O) as (H1 & (w2 & H2 & Sw) & H3 & H4 & _ & H6).
  unfold r. rewrite session_app. destruct (session (chain_lines l p) s) as [ns s1]. cbn [fst snd] in H1, H2, H3, H4, H6. subst ns.
  cbn [Session.session]. rewrite eos_line by auto.
  destruct (same_wc_dict float_of_str w' w2 d Sw Dw) as (d1 & Dw1 & Wd & Pd1). pose proof (proj2 (perm_get d d1 Wd Pd1)) as G.
  assert (valid w2) as V2 by (unfold ToolConv.valid; rewrite <- (same_validate world w' w2 Sw); exact V).
  destruct (C68_eos float_of_str yaml_dump json_loads yaml_load world order odd_dict isdir (SFile (last_file l p)) prefix (DFile o) None (truncate (DFile o) s1) w2 d1 sm) as (out & R & H); auto.
  - discriminate.
  - cbn [eos_target source_text]. rewrite !content_other by auto. exact H2.
  - cbn [eos_target truncate files]. rewrite !sm_of_dset by (auto; apply Out; left; reflexivity). rewrite H6; auto. intros q Iq. apply Out. right. exact Iq.
  - intros k I. destruct (E k I) as (y & Y). exists y. rewrite <- (eos_np_ext k d d1 G). exact Y.
  - rewrite R. cbn [fst snd eos_target put truncate files seen]. split; [reflexivity|]. split; [exact H4|]. exists out. split; [|unfold P_ToolConv.holds in *; destruct H as [Hk H]; split; [exact Hk|]; intros k m y x Sk Cy Nx; apply (H k m y x Sk Cy); rewrite <- (eos_np_ext k d d1 G); exact Nx].
    rewrite dget_dset, keqb_refl. reflexivity.
Qed.
(** ... or into a card for SMEFTsim, which lacks no coefficient. *)
Theorem C75_chain_smeftsim : forall l p s w w' d set scheme t L o key, chain_ok l p -> typable l -> file_name p -> dmem (files s) p = true -> file_of (content s p) w -> plain_file w ->
  calls (steps l) w = Ok w' -> all_print (steps l) w -> order_free (steps l) w -> file_name (last_file l p) -> plain o -> model_set set -> input_scheme scheme -> float_of_str t = Some L -> plain t ->
  valid w' -> wc_basis w' = "Warsaw mass" -> fst (wc_dict float_of_str w') = Ok d ->
  let r := session (chain_lines l p ++ [Wcxf2smeftsim [last_file l p; "--model-set"; set; "--input-scheme"; scheme; "--cutoff-scale"; t; "--output"; o] key]) s in
  (SmeftSim.complete set d -> fst r = map (fun _ => 0%Z) l ++ [0%Z] /\ seen (snd r) = seen s /\
     exists c tc a b, make_card d set L scheme = Ok c /\ printed_card c tc /\ smeftsim_card_text set scheme = Ok (a, b) /\
       dget (files (snd r)) o = Some (a ++ lha tc ++ b)%string) /\
  (missing set d -> fst r = map (fun _ => 0%Z) l ++ [1%Z] /\ dget (files (snd r)) o = Some "").
Proof.
  intros l p s w w' d set scheme t L o key K T N D F [Pc Pd] C A O Nl No Ms Is Ft Pt V B Dw r.
  destruct (chain_same stdin creatable float_of_str json_dumps yaml_dump json_loads yaml_load translators matchers world odd odd_dict order isdir latex lha unusual
    printable json_roundtrip yaml_roundtrip yaml_not_json printable_same l p s w w w' K T N D (same_wc_refl w Pc Pd) F C A O) as (H1 & (w2 & H2 & Sw) & H3 & H4 & _ & _).
  unfold r. rewrite session_app. destruct (session (chain_lines l p) s) as [ns s1]. cbn [fst snd] in H1, H2, H3, H4. subst ns.
  cbn [Session.session]. rewrite sim_line with (L := L) by auto.
  destruct (same_wc_dict float_of_str w' w2 d Sw Dw) as (d1 & Dw1 & Wd & Pd1). pose proof (proj2 (perm_get d d1 Wd Pd1)) as G.
  assert (valid w2) as V2 by (unfold ToolConv.valid; rewrite <- (same_validate world w' w2 Sw); exact V).
  assert (wc_basis w2 = "Warsaw mass") as B2 by (rewrite <- B; symmetry; apply Sw).
  destruct (C68_smeftsim float_of_str json_loads yaml_load world odd_dict isdir lha set scheme L (SFile (last_file l p)) o key s1 w2 d1 Ms Is H2 V2 B2 Dw1) as [Q1 Q2]. split.
  - intros Cm. destruct (Q1 (complete_ext set d d1 G Cm)) as (c & tc & a & b & M & P & X & R). rewrite R. cbn [fst snd put files seen]. split; [reflexivity|]. split; [exact H4|].
    exists c, tc, a, b. split; [rewrite (make_card_ext d d1 set L scheme G); exact M|]. repeat (split; [assumption|]). rewrite dget_dset, keqb_refl. reflexivity.
  - intros Mi. rewrite (Q2 (missing_ext set d d1 G Mi)). cbn [fst snd files]. split; [reflexivity|]. rewrite dget_dset, keqb_refl. reflexivity.
Qed.
End C75.

(** ** The installed translators and matchers *)
Section Installed.
Variable float_of_str : string -> option R.
Variable ckm_tree : R -> R -> R -> R -> mat.
Variable msvd_values : mat -> fl -> C.
Variable qcd_mb qcd_ms : R -> R -> R -> res R.
Variable qcd_as : R -> R -> res R.
Variable all_wcs_of : string -> string -> list string.
Variable with_nan : dict string cval -> res (dict string C).
Notation translators := (Package.installed ckm_tree msvd_values qcd_mb qcd_ms qcd_as all_wcs_of with_nan).
Notation matchers := (Package.installed_m ckm_tree qcd_mb qcd_ms qcd_as all_wcs_of with_nan).
(** A dictionary has no key twice; the dipoles of the JMS basis have two flavour indices. *)
Hypothesis nan_dict : forall d o, wf d -> with_nan d = Ok o -> wf o.
Hypothesis JMS_names : forall k, In k (all_wcs_of "WET" "JMS") -> jms_known k.
(** [known_wc]: in the SMEFT, the names consist of an operator and its flavour indices; in the FlavorKit basis, they are
    those that the translator knows; in the JMS basis, dipoles have two flavour indices.  Other names are not restricted. *)
(** The order of the coefficients does not matter for WC.translate and WC.match ... *)
Theorem C75_translate : forall w w1 t p u, same_wc w w1 -> known_wc w -> fst (Wc.translate float_of_str translators w t p) = Ok u ->
  exists u1, fst (Wc.translate float_of_str translators w1 t p) = Ok u1 /\ same_wc u u1.
Proof. intros w w1 t p u. exact (translate_same _ _ _ _ _ _ _ nan_dict JMS_names float_of_str w w1 t p u). Qed.
Theorem C75_match : forall w w1 e t p u, same_wc w w1 -> known_wc w -> fst (Wc.wmatch float_of_str matchers w e t p) = Ok u ->
  exists u1, fst (Wc.wmatch float_of_str matchers w1 e t p) = Ok u1 /\ same_wc u u1.
Proof. intros w w1 e t p u. exact (match_same_wc _ msvd_values _ _ _ _ _ nan_dict JMS_names float_of_str w w1 e t p u). Qed.
(** ... and the results have such names again, so that it does not matter for any sequence of calls.  With this, the
    theorems above need no further assumption for the installed translators and matchers. *)
Theorem C75_package : forall l w, wc_cache w = None -> distinct (DMap (wc_values w)) -> known_wc w -> Order.order_free float_of_str translators matchers l w.
Proof.
  intros l w C D K. apply (installed_order_free _ _ _ _ _ _ _ nan_dict JMS_names); auto. inversion D; assumption.
Qed.
(** If a call fails, it fails for all orders. *)
Theorem C75_fails : forall x w w1 e, same_wc w w1 -> known_wc w -> Tool.call float_of_str translators matchers x w = Err e ->
  exists e1, Tool.call float_of_str translators matchers x w1 = Err e1.
Proof. intros x w w1 e. exact (installed_fails _ _ _ _ _ _ _ nan_dict JMS_names float_of_str x w w1 e). Qed.
(** With other names the order matters: here the translation works for one order and fails for the other. *)
Theorem C75_order_refuted : forall q x y, Wet.get_parameters qcd_mb qcd_ms qcd_as 5 None = Ok q -> usable_fk q ->
  exists w w1 u, same_wc w w1 /\ dkeys (wc_values w) = ["K2R_12"; "K2R_41"] /\ fst (wc_dict float_of_str w) = Ok [("K2R_12", x); ("K2R_41", y)] /\
    fst (Wc.translate float_of_str translators w "JMS" None) = Ok u /\ fst (Wc.translate float_of_str translators w1 "JMS" None) = Err UnboundLocalError.
Proof.
  intros q x y Q Us. destruct (stale_mass q x y Us) as [A (w & B)].
  set (d := [("K2R_12", x); ("K2R_41", y)]). set (d1 := [("K2R_41", y); ("K2R_12", x)]).
  assert (wf d) as Wd by (repeat constructor; cbn; intuition discriminate).
  exists (new_wc "WET" "FlavorKit" 5 (dict2values d)), (new_wc "WET" "FlavorKit" 5 (dict2values d1)). eexists.
  split; [|split; [reflexivity|split; [apply new_dict|split]]].
  - split; [reflexivity|]. split; [reflexivity|]. split; [reflexivity|]. split; [reflexivity|]. split; [reflexivity|]. cbn [new_wc wc_values]. apply (written_values float_of_str); [exact Wd|apply perm_swap].
  - eapply (translate_eq float_of_str ckm_tree msvd_values qcd_mb qcd_ms qcd_as all_wcs_of with_nan "WET" "FlavorKit" "JMS" (reg_FlavorKit_JMS qcd_mb qcd_ms qcd_as) (new_wc "WET" "FlavorKit" 5 (dict2values d)) None d); [reflexivity|reflexivity|reflexivity|apply new_dict|].
    unfold reg_FlavorKit_JMS, FlavorKit_to_JMS. cbn [new_wc wc_scale]. rewrite Q. exact B.
  - eapply (translate_fails float_of_str ckm_tree msvd_values qcd_mb qcd_ms qcd_as all_wcs_of with_nan "WET" "FlavorKit" "JMS" (reg_FlavorKit_JMS qcd_mb qcd_ms qcd_as) (new_wc "WET" "FlavorKit" 5 (dict2values d1)) None d1); [reflexivity|reflexivity|reflexivity|apply new_dict|].
    unfold reg_FlavorKit_JMS, FlavorKit_to_JMS. cbn [new_wc wc_scale]. rewrite Q. cbn [bind]. clear - A. unfold d1. cbn [fk_run] in *. destruct (fk_one q None "K2R_41" y); [discriminate|]. exact A.
Qed.
End Installed.

(** ** A printer that sorts the keys, as PyYAML does, meets the laws for all documents that can be written. *)
Theorem C75_sorting : forall num_value wide num_text,
  let loads := JsonText.json_loads num_value wide in let dumps := JsonText.json_dumps num_text None in let written := JsonSpec.written num_text num_value in
  (forall d, written d -> exists d', loads (dumps d) = Ok d' /\ same_doc d d') /\
  (forall d, written d -> exists d', sort_load num_value wide (sort_dump num_text d) = Ok d' /\ same_doc d d') /\
  (forall m, m <> [] -> written (DMap m) -> exists x, loads (sort_dump num_text (DMap m)) = Err x /\ (x = ValueError \/ x = JSONDecodeError)) /\
  (forall d d', written d -> same_doc d d' -> written d') /\ loads "" = Err JSONDecodeError /\ sort_load num_value wide "" = Ok DNull.
Proof. exact sort_laws. Qed.

(** ** Cases *)
(** The names that are asked for: of a Warsaw, a FlavorKit and a JMS file *)
Definition no_nan : dict string cval -> res (dict string C) := fun _ => Err ValueError.
Example C75_names : forall x, known_wc (new_wc "SMEFT" "Warsaw" 160 [("phiq1_12", x); ("G", x); ("ll_1122", x)]) /\
  known_wc (new_wc "WET" "FlavorKit" 5 [("AVLL_2231", x); ("K2R_12", x); ("K2R_11", x)]) /\ known_wc (new_wc "WET" "JMS" 5 [("egamma_12", x); ("VeeLL_1223", x); ("foo", x)]) /\
  known_wc (new_wc "WET" "flavio" 5 [("C9_bsmumu", x); ("foo", x)]) /\ (forall d o, wf d -> no_nan d = Ok o -> wf o) /\ (forall k, In k WetList.J0 -> jms_known k).
Proof.
  intros x.
  split; [|split; [|split; [|split; [|split]]]].
  - intros k [<-|[<-|[<-|[]]]]; (split; [intros _|split; discriminate]).
    + exists "phiq1", SmeftSyntax.Sh2, [F1; F2]. split; [vm_compute; reflexivity|]. split; [apply idx2_in|reflexivity].
    + exists "G", SmeftSyntax.Sh0, []. split; [vm_compute; reflexivity|]. split; [left; reflexivity|reflexivity].
    + exists "ll", SmeftSyntax.Sh4, [F1; F1; F2; F2]. split; [vm_compute; reflexivity|]. split; [|reflexivity]. vm_compute. tauto.
  - intros k I. split; [discriminate|]. split; [intros _|discriminate]. unfold fk_known. rewrite !in_app_iff. destruct I as [<-|[<-|[<-|[]]]].
    + right. left. cbn. auto.
    + right. right. vm_compute. tauto.
    + right. right. vm_compute. tauto.
  - intros k I. split; [discriminate|]. split; [discriminate|intros _]. destruct I as [<-|[<-|[<-|[]]]]; intros Q; [vm_compute; tauto|discriminate Q|discriminate Q].
  - intros k I. apply known_other; discriminate.
  - discriminate.
  - assert (forallb (fun k => negb (String.eqb (hd "" (Smeft.split_us k)) "egamma") || existsb (String.eqb k) egammas) WetList.J0 = true) as H by (vm_compute; reflexivity).
    intros k I Q. rewrite forallb_forall in H. specialize (H k I). rewrite Q in H. cbn [String.eqb Ascii.eqb Bool.eqb negb orb] in H.
    apply existsb_exists in H. destruct H as (k' & I' & E). apply String.eqb_eq in E. subst k'. exact I'.
Qed.

(** A session with the sorting printer: wcxf translate EOS in --output mid --format yaml *)
Definition text25 (x : R) : string := if Req_EM_T x 5 then "5.0" else "2.0".
Definition value25 (s : string) : R := if String.eqb s "5.0" then 5%R else 2%R.
Definition dir25 : st := St [("in", sort_dump text25 (DMap (entries wc2)))] [].
Lemma text25_nums : text25 5 = "5.0" /\ text25 2 = "2.0".
Proof. unfold text25. destruct (Req_EM_T 5 5); [|congruence]. destruct (Req_EM_T 2 5); [lra|auto]. Qed.
Lemma written25 : JsonSpec.written text25 value25 (DMap (entries wc1)) /\ JsonSpec.written text25 value25 (DMap (entries wc2)).
Proof.
  destruct text25_nums as [A B].
  assert (JsonSpec.written text25 value25 (DNum 5)) as W5.
  { constructor; rewrite A; [|reflexivity]. exists "", "5", ".0", "". repeat split; auto.
    - right. repeat split; try discriminate; cbn; tauto.
    - right. exists "0". repeat split; try discriminate; cbn; tauto. }
  assert (JsonSpec.written text25 value25 (DNum 2)) as W2.
  { constructor; rewrite B; [|reflexivity]. exists "", "2", ".0", "". repeat split; auto.
    - right. repeat split; try discriminate; cbn; tauto.
    - right. exists "0". repeat split; try discriminate; cbn; tauto. }
  assert (forall v, NoDup (map fst v) -> (forall k d, In (k, d) v -> d = DNum 2) -> JsonSpec.written text25 value25 (DMap v)) as V.
  { intros v N H. constructor; [exact N|]. intros k d I. rewrite (H k d I). exact W2. }
  split; (constructor; [repeat constructor; cbn; intuition discriminate|]); intros k d I; cbn in I; repeat (destruct I as [I|I]; [injection I as <- <-; first [exact W5|constructor; fail|apply V; [repeat constructor; cbn; intuition discriminate|cbn; intuition congruence]]|]); destruct I.
Qed.
Example C75_case : forall fs wide stdin odd odd_dict order isdir latex lha unusual,
  let l := [(STranslate "EOS", "yaml", "mid")] in
  chain_ok l "in" /\ Session.typable (fun _ => true) l /\ file_name "in" /\ plain_file wc2 /\
  Tool.file_of fs (JsonText.json_loads value25 wide) (sort_load value25 wide) (content dir25 "in") wc2 /\ Order.order_free fs case_reg None [STranslate "EOS"] wc2 /\
  let r := Session.session stdin (fun _ => true) fs (JsonText.json_dumps text25 None) (sort_dump text25) (JsonText.json_loads value25 wide) (sort_load value25 wide) case_reg None toy_world
    odd odd_dict order isdir latex lha unusual [Wcxf ["translate"; "EOS"; "in"; "--output"; "mid"; "--format"; "yaml"]] dir25 in
  fst r = [0%Z] /\ exists w2, Tool.file_of fs (JsonText.json_loads value25 wide) (sort_load value25 wide) (content (snd r) "mid") w2 /\ same_wc wc1 w2.
Proof.
  intros fs wide stdin odd odd_dict order isdir latex lha unusual l. destruct text25_nums as [A B]. destruct written25 as [P1 P2].
  assert (chain_ok l "in") as K by (cbn; split; [discriminate|]; split; [right; reflexivity|exact I]).
  assert (Session.typable (fun _ => true) l) as T.
  { constructor; [|constructor]. cbn [fst snd step_words]. split; [repeat constructor; cbn; discriminate|]. split; [cbn; discriminate|]. split; [split; [cbn; discriminate|discriminate]|reflexivity]. }
  assert (file_name "in") as N by (split; [cbn; discriminate|discriminate]).
  assert (plain_file wc2) as Pf.
  { split; [reflexivity|]. constructor; [repeat constructor; simpl; intuition discriminate|]. intros k v E. apply dget_In in E. destruct E as [[= <- <-]|[]]. constructor. }
  assert (Tool.file_of fs (JsonText.json_loads value25 wide) (sort_load value25 wide) (content dir25 "in") wc2) as F.
  { exists [("basis", DStr "flavio"); ("eft", DStr "WET"); ("scale", DNum 5); ("values", DMap [("C9_bsmumu", DNum 2)])], (DNum 5).
    split.
    { change (content dir25 "in") with (sort_dump text25 (DMap (entries wc2))). unfold load_text. change (JsonText.json_loads value25 wide (sort_dump text25 (DMap (entries wc2)))) with (Err JSONDecodeError : res doc). cbn iota.
      unfold sort_load, sort_dump. refine (JsonFacts.loads_dumps _ _ _ _ _ _). apply JsonSpec.written_doc. exact (written_same _ _ (DMap (entries wc2)) _ P2 (sorted_same _ (written_distinct _ _ _ P2))). }
    split; [repeat constructor; simpl; intuition discriminate|]. do 6 (split; [reflexivity|]).
    intros k I. unfold reserved in I. simpl in I. repeat (destruct I as [<-|I]; [reflexivity|]). destruct I. }
  assert (Order.order_free fs case_reg None [STranslate "EOS"] wc2) as O.
  { intros [|n] x v E C; [|destruct n; discriminate]. injection E as <-. injection C as <-. apply any_order_insensitive. intros fn d Fn D. injection Fn as <-.
    intros sc p d1 o _ E. injection E as <-. assert (wf [("ubenue::cVL", RtoC 2); ("ubmunumu::cVL", RtoC 2)]) as W by (repeat constructor; simpl; intuition discriminate). eauto. }
  assert (Tool.calls fs case_reg None [STranslate "EOS"] wc2 = Ok wc1) as C by (cbn [Tool.calls]; rewrite case_call; reflexivity).
  assert (Tool.all_print fs case_reg None (JsonSpec.written text25 value25) [STranslate "EOS"] wc2) as Pr.
  { intros [|n] v Z E; [congruence|]. cbn [firstn] in E. rewrite firstn_nil in E. rewrite C in E. injection E as <-. exact P1. }
  repeat (split; [assumption|]). destruct (C75_sorting value25 wide text25) as (S1 & S2 & S3 & S4 & _ & _).
  destruct (C75_chain stdin (fun _ => true) fs (JsonText.json_dumps text25 None) (sort_dump text25) (JsonText.json_loads value25 wide) (sort_load value25 wide) case_reg None toy_world
    odd odd_dict order isdir latex lha unusual (JsonSpec.written text25 value25) S1 S2 S3 S4 l "in" dir25 wc2 wc1 K T N eq_refl F Pf C Pr O) as (R1 & R2 & _).
  split; [exact R1|exact R2].
Qed.
(** Its second file has the keys sorted: "basis" comes first. *)
Example C75_sorted : sorted (DMap (entries wc1)) = DMap [("basis", DStr "EOS"); ("eft", DStr "WET"); ("scale", DNum 5); ("values", DMap [("ubenue::cVL", DNum 2); ("ubmunumu::cVL", DNum 2)])] /\
  dkeys (entries wc1) <> ["basis"; "eft"; "scale"; "values"].
Proof. split; [reflexivity|discriminate]. Qed.

Print Assumptions C75_chain.
Print Assumptions C75_chain_stops.
Print Assumptions C75_chain_validate.
Print Assumptions C75_chain_eos.
Print Assumptions C75_chain_smeftsim.
Print Assumptions C75_translate.
Print Assumptions C75_match.
Print Assumptions C75_package.
Print Assumptions C75_fails.
Print Assumptions C75_order_refuted.
Print Assumptions C75_sorting.
