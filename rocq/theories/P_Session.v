(** C73: sessions of typed command lines.  The json and yaml packages, the order of [glob], LaTeX and pylha are
    variables, as are the installed translators and matchers. *)
From Coq Require Import String Ascii List Bool Arith ZArith Reals Lra Permutation.
From Verif Require Import PyBase PyDict Cplx Wc Dump DumpInit Tex Eos Cli Package PackMatch Tool P_Tool SmeftSimSyntax SmeftSimTab SmeftSim SmeftSimText Sci SmeftSimPrint ToolConv P_ToolConv
  Args ArgsFacts ArgsForms ArgsThm ArgsAny P_Args Session.
From Verif Require Bases LoadBasis LoadBasisThm P_Validate.
Import ListNotations.
Open Scope string_scope.
Open Scope list_scope.
Open Scope nat_scope.

Section C73.
Variable stdin : string.
Variable creatable : string -> bool.
Variable float_of_str : string -> option R.
Variables json_dumps yaml_dump : doc -> string.
Variables json_loads yaml_load : string -> res doc.
Variable translators : treg.
Variable matchers : mreg.
Variable world : Bases.world.
Variable odd : attrs -> list string -> res wc.
Variable odd_dict : attrs -> res (dict string num).
Variable order : list string -> list string.
Variable isdir : string -> bool.
Variable latex : string -> texrun.
Variable lha : tcard -> string.
Variable unusual : line -> st -> Z * st.
Notation session := (Session.session stdin creatable float_of_str json_dumps yaml_dump json_loads yaml_load translators matchers world odd odd_dict order isdir latex lha unusual).
Notation typable := (Session.typable creatable).
Notation file_of := (Tool.file_of float_of_str json_loads yaml_load).
Notation call := (Tool.call float_of_str translators matchers).
Notation calls := (Tool.calls float_of_str translators matchers).
Notation steps l := (map (fun x : step * string * string => fst (fst x)) l).
Notation outputs l := (map (fun x : step * string * string => snd x) l).
Notation parameters := (sm_of yaml_load order).
Notation valid := (ToolConv.valid world).

(** Typed "wcxf validate TYPE FILE": C66_validate and C72 say what comes out. *)
Theorem C73_validate : forall t f s, plain t -> file_name f -> dmem (files s) f = true ->
  session [Wcxf ["validate"; t; f]] s =
  let r := P_Validate.wcxf_validate float_of_str json_dumps yaml_dump json_loads yaml_load translators matchers odd latex world t (SFile f) s in ([fst r], snd r).
Proof.
  intros t f s Pt Nf D. cbn [Session.session]. rewrite validate_line by auto. unfold P_Validate.wcxf_validate.
  destruct (LoadBasisThm.tool _ _ _ _ _ _ _ _ _ _ _ _) as [n s1]. reflexivity.
Qed.

Variable printable : doc -> Prop.
Notation all_print := (Tool.all_print float_of_str translators matchers printable).
Hypothesis json_roundtrip : forall d, printable d -> json_loads (json_dumps d) = Ok d.
Hypothesis yaml_roundtrip : forall d, printable d -> yaml_load (yaml_dump d) = Ok d.
Hypothesis yaml_not_json : forall m, m <> [] -> printable (DMap m) ->
  exists x, json_loads (yaml_dump (DMap m)) = Err x /\ (x = ValueError \/ x = JSONDecodeError).

(** Typed translations and matchings, each on the file written before, compute what the methods compute one after the
    other.  Nothing is printed and no other file changes. *)
Theorem C73_chain : forall l p s w w', chain_ok l p -> typable l -> file_name p -> dmem (files s) p = true -> file_of (content s p) w ->
  calls (steps l) w = Ok w' -> all_print (steps l) w ->
  let r := session (chain_lines l p) s in
  fst r = map (fun _ => 0%Z) l /\ file_of (content (snd r) (last_file l p)) w' /\ seen (snd r) = seen s /\
  forall f, ~ In f (outputs l) -> dget (files (snd r)) f = dget (files s) f.
Proof.
  intros l p s w w' K T N D F C A r.
  destruct (chain_run stdin creatable float_of_str json_dumps yaml_dump json_loads yaml_load translators matchers world odd odd_dict order isdir latex lha unusual
    printable json_roundtrip yaml_roundtrip yaml_not_json l p s w w' K T N D F C A) as (H1 & H2 & H3 & H4 & H5 & _). auto.
Qed.
(** If one of the calls raises an exception (other than AttributeError, C66_command_fails), its command and all the
    following ones end with status 1. *)
Theorem C73_chain_stops : forall l1 x fmt q l2 p s w v e, json_loads "" = Err JSONDecodeError -> yaml_load "" = Ok DNull ->
  chain_ok (l1 ++ (x, fmt, q) :: l2) p -> typable (l1 ++ (x, fmt, q) :: l2) -> file_name p -> dmem (files s) p = true ->
  file_of (content s p) w -> calls (steps l1) w = Ok v -> all_print (steps l1) w -> call x v = Err e -> e <> AttributeError -> e <> SystemExit ->
  fst (session (chain_lines (l1 ++ (x, fmt, q) :: l2) p) s) = map (fun _ => 0%Z) l1 ++ 1%Z :: map (fun _ => 1%Z) l2.
Proof.
  intros l1 x fmt q l2 p s w v e J Y.
  exact (chain_fails stdin creatable float_of_str json_dumps yaml_dump json_loads yaml_load translators matchers world odd odd_dict order isdir latex lha unusual
    printable json_roundtrip yaml_roundtrip yaml_not_json J Y l1 x fmt q l2 p s w v e).
Qed.
(** The result is then validated. *)
Theorem C73_chain_validate : forall l p s w w', chain_ok l p -> typable l -> file_name p -> dmem (files s) p = true -> file_of (content s p) w ->
  calls (steps l) w = Ok w' -> all_print (steps l) w -> file_name (last_file l p) ->
  let r := session (chain_lines l p ++ [Wcxf ["validate"; "wc"; last_file l p]]) s in
  (valid w' -> fst r = map (fun _ => 0%Z) l ++ [0%Z] /\ seen (snd r) = seen s ++ [Printed "Validation successful."]) /\
  (forall e, fst (Bases.wc_validate world (wc_eft w') (wc_basis w') (dkeys (wc_values w'))) = Err e -> e <> AttributeError -> e <> SystemExit ->
     fst r = map (fun _ => 0%Z) l ++ [1%Z] /\ seen (snd r) = seen s ++ [Trace e]).
Proof.
  intros l p s w w' K T N D F C A Nl r.
  destruct (chain_run stdin creatable float_of_str json_dumps yaml_dump json_loads yaml_load translators matchers world odd odd_dict order isdir latex lha unusual
    printable json_roundtrip yaml_roundtrip yaml_not_json l p s w w' K T N D F C A) as (H1 & H2 & H3 & H4 & _ & _).
  unfold r. rewrite session_app. destruct (session (chain_lines l p) s) as [ns s1]. cbn [fst snd] in H1, H2, H3, H4. subst ns.
  cbn [Session.session]. rewrite validate_line by (auto; cbn; discriminate).
  assert (file_of (P_Tool.input (SFile (last_file l p)) DStdout s1) w') as F1 by exact H2.
  pose proof (C66_validate float_of_str json_dumps yaml_dump json_loads yaml_load translators matchers world odd
      LoadBasis.loaded (LoadBasis.eft_load json_loads yaml_load) (LoadBasis.basis_load json_loads yaml_load world) (LoadBasis.doc_validate world (P_Validate.tex_of latex)) (SFile (last_file l p)) s1 w' F1) as V.
  unfold LoadBasisThm.tool. rewrite V. unfold ToolConv.valid. split.
  - intros Vw. rewrite Vw. cbn [fst snd seen]. rewrite H4. split; reflexivity.
  - intros e Ve Na Ns. rewrite Ve. destruct e; try congruence; cbn [fst snd seen]; rewrite H4; split; reflexivity.
Qed.
(** ... or made into parameters for EOS, with the parameter files as they were before the session. *)
Theorem C73_chain_eos : forall l p s w w' d sm prefix o, chain_ok l p -> typable l -> file_name p -> dmem (files s) p = true -> file_of (content s p) w ->
  calls (steps l) w = Ok w' -> all_print (steps l) w -> file_name (last_file l p) -> file_name o -> creatable o = true -> plain prefix -> last_file l p <> o ->
  (forall g, Permutation (order g) g) -> (forall q, In q (o :: outputs l) -> in_dir (params_dir prefix) q = false) ->
  valid w' -> fst (wc_dict float_of_str w') = Ok d -> parameters (params_dir prefix) (files s) = Ok sm -> centrals sm -> (forall k, In k (dkeys sm) -> exists x, eos_np k d = Ok x) ->
  let r := session (chain_lines l p ++ [Wcxf2eos [last_file l p; "--eosprefix"; prefix; "--output"; o]]) s in
  fst r = map (fun _ => 0%Z) l ++ [0%Z] /\ seen (snd r) = seen s /\
  exists out, dget (files (snd r)) o = Some (yaml_dump (eos_doc out)) /\ P_ToolConv.holds out sm (fun k x => eos_np k d = Ok x).
Proof.
  intros l p s w w' d sm prefix o K T N D F C A Nl No Co Pp Nlo Po Out V Dw S Ce E r.
  destruct (chain_run stdin creatable float_of_str json_dumps yaml_dump json_loads yaml_load translators matchers world odd odd_dict order isdir latex lha unusual
    printable json_roundtrip yaml_roundtrip yaml_not_json l p s w w' K T N D F C A) as (H1 & H2 & H3 & H4 & _ & H6).
  unfold r. rewrite session_app. destruct (session (chain_lines l p) s) as [ns s1]. cbn [fst snd] in H1, H2, H3, H4, H6. subst ns.
  cbn [Session.session]. rewrite eos_line by auto.
  destruct (C68_eos float_of_str yaml_dump json_loads yaml_load world order odd_dict isdir (SFile (last_file l p)) prefix (DFile o) None (truncate (DFile o) s1) w' d sm) as (out & R & H); auto.
  - discriminate.
  - cbn [eos_target source_text]. rewrite !content_other by auto. exact H2.
  - cbn [eos_target truncate files]. rewrite !sm_of_dset by (auto; apply Out; left; reflexivity). rewrite H6; auto. intros q Iq. apply Out. right. exact Iq.
  - rewrite R. cbn [fst snd eos_target put truncate files seen]. split; [reflexivity|]. split; [exact H4|]. exists out. split; [|exact H].
    rewrite dget_dset, keqb_refl. reflexivity.
Qed.
(** ... or into a card for SMEFTsim, which lacks no coefficient. *)
Theorem C73_chain_smeftsim : forall l p s w w' d set scheme t L o key, chain_ok l p -> typable l -> file_name p -> dmem (files s) p = true -> file_of (content s p) w ->
  calls (steps l) w = Ok w' -> all_print (steps l) w -> file_name (last_file l p) -> plain o -> model_set set -> input_scheme scheme -> float_of_str t = Some L -> plain t ->
  valid w' -> wc_basis w' = "Warsaw mass" -> fst (wc_dict float_of_str w') = Ok d ->
  let r := session (chain_lines l p ++ [Wcxf2smeftsim [last_file l p; "--model-set"; set; "--input-scheme"; scheme; "--cutoff-scale"; t; "--output"; o] key]) s in
  (SmeftSim.complete set d -> fst r = map (fun _ => 0%Z) l ++ [0%Z] /\ seen (snd r) = seen s /\
     exists c tc a b, make_card d set L scheme = Ok c /\ printed_card c tc /\ smeftsim_card_text set scheme = Ok (a, b) /\
       dget (files (snd r)) o = Some (a ++ lha tc ++ b)%string) /\
  (missing set d -> fst r = map (fun _ => 0%Z) l ++ [1%Z] /\ dget (files (snd r)) o = Some "").
Proof.
  intros l p s w w' d set scheme t L o key K T N D F C A Nl No Ms Is Ft Pt V B Dw r.
  destruct (chain_run stdin creatable float_of_str json_dumps yaml_dump json_loads yaml_load translators matchers world odd odd_dict order isdir latex lha unusual
    printable json_roundtrip yaml_roundtrip yaml_not_json l p s w w' K T N D F C A) as (H1 & H2 & H3 & H4 & _ & _).
  unfold r. rewrite session_app. destruct (session (chain_lines l p) s) as [ns s1]. cbn [fst snd] in H1, H2, H3, H4. subst ns.
  cbn [Session.session]. rewrite sim_line with (L := L) by auto.
  destruct (C68_smeftsim float_of_str json_loads yaml_load world odd_dict isdir lha set scheme L (SFile (last_file l p)) o key s1 w' d Ms Is H2 V B Dw) as [Q1 Q2]. split.
  - intros Cm. destruct (Q1 Cm) as (c & tc & a & b & M & P & X & R). rewrite R. cbn [fst snd put files seen]. split; [reflexivity|]. split; [exact H4|].
    exists c, tc, a, b. repeat (split; [assumption|]). rewrite dget_dset, keqb_refl. reflexivity.
  - intros Mi. rewrite (Q2 Mi). cbn [fst snd files]. split; [reflexivity|]. rewrite dget_dset, keqb_refl. reflexivity.
Qed.
End C73.

(** ** A session: wcxf translate EOS in2 --output mid --format yaml; wcxf2eos mid --eosprefix /usr --output out *)
Definition case_json (t : string) : res doc := if String.eqb t "wc as json" then Ok (DMap (entries wc1)) else Err JSONDecodeError.
Definition case_printable (d : doc) : Prop := d = DMap (entries wc1).
Definition case_reg : treg := new_translator None "WET" "flavio" "EOS" (fun c _ _ => Ok [("ubenue::cVL", RtoC 2); ("ubmunumu::cVL", RtoC 2)]).
Lemma case_call fs : Tool.call fs case_reg None (STranslate "EOS") wc2 = Ok wc1.
Proof.
  assert (filter Wc.nonzero [("ubenue::cVL", RtoC 2); ("ubmunumu::cVL", RtoC 2)] = [("ubenue::cVL", RtoC 2); ("ubmunumu::cVL", RtoC 2)]) as F.
  { unfold Wc.nonzero. cbn [filter snd]. destruct (Ceq_dec _ _) as [Z|Z]; [|reflexivity]. apply (f_equal fst) in Z. simpl in Z. lra. }
  assert (to_complex_dict (RtoC 2) = DNum 2) as T.
  { unfold to_complex_dict. destruct (Req_EM_T _ _) as [Z'|Z']; [reflexivity|]. elim Z'. reflexivity. }
  refine (eq_trans (f_equal (fun l => Ok (new_wc "WET" "EOS" 5 (dict2values l))) F) _). unfold dict2values, dmap. cbn [map fst snd]. rewrite T. reflexivity.
Qed.
Lemma case_file fs : Tool.file_of fs case_json toy_texts "wc2" wc2.
Proof.
  exists (entries wc2), (DNum 5). split; [reflexivity|].
  split; [repeat constructor; simpl; intuition discriminate|]. do 6 (split; [reflexivity|]).
  intros k I. unfold reserved in I. simpl in I. repeat (destruct I as [<-|I]; [reflexivity|]). destruct I.
Qed.
Example C73_case : forall fs stdin odd odd_dict isdir latex lha unusual,
  let yaml_dump := fun d => if match d with DMap m => dmem m "basis" | _ => false end then "wc" else "parameters" in
  let l := [(STranslate "EOS", "yaml", "mid")] in
  (forall d, case_printable d -> case_json "wc as json" = Ok d) /\ (forall d, case_printable d -> toy_texts (yaml_dump d) = Ok d) /\
  chain_ok l "in2" /\ Session.typable (fun _ => true) l /\ file_name "in2" /\ dmem (files toy_dir) "in2" = true /\ Tool.file_of fs case_json toy_texts (content toy_dir "in2") wc2 /\
  Tool.calls fs case_reg None [STranslate "EOS"] wc2 = Ok wc1 /\ Tool.all_print fs case_reg None case_printable [STranslate "EOS"] wc2 /\
  ToolConv.valid toy_world wc1 /\ (forall q, In q ["out"; "mid"] -> in_dir (params_dir "/usr") q = false) /\
  sm_of toy_texts (fun l => l) (params_dir "/usr") (files toy_dir) = Ok toy_sm /\ centrals toy_sm /\
  fst (Session.session stdin (fun _ => true) fs (fun _ => "wc as json") yaml_dump case_json toy_texts case_reg None toy_world odd odd_dict (fun l => l) isdir latex lha unusual
    [Wcxf ["translate"; "EOS"; "in2"; "--output"; "mid"; "--format"; "yaml"]; Wcxf2eos ["mid"; "--eosprefix"; "/usr"; "--output"; "out"]] toy_dir) = [0%Z; 0%Z].
Proof.
  intros fs stdin odd odd_dict isdir latex lha unusual yaml_dump l.
  assert (forall d, case_printable d -> case_json "wc as json" = Ok d) as J by (intros d ->; reflexivity).
  assert (forall d, case_printable d -> toy_texts (yaml_dump d) = Ok d) as Y by (intros d ->; reflexivity).
  assert (chain_ok l "in2") as K by (cbn; split; [discriminate|]; split; [right; reflexivity|exact I]).
  assert (Session.typable (fun _ => true) l) as T.
  { constructor; [|constructor]. cbn [fst snd step_words]. split; [repeat constructor; cbn; discriminate|]. split; [cbn; discriminate|]. split; [split; [cbn; discriminate|discriminate]|reflexivity]. }
  assert (file_name "in2") as N by (split; [cbn; discriminate|discriminate]).
  assert (Tool.calls fs case_reg None [STranslate "EOS"] wc2 = Ok wc1) as C by (cbn [Tool.calls]; rewrite case_call; reflexivity).
  assert (Tool.all_print fs case_reg None case_printable [STranslate "EOS"] wc2) as A.
  { intros [|n] v Z E; [congruence|]. cbn [firstn] in E. rewrite firstn_nil in E. rewrite C in E. injection E as <-. reflexivity. }
  assert (ToolConv.valid toy_world wc1) as V by reflexivity.
  assert (forall q, In q ["out"; "mid"] -> in_dir (params_dir "/usr") q = false) as O by (intros q [<-|[<-|[]]]; reflexivity).
  assert (sm_of toy_texts (fun l => l) (params_dir "/usr") (files toy_dir) = Ok toy_sm) as S by reflexivity.
  split; [exact J|]. split; [exact Y|]. split; [exact K|]. split; [exact T|]. split; [exact N|]. split; [reflexivity|]. split; [exact (case_file fs)|].
  split; [exact C|]. split; [exact A|]. split; [exact V|]. split; [exact O|]. split; [exact S|]. split; [exact toy_centrals|].
  pose proof (C68_case fs odd_dict isdir) as (_ & _ & D & _ & _ & _ & _ & _ & _ & N1 & N2 & _).
  refine (proj1 (C73_chain_eos stdin (fun _ => true) fs (fun _ => "wc as json") yaml_dump case_json toy_texts case_reg None toy_world odd odd_dict (fun l => l) isdir latex lha unusual
    case_printable J Y _ l "in2" toy_dir wc2 wc1 _ toy_sm "/usr" "out" K T N eq_refl (case_file fs) C A _ _ eq_refl _ _ (fun g => Permutation_refl g) O V D S toy_centrals _)).
  - intros m _ E. rewrite E. exists JSONDecodeError. split; [reflexivity|auto].
  - split; [cbn; discriminate|discriminate].
  - split; [cbn; discriminate|discriminate].
  - cbn; discriminate.
  - discriminate.
  - intros k [<-|[<-|[]]]; eexists; [exact N1|exact N2].
Qed.
(** A chain that stops: the second basis is not known, and so the third command has nothing to read. *)
Example C73_stops_case : forall fs, let l2 := [(STranslate "nowhere", "json", "b"); (STranslate "EOS", "json", "c")] in
  chain_ok ((STranslate "EOS", "yaml", "mid") :: l2) "in2" /\ Session.typable (fun _ => true) ((STranslate "EOS", "yaml", "mid") :: l2) /\
  Tool.call fs case_reg None (STranslate "nowhere") wc1 = Err ValueError /\ case_json "" = Err JSONDecodeError /\ toy_texts "" = Ok DNull.
Proof.
  intros fs l2. split; [cbn; repeat split; try discriminate; (right; reflexivity) || (left; reflexivity)|].
  split; [repeat constructor; cbn; discriminate|]. repeat split.
Qed.

Print Assumptions C73_validate.
Print Assumptions C73_chain.
Print Assumptions C73_chain_stops.
Print Assumptions C73_chain_validate.
Print Assumptions C73_chain_eos.
Print Assumptions C73_chain_smeftsim.
