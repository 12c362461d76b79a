(** C66: the command line tool on coefficient files.  The printers and parsers of the json and yaml packages are
    variables with the stated laws; [odd], [EFT_load], [Basis_load], [basis_validate] are not used by the theorems. *)
From Coq Require Import String Ascii List Bool Arith ZArith Reals Lra.
From Verif Require Import PyBase PyDict Cplx Tensor Wc WetN Params Smeft SmeftSpec SmeftNames SmeftMass SmeftReg SmeftWarsaw SmeftTab
  MatchSpec MatchRot MatchSm MatchThm Match MatchWarsaw MatchWet MatchEx
  WetExpr Wet WetJms WetNf WetSpec WetChk WetThm WetVals WetList WetAux FkTab FlavorKit Package PackWet PackMatch PackEx MatchUser P_Package
  Dump DumpInit Cli Tool.
From Verif Require Bases.
Import ListNotations.
Open Scope string_scope.
Open Scope list_scope.
Open Scope nat_scope.

Section C66.
Variable float_of_str : string -> option R.
Variables json_dumps yaml_dump : doc -> string.
Variables json_loads yaml_load : string -> res doc.
Variable translators : treg.
Variable matchers : mreg.
Variable world : Bases.world.
Variable odd : attrs -> list string -> res wc.
Variable basis_ : Type.
Variable EFT_load : string -> res unit.
Variable Basis_load : string -> res basis_.
Variable basis_validate : basis_ -> res unit.
Variable printable : doc -> Prop.
Hypothesis json_roundtrip : forall d, printable d -> json_loads (json_dumps d) = Ok d.
Hypothesis yaml_roundtrip : forall d, printable d -> yaml_load (yaml_dump d) = Ok d.
Hypothesis yaml_not_json : forall m, m <> [] -> printable (DMap m) ->
  exists x, json_loads (yaml_dump (DMap m)) = Err x /\ (x = ValueError \/ x = JSONDecodeError).
Notation tool := (Tool.tool float_of_str json_dumps yaml_dump json_loads yaml_load translators matchers world odd basis_ EFT_load Basis_load basis_validate).
Notation shell := (Tool.shell float_of_str json_dumps yaml_dump json_loads yaml_load translators matchers world odd basis_ EFT_load Basis_load basis_validate).
Notation file_of := (Tool.file_of float_of_str json_loads yaml_load).
Notation parses t d := (load_text string json_loads yaml_load t = Ok d).
Notation call := (Tool.call float_of_str translators matchers).
Notation calls := (Tool.calls float_of_str translators matchers).
Notation all_print := (Tool.all_print float_of_str translators matchers printable).
(** The four entries of an object in the chosen format *)
Definition text_for (fmt : string) (w : wc) : string :=
  let d := DMap [("eft", DStr (wc_eft w)); ("basis", DStr (wc_basis w)); ("scale", DNum (wc_scale w)); ("values", DMap (wc_values w))] in
  if String.eqb (lower fmt) "json" then json_dumps d else yaml_dump d.
Definition input (f : source) (o : dest) (s : st) : string :=
  match f with SStdin t => t | SFile p => if match o with DFile q => String.eqb q p | _ => false end then "" else content s p end.
Lemma input_eq x f o fmt s : input_text (cmd_of x f o fmt) s = input f o s.
Proof.
  rewrite input_cmd_of. unfold input. destruct f as [t|p]; auto. destruct o as [|q|]; auto.
  destruct (String.eqb q p) eqn:E; [apply String.eqb_eq in E; subst; apply content_truncate|].
  apply String.eqb_neq in E. apply content_other. congruence.
Qed.
Lemma text_for_eq w fmt u : format_ok fmt -> wdump json_dumps yaml_dump (wc_attrs w) fmt = Ok u -> u = text_for fmt w.
Proof.
  intros F. assert (public (wc_attrs w) = Ok (entries w)) as P by reflexivity.
  destruct (dump_defined string json_dumps yaml_dump _ _ fmt P) as (D1 & D2 & _). unfold wdump, text_for.
  destruct F as [F|F]; [rewrite (D1 F)|rewrite (D2 F)]; rewrite F; cbn [String.eqb Ascii.eqb Bool.eqb]; intros [= <-]; reflexivity.
Qed.

(** One command does what the method does: same result, written in the chosen format, and the output is again a
    coefficient file.  Other entries of the input file do not matter and are not written. *)
Theorem C66_command : forall x f o fmt s w w', file_of (input f o s) w -> format_ok fmt -> call x w = Ok w' -> printable (DMap (entries w')) ->
  tool (PCmd (cmd_of x f o fmt)) s = (0%Z, put o (text_for fmt w') s) /\ file_of (text_for fmt w') w'.
Proof.
  intros x f o fmt s w w' F K C P. rewrite <- (input_eq x f o fmt s) in F.
  destruct (step_ok float_of_str json_dumps yaml_dump json_loads yaml_load translators matchers world odd basis_ EFT_load Basis_load basis_validate printable json_roundtrip yaml_roundtrip yaml_not_json
    x f o fmt s w w' F K C P) as (u & T & D & G). rewrite (text_for_eq w' fmt u K D) in *. split; [exact T|exact G].
Qed.
Theorem C66_command_fails : forall x f o fmt s w e, file_of (input f o s) w -> call x w = Err e ->
  fst (tool (PCmd (cmd_of x f o fmt)) s) = match e with AttributeError | SystemExit => 0%Z | _ => 1%Z end /\
  files (snd (tool (PCmd (cmd_of x f o fmt)) s)) = files (truncate o s).
Proof.
  intros x f o fmt s w e F. rewrite <- (input_eq x f o fmt s) in F. revert F.
  exact (step_failed float_of_str json_dumps yaml_dump json_loads yaml_load translators matchers world odd basis_ EFT_load Basis_load basis_validate x f o fmt s w e).
Qed.
Theorem C66_unknown_format : forall x f o fmt s w w', file_of (input f o s) w -> ~ format_ok fmt -> call x w = Ok w' ->
  fst (tool (PCmd (cmd_of x f o fmt)) s) = 1%Z /\ files (snd (tool (PCmd (cmd_of x f o fmt)) s)) = files (truncate o s).
Proof.
  intros x f o fmt s w w' F. rewrite <- (input_eq x f o fmt s) in F. revert F.
  exact (step_format float_of_str json_dumps yaml_dump json_loads yaml_load translators matchers world odd basis_ EFT_load Basis_load basis_validate x f o fmt s w w').
Qed.
(** Any number of commands, each reading what the one before wrote, in any formats, is the same chain of method calls. *)
Theorem C66_chain : forall l p s w w', chain_ok l p -> file_of (content s p) w ->
  calls (map (fun x => fst (fst x)) l) w = Ok w' -> all_print (map (fun x => fst (fst x)) l) w ->
  fst (fst (shell l p s)) = map (fun _ => 0%Z) l /\ file_of (content (snd (shell l p s)) (snd (fst (shell l p s)))) w'.
Proof.
  exact (shell_ok float_of_str json_dumps yaml_dump json_loads yaml_load translators matchers world odd basis_ EFT_load Basis_load basis_validate printable json_roundtrip yaml_roundtrip yaml_not_json).
Qed.
Theorem C66_chain_text : forall l p s w w' x fmt q, chain_ok (l ++ [(x, fmt, q)]) p -> file_of (content s p) w ->
  calls (map (fun x => fst (fst x)) (l ++ [(x, fmt, q)])) w = Ok w' -> all_print (map (fun x => fst (fst x)) (l ++ [(x, fmt, q)])) w ->
  content (snd (shell (l ++ [(x, fmt, q)]) p s)) q = text_for fmt w'.
Proof.
  intros l p s w w' x fmt q K F C A. apply text_for_eq.
  - clear F C A. revert p K. induction l as [|[[y fy] r] l IH]; intros p K; cbn [app chain_ok] in K; [tauto|]. destruct K as (_ & _ & K). exact (IH r K).
  - exact (shell_text float_of_str json_dumps yaml_dump json_loads yaml_load translators matchers world odd basis_ EFT_load Basis_load basis_validate printable json_roundtrip yaml_roundtrip yaml_not_json
      l p s w w' x fmt q K F C A).
Qed.
(** Findings.  If the output file is the input file, the contents are lost. *)
Theorem C66_in_place_refuted : forall x p fmt s, json_loads "" = Err JSONDecodeError -> yaml_load "" = Ok DNull ->
  let r := tool (PCmd (cmd_of x (SFile p) (DFile p) fmt)) s in fst r = 1%Z /\ content (snd r) p = "".
Proof.
  intros x p fmt s J Y. cbv zeta. rewrite (in_place float_of_str json_dumps yaml_dump json_loads yaml_load translators matchers world odd basis_ EFT_load Basis_load basis_validate x p fmt s J Y).
  split; [reflexivity|]. unfold content. cbn [snd files]. rewrite dget_dset, keqb_refl. reflexivity.
Qed.
(** A file with an entry "dict", or with values that are not a mapping, is refused with status 0 and the help text. *)
Theorem C66_dict_entry_refuted : forall x f o fmt s m sc z, parses (input f o s) (DMap m) -> DumpInit.complete KWC m ->
  dmem m "dict" = true -> dget m "scale" = Some sc -> to_float float_of_str sc = Ok z ->
  tool (PCmd (cmd_of x f o fmt)) s = (0%Z, St (files (truncate o s)) (seen s ++ [Help])).
Proof.
  intros x f o fmt s m sc z L C D S Z. rewrite <- (input_eq x f o fmt s) in L.
  pose proof (dict_entry float_of_str json_dumps yaml_dump json_loads yaml_load translators matchers world odd basis_ EFT_load Basis_load basis_validate x f o fmt s m sc z L C D S Z) as H.
  apply swallowed in H. rewrite cmd_of_out in H. exact H.
Qed.
(** A file with an entry that has the name of the method is refused with a TypeError; the output is left empty. *)
Theorem C66_method_entry : forall x f o fmt s m sc z, parses (input f o s) (DMap m) -> wf m -> DumpInit.complete KWC m ->
  dmem m "dict" = false -> dget m "scale" = Some sc -> to_float float_of_str sc = Ok z ->
  dmem m (match x with STranslate _ => "translate" | SMatch _ _ => "match" end) = true ->
  tool (PCmd (cmd_of x f o fmt)) s = (1%Z, St (files (truncate o s)) (seen s ++ [Trace TypeError])).
Proof.
  intros x f o fmt s m sc z L. rewrite <- (input_eq x f o fmt s) in L.
  exact (method_entry float_of_str json_dumps yaml_dump json_loads yaml_load translators matchers world odd basis_ EFT_load Basis_load basis_validate x f o fmt s m sc z L).
Qed.
Theorem C66_values_list_refuted : forall t f o fmt s e b x l, parses (input f o s) (DMap [("eft", DStr e); ("basis", DStr b); ("scale", DNum x); ("values", DList l)]) ->
  (exists tr, reg_lookup translators (e, b, t) = Ok tr) ->
  tool (PCmd (Translate t f o fmt)) s = (0%Z, St (files (truncate o s)) (seen s ++ [Help])).
Proof.
  intros t f o fmt s e b x l L [tr R]. change (Translate t f o fmt) with (cmd_of (STranslate t) f o fmt). rewrite <- (input_eq (STranslate t) f o fmt s) in L.
  assert (outcome float_of_str json_dumps yaml_dump json_loads yaml_load translators matchers world odd basis_ EFT_load Basis_load basis_validate
    (cmd_of (STranslate t) f o fmt) (input_text (cmd_of (STranslate t) f o fmt) s) = Err AttributeError) as H.
  { apply (values_not_mapping float_of_str json_dumps yaml_dump json_loads yaml_load translators matchers world odd basis_ EFT_load Basis_load basis_validate (STranslate t) f o fmt s
      [("eft", DStr e); ("basis", DStr b); ("scale", DNum x); ("values", DList l); ("_dict", DNull)] e b); try reflexivity.
    - unfold wload, load. rewrite L. reflexivity.
    - intros v. discriminate.
    - rewrite R. reflexivity. }
  apply swallowed in H. exact H.
Qed.

(** Conversions.  To JSON the input is read as YAML, to YAML as JSON; the output then holds the same data. *)
Theorem C66_convert_json : forall f o s d, printable d -> yaml_load (input f o s) = Ok d ->
  exists u, tool (PCmd (Convert "json" f o)) s = (0%Z, put o u s) /\ parses u d.
Proof.
  intros f o s d P Y. apply (convert_json_ok float_of_str json_dumps yaml_dump json_loads yaml_load translators matchers world odd basis_ EFT_load Basis_load basis_validate printable json_roundtrip f o s d P).
  rewrite <- (input_eq (STranslate "") f o "" s) in Y. exact Y.
Qed.
Theorem C66_convert_yaml : forall f o s m, m <> [] -> printable (DMap m) -> json_loads (input f o s) = Ok (DMap m) ->
  exists u, tool (PCmd (Convert "yaml" f o)) s = (0%Z, put o u s) /\ parses u (DMap m).
Proof.
  intros f o s m N P Y. apply (convert_yaml_ok float_of_str json_dumps yaml_dump json_loads yaml_load translators matchers world odd basis_ EFT_load Basis_load basis_validate printable yaml_roundtrip yaml_not_json f o s m N P).
  rewrite <- (input_eq (STranslate "") f o "" s) in Y. exact Y.
Qed.
Theorem C66_convert_and_back : forall p q r s m, p <> q -> q <> r -> printable (DMap m) -> json_loads (content s p) = Ok (DMap m) ->
  let s1 := snd (tool (PCmd (Convert "yaml" (SFile p) (DFile q))) s) in
  let s2 := snd (tool (PCmd (Convert "json" (SFile q) (DFile r))) s1) in
  fst (tool (PCmd (Convert "yaml" (SFile p) (DFile q))) s) = 0%Z /\ fst (tool (PCmd (Convert "json" (SFile q) (DFile r))) s1) = 0%Z /\
  content s1 q = yaml_dump (DMap m) /\ content s2 r = json_dumps (DMap m).
Proof. exact (convert_round float_of_str json_dumps yaml_dump json_loads yaml_load translators matchers world odd basis_ EFT_load Basis_load basis_validate printable yaml_roundtrip). Qed.
(** Finding: converting JSON to JSON changes the data where the two parsers disagree. *)
Theorem C66_convert_json_refuted : forall f o s d d', printable d' -> json_loads (input f o s) = Ok d -> yaml_load (input f o s) = Ok d' -> d <> d' ->
  exists u, tool (PCmd (Convert "json" f o)) s = (0%Z, put o u s) /\ parses (input f o s) d /\ parses u d' /\ d <> d'.
Proof.
  intros f o s d d' P J Y N. destruct (C66_convert_json f o s d' P Y) as (u & T & L). exists u. split; [exact T|].
  split; [unfold load_text; rewrite J; reflexivity|]. auto.
Qed.
Theorem C66_validate : forall f s w, file_of (input f DStdout s) w ->
  tool (PCmd (Validate "wc" f)) s =
  match fst (Bases.wc_validate world (wc_eft w) (wc_basis w) (dkeys (wc_values w))) with
  | Ok _ => (0%Z, St (files s) (seen s ++ [Printed "Validation successful."]))
  | Err AttributeError => (0%Z, St (files s) (seen s ++ [Help]))
  | Err SystemExit => (0%Z, s)
  | Err e => (1%Z, St (files s) (seen s ++ [Trace e]))
  end.
Proof.
  exact (validate_ok float_of_str json_dumps yaml_dump json_loads yaml_load translators matchers world odd basis_ EFT_load Basis_load basis_validate).
Qed.
End C66.

(** The installed package on the command line. *)
Section C66_installed.
Variable float_of_str : string -> option R.
Variables json_dumps yaml_dump : doc -> string.
Variables json_loads yaml_load : string -> res doc.
Variable world : Bases.world.
Variable odd : attrs -> list string -> res wc.
Variable basis_ : Type.
Variable EFT_load : string -> res unit.
Variable Basis_load : string -> res basis_.
Variable basis_validate : basis_ -> res unit.
Variable printable : doc -> Prop.
Hypothesis json_roundtrip : forall d, printable d -> json_loads (json_dumps d) = Ok d.
Hypothesis yaml_roundtrip : forall d, printable d -> yaml_load (yaml_dump d) = Ok d.
Hypothesis yaml_not_json : forall m, m <> [] -> printable (DMap m) ->
  exists x, json_loads (yaml_dump (DMap m)) = Err x /\ (x = ValueError \/ x = JSONDecodeError).
Variable ckm_tree : R -> R -> R -> R -> mat.
Variable msvd_values : mat -> fl -> C.
Variable qcd_mb qcd_ms : R -> R -> R -> res R.
Variable qcd_as : R -> R -> res R.
Variable lists : string -> string -> list string.
Variable with_nan : dict string WetExpr.cval -> res (dict string C).
Notation translators := (installed ckm_tree msvd_values qcd_mb qcd_ms qcd_as lists with_nan).
Notation matchers := (installed_m ckm_tree qcd_mb qcd_ms qcd_as lists with_nan).
Notation shell := (Tool.shell float_of_str json_dumps yaml_dump json_loads yaml_load translators matchers world odd basis_ EFT_load Basis_load basis_validate).
Notation file_of := (Tool.file_of float_of_str json_loads yaml_load).
Notation all_print := (Tool.all_print float_of_str translators matchers printable).
Hypothesis J_good : good (lists "WET" "JMS").
Hypothesis B_ok : NoDup (lists "WET" "Bern") /\ incl bern_read (lists "WET" "Bern").
Variables (s : st) (a b q fmt fmt' : string) (w : wc) (p : params).
Hypothesis apart : a <> b /\ b <> q /\ a <> q.
Hypothesis formats : format_ok fmt /\ format_ok fmt'.
Hypothesis is_file : file_of (content s a) w.
Hypothesis p_ok : okp ckm_tree qcd_mb qcd_ms qcd_as (wc_scale w) None p.

(** Two chains with the same result write the same text. *)
Lemma same_text x1 x2 y w' : Tool.calls float_of_str translators matchers [x1; x2] w = Ok w' -> Tool.calls float_of_str translators matchers [y] w = Ok w' ->
  all_print [x1; x2] w ->
  let s1 := snd (shell [(x1, fmt', b); (x2, fmt, q)] a s) in let s2 := snd (shell [(y, fmt, q)] a s) in
  content s1 q = content s2 q /\ file_of (content s1 q) w'.
Proof.
  intros C1 C2 A. destruct apart as (N1 & N2 & N3). destruct formats as (K1 & K2). cbv zeta.
  assert (all_print [y] w) as A'.
  { intros [|n] v Z E; [congruence|]. cbn [firstn] in E. assert (v = w') as -> by (rewrite firstn_nil in E; congruence). apply (A 2 w'); [discriminate|exact C1]. }
  pose proof (C66_chain_text float_of_str json_dumps yaml_dump json_loads yaml_load translators matchers world odd basis_ EFT_load Basis_load basis_validate printable json_roundtrip yaml_roundtrip yaml_not_json
    [(x1, fmt', b)] a s w w' x2 fmt q (conj N1 (conj K2 (conj N2 (conj K1 I)))) is_file C1 A) as T1.
  pose proof (C66_chain_text float_of_str json_dumps yaml_dump json_loads yaml_load translators matchers world odd basis_ EFT_load Basis_load basis_validate printable json_roundtrip yaml_roundtrip yaml_not_json
    [] a s w w' y fmt q (conj N3 (conj K1 I)) is_file C2 A') as T2.
  cbn [app] in T1, T2. split; [rewrite T1, T2; reflexivity|].
  pose proof (C66_chain float_of_str json_dumps yaml_dump json_loads yaml_load translators matchers world odd basis_ EFT_load Basis_load basis_validate printable json_roundtrip yaml_roundtrip yaml_not_json
    [(x1, fmt', b); (x2, fmt, q)] a s w w' (conj N1 (conj K2 (conj N2 (conj K1 I)))) is_file C1 A) as [_ F].
  assert (snd (fst (shell [(x1, fmt', b); (x2, fmt, q)] a s)) = q) as Q.
  { cbn [Tool.shell]. destruct (Tool.tool _ _ _ _ _ _ _ _ _ _ _ _ _ _ s) as [n s1]. destruct (Tool.tool _ _ _ _ _ _ _ _ _ _ _ _ _ _ s1) as [n2 s2]. reflexivity. }
  rewrite Q in F. exact F.
Qed.
(** JMS to Bern to flavio through a file gives the file of JMS to flavio. *)
Theorem C66_detour : forall c, In (wc_eft w) ["WET"; "WET-4"; "WET-3"] -> wc_basis w = "JMS" -> coefficients_of float_of_str w = Ok c ->
  all_print [STranslate "Bern"; STranslate "flavio"] w ->
  let s1 := snd (shell [(STranslate "Bern", fmt', b); (STranslate "flavio", fmt, q)] a s) in let s2 := snd (shell [(STranslate "flavio", fmt, q)] a s) in
  content s1 q = content s2 q /\ exists w', file_of (content s1 q) w' /\ fst (do_translate float_of_str ckm_tree msvd_values qcd_mb qcd_ms qcd_as lists with_nan w "flavio" None) = Ok w'.
Proof.
  intros c E Hb D A. destruct (C63_detour float_of_str ckm_tree msvd_values qcd_mb qcd_ms qcd_as lists with_nan J_good B_ok w None p c p_ok D E Hb) as (w1 & w' & H1 & H2 & H3).
  destruct (same_text (STranslate "Bern") (STranslate "flavio") (STranslate "flavio") w') as [S F].
  - cbn [Tool.calls Tool.call]. refine (eq_trans (f_equal (fun r => bind r _) H1) _). cbn [bind]. refine (eq_trans (f_equal (fun r => bind r _) H2) _). reflexivity.
  - cbn [Tool.calls Tool.call]. refine (eq_trans (f_equal (fun r => bind r _) H3) _). reflexivity.
  - exact A.
  - split; [exact S|]. exists w'. split; [exact F|exact H3].
Qed.
(** SMEFT to the WET: matching to flavio, Bern or EOS gives the file of matching to JMS and translating. *)
Theorem C66_match : forall t w', In t ["flavio"; "Bern"; "EOS"] -> (t = "EOS" -> light p) -> wc_eft w = "SMEFT" -> wc_basis w = "Warsaw" ->
  fst (do_match float_of_str ckm_tree qcd_mb qcd_ms qcd_as lists with_nan w "WET" t None) = Ok w' ->
  all_print [SMatch "WET" "JMS"; STranslate t] w ->
  let s1 := snd (shell [(SMatch "WET" "JMS", fmt', b); (STranslate t, fmt, q)] a s) in let s2 := snd (shell [(SMatch "WET" t, fmt, q)] a s) in
  content s1 q = content s2 q /\ file_of (content s1 q) w'.
Proof.
  intros t w' T L E Hb M A.
  destruct (coefficients_of float_of_str w) as [c|x] eqn:D.
  - pose proof (C65_through_JMS float_of_str ckm_tree msvd_values qcd_mb qcd_ms qcd_as lists with_nan J_good w None p p_ok t T L E Hb) as H.
    apply same_text.
    + cbn [Tool.calls Tool.call]. rewrite M in H. symmetry in H. unfold do_match, do_translate in H.
      destruct (fst (wmatch float_of_str matchers w "WET" "JMS" None)) as [v|]; [|discriminate]. cbn [bind] in *. rewrite H. reflexivity.
    + cbn [Tool.calls Tool.call]. unfold do_match in M. rewrite M. reflexivity.
    + exact A.
  - pose proof (C63_matchings float_of_str ckm_tree qcd_mb qcd_ms qcd_as lists with_nan w "WET" t None) as H.
    destruct (matching _ _ _ _ _ _ _ _ _ _); [rewrite M, D in H; discriminate|]. rewrite H in M. discriminate.
Qed.
End C66_installed.

(** Printers and parsers as required, for finitely many objects with different bases: the text names the basis. *)
Definition basis_in (d : doc) : string :=
  match d with DMap (_ :: (_, DStr b) :: _) => b | _ => "" end.
Definition toy_json (d : doc) : string := ("J" ++ basis_in d)%string.
Definition toy_yaml (d : doc) : string := ("Y" ++ basis_in d)%string.
Definition toy_load (l : list wc) (t : string) (e : exn) : res doc :=
  match List.find (fun w => String.eqb (wc_basis w) t) l with Some w => Ok (DMap (entries w)) | None => Err e end.
Definition toy_json_loads (l : list wc) (t : string) : res doc :=
  match t with String "J"%char t => toy_load l t JSONDecodeError | _ => Err JSONDecodeError end.
Definition toy_yaml_load (l : list wc) (t : string) : res doc :=
  match t with EmptyString => Ok DNull | String "Y"%char t => toy_load l t YAMLError | _ => Err YAMLError end.
Definition toy_printable (l : list wc) (d : doc) : Prop := exists w, In w l /\ d = DMap (entries w).
Lemma toy_find l w e : NoDup (map wc_basis l) -> In w l -> toy_load l (wc_basis w) e = Ok (DMap (entries w)).
Proof.
  unfold toy_load. intros N I. destruct (List.find _ l) as [v|] eqn:F.
  - apply find_some in F. destruct F as [I' Q]. apply String.eqb_eq in Q. assert (v = w) as ->; [|reflexivity].
    clear e. induction l as [|x l IH]; [destruct I|]. simpl in N. inversion N as [|? ? N1 N2]; subst.
    destruct I as [->|I], I' as [->|I']; auto; elim N1; [rewrite <- Q|rewrite Q]; apply in_map; assumption.
  - apply (find_none _ _ F) in I. rewrite String.eqb_refl in I. discriminate.
Qed.
Lemma toy_laws l : NoDup (map wc_basis l) ->
  (forall d, toy_printable l d -> toy_json_loads l (toy_json d) = Ok d) /\ (forall d, toy_printable l d -> toy_yaml_load l (toy_yaml d) = Ok d) /\
  (forall m, m <> [] -> toy_printable l (DMap m) -> exists x, toy_json_loads l (toy_yaml (DMap m)) = Err x /\ (x = ValueError \/ x = JSONDecodeError)).
Proof.
  intros N. repeat split.
  - intros d (w & I & ->). exact (toy_find l w JSONDecodeError N I).
  - intros d (w & I & ->). exact (toy_find l w YAMLError N I).
  - intros m _ (w & I & ->). exists JSONDecodeError. split; [reflexivity|auto].
Qed.
(** A small package: "b" doubles the coefficients of "a".  The file has an entry more and is printed by hand. *)
Example C66_case : exists tr jl,
  let wa := new_wc "E" "a" 5 [("x", DNum 1)] in let wb := new_wc "E" "b" 5 [("x", DNum (1 + 1))] in
  let s := St [("in", "a file")] [] in
  let m := [("note", DStr "hi"); ("scale", DStr "5"); ("eft", DStr "E"); ("basis", DStr "a"); ("values", DMap [("x", DNum 1)])] in
  let fs := fun t => if String.eqb t "5" then Some 5%R else None in
  jl "a file" = Ok (DMap m) /\ file_of fs jl (toy_yaml_load [wa; wb]) "a file" wa /\
  (forall d, toy_printable [wa; wb] d -> jl (toy_json d) = Ok d) /\ (forall d, toy_printable [wa; wb] d -> toy_yaml_load [wa; wb] (toy_yaml d) = Ok d) /\
  call fs tr None (STranslate "b") wa = Ok wb /\ toy_printable [wa; wb] (DMap (entries wb)) /\ chain_ok [(STranslate "b", "YAML", "out")] "in" /\
  all_print fs tr None (toy_printable [wa; wb]) [STranslate "b"] wa /\
  Tool.tool fs toy_json toy_yaml jl (toy_yaml_load [wa; wb]) tr None Bases.winit (fun _ _ => Err KeyError) unit (fun _ => Ok tt) (fun _ => Ok tt) (fun _ => Ok tt)
    (PCmd (Translate "b" (SFile "in") (DFile "out") "YAML")) s = (0%Z, St [("in", "a file"); ("out", "Yb")] []) /\
  ~ format_ok "xml" /\ toy_yaml_load [wa; wb] "" = Ok DNull /\ jl "" = Err JSONDecodeError.
Proof.
  set (wa := new_wc "E" "a" 5 [("x", DNum 1)]). set (wb := new_wc "E" "b" 5 [("x", DNum (1 + 1))]).
  set (m := [("note", DStr "hi"); ("scale", DStr "5"); ("eft", DStr "E"); ("basis", DStr "a"); ("values", DMap [("x", DNum 1)])]).
  exists (new_translator None "E" "a" "b" (fun c _ _ => Ok (map (fun kz => (fst kz, Cadd (snd kz) (snd kz))) c))).
  exists (fun t => if String.eqb t "a file" then Ok (DMap m) else toy_json_loads [wa; wb] t). cbv zeta.
  assert (NoDup (map wc_basis [wa; wb])) as N by (repeat constructor; simpl; intuition discriminate).
  destruct (toy_laws [wa; wb] N) as (L1 & L2 & L3).
  assert (forall fs, call fs (new_translator None "E" "a" "b" (fun c _ _ => Ok (map (fun kz => (fst kz, Cadd (snd kz) (snd kz))) c))) None (STranslate "b") wa = Ok wb) as Ca.
  { intros fs.
    assert (filter Wc.nonzero [("x", Cadd (RtoC 1) (RtoC 1))] = [("x", Cadd (RtoC 1) (RtoC 1))]) as F.
    { unfold Wc.nonzero. cbn [filter snd]. destruct (Ceq_dec _ _) as [Z|Z]; [|reflexivity]. apply (f_equal fst) in Z. simpl in Z. lra. }
    assert (to_complex_dict (Cadd (RtoC 1) (RtoC 1)) = DNum (1 + 1)) as T.
    { unfold to_complex_dict. destruct (Req_EM_T _ _) as [Z'|Z']; [reflexivity|]. elim Z'. simpl. lra. }
    refine (eq_trans (f_equal (fun l => Ok (new_wc "E" "b" 5 (dict2values l))) F) _). unfold dict2values, dmap. cbn [map fst snd]. rewrite T. reflexivity. }
  split; [reflexivity|]. split.
  { exists m, (DStr "5"). split; [reflexivity|]. split; [repeat constructor; simpl; intuition discriminate|]. do 6 (split; [reflexivity|]).
    intros k I. unfold reserved in I. simpl in I. repeat (destruct I as [<-|I]; [reflexivity|]). destruct I. }
  split; [intros d P; destruct P as (w & I & ->); exact (L1 _ (ex_intro _ w (conj I eq_refl)))|]. split; [exact L2|]. split; [apply Ca|].
  assert (toy_printable [wa; wb] (DMap (entries wb))) as Pb by (exists wb; simpl; auto).
  split; [exact Pb|]. split; [cbn; split; [discriminate|]; split; [right; reflexivity|exact I]|]. split.
  { intros [|n] v Z E; [congruence|]. cbn [firstn Tool.calls] in E. rewrite Ca in E. cbn [bind] in E. rewrite firstn_nil in E. injection E as <-. exact Pb. }
  split.
  { refine (eq_trans (proj1 (C66_command _ _ _ _ _ _ _ _ _ _ _ _ _ (toy_printable [wa; wb]) _ _ _ (STranslate "b") (SFile "in") (DFile "out") "YAML" (St [("in", "a file")] []) wa wb _ _ _ Pb)) _).
    - intros d P. destruct P as (w & I & ->). exact (L1 _ (ex_intro _ w (conj I eq_refl))).
    - exact L2.
    - intros m' M P. destruct P as (w & I & Q). injection Q as ->. exists JSONDecodeError. split; [reflexivity|auto].
    - exists m, (DStr "5"). split; [reflexivity|]. split; [repeat constructor; simpl; intuition discriminate|]. do 6 (split; [reflexivity|]).
      intros k I. unfold reserved in I. simpl in I. repeat (destruct I as [<-|I]; [reflexivity|]). destruct I.
    - right; reflexivity.
    - apply Ca.
    - reflexivity. }
  split; [intros [F|F]; discriminate|]. split; reflexivity.
Qed.
(** Printers for the results of the detour exist for any object. *)
Example C66_detour_case : forall f msvd with_nan w, wc_cache w = None -> wc_eft w = "WET" -> wc_basis w = "JMS" -> wc_scale w = 5%R -> wc_values w = dict2values [("VddLL_1213", Ci)] ->
  exists l, let tr := installed ckm1 msvd mb4 ms1 as1 lists0 with_nan in let ma := installed_m ckm1 mb4 ms1 as1 lists0 with_nan in
  NoDup (map wc_basis l) /\ good (lists0 "WET" "JMS") /\ (NoDup (lists0 "WET" "Bern") /\ incl bern_read (lists0 "WET" "Bern")) /\
  file_of f (toy_json_loads l) (toy_yaml_load l) "JJMS" w /\ okp ckm1 mb4 ms1 as1 (wc_scale w) None p1 /\
  coefficients_of f w = Ok [("VddLL_1213", Ci)] /\ all_print f tr ma (toy_printable l) [STranslate "Bern"; STranslate "flavio"] w.
Proof.
  intros f msvd with_nan w K E Hb S V.
  assert (coefficients_of f w = Ok [("VddLL_1213", Ci)]) as D.
  { unfold coefficients_of, wc_dict. rewrite K, V, values_roundtrip. reflexivity. }
  assert (okp ckm1 mb4 ms1 as1 (wc_scale w) None p1) as P by (rewrite S; exact p1_ok).
  destruct (C63_detour f ckm1 msvd mb4 ms1 as1 lists0 with_nan J0_good (conj bern_nodup bern_read_in) w None p1 _ P D) as (w1 & w2 & H1 & H2 & H3); [rewrite E; simpl; auto|exact Hb|].
  assert (wc_basis w1 = "Bern") as B1.
  { pose proof (C63_translations f ckm1 msvd mb4 ms1 as1 lists0 with_nan w "Bern" None) as T. rewrite E, Hb in T. cbn [translation option_map List.find translation_table] in T.
    destruct (translation _ _ _ _ _ _ _ _ _ _); [|rewrite T in H1; discriminate]. rewrite T in H1.
    destruct (coefficients_of f w); [|discriminate]. cbn [bind] in H1. match type of H1 with (let! d := ?t in _) = _ => destruct t; [|discriminate] end. injection H1 as <-. reflexivity. }
  assert (wc_basis w2 = "flavio") as B2.
  { pose proof (C63_translations f ckm1 msvd mb4 ms1 as1 lists0 with_nan w "flavio" None) as T.
    destruct (translation _ _ _ _ _ _ _ _ _ _); [|rewrite T in H3; discriminate]. rewrite T in H3.
    destruct (coefficients_of f w); [|discriminate]. cbn [bind] in H3. match type of H3 with (let! d := ?t in _) = _ => destruct t; [|discriminate] end. injection H3 as <-. reflexivity. }
  exists [w; w1; w2]. cbv zeta.
  assert (NoDup (map wc_basis [w; w1; w2])) as N.
  { cbn [map]. rewrite Hb, B1, B2. repeat constructor; simpl; intuition discriminate. }
  split; [exact N|]. split; [exact J0_good|]. split; [exact (conj bern_nodup bern_read_in)|]. split.
  { exists (entries w), (DNum (wc_scale w)). split.
    - unfold load_text, toy_json_loads. rewrite <- Hb. rewrite (toy_find [w; w1; w2] w JSONDecodeError N (or_introl eq_refl)). reflexivity.
    - split; [repeat constructor; simpl; intuition discriminate|]. do 5 (split; [reflexivity|]). split; [exact K|].
      intros k I. unfold reserved in I. simpl in I. repeat (destruct I as [<-|I]; [reflexivity|]). destruct I. }
  split; [exact P|]. split; [exact D|].
  intros [|[|n]] v Z Q; [congruence| |].
  - cbn [firstn Tool.calls Tool.call] in Q. unfold do_translate in H1. rewrite H1 in Q. injection Q as <-. exists w1. simpl; auto.
  - cbn [firstn Tool.calls Tool.call] in Q. unfold do_translate in H1, H2. rewrite H1 in Q. cbn [bind] in Q. rewrite H2 in Q. cbn [bind] in Q. rewrite firstn_nil in Q. injection Q as <-. exists w2. simpl; auto.
Qed.
Print Assumptions C66_command.
Print Assumptions C66_command_fails.
Print Assumptions C66_unknown_format.
Print Assumptions C66_chain.
Print Assumptions C66_chain_text.
Print Assumptions C66_in_place_refuted.
Print Assumptions C66_dict_entry_refuted.
Print Assumptions C66_method_entry.
Print Assumptions C66_values_list_refuted.
Print Assumptions C66_convert_json.
Print Assumptions C66_convert_yaml.
Print Assumptions C66_convert_and_back.
Print Assumptions C66_convert_json_refuted.
Print Assumptions C66_validate.
Print Assumptions C66_detour.
Print Assumptions C66_match.
