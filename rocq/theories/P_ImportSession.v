(** C67: sessions of typed command lines do not depend on the order in which the package found its files.
    C72: an entry "validate" in a basis file. *)
From Coq Require Import String Ascii List Bool Arith ZArith Reals Lia Permutation FunctionalExtensionality.
From Verif Require Import PyBase PyDict Cplx Wc Dump DumpInit Tex Eos Cli Tool SmeftSim SmeftSimText SmeftSimPrint ToolConv Args Session LoadBasis LoadBasisThm P_Validate OrderImport.
From Verif Require Import Bases BasesFacts.
From Verif Require Import Import.
From Verif Require P_Import.
Import ListNotations.
Open Scope string_scope.
Open Scope list_scope.
Open Scope nat_scope.

(** The text that Basis.validate gives to LaTeX *)
Definition joined (l : list string) : string := ("$" ++ String.concat "$, $" l ++ "$")%string.

Section C67.
Variable stdin : string.
Variable creatable : string -> bool.
Variable float_of_str : string -> option R.
Variables json_dumps yaml_dump : doc -> string.
Variables json_loads yaml_load : string -> res doc.
Variable translators : treg.
Variable matchers : mreg.
Variable odd : attrs -> list string -> res wc.
Variable odd_dict : attrs -> res (dict string SmeftSimPrint.num).
Variable order : list string -> list string.
Variable isdir : string -> bool.
Variable latex : string -> texrun.
Variable lha : tcard -> string.
Variable unusual : line -> st -> Z * st.
Notation session_in w := (session stdin creatable float_of_str json_dumps yaml_dump json_loads yaml_load translators matchers w odd odd_dict order isdir latex lha unusual).

(** LaTeX runs the same way on the formulas of a basis in any order. *)
Definition latex_any_order : Prop := forall l l', Permutation l l' -> latex (tex_doc (joined l)) = latex (tex_doc (joined l')).

Lemma session_same w w' : any_order_tex (tex_of latex) -> (forall e, lookup_reg (w_efts w) e = lookup_reg (w_efts w') e) ->
  (forall e b, match basis_get w e b, basis_get w' e b with
    | Ok i, Ok j => exists S S', sectors_of w i = Some S /\ sectors_of w' j = Some S' /\ wf S /\ wf S' /\ forall k, dget S k = dget S' k
    | Err x, Err y => x = y
    | _, _ => False
    end) ->
  (forall e b k, fst (wc_validate w e b k) = fst (wc_validate w' e b k)) ->
  forall lines s, session_in w lines s = session_in w' lines s.
Proof.
  intros T E B V.
  pose proof (tool_same json_loads yaml_load (tex_of latex) w w' T E B V float_of_str json_dumps yaml_dump translators matchers odd) as Q.
  assert (Tool.tool_validate w = Tool.tool_validate w') as U by (apply functional_extensionality, (tool_validate_same w w' E B V)).
  induction lines as [|x lines IH]; intros s; [reflexivity|]. cbn [session].
  match goal with |- (let (_, _) := ?a in _) = (let (_, _) := ?b in _) => assert (a = b) as -> end.
  { destruct x; cbn [run_line]; [rewrite Q; reflexivity| |]; unfold eos_tool, smeftsim_tool; rewrite U; reflexivity. }
  match goal with |- (let (_, _) := ?b in _) = _ => destruct b as [n s'] end. rewrite IH. reflexivity.
Qed.

(** C67: whatever command lines are typed and whatever the files contain, the statuses, the files and everything that is
    shown are the same in whatever order the files of the package were found. *)
Theorem C67_session_any_order : forall efts mains children efts' mains' children' w w',
  NoDup (map fst efts) -> distinct_names (mains ++ children) -> layout mains children ->
  plain_files (mains ++ children) -> compatible children ->
  Permutation efts efts' -> Permutation mains mains' -> Permutation children children' ->
  import_package efts mains children = Ok w -> import_package efts' mains' children' = Ok w' -> latex_any_order ->
  forall lines s, session_in w lines s = session_in w' lines s.
Proof.
  intros efts mains children efts' mains' children' w w' NE N L W C PE PM PC I I' X.
  pose proof (Permutation_app PM PC) as PP.
  pose proof (permuted_names _ _ N PP) as N'. pose proof (permuted_layout _ _ _ _ L PM PC) as L'. pose proof (permuted_plain _ _ W PP) as W'.
  destruct (library_order_free _ _ _ _ _ _ NE N L W C PE PM PC) as (v & v' & J & J' & SE & SB).
  rewrite J in I. injection I as <-. rewrite J' in I'. injection I' as <-.
  apply session_same.
  - intros l l' P. rewrite !tex_of_spec. fold (joined l) (joined l'). rewrite (X l l' P). reflexivity.
  - exact SE.
  - intros e b. specialize (SB e b). destruct (basis_get v e b) as [i|x] eqn:G, (basis_get v' e b) as [j|y] eqn:G'; try exact SB.
    destruct SB as (S & S' & ES & ES' & _ & D). exists S, S'. split; [exact ES|]. split; [exact ES'|].
    rewrite (import_ok _ _ _ N L) in J. injection J as <-. rewrite (import_ok _ _ _ N' L') in J'. injection J' as <-.
    split; [exact (import_wf _ _ _ _ _ _ _ N L W G ES)|]. split; [exact (import_wf _ _ _ _ _ _ _ N' L' W' G' ES')|]. exact D.
  - intros e b k. exact (validation_order_free _ _ _ _ _ _ _ _ e b k NE N L W C PE PM PC J J').
Qed.

(** C67: with LaTeX missing no condition on it is left. *)
Theorem C67_session_without_latex : forall efts mains children efts' mains' children' w w', (forall x, latex x = NotFound) ->
  NoDup (map fst efts) -> distinct_names (mains ++ children) -> layout mains children ->
  plain_files (mains ++ children) -> compatible children ->
  Permutation efts efts' -> Permutation mains mains' -> Permutation children children' ->
  import_package efts mains children = Ok w -> import_package efts' mains' children' = Ok w' ->
  forall lines s, session_in w lines s = session_in w' lines s.
Proof.
  intros efts mains children efts' mains' children' w w' X NE N L W C PE PM PC I I'.
  apply (C67_session_any_order _ _ _ _ _ _ _ _ NE N L W C PE PM PC I I'). intros l l' _. rewrite !X. reflexivity.
Qed.

(** Every run of a program imports the package anew, and may find the files in another order. *)
Notation run_in w := (run_line stdin creatable float_of_str json_dumps yaml_dump json_loads yaml_load translators matchers w odd odd_dict order isdir latex lha unusual).
Fixpoint runs (l : list (world * line)) (s : st) : list Z * st :=
  match l with
  | [] => ([], s)
  | (w, x) :: r => let (n, s') := run_in w x s in let (ns, s'') := runs r s' in (n :: ns, s'')
  end.
(** C67: the order may differ from run to run. *)
Theorem C67_runs_any_order : forall efts mains children w,
  NoDup (map fst efts) -> distinct_names (mains ++ children) -> layout mains children ->
  plain_files (mains ++ children) -> compatible children -> import_package efts mains children = Ok w -> latex_any_order ->
  forall l, (forall v x, In (v, x) l -> exists efts' mains' children', Permutation efts efts' /\ Permutation mains mains' /\ Permutation children children' /\
    import_package efts' mains' children' = Ok v) ->
  forall s, runs l s = session_in w (map snd l) s.
Proof.
  intros efts mains children w NE N L W C I X. induction l as [|[v x] l IH]; intros A s; [reflexivity|]. cbn [runs map snd session].
  destruct (A v x (or_introl eq_refl)) as (efts' & mains' & children' & PE & PM & PC & I').
  pose proof (C67_session_any_order _ _ _ _ _ _ _ _ NE N L W C PE PM PC I I' X [x] s) as Q. cbn [session] in Q.
  destruct (run_in w x s) as [n t], (run_in v x s) as [n' t']. injection Q as -> ->. rewrite IH by (intros v' x' J; exact (A v' x' (or_intror J))). reflexivity.
Qed.

(** C72: a file that could be loaded but has an entry "validate" fails with TypeError, whatever else it contains. *)
Theorem C72_hidden : forall w f s m e b x y, load_text string json_loads yaml_load (input f s) = Ok (DMap m) ->
  dget m "validate" = Some y -> free m ["self"; "known_translators"; "all_wcs"; "parent"] ->
  dget m "eft" = Some e -> dget m "basis" = Some b -> dget m "sectors" = Some x -> nameable e -> nameable b ->
  wcxf_validate float_of_str json_dumps yaml_dump json_loads yaml_load translators matchers odd latex w "basis" f s = trace_of s TypeError.
Proof.
  intros w f s m e b x y L V F Ee Eb Es He Hb. apply nameable_iff in He, Hb. unfold wcxf_validate. rewrite tool_basis. unfold basis_check, basis_load. rewrite L. cbn [bind].
  rewrite (proj2 (dmem_none m "self")) by (apply F; cbn; auto). unfold need. rewrite Ee, Eb, Es. cbn [bind]. rewrite He, Hb. cbn [andb negb].
  assert (exists a, setattrs KBasis [] (kwargs_of KBasis m) = Ok a) as [a ->].
  { apply setattrs_free. intros k [<-|[<-|[]]]; apply F; cbn; auto. }
  cbn [bind]. rewrite (F "parent") by (cbn; auto 6). unfold dmem. rewrite V. reflexivity.
Qed.
End C67.

(** Two imports of the same files that order the sectors differently; a new child basis passes after both. *)
Definition new_child : doc := DMap [("eft", DStr "WET"); ("basis", DStr "new"); ("parent", DStr "JMS"); ("sectors", DMap [("cu", DMap [("X", DMap [("tex", DStr "x")])])])].
Definition with_validate : doc := DMap [("eft", DStr "WET"); ("basis", DStr "new"); ("sectors", DMap []); ("validate", DStr "yes")].
Definition loads (t : string) : res doc := if String.eqb t "new" then Ok new_child else if String.eqb t "odd" then Ok with_validate else Err ValueError.
Definition disk : st := St [("new.json", "new"); ("odd.json", "odd")] [].
Definition typed : list line := [Wcxf ["validate"; "basis"; "new.json"]; Wcxf ["validate"; "basis"; "odd.json"]].
Definition run_with (w : world) : list Z * st :=
  session "" (fun _ => true) (fun _ => None) (fun _ => "") (fun _ => "") loads loads None None w (fun _ _ => Err ValueError) (fun _ => Err ValueError) (fun l => l) (fun _ => false)
    (fun _ => NotFound) (fun _ => "") (fun _ s => (0%Z, s)) typed disk.
Example C67_session_case :
  let efts := [("WET", ["sb"; "db"; "cu"]); ("SMEFT", ["dB=dL=0"])] in let mains := [P_Import.jms; P_Import.bern] in let children := [P_Import.kid; P_Import.kid'] in
  exists w w', import_package efts mains children = Ok w /\ import_package (rev efts) (rev mains) (rev children) = Ok w' /\ w <> w' /\
    run_with w = ([0%Z; 1%Z], St (files disk) [Printed "Validation successful."; Trace TypeError]) /\ run_with w' = run_with w.
Proof.
  eexists _, _. split; [vm_compute; reflexivity|]. split; [vm_compute; reflexivity|]. split; [discriminate|]. split; vm_compute; reflexivity.
Qed.
Print Assumptions C67_session_any_order.
Print Assumptions C67_session_without_latex.
Print Assumptions C67_runs_any_order.
Print Assumptions C72_hidden.
