(** C72: validating EFT and basis files with the command line tool.  The parsers of the json and yaml packages and the
    latex executable are variables; the state of the registries is any. *)
From Coq Require Import String List Bool Arith ZArith Reals Lia.
From Verif Require Import PyBase PyDict Cplx Wc Dump DumpInit Cli Tool Tex LoadBasis LoadBasisThm.
From Verif Require Import Bases BasesFacts.
Import ListNotations.
Open Scope string_scope.
Open Scope list_scope.
Open Scope nat_scope.

(** The outcome of _testtex as Basis.validate uses it *)
Definition tex_of (latex : string -> texrun) (x : string) : res bool := rmap success (fst (testtex latex x true)).
(** LaTeX is missing or compiles the formulas *)
Definition compiles (latex : string -> texrun) (x : string) : Prop :=
  latex (tex_doc x) = NotFound \/ exists text, latex (tex_doc x) = Ran 0 (Some text).
Lemma tex_of_spec latex x : tex_of latex x =
  match latex (tex_doc x) with
  | NotFound => Ok true
  | Ran rc None => Err UnboundLocalError
  | Ran rc (Some _) => Ok (Z.eqb rc 0)
  end.
Proof.
  unfold tex_of. destruct (latex (tex_doc x)) as [|rc [text|]] eqn:E.
  - unfold testtex. rewrite E. reflexivity.
  - rewrite (testtex_log latex x true rc text E). reflexivity.
  - unfold testtex. rewrite E. reflexivity.
Qed.
Lemma compiles_iff latex x : tex_of latex x = Ok true <-> compiles latex x.
Proof.
  rewrite tex_of_spec. unfold compiles. destruct (latex (tex_doc x)) as [|rc [text|]].
  - split; auto.
  - split.
    + intros [= E]. apply Z.eqb_eq in E. subst rc. right. eauto.
    + intros [[=]|[t [= -> _]]]. reflexivity.
  - split; [discriminate|]. intros [[=]|[t [=]]].
Qed.

Section C72.
Variable float_of_str : string -> option R.
Variables json_dumps yaml_dump : doc -> string.
Variables json_loads yaml_load : string -> res doc.
Variable translators : treg.
Variable matchers : mreg.
Variable odd : attrs -> list string -> res wc.
Variable latex : string -> texrun.
Section Any.
Variable world : world.
Notation parses t d := (load_text string json_loads yaml_load t = Ok d).
Notation effective := (LoadBasisThm.effective world).
Notation knows e known := (lookup_reg (w_efts world) e = Ok known).
(** [wcxf validate TYPE FILE] with the file or the text on standard input *)
Definition wcxf_validate (type : string) (f : source) (s : st) : Z * st :=
  LoadBasisThm.tool json_loads yaml_load world (tex_of latex) float_of_str json_dumps yaml_dump translators matchers odd (PCmd (Cli.Validate type f)) s.
Definition success_of (s : st) : Z * st := (0%Z, St (files s) (seen s ++ [Printed "Validation successful."])).
Definition help_of (s : st) : Z * st := (0%Z, St (files s) (seen s ++ [Help])).
Definition trace_of (s : st) (x : exn) : Z * st := (1%Z, St (files s) (seen s ++ [Trace x])).

Lemma shown_ok s r : shown s r = success_of s <-> r = Ok tt.
Proof.
  split; [|intros ->; reflexivity]. destruct r as [[]|x]; [reflexivity|].
  intros E. apply (f_equal snd) in E. apply (f_equal seen) in E.
  assert (forall ev, seen s ++ [ev] = seen s ++ [Printed "Validation successful."] -> ev = Printed "Validation successful.") as Q.
  { intros ev X. apply app_inv_head in X. injection X as ->. reflexivity. }
  destruct x; cbn in E; try (apply Q in E; discriminate).
  exfalso. apply (f_equal (@length event)) in E. rewrite app_length in E. cbn in E. lia.
Qed.

(** What may stand as a name: anything but a list or a mapping (which Python cannot hash) *)
Definition nameable (d : doc) : Prop := (forall l, d <> DList l) /\ forall m, d <> DMap m.
Lemma nameable_iff d : hashable d = true <-> nameable d.
Proof.
  unfold nameable. destruct d; cbn; (split; [intros E; discriminate E || (split; intros ? Q; discriminate Q)|]); intros [A B]; try reflexivity; exfalso; [exact (A _ eq_refl)|exact (B _ eq_refl)].
Qed.

(** A basis file passes exactly if: it is a mapping without an entry that disturbs the object; its EFT is known; and
    the sectors, including those of the parent, are sectors of the EFT, are mappings of distinct coefficients, and have
    formulas which are texts that LaTeX compiles. *)
Theorem C72_basis_passes_iff : forall f s,
  wcxf_validate "basis" f s = success_of s <->
  exists m e b known S, parses (input f s) (DMap m) /\ free m ["self"; "known_translators"; "all_wcs"; "validate"] /\
    dget m "eft" = Some (DStr e) /\ dget m "basis" = Some b /\ nameable b /\ knows e known /\ effective m e b S /\
    incl (dkeys S) known /\ (forall k c, In (k, c) S -> sector_ok c) /\ NoDup (coefficients S) /\ compiles latex (formulas S).
Proof.
  intros f s. unfold wcxf_validate. rewrite tool_basis, shown_ok, basis_check_iff.
  split; intros (m & e & b & known & S & A1 & A2 & A3 & A4 & A5 & A6 & A7 & (A8 & A9 & A10 & A11)); exists m, e, b, known, S; repeat (split; [assumption || (apply nameable_iff; assumption)|]);
    apply compiles_iff; exact A11.
Qed.
(** Whatever the file contains, once it is parsed: the run prints one thing and changes no file. *)
Theorem C72_outcomes : forall type f s d, In type ["eft"; "basis"] -> parses (input f s) d ->
  wcxf_validate type f s = success_of s \/ wcxf_validate type f s = help_of s \/
  exists x, In x [TypeError; ValueError; UnboundLocalError] /\ wcxf_validate type f s = trace_of s x.
Proof.
  intros type f s d I L.
  assert (forall r, (forall x, r = Err x -> In x [TypeError; ValueError; UnboundLocalError; AttributeError]) -> shown s r = success_of s \/ shown s r = help_of s \/
    exists x, In x [TypeError; ValueError; UnboundLocalError] /\ shown s r = trace_of s x) as Q.
  { intros [[]|x] N; [auto|]. specialize (N x eq_refl). cbn in N. destruct N as [<-|[<-|[<-|[<-|[]]]]]; cbn [shown]; auto; right; right; eexists; (split; [|reflexivity]); cbn; auto. }
  unfold wcxf_validate. destruct I as [<-|[<-|[]]].
  - rewrite tool_eft. apply Q. intros x E. destruct (eft_load_err json_loads yaml_load _ _ d L E) as [-> | ->]; cbn; auto.
  - rewrite tool_basis. apply Q. intros x E. destruct (basis_check_err json_loads yaml_load world (tex_of latex) _ d x L E) as [[-> | [-> | ->]]|[g G]]; cbn; auto.
    rewrite tex_of_spec in G. destruct (latex (tex_doc g)) as [|rc [text|]]; try discriminate. injection G as <-. auto.
Qed.
Theorem C72_unparsable : forall type f s x, In type ["eft"; "basis"] -> load_text string json_loads yaml_load (input f s) = Err x -> x <> AttributeError -> x <> SystemExit ->
  wcxf_validate type f s = trace_of s x.
Proof.
  intros type f s x I L N1 N2. unfold wcxf_validate. destruct I as [<-|[<-|[]]].
  - rewrite tool_eft. unfold eft_load. rewrite L. cbn [bind]. destruct x; congruence || reflexivity.
  - rewrite tool_basis, (basis_check_unparsed _ _ _ _ _ x L). destruct x; congruence || reflexivity.
Qed.

(** A file about a known EFT, with undisturbed entries and sectors [S] *)
Definition about (f : source) (s : st) (known : list string) (S : dict string doc) : Prop :=
  exists m e b, parses (input f s) (DMap m) /\ free m ["self"; "known_translators"; "all_wcs"; "validate"] /\
    dget m "eft" = Some (DStr e) /\ dget m "basis" = Some b /\ nameable b /\ knows e known /\ effective m e b S.
Lemma about_shown f s known S : about f s known S -> wcxf_validate "basis" f s = shown s (checks (tex_of latex) known S false).
Proof.
  intros (m & e & b & L & F & Ee & Eb & Hb & K & Eff). unfold wcxf_validate. rewrite tool_basis. f_equal.
  exact (effective_check json_loads yaml_load world (tex_of latex) _ m e b known S L F Ee Eb (proj2 (nameable_iff b) Hb) K Eff).
Qed.
(** What is refused with a message and status 1 *)
Theorem C72_unknown_sector : forall f s known S, about f s known S -> ~ incl (dkeys S) known -> wcxf_validate "basis" f s = trace_of s ValueError.
Proof. intros f s known S A N. rewrite (about_shown f s known S A), checks_unknown by exact N. reflexivity. Qed.
Theorem C72_duplicates : forall f s known S, about f s known S -> incl (dkeys S) known -> (forall k c, In (k, c) S -> exists d, c = DMap d) ->
  ~ NoDup (coefficients S) -> wcxf_validate "basis" f s = trace_of s ValueError.
Proof. intros f s known S A I M N. rewrite (about_shown f s known S A), checks_dupes by assumption. reflexivity. Qed.
Theorem C72_formulas : forall f s known S, about f s known S -> incl (dkeys S) known -> (forall k c, In (k, c) S -> sector_ok c) -> NoDup (coefficients S) ->
  wcxf_validate "basis" f s =
  match latex (tex_doc (formulas S)) with
  | NotFound => success_of s
  | Ran rc (Some _) => if (rc =? 0)%Z then success_of s else trace_of s ValueError
  | Ran _ None => trace_of s UnboundLocalError
  end.
Proof.
  intros f s known S A I M N. rewrite (about_shown f s known S A), checks_tex, tex_of_spec by assumption.
  destruct (latex _) as [|rc [text|]]; try reflexivity. destruct (rc =? 0)%Z; reflexivity.
Qed.
Theorem C72_unknown_eft : forall f s m e b x, parses (input f s) (DMap m) -> free m ["self"; "known_translators"; "all_wcs"; "validate"; "parent"] ->
  dget m "eft" = Some e -> dget m "basis" = Some b -> dget m "sectors" = Some x -> nameable e -> nameable b ->
  (forall n known, e = DStr n -> ~ knows n known) -> wcxf_validate "basis" f s = trace_of s ValueError.
Proof.
  intros f s m e b x L F Ee Eb Es He Hb U. apply nameable_iff in He, Hb. unfold wcxf_validate. rewrite tool_basis.
  rewrite (unknown_eft json_loads yaml_load world (tex_of latex) _ m e b x L) by (auto; try (apply F; cbn; auto 6); intros k I; apply F; cbn in *; tauto). reflexivity.
Qed.
Theorem C72_unknown_parent : forall f s m e b x p, parses (input f s) (DMap m) -> free m ["self"; "known_translators"; "all_wcs"; "validate"] ->
  dget m "eft" = Some (DStr e) -> dget m "basis" = Some (DStr b) -> dget m "sectors" = Some x -> dget m "parent" = Some (DStr p) ->
  ~ usable_parent world e b p -> wcxf_validate "basis" f s = trace_of s ValueError.
Proof.
  intros f s m e b x p L F Ee Eb Es Ep U. unfold wcxf_validate. rewrite tool_basis. unfold basis_check.
  rewrite (proper_load json_loads yaml_load world _ m _ _ _ L F Ee Eb Es eq_refl eq_refl), Ep. cbn [hashable negb].
  assert (parent_of world (DStr e) (DStr b) (DStr p) = None) as ->; [|reflexivity].
  unfold parent_of. destruct (String.eqb b p) eqn:B; [reflexivity|]. apply String.eqb_neq in B.
  destruct (lookup_reg (w_bases world) (e, p)) as [pid|] eqn:G; [|reflexivity]. destruct (sectors_of world pid) as [P|] eqn:SP; [|reflexivity].
  exfalso. apply U. split; [congruence|]. exists pid, P. auto.
Qed.
(** With a parent, sectors that are neither a mapping nor a list of pairs: a traceback, never the help text. *)
Inductive unusable : doc -> exn -> Prop :=
| un_null : unusable DNull TypeError
| un_bool c : unusable (DBool c) TypeError
| un_num x : unusable (DNum x) TypeError
| un_text t : t <> "" -> unusable (DStr t) ValueError
| un_length l1 l l2 : Forall (fun y => exists k v, y = DList [DStr k; v]) l1 -> length l <> 2 -> unusable (DList (l1 ++ DList l :: l2)) ValueError
| un_item l1 y l2 : Forall (fun y => exists k v, y = DList [DStr k; v]) l1 -> (y = DNull \/ (exists c, y = DBool c) \/ exists x, y = DNum x) ->
    unusable (DList (l1 ++ y :: l2)) TypeError
| un_key l1 k v l2 : Forall (fun y => exists k v, y = DList [DStr k; v]) l1 -> ~ nameable k -> unusable (DList (l1 ++ DList [k; v] :: l2)) TypeError.
Lemma update_unusable d x y : unusable x y -> update_doc d x = Err y.
Proof.
  assert (forall l1 z l2 y, Forall (fun y => exists k v, y = DList [DStr k; v]) l1 -> (forall d, update_seq d (z :: l2) = Err y) -> forall d, update_seq d (l1 ++ z :: l2) = Err y) as Q.
  { intros l1 z l2 y0 F H. induction F as [|w l1 (k & v & ->) F IH]; intros d0; cbn [app]; [apply H|]. cbn [update_seq pair_of bind fst snd hashable negb]. apply IH. }
  intros U. destruct U as [|c|n|t N|l1 l l2 F N|l1 z l2 F N|l1 k v l2 F N]; try reflexivity.
  - destruct t; [contradiction|reflexivity].
  - cbn [update_doc]. apply Q; [exact F|]. intros d0. cbn [update_seq]. destruct l as [|a [|b [|c l]]]; try reflexivity. contradiction.
  - cbn [update_doc]. apply Q; [exact F|]. intros d0. destruct N as [->|[[c ->]|[n ->]]]; reflexivity.
  - cbn [update_doc]. apply Q; [exact F|]. intros d0. cbn [update_seq pair_of bind fst]. destruct (hashable k) eqn:H; [apply nameable_iff in H; contradiction|reflexivity].
Qed.
Theorem C72_child_sectors : forall f s m e b x p y, parses (input f s) (DMap m) -> free m ["self"; "known_translators"; "all_wcs"; "validate"] ->
  dget m "eft" = Some (DStr e) -> dget m "basis" = Some (DStr b) -> dget m "sectors" = Some x -> dget m "parent" = Some (DStr p) ->
  usable_parent world e b p -> unusable x y -> wcxf_validate "basis" f s = trace_of s y.
Proof.
  intros f s m e b x p y L F Ee Eb Es Ep (N & id & P & G & SP) U. unfold wcxf_validate. rewrite tool_basis. unfold basis_check.
  rewrite (proper_load json_loads yaml_load world _ m _ _ _ L F Ee Eb Es eq_refl eq_refl), Ep. cbn [hashable negb].
  assert (parent_of world (DStr e) (DStr b) (DStr p) = Some (sectors_doc P)) as ->.
  { unfold parent_of. destruct (String.eqb_spec b p); [congruence|]. unfold basis_get in G. rewrite G, SP. reflexivity. }
  rewrite (update_unusable _ _ _ U). cbn [bind]. destruct U; reflexivity.
Qed.
(** Findings: files with the wrong structure end with the help text and status 0, like a run without a command. *)
Theorem C72_sectors_refuted : forall f s m e b known x, parses (input f s) (DMap m) -> free m ["self"; "known_translators"; "all_wcs"; "validate"; "parent"] ->
  dget m "eft" = Some (DStr e) -> dget m "basis" = Some b -> nameable b -> knows e known -> dget m "sectors" = Some x -> (forall S, x <> DMap S) ->
  wcxf_validate "basis" f s = help_of s.
Proof.
  intros f s m e b known x L F Ee Eb Hb K Es N. apply nameable_iff in Hb. unfold wcxf_validate. rewrite tool_basis.
  rewrite (no_mapping json_loads yaml_load world (tex_of latex) _ m e b x known L) by (auto; try (apply F; cbn; auto 6); intros k I; apply F; cbn in *; tauto). reflexivity.
Qed.
Theorem C72_sector_refuted : forall f s known S k c, about f s known S -> incl (dkeys S) known -> In (k, c) S -> (forall d, c <> DMap d) ->
  wcxf_validate "basis" f s = help_of s.
Proof. intros f s known S k c A I J N. rewrite (about_shown f s known S A), (checks_sector _ known S k c) by assumption. reflexivity. Qed.
Theorem C72_entry_refuted : forall f s known S k d k' v, about f s known S -> incl (dkeys S) known -> (forall k c, In (k, c) S -> exists d, c = DMap d) ->
  NoDup (coefficients S) -> In (k, DMap d) S -> In (k', v) d -> v <> DNull -> (forall x, v <> DMap x) -> wcxf_validate "basis" f s = help_of s.
Proof. intros f s known S k d k' v A I M N J1 J2 V1 V2. rewrite (about_shown f s known S A), (checks_entry _ known S k d k' v) by assumption. reflexivity. Qed.

(** An EFT file passes exactly if it is a mapping with a name that is not a list or mapping and an entry "sectors",
    and nothing that disturbs the object. *)
Theorem C72_eft_passes_iff : forall f s, wcxf_validate "eft" f s = success_of s <->
  exists m e x, parses (input f s) (DMap m) /\ free m ["self"; "known_bases"; "known_translators"] /\
    dget m "eft" = Some e /\ nameable e /\ dget m "sectors" = Some x.
Proof. intros f s. unfold wcxf_validate. rewrite tool_eft, shown_ok, eft_load_iff.
  split; intros (m & e & x & A1 & A2 & A3 & A4 & A5); exists m, e, x; apply nameable_iff in A4; auto. Qed.
(** Finding: the entries may be null, a number, ... *)
Theorem C72_eft_entries_refuted : forall f s e x, nameable e -> parses (input f s) (DMap [("eft", e); ("sectors", x)]) ->
  wcxf_validate "eft" f s = success_of s.
Proof.
  intros f s e x H L. apply C72_eft_passes_iff. exists [("eft", e); ("sectors", x)], e, x. split; [exact L|]. split; [|auto].
  intros k [<-|[<-|[<-|[]]]]; reflexivity.
Qed.
(** Finding: so may the name of a basis. *)
Theorem C72_basis_name_refuted : forall f s e b known S, nameable b -> parses (input f s) (DMap [("eft", DStr e); ("basis", b); ("sectors", DMap S)]) -> knows e known ->
  incl (dkeys S) known -> (forall k c, In (k, c) S -> sector_ok c) -> NoDup (coefficients S) -> compiles latex (formulas S) ->
  wcxf_validate "basis" f s = success_of s.
Proof.
  intros f s e b known S H L K I M N T. apply C72_basis_passes_iff. exists [("eft", DStr e); ("basis", b); ("sectors", DMap S)], e, b, known, S.
  split; [exact L|]. split; [intros k [<-|[<-|[<-|[<-|[]]]]]; reflexivity|]. repeat (split; [auto; fail|]). split; [left; auto|auto].
Qed.
End Any.

(** For well-formed files the command does what loading the basis and calling its method does. *)
Theorem C72_same_as_object : forall h f s e b parent secs, basis_file json_loads yaml_load (input f s) e b parent secs ->
  let w := wrun h in
  wcxf_validate w "basis" f s =
  match (let (r, w') := new_basis w e b parent secs in let! id := r in Bases.basis_validate (tex_of latex) w' id) with
  | Ok _ => success_of s
  | Err AttributeError => help_of s
  | Err SystemExit => (0%Z, s)
  | Err x => trace_of s x
  end.
Proof.
  intros h f s e b parent secs T w. unfold w, wcxf_validate. clear w. rewrite tool_basis. rewrite (typed_check json_loads yaml_load h (tex_of latex) _ e b parent secs T).
  destruct (new_basis (wrun h) e b parent secs) as [[id|x] w']; cbn [bind]; [|destruct x; reflexivity].
  destruct (Bases.basis_validate _ w' id) as [[]|x]; [reflexivity|destruct x; reflexivity].
Qed.
(** A basis that passes can be loaded, and then WC.validate accepts exactly the coefficients it and its parent list. *)
Theorem C72_passed_is_usable : forall h f s e b parent secs keys, basis_file json_loads yaml_load (input f s) e b parent secs ->
  wcxf_validate (wrun h) "basis" f s = success_of s ->
  exists id S, fst (new_basis (wrun h) e b parent secs) = Ok id /\ sectors_of (snd (new_basis (wrun h) e b parent secs)) id = Some S /\
    (fst (wc_validate (snd (new_basis (wrun h) e b parent secs)) e b keys) = Ok tt <-> incl keys (coefficients (sectors_doc S))).
Proof.
  intros h f s e b parent secs keys T P. unfold wcxf_validate in P. rewrite tool_basis, shown_ok in P.
  exact (validated_usable json_loads yaml_load h (tex_of latex) _ e b parent secs keys T P).
Qed.
End C72.

(** ** Cases *)
(** A parser that knows the following texts *)
Definition texts : list (string * doc) :=
  let c t := DMap [("tex", DStr t)] in
  [("good", DMap [("eft", DStr "WET"); ("basis", DStr "new"); ("sectors", DMap [("sb", DMap [("C1", c "C_1"); ("C2", DNull)]); ("db", DMap [("C3", DMap [("real", DBool true)])])]); ("metadata", DNull)]);
   ("child", DMap [("eft", DStr "WET"); ("basis", DStr "new"); ("parent", DStr "JMS"); ("sectors", DMap [("db", DMap [("C9", DNull)])])]);
   ("pairs", DMap [("eft", DStr "WET"); ("basis", DStr "new"); ("parent", DStr "JMS"); ("sectors", DList [DList [DStr "db"; DMap [("C9", DNull)]]])]);
   ("short", DMap [("eft", DStr "WET"); ("basis", DStr "new"); ("parent", DStr "JMS"); ("sectors", DList [DList [DStr "db"; DNull]; DList [DStr "sb"]])]);
   ("clash", DMap [("eft", DStr "WET"); ("basis", DStr "new"); ("parent", DStr "JMS"); ("sectors", DMap [("db", DMap [("C1", DNull)])])]);
   ("orphan", DMap [("eft", DStr "WET"); ("basis", DStr "new"); ("parent", DStr "new"); ("sectors", DMap [])]);
   ("unknown", DMap [("eft", DStr "WET"); ("basis", DStr "new"); ("sectors", DMap [("cu", DMap [])])]);
   ("noeft", DMap [("eft", DStr "HQET"); ("basis", DStr "new"); ("sectors", DMap [])]);
   ("null", DMap [("eft", DStr "WET"); ("basis", DStr "new"); ("sectors", DMap [("sb", DNull)])]);
   ("list", DMap [("eft", DStr "WET"); ("basis", DStr "new"); ("sectors", DList [DStr "sb"])]);
   ("entry", DMap [("eft", DStr "WET"); ("basis", DStr "new"); ("sectors", DMap [("sb", DMap [("C1", DStr "C_1")])])]);
   ("notext", DMap [("eft", DStr "WET"); ("basis", DStr "new"); ("sectors", DMap [("sb", DMap [("C1", DMap [("tex", DNull)])])])]);
   ("number", DMap [("eft", DStr "WET"); ("basis", DNum 1); ("sectors", DMap [("sb", DMap [("C1", DNull)])])]);
   ("eft", DMap [("eft", DStr "WET"); ("sectors", DMap [("sb", DNull)])]);
   ("empty", DMap [("eft", DNull); ("sectors", DNull)]);
   ("half", DMap [("eft", DStr "WET")])].
Definition toy_loads (t : string) : res doc := match dget texts t with Some d => Ok d | None => Err JSONDecodeError end.
Definition toy_world : list wop :=
  [NewEFT "WET" ["sb"; "db"]; NewBasis "WET" "JMS" None [("sb", Some [("C1", Some (Entry (Some "C_1") false)); ("C2", None)])]].
Definition toy_validate (latex : string -> texrun) (type text : string) : Z * st :=
  wcxf_validate (fun _ => None) (fun _ => "") (fun _ => "") toy_loads (fun _ => Err YAMLError) None None (fun _ _ => Err TypeError) latex (wrun toy_world) type (SFile "f")
    (St [("f", text)] []).
Definition brief (r : Z * st) : Z * list event := (fst r, seen (snd r)).
Example C72_cases : let no := fun _ => NotFound in let bad := fun _ => Ran 1 (Some "log") in let ok := (0%Z, [Printed "Validation successful."]) in
  brief (toy_validate no "basis" "good") = ok /\ brief (toy_validate no "basis" "child") = ok /\ brief (toy_validate no "basis" "pairs") = ok /\
  brief (toy_validate bad "basis" "good") = (1%Z, [Trace ValueError]) /\
  brief (toy_validate (fun _ => Ran 0 (Some "log")) "basis" "good") = ok /\ brief (toy_validate (fun _ => Ran 0 None) "basis" "good") = (1%Z, [Trace UnboundLocalError]) /\
  (forall t, In t ["clash"; "orphan"; "unknown"; "noeft"] -> brief (toy_validate no "basis" t) = (1%Z, [Trace ValueError])) /\
  (forall t, In t ["null"; "list"; "entry"] -> brief (toy_validate no "basis" t) = (0%Z, [Help])) /\
  brief (toy_validate no "basis" "notext") = (1%Z, [Trace TypeError]) /\ brief (toy_validate no "basis" "number") = ok /\
  brief (toy_validate no "eft" "eft") = ok /\ brief (toy_validate no "eft" "empty") = ok /\ brief (toy_validate no "eft" "half") = (1%Z, [Trace TypeError]) /\
  brief (toy_validate no "eft" "no file") = (1%Z, [Trace YAMLError]).
Proof.
  cbv zeta. repeat split; try reflexivity.
  - intros t [<-|[<-|[<-|[<-|[]]]]]; reflexivity.
  - intros t [<-|[<-|[<-|[]]]]; reflexivity.
Qed.
Example C72_about_case : let s := St [("f", "child")] [] in
  about toy_loads (fun _ => Err YAMLError) (wrun toy_world) (SFile "f") s ["sb"; "db"] [("sb", DMap [("C1", DMap [("tex", DStr "C_1")]); ("C2", DNull)]); ("db", DMap [("C9", DNull)])] /\
  basis_file toy_loads (fun _ => Err YAMLError) (input (SFile "f") s) "WET" "new" (Some "JMS") [("db", Some [("C9", None)])] /\
  usable_parent (wrun toy_world) "WET" "new" "JMS".
Proof.
  cbv zeta. split; [|split].
  - eexists _, "WET", (DStr "new"). split; [reflexivity|]. split; [intros k [<-|[<-|[<-|[<-|[]]]]]; reflexivity|]. split; [reflexivity|]. split; [reflexivity|]. split; [split; discriminate|]. split; [reflexivity|]. right.
    eexists "JMS", 0, _, _, _. split; [reflexivity|]. split; [discriminate|]. split; [reflexivity|]. split; [reflexivity|]. split; [reflexivity|]. split; [constructor|]. reflexivity.
  - eexists. split; [reflexivity|]. split; [intros k [<-|[<-|[<-|[<-|[]]]]]; reflexivity|]. repeat split.
  - split; [discriminate|]. eexists 0, _. split; reflexivity.
Qed.

Example C72_child_case : usable_parent (wrun toy_world) "WET" "new" "JMS" /\ unusable (DList [DList [DStr "db"; DNull]; DList [DStr "sb"]]) ValueError /\ unusable DNull TypeError /\
  brief (toy_validate (fun _ => NotFound) "basis" "short") = (1%Z, [Trace ValueError]).
Proof.
  split; [split; [discriminate|]; eexists 0, _; split; reflexivity|]. split; [|split; [constructor|reflexivity]].
  apply (un_length [DList [DStr "db"; DNull]] [DStr "sb"] []); [|discriminate]. constructor; [|constructor]. eexists _, _. reflexivity.
Qed.

Print Assumptions C72_basis_passes_iff.
Print Assumptions C72_child_sectors.
Print Assumptions C72_outcomes.
Print Assumptions C72_unparsable.
Print Assumptions C72_unknown_sector.
Print Assumptions C72_duplicates.
Print Assumptions C72_formulas.
Print Assumptions C72_unknown_eft.
Print Assumptions C72_unknown_parent.
Print Assumptions C72_sectors_refuted.
Print Assumptions C72_sector_refuted.
Print Assumptions C72_entry_refuted.
Print Assumptions C72_eft_passes_iff.
Print Assumptions C72_eft_entries_refuted.
Print Assumptions C72_basis_name_refuted.
Print Assumptions C72_same_as_object.
Print Assumptions C72_passed_is_usable.
