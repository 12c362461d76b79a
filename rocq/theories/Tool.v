(** The command line on actual files: cli.py 84-117 and converters/yamljson.py with
    the classes of classes.py behind it.  The printers and parsers of the json and
    yaml packages are variables; [treg] and [mreg] are any registries. *)
From Coq Require Import String List Bool Arith ZArith Reals Lia.
From Verif Require Import PyBase PyDict Cplx Wc Dump DumpInit Cli.
From Verif Require Bases.
Import ListNotations.
Open Scope string_scope.
Open Scope list_scope.
Open Scope nat_scope.

(** A WC object without own attributes as its [__dict__] (classes.py 320-329). *)
Definition attrs_of (e b : string) (x : R) (v : dict string doc) : attrs :=
  [("eft", DStr e); ("basis", DStr b); ("scale", DNum x); ("values", DMap v); ("_dict", DNull)].
Definition wc_attrs (w : wc) : attrs := attrs_of (wc_eft w) (wc_basis w) (wc_scale w) (wc_values w).
(** The fields of a loaded file which WC.translate, WC.match and WC.validate use:
    EFT, basis and scale of the right types and values that are a mapping. *)
Definition fields (a : attrs) : option wc :=
  match dget a "eft", dget a "basis", dget a "scale", dget a "values", dget a "_dict" with
  | Some (DStr e), Some (DStr b), Some (DNum x), Some (DMap v), Some DNull => Some (WCobj e b x v None)
  | _, _, _, _, _ => None
  end.
Definition unhashable (a : attrs) (k : string) : bool :=
  match dget a k with Some (DList _) | Some (DMap _) => true | _ => false end.
(** [instances[self.eft, self.basis, ...]] inside the try statements of classes.py
    396-399, 405-408: TypeError for lists and mappings, otherwise only texts can be found. *)
Definition registered (a : attrs) (found : string -> string -> bool) : res unit :=
  if unhashable a "eft" || unhashable a "basis" then Err TypeError else
  match dget a "eft", dget a "basis" with
  | Some (DStr e), Some (DStr b) => if found e b then Ok tt else Err ValueError
  | _, _ => Err ValueError
  end.

Section Tool.
Variable float_of_str : string -> option R.
Variables json_dumps yaml_dump : doc -> string.
Variables json_loads yaml_load : string -> res doc.
Variable treg_ : treg.
Variable mreg_ : mreg.
Variable w0 : Bases.world.
(** Objects with a file entry [_dict] that is not null or with [_to_number]: not modelled *)
Variable odd : attrs -> list string -> res wc.
(** Loading and validating EFT and basis files *)
Variable basis_ : Type.
Variable EFT_load : string -> res unit.
Variable Basis_load : string -> res basis_.
Variable basis_validate : basis_ -> res unit.

Definition is_odd (a : attrs) : bool :=
  dmem a "_to_number" || match dget a "_dict" with Some DNull => false | _ => true end.
(** WCxf.load for WC *)
Definition wload (t : string) : res attrs := load float_of_str string json_loads yaml_load (fun _ _ => None) KWC t.
Definition wdump (a : attrs) (fmt : string) : res string := dump string json_dumps yaml_dump a fmt.
(** A file entry with the name of a method hides the method: not callable. *)
Definition hidden (a : attrs) (k : string) : bool := dmem a k.
(** WC.translate and WC.match (classes.py 393-455) on any loaded object *)
Definition on_object (name : string) (args : list string) (found : string -> string -> bool) (f : wc -> res wc) (a : attrs) : res attrs :=
  if hidden a name then Err TypeError else
  let! _ := registered a found in
  if is_odd a then rmap wc_attrs (odd a args) else
  match fields a with
  | Some w => rmap wc_attrs (f w)
  | None => Err AttributeError          (* self.values.items() *)
  end.
Definition tool_translate (a : attrs) (t : string) : res attrs :=
  on_object "translate" [t] (fun e b => is_ok (reg_lookup treg_ (e, b, t))) (fun w => fst (Wc.translate float_of_str treg_ w t None)) a.
Definition tool_match (a : attrs) (e' t : string) : res attrs :=
  on_object "match" [e'; t] (fun e b => is_ok (reg_lookup mreg_ (e, b, e', t))) (fun w => fst (Wc.wmatch float_of_str mreg_ w e' t None)) a.
(** WC.validate (classes.py 354-366) *)
Definition tool_validate (a : attrs) : res unit :=
  if hidden a "validate" then Err TypeError else
  if unhashable a "eft" then Err TypeError else
  match dget a "eft" with
  | Some (DStr e) =>
      if negb (is_ok (Bases.lookup_reg (Bases.w_efts w0) e)) then Err ValueError else
      if unhashable a "basis" then Err TypeError else
      match dget a "basis" with
      | Some (DStr b) =>
          if negb (is_ok (Bases.lookup_reg (Bases.w_bases w0) (e, b))) then Err ValueError else
          match dget a "values" with
          | Some (DMap v) => fst (Bases.wc_validate w0 e b (dkeys v))
          | _ => Err AttributeError       (* self.values.keys() *)
          end
      | _ => Err ValueError
      end
  | _ => Err ValueError
  end.
(** _yaml_to_json, _json_to_yaml: classes.py 46-52 *)
Definition yaml_to_json (t : string) : res string := let! d := yaml_load t in Ok (json_dumps d).
Definition json_to_yaml (t : string) : res string := let! d := json_loads t in Ok (yaml_dump d).
Definition tool (p : parsed) (s : st) : Z * st :=
  wcxf_main attrs basis_ wload tool_translate tool_match wdump tool_validate EFT_load Basis_load basis_validate yaml_to_json json_to_yaml p s.
Definition outcome (c : cmd) (t : string) : res (option string) :=
  result attrs basis_ wload tool_translate tool_match wdump tool_validate EFT_load Basis_load basis_validate yaml_to_json json_to_yaml c t.

(** * Facts *)
(** Documents that the printers and parsers take over unchanged.  (The numbers here are
    reals: no printer can do that for all of them.) *)
Variable printable : doc -> Prop.
Hypothesis json_roundtrip : forall d, printable d -> json_loads (json_dumps d) = Ok d.
Hypothesis yaml_roundtrip : forall d, printable d -> yaml_load (yaml_dump d) = Ok d.
(** Block-style YAML of a non-empty mapping is not a JSON text. *)
Hypothesis yaml_not_json : forall m, m <> [] -> printable (DMap m) ->
  exists x, json_loads (yaml_dump (DMap m)) = Err x /\ (x = ValueError \/ x = JSONDecodeError).

Definition format_ok (fmt : string) : Prop := lower fmt = "json" \/ lower fmt = "yaml".
Lemma load_json d : printable d -> load_text string json_loads yaml_load (json_dumps d) = Ok d.
Proof. intros P. unfold load_text. rewrite json_roundtrip by exact P. reflexivity. Qed.
Lemma load_yaml m : m <> [] -> printable (DMap m) -> load_text string json_loads yaml_load (yaml_dump (DMap m)) = Ok (DMap m).
Proof.
  intros N P. unfold load_text. destruct (yaml_not_json m N P) as (x & -> & [-> | ->]); apply yaml_roundtrip; exact P.
Qed.
(** What is written for an object *)
Definition entries (w : wc) : list (string * doc) :=
  [("eft", DStr (wc_eft w)); ("basis", DStr (wc_basis w)); ("scale", DNum (wc_scale w)); ("values", DMap (wc_values w))].

(** File entries that would change what the methods do *)
Definition reserved : list string := ["self"; "dict"; "_dict"; "_to_number"; "translate"; "match"; "validate"].
(** The text [t] is a coefficient file for the object [w]: JSON or YAML for a mapping with
    the four entries, possibly others, but none with a reserved name. *)
Definition file_of (t : string) (w : wc) : Prop :=
  exists m sc, load_text string json_loads yaml_load t = Ok (DMap m) /\ wf m /\
    dget m "eft" = Some (DStr (wc_eft w)) /\ dget m "basis" = Some (DStr (wc_basis w)) /\
    dget m "scale" = Some sc /\ to_float float_of_str sc = Ok (wc_scale w) /\
    dget m "values" = Some (DMap (wc_values w)) /\ wc_cache w = None /\
    forall k, In k reserved -> dget m k = None.
(** As an object *)
Definition file_for (t : string) (w : wc) : Prop :=
  exists a, wload t = Ok a /\ fields a = Some w /\ hidden a "translate" = false /\ hidden a "match" = false /\ hidden a "validate" = false /\
    dmem a "_to_number" = false.
Lemma file_of_for t w : file_of t w -> file_for t w.
Proof.
  intros (m & sc & L & W & E & B & S & X & V & C & K).
  assert (forall k, In k reserved -> dmem m k = false) as Km by (intros k I; unfold dmem; rewrite (K k I); reflexivity).
  assert (forall k', dmem m k' = true -> ~ In k' (properties KWC)) as P.
  { intros k' M [<-|[]]. rewrite (Km "dict") in M by (simpl; auto). discriminate. }
  set (base := [("eft", DStr (wc_eft w)); ("basis", DStr (wc_basis w)); ("scale", DNum (wc_scale w)); ("values", DMap (wc_values w)); ("_dict", DNull)]).
  assert (construct float_of_str (fun _ _ => None) KWC m = Ok (dupdate base (kwargs_of KWC m))) as Q.
  { unfold construct, need. rewrite (Km "self") by (simpl; auto). rewrite E, B, S, V. cbn [bind]. rewrite X. cbn [bind]. exact (setattrs_good float_of_str KWC m base P). }
  assert (forall k, dget (dupdate base (kwargs_of KWC m)) k = if mem k (required KWC) then dget base k else match dget m k with Some v => Some v | None => dget base k end) as G.
  { intros k. exact (set_base KWC m base k W P). }
  exists (dupdate base (kwargs_of KWC m)). split; [unfold wload, load; rewrite L; exact Q|].
  assert (forall k, In k reserved -> dget base k = None -> dmem (dupdate base (kwargs_of KWC m)) k = false) as D.
  { intros k I N. unfold dmem. rewrite G, (K k I), N. destruct (mem k (required KWC)); reflexivity. }
  split.
  - unfold fields. rewrite !G, (K "_dict") by (simpl; auto). simpl. destruct w as [e b x v c]. simpl in *. rewrite C. reflexivity.
  - unfold hidden. repeat split; apply D; simpl; auto 10.
Qed.
Lemma fields_some a w : fields a = Some w -> dget a "eft" = Some (DStr (wc_eft w)) /\ dget a "basis" = Some (DStr (wc_basis w)) /\
  dget a "scale" = Some (DNum (wc_scale w)) /\ dget a "values" = Some (DMap (wc_values w)) /\ dget a "_dict" = Some DNull /\ wc_cache w = None.
Proof.
  unfold fields. destruct (dget a "eft") as [[| | |e| |]|]; try discriminate. destruct (dget a "basis") as [[| | |b| |]|]; try discriminate.
  destruct (dget a "scale") as [[| |x| | |]|]; try discriminate. destruct (dget a "values") as [[| | | | |v]|]; try discriminate.
  destruct (dget a "_dict") as [[| | | | |]|]; try discriminate. intros [= <-]. simpl. auto 7.
Qed.
Lemma fields_attrs w : wc_cache w = None -> fields (wc_attrs w) = Some w.
Proof. destruct w as [e b x v c]. simpl. intros ->. reflexivity. Qed.
Lemma file_written w fmt : wc_cache w = None -> format_ok fmt -> printable (DMap (entries w)) -> exists u, wdump (wc_attrs w) fmt = Ok u /\ file_of u w.
Proof.
  intros C F Pr. set (p := entries w).
  assert (public (wc_attrs w) = Ok p) as P by reflexivity.
  destruct (dump_defined string json_dumps yaml_dump (wc_attrs w) p fmt P) as (D1 & D2 & _).
  assert (exists u, wdump (wc_attrs w) fmt = Ok u /\ load_text string json_loads yaml_load u = Ok (DMap p)) as (u & D & L).
  { destruct F as [F|F]; [exists (json_dumps (DMap p))|exists (yaml_dump (DMap p))]; (split; [auto|]); [exact (load_json _ Pr)|apply load_yaml; [discriminate|exact Pr]]. }
  exists u. split; [exact D|]. exists p, (DNum (wc_scale w)). split; [exact L|]. split; [repeat constructor; simpl; intuition discriminate|].
  do 6 (split; [reflexivity || exact C|]). intros k I. unfold reserved in I. simpl in I.
  repeat (destruct I as [<-|I]; [reflexivity|]). destruct I.
Qed.

(** ** Steps *)
Inductive step := STranslate (t : string) | SMatch (e t : string).
(** The method call ... *)
Definition call (x : step) (w : wc) : res wc :=
  match x with
  | STranslate t => fst (Wc.translate float_of_str treg_ w t None)
  | SMatch e t => fst (Wc.wmatch float_of_str mreg_ w e t None)
  end.
(** ... and the command *)
Definition cmd_of (x : step) (f : source) (o : dest) (fmt : string) : cmd :=
  match x with STranslate t => Translate t f o fmt | SMatch e t => Match e t f o fmt end.
Lemma on_object_eq name args found f a w : fields a = Some w -> hidden a name = false -> dmem a "_to_number" = false ->
  on_object name args found f a = if found (wc_eft w) (wc_basis w) then rmap wc_attrs (f w) else Err ValueError.
Proof.
  intros F H O. destruct (fields_some a w F) as (E & B & X & V & D & _).
  unfold on_object, registered, unhashable, is_odd. rewrite H, E, B, D, O, F. cbn [orb]. destruct (found _ _); reflexivity.
Qed.
Lemma convert_fresh fn e t w p w' : fst (Wc.convert float_of_str fn e t w p) = Ok w' -> wc_cache w' = None.
Proof.
  unfold Wc.convert. destruct (wc_dict float_of_str w) as [[d|x] o']; simpl; [|discriminate].
  destruct (fn d (wc_scale o') p); simpl; [|discriminate]. intros [= <-]. reflexivity.
Qed.
Lemma call_fresh x w w' : call x w = Ok w' -> wc_cache w' = None.
Proof.
  destruct x as [t|e t]; simpl; unfold Wc.translate, Wc.wmatch; destruct (reg_lookup _ _); simpl; try discriminate; apply convert_fresh.
Qed.
Lemma outcome_step x f o fmt t w : file_for t w ->
  outcome (cmd_of x f o fmt) t = let! w' := call x w in rmap Some (wdump (wc_attrs w') fmt).
Proof.
  intros (a & L & F & H1 & H2 & _ & O). destruct x as [b|e b]; cbn [cmd_of outcome result]; unfold outcome; cbn [result]; rewrite L; cbn [bind].
  - unfold tool_translate. rewrite (on_object_eq _ _ _ _ a w F H1 O). cbn [call]. unfold Wc.translate.
    destruct (reg_lookup treg_ _) as [tr|]; cbn [is_ok]; [|reflexivity]. destruct (fst (Wc.convert _ _ _ _ w None)); reflexivity.
  - unfold tool_match. rewrite (on_object_eq _ _ _ _ a w F H2 O). cbn [call]. unfold Wc.wmatch.
    destruct (reg_lookup mreg_ _) as [tr|]; cbn [is_ok]; [|reflexivity]. destruct (fst (Wc.convert _ _ _ _ w None)); reflexivity.
Qed.
Lemma cmd_of_out x f o fmt : cmd_out (cmd_of x f o fmt) = o.
Proof. destruct x; reflexivity. Qed.
Lemma input_cmd_of x f o fmt s : input_text (cmd_of x f o fmt) s = match f with SStdin t => t | SFile p => content (truncate o s) p end.
Proof. destruct x; reflexivity. Qed.
(** One command on a coefficient file *)
Lemma step_ok x f o fmt s w w' : file_of (input_text (cmd_of x f o fmt) s) w -> format_ok fmt -> call x w = Ok w' -> printable (DMap (entries w')) ->
  exists u, tool (PCmd (cmd_of x f o fmt)) s = (0%Z, put o u s) /\ wdump (wc_attrs w') fmt = Ok u /\ file_of u w'.
Proof.
  intros F K C Pr. apply file_of_for in F. destruct (file_written w' fmt (call_fresh x w w' C) K Pr) as (u & D & G). exists u. split; [|split; [exact D|exact G]].
  unfold tool. rewrite (main_ok _ _ _ _ _ _ _ _ _ _ _ _ _ _ u).
  - rewrite cmd_of_out. reflexivity.
  - change (outcome (cmd_of x f o fmt) (input_text (cmd_of x f o fmt) s) = Ok (Some u)). rewrite (outcome_step x f o fmt _ w F), C. cbn [bind]. rewrite D. reflexivity.
Qed.
Lemma outcome_failed x f o fmt t w e : file_for t w -> call x w = Err e -> outcome (cmd_of x f o fmt) t = Err e.
Proof. intros F C. rewrite (outcome_step x f o fmt t w F), C. reflexivity. Qed.
Lemma step_failed x f o fmt s w e : file_of (input_text (cmd_of x f o fmt) s) w -> call x w = Err e ->
  fst (tool (PCmd (cmd_of x f o fmt)) s) = match e with AttributeError | SystemExit => 0%Z | _ => 1%Z end /\
  files (snd (tool (PCmd (cmd_of x f o fmt)) s)) = files (truncate o s).
Proof.
  intros F C. apply file_of_for in F. pose proof (outcome_failed x f o fmt _ w e F C) as R. unfold tool. split.
  - rewrite main_status. unfold outcome in R. rewrite R. destruct x, e; reflexivity.
  - pose proof (main_failure_files attrs basis_ wload tool_translate tool_match wdump tool_validate EFT_load Basis_load basis_validate yaml_to_json json_to_yaml _ s e R) as M.
    rewrite cmd_of_out in M. exact M.
Qed.
Lemma step_format x f o fmt s w w' : file_of (input_text (cmd_of x f o fmt) s) w -> ~ format_ok fmt -> call x w = Ok w' ->
  fst (tool (PCmd (cmd_of x f o fmt)) s) = 1%Z /\ files (snd (tool (PCmd (cmd_of x f o fmt)) s)) = files (truncate o s).
Proof.
  intros F K C. apply file_of_for in F. assert (outcome (cmd_of x f o fmt) (input_text (cmd_of x f o fmt) s) = Err ValueError) as R.
  { rewrite (outcome_step x f o fmt _ w F), C. cbn [bind]. unfold wdump.
    assert (public (wc_attrs w') = Ok [("eft", DStr (wc_eft w')); ("basis", DStr (wc_basis w')); ("scale", DNum (wc_scale w')); ("values", DMap (wc_values w'))]) as P by reflexivity.
    destruct (dump_defined string json_dumps yaml_dump _ _ fmt P) as (_ & _ & E). rewrite E; [reflexivity| |]; intros Q; apply K; unfold format_ok; auto. }
  unfold tool. split.
  - rewrite main_status. unfold outcome in R. rewrite R. destruct x; reflexivity.
  - pose proof (main_failure_files attrs basis_ wload tool_translate tool_match wdump tool_validate EFT_load Basis_load basis_validate yaml_to_json json_to_yaml _ s _ R) as M.
    rewrite cmd_of_out in M. exact M.
Qed.

(** ** Chains of commands through files *)
Fixpoint calls (l : list step) (w : wc) : res wc :=
  match l with [] => Ok w | x :: r => let! w' := call x w in calls r w' end.
(** Each command reads the file which the one before wrote. *)
Fixpoint shell (l : list (step * string * string)) (p : string) (s : st) : list Z * string * st :=
  match l with
  | [] => ([], p, s)
  | (x, fmt, q) :: r =>
      let '(n, s') := tool (PCmd (cmd_of x (SFile p) (DFile q) fmt)) s in
      let '(ns, q', s'') := shell r q s' in (n :: ns, q', s'')
  end.
(** No command writes to the file it reads, and every format is known. *)
Fixpoint chain_ok (l : list (step * string * string)) (p : string) : Prop :=
  match l with [] => True | (x, fmt, q) :: r => p <> q /\ format_ok fmt /\ chain_ok r q end.
Lemma content_other p q s : p <> q -> content (truncate (DFile q) s) p = content s p.
Proof.
  intros N. unfold content. rewrite truncate_frame; [reflexivity|]. intros [= E]. congruence.
Qed.
Lemma content_put q u s : content (put (DFile q) u s) q = u.
Proof. unfold content. cbn [put files]. rewrite dget_dset, keqb_refl. reflexivity. Qed.
(** All results on the way can be printed. *)
Definition all_print (l : list step) (w : wc) : Prop := forall n v, n <> 0 -> calls (firstn n l) w = Ok v -> printable (DMap (entries v)).
Lemma all_print_cons x l w v : all_print (x :: l) w -> call x w = Ok v -> printable (DMap (entries v)) /\ all_print l v.
Proof.
  intros A C. split.
  - apply (A 1 v); [discriminate|]. simpl. rewrite C. reflexivity.
  - intros n u N E. apply (A (S n) u); [discriminate|]. simpl. rewrite C. exact E.
Qed.
Notation steps l := (map (fun x => fst (fst x)) l).
Lemma shell_ok l : forall p s w w', chain_ok l p -> file_of (content s p) w -> calls (steps l) w = Ok w' -> all_print (steps l) w ->
  fst (fst (shell l p s)) = map (fun _ => 0%Z) l /\ file_of (content (snd (shell l p s)) (snd (fst (shell l p s)))) w'.
Proof.
  induction l as [|[[x fmt] q] r IH]; intros p s w w' K F C A.
  - cbn in *. injection C as <-. auto.
  - destruct K as (N & K1 & K2). cbn [map fst snd calls] in C, A. destruct (call x w) as [v|] eqn:Cx; [|discriminate]. cbn [bind] in C.
    destruct (all_print_cons _ _ _ _ A Cx) as [Pv Av].
    destruct (step_ok x (SFile p) (DFile q) fmt s w v) as (u & T & _ & G); auto.
    { rewrite input_cmd_of, content_other by exact N. exact F. }
    specialize (IH q (put (DFile q) u s) v w' K2). rewrite content_put in IH. specialize (IH G C Av).
    cbn [shell]. rewrite T. destruct (shell r q (put (DFile q) u s)) as [[ns q'] s'']. cbn [fst snd map] in *. destruct IH as [-> IH]. auto.
Qed.
(** The last command wrote the object's own dump. *)
Lemma shell_text l : forall p s w w' x fmt q, chain_ok (l ++ [(x, fmt, q)]) p -> file_of (content s p) w ->
  calls (steps (l ++ [(x, fmt, q)])) w = Ok w' -> all_print (steps (l ++ [(x, fmt, q)])) w ->
  wdump (wc_attrs w') fmt = Ok (content (snd (shell (l ++ [(x, fmt, q)]) p s)) q).
Proof.
  induction l as [|[[y fy] r] l IH]; intros p s w w' x fmt q K F C A.
  - cbn [app chain_ok] in K. destruct K as (N & K1 & _). cbn [app map fst calls] in C, A. destruct (call x w) as [v|] eqn:Cx; [|discriminate]. injection C as <-.
    destruct (all_print_cons _ _ _ _ A Cx) as [Pv _].
    destruct (step_ok x (SFile p) (DFile q) fmt s w v) as (u & T & D & _); auto.
    { rewrite input_cmd_of, content_other by exact N. exact F. }
    cbn [app shell]. rewrite T. cbn [fst snd]. rewrite content_put. exact D.
  - cbn [app chain_ok] in K. destruct K as (N & K1 & K2). cbn [app map fst calls] in C, A. destruct (call y w) as [v|] eqn:Cx; [|discriminate]. cbn [bind] in C.
    destruct (all_print_cons _ _ _ _ A Cx) as [Pv Av].
    destruct (step_ok y (SFile p) (DFile r) fy s w v) as (u & T & _ & G); auto.
    { rewrite input_cmd_of, content_other by exact N. exact F. }
    specialize (IH r (put (DFile r) u s) v w' x fmt q K2). rewrite content_put in IH. specialize (IH G C Av).
    cbn [app shell]. rewrite T. destruct (shell (l ++ [(x, fmt, q)]) r (put (DFile r) u s)) as [[ns q'] s'']. exact IH.
Qed.
(** Writing to the input file destroys it. *)
Lemma in_place x p fmt s : json_loads "" = Err JSONDecodeError -> yaml_load "" = Ok DNull ->
  tool (PCmd (cmd_of x (SFile p) (DFile p) fmt)) s = (1%Z, St (dset (files s) p "") (seen s ++ [Trace TypeError])).
Proof.
  intros J Y. assert (wload "" = Err TypeError) as L by (unfold wload, load, load_text; rewrite J, Y; reflexivity).
  assert (outcome (cmd_of x (SFile p) (DFile p) fmt) (input_text (cmd_of x (SFile p) (DFile p) fmt) s) = Err TypeError) as R.
  { rewrite input_cmd_of, content_truncate. destruct x; unfold outcome; cbn [cmd_of result]; rewrite L; reflexivity. }
  unfold tool, wcxf_main. rewrite run_spec. unfold outcome in R. rewrite R. destruct x; reflexivity.
Qed.

(** An exception AttributeError shows the help text and status 0. *)
Lemma swallowed c s : outcome c (input_text c s) = Err AttributeError ->
  tool (PCmd c) s = (0%Z, St (files (truncate (cmd_out c) s)) (seen s ++ [Help])).
Proof.
  intros R. unfold outcome in R. unfold tool, wcxf_main. rewrite run_spec, R.
  assert (forall d (s : st), seen (truncate d s) = seen s) as Sn by (intros []; reflexivity).
  destruct c as [fmt f o|b f o fmt|e b f o fmt|ty f]; unfold say; cbn [snd cmd_out]; rewrite Sn; reflexivity.
Qed.
Lemma dict_entry x f o fmt s m sc z : load_text string json_loads yaml_load (input_text (cmd_of x f o fmt) s) = Ok (DMap m) -> complete KWC m ->
  dmem m "dict" = true -> dget m "scale" = Some sc -> to_float float_of_str sc = Ok z ->
  outcome (cmd_of x f o fmt) (input_text (cmd_of x f o fmt) s) = Err AttributeError.
Proof.
  intros L C D S Z. assert (wload (input_text (cmd_of x f o fmt) s) = Err AttributeError) as W.
  { unfold wload, load. rewrite L. cbn [bind]. apply (readonly float_of_str _ KWC m "dict"); auto; [left; reflexivity|]. intros _. eauto. }
  destruct x; unfold outcome; cbn [cmd_of result] in *; rewrite W; reflexivity.
Qed.
Lemma values_not_mapping x f o fmt s a e b : wload (input_text (cmd_of x f o fmt) s) = Ok a -> dget a "eft" = Some (DStr e) -> dget a "basis" = Some (DStr b) ->
  (forall v, dget a "values" <> Some (DMap v)) -> is_odd a = false -> hidden a "translate" = false -> hidden a "match" = false ->
  match x with STranslate t => is_ok (reg_lookup treg_ (e, b, t)) | SMatch e' t => is_ok (reg_lookup mreg_ (e, b, e', t)) end = true ->
  outcome (cmd_of x f o fmt) (input_text (cmd_of x f o fmt) s) = Err AttributeError.
Proof.
  intros L E B V O H1 H2 R. assert (fields a = None) as F.
  { unfold fields. rewrite E, B. destruct (dget a "scale") as [[]|]; auto. destruct (dget a "values") as [[| | | | |v]|]; auto. elim (V v). reflexivity. }
  destruct x as [t|e' t]; unfold outcome; cbn [cmd_of result] in *; rewrite L; cbn [bind].
  - unfold tool_translate, on_object, registered, unhashable. rewrite H1, E, B. cbn [orb]. rewrite R. cbn [bind]. rewrite O, F. reflexivity.
  - unfold tool_match, on_object, registered, unhashable. rewrite H2, E, B. cbn [orb]. rewrite R. cbn [bind]. rewrite O, F. reflexivity.
Qed.

(** A file entry with the name of the method called. *)
Definition method (x : step) : string := match x with STranslate _ => "translate" | SMatch _ _ => "match" end.
Lemma method_entry x f o fmt s m sc z : load_text string json_loads yaml_load (input_text (cmd_of x f o fmt) s) = Ok (DMap m) -> wf m -> complete KWC m ->
  dmem m "dict" = false -> dget m "scale" = Some sc -> to_float float_of_str sc = Ok z -> dmem m (method x) = true ->
  tool (PCmd (cmd_of x f o fmt)) s = (1%Z, St (files (truncate o s)) (seen s ++ [Trace TypeError])).
Proof.
  intros L W C D S Z M.
  assert (forall k, dmem m k = true -> ~ In k (properties KWC)) as P by (intros k K [<-|[]]; congruence).
  destruct (wc_ok float_of_str (fun _ _ => None) m sc z W C P S Z) as (a & A & _ & G).
  assert (wload (input_text (cmd_of x f o fmt) s) = Ok a) as E by (unfold wload, load; rewrite L; exact A).
  assert (hidden a (method x) = true) as H.
  { unfold hidden, dmem in *. rewrite G; auto; destruct x; simpl; try discriminate; intuition discriminate. }
  assert (outcome (cmd_of x f o fmt) (input_text (cmd_of x f o fmt) s) = Err TypeError) as R.
  { destruct x as [t|e' t]; unfold outcome; cbn [cmd_of result] in *; rewrite E; cbn [bind];
      unfold tool_translate, tool_match, on_object; cbn [method] in H; rewrite H; reflexivity. }
  unfold outcome in R. unfold tool, wcxf_main. rewrite run_spec, R.
  assert (forall d (s : st), seen (truncate d s) = seen s) as Sn by (intros []; reflexivity).
  destruct x; unfold say; cbn [cmd_of snd cmd_out]; rewrite Sn; reflexivity.
Qed.

(** ** Conversions between the formats *)
Lemma convert_json_ok f o s d : printable d -> yaml_load (input_text (Convert "json" f o) s) = Ok d ->
  exists u, tool (PCmd (Convert "json" f o)) s = (0%Z, put o u s) /\ load_text string json_loads yaml_load u = Ok d.
Proof.
  intros P Y. exists (json_dumps d). split; [|exact (load_json d P)]. unfold tool. rewrite (main_ok _ _ _ _ _ _ _ _ _ _ _ _ _ _ (json_dumps d)); [reflexivity|].
  cbn [result]. change (String.eqb (lower "json") "json") with true. cbv iota. unfold yaml_to_json. rewrite Y. reflexivity.
Qed.
Lemma convert_yaml_ok f o s m : m <> [] -> printable (DMap m) -> json_loads (input_text (Convert "yaml" f o) s) = Ok (DMap m) ->
  exists u, tool (PCmd (Convert "yaml" f o)) s = (0%Z, put o u s) /\ load_text string json_loads yaml_load u = Ok (DMap m).
Proof.
  intros N P Y. exists (yaml_dump (DMap m)). split; [|exact (load_yaml m N P)]. unfold tool. rewrite (main_ok _ _ _ _ _ _ _ _ _ _ _ _ _ _ (yaml_dump (DMap m))); [reflexivity|].
  cbn [result]. change (String.eqb (lower "yaml") "json") with false. change (String.eqb (lower "yaml") "yaml") with true. cbv iota. unfold json_to_yaml. rewrite Y. reflexivity.
Qed.
(** There and back *)
Lemma convert_round p q r s m : p <> q -> q <> r -> printable (DMap m) -> json_loads (content s p) = Ok (DMap m) ->
  let s1 := snd (tool (PCmd (Convert "yaml" (SFile p) (DFile q))) s) in
  let s2 := snd (tool (PCmd (Convert "json" (SFile q) (DFile r))) s1) in
  fst (tool (PCmd (Convert "yaml" (SFile p) (DFile q))) s) = 0%Z /\ fst (tool (PCmd (Convert "json" (SFile q) (DFile r))) s1) = 0%Z /\
  content s1 q = yaml_dump (DMap m) /\ content s2 r = json_dumps (DMap m).
Proof.
  intros N N' P J.
  assert (tool (PCmd (Convert "yaml" (SFile p) (DFile q))) s = (0%Z, put (DFile q) (yaml_dump (DMap m)) s)) as T1.
  { unfold tool. apply main_ok. unfold input_text. cbn [cmd_in cmd_out result]. rewrite (content_other p q s N).
    change (String.eqb (lower "yaml") "json") with false. change (String.eqb (lower "yaml") "yaml") with true. cbv iota. unfold json_to_yaml. rewrite J. reflexivity. }
  rewrite T1. cbn [fst snd]. cbv zeta.
  assert (tool (PCmd (Convert "json" (SFile q) (DFile r))) (put (DFile q) (yaml_dump (DMap m)) s) = (0%Z, put (DFile r) (json_dumps (DMap m)) (put (DFile q) (yaml_dump (DMap m)) s))) as T2.
  { unfold tool. apply main_ok. unfold input_text. cbn [cmd_in cmd_out result]. rewrite (content_other q r _ N'), content_put.
    change (String.eqb (lower "json") "json") with true. cbv iota. unfold yaml_to_json. rewrite yaml_roundtrip by exact P. reflexivity. }
  rewrite T2. cbn [fst snd]. rewrite !content_put. auto.
Qed.

(** ** Validation *)
Lemma validate_ok f s w : file_of (match f with SStdin t => t | SFile p => content s p end) w ->
  tool (PCmd (Validate "wc" f)) s =
  match fst (Bases.wc_validate w0 (wc_eft w) (wc_basis w) (dkeys (wc_values w))) with
  | Ok _ => (0%Z, St (files s) (seen s ++ [Printed "Validation successful."]))
  | Err AttributeError => (0%Z, St (files s) (seen s ++ [Help]))
  | Err SystemExit => (0%Z, s)
  | Err e => (1%Z, St (files s) (seen s ++ [Trace e]))
  end.
Proof.
  intros H0. apply file_of_for in H0. destruct H0 as (a & L & F & _ & _ & H & _). destruct (fields_some a w F) as (E & B & _ & V & _).
  assert (tool_validate a = fst (Bases.wc_validate w0 (wc_eft w) (wc_basis w) (dkeys (wc_values w)))) as TV.
  { unfold tool_validate, unhashable. rewrite H, E, B, V. unfold Bases.wc_validate.
    destruct (Bases.lookup_reg (Bases.w_efts w0) (wc_eft w)); cbn [is_ok negb]; [|reflexivity].
    destruct (Bases.lookup_reg (Bases.w_bases w0) (wc_eft w, wc_basis w)) as [id|]; cbn [is_ok negb]; [|reflexivity]. reflexivity. }
  unfold tool, wcxf_main. cbn [run_cmd]. unfold validate. change (String.eqb "wc" "eft") with false. change (String.eqb "wc" "basis") with false. change (String.eqb "wc" "wc") with true. cbv iota.
  unfold mbind, mret. rewrite read_spec. cbn [cmd_out truncate]. rewrite L. rewrite TV. destruct (fst (Bases.wc_validate _ _ _ _)) as [[]|[]]; reflexivity.
Qed.
End Tool.
