(** Model of wcxf/cli.py and converters/yamljson.py: the three console scripts
    (setup.py 21-27) from parsed arguments to exit status, file contents and
    standard output. *)
From Coq Require Import String Ascii List Bool Arith ZArith Lia.
From Verif Require Import PyBase PyDict Dump.
Import ListNotations.
Open Scope string_scope.
Open Scope list_scope.
Open Scope nat_scope.

(** What the user can see: files, and the sequence of things printed. *)
(** [Usage]: the usage message of argparse before exit status 2. *)
Inductive event := Printed (s : string) | Logged (s : string) | Help | Usage | Trace (e : exn).
Record st := St { files : dict string string; seen : list event }.
Definition M A := st -> res A * st.
Definition mret {A} (r : res A) : M A := fun s => (r, s).
Definition mbind {A B} (m : M A) (k : A -> M B) : M B :=
  fun s => match m s with (Ok a, s') => k a s' | (Err e, s') => (Err e, s') end.
Notation "'do!' x <- m ; k" := (mbind m (fun x => k)) (at level 200, x name, m at level 100, k at level 200).
Definition say (e : event) : M unit := fun s => (Ok tt, St (files s) (seen s ++ [e])).
(** An input stream and an output stream.  [DNone]: "--output" without a value
    (nargs='?' and no const). *)
Inductive source := SStdin (t : string) | SFile (p : string).
Inductive dest := DStdout | DFile (p : string) | DNone.
Definition content (s : st) (p : string) : string := match dget (files s) p with Some t => t | None => "" end.
(** stream.read(); argparse has checked that the file exists *)
Definition read (f : source) : M string :=
  fun s => match f with SStdin t => (Ok t, s) | SFile p => (Ok (content s p), s) end.
(** Writing a whole text; with stream None the text is returned instead and the
    commands drop it.  Simplified: a text is written completely or not at all. *)
Definition write (d : dest) (t : string) : M unit :=
  fun s => match d with
           | DStdout => (Ok tt, St (files s) (seen s ++ [Printed t]))
           | DFile p => (Ok tt, St (dset (files s) p (content s p ++ t)%string) (seen s))
           | DNone => (Ok tt, s)
           end.
(** open(p, 'w') and argparse.FileType('w'): create or empty the file *)
Definition truncate (d : dest) (s : st) : st :=
  match d with DFile p => St (dset (files s) p "") (seen s) | _ => s end.

Section Cli.
(** The library functions behind the commands (modelled in the other files):
    loading, translating, matching, dumping, validating, and the two converters
    between texts. *)
Variable wcobj basis_ : Type.
Variable WC_load : string -> res wcobj.
Variable wc_translate : wcobj -> string -> res wcobj.
Variable wc_match : wcobj -> string -> string -> res wcobj.
Variable wc_dump : wcobj -> string -> res string.
Variable wc_validate : wcobj -> res unit.
Variable EFT_load : string -> res unit.
Variable Basis_load : string -> res basis_.
Variable basis_validate : basis_ -> res unit.
Variable yaml_to_json json_to_yaml : string -> res string.

(** Arguments of the subcommands after parsing. *)
Inductive cmd :=
| Convert (fmt : string) (f : source) (o : dest)
| Translate (basis : string) (f : source) (o : dest) (fmt : string)
| Match (eft basis : string) (f : source) (o : dest) (fmt : string)
| Validate (type : string) (f : source).
(** Result of parse_args: argparse prints and exits (status 2 for an error, 0 for
    -h), no subcommand was given (so there is no args.func), or a subcommand. *)
Inductive parsed := PExit (status : Z) | PNone | PCmd (c : cmd).

(** yamljson.py 7-12, 15-21; the result is None (0) or 1 *)
Definition convert_json (f : source) (o : dest) : M Z :=
  fun s => match (do! t <- read f; do! u <- mret (yaml_to_json t); write o u) s with
           | (Ok _, s') => (Ok 0%Z, s')
           | (Err YAMLError, s') => (do! _ <- say (Logged "Input file cannot be parsed as YAML."); mret (Ok 1%Z)) s'
           | (Err e, s') => (Err e, s')
           end.
Definition convert_yaml (f : source) (o : dest) : M Z :=
  fun s => match (do! t <- read f; do! u <- mret (json_to_yaml t); write o u) s with
           | (Ok _, s') => (Ok 0%Z, s')
           | (Err JSONDecodeError, s') => (do! _ <- say (Logged "Input file cannot be parsed as JSON."); mret (Ok 1%Z)) s'
           | (Err e, s') => (Err e, s')
           end.
(** cli.py 84-89 *)
Definition convert (fmt : string) (f : source) (o : dest) : M unit :=
  do! _ <- (if String.eqb (lower fmt) "json" then convert_json f o else mret (Ok 0%Z));
  do! _ <- (if String.eqb (lower fmt) "yaml" then convert_yaml f o else mret (Ok 0%Z));
  mret (Ok tt).
(** cli.py 92-95, 98-101 *)
Definition translate (basis : string) (f : source) (o : dest) (fmt : string) : M unit :=
  do! t <- read f; do! w <- mret (WC_load t); do! v <- mret (wc_translate w basis);
  do! u <- mret (wc_dump v fmt); write o u.
Definition match_ (eft basis : string) (f : source) (o : dest) (fmt : string) : M unit :=
  do! t <- read f; do! w <- mret (WC_load t); do! v <- mret (wc_match w eft basis);
  do! u <- mret (wc_dump v fmt); write o u.
(** cli.py 104-117: returns 0 or 1 *)
Definition validate (type : string) (f : source) : M Z :=
  let ok : M Z := do! _ <- say (Printed "Validation successful."); mret (Ok 0%Z) in
  if String.eqb type "eft" then do! t <- read f; do! _ <- mret (EFT_load t); ok
  else if String.eqb type "basis" then
    do! t <- read f; do! b <- mret (Basis_load t); do! _ <- mret (basis_validate b); ok
  else if String.eqb type "wc" then
    do! t <- read f; do! w <- mret (WC_load t); do! _ <- mret (wc_validate w); ok
  else do! _ <- say (Logged "TYPE should be 'eft', 'basis', or 'wc'"); mret (Ok 1%Z).
Definition cmd_out (c : cmd) : dest :=
  match c with Convert _ _ o | Translate _ _ o _ | Match _ _ _ o _ => o | Validate _ _ => DStdout end.
Definition cmd_in (c : cmd) : source :=
  match c with Convert _ f _ | Translate _ f _ _ | Match _ _ f _ _ | Validate _ f => f end.
(** [args.func(args)]; the function's own return value is dropped *)
Definition run_cmd (c : cmd) : M unit :=
  match c with
  | Convert fmt f o => convert fmt f o
  | Translate b f o fmt => translate b f o fmt
  | Match e b f o fmt => match_ e b f o fmt
  | Validate t f => do! _ <- validate t f; mret (Ok tt)
  end.
(** cli.py 77-81 under sys.exit(wcxf_cli()): exit status and final state.  The
    output file was opened during parsing. *)
Definition wcxf_main (p : parsed) (s : st) : Z * st :=
  match p with
  | PExit n => (n, s)
  | PNone => (0%Z, snd (say Help s))
  | PCmd c => match run_cmd c (truncate (cmd_out c) s) with
              | (Ok _, s') => (0%Z, s')
              | (Err AttributeError, s') => (0%Z, snd (say Help s'))
              | (Err SystemExit, s') => (0%Z, s')      (* quit() *)
              | (Err e, s') => (1%Z, snd (say (Trace e) s'))
              end
  end.

(** ** wcxf2eos *)
(** [get_sm_wcs] on the present files, [wcxf2eos] and [yaml.dump] to a text (ToolConv.v) *)
Variable to_eos : wcobj -> string -> dict string string -> res string.
Variable isdir : string -> bool.
(** os.path.join on POSIX *)
Fixpoint slash_end (a : string) : bool :=
  match a with EmptyString => true | String c EmptyString => Ascii.eqb c "/"%char | String _ t => slash_end t end.
Definition join (a b : string) : string :=
  match b with
  | String "/"%char _ => b
  | _ => if slash_end a then (a ++ b)%string else (a ++ "/" ++ b)%string
  end.
Definition return_status (r : res Z * st) : Z * st :=
  match r with
  | (Ok n, s) => (n, s)
  | (Err SystemExit, s) => (0%Z, s)      (* quit() *)
  | (Err e, s) => (1%Z, snd (say (Trace e) s))
  end.
(** cli.py 120-154 after parsing; FileType has opened [o] *)
Definition eos_cmd (f : source) (prefix : string) (o : dest) (eoshome : option string) : M Z :=
  let go (d : dest) : M Z :=
    do! t <- read f; do! w <- mret (WC_load t); do! _ <- mret (wc_validate w);
    do! u <- (fun s => (to_eos w (join (join prefix "share/eos") "parameters") (files s), s));
    do! _ <- write d u;
    match d with DNone => mret (Err AttributeError) | _ => mret (Ok 0%Z) end in   (* f.close() *)
  match eoshome, o with
  | Some _, (DFile _ | DNone) =>
      do! _ <- say (Logged "Cannot use --output and --eoshome arguments simultaneously"); mret (Ok 1%Z)
  | Some h, DStdout =>
      let dir := join h "parameters" in
      if isdir dir then
        let d := DFile (join dir "wcxf.yaml") in
        fun s => go d (truncate d s)
      else do! _ <- say (Logged ("Output directory " ++ dir ++ " does not exist")); mret (Ok 1%Z)
  | None, _ => go o
  end.
Definition eos_main (f : source) (prefix : string) (o : dest) (eoshome : option string) (s : st) : Z * st :=
  return_status (eos_cmd f prefix o eoshome (truncate o s)).

(** ** wcxf2smeftsim *)
Variable basis_of : wcobj -> string.
(** text of the filled card, or the error of smeftsim_card_fill (SmeftSim.v) *)
Variable card_text : wcobj -> res string.
(** cli.py 156-195 after parsing.  [key] is the line read by input(); [None]: end
    of file (EOFError, here a UserError). *)
Definition smeftsim_cmd (f : source) (o : string) (key : option string) : M Z :=
  do! t <- read f; do! w <- mret (WC_load t); do! _ <- mret (wc_validate w);
  do! _ <- (if String.eqb (basis_of w) "Warsaw mass" then mret (Ok tt)
            else do! _ <- say (Printed "WARNING");
                 match key with
                 | None => mret (Err (UserError "EOFError"))
                 | Some k => if String.eqb k "i" || String.eqb k "I" then mret (Ok tt)
                             else mret (Err SystemExit)
                 end);
  fun s => (do! u <- mret (card_text w); do! _ <- write (DFile o) u; mret (Ok 0%Z)) (truncate (DFile o) s).
Definition smeftsim_main (f : source) (o : string) (key : option string) (s : st) : Z * st :=
  return_status (smeftsim_cmd f o key s).

(** * Facts *)
(** The documented result of a subcommand as a function of the input text. *)
Definition result (c : cmd) (t : string) : res (option string) :=
  match c with
  | Convert fmt _ _ => if String.eqb (lower fmt) "json" then rmap Some (yaml_to_json t)
                       else if String.eqb (lower fmt) "yaml" then rmap Some (json_to_yaml t) else Ok None
  | Translate b _ _ fmt => let! w := WC_load t in let! v := wc_translate w b in rmap Some (wc_dump v fmt)
  | Match e b _ _ fmt => let! w := WC_load t in let! v := wc_match w e b in rmap Some (wc_dump v fmt)
  | Validate ty _ =>
      if String.eqb ty "eft" then let! _ := EFT_load t in Ok (Some "Validation successful.")
      else if String.eqb ty "basis" then
        let! b := Basis_load t in let! _ := basis_validate b in Ok (Some "Validation successful.")
      else if String.eqb ty "wc" then
        let! w := WC_load t in let! _ := wc_validate w in Ok (Some "Validation successful.")
      else Ok None
  end.
(** Input text as read after the output file has been opened. *)
Definition input_text (c : cmd) (s : st) : string :=
  match cmd_in c with SStdin t => t | SFile p => content (truncate (cmd_out c) s) p end.
Definition put (d : dest) (t : string) (s : st) : st :=
  match d with
  | DStdout => St (files s) (seen s ++ [Printed t])
  | DFile p => St (dset (dset (files s) p "") p t) (seen s)
  | DNone => s
  end.
Lemma content_truncate p s : content (truncate (DFile p) s) p = "".
Proof. unfold content, truncate. cbn [files]. rewrite dget_dset, keqb_refl. reflexivity. Qed.
Lemma write_truncate d t s : write d t (truncate d s) = (Ok tt, put d t s).
Proof.
  destruct d as [|p|]; auto. unfold write, put. rewrite content_truncate. reflexivity.
Qed.
Lemma read_spec f s : read f s = (Ok (match f with SStdin t => t | SFile p => content s p end), s).
Proof. destruct f; reflexivity. Qed.

Definition fails (c : cmd) (s : st) (e : exn) (s' : st) : Prop := run_cmd c (truncate (cmd_out c) s) = (Err e, s').
Lemma eqb_false_string a b : String.eqb a b = false -> forall (X : Type) (x y : X), (if String.eqb a b then x else y) = y.
Proof. intros ->. auto. Qed.

Lemma lower_excl fmt : String.eqb (lower fmt) "json" = true -> String.eqb (lower fmt) "yaml" = false.
Proof. intros H. apply String.eqb_eq in H. rewrite H. reflexivity. Qed.
(** The outcome of a subcommand in terms of its documented result. *)
Lemma run_spec c s :
  run_cmd c (truncate (cmd_out c) s) =
  match result c (input_text c s) with
  | Ok (Some u) => (Ok tt, put (cmd_out c) u s)
  | Ok None => (Ok tt, match c with Validate _ _ => St (files s) (seen s ++ [Logged "TYPE should be 'eft', 'basis', or 'wc'"])
                       | _ => truncate (cmd_out c) s end)
  | Err e => match c, e with
             | Convert fmt _ _, YAMLError => if String.eqb (lower fmt) "json" then
                 (Ok tt, St (files (truncate (cmd_out c) s)) (seen s ++ [Logged "Input file cannot be parsed as YAML."]))
                 else (Err e, truncate (cmd_out c) s)
             | Convert fmt _ _, JSONDecodeError => if String.eqb (lower fmt) "yaml" then
                 (Ok tt, St (files (truncate (cmd_out c) s)) (seen s ++ [Logged "Input file cannot be parsed as JSON."]))
                 else (Err e, truncate (cmd_out c) s)
             | _, _ => (Err e, truncate (cmd_out c) s)
             end
  end.
Proof.
  assert (forall d (s : st), seen (truncate d s) = seen s) as Sn by (intros []; reflexivity).
  destruct c as [fmt f o|b f o fmt|e b f o fmt|ty f]; unfold input_text; cbn [result cmd_in cmd_out run_cmd].
  - unfold convert, mbind at 1. destruct (String.eqb (lower fmt) "json") eqn:J.
    + rewrite (lower_excl _ J). unfold convert_json, mbind, mret. rewrite read_spec.
      destruct (yaml_to_json _) as [x|[]] eqn:E; cbn [rmap]; rewrite ?write_truncate; auto.
      unfold say. rewrite Sn. reflexivity.
    + unfold mret at 1. destruct (String.eqb (lower fmt) "yaml") eqn:Y; [|reflexivity].
      unfold convert_yaml, mbind, mret. rewrite read_spec.
      destruct (json_to_yaml _) as [x|[]] eqn:E; cbn [rmap]; rewrite ?write_truncate; auto.
      unfold say. rewrite Sn. reflexivity.
  - unfold translate, mbind, mret. rewrite read_spec. destruct (WC_load _) as [w|]; simpl; auto.
    destruct (wc_translate w b) as [v|]; simpl; auto. destruct (wc_dump v fmt) as [x|]; simpl; auto. apply write_truncate.
  - unfold match_, mbind, mret. rewrite read_spec. destruct (WC_load _) as [w|]; simpl; auto.
    destruct (wc_match w e b) as [v|]; simpl; auto. destruct (wc_dump v fmt) as [x|]; simpl; auto. apply write_truncate.
  - unfold validate. cbn [truncate]. destruct (String.eqb ty "eft"); [|destruct (String.eqb ty "basis"); [|destruct (String.eqb ty "wc")]];
      unfold mbind, mret; rewrite ?read_spec.
    + destruct (EFT_load _) as [w|]; reflexivity.
    + destruct (Basis_load _) as [w|]; simpl; auto. destruct (basis_validate w); reflexivity.
    + destruct (WC_load _) as [w|]; simpl; auto. destruct (wc_validate w); reflexivity.
    + reflexivity.
Qed.
(** A successful subcommand writes the documented text to the output, exits with
    0, and nothing else happens. *)
Lemma main_ok c s u : result c (input_text c s) = Ok (Some u) -> wcxf_main (PCmd c) s = (0%Z, put (cmd_out c) u s).
Proof. intros H. unfold wcxf_main. rewrite run_spec, H. reflexivity. Qed.
(** Which exceptions of a subcommand show in the exit status. *)
Definition shows (c : cmd) (e : exn) : bool :=
  match e with
  | AttributeError | SystemExit => false
  | YAMLError => match c with Convert fmt _ _ => negb (String.eqb (lower fmt) "json") | _ => true end
  | JSONDecodeError => match c with Convert fmt _ _ => negb (String.eqb (lower fmt) "yaml") | _ => true end
  | _ => true
  end.
Lemma main_status c s :
  fst (wcxf_main (PCmd c) s) = match result c (input_text c s) with
                               | Ok _ => 0%Z
                               | Err e => if shows c e then 1%Z else 0%Z
                               end.
Proof.
  unfold wcxf_main. rewrite run_spec. destruct (result c (input_text c s)) as [[u|]|e]; auto.
  destruct e, c as [fmt f o|b f o fmt|e b f o fmt|ty f]; try reflexivity; cbn [shows].
  - destruct (String.eqb (lower fmt) "json"); reflexivity.
  - destruct (String.eqb (lower fmt) "yaml"); reflexivity.
Qed.
(** A failing subcommand leaves an empty output file. *)
Lemma main_failure_files c s e : result c (input_text c s) = Err e ->
  files (snd (wcxf_main (PCmd c) s)) = files (truncate (cmd_out c) s).
Proof.
  intros H. unfold wcxf_main. rewrite run_spec, H.
  destruct e, c as [fmt f o|b f o fmt|e b f o fmt|ty f]; try reflexivity.
  - destruct (String.eqb (lower fmt) "json"); reflexivity.
  - destruct (String.eqb (lower fmt) "yaml"); reflexivity.
Qed.
(** No other file is touched. *)
Lemma truncate_frame d s p : d <> DFile p -> dget (files (truncate d s)) p = dget (files s) p.
Proof.
  destruct d as [|q|]; simpl; auto. intros N. rewrite dget_dset.
  destruct (keqb q p) eqn:E; auto. apply keqb_eq in E. congruence.
Qed.
Lemma put_frame d t s p : d <> DFile p -> dget (files (put d t s)) p = dget (files s) p.
Proof.
  destruct d as [|q|]; simpl; auto. intros N. rewrite !dget_dset.
  destruct (keqb q p) eqn:E; auto. apply keqb_eq in E. congruence.
Qed.
Lemma main_frame a s p : (forall c, a = PCmd c -> cmd_out c <> DFile p) ->
  dget (files (snd (wcxf_main a s))) p = dget (files s) p.
Proof.
  destruct a as [n| |c]; auto. intros N. specialize (N c eq_refl).
  destruct (result c (input_text c s)) as [[u|]|e] eqn:E.
  - rewrite (main_ok _ _ _ E). cbn. apply put_frame; auto.
  - unfold wcxf_main. rewrite run_spec, E. cbn. destruct c; cbn in *; try (apply truncate_frame; auto). auto.
  - rewrite (main_failure_files _ _ _ E). apply truncate_frame; auto.
Qed.
(** Help is printed exactly when there was no subcommand or an AttributeError. *)
Lemma help_iff a s : ~ In Help (seen s) ->
  (In Help (seen (snd (wcxf_main a s))) <->
   a = PNone \/ exists c, a = PCmd c /\ result c (input_text c s) = Err AttributeError).
Proof.
  intros N. destruct a as [n| |c].
  - split; [intros H; contradiction|]. intros [H|(c & H & _)]; discriminate.
  - split; auto. intros _. cbn. apply in_or_app. right. left. auto.
  - assert (forall d, seen (truncate d s) = seen s) as Sn by (intros []; reflexivity).
    assert (forall x, x <> Help -> (In Help (seen s ++ [x]) <-> False)) as Ap.
    { intros x X. rewrite in_app_iff. simpl. intuition. }
    assert ((PCmd c = PNone \/ (exists c0, PCmd c = PCmd c0 /\ result c0 (input_text c0 s) = Err AttributeError)) <->
            result c (input_text c s) = Err AttributeError) as ->.
    { split; [|eauto]. intros [H|(c' & H & G)]; [discriminate|]. injection H as <-. auto. }
    unfold wcxf_main. rewrite run_spec. destruct (result c (input_text c s)) as [[u|]|e].
    + cbn. destruct (cmd_out c); cbn; rewrite ?Ap by discriminate; intuition discriminate.
    + destruct c as [fmt f o|b f o fmt|e b f o fmt|ty f]; cbn [snd]; rewrite ?Sn; cbn [seen]; rewrite ?Ap by discriminate; intuition discriminate.
    + assert (In Help (seen s ++ [Help])) as Y by (apply in_or_app; right; left; auto).
      destruct e, c as [fmt f o|b f o fmt|e b f o fmt|ty f]; cbn [say snd seen];
        try (rewrite Sn, ?Ap by discriminate; cbn; intuition discriminate);
        try (destruct (String.eqb (lower fmt) _); cbn [say snd seen]; rewrite ?Sn, ?Ap by discriminate; intuition discriminate).
Qed.

(** ** wcxf2eos *)
Lemma eos_both f prefix o h s : o <> DStdout ->
  eos_main f prefix o (Some h) s = (1%Z, St (files (truncate o s)) (seen s ++ [Logged "Cannot use --output and --eoshome arguments simultaneously"])).
Proof. destruct o; [congruence| |]; reflexivity. Qed.
Lemma eos_nodir f prefix h s : isdir (join h "parameters") = false ->
  fst (eos_main f prefix DStdout (Some h) s) = 1%Z /\ files (snd (eos_main f prefix DStdout (Some h) s)) = files s.
Proof. intros H. unfold eos_main, eos_cmd. cbn [truncate]. rewrite H. auto. Qed.
(** Where the result goes, for consistent arguments. *)
Definition eos_target (o : dest) (eoshome : option string) : dest :=
  match eoshome with None => o | Some h => DFile (join (join h "parameters") "wcxf.yaml") end.
Definition eos_args_ok (o : dest) (eoshome : option string) : Prop :=
  match eoshome with None => o <> DNone | Some h => o = DStdout /\ isdir (join h "parameters") = true end.
Definition eos_result (t prefix : string) (fs : dict string string) : res string :=
  let! w := WC_load t in let! _ := wc_validate w in to_eos w (join (join prefix "share/eos") "parameters") fs.
Lemma eos_spec f prefix o eoshome s : eos_args_ok o eoshome ->
  let d := eos_target o eoshome in
  let t := match f with SStdin t => t | SFile p => content (truncate d s) p end in
  match eos_result t prefix (files (truncate d s)) with
  | Ok u => eos_main f prefix o eoshome s = (0%Z, put d u s)
  | Err SystemExit => True
  | Err e => eos_main f prefix o eoshome s = (1%Z, snd (say (Trace e) (truncate d s)))
  end.
Proof.
  intros A. unfold eos_main, eos_cmd, eos_result. destruct eoshome as [h|]; cbn [eos_target eos_args_ok] in *.
  - destruct A as [-> A]. rewrite A. cbn [truncate]. unfold mbind, mret. rewrite read_spec.
    destruct (WC_load _) as [w|[]]; simpl; auto. destruct (wc_validate w) as [v|[]]; simpl; auto.
    destruct (to_eos w _ _) as [u|[]]; simpl; auto.
    pose proof (write_truncate (DFile (join (join h "parameters") "wcxf.yaml")) u s) as W. cbn [write truncate put] in W.
    injection W as W. rewrite W. reflexivity.
  - unfold mbind, mret. rewrite read_spec.
    destruct (WC_load _) as [w|[]]; simpl; auto. destruct (wc_validate w) as [v|[]]; simpl; auto.
    destruct (to_eos w _ _) as [u|[]]; simpl; auto. rewrite write_truncate. destruct o; [reflexivity|reflexivity|congruence].
Qed.

(** ** wcxf2smeftsim *)
Definition allowed (w : wcobj) (key : option string) : Prop :=
  basis_of w = "Warsaw mass" \/ key = Some "i" \/ key = Some "I".
Lemma allowed_dec w key : allowed w key \/ ~ allowed w key.
Proof.
  unfold allowed. destruct (String.string_dec (basis_of w) "Warsaw mass"); auto.
  destruct key as [k|]; [|right; intuition discriminate].
  destruct (String.string_dec k "i") as [->|]; auto. destruct (String.string_dec k "I") as [->|]; auto.
  right. intuition congruence.
Qed.
(** A card is written only for a valid file that is in the right basis or for
    which the user has confirmed. *)
Lemma smeftsim_written f o key s : 
  files (snd (smeftsim_main f o key s)) <> files s ->
  exists w, (let! w := WC_load (match f with SStdin t => t | SFile p => content s p end) in
             let! _ := wc_validate w in Ok w) = Ok w /\ allowed w key.
Proof.
  unfold smeftsim_main, smeftsim_cmd, mbind, mret. rewrite read_spec.
  destruct (WC_load _) as [w|[]]; simpl; try congruence.
  destruct (wc_validate w) as [v|[]] eqn:V; simpl; try congruence. intros H. exists w. split; auto.
  unfold allowed. destruct (String.eqb_spec (basis_of w) "Warsaw mass"); auto. right.
  cbn in H. destruct key as [k|]; [|exfalso; apply H; reflexivity].
  destruct (String.eqb_spec k "i") as [->|]; auto. destruct (String.eqb_spec k "I") as [->|]; auto.
  exfalso. apply H. reflexivity.
Qed.
Lemma smeftsim_ok f o key s w u :
  WC_load (match f with SStdin t => t | SFile p => content s p end) = Ok w -> wc_validate w = Ok tt ->
  basis_of w = "Warsaw mass" -> card_text w = Ok u ->
  smeftsim_main f o key s = (0%Z, put (DFile o) u s).
Proof.
  intros A B D E. unfold smeftsim_main, smeftsim_cmd, mbind, mret. rewrite read_spec, A, B, D.
  change (String.eqb "Warsaw mass" "Warsaw mass") with true. cbv iota. rewrite E.
  pose proof (write_truncate (DFile o) u s) as W. cbn [truncate] in *. rewrite W. reflexivity.
Qed.
(** If filling the card fails, an empty output file is left. *)
Lemma smeftsim_card_error f o key s w e :
  WC_load (match f with SStdin t => t | SFile p => content s p end) = Ok w -> wc_validate w = Ok tt ->
  basis_of w = "Warsaw mass" -> card_text w = Err e -> e <> SystemExit ->
  smeftsim_main f o key s = (1%Z, snd (say (Trace e) (truncate (DFile o) s))).
Proof.
  intros A B D E N. unfold smeftsim_main, smeftsim_cmd, mbind, mret. rewrite read_spec, A, B, D.
  change (String.eqb "Warsaw mass" "Warsaw mass") with true. cbv iota. rewrite E.
  destruct e; try reflexivity. congruence.
Qed.
(** Declining the prompt ends with status 0 and no card. *)
Lemma smeftsim_declined f o k s w :
  WC_load (match f with SStdin t => t | SFile p => content s p end) = Ok w -> wc_validate w = Ok tt ->
  basis_of w <> "Warsaw mass" -> k <> "i" -> k <> "I" ->
  smeftsim_main f o (Some k) s = (0%Z, St (files s) (seen s ++ [Printed "WARNING"])).
Proof.
  intros A B D E N. unfold smeftsim_main, smeftsim_cmd, mbind, mret. rewrite read_spec, A, B.
  apply String.eqb_neq in D, E, N. rewrite D. cbn [say]. rewrite E, N. reflexivity.
Qed.
End Cli.
