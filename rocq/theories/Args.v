(** Model of the command lines of wcxf/cli.py (10-76, 122-133, 158-168): from the
    words typed by the user to the parsed arguments, with argparse of Python 3.5
    and 3.6 (the versions in .travis.yml) transcribed for the features used: options
    with nargs None and '?', positional arguments with nargs None and '?', sub-commands,
    -h, abbreviations, "--option=value" and "--". *)
From Coq Require Import String Ascii List Bool Arith ZArith Reals Lia.
From Verif Require Import PyBase PyDict Dump Cli.
Import ListNotations.
Open Scope string_scope.
Open Scope list_scope.
Open Scope nat_scope.

(** How argparse ends: with a value, by leaving the program (after printing help or
    a usage message), or with an exception. *)
Inductive out (A : Type) := Ret (a : A) | Stop (status : Z) | Raise (e : exn).
Arguments Ret {A} _. Arguments Stop {A} _. Arguments Raise {A} _.
Definition P A := st -> out A * st.
Definition ret {A} (a : A) : P A := fun s => (Ret a, s).
Definition pbind {A B} (m : P A) (k : A -> P B) : P B :=
  fun s => match m s with
           | (Ret a, s') => k a s'
           | (Stop n, s') => (Stop n, s')
           | (Raise e, s') => (Raise e, s')
           end.
Notation "'do*' x <- m ; k" := (pbind m (fun x => k)) (at level 200, x pattern, m at level 100, k at level 200).
(** parser.error and the help action *)
Definition fail {A} : P A := fun s => (Stop 2%Z, snd (say Usage s)).
Definition help {A} : P A := fun s => (Stop 0%Z, snd (say Help s)).

(** The [type] and [choices] of an argument. *)
Inductive conv := KStr | KIn | KOut | KFloat | KChoice (l : list string).
(** Values in the namespace.  [VEmpty]: the empty list, which argparse gives to an
    argument with nargs None whose only word was "--". *)
Inductive value := VNone | VEmpty | VStr (s : string) | VIn (f : source) | VOut (d : dest) | VNum (x : R).
(** An argument; [many]: nargs='?'.  const is never given, so it is None. *)
Record arg := Arg { name : string; many : bool; type : conv; default : value }.
(** A positional argument or the sub-command. *)
Inductive posarg := PArg (a : arg) | PSub.
(** [flags]: the options apart from -h and --help *)
Record parser := Parser { pos : list posarg; flags : list (string * arg) }.

(** Kinds of words on the command line (ArgumentParser._parse_optional). *)
Inductive otok := OUnknown | OHelp (long : bool) (explicit : option string) | OOpt (a : arg) (explicit : option string).
Inductive cls := CA | CDash | CO (o : otok).
Definition token : Type := string * cls.
(** s.split('=', 1) *)
Fixpoint cut (s : string) : option (string * string) :=
  match s with
  | EmptyString => None
  | String c t => if Ascii.eqb c "=" then Some ("", t)
                  else match cut t with Some (a, b) => Some (String c a, b) | None => None end
  end.
Fixpoint has_space (s : string) : bool :=
  match s with EmptyString => false | String c t => Ascii.eqb c " " || has_space t end.
Definition is_digit (c : ascii) : bool := (48 <=? nat_of_ascii c) && (nat_of_ascii c <=? 57).
Fixpoint all_digits (s : string) : bool := match s with EmptyString => true | String c t => is_digit c && all_digits t end.
(** digits, then a point, then at least one digit *)
Fixpoint point_digits (s : string) : bool :=
  match s with
  | EmptyString => false
  | String c t => if Ascii.eqb c "." then negb (String.eqb t "") && all_digits t else is_digit c && point_digits t
  end.
(** '^-\d+$|^-\d*\.\d+$'; simplified: ASCII digits, no final line break *)
Definition negative_number (s : string) : bool :=
  match s with
  | String c t => Ascii.eqb c "-" && (negb (String.eqb t "") && all_digits t || point_digits t)
  | EmptyString => false
  end.
(** An option string found in the table of options. *)
Definition lookup (p : parser) (s : string) (e : option string) : option otok :=
  if String.eqb s "-h" then Some (OHelp false e)
  else if String.eqb s "--help" then Some (OHelp true e)
  else match dget (flags p) s with Some a => Some (OOpt a e) | None => None end.
(** ArgumentParser._get_option_tuples *)
Definition abbreviations (p : parser) (s : string) : list otok :=
  if String.prefix "--" s then
    let '(q, e) := match cut s with Some (a, b) => (a, Some b) | None => (s, None) end in
    (if String.prefix q "--help" then [OHelp true e] else []) ++
    map (fun fa => OOpt (snd fa) e) (filter (fun fa : string * arg => String.prefix q (fst fa)) (flags p))
  else match s with
       | String "-" (String "h" t) => [OHelp false (Some t)]
       | _ => []
       end.
Definition classify (p : parser) (s : string) : P cls :=
  match s with
  | EmptyString => ret CA
  | String c t =>
      if negb (Ascii.eqb c "-") then ret CA else
      match lookup p s None with
      | Some o => ret (CO o)
      | None =>
          if String.eqb t "" then ret CA else
          match (match cut s with Some (a, b) => lookup p a (Some b) | None => None end) with
          | Some o => ret (CO o)
          | None =>
              match abbreviations p s with
              | _ :: _ :: _ => fail                      (* ambiguous *)
              | [o] => ret (CO o)
              | [] => if negative_number s || has_space s then ret CA else ret (CO OUnknown)
              end
          end
      end
  end.
(** ArgumentParser._parse_known_args, first loop: after "--" everything is positional. *)
Fixpoint tokens (p : parser) (l : list string) : P (list token) :=
  match l with
  | [] => ret []
  | s :: t => if String.eqb s "--" then ret ((s, CDash) :: map (fun u => (u, CA)) t)
              else do* c <- classify p s; do* r <- tokens p t; ret ((s, c) :: r)
  end.

(** ** Positional arguments *)
Definition is_dash (t : token) : bool := match snd t with CDash => true | _ => false end.
Definition is_opt (t : token) : bool := match snd t with CO _ => true | _ => false end.
Fixpoint span {A} (f : A -> bool) (l : list A) : list A * list A :=
  match l with [] => ([], []) | x :: t => if f x then let '(a, b) := span f t in (x :: a, b) else ([], l) end.
(** The words taken by one positional argument: the patterns '-*A-*', '-*A?-*' and
    '-*A[-AO]*' of ArgumentParser._get_nargs_pattern. *)
Definition take (p : posarg) (l : list token) : option (list token * list token) :=
  let '(d, r) := span is_dash l in
  match r with
  | (w, CA) :: r' =>
      match p with
      | PArg _ => let '(d', r'') := span is_dash r' in Some (d ++ (w, CA) :: d', r'')
      | PSub => Some (l, [])
      end
  | _ => match p with PArg a => if many a then Some (d, r) else None | PSub => None end
  end.
(** ArgumentParser._match_arguments_partial: as many positional arguments as match.
    (The patterns never need backtracking as long as '?' comes last.) *)
Fixpoint consume (ps : list posarg) (l : list token) : list (posarg * list string) * list token * list posarg :=
  match ps with
  | [] => ([], l, [])
  | p :: q => match take p l with
              | None => ([], l, ps)
              | Some (a, r) => let '(x, y, z) := consume q r in ((p, map fst a) :: x, y, z)
              end
  end.
Definition required (p : posarg) : bool := match p with PArg a => negb (many a) | PSub => false end.
(** [arg_strings.remove('--')] *)
Fixpoint strip (l : list string) : list string :=
  match l with [] => [] | s :: t => if String.eqb s "--" then t else s :: strip t end.

Section Args.
(** The text on standard input, which files can be opened for writing, [float(str)] *)
Variable stdin : string.
Variable creatable : string -> bool.
Variable float_of_str : string -> option R.

(** argparse.FileType('r') and FileType('w'); "-" is the standard stream *)
Definition open_in (p : string) : P value :=
  if String.eqb p "-" then ret (VIn (SStdin stdin))
  else fun s => if dmem (files s) p then (Ret (VIn (SFile p)), s) else fail s.
Definition open_out (p : string) : P value :=
  if String.eqb p "-" then ret (VOut DStdout)
  else fun s => if creatable p then (Ret (VOut (DFile p)), truncate (DFile p) s) else fail s.
(** ArgumentParser._get_value and _check_value *)
Definition convert (c : conv) (v : string) : P value :=
  match c with
  | KStr => ret (VStr v)
  | KIn => open_in v
  | KOut => open_out v
  | KFloat => match float_of_str v with Some x => ret (VNum x) | None => fail end
  | KChoice l => if existsb (String.eqb v) l then ret (VStr v) else fail
  end.
(** ArgumentParser._get_values for a positional argument and for an option *)
Definition pos_value (a : arg) (l : list string) : P value :=
  match strip l with
  | [v] => convert (type a) v
  | _ => if many a then match default a with VStr v => convert (type a) v | v => ret v end else ret VEmpty
  end.
Definition opt_value (a : arg) (l : list string) : P value :=
  match strip l with [v] => convert (type a) v | _ => ret (if many a then VNone else VEmpty) end.

(** What has been gathered: namespace, sub-command, unrecognised words. *)
Record got := Got { space : dict string value; sub_ : option string; extra : list string }.
Definition put_value (a : arg) (v : value) (g : got) : got := Got (dset (space g) (name a) v) (sub_ g) (extra g).
Definition add_extra (l : list string) (g : got) : got := Got (space g) (sub_ g) (extra g ++ l).

Section Engine.
Variable p : parser.
(** The action of the sub-command *)
Variable sub : list string -> got -> P got.
Definition take_pos (x : posarg * list string) (g : got) : P got :=
  match fst x with
  | PArg a => do* v <- pos_value a (snd x); ret (put_value a v g)
  | PSub => sub (snd x) g
  end.
Fixpoint take_all (l : list (posarg * list string)) (g : got) : P got :=
  match l with [] => ret g | x :: t => do* g' <- take_pos x g; take_all t g' end.
(** "-hxyz": further one-letter options *)
Fixpoint cluster {A} (e : string) : P A :=
  match e with
  | EmptyString => fun s => (Raise IndexError, s)
  | String c t => if Ascii.eqb c "h" then (if String.eqb t "" then help else cluster t) else fail
  end.
(** consume_optional *)
Definition take_opt (w : string) (o : otok) (l : list token) (g : got) : P (list token * got) :=
  match o with
  | OUnknown => ret (l, add_extra [w] g)
  | OHelp _ None => help
  | OHelp true (Some _) => fail
  | OHelp false (Some e) => cluster e
  | OOpt a (Some e) => do* v <- opt_value a [e]; ret (l, put_value a v g)
  | OOpt a None =>
      match l with
      | (v, CA) :: t => do* x <- opt_value a [v]; ret (t, put_value a x g)
      | _ => if many a then do* x <- opt_value a []; ret (l, put_value a x g) else fail
      end
  end.
(** ArgumentParser._parse_known_args, main loop.  [n]: an upper bound of the number of
    rounds (it is never used up, see [enough]). *)
Fixpoint loop (n : nat) (l : list token) (ps : list posarg) (g : got) : P (list posarg * got) :=
  match n with
  | O => fun s => (Raise (UserError "rounds"), s)
  | S n =>
      if existsb is_opt l then
        match l with
        | (w, CO o) :: t => do* x <- take_opt w o t g; loop n (fst x) ps (snd x)
        | _ => let '(x, r, ps') := consume ps l in
               if length r <? length l then do* g' <- take_all x g; loop n r ps' g'
               else let '(a, b) := span (fun t => negb (is_opt t)) l in loop n b ps (add_extra (map fst a) g)
        end
      else
        let '(x, r, ps') := consume ps l in
        do* g' <- take_all x g; ret (ps', add_extra (map fst r) g')
  end.
Definition pos_default (x : posarg) : list (string * value) :=
  match x with PArg a => [(name a, default a)] | PSub => [] end.
Definition defaults : dict string value :=
  flat_map pos_default (pos p) ++ map (fun fa => (name (snd fa), default (snd fa))) (flags p).
(** ArgumentParser.parse_known_args.  String defaults of options need no conversion here:
    their types are str or absent, and choices are not checked for them. *)
Definition parse_known (l : list string) : P got :=
  do* t <- tokens p l;
  do* x <- loop (S (length t)) t (pos p) (Got defaults None []);
  if existsb required (fst x) then fail else ret (snd x).
End Engine.

(** ** The declarations *)
Definition no_sub (l : list string) (g : got) : P got := ret g.
Definition FILE : posarg := PArg (Arg "FILE" true KIn (VIn (SStdin stdin))).
Definition one (n : string) : posarg := PArg (Arg n false KStr VNone).
Definition output : string * arg := ("--output", Arg "output" true KOut (VOut DStdout)).
Definition format : string * arg := ("--format", Arg "format" false KStr (VStr "json")).
(** cli.py 11-76; the name decides [func] *)
Definition sub_parser (c : string) : option parser :=
  if String.eqb c "convert" then Some (Parser [one "FORMAT"; FILE] [output])
  else if String.eqb c "translate" then Some (Parser [one "BASIS"; FILE] [output; format])
  else if String.eqb c "match" then Some (Parser [one "EFT"; one "BASIS"; FILE] [output; format])
  else if String.eqb c "validate" then Some (Parser [one "TYPE"; FILE] [])
  else None.
(** argparse._SubParsersAction.__call__ *)
Definition run_sub (l : list string) (g : got) : P got :=
  match l with
  | c :: t => match sub_parser c with
              | Some q => do* h <- parse_known q no_sub t;
                          ret (Got (dupdate (space g) (space h)) (Some c) (extra g ++ extra h))
              | None => fail
              end
  | [] => ret g
  end.
Definition main_parser : parser := Parser [PSub] [].
(** The namespace as arguments of a command; [None] when a value is the empty list. *)
Definition str_at (d : dict string value) (k : string) : option string := match dget d k with Some (VStr x) => Some x | _ => None end.
Definition in_at (d : dict string value) (k : string) : option source := match dget d k with Some (VIn x) => Some x | _ => None end.
Definition out_at (d : dict string value) (k : string) : option dest :=
  match dget d k with Some (VOut x) => Some x | Some VNone => Some DNone | _ => None end.
Definition to_cmd (c : string) (d : dict string value) : option cmd :=
  match in_at d "FILE" with
  | None => None
  | Some f =>
      if String.eqb c "convert" then
        match str_at d "FORMAT", out_at d "output" with Some x, Some o => Some (Convert x f o) | _, _ => None end
      else if String.eqb c "translate" then
        match str_at d "BASIS", out_at d "output", str_at d "format" with
        | Some b, Some o, Some x => Some (Translate b f o x) | _, _, _ => None end
      else if String.eqb c "match" then
        match str_at d "EFT", str_at d "BASIS", out_at d "output", str_at d "format" with
        | Some e, Some b, Some o, Some x => Some (Match e b f o x) | _, _, _, _ => None end
      else match str_at d "TYPE" with Some t => Some (Validate t f) | None => None end
  end.
(** ArgumentParser.parse_args, cli.py 76 *)
Definition parse_args (p : parser) (sub : list string -> got -> P got) (l : list string) : P got :=
  do* g <- parse_known p sub l; match extra g with [] => ret g | _ => fail end.

Section Run.
Variable main : parsed -> st -> Z * st.
(** what happens when an argument is the empty list *)
Variable empty_list : list string -> st -> Z * st.
(** cli.py 10-81 under sys.exit *)
Definition wcxf_argv (l : list string) (s : st) : Z * st :=
  match parse_args main_parser run_sub l s with
  | (Stop n, s') => (n, s')
  | (Raise e, s') => (1%Z, snd (say (Trace e) s'))
  | (Ret g, s') => match sub_ g with
                   | None => main PNone s'
                   | Some c => match to_cmd c (space g) with Some x => main (PCmd x) s' | None => empty_list l s' end
                   end
  end.
End Run.

(** ** wcxf2eos, cli.py 122-133 *)
Definition eos_parser : parser :=
  Parser [FILE] [("--eosprefix", Arg "eosprefix" false KStr (VStr "/usr")); output;
                 ("--eoshome", Arg "eoshome" false KStr VNone)].
Definition eos_argv (main : source -> string -> dest -> option string -> st -> Z * st)
    (empty_list : list string -> st -> Z * st) (l : list string) (s : st) : Z * st :=
  match parse_args eos_parser no_sub l s with
  | (Stop n, s') => (n, s')
  | (Raise e, s') => (1%Z, snd (say (Trace e) s'))
  | (Ret g, s') =>
      match in_at (space g) "FILE", str_at (space g) "eosprefix", out_at (space g) "output", dget (space g) "eoshome" with
      | Some f, Some x, Some o, Some VNone => main f x o None s'
      | Some f, Some x, Some o, Some (VStr h) => main f x o (Some h) s'
      | _, _, _, _ => empty_list l s'
      end
  end.

(** ** wcxf2smeftsim, cli.py 158-168 *)
Definition smeftsim_parser : parser :=
  Parser [PArg (Arg "FILE" true KIn (VStr "{}"))]
         [("--output", Arg "output" true KStr (VStr "wcxf2smeftsim_param_card.dat"));
          ("--input-scheme", Arg "input_scheme" true (KChoice ["alpha"; "mw"]) (VStr "alpha"));
          ("--cutoff-scale", Arg "cutoff_scale" true KFloat (VNum 1000));
          ("--model-set", Arg "model_set" true (KChoice ["A"; "B"]) (VStr "A"))].
(** [no_value]: an option was given without its value, so that it is None *)
Definition smeftsim_argv (main : string -> string -> R -> source -> string -> st -> Z * st)
    (no_value : list string -> st -> Z * st) (l : list string) (s : st) : Z * st :=
  match parse_args smeftsim_parser no_sub l s with
  | (Stop n, s') => (n, s')
  | (Raise e, s') => (1%Z, snd (say (Trace e) s'))
  | (Ret g, s') =>
      match in_at (space g) "FILE", str_at (space g) "output", str_at (space g) "input_scheme",
            str_at (space g) "model_set", dget (space g) "cutoff_scale" with
      | Some f, Some o, Some i, Some m, Some (VNum x) => main m i x f o s'
      | _, _, _, _, _ => no_value l s'
      end
  end.
End Args.
