(** C71: the words typed after wcxf, wcxf2eos and wcxf2smeftsim. *)
From Coq Require Import String Ascii List Bool Arith ZArith Reals Lra.
From Verif Require Import PyBase PyDict Dump Wc Package PackMatch Cli Tool P_Tool Args ArgsFacts ArgsForms ArgsThm ArgsAny.
From Verif Require Bases.
Import ListNotations.
Open Scope string_scope.
Open Scope list_scope.
Open Scope nat_scope.

Section C71.
Variable stdin : string.
Variable creatable : string -> bool.
Variable float_of_str : string -> option R.
Variable main : parsed -> st -> Z * st.
Variable empty_list : list string -> st -> Z * st.
Notation wcxf := (wcxf_argv stdin creatable float_of_str main empty_list).

(** The accepted command lines: the command, options, its positional words and possibly FILE, options.  Options may be
    abbreviated to three characters and their value joined with "=".  The last of several equal options wins; without
    any, the output is standard output and the format json; without FILE the input is standard input. *)
Theorem C71_accepted : forall q xs1 l1 f xs2 l2 s, Forall plain (q_words q) -> readable f s -> Forall (q_setting creatable q) (xs1 ++ xs2) ->
  spells three xs1 l1 -> spells three xs2 l2 -> ends_with_value xs1 ->
  wcxf (q_name q :: l1 ++ (q_words q ++ file_words f) ++ l2) s =
  main (PCmd (q_cmd q (source_named stdin f) (fold_left out_after (xs1 ++ xs2) DStdout) (fold_left (text_after "--format") (xs1 ++ xs2) "json")))
       (fold_left opened (xs1 ++ xs2) s).
Proof. exact (wcxf_accepted stdin creatable float_of_str main empty_list). Qed.

(** Every command line: the run ends with the help text and status 0, with the usage message and status 2, or with a
    traceback of an IndexError and status 1, or a command starts whose input can be read and whose output file is empty
    and was named on the command line.  Until then nothing else is printed, and the only change to any file is that
    files named on the command line are emptied.  [empty_list]: an argument is the empty list instead of a string. *)
Theorem C71_any : forall l s, exists s', touched creatable (named l) s s' /\ seen s' = seen s /\
  let r := wcxf l s in
  stopped r s' \/ r = main PNone s' \/ r = empty_list l s' \/
  exists c, r = main (PCmd c) s' /\ in_ready stdin (cmd_in c) s' /\ out_ready l (cmd_out c) s'.
Proof. exact (wcxf_any stdin creatable float_of_str main empty_list). Qed.
Theorem C71_unnamed_files : forall l s q,
  (forall a t, (forall c, a = PCmd c -> cmd_out c <> DFile q) -> dget (files (snd (main a t))) q = dget (files t) q) ->
  (forall t, dget (files (snd (empty_list l t))) q = dget (files t) q) -> ~ named l q ->
  dget (files (snd (wcxf l s))) q = dget (files s) q.
Proof. exact (wcxf_frame stdin creatable float_of_str main empty_list). Qed.

(** Rejected with status 2: an unknown command, and an input file that does not exist. *)
Theorem C71_unknown : forall c l s, plain c -> ~ In c ["convert"; "translate"; "match"; "validate"] -> wcxf (c :: l) s = (2%Z, snd (say Usage s)).
Proof. exact (wcxf_unknown stdin creatable float_of_str main empty_list). Qed.
Theorem C71_no_file : forall q xs1 l1 f xs2 l2 s, Forall plain (q_words q) -> plain f -> f <> "-" -> Forall (q_setting creatable q) (xs1 ++ xs2) ->
  spells three xs1 l1 -> spells three xs2 l2 -> ends_with_value xs1 -> dmem (files (fold_left opened xs1 s)) f = false ->
  wcxf (q_name q :: l1 ++ (q_words q ++ [f]) ++ l2) s = (2%Z, snd (say Usage (fold_left opened xs1 s))).
Proof. exact (wcxf_no_file stdin creatable float_of_str main empty_list). Qed.
(** One would expect a rejected command line to have no effect: the output file has lost its content. *)
Theorem C71_rejected_refuted : forall q o f s, Forall plain (q_words q) -> plain f -> f <> "-" -> o <> f -> dmem (files s) f = false ->
  plain o -> o <> "-" -> creatable o = true -> (forall t, q <> QValidate t) ->
  let r := wcxf (q_name q :: "--output" :: o :: q_words q ++ [f]) s in fst r = 2%Z /\ dget (files (snd r)) o = Some "".
Proof.
  intros q o f s W Pf Nf Nof D Po No C NV r.
  assert (r = (2%Z, snd (say Usage (fold_left opened [("--output", Some o)] s)))) as ->.
  { unfold r. pose proof (C71_no_file q [("--output", Some o)] ["--output"; o] f [] [] s) as H.
    rewrite (app_nil_r (q_words q ++ [f])) in H. cbn [app] in H. apply H; auto.
    - constructor; [|constructor]. assert (ok_output creatable ("--output", Some o)) as K.
      { split; [reflexivity|]. cbn. split; [intros ->; exact (plain_two Po)|right; exact C]. }
      destruct q; cbn; auto. exfalso. eapply NV; reflexivity.
    - apply (spells_cons three "--output" (Some o) ["--output"; o] [] []); [|constructor]. constructor; auto. split; [reflexivity|]. cbn. repeat constructor.
    - constructor.
    - exact I.
    - cbn. unfold dest_named. destruct (String.eqb_spec o "-"); [contradiction|]. cbn. unfold dmem in *. rewrite dget_dset.
      destruct (keqb o f) eqn:E; [apply keqb_eq in E; congruence|exact D]. }
  split; [reflexivity|]. cbn. unfold dest_named. destruct (String.eqb_spec o "-"); [contradiction|]. cbn. rewrite dget_dset, keqb_refl. reflexivity.
Qed.
(** Options before or behind the positional words are fine (C71_accepted), but not between them: with an option between
    the other words and FILE the command line is rejected as having too many words, and the output files have been
    emptied. *)
Theorem C71_file_last_refuted : forall q xs1 l1 xs2 l2 f xs3 l3 s, Forall plain (q_words q) -> plain f -> Forall (q_setting creatable q) (xs1 ++ xs2 ++ xs3) ->
  spells three xs1 l1 -> spells three xs2 l2 -> spells three xs3 l3 -> ends_with_value xs1 -> ends_with_value xs2 -> xs2 <> [] ->
  wcxf (q_name q :: l1 ++ q_words q ++ l2 ++ f :: l3) s = (2%Z, snd (say Usage (fold_left opened (xs1 ++ xs2 ++ xs3) s))).
Proof. exact (wcxf_split stdin creatable float_of_str main empty_list). Qed.
(** "--output" may be without value; directly before the positional words it takes the first of them: the basis becomes
    the name of the output file, FILE becomes the basis, and the input is standard input. *)
Theorem C71_bare_output_refuted : forall b f s, plain b -> plain f -> creatable b = true -> b <> "-" ->
  wcxf ["translate"; "--output"; b; f] s = main (PCmd (Translate f (SStdin stdin) (DFile b) "json")) (truncate (DFile b) s).
Proof.
  intros b f s Pb Pf C N.
  pose proof (C71_accepted (QTranslate f) [("--output", Some b)] ["--output"; b] None [] [] s) as H. cbn in H.
  assert (dest_named b = DFile b) as E by (unfold dest_named; destruct (String.eqb_spec b "-"); [contradiction|reflexivity]). rewrite E in H. apply H; auto.
  - constructor; [|constructor]. left. split; [reflexivity|]. cbn. split; [intros ->; exact (plain_two Pb)|right; exact C].
  - apply (spells_cons three "--output" (Some b) ["--output"; b] [] []); [|constructor]. constructor; auto. split; [reflexivity|]. cbn. repeat constructor.
  - constructor.
Qed.
(** Without a command the help text is printed. *)
Theorem C71_nothing : forall s, wcxf [] s = main PNone s.
Proof. exact (wcxf_nothing stdin creatable float_of_str main empty_list). Qed.
End C71.

(** ** wcxf2eos and wcxf2smeftsim *)
Section C71_converters.
Variable stdin : string.
Variable creatable : string -> bool.
Variable float_of_str : string -> option R.
Section Eos.
Variable main : source -> string -> dest -> option string -> st -> Z * st.
Variable empty_list : list string -> st -> Z * st.
Notation eos := (eos_argv stdin creatable float_of_str main empty_list).
(** "--eosprefix" and "--eoshome" may be abbreviated to six characters, "--output" to three. *)
Theorem C71_eos : forall xs1 l1 f xs2 l2 s, readable f s -> Forall (eos_setting creatable) (xs1 ++ xs2) ->
  spells eos_len xs1 l1 -> spells eos_len xs2 l2 -> ends_with_value xs1 ->
  eos (l1 ++ file_words f ++ l2) s =
  main (source_named stdin f) (fold_left (text_after "--eosprefix") (xs1 ++ xs2) "/usr") (fold_left out_after (xs1 ++ xs2) DStdout)
       (fold_left home_after (xs1 ++ xs2) None) (fold_left opened (xs1 ++ xs2) s).
Proof. exact (eos_accepted stdin creatable float_of_str main empty_list). Qed.
Theorem C71_eos_any : forall l s, exists s', touched creatable (named l) s s' /\ seen s' = seen s /\
  let r := eos l s in
  stopped r s' \/ r = empty_list l s' \/ exists f x o h, r = main f x o h s' /\ in_ready stdin f s' /\ out_ready l o s'.
Proof. exact (eos_any stdin creatable float_of_str main empty_list). Qed.
End Eos.
Section Sim.
Variable main : string -> string -> R -> source -> string -> st -> Z * st.
Variable no_value : list string -> st -> Z * st.
Notation smeftsim := (smeftsim_argv stdin creatable float_of_str main no_value).
(** Model set A, input scheme alpha, cutoff scale 1000 and the file name of the card are the defaults; only the allowed
    sets, schemes and numbers are accepted.  No file is opened for writing yet. *)
Theorem C71_smeftsim : forall xs1 l1 f xs2 l2 s, readable (Some f) s -> Forall (sim_setting float_of_str) (xs1 ++ xs2) ->
  spells sim_len xs1 l1 -> spells sim_len xs2 l2 ->
  smeftsim (l1 ++ [f] ++ l2) s =
  main (fold_left (text_after "--model-set") (xs1 ++ xs2) "A") (fold_left (text_after "--input-scheme") (xs1 ++ xs2) "alpha")
       (fold_left (number_after float_of_str "--cutoff-scale") (xs1 ++ xs2) 1000%R) (source_named stdin (Some f))
       (fold_left (text_after "--output") (xs1 ++ xs2) "wcxf2smeftsim_param_card.dat") s.
Proof. exact (sim_accepted stdin creatable float_of_str main no_value). Qed.
Theorem C71_smeftsim_any : forall l s, exists s', touched creatable (named l) s s' /\ seen s' = seen s /\
  let r := smeftsim l s in
  stopped r s' \/ r = no_value l s' \/ exists m i x f o, r = main m i x f o s' /\ in_ready stdin f s'.
Proof. exact (sim_any stdin creatable float_of_str main no_value). Qed.
(** FILE is declared optional with the help text "Must be specified"; without it the run ends with status 2 *)
Theorem C71_smeftsim_no_file : forall xs l s, Forall (sim_setting float_of_str) xs -> spells sim_len xs l -> dmem (files s) "{}" = false ->
  smeftsim l s = (2%Z, snd (say Usage s)).
Proof.
  intros xs l s F S D. pose proof (sim_no_file stdin creatable float_of_str main no_value xs l s F S) as H. rewrite D in H. exact H.
Qed.
(** - unless there is a file called "{}", which is then read. *)
Theorem C71_smeftsim_braces_refuted : forall xs l s, Forall (sim_setting float_of_str) xs -> spells sim_len xs l -> dmem (files s) "{}" = true ->
  smeftsim l s =
    main (fold_left (text_after "--model-set") xs "A") (fold_left (text_after "--input-scheme") xs "alpha")
       (fold_left (number_after float_of_str "--cutoff-scale") xs 1000%R) (SFile "{}") (fold_left (text_after "--output") xs "wcxf2smeftsim_param_card.dat") s.
Proof.
  intros xs l s F S D. pose proof (sim_no_file stdin creatable float_of_str main no_value xs l s F S) as H. rewrite D in H. exact H.
Qed.
End Sim.
End C71_converters.

Lemma dset_again {V} (d : dict string V) k a b : dset (dset d k a) k b = dset d k b.
Proof.
  induction d as [|[k' v] d IH]; cbn [dset].
  - rewrite keqb_refl. reflexivity.
  - destruct (keqb k k') eqn:E; cbn [dset]; rewrite E; [reflexivity|]. rewrite IH. reflexivity.
Qed.
(** ** Typed commands on coefficient files *)
Section C71_typed.
Variable stdin : string.
Variable creatable : string -> bool.
Variable empty_list : list string -> st -> Z * st.
Variable float_of_str : string -> option R.
Variables json_dumps yaml_dump : doc -> string.
Variables json_loads yaml_load : string -> res doc.
Variable translators : treg.
Variable matchers : mreg.
Variable world : Bases.world.
Variable odd : attrs -> list string -> res wc.
Variable basis_ : Type.
Variable EFT_load : string -> res unit.
Variable Basis_load : string -> res basis_.
Variable basis_validate : basis_ -> res unit.
Variable printable : doc -> Prop.
Hypothesis json_roundtrip : forall d, printable d -> json_loads (json_dumps d) = Ok d.
Hypothesis yaml_roundtrip : forall d, printable d -> yaml_load (yaml_dump d) = Ok d.
Hypothesis yaml_not_json : forall m, m <> [] -> printable (DMap m) ->
  exists x, json_loads (yaml_dump (DMap m)) = Err x /\ (x = ValueError \/ x = JSONDecodeError).
Notation tool := (Tool.tool float_of_str json_dumps yaml_dump json_loads yaml_load translators matchers world odd basis_ EFT_load Basis_load basis_validate).
Notation typed := (wcxf_argv stdin creatable float_of_str tool empty_list).
Notation file_of := (Tool.file_of float_of_str json_loads yaml_load).
Notation call := (Tool.call float_of_str translators matchers).
Notation text_for := (P_Tool.text_for json_dumps yaml_dump).
Definition asked (x : step) : request := match x with STranslate t => QTranslate t | SMatch e t => QMatch e t end.
Lemma asked_cmd x f o fmt : q_cmd (asked x) f o fmt = cmd_of x f o fmt.
Proof. destruct x; reflexivity. Qed.
(** What is typed is what the method computes, in the format and the place asked for. *)
Theorem C71_typed : forall x xs1 l1 f xs2 l2 s w w', Forall plain (q_words (asked x)) -> readable f s ->
  Forall (q_setting creatable (asked x)) (xs1 ++ xs2) -> spells three xs1 l1 -> spells three xs2 l2 -> ends_with_value xs1 ->
  let o := fold_left out_after (xs1 ++ xs2) DStdout in let fmt := fold_left (text_after "--format") (xs1 ++ xs2) "json" in
  let s1 := fold_left opened (xs1 ++ xs2) s in
  file_of (input (source_named stdin f) o s1) w -> format_ok fmt -> call x w = Ok w' -> printable (DMap (entries w')) ->
  typed (q_name (asked x) :: l1 ++ (q_words (asked x) ++ file_words f) ++ l2) s = (0%Z, put o (text_for fmt w') s1) /\ file_of (text_for fmt w') w'.
Proof.
  intros x xs1 l1 f xs2 l2 s w w' Pl R F S1 S2 V o fmt s1 Fi Fo C P.
  rewrite (C71_accepted stdin creatable float_of_str tool empty_list (asked x) xs1 l1 f xs2 l2 s Pl R F S1 S2 V), asked_cmd.
  exact (C66_command float_of_str json_dumps yaml_dump json_loads yaml_load translators matchers world odd basis_ EFT_load Basis_load basis_validate
    printable json_roundtrip yaml_roundtrip yaml_not_json x (source_named stdin f) o fmt s1 w w' Fi Fo C P).
Qed.
(** From one file to another: the output file then holds the result and every other file is as before. *)
Theorem C71_typed_line : forall x f q fmt s w w', Forall plain (q_words (asked x)) -> plain f -> plain q -> f <> "-" -> q <> "-" -> f <> q -> creatable q = true ->
  plain fmt -> format_ok fmt -> dmem (files s) f = true ->
  file_of (content s f) w -> call x w = Ok w' -> printable (DMap (entries w')) ->
  typed (q_name (asked x) :: q_words (asked x) ++ [f; "--output"; q; "--format"; fmt]) s = (0%Z, St (dset (files s) q (text_for fmt w')) (seen s)) /\
  file_of (text_for fmt w') w'.
Proof.
  intros x f q fmt s w w' Pw Pf Pq Nf Nq Nfq Cq Pfmt Fo D Fi C P.
  assert (forall b, plain b -> b <> "--") as ND by (intros b Pb ->; exact (plain_two Pb)).
  assert (dest_named q = DFile q) as Eq by (unfold dest_named; destruct (String.eqb_spec q "-"); [contradiction|reflexivity]).
  assert (source_named stdin (Some f) = SFile f) as Ef by (unfold source_named; destruct (String.eqb_spec f "-"); [contradiction|reflexivity]).
  pose proof (C71_typed x [] [] (Some f) [("--output", Some q); ("--format", Some fmt)] ["--output"; q; "--format"; fmt] s w w') as H.
  rewrite Ef in H. change (fold_left opened ([] ++ [("--output", Some q); ("--format", Some fmt)]) s) with (truncate (dest_named q) s) in H.
  change (fold_left out_after ([] ++ [("--output", Some q); ("--format", Some fmt)]) DStdout) with (dest_named q) in H. rewrite Eq in H.
  assert (typed (q_name (asked x) :: (q_words (asked x) ++ [f]) ++ ["--output"; q; "--format"; fmt]) s = (0%Z, put (DFile q) (text_for fmt w') (truncate (DFile q) s)) /\ file_of (text_for fmt w') w') as [E T].
  { apply H; auto.
    - split; auto.
    - assert (ok_output creatable ("--output", Some q)) as K1 by (split; [reflexivity|]; cbn; split; [auto|right; exact Cq]).
      assert (ok_text "--format" ("--format", Some fmt)) as K2 by (split; [reflexivity|]; cbn; auto).
      assert (forall y, ok_output creatable y \/ ok_text "--format" y -> q_setting creatable (asked x) y) as K by (destruct x; auto).
      constructor; [apply K; auto|]. constructor; [apply K; auto|constructor].
    - constructor.
    - apply (spells_cons three "--output" (Some q) ["--output"; q] _ ["--format"; fmt]).
      + constructor; auto. split; [reflexivity|]. cbn. repeat constructor.
      + apply (spells_cons three "--format" (Some fmt) ["--format"; fmt] [] []); [|constructor]. constructor; auto. split; [reflexivity|]. cbn. repeat constructor.
    - exact I.
    - change (file_of (input (SFile f) (DFile q) (truncate (DFile q) s)) w). unfold input. destruct (String.eqb_spec q f); [congruence|]. unfold content. cbn [truncate files]. rewrite dget_dset.
      destruct (keqb q f) eqn:K; [apply keqb_eq in K; congruence|]. exact Fi. }
  rewrite <- app_assoc in E. cbn [app] in E. rewrite E. split; [|exact T]. cbn [put truncate files seen]. rewrite !dset_again. reflexivity.
Qed.
End C71_typed.

(** ** Cases *)
(** "wcxf translate --out=out.json flavio in.json --f yaml --output out.yaml": an abbreviation, a value joined with "=", an
    option given twice.  Two files are opened; the last one is the output. *)
Example C71_accepted_case : forall stdin float_of_str main empty_list,
  let s := St [("in.json", "x"); ("out.yaml", "old")] [] in
  let xs1 := [("--output", Some "out.json")] in let xs2 := [("--format", Some "yaml"); ("--output", Some "out.yaml")] in
  Forall (q_setting (fun _ => true) (QTranslate "flavio")) (xs1 ++ xs2) /\ spells three xs1 ["--out=out.json"] /\
  spells three xs2 ["--f"; "yaml"; "--output"; "out.yaml"] /\ ends_with_value xs1 /\ readable (Some "in.json") s /\ Forall plain ["flavio"; "in.json"] /\
  wcxf_argv stdin (fun _ => true) float_of_str main empty_list ["translate"; "--out=out.json"; "flavio"; "in.json"; "--f"; "yaml"; "--output"; "out.yaml"] s =
  main (PCmd (Translate "flavio" (SFile "in.json") (DFile "out.yaml") "yaml")) (St [("in.json", "x"); ("out.yaml", ""); ("out.json", "")] []).
Proof.
  intros stdin float_of_str main empty_list s xs1 xs2.
  assert (spells three xs1 ["--out=out.json"]) as S1.
  { apply (spells_cons three "--output" (Some "out.json") ["--out=out.json"] [] []); [|constructor].
    apply (sp_equals 3 "--output" "--out" "out.json"). split; [reflexivity|cbn; repeat constructor]. }
  assert (spells three xs2 ["--f"; "yaml"; "--output"; "out.yaml"]) as S2.
  { apply (spells_cons three "--format" (Some "yaml") ["--f"; "yaml"] _ ["--output"; "out.yaml"]).
    - constructor; [split; [reflexivity|cbn; repeat constructor]|cbn; discriminate].
    - apply (spells_cons three "--output" (Some "out.yaml") ["--output"; "out.yaml"] [] []); [|constructor].
      constructor; [split; [reflexivity|cbn; repeat constructor]|cbn; discriminate]. }
  assert (Forall (q_setting (fun _ => true) (QTranslate "flavio")) (xs1 ++ xs2)) as F.
  { constructor; [|constructor; [|constructor; [|constructor]]].
    - left. split; [reflexivity|]. split; [discriminate|right; reflexivity].
    - right. split; [reflexivity|discriminate].
    - left. split; [reflexivity|]. split; [discriminate|right; reflexivity]. }
  split; [exact F|]. split; [exact S1|]. split; [exact S2|]. split; [exact I|].
  split; [split; [cbn; discriminate|right; reflexivity]|]. split; [repeat constructor; cbn; discriminate|].
  exact (C71_accepted stdin (fun _ => true) float_of_str main empty_list (QTranslate "flavio") xs1 _ (Some "in.json") xs2 _ s
    ltac:(repeat constructor; cbn; discriminate) ltac:(split; [cbn; discriminate|right; reflexivity]) F S1 S2 I).
Qed.
(** The other command lines, by computation *)
Example C71_other_cases : forall stdin fs main empty_list,
  let wcxf := wcxf_argv stdin (fun _ => true) fs main empty_list in let s := St [("in", "x"); ("out", "old")] [] in
  (* FILE behind an option *)
  wcxf ["match"; "WET"; "JMS"; "--output"; "out"; "in"] s = (2%Z, St [("in", "x"); ("out", "")] [Usage]) /\
  (* the same words in another order *)
  wcxf ["match"; "--output"; "out"; "WET"; "JMS"; "in"] s = main (PCmd (Match "WET" "JMS" (SFile "in") (DFile "out") "json")) (St [("in", "x"); ("out", "")] []) /\
  (* the output takes the basis *)
  wcxf ["translate"; "--output"; "out"; "in"] s = main (PCmd (Translate "in" (SStdin stdin) (DFile "out") "json")) (St [("in", "x"); ("out", "")] []) /\
  (* a missing input file *)
  wcxf ["translate"; "--output"; "out"; "JMS"; "no"] s = (2%Z, St [("in", "x"); ("out", "")] [Usage]) /\
  (* help, an ambiguous and an unknown option, a missing and a superfluous word, "--" *)
  wcxf ["translate"; "--output"; "out"; "-h"] s = (0%Z, St [("in", "x"); ("out", "")] [Help]) /\
  wcxf ["translate"; "JMS"; "--"; "in"] s = main (PCmd (Translate "JMS" (SFile "in") DStdout "json")) s /\
  wcxf ["translate"; "JMS"; "--foo"] s = (2%Z, St (files s) [Usage]) /\
  wcxf ["translate"; "JMS"; "--=x"] s = (2%Z, St (files s) [Usage]) /\
  wcxf ["match"; "JMS"] s = (2%Z, St (files s) [Usage]) /\
  wcxf ["validate"; "wc"; "in"; "in"] s = (2%Z, St (files s) [Usage]) /\
  wcxf ["translate"; "-h="] s = (1%Z, St (files s) [Trace IndexError]) /\
  wcxf ["translate"; "JMS"; "in"; "--format=--"] s = empty_list ["translate"; "JMS"; "in"; "--format=--"] s /\
  wcxf ["show"] s = (2%Z, St (files s) [Usage]).
Proof. intros. repeat split; reflexivity. Qed.
Example C71_converter_cases : forall stdin main empty_list main' no_value,
  let fs := fun t => if String.eqb t "2e3" then Some 2000%R else None in
  let eos := eos_argv stdin (fun _ => true) fs main empty_list in let sim := smeftsim_argv stdin (fun _ => true) fs main' no_value in
  let s := St [("in", "x")] [] in
  eos ["--eosp"; "/opt"; "in"; "--o"; "out"] s = main (SFile "in") "/opt" (DFile "out") None (St [("in", "x"); ("out", "")] []) /\
  eos ["--eoshome=/h"] s = main (SStdin stdin) "/usr" DStdout (Some "/h") s /\
  eos ["--eos"; "/opt"; "in"] s = (2%Z, St (files s) [Usage]) /\
  sim ["--m"; "B"; "--cutoff=2e3"; "in"; "--input-scheme"; "mw"] s = main' "B" "mw" 2000%R (SFile "in") "wcxf2smeftsim_param_card.dat" s /\
  sim ["in"; "--model-set"; "C"] s = (2%Z, St (files s) [Usage]) /\
  sim ["in"; "--cutoff-scale"; "many"] s = (2%Z, St (files s) [Usage]) /\
  sim [] s = (2%Z, St (files s) [Usage]) /\
  sim ["--output"; "o"] (St [("{}", "y")] []) = main' "A" "alpha" 1000%R (SFile "{}") "o" (St [("{}", "y")] []) /\
  sim ["in"; "--output"] s = no_value ["in"; "--output"] s.
Proof. intros. repeat split; reflexivity. Qed.
(** The hypotheses of the theorems about single options *)
Example C71_setting_cases :
  eos_setting (fun _ => true) ("--eosprefix", Some "/opt") /\ abbr (eos_len "--eoshome") "--eoshome" "--eosh" /\ ~ abbr (eos_len "--eoshome") "--eoshome" "--eos" /\
  sim_setting (fun _ => Some 1%R) ("--model-set", Some "B") /\ ~ sim_setting (fun _ => Some 1%R) ("--model-set", Some "C") /\
  sim_setting (fun _ => Some 1%R) ("--cutoff-scale", Some "1") /\ abbr 3 "--model-set" "--m" /\
  named ["translate"; "--output=a"] "a" /\ touched (fun _ => true) (named ["a"]) (St [("a", "x"); ("b", "y")] []) (St [("a", ""); ("b", "y")] []) /\
  ~ touched (fun _ => true) (named ["a"]) (St [("a", "x"); ("b", "y")] []) (St [("a", "x"); ("b", "")] []).
Proof.
  split; [right; left; split; [reflexivity|discriminate]|]. split; [split; [reflexivity|cbn; repeat constructor]|].
  split; [intros [_ H]; cbn in H; repeat apply le_S_n in H; inversion H|].
  split; [right; right; right; split; [reflexivity|cbn; auto]|].
  split; [intros [[H _]|[[H _]|[[H _]|[_ H]]]]; try discriminate H; cbn in H; destruct H as [H|[H|[]]]; discriminate|].
  split; [right; right; left; split; [reflexivity|split; discriminate]|]. split; [split; [reflexivity|cbn; repeat constructor]|].
  split; [right; exists "--output"; right; left; reflexivity|]. split.
  - intros q. cbn [files dget]. destruct (keqb q "a") eqn:K; [right|left; reflexivity]. apply keqb_eq in K. subst. repeat split. left. left. reflexivity.
  - intros H. destruct (H "b") as [E|(_ & _ & [[E|[]]|(a & [E|[]])])]; cbn in E; try discriminate. destruct a as [|c [|]]; discriminate.
Qed.
(** A typed line with toy parsers and printers *)
Example C71_typed_case : exists tr jl,
  let wa := new_wc "E" "a" 5 [("x", DNum 1)] in let wb := new_wc "E" "b" 5 [("x", DNum (1 + 1))] in
  let s := St [("in", "a file")] [] in let fs := fun t => if String.eqb t "5" then Some 5%R else None in
  (forall d, toy_printable [wa; wb] d -> jl (toy_json d) = Ok d) /\ (forall d, toy_printable [wa; wb] d -> toy_yaml_load [wa; wb] (toy_yaml d) = Ok d) /\
  Tool.file_of fs jl (toy_yaml_load [wa; wb]) (content s "in") wa /\ Tool.call fs tr None (STranslate "b") wa = Ok wb /\ toy_printable [wa; wb] (DMap (entries wb)) /\
  Forall plain (q_words (asked (STranslate "b"))) /\ plain "in" /\ plain "out" /\ plain "YAML" /\ format_ok "YAML" /\ dmem (files s) "in" = true.
Proof.
  destruct C66_case as (tr & jl & _ & A & B & C & D & E & _). exists tr, jl. cbv zeta.
  split; [exact B|]. split; [exact C|]. split; [exact A|]. split; [exact D|]. split; [exact E|].
  split; [repeat constructor; cbn; exact I|]. split; [cbn; discriminate|]. split; [cbn; discriminate|]. split; [cbn; discriminate|].
  split; [right; reflexivity|reflexivity].
Qed.

Print Assumptions C71_accepted.
Print Assumptions C71_any.
Print Assumptions C71_unnamed_files.
Print Assumptions C71_unknown.
Print Assumptions C71_no_file.
Print Assumptions C71_rejected_refuted.
Print Assumptions C71_file_last_refuted.
Print Assumptions C71_bare_output_refuted.
Print Assumptions C71_nothing.
Print Assumptions C71_eos.
Print Assumptions C71_eos_any.
Print Assumptions C71_smeftsim.
Print Assumptions C71_smeftsim_any.
Print Assumptions C71_smeftsim_no_file.
Print Assumptions C71_smeftsim_braces_refuted.
Print Assumptions C71_typed.
Print Assumptions C71_typed_line.
