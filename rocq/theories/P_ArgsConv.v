(** C71, continued: asking wcxf2eos and wcxf2smeftsim for help, and words they do not know. *)
From Coq Require Import String Ascii List Bool Arith ZArith Reals Lra Lia.
From Verif Require Import PyBase PyDict Dump Cli Args ArgsFacts ArgsForms ArgsThm P_Args P_ArgsWords.
Import ListNotations.
Open Scope string_scope.
Open Scope list_scope.
Open Scope nat_scope.

Section Conv.
Variable stdin : string.
Variable creatable : string -> bool.
Variable float_of_str : string -> option R.
Variable eos_main : source -> string -> dest -> option string -> st -> Z * st.
Variable empty_list : list string -> st -> Z * st.
Variable sim_main : string -> string -> R -> source -> string -> st -> Z * st.
Variable no_value : list string -> st -> Z * st.
Notation eos := (eos_argv stdin creatable float_of_str eos_main empty_list).
Notation smeftsim := (smeftsim_argv stdin creatable float_of_str sim_main no_value).
Notation parse := (parse_args stdin creatable float_of_str).
Lemma conv_usual p : p = eos_parser stdin \/ p = smeftsim_parser -> usual p.
Proof. intros [->| ->]; reflexivity. Qed.
Lemma conv_help p h : p = eos_parser stdin \/ p = smeftsim_parser -> asks h -> exists b, forall s, classify p h s = (Ret (CO (OHelp b None)), s).
Proof.
  intros P [A|E].
  - exists true. intros s. apply (abbr_cases 3 "--help" h (fun h => classify p h s = (Ret (CO (OHelp true None)), s)) A). destruct P as [->| ->]; repeat constructor.
  - exists false. intros s. subst h. destruct P as [->| ->]; reflexivity.
Qed.
Lemma conv_help_value p h x s : p = eos_parser stdin \/ p = smeftsim_parser -> abbr 3 "--help" h -> classify p (h ++ "=" ++ x)%string s = (Ret (CO (OHelp true (Some x))), s).
Proof.
  intros P A. apply (abbr_cases 3 "--help" h (fun h => classify p (h ++ "=" ++ x)%string s = (Ret (CO (OHelp true (Some x))), s)) A). destruct P as [->| ->]; repeat constructor.
Qed.
Lemma conv_stop p w o l s n s' : p = eos_parser stdin \/ p = smeftsim_parser -> String.eqb w "--" = false -> (forall t, classify p w t = (Ret (CO o), t)) -> Forall plain l ->
  (forall r g, take_opt stdin creatable float_of_str w o r g s = (Stop n, s')) -> parse p no_sub (w :: l) s = (Stop n, s').
Proof.
  intros P D C F T. unfold Args.parse_args, pbind.
  assert (reads p (w :: l) ((w, CO o) :: map (fun w => (w, CA)) l)) as R.
  { apply reads_cons; auto. rewrite <- (app_nil_r l) at 1. rewrite <- (app_nil_r (map _ l)). apply reads_plains; auto; [apply conv_usual, P|]. intros t. reflexivity. }
  rewrite (known_run _ _ _ no_sub _ _ _ s R). unfold pbind. rewrite run_opt. unfold pbind. rewrite T. reflexivity.
Qed.
(** "-h", "--help" and its abbreviations: the help text and status 0, no file is opened; with a value: status 2. *)
Theorem C71_eos_help : forall h l s, asks h -> Forall plain l -> eos (h :: l) s = (0%Z, snd (say Help s)).
Proof.
  intros h l s A F. destruct (conv_help _ h (or_introl eq_refl) A) as (b & C). unfold eos_argv.
  rewrite (conv_stop _ h (OHelp b None) l s 0%Z (snd (say Help s)) (or_introl eq_refl)); [reflexivity|apply asks_dashes, A|exact C|exact F|]. intros r g. destruct b; reflexivity.
Qed.
Theorem C71_smeftsim_help : forall h l s, asks h -> Forall plain l -> smeftsim (h :: l) s = (0%Z, snd (say Help s)).
Proof.
  intros h l s A F. destruct (conv_help _ h (or_intror eq_refl) A) as (b & C). unfold smeftsim_argv.
  rewrite (conv_stop _ h (OHelp b None) l s 0%Z (snd (say Help s)) (or_intror eq_refl)); [reflexivity|apply asks_dashes, A|exact C|exact F|]. intros r g. destruct b; reflexivity.
Qed.
Theorem C71_converter_help_value : forall h x l s, abbr 3 "--help" h -> Forall plain l ->
  eos ((h ++ "=" ++ x)%string :: l) s = (2%Z, snd (say Usage s)) /\ smeftsim ((h ++ "=" ++ x)%string :: l) s = (2%Z, snd (say Usage s)).
Proof.
  intros h x l s A F. split; [unfold eos_argv|unfold smeftsim_argv].
  - rewrite (conv_stop _ _ (OHelp true (Some x)) l s 2%Z (snd (say Usage s)) (or_introl eq_refl)); [reflexivity|apply help_value_dashes, A| |exact F|reflexivity]. intros t. apply conv_help_value; auto.
  - rewrite (conv_stop _ _ (OHelp true (Some x)) l s 2%Z (snd (say Usage s)) (or_intror eq_refl)); [reflexivity|apply help_value_dashes, A| |exact F|reflexivity]. intros t. apply conv_help_value; auto.
Qed.
(** A word "-x..." that is not a number and has no space is rejected, even if there is a file of this name. *)
Lemma conv_dashed p c t s : p = eos_parser stdin \/ p = smeftsim_parser -> c <> "-"%char -> c <> "h"%char -> without " " (String c t) -> ~ minus (String "-" (String c t)) ->
  parse p no_sub [String "-" (String c t)] s = (Stop 2%Z, snd (say Usage s)).
Proof.
  intros P A B Sp M. unfold Args.parse_args, pbind. set (w := String "-" (String c t)) in *.
  assert (String.eqb w "--" = false) as D. { apply String.eqb_neq. intros E. apply A. unfold w in E. congruence. }
  assert (reads p [w] [(w, CO OUnknown)]) as R.
  { apply reads_cons; [exact D|intros u; apply dashed_unknown; auto; apply conv_usual, P|intros u; reflexivity]. }
  rewrite (known_run _ _ _ no_sub _ _ _ s R). unfold pbind. rewrite run_opt. unfold pbind. cbn [take_opt ret fst snd].
  destruct P as [->| ->]; [reflexivity|].
  cbn. unfold open_in, pbind. cbn. destruct (dmem (files s) "{}"); reflexivity.
Qed.
Theorem C71_converter_dashed : forall c t s, c <> "-"%char -> c <> "h"%char -> without " " (String c t) -> ~ minus (String "-" (String c t)) ->
  eos [String "-" (String c t)] s = (2%Z, snd (say Usage s)) /\ smeftsim [String "-" (String c t)] s = (2%Z, snd (say Usage s)).
Proof.
  intros c t s A B Sp M. split; [unfold eos_argv|unfold smeftsim_argv]; rewrite conv_dashed by auto; reflexivity.
Qed.
End Conv.
Example C71_converter_words_case : asks "--hel" /\ abbr 3 "--help" "--hel" /\ Forall plain ["in.json"; "-5"] /\ without " " "output" /\ ~ minus "-output" /\
  forall stdin main empty_list,
  eos_argv stdin (fun _ => true) (fun _ => None) main empty_list ["--hel"; "in.json"] (St [] []) = (0%Z, St [] [Help]) /\
  eos_argv stdin (fun _ => true) (fun _ => None) main empty_list ["-output"] (St [("-output", "x")] []) = (2%Z, St [("-output", "x")] [Usage]).
Proof.
  assert (abbr 3 "--help" "--hel") as A by (split; [reflexivity|cbn; lia]).
  split; [left; exact A|]. split; [exact A|]. split; [apply Forall_cons; [intros [=]|apply Forall_cons; [intros _; left; apply minus_iff; reflexivity|constructor]]|].
  split; [repeat split; discriminate|]. split; [intros H; apply minus_iff in H; discriminate|]. intros; split; reflexivity.
Qed.
Print Assumptions C71_eos_help.
Print Assumptions C71_smeftsim_help.
Print Assumptions C71_converter_help_value.
Print Assumptions C71_converter_dashed.
