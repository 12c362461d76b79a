(** C71, continued: words that start with "-" and are neither options nor values, and the ways to ask for help. *)
From Coq Require Import String Ascii List Bool Arith ZArith Reals Lra Lia.
From Verif Require Import PyBase PyDict Dump Cli Args ArgsFacts ArgsForms ArgsThm P_Args.
Import ListNotations.
Open Scope string_scope.
Open Scope list_scope.
Open Scope nat_scope.

Lemma without_space w : without " " w -> has_space w = false.
Proof. induction w as [|c w IH]; cbn [without has_space]; [reflexivity|]. intros [A B]. destruct (Ascii.eqb_spec c " "); [contradiction|]. apply IH, B. Qed.
Lemma dashed_unknown p c t s : usual p -> c <> "-"%char -> c <> "h"%char -> without " " (String c t) -> ~ minus (String "-" (String c t)) ->
  classify p (String "-" (String c t)) s = (Ret (CO OUnknown), s).
Proof.
  intros U A B W M. rewrite dashed_classify by assumption. destruct (negative_number _) eqn:N; [apply minus_iff in N; contradiction|].
  assert (has_space (String "-" (String c t)) = false) as ->; [|reflexivity]. apply without_space. split; [discriminate|exact W].
Qed.
Definition asks (h : string) : Prop := abbr 3 "--help" h \/ h = "-h".
Lemma abbr_help p h : In p [main_parser; Parser (pos p) [output]; Parser (pos p) [output; format]; Parser (pos p) []] -> asks h ->
  exists b, forall s, classify p h s = (Ret (CO (OHelp b None)), s).
Proof.
  intros P [A|E].
  - exists true. intros s. apply (abbr_cases 3 "--help" h (fun h => classify p h s = (Ret (CO (OHelp true None)), s)) A).
    destruct P as [<-|[<-|[<-|[<-|[]]]]]; repeat constructor.
  - exists false. intros s. subst. reflexivity.
Qed.
Lemma abbr_help_value p h x s : In p [main_parser; Parser (pos p) [output]; Parser (pos p) [output; format]; Parser (pos p) []] -> abbr 3 "--help" h ->
  classify p (h ++ "=" ++ x)%string s = (Ret (CO (OHelp true (Some x))), s).
Proof.
  intros P A. apply (abbr_cases 3 "--help" h (fun h => classify p (h ++ "=" ++ x)%string s = (Ret (CO (OHelp true (Some x))), s)) A).
  destruct P as [<-|[<-|[<-|[<-|[]]]]]; repeat constructor.
Qed.
Lemma asks_dashes h : asks h -> String.eqb h "--" = false.
Proof. intros [A| ->]; [|reflexivity]. apply (abbr_cases 3 "--help" h (fun h => String.eqb h "--" = false) A). repeat constructor. Qed.
Lemma q_shape stdin q : In (q_parser stdin q) [main_parser; Parser (pos (q_parser stdin q)) [output]; Parser (pos (q_parser stdin q)) [output; format]; Parser (pos (q_parser stdin q)) []].
Proof. destruct q; cbn; auto. Qed.

Section Words.
Variable stdin : string.
Variable creatable : string -> bool.
Variable float_of_str : string -> option R.
Variable main : parsed -> st -> Z * st.
Variable empty_list : list string -> st -> Z * st.
Notation wcxf := (wcxf_argv stdin creatable float_of_str main empty_list).
Notation run_sub := (run_sub stdin creatable float_of_str).

(** What an option that stops the run does when it comes first *)
Lemma sub_stop q w o l s n s' : String.eqb w "--" = false -> (forall t, classify (q_parser stdin q) w t = (Ret (CO o), t)) -> Forall plain l ->
  (forall r g, take_opt stdin creatable float_of_str w o r g s = (Stop n, s')) -> wcxf (q_name q :: w :: l) s = (n, s').
Proof.
  intros D C F T. unfold wcxf_argv, Args.parse_args, pbind. rewrite main_known by apply q_name_plain. cbn [Args.run_sub]. rewrite q_sub. unfold pbind.
  assert (reads (q_parser stdin q) (w :: l) ((w, CO o) :: map (fun w => (w, CA)) l)) as R.
  { apply reads_cons; auto. rewrite <- (app_nil_r l) at 1. rewrite <- (app_nil_r (map _ l)). apply reads_plains; auto; [apply q_usual|]. intros t. reflexivity. }
  rewrite (known_run _ _ _ no_sub _ _ _ s R). unfold pbind. rewrite run_opt. unfold pbind. rewrite T. reflexivity.
Qed.
Lemma main_stop w o l s n s' : String.eqb w "--" = false -> (forall t, classify main_parser w t = (Ret (CO o), t)) ->
  (forall r g, take_opt stdin creatable float_of_str w o r g s = (Stop n, s')) -> wcxf (w :: l) s = (n, s').
Proof.
  intros D C T. unfold wcxf_argv, Args.parse_args, pbind. destruct (tokens_main l) as (t & R & M).
  assert (reads main_parser (w :: l) ((w, CO o) :: t)) as R' by (apply reads_cons; auto).
  rewrite (known_run _ _ _ run_sub _ _ _ s R'). unfold pbind. rewrite run_opt. unfold pbind. rewrite T. reflexivity.
Qed.
(** "-h", "--help" and its abbreviations print the help text, before any other word is looked at. *)
Theorem C71_help : forall h l s, asks h -> wcxf (h :: l) s = (0%Z, snd (say Help s)).
Proof.
  intros h l s A. destruct (abbr_help main_parser h (or_introl eq_refl) A) as (b & C).
  apply (main_stop h (OHelp b None) l s); [apply asks_dashes, A|exact C|]. intros r g. destruct b; reflexivity.
Qed.
Theorem C71_command_help : forall q h l s, asks h -> Forall plain l -> wcxf (q_name q :: h :: l) s = (0%Z, snd (say Help s)).
Proof.
  intros q h l s A F. destruct (abbr_help (q_parser stdin q) h (q_shape stdin q) A) as (b & C).
  apply (sub_stop q h (OHelp b None) l s); [apply asks_dashes, A|exact C|exact F|]. intros r g. destruct b; reflexivity.
Qed.
(** They take no value. *)
Lemma help_value_dashes h x : abbr 3 "--help" h -> String.eqb (h ++ "=" ++ x) "--" = false.
Proof. intros A. apply (abbr_cases 3 "--help" h (fun h => String.eqb (h ++ "=" ++ x) "--" = false) A). repeat constructor. Qed.
Theorem C71_help_value : forall h x l s, abbr 3 "--help" h -> wcxf ((h ++ "=" ++ x)%string :: l) s = (2%Z, snd (say Usage s)).
Proof.
  intros h x l s A. apply (main_stop _ (OHelp true (Some x)) l s); [apply help_value_dashes, A| |reflexivity].
  intros t. apply abbr_help_value; [left; reflexivity|exact A].
Qed.
Theorem C71_command_help_value : forall q h x l s, abbr 3 "--help" h -> Forall plain l -> wcxf (q_name q :: (h ++ "=" ++ x)%string :: l) s = (2%Z, snd (say Usage s)).
Proof.
  intros q h x l s A F. apply (sub_stop q _ (OHelp true (Some x)) l s); [apply help_value_dashes, A| |exact F|reflexivity].
  intros t. apply abbr_help_value; [apply q_shape|exact A].
Qed.
(** A word "-x..." that is not a number and has no space is never read as a FILE, even if there is a file of this name. *)
Theorem C71_dashed : forall q c t s, Forall plain (q_words q) -> c <> "-"%char -> c <> "h"%char -> without " " (String c t) -> ~ minus (String "-" (String c t)) ->
  wcxf (q_name q :: q_words q ++ [String "-" (String c t)]) s = (2%Z, snd (say Usage s)).
Proof.
  intros q c t s W A B Sp M. unfold wcxf_argv, Args.parse_args, pbind. rewrite main_known by apply q_name_plain. cbn [Args.run_sub]. rewrite q_sub. unfold pbind.
  set (w := String "-" (String c t)) in *.
  assert (String.eqb w "--" = false) as D. { apply String.eqb_neq. intros E. apply A. unfold w in E. congruence. }
  assert (reads (q_parser stdin q) (q_words q ++ [w]) (map (fun w => (w, CA)) (q_words q) ++ [(w, CO OUnknown)])) as R.
  { apply reads_plains; [apply q_usual|exact W|]. apply reads_cons; [exact D|intros u; apply dashed_unknown; auto; apply q_usual|intros u; reflexivity]. }
  rewrite (known_run _ _ _ no_sub _ _ _ s R). unfold pbind.
  destruct (q_words q) as [|w0 ws] eqn:Eq; [destruct q; discriminate|]. cbn [map app].
  assert (consume (pos (q_parser stdin q)) ((w0, CA) :: map (fun w => (w, CA)) ws ++ [(w, CO OUnknown)]) = (q_taken stdin q None, [(w, CO OUnknown)], [])) as C.
  { pose proof (q_takes stdin q None [(w, CO OUnknown)]) as T. cbn [file_words] in T. rewrite app_nil_r, Eq in T. apply T; try (intros; discriminate); exact I. }
  assert (existsb is_opt (map (fun w => (w, CA)) ws ++ [(w, CO OUnknown)]) = true) as X by (rewrite existsb_app; cbn; apply orb_true_r).
  assert (length [(w, CO OUnknown)] <= length (map (fun w => (w, CA)) ws ++ [(w, CO OUnknown)])) as Le by (rewrite app_length; cbn; lia).
  rewrite (run_pos _ _ _ no_sub w0 _ _ _ s _ _ X C Le). unfold pbind.
  rewrite q_take_all by (rewrite ?Eq; auto; exact I). rewrite run_opt. unfold pbind. cbn [take_opt ret fst snd].
  destruct q; reflexivity.
Qed.
End Words.

(** Which words are values, numbers and neither *)
Example C71_words_case : forall stdin main empty_list,
  let wcxf := wcxf_argv stdin (fun _ => true) (fun _ => None) main empty_list in let s := St [("-5", "x"); ("-1.", "y"); ("-my file", "z")] [] in
  plain "-5" /\ plain "-1.5" /\ plain "-.5" /\ plain "-my file" /\ ~ plain "-h x" /\ ~ minus "-1." /\ ~ minus "-1e3" /\ ~ plain "-x" /\ asks "--h" /\ asks "-h" /\ ~ asks "--" /\
  wcxf ["translate"; "JMS"; "-5"] s = main (PCmd (Translate "JMS" (SFile "-5") DStdout "json")) s /\
  wcxf ["translate"; "JMS"; "-my file"] s = main (PCmd (Translate "JMS" (SFile "-my file") DStdout "json")) s /\
  wcxf ["translate"; "JMS"; "-1."] s = (2%Z, St (files s) [Usage]) /\ wcxf ["match"; "--he"] s = (0%Z, St (files s) [Help]) /\ wcxf ["match"; "--he=p"] s = (2%Z, St (files s) [Usage]).
Proof.
  intros stdin main empty_list wcxf s.
  assert (forall w, negative_number w = false -> ~ minus w) as M by (intros w E H; apply minus_iff in H; congruence).
  assert (plain "-5") as P5 by (intros _; left; apply minus_iff; reflexivity).
  assert (plain "-my file") as Pm by (intros _; right; split; [exists "-my", "file"; repeat split; discriminate|reflexivity]).
  assert (~ asks "--") as NA by (intros [[_ L]|E]; [cbn in L; lia|discriminate]).
  assert (~ plain "-x") as Px.
  { intros H. destruct (H eq_refl) as [N|[(a & b & E & _) _]]; [exact (M "-x" eq_refl N)|]. pose proof (has_space_app a b) as Sp. rewrite <- E in Sp. discriminate. }
  assert (~ plain "-h x") as Ph by (intros H; destruct (H eq_refl) as [N|[_ N]]; [exact (M "-h x" eq_refl N)|discriminate]).
  repeat split; auto; try (apply M; reflexivity); try (intros _; left; apply minus_iff; reflexivity); try (left; split; [reflexivity|cbn; lia]); right; reflexivity.
Qed.

Print Assumptions C71_help.
Print Assumptions C71_command_help.
Print Assumptions C71_help_value.
Print Assumptions C71_command_help_value.
Print Assumptions C71_dashed.
