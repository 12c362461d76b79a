(** Command lines of the three console scripts: what is accepted and how it is read. *)
From Coq Require Import String Ascii List Bool Arith ZArith Reals Lia.
From Verif Require Import PyBase PyDict Dump Cli Args ArgsFacts ArgsForms.
Import ListNotations.
Open Scope string_scope.
Open Scope list_scope.
Open Scope nat_scope.

(** [f] is [flag] or an abbreviation of at least [n] characters. *)
Definition abbr (n : nat) (flag f : string) : Prop := String.prefix f flag = true /\ n <= String.length f.
Fixpoint prefixes (s : string) : list string :=
  "" :: match s with EmptyString => [] | String c t => map (String c) (prefixes t) end.
Lemma prefix_In f : forall s, String.prefix f s = true -> In f (prefixes s).
Proof.
  induction f as [|c f IH]; intros [|d s] H; cbn [String.prefix prefixes] in *; try discriminate; try (left; reflexivity).
  destruct (Ascii.ascii_dec c d) as [->|]; [|discriminate]. right. apply in_map. apply IH; auto.
Qed.
Lemma abbr_cases n flag f (Q : string -> Prop) : abbr n flag f ->
  Forall Q (filter (fun f => n <=? String.length f) (prefixes flag)) -> Q f.
Proof.
  intros [H L] F. rewrite Forall_forall in F. apply F, filter_In. split; [apply prefix_In; auto|]. apply Nat.leb_le; auto.
Qed.
(** An option spelled with the words [ws], with the value [v] or without one. *)
Inductive spelled (n : nat) (flag : string) : option string -> list string -> Prop :=
| sp_spaced f v : abbr n flag f -> plain v -> spelled n flag (Some v) [f; v]
| sp_equals f v : abbr n flag f -> spelled n flag (Some v) [(f ++ "=" ++ v)%string]
| sp_bare f : abbr n flag f -> spelled n flag None [f].
Definition dest_named (v : string) : dest := if String.eqb v "-" then DStdout else DFile v.
Definition source_named (stdin : string) (f : option string) : source :=
  match f with Some v => if String.eqb v "-" then SStdin stdin else SFile v | None => SStdin stdin end.
Definition file_words (f : option string) : list string := match f with Some v => [v] | None => [] end.

Section Thm.
Variable stdin : string.
Variable creatable : string -> bool.
Variable float_of_str : string -> option R.
Notation opt_value := (opt_value stdin creatable float_of_str).
Notation take_all := (take_all stdin creatable float_of_str).
Notation parse_known := (parse_known stdin creatable float_of_str).
Notation parse_args := (parse_args stdin creatable float_of_str).
Notation run_sub := (run_sub stdin creatable float_of_str).
Notation set_opts := (set_opts stdin creatable float_of_str).

Definition readable (f : option string) (s : st) : Prop :=
  match f with Some v => plain v /\ (v = "-" \/ dmem (files s) v = true) | None => True end.
Lemma prefixed_dashes c1 c2 c3 t : String.eqb (String c1 (String c2 (String c3 t))) "--" = false.
Proof. apply String.eqb_neq. discriminate. Qed.
Lemma spelled_block p n flag a v ws : (forall f, abbr n flag f -> names p f a) -> (v = None -> many a = true) ->
  spelled n flag v ws -> exists b, ws = words b /\ is_block p (b, a) /\ given b = file_words v /\ (match b with Bare _ => v = None | _ => v <> None end).
Proof.
  intros N M S. destruct S as [f x A Pl|f x A|f A].
  - exists (Spaced f x). cbn. repeat split; auto; try (apply N; auto). discriminate.
  - exists (Equals f x). cbn. repeat split; auto; try (apply N; auto). discriminate.
  - exists (Bare f). cbn. repeat split; auto; apply N; auto.
Qed.

(** ** Evaluation of one option *)
Definition value_of (a : arg) (v : option string) : option value :=
  match v with
  | None => Some VNone
  | Some x => match type a with
              | KStr => Some (VStr x)
              | KOut => if String.eqb x "-" then Some (VOut DStdout) else if creatable x then Some (VOut (DFile x)) else None
              | KFloat => option_map VNum (float_of_str x)
              | KChoice l => if existsb (String.eqb x) l then Some (VStr x) else None
              | KIn => None
              end
  end.
Definition effect (a : arg) (v : option string) (s : st) : st :=
  match v, type a with Some x, KOut => truncate (dest_named x) s | _, _ => s end.
Lemma opt_value_eval a v x s : v <> Some "--" -> (v = None -> many a = true) -> value_of a v = Some x ->
  opt_value a (file_words v) s = (Ret x, effect a v s).
Proof.
  intros D M V. unfold Args.opt_value, effect, value_of in *. destruct v as [w|].
  - cbn [file_words strip]. destruct (String.eqb_spec w "--"); [congruence|]. unfold convert, open_out, dest_named, ret.
    destruct (type a); try discriminate.
    + injection V as <-. reflexivity.
    + destruct (String.eqb w "-"); [injection V as <-; reflexivity|]. destruct (creatable w); [injection V as <-; reflexivity|discriminate].
    + destruct (float_of_str w); [injection V as <-; reflexivity|discriminate].
    + destruct (existsb _ l); [injection V as <-; reflexivity|discriminate].
  - cbn [file_words strip]. rewrite (M eq_refl). injection V as <-. reflexivity.
Qed.

(** ** A parser whose options have abbreviations *)
(** A setting: the option and its value. *)
Definition setting : Type := string * option string.
Section Options.
Variable p : parser.
Variable len : string -> nat.
Hypothesis Names : forall flag a f, dget (flags p) flag = Some a -> abbr (len flag) flag f -> names p f a.
Inductive spells : list setting -> list string -> Prop :=
| spells_nil : spells [] []
| spells_cons flag v ws xs l : spelled (len flag) flag v ws -> spells xs l -> spells ((flag, v) :: xs) (ws ++ l).
(** The option exists, accepts the value, and may be without value if it is. *)
Definition acceptable (x : setting) : Prop :=
  exists a, dget (flags p) (fst x) = Some a /\ snd x <> Some "--" /\ (snd x = None -> many a = true) /\ value_of a (snd x) <> None.
Definition ends_with_value (xs : list setting) : Prop := match rev xs with (_, None) :: _ => False | _ => True end.
Definition apply1 (g : got) (x : setting) : got :=
  match dget (flags p) (fst x) with
  | Some a => match value_of a (snd x) with Some v => put_value a v g | None => g end
  | None => g
  end.
Definition effect1 (s : st) (x : setting) : st := match dget (flags p) (fst x) with Some a => effect a (snd x) s | None => s end.
Lemma spells_blocks xs l : spells xs l -> Forall acceptable xs ->
  exists bs, l = flat_map words (map fst bs) /\ Forall (is_block p) bs /\ (ends_with_value xs -> closed (map fst bs)) /\ (xs <> [] -> bs <> []) /\
    forall g s, set_opts bs g s = (Ret (fold_left apply1 xs g), fold_left effect1 xs s).
Proof.
  intros S F.
  assert (exists bs, l = flat_map words (map fst bs) /\ Forall (is_block p) bs /\
    Forall2 (fun (x : setting) (b : block) => match b with Bare _ => snd x = None | _ => snd x <> None end) xs (map fst bs) /\
    forall g s, set_opts bs g s = (Ret (fold_left apply1 xs g), fold_left effect1 xs s)) as (bs & -> & B & F2 & E).
  { induction S as [|flag v ws xs l Sp S IH].
    - exists []. split; [reflexivity|]. split; [constructor|]. split; [constructor|]. reflexivity.
    - inversion F as [|? ? A F']; subst. destruct (IH F') as (bs & -> & B & F2 & E).
      destruct A as (a & A1 & A2 & A3 & A4). cbn [fst snd] in *.
      destruct (spelled_block p (len flag) flag a v ws) as (b & -> & B1 & G & K); eauto.
      exists ((b, a) :: bs). cbn [map flat_map fst]. split; auto. split; auto. split; [constructor; auto|].
      intros g s. cbn [set_opts fold_left fst snd]. unfold apply1 at 2, effect1 at 2. cbn [fst snd]. rewrite A1.
      destruct (value_of a v) as [x|] eqn:V; [|congruence]. unfold pbind. rewrite G, (opt_value_eval a v x) by auto. apply E. }
  exists bs. split; auto. split; auto. split; [|split; auto].
  - unfold ends_with_value, closed. intros H.
    assert (forall (u : list setting) (v : list block), Forall2 (fun (x : setting) (b : block) => match b with Bare _ => snd x = None | _ => snd x <> None end) u v ->
      Forall2 (fun (x : setting) (b : block) => match b with Bare _ => snd x = None | _ => snd x <> None end) (rev u) (rev v)) as R.
    { intros u v Z. induction Z; cbn [rev]; auto. apply Forall2_app; auto. }
    specialize (R _ _ F2). destruct R as [|[k v] b u w R1 R2]; auto. destruct b; auto. cbn in R1. subst v. exact H.
  - intros N ->. cbn in F2. inversion F2. congruence.
Qed.
End Options.

(** ** Reading the settings *)
Definition out_after (d : dest) (x : setting) : dest :=
  if String.eqb (fst x) "--output" then match snd x with Some v => dest_named v | None => DNone end else d.
Definition text_after (flag : string) (t : string) (x : setting) : string :=
  if String.eqb (fst x) flag then match snd x with Some v => v | None => t end else t.
(** The output files are opened, and thereby emptied, one after the other. *)
Definition opened (s : st) (x : setting) : st :=
  if String.eqb (fst x) "--output" then match snd x with Some v => truncate (dest_named v) s | None => s end else s.
Definition writable (v : string) : Prop := v = "-" \/ creatable v = true.
Definition ok_output (x : setting) : Prop :=
  fst x = "--output" /\ match snd x with Some v => v <> "--" /\ writable v | None => True end.
Definition ok_text (flag : string) (x : setting) : Prop :=
  fst x = flag /\ match snd x with Some v => v <> "--" | None => False end.

Lemma value_out v : match v with Some v => v <> "--" /\ writable v | None => True end ->
  v <> Some "--" /\ value_of (snd output) v = Some (match v with Some x => VOut (dest_named x) | None => VNone end).
Proof.
  destruct v as [v|]; cbn; [|split; [discriminate|reflexivity]]. intros [N W]. split; [congruence|]. unfold dest_named.
  destruct (String.eqb_spec v "-"); [reflexivity|]. destruct W as [->|W]; [congruence|]. rewrite W. reflexivity.
Qed.
Lemma readable_truncate f d s : readable f s -> readable f (truncate d s).
Proof.
  destruct f as [v|]; auto. intros [P [->|D]]; split; auto. right. destruct d as [|q|]; auto. cbn [truncate files].
  unfold dmem in *. rewrite dget_dset. destruct (keqb q v); auto.
Qed.
Lemma readable_opened f xs : forall s, readable f s -> readable f (fold_left opened xs s).
Proof.
  induction xs as [|[k v] xs IH]; intros s H; cbn [fold_left]; auto. apply IH. unfold opened. cbn [fst snd].
  destruct (String.eqb k "--output"); auto. destruct v; auto. apply readable_truncate; auto.
Qed.
Lemma pos_text n w s : plain w -> pos_value stdin creatable float_of_str (Arg n false KStr VNone) [w] s = (Ret (VStr w), s).
Proof. intros H. unfold pos_value. cbn [strip]. rewrite (plain_dashes w H). reflexivity. Qed.
Lemma pos_file f s : readable f s ->
  pos_value stdin creatable float_of_str (Arg "FILE" true KIn (VIn (SStdin stdin))) (file_words f) s = (Ret (VIn (source_named stdin f)), s).
Proof.
  destruct f as [v|]; cbn [readable file_words]; [|reflexivity]. intros [Pl H]. unfold pos_value. cbn [strip].
  rewrite (plain_dashes v Pl). cbn [type convert]. unfold open_in, source_named. destruct (String.eqb_spec v "-"); [reflexivity|].
  destruct H as [->|H]; [congruence|]. rewrite H. reflexivity.
Qed.
Lemma take_nil l : no_word l -> (forall w t, l <> (w, CDash) :: t) -> take (FILE stdin) l = Some ([], l).
Proof. intros N D. unfold take. destruct l as [|[w [| |o]] t]; try contradiction; [reflexivity|exfalso; eapply D; eauto|reflexivity]. Qed.
Lemma span_dash l : (forall w t, l <> (w, CDash) :: t) -> span is_dash l = ([], l).
Proof. intros D. destruct l as [|[w [| |o]] t]; try reflexivity. exfalso. eapply D; eauto. Qed.
Lemma take_word a w l : (forall v t, l <> (v, CDash) :: t) -> take (PArg a) ((w, CA) :: l) = Some ([(w, CA)], l).
Proof. intros D. unfold take. cbn [span is_dash snd]. rewrite span_dash by auto. reflexivity. Qed.

(** ** wcxf *)
Inductive request := QConvert (fmt : string) | QTranslate (basis : string) | QMatch (eft basis : string) | QValidate (type : string).
Definition q_name (q : request) : string :=
  match q with QConvert _ => "convert" | QTranslate _ => "translate" | QMatch _ _ => "match" | QValidate _ => "validate" end.
Definition q_words (q : request) : list string :=
  match q with QConvert x | QTranslate x | QValidate x => [x] | QMatch e b => [e; b] end.
Definition q_cmd (q : request) (f : source) (o : dest) (fmt : string) : cmd :=
  match q with
  | QConvert x => Convert x f o
  | QTranslate b => Translate b f o fmt
  | QMatch e b => Match e b f o fmt
  | QValidate t => Validate t f
  end.
(** The options of the sub-commands *)
Definition q_setting (q : request) (x : setting) : Prop :=
  match q with
  | QConvert _ => ok_output x
  | QTranslate _ | QMatch _ _ => ok_output x \/ ok_text "--format" x
  | QValidate _ => False
  end.
Definition q_pos (q : request) : list posarg :=
  match q with
  | QConvert _ => [one "FORMAT"; FILE stdin]
  | QTranslate _ => [one "BASIS"; FILE stdin]
  | QMatch _ _ => [one "EFT"; one "BASIS"; FILE stdin]
  | QValidate _ => [one "TYPE"; FILE stdin]
  end.
Definition q_flags (q : request) : list (string * arg) :=
  match q with QConvert _ => [output] | QTranslate _ | QMatch _ _ => [output; format] | QValidate _ => [] end.
Definition q_parser (q : request) : parser := Parser (q_pos q) (q_flags q).
Lemma q_sub q : sub_parser stdin (q_name q) = Some (q_parser q).
Proof. destruct q; reflexivity. Qed.
Definition three (flag : string) : nat := 3.
Ltac named_all := repeat (constructor; [split; [reflexivity|split; [reflexivity|intros v; split; [apply prefixed_dashes|reflexivity]]]|]); constructor.
Lemma q_names q flag a f : dget (flags (q_parser q)) flag = Some a -> abbr (three flag) flag f -> names (q_parser q) f a.
Proof.
  intros D A. assert (In (flag, a) (flags (q_parser q))) as I by (eapply dget_In; eauto).
  destruct q; cbn in I; repeat (destruct I as [I|I]; [injection I as <- <-; refine (abbr_cases _ _ _ (fun f => names _ f _) A _); cbn; named_all|]); destruct I.
Qed.

Lemma q_output q x : q_setting q x -> fst x = "--output" -> dget (flags (q_parser q)) (fst x) = Some (snd output).
Proof. intros H E. rewrite E. destruct q; cbn in *; try reflexivity. destruct H. Qed.
Lemma q_format q x : q_setting q x -> fst x = "--format" -> dget (flags (q_parser q)) (fst x) = Some (snd format).
Proof.
  intros H E. rewrite E. destruct q; cbn in *; try reflexivity; [|destruct H]. unfold ok_output in H. destruct H as [H _]. congruence.
Qed.
Lemma q_cases q x : q_setting q x -> ok_output x \/ ok_text "--format" x.
Proof. destruct q; cbn; tauto. Qed.
Lemma q_acceptable q x : q_setting q x -> acceptable (q_parser q) x.
Proof.
  intros H. destruct (q_cases q x H) as [[E V]|[E V]].
  - exists (snd output). split; [apply q_output; auto|]. destruct (value_out _ V) as [V1 V2]. split; auto. split; [reflexivity|].
    rewrite V2. discriminate.
  - exists (snd format). split; [apply q_format; auto|]. destruct (snd x) as [v|]; [|destruct V].
    split; [congruence|]. split; discriminate.
Qed.
Lemma q_effect q x s : q_setting q x -> effect1 (q_parser q) s x = opened s x.
Proof.
  intros H. unfold effect1, opened. destruct (q_cases q x H) as [[E V]|[E V]].
  - rewrite (q_output q x H E), E. unfold effect. destruct (snd x); reflexivity.
  - rewrite (q_format q x H E), E. unfold effect. destruct (snd x); reflexivity.
Qed.
Lemma q_effects q xs s : Forall (q_setting q) xs -> fold_left (effect1 (q_parser q)) xs s = fold_left opened xs s.
Proof. intros F. revert s. induction F; intros s; cbn [fold_left]; auto. rewrite q_effect by auto. apply IHF. Qed.
(** What the options leave in the namespace. *)
Definition holds (d : dict string value) (o : dest) (t : string) : Prop := out_at d "output" = Some o /\ str_at d "format" = Some t.
Lemma dget_set (d : dict string value) k v k' : dget (dset d k v) k' = if String.eqb k k' then Some v else dget d k'.
Proof. rewrite dget_dset. destruct (keqb k k') eqn:E; [apply keqb_eq in E; subst; rewrite String.eqb_refl; reflexivity|].
  destruct (String.eqb_spec k k'); auto. subst. rewrite keqb_refl in E. discriminate. Qed.
Lemma apply_other q x g k : q_setting q x -> k <> "output" -> k <> "format" -> dget (space (apply1 (q_parser q) g x)) k = dget (space g) k.
Proof.
  intros H N1 N2. unfold apply1. destruct (q_cases q x H) as [[E V]|[E V]].
  - rewrite (q_output q x H E). destruct (value_out _ V) as [_ ->]. cbn [put_value space]. rewrite dget_set.
    destruct (String.eqb_spec (name (snd output)) k); auto. subst k. contradiction N1. reflexivity.
  - rewrite (q_format q x H E). destruct (snd x) as [v|]; [|destruct V]. cbn [value_of type format snd put_value space]. rewrite dget_set.
    destruct (String.eqb_spec (name (snd format)) k); [|destruct (String.eqb_spec (name (Arg "format" false KStr (VStr "json"))) k); auto].
    + subst k. contradiction N2. reflexivity.
    + subst k. contradiction N2. reflexivity.
Qed.
Lemma apply_out q x g o : q_setting q x -> out_at (space g) "output" = Some o ->
  out_at (space (apply1 (q_parser q) g x)) "output" = Some (out_after o x).
Proof.
  intros H O. unfold apply1, out_after, out_at in *. destruct (q_cases q x H) as [[E V]|[E V]].
  - rewrite (q_output q x H E), E. destruct (value_out _ V) as [_ ->]. cbn [put_value space]. rewrite dget_set. cbn. destruct (snd x); reflexivity.
  - rewrite (q_format q x H E), E. destruct (snd x) as [v|]; [|destruct V]. cbn [value_of type format snd put_value space]. rewrite dget_set. exact O.
Qed.
Lemma apply_fmt q x g t : q_setting q x -> str_at (space g) "format" = Some t ->
  str_at (space (apply1 (q_parser q) g x)) "format" = Some (text_after "--format" t x).
Proof.
  intros H O. unfold apply1, text_after, str_at in *. destruct (q_cases q x H) as [[E V]|[E V]].
  - rewrite (q_output q x H E), E. destruct (value_out _ V) as [_ ->]. cbn [put_value space]. rewrite dget_set. exact O.
  - rewrite (q_format q x H E), E. destruct (snd x) as [v|]; [|destruct V]. cbn [value_of type format snd put_value space]. rewrite dget_set. reflexivity.
Qed.
Lemma applies_other q xs k : Forall (q_setting q) xs -> k <> "output" -> k <> "format" ->
  forall g, dget (space (fold_left (apply1 (q_parser q)) xs g)) k = dget (space g) k.
Proof. intros F N1 N2. induction F; intros g; cbn [fold_left]; auto. rewrite IHF. eapply apply_other; eauto. Qed.
Lemma applies_out q xs : Forall (q_setting q) xs -> forall g o, out_at (space g) "output" = Some o ->
  out_at (space (fold_left (apply1 (q_parser q)) xs g)) "output" = Some (fold_left out_after xs o).
Proof. intros F. induction F; intros g o O; cbn [fold_left]; auto. apply IHF. apply apply_out; auto. Qed.
Lemma applies_fmt q xs : Forall (q_setting q) xs -> forall g t, str_at (space g) "format" = Some t ->
  str_at (space (fold_left (apply1 (q_parser q)) xs g)) "format" = Some (fold_left (text_after "--format") xs t).
Proof. intros F. induction F; intros g t O; cbn [fold_left]; auto. apply IHF. apply apply_fmt; auto. Qed.
Lemma applies_rest q xs : forall g, sub_ (fold_left (apply1 (q_parser q)) xs g) = sub_ g /\ extra (fold_left (apply1 (q_parser q)) xs g) = extra g.
Proof.
  induction xs as [|x xs IH]; intros g; cbn [fold_left]; auto. destruct (IH (apply1 (q_parser q) g x)) as [-> ->].
  unfold apply1. destruct (dget _ _) as [a|]; auto. destruct (value_of _ _); auto.
Qed.
Lemma applies_wf q xs : forall g, wf (space g) -> wf (space (fold_left (apply1 (q_parser q)) xs g)).
Proof.
  induction xs as [|x xs IH]; intros g W; cbn [fold_left]; auto. apply IH.
  unfold apply1. destruct (dget _ _) as [a|]; auto. destruct (value_of _ _); auto. cbn [put_value space]. apply wf_dset; auto.
Qed.
(** The positional arguments *)
Definition q_taken (q : request) (f : option string) : list (posarg * list string) :=
  match q with
  | QConvert x => [(one "FORMAT", [x]); (FILE stdin, file_words f)]
  | QTranslate x => [(one "BASIS", [x]); (FILE stdin, file_words f)]
  | QMatch e b => [(one "EFT", [e]); (one "BASIS", [b]); (FILE stdin, file_words f)]
  | QValidate x => [(one "TYPE", [x]); (FILE stdin, file_words f)]
  end.
Definition q_put (q : request) (f : option string) (g : got) : got :=
  let file := put_value (Arg "FILE" true KIn (VIn (SStdin stdin))) (VIn (source_named stdin f)) in
  let text n x := put_value (Arg n false KStr VNone) (VStr x) in
  match q with
  | QConvert x => file (text "FORMAT" x g)
  | QTranslate x => file (text "BASIS" x g)
  | QMatch e b => file (text "BASIS" b (text "EFT" e g))
  | QValidate x => file (text "TYPE" x g)
  end.
Lemma q_takes q f : takes (q_pos q) (q_words q ++ file_words f) (q_taken q f).
Proof.
  intros l N D. assert (forall w (t : list token), (forall v u, (w, CA) :: t <> (v, CDash) :: u)) as K by discriminate.
  destruct q, f as [v|]; cbn [q_pos q_words q_taken file_words app map consume];
    repeat (unfold one at 1, FILE at 1; rewrite take_word by (auto; discriminate); cbn [map fst]);
    try (fold (FILE stdin); rewrite take_nil by auto); cbn [map fst]; reflexivity.
Qed.
Lemma q_take_all sub q f g s : Forall plain (q_words q) -> readable f s -> take_all sub (q_taken q f) g s = (Ret (q_put q f g), s).
Proof.
  intros F R. destruct q; cbn [q_words] in F; inversion F as [|? ? P1 F1]; subst; try (inversion F1 as [|? ? P2 F2]; subst);
    unfold q_taken, q_put, one, FILE; cbn [Args.take_all]; unfold pbind, take_pos; cbn [fst snd]; unfold pbind, ret;
    rewrite ?(pos_text _ _ s P1), ?(pos_text _ _ s P2), (pos_file f s R); reflexivity.
Qed.
Lemma parse_nonempty q f : q_words q ++ file_words f <> [].
Proof. destruct q; discriminate. Qed.
Lemma q_plain q f s : Forall plain (q_words q) -> readable f s -> Forall plain (q_words q ++ file_words f).
Proof. intros F R. apply Forall_app. split; auto. destruct f; constructor; [apply R|constructor]. Qed.
Lemma q_usual q : usual (q_parser q).
Proof. destruct q; reflexivity. Qed.
Definition q_start (q : request) : got := start (q_parser q).
(** The namespace and the files after parsing. *)
Definition q_final (q : request) (f : option string) (xs1 xs2 : list setting) : got :=
  fold_left (apply1 (q_parser q)) xs2 (q_put q f (fold_left (apply1 (q_parser q)) xs1 (q_start q))).
Lemma add_nil g : add_extra [] g = g.
Proof. destruct g. unfold add_extra. cbn. rewrite app_nil_r. reflexivity. Qed.
Lemma q_known q xs1 l1 f xs2 l2 s : Forall plain (q_words q) -> readable f s -> Forall (q_setting q) (xs1 ++ xs2) ->
  spells three xs1 l1 -> spells three xs2 l2 -> ends_with_value xs1 ->
  parse_known (q_parser q) no_sub (l1 ++ (q_words q ++ file_words f) ++ l2) s = (Ret (q_final q f xs1 xs2), fold_left opened (xs1 ++ xs2) s).
Proof.
  intros Fp R Fs S1 S2 V. apply Forall_app in Fs. destruct Fs as [F1 F2].
  destruct (spells_blocks (q_parser q) three (q_names q) xs1 l1 S1) as (bs1 & -> & B1 & C1 & _ & E1).
  { eapply Forall_impl; [|exact F1]. apply q_acceptable. }
  destruct (spells_blocks (q_parser q) three (q_names q) xs2 l2 S2) as (bs2 & -> & B2 & _ & _ & E2).
  { eapply Forall_impl; [|exact F2]. apply q_acceptable. }
  rewrite (parse_form _ _ _ no_sub (q_parser q) bs1 _ bs2 (q_taken q f)); auto;
    [|apply q_usual|apply parse_nonempty|eapply q_plain; eauto|apply q_takes].
  unfold pbind. rewrite E1, q_effects by auto. rewrite q_take_all by (auto; apply readable_opened; auto).
  rewrite E2, q_effects by auto. unfold ret. rewrite add_nil, fold_left_app. reflexivity.
Qed.
Lemma q_final_rest q f xs1 xs2 : extra (q_final q f xs1 xs2) = [] /\ wf (space (q_final q f xs1 xs2)).
Proof.
  unfold q_final. destruct (applies_rest q xs2 (q_put q f (fold_left (apply1 (q_parser q)) xs1 (q_start q)))) as [_ ->].
  pose proof (applies_rest q xs1 (q_start q)) as [_ E]. pose proof (applies_wf q xs1 (q_start q)) as W.
  assert (wf (space (q_start q))) as W0.
  { unfold wf. destruct q; cbn; repeat constructor; cbn; intuition discriminate. }
  specialize (W W0). split; [destruct q; cbn; rewrite E; reflexivity|]. apply applies_wf.
  destruct q; cbn [q_put put_value space]; repeat apply wf_dset; exact W.
Qed.
Lemma q_final_cmd q f xs1 xs2 : Forall (q_setting q) (xs1 ++ xs2) ->
  to_cmd (q_name q) (space (q_final q f xs1 xs2)) =
  Some (q_cmd q (source_named stdin f) (fold_left out_after (xs1 ++ xs2) DStdout) (fold_left (text_after "--format") (xs1 ++ xs2) "json")).
Proof.
  intros F. apply Forall_app in F. destruct F as [F1 F2]. unfold q_final.
  set (g1 := fold_left (apply1 (q_parser q)) xs1 (q_start q)). set (g2 := q_put q f g1).
  assert (forall k, k <> "output" -> k <> "format" -> dget (space (fold_left (apply1 (q_parser q)) xs2 g2)) k = dget (space g2) k) as Other
    by (intros; apply applies_other; auto).
  assert (dget (space g2) "FILE" = Some (VIn (source_named stdin f))) as Df.
  { unfold g2. destruct q; cbn [q_put put_value space name]; rewrite dget_set; reflexivity. }
  unfold to_cmd, in_at. rewrite Other, Df by discriminate. rewrite !fold_left_app.
  assert (forall k, k <> "FILE" -> k <> "FORMAT" -> k <> "BASIS" -> k <> "EFT" -> k <> "TYPE" -> dget (space g2) k = dget (space g1) k) as Keep.
  { intros k K1 K2 K3 K4 K5. unfold g2. destruct q; cbn [q_put put_value space name]; rewrite !dget_set;
    repeat match goal with |- context [String.eqb ?a k] => destruct (String.eqb_spec a k); [congruence|] end; reflexivity. }
  assert (out_at (space (q_start q)) "output" = Some DStdout -> out_at (space (fold_left (apply1 (q_parser q)) xs2 g2)) "output" =
    Some (fold_left out_after xs2 (fold_left out_after xs1 DStdout))) as O.
  { intros H. apply applies_out; auto. unfold out_at. rewrite Keep by discriminate. apply (applies_out q xs1 F1 _ _ H). }
  assert (str_at (space (q_start q)) "format" = Some "json" -> str_at (space (fold_left (apply1 (q_parser q)) xs2 g2)) "format" =
    Some (fold_left (text_after "--format") xs2 (fold_left (text_after "--format") xs1 "json"))) as T.
  { intros H. apply applies_fmt; auto. unfold str_at. rewrite Keep by discriminate. apply (applies_fmt q xs1 F1 _ _ H). }
  assert (forall k, k <> "output" -> k <> "format" -> str_at (space (fold_left (apply1 (q_parser q)) xs2 g2)) k = str_at (space g2) k) as St
    by (intros; unfold str_at; rewrite Other by auto; reflexivity).
  assert (forall k x, k <> "FILE" -> match q with QConvert y => k = "FORMAT" /\ x = y | QTranslate y => k = "BASIS" /\ x = y
     | QMatch e b => k = "EFT" /\ x = e \/ k = "BASIS" /\ x = b | QValidate y => k = "TYPE" /\ x = y end -> str_at (space g2) k = Some x) as Tx.
  { intros k x K H. unfold str_at, g2. destruct q; cbn [q_put put_value space name]; [destruct H as [-> ->]|destruct H as [-> ->]|destruct H as [[-> ->]|[-> ->]]|destruct H as [-> ->]];
    rewrite !dget_set; reflexivity. }
  destruct q as [x|x|e b|x]; cbn [q_name String.eqb Ascii.eqb Bool.eqb].
  - rewrite St, (Tx "FORMAT" x), O by (auto; discriminate). reflexivity.
  - rewrite St, (Tx "BASIS" x), O, T by (auto; discriminate). reflexivity.
  - rewrite !St, (Tx "EFT" e), (Tx "BASIS" b), O, T by (auto; discriminate). reflexivity.
  - rewrite St, (Tx "TYPE" x) by (auto; discriminate). reflexivity.
Qed.

(** ** The parser of the sub-commands *)
Lemma classify_main w : exists c, forall s, classify main_parser w s = (Ret c, s).
Proof.
  assert (exists c, forall s, (match abbreviations main_parser w with
              | _ :: _ :: _ => fail
              | [o] => ret (CO o)
              | [] => if negative_number w || has_space w then ret CA else ret (CO OUnknown)
              end) s = (Ret c, s)) as A.
  { assert (abbreviations main_parser w = [] \/ exists o, abbreviations main_parser w = [o]) as [-> |(o & ->)].
    { unfold abbreviations. destruct (String.prefix "--" w).
      - destruct (match cut w with Some (a, b) => (a, Some b) | None => (w, None) end) as [q e]. cbn [flags main_parser filter map].
        rewrite app_nil_r. destruct (String.prefix q "--help"); eauto.
      - destruct w as [|c [|c2 t]]; auto.
        + destruct c as [[] [] [] [] [] [] [] []]; auto.
        + destruct c as [[] [] [] [] [] [] [] []]; auto. destruct c2 as [[] [] [] [] [] [] [] []]; eauto. }
    - destruct (negative_number w || has_space w); eexists; reflexivity.
    - eexists; reflexivity. }
  unfold classify. destruct w as [|c t]; [eexists; reflexivity|]. destruct (negb (Ascii.eqb c "-")); [eexists; reflexivity|].
  destruct (lookup main_parser (String c t) None); [eexists; reflexivity|].
  destruct (String.eqb t ""); [eexists; reflexivity|].
  destruct (match cut (String c t) with Some (a, b) => lookup main_parser a (Some b) | None => None end); [eexists; reflexivity|]. exact A.
Qed.
Lemma tokens_main l : exists t, reads main_parser l t /\ map fst t = l.
Proof.
  induction l as [|w l (t & R & M)]; [exists []; split; [intros s; reflexivity|reflexivity]|].
  destruct (String.eqb w "--") eqn:E.
  - exists ((w, CDash) :: map (fun u => (u, CA)) l). split.
    + intros s. cbn [tokens]. rewrite E. reflexivity.
    + cbn. rewrite map_map. cbn. rewrite map_id. reflexivity.
  - destruct (classify_main w) as (c & C). exists ((w, c) :: t). split; [apply reads_cons; auto|]. cbn. congruence.
Qed.
Lemma main_known c l s : plain c ->
  parse_known main_parser run_sub (c :: l) s = (do* g <- run_sub (c :: l) (start main_parser); ret (add_extra [] g)) s.
Proof.
  intros Pl. destruct (tokens_main l) as (t & R & M).
  assert (reads main_parser (c :: l) ((c, CA) :: t)) as R' by (apply reads_plain; auto; reflexivity).
  rewrite (known_run _ _ _ run_sub main_parser _ _ s R'). cbn [pos main_parser].
  assert (consume [PSub] ((c, CA) :: t) = ([(PSub, c :: l)], [], [])) as C by (cbn; rewrite M; reflexivity).
  assert (run stdin creatable float_of_str run_sub ((c, CA) :: t) [PSub] (start main_parser) s =
    (do* g <- run_sub (c :: l) (start main_parser); ret ([], add_extra [] g)) s) as Q.
  { destruct (existsb is_opt t) eqn:E.
    - rewrite (run_pos _ _ _ run_sub c t [PSub] _ s _ [] E C) by (cbn; lia). cbn [Args.take_all]. unfold take_pos. cbn [fst snd].
      unfold pbind. destruct (run_sub (c :: l) (start main_parser) s) as [[g| |] s']; reflexivity.
    - rewrite (run_end _ _ _ run_sub ((c, CA) :: t) [PSub] _ s _ [] []) by (auto; exact C). cbn [Args.take_all]. unfold take_pos. cbn [fst snd].
      unfold pbind. destruct (run_sub (c :: l) (start main_parser) s) as [[g| |] s']; reflexivity. }
  rewrite (pbind_eq _ _ _ _ _ _ Q). unfold pbind, ret. destruct (run_sub (c :: l) (start main_parser) s) as [[g| |] s']; reflexivity.
Qed.
Lemma q_name_plain q : plain (q_name q).
Proof. destruct q; cbn; discriminate. Qed.
Section Main.
Variable main : parsed -> st -> Z * st.
Variable empty_list : list string -> st -> Z * st.
Notation wcxf := (wcxf_argv stdin creatable float_of_str main empty_list).
Theorem wcxf_accepted q xs1 l1 f xs2 l2 s : Forall plain (q_words q) -> readable f s -> Forall (q_setting q) (xs1 ++ xs2) ->
  spells three xs1 l1 -> spells three xs2 l2 -> ends_with_value xs1 ->
  wcxf (q_name q :: l1 ++ (q_words q ++ file_words f) ++ l2) s =
  main (PCmd (q_cmd q (source_named stdin f) (fold_left out_after (xs1 ++ xs2) DStdout) (fold_left (text_after "--format") (xs1 ++ xs2) "json")))
       (fold_left opened (xs1 ++ xs2) s).
Proof.
  intros Fp R Fs S1 S2 V. unfold wcxf_argv, Args.parse_args.
  assert (parse_known main_parser run_sub (q_name q :: l1 ++ (q_words q ++ file_words f) ++ l2) s =
    (Ret (Got (space (q_final q f xs1 xs2)) (Some (q_name q)) []), fold_left opened (xs1 ++ xs2) s)) as K.
  { rewrite main_known by apply q_name_plain. cbn [Args.run_sub]. rewrite q_sub. unfold pbind.
    rewrite (q_known q xs1 l1 f xs2 l2 s) by auto. unfold ret. rewrite add_nil.
    destruct (q_final_rest q f xs1 xs2) as [E W]. rewrite E.
    assert (dupdate (space (start main_parser)) (space (q_final q f xs1 xs2)) = space (q_final q f xs1 xs2)) as -> by (apply dict_of_wf; exact W). reflexivity. }
  unfold pbind. rewrite K. cbn [extra ret sub_ space]. rewrite q_final_cmd by auto. reflexivity.
Qed.
Theorem wcxf_split q xs1 l1 xs2 l2 f xs3 l3 s : Forall plain (q_words q) -> plain f -> Forall (q_setting q) (xs1 ++ xs2 ++ xs3) ->
  spells three xs1 l1 -> spells three xs2 l2 -> spells three xs3 l3 -> ends_with_value xs1 -> ends_with_value xs2 -> xs2 <> [] ->
  wcxf (q_name q :: l1 ++ q_words q ++ l2 ++ f :: l3) s = (2%Z, snd (say Usage (fold_left opened (xs1 ++ xs2 ++ xs3) s))).
Proof.
  intros Fp Pf Fs S1 S2 S3 V1 V2 N. apply Forall_app in Fs. destruct Fs as [F1 Fs]. apply Forall_app in Fs. destruct Fs as [F2 F3].
  assert (forall xs, Forall (q_setting q) xs -> Forall (acceptable (q_parser q)) xs) as A
    by (intros xs; apply Forall_impl, q_acceptable).
  destruct (spells_blocks (q_parser q) three (q_names q) xs1 l1 S1 (A _ F1)) as (bs1 & -> & B1 & C1 & _ & E1).
  destruct (spells_blocks (q_parser q) three (q_names q) xs2 l2 S2 (A _ F2)) as (bs2 & -> & B2 & C2 & N2 & E2).
  destruct (spells_blocks (q_parser q) three (q_names q) xs3 l3 S3 (A _ F3)) as (bs3 & -> & B3 & _ & _ & E3).
  assert (exists g, parse_known (q_parser q) no_sub (flat_map words (map fst bs1) ++ q_words q ++ flat_map words (map fst bs2) ++ f :: flat_map words (map fst bs3)) s =
    (Ret g, fold_left opened (xs1 ++ xs2 ++ xs3) s) /\ extra g = [f]) as (g & K & X).
  { rewrite (parse_split _ _ _ no_sub (q_parser q) bs1 (q_words q) bs2 f bs3 (q_taken q None)); auto;
      [|apply q_usual|destruct q; discriminate|pose proof (q_takes q None) as T; cbn [file_words] in T; rewrite app_nil_r in T; exact T].
    unfold pbind. rewrite E1, q_effects by auto. rewrite q_take_all by (auto; exact I). rewrite E2, q_effects by auto. rewrite E3, q_effects by auto.
    unfold ret. rewrite !fold_left_app. eexists. split; [reflexivity|].
    assert (extra (fold_left (apply1 (q_parser q)) xs2 (q_put q None (fold_left (apply1 (q_parser q)) xs1 (start (q_parser q))))) = []) as X2.
    { rewrite (proj2 (applies_rest q xs2 _)). pose proof (proj2 (applies_rest q xs1 (start (q_parser q)))) as X1. destruct q; cbn; rewrite X1; reflexivity. }
    destruct bs3; cbn [add_extra extra]; rewrite (proj2 (applies_rest q xs3 _)); cbn [add_extra extra]; rewrite X2; reflexivity. }
  unfold wcxf_argv, Args.parse_args. unfold pbind. rewrite main_known by apply q_name_plain. cbn [Args.run_sub]. rewrite q_sub.
  unfold pbind. rewrite K. unfold ret. cbn [add_extra extra start app]. rewrite X. reflexivity.
Qed.
(** An input file that does not exist: the output files before it have been emptied. *)
Theorem wcxf_no_file q xs1 l1 f xs2 l2 s : Forall plain (q_words q) -> plain f -> f <> "-" -> Forall (q_setting q) (xs1 ++ xs2) ->
  spells three xs1 l1 -> spells three xs2 l2 -> ends_with_value xs1 -> dmem (files (fold_left opened xs1 s)) f = false ->
  wcxf (q_name q :: l1 ++ (q_words q ++ [f]) ++ l2) s = (2%Z, snd (say Usage (fold_left opened xs1 s))).
Proof.
  intros Fp Pf Nf Fs S1 S2 V D. apply Forall_app in Fs. destruct Fs as [F1 F2].
  assert (forall xs, Forall (q_setting q) xs -> Forall (acceptable (q_parser q)) xs) as A by (intros xs; apply Forall_impl, q_acceptable).
  destruct (spells_blocks (q_parser q) three (q_names q) xs1 l1 S1 (A _ F1)) as (bs1 & -> & B1 & C1 & _ & E1).
  destruct (spells_blocks (q_parser q) three (q_names q) xs2 l2 S2 (A _ F2)) as (bs2 & -> & B2 & _ & _ & E2).
  assert (parse_known (q_parser q) no_sub (flat_map words (map fst bs1) ++ (q_words q ++ [f]) ++ flat_map words (map fst bs2)) s =
    (Stop 2%Z, snd (say Usage (fold_left opened xs1 s)))) as K.
  { rewrite (parse_form _ _ _ no_sub (q_parser q) bs1 _ bs2 (q_taken q (Some f))); auto;
      [|apply q_usual|destruct q; discriminate|apply Forall_app; split; auto|exact (q_takes q (Some f))].
    unfold pbind. rewrite E1, q_effects by auto.
    assert (forall t, dmem (files t) f = false -> pos_value stdin creatable float_of_str (Arg "FILE" true KIn (VIn (SStdin stdin))) [f] t = (Stop 2%Z, snd (say Usage t))) as PF.
    { intros t Dt. unfold pos_value. cbn [strip]. rewrite (plain_dashes f Pf). cbn [type convert]. unfold open_in.
      destruct (String.eqb_spec f "-"); [congruence|]. rewrite Dt. reflexivity. }
    destruct q; cbn [q_words] in Fp; inversion Fp as [|? ? P1 G1]; subst; try (inversion G1 as [|? ? P2 G2]; subst);
      unfold q_taken, one, FILE; cbn [Args.take_all file_words]; unfold pbind, take_pos; cbn [fst snd]; unfold pbind, ret;
      rewrite ?(pos_text _ _ _ P1), ?(pos_text _ _ _ P2), (PF _ D); reflexivity. }
  unfold wcxf_argv, Args.parse_args. unfold pbind. rewrite main_known by apply q_name_plain. cbn [Args.run_sub]. rewrite q_sub. unfold pbind.
  rewrite K. reflexivity.
Qed.
(** Unknown commands, and no command. *)
Theorem wcxf_unknown c l s : plain c -> ~ In c ["convert"; "translate"; "match"; "validate"] -> wcxf (c :: l) s = (2%Z, snd (say Usage s)).
Proof.
  intros Pl N. unfold wcxf_argv, Args.parse_args, pbind. rewrite main_known by auto. cbn [Args.run_sub].
  assert (sub_parser stdin c = None) as ->; [|reflexivity]. unfold sub_parser.
  repeat match goal with |- context [String.eqb c ?x] => destruct (String.eqb_spec c x) as [->|]; [exfalso; apply N; cbn; auto|] end. reflexivity.
Qed.
Theorem wcxf_nothing s : wcxf [] s = main PNone s.
Proof. reflexivity. Qed.
End Main.

(** ** wcxf2eos and wcxf2smeftsim: one optional positional argument *)
Section One.
Variable p : parser.
Variable a : arg.
Variable len : string -> nat.
Hypothesis Pos : pos p = [PArg a].
Hypothesis Many : many a = true.
Hypothesis Usual : usual p.
Hypothesis Names : forall flag a f, dget (flags p) flag = Some a -> abbr (len flag) flag f -> names p f a.
Lemma one_form xs1 l1 v xs2 l2 s x : Forall (acceptable p) (xs1 ++ xs2) -> spells len xs1 l1 -> spells len xs2 l2 -> ends_with_value xs1 -> plain v ->
  pos_value stdin creatable float_of_str a [v] (fold_left (effect1 p) xs1 s) = (Ret x, fold_left (effect1 p) xs1 s) ->
  parse_known p no_sub (l1 ++ [v] ++ l2) s =
  (Ret (fold_left (apply1 p) xs2 (put_value a x (fold_left (apply1 p) xs1 (start p)))), fold_left (effect1 p) (xs1 ++ xs2) s).
Proof.
  intros Fs S1 S2 V Pl E. apply Forall_app in Fs. destruct Fs as [F1 F2].
  destruct (spells_blocks p len Names xs1 l1 S1 F1) as (bs1 & -> & B1 & C1 & _ & E1).
  destruct (spells_blocks p len Names xs2 l2 S2 F2) as (bs2 & -> & B2 & _ & _ & E2).
  rewrite (parse_form _ _ _ no_sub p bs1 [v] bs2 [(PArg a, [v])]); auto; [|discriminate|].
  - unfold pbind. rewrite E1. cbn [Args.take_all]. unfold take_pos. cbn [fst snd]. unfold pbind. rewrite E. unfold ret. rewrite E2.
    rewrite add_nil, fold_left_app. reflexivity.
  - intros l N D. rewrite Pos. cbn [map app consume]. rewrite take_word by auto. reflexivity.
Qed.
Lemma one_none xs l s : Forall (acceptable p) xs -> spells len xs l ->
  parse_known p no_sub l s =
  (do* x <- pos_value stdin creatable float_of_str a []; ret (put_value a x (fold_left (apply1 p) xs (start p)))) (fold_left (effect1 p) xs s).
Proof.
  intros F S. destruct (spells_blocks p len Names xs l S F) as (bs & -> & B & _ & _ & E).
  rewrite (parse_bare _ _ _ no_sub p bs [(PArg a, [])]); auto.
  - unfold pbind. rewrite E. cbn [Args.take_all]. unfold take_pos. cbn [fst snd]. unfold pbind, ret.
    destruct (pos_value _ _ _ a [] _) as [[]]; try reflexivity. rewrite add_nil. reflexivity.
  - rewrite Pos. cbn. rewrite Many. reflexivity.
Qed.
Lemma applies_inv {T} (Q : option value -> T -> Prop) (step : T -> setting -> T) k (ok : setting -> Prop) :
  (forall x g t, ok x -> Q (dget (space g) k) t -> Q (dget (space (apply1 p g x)) k) (step t x)) ->
  forall xs g t, Forall ok xs -> Q (dget (space g) k) t -> Q (dget (space (fold_left (apply1 p) xs g)) k) (fold_left step xs t).
Proof. intros H xs. induction xs as [|x xs IH]; intros g t F K; cbn [fold_left]; auto. inversion F; subst. apply IH; auto. Qed.
Lemma applies_extra xs : forall g, extra (fold_left (apply1 p) xs g) = extra g.
Proof.
  induction xs as [|x xs IH]; intros g; cbn [fold_left]; auto. rewrite IH.
  unfold apply1. destruct (dget _ _) as [b|]; auto. destruct (value_of _ _); auto.
Qed.
Lemma spells_app xs1 l1 xs2 l2 : spells len xs1 l1 -> spells len xs2 l2 -> spells len (xs1 ++ xs2) (l1 ++ l2).
Proof. intros S1 S2. induction S1; cbn [app]; auto. rewrite <- app_assoc. constructor; auto. Qed.
End One.

(** *** wcxf2eos *)
Definition eos_len (flag : string) : nat := if String.eqb flag "--output" then 3 else 6.
Definition eos_setting (x : setting) : Prop := ok_output x \/ ok_text "--eosprefix" x \/ ok_text "--eoshome" x.
Definition home_after (h : option string) (x : setting) : option string := if String.eqb (fst x) "--eoshome" then snd x else h.
Lemma eos_names flag a f : dget (flags (eos_parser stdin)) flag = Some a -> abbr (eos_len flag) flag f -> names (eos_parser stdin) f a.
Proof.
  intros D A. assert (In (flag, a) (flags (eos_parser stdin))) as I by (eapply dget_In; eauto). cbn in I.
  repeat (destruct I as [I|I]; [injection I as <- <-; refine (abbr_cases _ _ _ (fun f => names _ f _) A _); cbn; named_all|]); destruct I.
Qed.
Lemma eos_value x : eos_setting x -> exists a v, dget (flags (eos_parser stdin)) (fst x) = Some a /\ value_of a (snd x) = Some v /\ snd x <> Some "--" /\ (snd x = None -> many a = true) /\
  (forall s, effect a (snd x) s = opened s x) /\
  (name a = "output" /\ fst x = "--output" /\ v = match snd x with Some y => VOut (dest_named y) | None => VNone end \/
   name a = "eosprefix" /\ fst x = "--eosprefix" /\ (exists y, snd x = Some y /\ v = VStr y) \/
   name a = "eoshome" /\ fst x = "--eoshome" /\ (exists y, snd x = Some y /\ v = VStr y)).
Proof.
  unfold opened. intros [[E V]|[[E V]|[E V]]]; rewrite E.
  - exists (snd output), (match snd x with Some y => VOut (dest_named y) | None => VNone end). destruct (value_out _ V) as [V1 V2].
    repeat split; auto.
  - destruct (snd x) as [y|]; [|destruct V]. eexists _, (VStr y). repeat split; try reflexivity; try congruence.
    right. left. repeat split. eauto.
  - destruct (snd x) as [y|]; [|destruct V]. eexists _, (VStr y). repeat split; try reflexivity; try congruence.
    right. right. repeat split. eauto.
Qed.
Lemma eos_acceptable xs : Forall eos_setting xs -> Forall (acceptable (eos_parser stdin)) xs.
Proof. apply Forall_impl. intros x H. destruct (eos_value x H) as (a & v & A & B & C & D & _). exists a. repeat split; auto. congruence. Qed.
Lemma eos_opened xs : Forall eos_setting xs -> forall s, fold_left (effect1 (eos_parser stdin)) xs s = fold_left opened xs s.
Proof.
  intros F. induction F as [|x xs H F IH]; intros s; cbn [fold_left]; auto. rewrite IH. f_equal. unfold effect1.
  destruct (eos_value x H) as (a & v & -> & _ & _ & _ & E & _). apply E.
Qed.
Definition EOS_OUT (v : option value) (o : dest) : Prop := match v with Some (VOut x) => x = o | Some VNone => o = DNone | _ => False end.
Definition EOS_HOME (v : option value) (h : option string) : Prop := v = Some (match h with Some y => VStr y | None => VNone end).
Lemma eos_steps xs g o x h : Forall eos_setting xs -> EOS_OUT (dget (space g) "output") o -> dget (space g) "eosprefix" = Some (VStr x) -> EOS_HOME (dget (space g) "eoshome") h ->
  let g' := fold_left (apply1 (eos_parser stdin)) xs g in
  EOS_OUT (dget (space g') "output") (fold_left out_after xs o) /\
  dget (space g') "eosprefix" = Some (VStr (fold_left (text_after "--eosprefix") xs x)) /\
  EOS_HOME (dget (space g') "eoshome") (fold_left home_after xs h) /\ dget (space g') "FILE" = dget (space g) "FILE".
Proof.
  intros F O X H g'.
  assert (forall k (T : Type) (Q : option value -> T -> Prop) (step : T -> setting -> T) t, Q (dget (space g) k) t ->
    (forall y g t, eos_setting y -> Q (dget (space g) k) t -> Q (dget (space (apply1 (eos_parser stdin) g y)) k) (step t y)) ->
    Q (dget (space g') k) (fold_left step xs t)) as D.
  { intros k T Q step t K S. apply (applies_inv (eos_parser stdin) Q step k eos_setting); auto. }
  split; [|split; [|split]].
  - apply (D "output" dest EOS_OUT); auto. intros y g1 t Hy K. unfold apply1, out_after.
    destruct (eos_value y Hy) as (a & v & -> & -> & _ & _ & _ & [(E & N & ->)|[(E & N & z & Z & ->)|(E & N & z & Z & ->)]]);
      cbn [put_value space]; rewrite dget_set, E, N; cbn [String.eqb Ascii.eqb Bool.eqb]; auto. destruct (snd y); reflexivity.
  - apply (D "eosprefix" string (fun v t => v = Some (VStr t))); auto. intros y g1 t Hy K. unfold apply1, text_after.
    destruct (eos_value y Hy) as (a & v & -> & -> & _ & _ & _ & [(E & N & ->)|[(E & N & z & Z & ->)|(E & N & z & Z & ->)]]);
      cbn [put_value space]; rewrite dget_set, E, N; cbn [String.eqb Ascii.eqb Bool.eqb]; auto. rewrite Z. reflexivity.
  - apply (D "eoshome" (option string) EOS_HOME); auto. intros y g1 t Hy K. unfold apply1, home_after.
    destruct (eos_value y Hy) as (a & v & -> & -> & _ & _ & _ & [(E & N & ->)|[(E & N & z & Z & ->)|(E & N & z & Z & ->)]]);
      cbn [put_value space]; rewrite dget_set, E, N; cbn [String.eqb Ascii.eqb Bool.eqb]; auto. rewrite Z. reflexivity.
  - apply (D "FILE" unit (fun v _ => v = dget (space g) "FILE") (fun t _ => t) tt); auto. intros y g1 t Hy K. unfold apply1.
    destruct (eos_value y Hy) as (a & v & -> & -> & _ & _ & _ & [(E & N & ->)|[(E & N & z & Z & ->)|(E & N & z & Z & ->)]]);
      cbn [put_value space]; rewrite dget_set, E; cbn [String.eqb Ascii.eqb Bool.eqb]; auto.
Qed.
Section EosMain.
Variable main : source -> string -> dest -> option string -> st -> Z * st.
Variable empty_list : list string -> st -> Z * st.
Notation eos := (eos_argv stdin creatable float_of_str main empty_list).
Theorem eos_accepted xs1 l1 f xs2 l2 s : readable f s -> Forall eos_setting (xs1 ++ xs2) ->
  spells eos_len xs1 l1 -> spells eos_len xs2 l2 -> ends_with_value xs1 ->
  eos (l1 ++ file_words f ++ l2) s =
  main (source_named stdin f) (fold_left (text_after "--eosprefix") (xs1 ++ xs2) "/usr") (fold_left out_after (xs1 ++ xs2) DStdout)
       (fold_left home_after (xs1 ++ xs2) None) (fold_left opened (xs1 ++ xs2) s).
Proof.
  intros R F S1 S2 V. set (a := Arg "FILE" true KIn (VIn (SStdin stdin))). set (p := eos_parser stdin).
  assert (exists g, parse_known p no_sub (l1 ++ file_words f ++ l2) s = (Ret g, fold_left opened (xs1 ++ xs2) s) /\ extra g = [] /\
    EOS_OUT (dget (space g) "output") (fold_left out_after (xs1 ++ xs2) DStdout) /\
    dget (space g) "eosprefix" = Some (VStr (fold_left (text_after "--eosprefix") (xs1 ++ xs2) "/usr")) /\
    EOS_HOME (dget (space g) "eoshome") (fold_left home_after (xs1 ++ xs2) None) /\ dget (space g) "FILE" = Some (VIn (source_named stdin f))) as
    (g & K & X & O & Pf & H & Fi).
  { destruct f as [v|].
    - pose proof F as F'. apply Forall_app in F'. destruct F' as [F1 F2].
      pose proof (eos_steps xs1 (start p) DStdout "/usr" None F1 eq_refl eq_refl eq_refl) as (O1 & P1 & H1 & _).
      fold p in O1, P1, H1.
      set (g1 := fold_left (apply1 p) xs1 (start p)) in *. set (g2 := put_value a (VIn (source_named stdin (Some v))) g1).
      assert (forall k, k <> "FILE" -> dget (space g2) k = dget (space g1) k) as Keep.
      { intros k Nk. unfold g2. cbn [put_value space a name]. rewrite dget_set. destruct (String.eqb_spec "FILE" k); [congruence|reflexivity]. }
      assert (dget (space g2) "FILE" = Some (VIn (source_named stdin (Some v)))) as Df by (unfold g2; cbn [put_value space a name]; rewrite dget_set; reflexivity).
      rewrite <- (Keep "output") in O1 by discriminate. rewrite <- (Keep "eosprefix") in P1 by discriminate. rewrite <- (Keep "eoshome") in H1 by discriminate.
      pose proof (eos_steps xs2 g2 _ _ _ F2 O1 P1 H1) as (O2 & P2 & H2 & Fi2). fold p in Fi2. rewrite !fold_left_app.
      exists (fold_left (apply1 p) xs2 g2). split; [|split; [|split; [exact O2|split; [exact P2|split; [exact H2|rewrite Fi2; exact Df]]]]].
      + cbn [file_words]. assert (fold_left opened xs2 (fold_left opened xs1 s) = fold_left (effect1 p) (xs1 ++ xs2) s) as ->.
        { unfold p. rewrite eos_opened by auto. rewrite fold_left_app. reflexivity. }
        apply (one_form p a eos_len eq_refl eq_refl eos_names); auto; [apply eos_acceptable; auto|apply R|].
        apply (pos_file (Some v)). unfold p. rewrite eos_opened by auto. apply readable_opened. exact R.
      + rewrite applies_extra. unfold g2. cbn [put_value extra]. unfold g1. rewrite applies_extra. reflexivity.
    - pose proof (eos_steps (xs1 ++ xs2) (start p) DStdout "/usr" None F eq_refl eq_refl eq_refl) as (O1 & P1 & H1 & _).
      fold p in O1, P1, H1.
      set (g1 := fold_left (apply1 p) (xs1 ++ xs2) (start p)) in *. set (g2 := put_value a (VIn (SStdin stdin)) g1).
      assert (forall k, k <> "FILE" -> dget (space g2) k = dget (space g1) k) as Keep.
      { intros k Nk. unfold g2. cbn [put_value space a name]. rewrite dget_set. destruct (String.eqb_spec "FILE" k); [congruence|reflexivity]. }
      assert (dget (space g2) "FILE" = Some (VIn (source_named stdin None))) as Df by (unfold g2; cbn [put_value space a name]; rewrite dget_set; reflexivity).
      rewrite <- (Keep "output") in O1 by discriminate. rewrite <- (Keep "eosprefix") in P1 by discriminate. rewrite <- (Keep "eoshome") in H1 by discriminate.
      exists g2. split; [|split; [|auto]].
      + cbn [file_words app]. rewrite (one_none p a eos_len eq_refl eq_refl eq_refl eos_names (xs1 ++ xs2)); [|apply eos_acceptable; auto|apply spells_app; auto].
        unfold p. rewrite eos_opened by auto. reflexivity.
      + unfold g2. cbn [put_value extra]. unfold g1. rewrite applies_extra. reflexivity. }
  unfold eos_argv, Args.parse_args, pbind. fold p. rewrite K, X. cbn [ret]. unfold in_at, str_at, out_at. rewrite Fi, Pf. rewrite H.
  unfold EOS_OUT in O. destruct (dget (space g) "output") as [[| |t|i|o|y]|]; try contradiction; rewrite O;
    destruct (fold_left home_after (xs1 ++ xs2) None); reflexivity.
Qed.
End EosMain.

(** *** wcxf2smeftsim *)
Definition sim_len (flag : string) : nat := 3.
Definition ok_choice (flag : string) (l : list string) (x : setting) : Prop :=
  fst x = flag /\ match snd x with Some v => In v l | None => False end.
Definition ok_number (flag : string) (x : setting) : Prop :=
  fst x = flag /\ match snd x with Some v => v <> "--" /\ float_of_str v <> None | None => False end.
Definition sim_setting (x : setting) : Prop :=
  ok_text "--output" x \/ ok_choice "--input-scheme" ["alpha"; "mw"] x \/ ok_number "--cutoff-scale" x \/ ok_choice "--model-set" ["A"; "B"] x.
Definition number_after (flag : string) (t : R) (x : setting) : R :=
  if String.eqb (fst x) flag then match snd x with Some v => match float_of_str v with Some r => r | None => t end | None => t end else t.
Lemma sim_names flag a f : dget (flags smeftsim_parser) flag = Some a -> abbr (sim_len flag) flag f -> names smeftsim_parser f a.
Proof.
  intros D A. assert (In (flag, a) (flags smeftsim_parser)) as I by (eapply dget_In; eauto). cbn in I.
  repeat (destruct I as [I|I]; [injection I as <- <-; refine (abbr_cases _ _ _ (fun f => names _ f _) A _); cbn; named_all|]); destruct I.
Qed.
Lemma sim_value x : sim_setting x -> exists a y v, dget (flags smeftsim_parser) (fst x) = Some a /\ snd x = Some y /\ value_of a (snd x) = Some v /\ y <> "--" /\
  (forall s, effect a (snd x) s = s) /\
  (name a = "output" /\ fst x = "--output" /\ v = VStr y \/
   name a = "input_scheme" /\ fst x = "--input-scheme" /\ v = VStr y \/
   name a = "cutoff_scale" /\ fst x = "--cutoff-scale" /\ (exists r, float_of_str y = Some r /\ v = VNum r) \/
   name a = "model_set" /\ fst x = "--model-set" /\ v = VStr y).
Proof.
  intros [[E V]|[[E V]|[[E V]|[E V]]]]; rewrite E; (destruct (snd x) as [y|]; [|destruct V]).
  - eexists _, y, (VStr y). repeat split; auto.
  - eexists _, y, (VStr y). split; [reflexivity|]. split; [reflexivity|]. destruct V as [<-|[<-|[]]]; repeat split; auto; discriminate.
  - destruct V as [N V]. destruct (float_of_str y) as [r|] eqn:Fl; [|congruence]. eexists _, y, (VNum r).
    split; [reflexivity|]. split; [reflexivity|]. split; [cbn; rewrite Fl; reflexivity|]. repeat split; auto. right. right. left. repeat split. eauto.
  - eexists _, y, (VStr y). split; [reflexivity|]. split; [reflexivity|].
    destruct V as [<-|[<-|[]]]; (split; [reflexivity|split; [discriminate|split; [reflexivity|right; right; right; repeat split]]]).
Qed.
Lemma sim_acceptable xs : Forall sim_setting xs -> Forall (acceptable smeftsim_parser) xs.
Proof.
  apply Forall_impl. intros x H. destruct (sim_value x H) as (a & y & v & A & B & C & D & _). exists a. repeat split; auto; congruence.
Qed.
Lemma sim_opened xs : Forall sim_setting xs -> forall s, fold_left (effect1 smeftsim_parser) xs s = s.
Proof.
  intros F. induction F as [|x xs H F IH]; intros s; cbn [fold_left]; auto. rewrite IH. unfold effect1.
  destruct (sim_value x H) as (a & y & v & -> & _ & _ & _ & E & _). apply E.
Qed.
Lemma sim_steps xs g o i x m : Forall sim_setting xs -> dget (space g) "output" = Some (VStr o) -> dget (space g) "input_scheme" = Some (VStr i) ->
  dget (space g) "cutoff_scale" = Some (VNum x) -> dget (space g) "model_set" = Some (VStr m) ->
  let g' := fold_left (apply1 smeftsim_parser) xs g in
  dget (space g') "output" = Some (VStr (fold_left (text_after "--output") xs o)) /\
  dget (space g') "input_scheme" = Some (VStr (fold_left (text_after "--input-scheme") xs i)) /\
  dget (space g') "cutoff_scale" = Some (VNum (fold_left (number_after "--cutoff-scale") xs x)) /\
  dget (space g') "model_set" = Some (VStr (fold_left (text_after "--model-set") xs m)) /\
  dget (space g') "FILE" = dget (space g) "FILE".
Proof.
  intros F O I X M g'.
  assert (forall k (T : Type) (Q : option value -> T -> Prop) (step : T -> setting -> T) t, Q (dget (space g) k) t ->
    (forall y g t, sim_setting y -> Q (dget (space g) k) t -> Q (dget (space (apply1 smeftsim_parser g y)) k) (step t y)) ->
    Q (dget (space g') k) (fold_left step xs t)) as D.
  { intros k T Q step t K S. apply (applies_inv smeftsim_parser Q step k sim_setting); auto. }
  Ltac sim_case y Hy := unfold apply1, text_after, number_after;
    let a := fresh "a" in let v := fresh "v" in let z := fresh "z" in let Z := fresh "Z" in let E := fresh "E" in let N := fresh "N" in let r := fresh "r" in let Er := fresh "Er" in
    destruct (sim_value y Hy) as (a & z & v & -> & Z & -> & _ & _ & [(E & N & ->)|[(E & N & ->)|[(E & N & r & Er & ->)|(E & N & ->)]]]);
    cbn [put_value space]; rewrite dget_set, E, ?N, ?Z, ?Er; cbn [String.eqb Ascii.eqb Bool.eqb]; auto.
  split; [|split; [|split; [|split]]].
  - apply (D "output" string (fun v t => v = Some (VStr t))); auto. intros y g1 t Hy K. sim_case y Hy.
  - apply (D "input_scheme" string (fun v t => v = Some (VStr t))); auto. intros y g1 t Hy K. sim_case y Hy.
  - apply (D "cutoff_scale" R (fun v t => v = Some (VNum t))); auto. intros y g1 t Hy K. sim_case y Hy.
  - apply (D "model_set" string (fun v t => v = Some (VStr t))); auto. intros y g1 t Hy K. sim_case y Hy.
  - apply (D "FILE" unit (fun v _ => v = dget (space g) "FILE") (fun t _ => t) tt); auto. intros y g1 t Hy K. sim_case y Hy.
Qed.
Section SimMain.
Variable main : string -> string -> R -> source -> string -> st -> Z * st.
Variable no_value : list string -> st -> Z * st.
Notation smeftsim := (smeftsim_argv stdin creatable float_of_str main no_value).
Definition sim_file : arg := Arg "FILE" true KIn (VStr "{}").
Theorem sim_accepted xs1 l1 f xs2 l2 s : readable (Some f) s -> Forall sim_setting (xs1 ++ xs2) ->
  spells sim_len xs1 l1 -> spells sim_len xs2 l2 ->
  smeftsim (l1 ++ [f] ++ l2) s =
  main (fold_left (text_after "--model-set") (xs1 ++ xs2) "A") (fold_left (text_after "--input-scheme") (xs1 ++ xs2) "alpha")
       (fold_left (number_after "--cutoff-scale") (xs1 ++ xs2) 1000%R) (source_named stdin (Some f))
       (fold_left (text_after "--output") (xs1 ++ xs2) "wcxf2smeftsim_param_card.dat") s.
Proof.
  intros R F S1 S2. set (p := smeftsim_parser). pose proof F as F'. apply Forall_app in F'. destruct F' as [F1 F2].
  assert (ends_with_value xs1) as V.
  { unfold ends_with_value. assert (Forall sim_setting (rev xs1)) as Fr by (apply Forall_rev; auto).
    destruct (rev xs1) as [|[k [v|]] t]; auto. inversion Fr as [|? ? A]; subst. destruct (sim_value _ A) as (? & ? & ? & _ & B & _). discriminate. }
  pose proof (sim_steps xs1 (start p) _ _ _ _ F1 eq_refl eq_refl eq_refl eq_refl) as (O1 & I1 & X1 & M1 & _). fold p in O1, I1, X1, M1.
  set (g1 := fold_left (apply1 p) xs1 (start p)) in *. set (g2 := put_value sim_file (VIn (source_named stdin (Some f))) g1).
  assert (forall k, k <> "FILE" -> dget (space g2) k = dget (space g1) k) as Keep.
  { intros k Nk. unfold g2. cbn [put_value space sim_file name]. rewrite dget_set. destruct (String.eqb_spec "FILE" k); [congruence|reflexivity]. }
  assert (dget (space g2) "FILE" = Some (VIn (source_named stdin (Some f)))) as Df by (unfold g2; cbn [put_value space sim_file name]; rewrite dget_set; reflexivity).
  rewrite <- (Keep "output") in O1 by discriminate. rewrite <- (Keep "input_scheme") in I1 by discriminate.
  rewrite <- (Keep "cutoff_scale") in X1 by discriminate. rewrite <- (Keep "model_set") in M1 by discriminate.
  pose proof (sim_steps xs2 g2 _ _ _ _ F2 O1 I1 X1 M1) as (O2 & I2 & X2 & M2 & Fi2). fold p in O2, I2, X2, M2, Fi2. rewrite !fold_left_app.
  assert (parse_known p no_sub (l1 ++ [f] ++ l2) s = (Ret (fold_left (apply1 p) xs2 g2), s)) as K.
  { rewrite (one_form p sim_file sim_len eq_refl eq_refl sim_names xs1 l1 f xs2 l2 s (VIn (source_named stdin (Some f)))); auto.
    - unfold p. rewrite (sim_opened (xs1 ++ xs2)) by auto. reflexivity.
    - apply sim_acceptable; auto.
    - apply R.
    - unfold p. rewrite (sim_opened xs1) by auto. destruct R as [Pl H]. unfold pos_value. cbn [strip sim_file many type default].
      rewrite (plain_dashes f Pl). cbn [convert]. unfold open_in, source_named. destruct (String.eqb_spec f "-"); [reflexivity|].
      destruct H as [->|H]; [congruence|]. rewrite H. reflexivity. }
  assert (extra (fold_left (apply1 p) xs2 g2) = []) as X.
  { rewrite applies_extra. unfold g2. cbn [put_value extra]. unfold g1. rewrite applies_extra. reflexivity. }
  unfold smeftsim_argv, Args.parse_args, pbind. fold p. rewrite K, X. cbn [ret]. unfold in_at, str_at. rewrite Fi2, Df, O2, I2, X2, M2. reflexivity.
Qed.
(** Without FILE. *)
Theorem sim_no_file xs l s : Forall sim_setting xs -> spells sim_len xs l ->
  smeftsim l s =
  if dmem (files s) "{}" then
    main (fold_left (text_after "--model-set") xs "A") (fold_left (text_after "--input-scheme") xs "alpha")
       (fold_left (number_after "--cutoff-scale") xs 1000%R) (SFile "{}") (fold_left (text_after "--output") xs "wcxf2smeftsim_param_card.dat") s
  else (2%Z, snd (say Usage s)).
Proof.
  intros F S. set (p := smeftsim_parser).
  pose proof (sim_steps xs (start p) _ _ _ _ F eq_refl eq_refl eq_refl eq_refl) as (O1 & I1 & X1 & M1 & _). fold p in O1, I1, X1, M1.
  set (g1 := fold_left (apply1 p) xs (start p)) in *.
  assert (parse_known p no_sub l s = (do* x <- pos_value stdin creatable float_of_str sim_file []; ret (put_value sim_file x g1)) s) as K.
  { rewrite (one_none p sim_file sim_len eq_refl eq_refl eq_refl sim_names xs); auto; [|apply sim_acceptable; auto].
    unfold p. rewrite (sim_opened xs) by auto. reflexivity. }
  unfold smeftsim_argv, Args.parse_args, pbind. fold p. rewrite K. unfold pbind, pos_value. cbn [strip sim_file many default type convert].
  unfold open_in. cbn [String.eqb Ascii.eqb Bool.eqb]. destruct (dmem (files s) "{}"); [|reflexivity]. unfold ret.
  cbn [put_value extra]. replace (extra g1) with (@nil string); [|unfold g1; rewrite applies_extra; reflexivity].
  unfold in_at, str_at. cbn [put_value space name sim_file]. rewrite !dget_set. cbn [String.eqb Ascii.eqb Bool.eqb]. rewrite O1, I1, X1, M1. reflexivity.
Qed.
End SimMain.
End Thm.
