(** Sessions of typed command lines: the three programs (setup.py 21-26: entry points wcxf, wcxf2eos, wcxf2smeftsim of
    cli.py) called one after the other on the same files. *)
From Coq Require Import String Ascii List Bool Arith ZArith Reals Lia Permutation.
From Verif Require Import PyBase PyDict Cplx Wc Dump DumpInit Tex Eos Cli Package PackMatch Tool P_Tool SmeftSimSyntax SmeftSimTab SmeftSim SmeftSimText Sci SmeftSimPrint ToolConv P_ToolConv Args ArgsFacts ArgsForms ArgsThm ArgsAny P_Args.
From Verif Require Bases.
From Verif Require LoadBasis LoadBasisThm P_Validate.
Import ListNotations.
Open Scope string_scope.
Open Scope list_scope.
Open Scope nat_scope.

(** A program and the words typed after it; for wcxf2smeftsim also what is typed when it asks (cli.py 177) *)
Inductive line := Wcxf (l : list string) | Wcxf2eos (l : list string) | Wcxf2smeftsim (l : list string) (key : option string).

Section Session.
Variable stdin : string.
Variable creatable : string -> bool.
Variable float_of_str : string -> option R.
Variables json_dumps yaml_dump : doc -> string.
Variables json_loads yaml_load : string -> res doc.
Variable translators : treg.
Variable matchers : mreg.
Variable world : Bases.world.
Variable odd : attrs -> list string -> res wc.
Variable odd_dict : attrs -> res (dict string num).
Variable order : list string -> list string.
Variable isdir : string -> bool.
Variable latex : string -> texrun.
Variable lha : tcard -> string.
(** The runs whose arguments are no texts (Args.v) *)
Variable unusual : line -> st -> Z * st.
Notation wcxf_main_ := (LoadBasisThm.tool json_loads yaml_load world (P_Validate.tex_of latex) float_of_str json_dumps yaml_dump translators matchers odd).
Notation eos_run := (eos_tool float_of_str yaml_dump json_loads yaml_load world order odd_dict isdir).
Notation card_run := (smeftsim_tool float_of_str json_loads yaml_load world odd_dict lha).
(** cli.py 9-117, 120-154, 156-195 from the words typed to the status *)
Definition run_line (x : line) (s : st) : Z * st :=
  match x with
  | Wcxf l => wcxf_argv stdin creatable float_of_str wcxf_main_ (fun _ => unusual x) l s
  | Wcxf2eos l => eos_argv stdin creatable float_of_str eos_run (fun _ => unusual x) l s
  | Wcxf2smeftsim l key =>
      smeftsim_argv stdin creatable float_of_str (fun m i x f o => card_run m i x f o key) (fun _ => unusual x) l s
  end.
Fixpoint session (l : list line) (s : st) : list Z * st :=
  match l with
  | [] => ([], s)
  | x :: r => let (n, s') := run_line x s in let (ns, s'') := session r s' in (n :: ns, s'')
  end.
Lemma session_app l1 l2 s : session (l1 ++ l2) s =
  let (a, s') := session l1 s in let (b, s'') := session l2 s' in (a ++ b, s'').
Proof.
  revert s. induction l1 as [|x l1 IH]; intros s; cbn [session app].
  - destruct (session l2 s); reflexivity.
  - destruct (run_line x s) as [n s1]. rewrite IH. destruct (session l1 s1) as [a s2]. destruct (session l2 s2) as [b s3]. reflexivity.
Qed.

Variable printable : doc -> Prop.
Hypothesis json_roundtrip : forall d, printable d -> json_loads (json_dumps d) = Ok d.
Hypothesis yaml_roundtrip : forall d, printable d -> yaml_load (yaml_dump d) = Ok d.
Hypothesis yaml_not_json : forall m, m <> [] -> printable (DMap m) ->
  exists x, json_loads (yaml_dump (DMap m)) = Err x /\ (x = ValueError \/ x = JSONDecodeError).
Notation file_of := (Tool.file_of float_of_str json_loads yaml_load).
Notation call := (Tool.call float_of_str translators matchers).
Notation calls := (Tool.calls float_of_str translators matchers).
Notation all_print := (Tool.all_print float_of_str translators matchers printable).
Notation text_for := (P_Tool.text_for json_dumps yaml_dump).
Notation steps l := (map (fun x : step * string * string => fst (fst x)) l).
Notation outputs l := (map (fun x : step * string * string => snd x) l).

(** The words of a step: wcxf translate BASIS FILE --output Q --format FMT, and the same with match EFT BASIS *)
Definition step_line (x : step) (p q fmt : string) : line :=
  Wcxf (match x with STranslate b => ["translate"; b] | SMatch e b => ["match"; e; b] end ++ [p; "--output"; q; "--format"; fmt]).
Fixpoint chain_lines (l : list (step * string * string)) (p : string) : list line :=
  match l with [] => [] | (x, fmt, q) :: r => step_line x p q fmt :: chain_lines r q end.
Fixpoint last_file (l : list (step * string * string)) (p : string) : string :=
  match l with [] => p | (_, _, q) :: r => last_file r q end.
Definition file_name (q : string) : Prop := plain q /\ q <> "-".
Definition step_words (x : step) : list string := match x with STranslate b => [b] | SMatch e b => [e; b] end.
(** What can be typed: no word looks like an option, and the output files can be created. *)
Definition typable (l : list (step * string * string)) : Prop :=
  Forall (fun y : step * string * string => Forall plain (step_words (fst (fst y))) /\ plain (snd (fst y)) /\ file_name (snd y) /\ creatable (snd y) = true) l.

(** ** Parameter files *)
Lemma filter_keys dir q t (fs : dict string string) : in_dir dir q = false -> filter (in_dir dir) (dkeys (dset fs q t)) = filter (in_dir dir) (dkeys fs).
Proof.
  intros N. unfold dkeys. induction fs as [|[k v] fs IH]; cbn [dset map filter fst].
  - rewrite N. reflexivity.
  - destruct (keqb q k) eqn:E; cbn [map filter fst].
    + apply keqb_eq in E. subst k. reflexivity.
    + rewrite IH. reflexivity.
Qed.
Lemma sm_of_dset dir q t fs : (forall l, Permutation (order l) l) -> in_dir dir q = false -> sm_of yaml_load order dir (dset fs q t) = sm_of yaml_load order dir fs.
Proof.
  intros P N. unfold sm_of, listing. rewrite filter_keys by exact N.
  assert (forall p, In p (order (filter (in_dir dir) (dkeys fs))) -> text_of (dset fs q t) p = text_of fs p) as T.
  { intros p I. apply (Permutation_in _ (P _)) in I. apply filter_In in I. unfold text_of. rewrite dget_dset.
    destruct (keqb q p) eqn:E; [apply keqb_eq in E; subst; destruct I; congruence|reflexivity]. }
  revert T. generalize (order (filter (in_dir dir) (dkeys fs))) ([] : dict string doc). intros l. induction l as [|p l IH]; intros a T; cbn [sm_files]; auto.
  rewrite T by (left; reflexivity). destruct (yaml_load _); cbn [bind]; auto. destruct (sm_step a _); cbn [bind]; auto. apply IH. intros k I. apply T. right. exact I.
Qed.

Lemma step_line_eq x p q fmt s : run_line (step_line x p q fmt) s =
  wcxf_argv stdin creatable float_of_str wcxf_main_ (fun _ => unusual (step_line x p q fmt)) (q_name (asked x) :: q_words (asked x) ++ [p; "--output"; q; "--format"; fmt]) s.
Proof. destruct x; reflexivity. Qed.
Lemma chain_run l : forall p s w w', chain_ok l p -> typable l -> file_name p -> dmem (files s) p = true -> file_of (content s p) w ->
  calls (steps l) w = Ok w' -> all_print (steps l) w ->
  let r := session (chain_lines l p) s in
  fst r = map (fun _ => 0%Z) l /\ file_of (content (snd r) (last_file l p)) w' /\ dmem (files (snd r)) (last_file l p) = true /\ seen (snd r) = seen s /\
  (forall f, ~ In f (outputs l) -> dget (files (snd r)) f = dget (files s) f) /\
  (forall dir, (forall g, Permutation (order g) g) -> (forall q, In q (outputs l) -> in_dir dir q = false) -> sm_of yaml_load order dir (files (snd r)) = sm_of yaml_load order dir (files s)).
Proof.
  induction l as [|[[x fmt] q] l IH]; intros p s w w' K T Np D F C A r.
  - cbn in C. injection C as <-. cbn. repeat split; auto.
  - destruct K as (Npq & Fm & K). inversion T as [|y l' (T1 & T2 & T3 & T4) T']; subst. cbn [fst snd] in *. cbn [map calls fst] in C, A. destruct (call x w) as [v|] eqn:E; [|discriminate]. cbn [bind] in C.
    destruct (all_print_cons _ _ _ _ _ _ _ _ A E) as [Pv Av].
    assert (Forall plain (q_words (asked x))) as Pw by (destruct x; exact T1).
    destruct (C71_typed_line stdin creatable (fun _ => unusual (step_line x p q fmt)) float_of_str json_dumps yaml_dump json_loads yaml_load translators matchers world odd
      LoadBasis.loaded (LoadBasis.eft_load json_loads yaml_load) (LoadBasis.basis_load json_loads yaml_load world) (LoadBasis.doc_validate world (P_Validate.tex_of latex)) printable json_roundtrip yaml_roundtrip yaml_not_json x p q fmt s w v Pw (proj1 Np) (proj1 T3) (proj2 Np) (proj2 T3) Npq T4 T2 Fm D F E Pv)
      as (R & G).
    unfold r. cbn [chain_lines session]. rewrite step_line_eq. unfold LoadBasisThm.tool. rewrite R.
    set (s1 := St (dset (files s) q (text_for fmt v)) (seen s)).
    assert (dmem (files s1) q = true) as D1 by (unfold dmem, s1; cbn [files]; rewrite dget_dset, keqb_refl; reflexivity).
    assert (content s1 q = text_for fmt v) as Cq by (unfold content, s1; cbn [files]; rewrite dget_dset, keqb_refl; reflexivity). rewrite <- Cq in G.
    specialize (IH q s1 v w' K T' T3 D1 G C Av). cbv zeta in IH. destruct (session (chain_lines l q) s1) as [ns s2]. cbn [fst snd last_file map] in *.
    destruct IH as (-> & I2 & I3 & I4 & I5 & I6). split; [reflexivity|]. split; [exact I2|]. split; [exact I3|]. split; [exact I4|]. split.
    + intros f Nf. rewrite I5 by (intros I; apply Nf; right; exact I). unfold s1. cbn [files]. rewrite dget_dset.
      destruct (keqb q f) eqn:Kq; [apply keqb_eq in Kq; subst; exfalso; apply Nf; left; reflexivity|reflexivity].
    + intros dir Po N. rewrite I6; [apply sm_of_dset; [exact Po|apply N; left; reflexivity]|exact Po|intros g Ig; apply N; right; exact Ig].
Qed.

(** ** Other lines *)
Lemma source_file q : file_name q -> source_named stdin (Some q) = SFile q.
Proof. intros [_ N]. unfold source_named. destruct (String.eqb_spec q "-"); [contradiction|reflexivity]. Qed.
Lemma dest_file q : file_name q -> dest_named q = DFile q.
Proof. intros [_ N]. unfold dest_named. destruct (String.eqb_spec q "-"); [contradiction|reflexivity]. Qed.
Lemma no_dashes b : plain b -> b <> "--".
Proof. intros Pb ->. exact (plain_two Pb). Qed.
Lemma spaced len flag v xs l : plain v -> len flag <= String.length flag -> spells len xs l -> spells len ((flag, Some v) :: xs) (flag :: v :: l).
Proof.
  intros Pv Le S. apply (spells_cons len flag (Some v) [flag; v] xs l); auto. constructor; auto. split; auto.
  clear -flag. induction flag as [|c t IH]; cbn; auto. destruct (Ascii.ascii_dec c c); [exact IH|congruence].
Qed.
Lemma validate_line t f s : plain t -> file_name f -> dmem (files s) f = true ->
  run_line (Wcxf ["validate"; t; f]) s = wcxf_main_ (PCmd (Cli.Validate t (SFile f))) s.
Proof.
  intros Pt Nf D. cbn [run_line].
  pose proof (C71_accepted stdin creatable float_of_str wcxf_main_ (fun _ => unusual (Wcxf ["validate"; t; f])) (QValidate t) [] [] (Some f) [] [] s) as H.
  rewrite source_file in H by auto. apply H.
  - constructor; [exact Pt|constructor].
  - split; [apply Nf|right; exact D].
  - constructor.
  - constructor.
  - constructor.
  - exact I.
Qed.
Lemma eos_line q prefix o s : file_name q -> plain prefix -> file_name o -> creatable o = true -> dmem (files s) q = true ->
  run_line (Wcxf2eos [q; "--eosprefix"; prefix; "--output"; o]) s = eos_run (SFile q) prefix (DFile o) None (truncate (DFile o) s).
Proof.
  intros Nq Pp No Co D. cbn [run_line].
  pose proof (C71_eos stdin creatable float_of_str eos_run (fun _ => unusual (Wcxf2eos [q; "--eosprefix"; prefix; "--output"; o])) [] [] (Some q)
    [("--eosprefix", Some prefix); ("--output", Some o)] ["--eosprefix"; prefix; "--output"; o] s) as H.
  rewrite source_file in H by auto. cbn [fold_left app out_after text_after home_after opened fst snd String.eqb Ascii.eqb Bool.eqb] in H. rewrite dest_file in H by auto.
  apply H.
  - split; [apply Nq|right; exact D].
  - constructor; [right; left; split; [reflexivity|apply no_dashes; exact Pp]|]. constructor; [|constructor]. left. split; [reflexivity|]. split; [apply no_dashes, No|right; exact Co].
  - constructor.
  - apply spaced; [exact Pp|cbn; repeat constructor|]. apply spaced; [apply No|cbn; repeat constructor|constructor].
  - exact I.
Qed.
Lemma sim_line set scheme t L q o key s : model_set set -> input_scheme scheme -> float_of_str t = Some L -> plain t -> file_name q -> plain o -> dmem (files s) q = true ->
  run_line (Wcxf2smeftsim [q; "--model-set"; set; "--input-scheme"; scheme; "--cutoff-scale"; t; "--output"; o] key) s = card_run set scheme L (SFile q) o key s.
Proof.
  intros Ms Is Ft Pt Nq Po D. cbn [run_line].
  pose proof (C71_smeftsim stdin creatable float_of_str (fun m i x f o => card_run m i x f o key)
    (fun _ => unusual (Wcxf2smeftsim [q; "--model-set"; set; "--input-scheme"; scheme; "--cutoff-scale"; t; "--output"; o] key)) [] [] q
    [("--model-set", Some set); ("--input-scheme", Some scheme); ("--cutoff-scale", Some t); ("--output", Some o)]
    ["--model-set"; set; "--input-scheme"; scheme; "--cutoff-scale"; t; "--output"; o] s) as H.
  rewrite source_file in H by auto. cbn [fold_left app out_after text_after number_after opened fst snd String.eqb Ascii.eqb Bool.eqb] in H. rewrite Ft in H.
  assert (plain set) as Pset by (destruct Ms as [-> | ->]; cbn; auto).
  assert (plain scheme) as Psch by (destruct Is as [-> | ->]; cbn; discriminate).
  apply H.
  - split; [apply Nq|right; exact D].
  - constructor; [|constructor; [|constructor; [|constructor; [|constructor]]]].
    + right; right; right. split; [reflexivity|]. destruct Ms as [-> | ->]; cbn; auto.
    + right; left. split; [reflexivity|]. destruct Is as [-> | ->]; cbn; auto.
    + right; right; left. split; [reflexivity|]. split; [apply no_dashes; exact Pt|congruence].
    + left. split; [reflexivity|apply no_dashes; exact Po].
  - constructor.
  - repeat (apply spaced; [assumption|cbn; repeat constructor|]). constructor.
Qed.


(** ** Failing chains *)
Lemma typed_step x p q fmt s : Forall plain (step_words x) -> plain fmt -> file_name p -> file_name q -> creatable q = true -> dmem (files s) p = true ->
  run_line (step_line x p q fmt) s = wcxf_main_ (PCmd (cmd_of x (SFile p) (DFile q) fmt)) (truncate (DFile q) s).
Proof.
  intros Pw Pf Np Nq Cq D. rewrite step_line_eq.
  pose proof (C71_accepted stdin creatable float_of_str wcxf_main_ (fun _ => unusual (step_line x p q fmt)) (asked x) [] [] (Some p)
    [("--output", Some q); ("--format", Some fmt)] ["--output"; q; "--format"; fmt] s) as H.
  rewrite source_file in H by auto. cbn [fold_left app out_after text_after opened fst snd String.eqb Ascii.eqb Bool.eqb] in H. rewrite dest_file in H by auto.
  rewrite asked_cmd in H. rewrite <- app_assoc in H. apply H.
  - destruct x; exact Pw.
  - split; [apply Np|right; exact D].
  - assert (forall y, ok_output creatable y \/ ok_text "--format" y -> q_setting creatable (asked x) y) as K by (destruct x; auto).
    constructor; [apply K; left; split; [reflexivity|]; split; [apply no_dashes, Nq|right; exact Cq]|]. constructor; [|constructor].
    apply K. right. split; [reflexivity|apply no_dashes; exact Pf].
  - constructor.
  - apply spaced; [apply Nq|cbn; repeat constructor|]. apply spaced; [exact Pf|cbn; repeat constructor|constructor].
  - exact I.
Qed.
Hypothesis json_empty : json_loads "" = Err JSONDecodeError.
Hypothesis yaml_empty : yaml_load "" = Ok DNull.
Lemma empty_input x p q fmt s : content (truncate (DFile q) s) p = "" ->
  wcxf_main_ (PCmd (cmd_of x (SFile p) (DFile q) fmt)) s = (1%Z, St (files (truncate (DFile q) s)) (seen s ++ [Trace TypeError])).
Proof.
  intros Em. unfold LoadBasisThm.tool, Tool.tool.
  assert (Tool.wload float_of_str json_loads yaml_load "" = Err TypeError) as L by (unfold wload, load, load_text; rewrite json_empty, yaml_empty; reflexivity).
  unfold wcxf_main. rewrite run_spec. rewrite input_cmd_of, Em. destruct x; cbn [cmd_of result]; rewrite L; reflexivity.
Qed.
Lemma chain_empty l : forall p s, chain_ok l p -> typable l -> file_name p -> dmem (files s) p = true -> content s p = "" ->
  fst (session (chain_lines l p) s) = map (fun _ => 1%Z) l.
Proof.
  induction l as [|[[x fmt] q] l IH]; intros p s K T Np D Em; [reflexivity|].
  destruct K as (Npq & Fm & K). inversion T as [|y l' (T1 & T2 & T3 & T4) T']; subst. cbn [fst snd] in *.
  cbn [chain_lines session]. rewrite typed_step by auto. rewrite empty_input.
  2:{ rewrite !content_other by congruence. exact Em. }
  match goal with |- context [session _ ?s'] => set (s1 := s') end.
  assert (dget (files s1) q = Some "") as Dq.
  { unfold s1. cbn [files truncate]. rewrite dget_dset, keqb_refl. reflexivity. }
  specialize (IH q s1 K T' T3). destruct (session (chain_lines l q) s1). cbn [fst map] in *. f_equal. apply IH.
  - unfold dmem. rewrite Dq. reflexivity.
  - unfold content. rewrite Dq. reflexivity.
Qed.
Lemma chain_fails l1 x fmt q l2 p s w v e : chain_ok (l1 ++ (x, fmt, q) :: l2) p -> typable (l1 ++ (x, fmt, q) :: l2) -> file_name p -> dmem (files s) p = true ->
  file_of (content s p) w -> calls (steps l1) w = Ok v -> all_print (steps l1) w -> call x v = Err e -> e <> AttributeError -> e <> SystemExit ->
  fst (session (chain_lines (l1 ++ (x, fmt, q) :: l2) p) s) = map (fun _ => 0%Z) l1 ++ 1%Z :: map (fun _ => 1%Z) l2.
Proof.
  revert p s w. induction l1 as [|[[y fy] r] l1 IH]; intros p s w K T Np D F C A E N1 N2.
  - cbn in C. injection C as ->. cbn [app] in *. destruct K as (Npq & Fm & K). inversion T as [|z l' (T1 & T2 & T3 & T4) T']; subst. cbn [fst snd] in *.
    cbn [chain_lines session]. rewrite typed_step by auto.
    assert (file_of (P_Tool.input (SFile p) (DFile q) (truncate (DFile q) s)) v) as F'.
    { unfold P_Tool.input. destruct (String.eqb_spec q p); [congruence|]. rewrite content_other by auto. exact F. }
    destruct (C66_command_fails float_of_str json_dumps yaml_dump json_loads yaml_load translators matchers world odd
      LoadBasis.loaded (LoadBasis.eft_load json_loads yaml_load) (LoadBasis.basis_load json_loads yaml_load world) (LoadBasis.doc_validate world (P_Validate.tex_of latex))
      x (SFile p) (DFile q) fmt (truncate (DFile q) s) v e F' E) as [R1 R2]. unfold LoadBasisThm.tool.
    destruct (Tool.tool _ _ _ _ _ _ _ _ _ _ _ _ _ _ (truncate (DFile q) s)) as [n s1]. cbn [fst snd] in R1, R2.
    assert (n = 1%Z) as -> by (destruct e; congruence).
    assert (dget (files s1) q = Some "") as Dq by (rewrite R2; cbn [files truncate]; rewrite dget_dset, keqb_refl; reflexivity).
    pose proof (chain_empty l2 q s1 K T' T3) as H. destruct (session (chain_lines l2 q) s1). cbn [fst map app] in *. f_equal. apply H.
    + unfold dmem. rewrite Dq. reflexivity.
    + unfold content. rewrite Dq. reflexivity.
  - cbn [app] in K, T. destruct K as (Npr & Fm & K). inversion T as [|z l' (T1 & T2 & T3 & T4) T']; subst. cbn [fst snd] in *.
    cbn [map calls fst] in C, A. destruct (call y w) as [u|] eqn:Ey; [|discriminate]. cbn [bind] in C. destruct (all_print_cons _ _ _ _ _ _ _ _ A Ey) as [Pu Au].
    assert (Forall plain (q_words (asked y))) as Pw by (destruct y; exact T1).
    destruct (C71_typed_line stdin creatable (fun _ => unusual (step_line y p r fy)) float_of_str json_dumps yaml_dump json_loads yaml_load translators matchers world odd
      LoadBasis.loaded (LoadBasis.eft_load json_loads yaml_load) (LoadBasis.basis_load json_loads yaml_load world) (LoadBasis.doc_validate world (P_Validate.tex_of latex)) printable json_roundtrip yaml_roundtrip yaml_not_json y p r fy s w u Pw (proj1 Np) (proj1 T3) (proj2 Np) (proj2 T3) Npr T4 T2 Fm D F Ey Pu)
      as (R & G).
    cbn [app chain_lines session]. rewrite step_line_eq. unfold LoadBasisThm.tool. rewrite R.
    set (s1 := St (dset (files s) r (text_for fy u)) (seen s)).
    assert (dmem (files s1) r = true) as D1 by (unfold dmem, s1; cbn [files]; rewrite dget_dset, keqb_refl; reflexivity).
    assert (content s1 r = text_for fy u) as Cq by (unfold content, s1; cbn [files]; rewrite dget_dset, keqb_refl; reflexivity). rewrite <- Cq in G.
    specialize (IH r s1 u K T' T3 D1 G C Au E N1 N2). destruct (session (chain_lines (l1 ++ (x, fmt, q) :: l2) r) s1) as [ns s2]. cbn [fst map app] in *. f_equal. exact IH.
Qed.
End Session.
