(** The two converter scripts on actual files: wcxf2eos (cli.py 120-154) and
    wcxf2smeftsim (cli.py 156-195) with the classes and the converters behind them.
    The json and yaml packages, [glob]'s order and pylha are variables. *)
From Coq Require Import String Ascii List Bool Arith ZArith Reals Lia Permutation.
From Verif Require Import PyBase PyDict Cplx Wc Dump DumpInit Tex Eos Cli Tool SmeftSimSyntax SmeftSimTab SmeftSim SmeftSimText Sci SmeftSimPrint.
From Verif Require Bases.
Import ListNotations.
Open Scope string_scope.
Open Scope list_scope.
Open Scope nat_scope.

(** ** glob.glob(dir/'*.yaml') *)
Definition no_slash (s : string) : bool := negb (has "/" s).
Fixpoint ends (e s : string) : bool :=
  String.eqb e s || match s with EmptyString => false | String _ t => ends e t end.
(** File names matched by the pattern: no directory part, not hidden. *)
Definition yaml_name (s : string) : bool := no_slash s && negb (starts "." s) && ends ".yaml" s.
Definition in_dir (dir p : string) : bool :=
  starts (dir ++ "/") p && yaml_name (sdrop (String.length (dir ++ "/")) p).

Section Conv.
Variable float_of_str : string -> option R.
Variables json_dumps yaml_dump : doc -> string.
Variables json_loads yaml_load : string -> res doc.
Variable w0 : Bases.world.
(** The order in which glob lists the files *)
Variable order : list string -> list string.
(** WC.dict of the objects that Tool.v does not model *)
Variable odd_dict : attrs -> res (dict string num).
Variable isdir : string -> bool.
Notation wload := (Tool.wload float_of_str json_loads yaml_load).
Notation tool_validate := (Tool.tool_validate w0).

(** WC.dict (classes.py 368-374) on any loaded object *)
Definition nums_of (a : attrs) : res (dict string num) :=
  if is_odd a then odd_dict a else
  match fields a with Some w => typed_dict float_of_str (wc_values w) | None => Err AttributeError end.
Definition dict_of (a : attrs) : res (dict string C) := rmap (dmap cnum) (nums_of a).

(** ** wcxf2eos *)
(** The files get_sm_wcs reads.  Simplified: no pattern characters in the directory. *)
Definition listing (dir : string) (fs : dict string string) : list string := order (filter (in_dir dir) (dkeys fs)).
Definition text_of (fs : dict string string) (p : string) : string := match dget fs p with Some t => t | None => "" end.
(** get_sm_wcs, eos.py 10-22, one file after the other *)
Fixpoint sm_files (fs : dict string string) (all : dict string doc) (l : list string) : res (dict string doc) :=
  match l with
  | [] => Ok all
  | p :: t => let! d := yaml_load (text_of fs p) in let! a := sm_step all d in sm_files fs a t
  end.
Definition sm_of (dir : string) (fs : dict string string) : res (dict string doc) := sm_files fs [] (listing dir fs).
(** wcxf2eos, eos.py 51-62, for any object *)
Definition eos_with (g : res (dict string C)) (sm : dict string doc) : res (dict string (dict string R)) :=
  mapM (fun kv : string * doc =>
          let! c := central (snd kv) in
          let! d := g in let! np := eos_np (fst kv) d in
          let! x := plus c np in Ok (fst kv, eos_entry x)) sm.
(** The document given to yaml.dump *)
Definition eos_doc (out : dict string (dict string R)) : doc := DMap (dmap (fun e => DMap (dmap DNum e)) out).
Definition to_eos (a : attrs) (dir : string) (fs : dict string string) : res string :=
  let! sm := sm_of dir fs in let! out := eos_with (dict_of a) sm in Ok (yaml_dump (eos_doc out)).
Definition eos_tool (f : source) (prefix : string) (o : dest) (eoshome : option string) (s : st) : Z * st :=
  eos_main attrs wload tool_validate to_eos isdir f prefix o eoshome s.

(** ** wcxf2smeftsim *)
(** pylha.dump *)
Variable lha : tcard -> string.
Definition basis_name (a : attrs) : string := match dget a "basis" with Some (DStr b) => b | _ => "" end.
(** cli.py 187-193 *)
Definition card_of (set scheme : string) (L : R) (a : attrs) : res string :=
  let! c := tinit_card set in let! d := nums_of a in let! c' := tcard_fill c d set L scheme in
  let! t := smeftsim_card_text set scheme in Ok (fst t ++ lha c' ++ snd t)%string.
Definition smeftsim_tool (set scheme : string) (L : R) (f : source) (o : string) (key : option string) (s : st) : Z * st :=
  smeftsim_main attrs wload tool_validate basis_name (card_of set scheme L) f o key s.

(** * Facts *)
Notation file_of := (Tool.file_of float_of_str json_loads yaml_load).
Definition valid (w : wc) : Prop := fst (Bases.wc_validate w0 (wc_eft w) (wc_basis w) (dkeys (wc_values w))) = Ok tt.
Lemma eos_with_eq w sm : eos_with (fst (wc_dict float_of_str w)) sm = wcxf2eos float_of_str w sm.
Proof.
  unfold eos_with, wcxf2eos, get_eos_np, mapM. f_equal. apply map_ext. intros [k v]. cbn [fst snd].
  destruct (central v); cbn [bind]; [|reflexivity]. destruct (fst (wc_dict float_of_str w)) as [d|]; reflexivity.
Qed.
Lemma loaded t w : file_of t w -> exists a, wload t = Ok a /\ dict_of a = fst (wc_dict float_of_str w) /\ basis_name a = wc_basis w /\ nums_of a = typed_dict float_of_str (wc_values w) /\
  tool_validate a = fst (Bases.wc_validate w0 (wc_eft w) (wc_basis w) (dkeys (wc_values w))).
Proof.
  intros H. apply file_of_for in H. destruct H as (a & L & F & _ & _ & H & O). exists a. split; [exact L|].
  destruct (fields_some a w F) as (E & B & _ & V & D & _).
  assert (nums_of a = typed_dict float_of_str (wc_values w)) as Q by (unfold nums_of, is_odd; rewrite O, D, F; reflexivity).
  split; [|split; [|split; [exact Q|]]].
  - unfold dict_of. rewrite Q, <- typed_values. unfold wc_dict.
    assert (wc_cache w = None) as -> by (clear - F; unfold fields in F; repeat (match type of F with context [match ?x with _ => _ end] => destruct x end; try discriminate); injection F as <-; reflexivity).
    destruct (values2dict _ _); reflexivity.
  - unfold basis_name. rewrite B. reflexivity.
  - unfold Tool.tool_validate, unhashable. rewrite H, E, B, V. unfold Bases.wc_validate.
    destruct (Bases.lookup_reg (Bases.w_efts w0) (wc_eft w)); cbn [is_ok negb]; [|reflexivity].
    destruct (Bases.lookup_reg (Bases.w_bases w0) (wc_eft w, wc_basis w)) as [id|]; cbn [is_ok negb]; reflexivity.
Qed.
(** *** What wcxf2eos does *)
Definition params_dir (prefix : string) : string := join (join prefix "share/eos") "parameters".
Definition source_text (f : source) (s : st) : string := match f with SStdin t => t | SFile p => content s p end.
Lemma eos_ok f prefix o h s w sm out : eos_args_ok isdir o h ->
  let s0 := truncate (eos_target o h) s in
  file_of (source_text f s0) w -> valid w -> sm_of (params_dir prefix) (files s0) = Ok sm -> wcxf2eos float_of_str w sm = Ok out ->
  eos_tool f prefix o h s = (0%Z, put (eos_target o h) (yaml_dump (eos_doc out)) s).
Proof.
  intros A s0 F V S O. destruct (loaded _ w F) as (a & L & D & _ & _ & T).
  pose proof (eos_spec attrs wload tool_validate to_eos isdir f prefix o h s A) as E. cbv zeta in E. unfold source_text, s0 in L, S.
  unfold eos_result in E. rewrite L in E. cbn [bind] in E. rewrite T in E. unfold valid in V. rewrite V in E. cbn [bind] in E.
  unfold to_eos in E. unfold params_dir in S. rewrite S in E. cbn [bind] in E. rewrite D, eos_with_eq, O in E. exact E.
Qed.
Lemma eos_fail f prefix o h s w sm e : eos_args_ok isdir o h ->
  let s0 := truncate (eos_target o h) s in
  file_of (source_text f s0) w -> valid w -> sm_of (params_dir prefix) (files s0) = Ok sm -> wcxf2eos float_of_str w sm = Err e -> e <> SystemExit ->
  eos_tool f prefix o h s = (1%Z, St (files s0) (seen s ++ [Trace e])).
Proof.
  intros A s0 F V S O N. destruct (loaded _ w F) as (a & L & D & _ & _ & T).
  pose proof (eos_spec attrs wload tool_validate to_eos isdir f prefix o h s A) as E. cbv zeta in E. unfold source_text, s0 in L, S.
  unfold eos_result in E. rewrite L in E. cbn [bind] in E. rewrite T in E. unfold valid in V. rewrite V in E. cbn [bind] in E.
  unfold to_eos in E. unfold params_dir in S. rewrite S in E. cbn [bind] in E. rewrite D, eos_with_eq, O in E. cbn [bind] in E.
  assert (seen (truncate (eos_target o h) s) = seen s) as Q by (destruct (eos_target o h); reflexivity).
  unfold say in E. rewrite Q in E. destruct e; try exact E. congruence.
Qed.

(** *** The Standard Model files *)
Definition sm_docs (fs : dict string string) (l : list string) : res (list doc) := mapM (fun p => yaml_load (text_of fs p)) l.
Lemma sm_files_docs fs l : forall all r, sm_files fs all l = Ok r <-> exists ds, sm_docs fs l = Ok ds /\ sm_fold all ds = Ok r.
Proof.
  unfold sm_docs, mapM. induction l as [|p t IH]; intros all r.
  - split; [intros H; exists []; split; [reflexivity|exact H]|]. intros (ds & [= <-] & H). exact H.
  - cbn [sm_files map sequence]. destruct (yaml_load (text_of fs p)) as [d|] eqn:Y; cbn [bind].
    + split.
      * destruct (sm_step all d) as [a|] eqn:S; cbn [bind]; [|discriminate]. intros H. apply IH in H as (ds & D & H).
        rewrite D. exists (d :: ds). split; [reflexivity|]. cbn [sm_fold]. rewrite S. exact H.
      * intros (ds & D & H). destruct (sequence _) as [ds'|] eqn:Q; [|discriminate].
        cbn [bind] in D. injection D as <-. cbn [sm_fold] in H. destruct (sm_step all d) as [a|]; [|discriminate]. cbn [bind] in *.
        apply IH. exists ds'. auto.
    + split; [discriminate|]. intros (ds & D & _). discriminate.
Qed.

(** *** wcxf2smeftsim *)
Lemma card_of_eq set scheme L a d : nums_of a = Ok d -> model_set set ->
  card_of set scheme L a = (let! c := make_tcard d set L scheme in let! t := smeftsim_card_text set scheme in Ok (fst t ++ lha c ++ snd t)%string).
Proof. intros D M. unfold card_of, make_tcard. rewrite D. destruct M as [-> | ->]; cbn [tinit_card bind]; destruct (tinit_card _); reflexivity. Qed.
Lemma smeftsim_fine set scheme L f o key s w d c t : model_set set ->
  file_of (source_text f s) w -> valid w -> wc_basis w = "Warsaw mass" -> typed_dict float_of_str (wc_values w) = Ok d ->
  make_tcard d set L scheme = Ok c -> smeftsim_card_text set scheme = Ok t ->
  smeftsim_tool set scheme L f o key s = (0%Z, put (DFile o) (fst t ++ lha c ++ snd t)%string s).
Proof.
  intros M F V B D K T. destruct (loaded _ w F) as (a & L1 & D1 & B1 & N1 & T1). unfold smeftsim_tool.
  apply (smeftsim_ok attrs wload tool_validate basis_name (card_of set scheme L) f o key s a); [exact L1| | |].
  - rewrite T1. exact V.
  - rewrite B1. exact B.
  - rewrite (card_of_eq set scheme L a d) by congruence. rewrite K, T. reflexivity.
Qed.
Lemma smeftsim_missing set scheme L f o key s w d : model_set set ->
  file_of (source_text f s) w -> valid w -> wc_basis w = "Warsaw mass" -> values2dict float_of_str (wc_values w) = Ok d ->
  missing set d ->
  smeftsim_tool set scheme L f o key s = (1%Z, St (dset (files s) o "") (seen s ++ [Trace KeyError])).
Proof.
  intros M F V B D K. destruct (loaded _ w F) as (a & L1 & D1 & B1 & N1 & T1). unfold smeftsim_tool.
  rewrite typed_values in D. destruct (typed_dict float_of_str (wc_values w)) as [dn|] eqn:Q; [|discriminate].
  apply (smeftsim_card_error attrs wload tool_validate basis_name (card_of set scheme L) f o key s a KeyError); [exact L1| | | |discriminate].
  - rewrite T1. exact V.
  - rewrite B1. exact B.
  - rewrite (card_of_eq set scheme L a dn) by congruence. pose proof (make_rel dn set L scheme) as R.
    rewrite make_card_err in R by (auto; injection D as ->; exact K). destruct (make_tcard dn set L scheme); [destruct R|]. cbn [rel] in R. rewrite <- R. reflexivity.
Qed.

(** *** The output file among the parameter files *)
Lemma sm_files_null fs p : text_of fs p = "" -> yaml_load "" = Ok DNull -> forall l all, In p l -> exists e, sm_files fs all l = Err e.
Proof.
  intros T Y. induction l as [|q l IH]; intros all I; [destruct I|]. cbn [sm_files].
  destruct (yaml_load (text_of fs q)) as [d|e] eqn:E; cbn [bind]; [|eauto].
  destruct (sm_step all d) as [a|e] eqn:E2; cbn [bind]; [|eauto]. destruct I as [<-|I]; [|eauto].
  rewrite T, Y in E. injection E as <-. discriminate.
Qed.
Lemma sm_files_exit fs l : (forall t, yaml_load t <> Err SystemExit) -> forall all, sm_files fs all l <> Err SystemExit.
Proof.
  intros N. induction l as [|q l IH]; intros all; cbn [sm_files]; [discriminate|].
  destruct (yaml_load (text_of fs q)) as [d|e] eqn:E; cbn [bind]; [|intros Q; apply (N (text_of fs q)); congruence].
  destruct (sm_step all d) as [a|e] eqn:E2; cbn [bind]; [apply IH|]. intros [= ->].
  destruct d as [| | | | |m]; try discriminate. cbn [sm_step] in E2. destruct (relevant _) as [r|e] eqn:R; [discriminate|].
  cbn [bind] in E2. injection E2 as ->. revert R. destruct (dget m "@metadata@") as [v|]; [|discriminate].
  destruct v as [| | |x|x|x]; cbn [relevant]; try discriminate; [destruct (contains _ x)|destruct (existsb _ x)|destruct (dget x _)]; discriminate.
Qed.
Lemma eos_overwrites f prefix o h s w p : eos_args_ok isdir o h -> (forall l, Permutation (order l) l) ->
  (forall t, yaml_load t <> Err SystemExit) -> yaml_load "" = Ok DNull ->
  eos_target o h = DFile p -> in_dir (params_dir prefix) p = true ->
  file_of (source_text f (truncate (DFile p) s)) w -> valid w ->
  exists e, eos_tool f prefix o h s = (1%Z, St (dset (files s) p "") (seen s ++ [Trace e])).
Proof.
  intros A P N Y T I F V. destruct (loaded _ w F) as (a & L & D & _ & _ & W).
  pose proof (eos_spec attrs wload tool_validate to_eos isdir f prefix o h s A) as E. cbv zeta in E. rewrite T in E.
  unfold source_text in L. unfold eos_result in E. rewrite L in E. cbn [bind] in E. rewrite W in E. unfold valid in V. rewrite V in E.
  cbn [bind] in E. unfold to_eos in E. fold (params_dir prefix) in E. unfold sm_of in E.
  destruct (sm_files_null (files (truncate (DFile p) s)) p) with (l := listing (params_dir prefix) (files (truncate (DFile p) s))) (all := @nil (string * doc)) as [e Q]; auto.
  - unfold text_of. cbn [truncate files]. rewrite dget_dset, keqb_refl. reflexivity.
  - unfold listing. apply (Permutation_in _ (Permutation_sym (P _))). apply filter_In. split; auto. cbn [truncate files].
    apply dget_Some_key with "". rewrite dget_dset, keqb_refl. reflexivity.
  - pose proof (sm_files_exit (files (truncate (DFile p) s)) (listing (params_dir prefix) (files (truncate (DFile p) s))) N []) as X.
    rewrite Q in E, X. cbn [bind] in E. exists e. unfold say in E. cbn [truncate seen files snd] in E. destruct e; try exact E. congruence.
Qed.
End Conv.

(** ** Zeros need not be in the file *)
Local Notation nonzero := Wc.nonzero.
Lemma getd_nonzero d k : wf d -> getd (filter nonzero d) k = getd d k.
Proof.
  intros W. unfold getd. rewrite dget_filter by auto. destruct (dget d k) as [z|]; auto. unfold nonzero. cbn [snd].
  destruct (Ceq_dec z C0) as [->|]; reflexivity.
Qed.
Lemma dmem_nonzero d k : wf d -> dmem (filter nonzero d) k = true -> dmem d k = true.
Proof. intros W. unfold dmem. rewrite dget_filter by auto. destruct (dget d k); auto. Qed.
Lemma replace_none s old new : contains old s = false -> replace s old new = s.
Proof.
  unfold replace. generalize (String.length s) as n. intros n. revert s.
  induction n as [|n IH]; intros [|a t]; cbn [replace_f]; auto. rewrite contains_skip, orb_false_iff. intros [-> H]. rewrite IH; auto.
Qed.
Lemma getd_none d k : dmem d k = false -> getd d k = C0.
Proof. unfold dmem, getd. destruct (dget d k); [discriminate|auto]. Qed.
Lemma np_branch_nonzero p k d : p C0 = 0%R -> wf d -> (forall n, In n (dkeys d) -> contains "lnu" n = false) ->
  np_branch p k (filter nonzero d) = np_branch p k d.
Proof.
  intros Z W L. unfold np_branch. rewrite !getd_nonzero by auto.
  assert ((if dmem (filter nonzero d) (replace k "lnu" "enue") || dmem (filter nonzero d) (replace k "lnu" "munumu") then
     if Ceq_dec (getd d (replace k "lnu" "enue")) (getd d (replace k "lnu" "munumu")) then Ok (p (getd d (replace k "lnu" "enue"))) else Err ValueError else Ok 0%R) =
     if dmem d (replace k "lnu" "enue") || dmem d (replace k "lnu" "munumu") then
     if Ceq_dec (getd d (replace k "lnu" "enue")) (getd d (replace k "lnu" "munumu")) then Ok (p (getd d (replace k "lnu" "enue"))) else Err ValueError else Ok 0%R) as Q.
  { set (ke := replace k "lnu" "enue"). set (km := replace k "lnu" "munumu").
    destruct (dmem (filter nonzero d) ke || dmem (filter nonzero d) km) eqn:E.
    - replace (dmem d ke || dmem d km) with true; auto. symmetry. apply orb_true_iff in E as [E|E]; apply dmem_nonzero in E; auto;
      rewrite E; auto using orb_true_r.
    - apply orb_false_iff in E as [E1 E2]. apply getd_none in E1, E2. rewrite getd_nonzero in E1, E2 by auto. rewrite E1, E2, Z.
      destruct (Ceq_dec C0 C0); [|congruence]. destruct (dmem d ke || dmem d km); reflexivity. }
  rewrite dget_filter by auto. destruct (dget d k) as [z|] eqn:K; [|exact Q]. unfold nonzero at 1. cbn [snd].
  destruct (Ceq_dec z C0) as [->|]; [|reflexivity]. rewrite Q, Z. apply dget_Some_key in K as I. apply L in I. rewrite !replace_none by auto.
  assert (getd d k = C0) as G by (unfold getd; rewrite K; reflexivity). rewrite G, Z. destruct (Ceq_dec C0 C0); [|congruence].
  destruct (dmem d k || dmem d k); reflexivity.
Qed.
Lemma eos_np_nonzero k d : wf d -> (forall n, In n (dkeys d) -> contains "lnu" n = false /\ has "{" n = false) ->
  eos_np k (filter nonzero d) = eos_np k d.
Proof.
  intros W L. unfold eos_np. rewrite !np_branch_nonzero; auto; try (intros n I; apply L; auto).
  rewrite dget_filter by auto. destruct (dget d k) as [z|] eqn:K; auto. unfold nonzero. cbn [snd].
  destruct (Ceq_dec z C0) as [->|]; auto. apply dget_Some_key in K. apply L in K as [_ K].
  destruct (contains "Re{" k) eqn:R; [apply contains_has with (c := "{"%char) in R; [congruence|reflexivity]|].
  destruct (contains "Im{" k) eqn:R2; [apply contains_has with (c := "{"%char) in R2; [congruence|reflexivity]|]. reflexivity.
Qed.

(** ** Names with a colon *)
Lemma until_brace_eq s x y : until_brace s = (x, y) -> s = (x ++ y)%string /\ (y = "" \/ exists t, y = String "}" t).
Proof.
  revert x y. induction s as [|a s IH]; intros x y; cbn [until_brace].
  - intros [= <- <-]. auto.
  - destruct (Ascii.eqb_spec a "}") as [->|].
    + intros [= <- <-]. split; [reflexivity|eauto].
    + destruct (until_brace s) as [u v]. intros [= <- <-]. destruct (IH u v eq_refl) as [-> H]. auto.
Qed.
Lemma starts_eq w s : starts w s = true -> s = (w ++ sdrop (String.length w) s)%string.
Proof.
  revert s. induction w as [|a w IH]; intros [|b s]; cbn [starts String.length sdrop append]; auto; try discriminate.
  rewrite andb_true_iff. intros [E S]. apply Ascii.eqb_eq in E. subst. f_equal. auto.
Qed.
Lemma group_eq w s x r : group w s = Some (x, r) -> s = (w ++ "{" ++ x ++ "}" ++ r)%string.
Proof.
  unfold group. destruct (starts (w ++ "{") s) eqn:S; [|discriminate]. apply starts_eq in S.
  rewrite length_app in S. cbn [String.length] in S. destruct (until_brace _) as [u v] eqn:U. apply until_brace_eq in U as [U V].
  destruct u as [|a u]; [discriminate|]. destruct v as [|b v]; [discriminate|]. intros [= <- <-].
  rewrite U in S. destruct V as [V|[t V]]; [discriminate|]. injection V as -> <-. rewrite S at 1. rewrite app_str_assoc. reflexivity.
Qed.
Lemma has_resub c w s : has c w = false -> c <> "{"%char -> c <> "}"%char -> forall n, has c (resub_f n w s) = has c s.
Proof.
  intros W N1 N2 n. revert s. induction n as [|n IH]; intros [|a t]; auto. cbn [resub_f].
  destruct (group w (String a t)) as [[x r]|] eqn:G.
  - rewrite (group_eq _ _ _ _ G). rewrite !has_app, W, IH. cbn [has].
    destruct (Ascii.eqb_spec "{" c); [congruence|]. destruct (Ascii.eqb_spec "}" c); [congruence|]. reflexivity.
  - cbn [has]. rewrite IH. reflexivity.
Qed.
Lemma has_replace c old new s : has c old = false -> has c new = false -> forall n, has c (replace_f n old new s) = has c s.
Proof.
  intros O N n. revert s. induction n as [|n IH]; intros [|a t]; auto. cbn [replace_f].
  destruct (starts old (String a t)) eqn:S.
  - rewrite (starts_eq _ _ S) at 2. rewrite !has_app, IH, O, N. reflexivity.
  - cbn [has]. rewrite IH. reflexivity.
Qed.
Lemma absent_names (d : dict string C) k : (forall n, In n (dkeys d) -> has ":" n = false) -> has ":" k = true -> dget d k = None.
Proof. intros D K. apply dget_None. intros I. apply D in I. congruence. Qed.
Lemma np_branch_colon p d k : (forall n, In n (dkeys d) -> has ":" n = false) -> has ":" k = true -> np_branch p k d = Ok 0%R.
Proof.
  intros D K. unfold np_branch. rewrite (absent_names d k D K). unfold dmem. rewrite !(absent_names d) by (auto; unfold replace; rewrite has_replace; auto).
  reflexivity.
Qed.
Lemma eos_np_colon d k : (forall n, In n (dkeys d) -> has ":" n = false) -> has ":" k = true -> eos_np k d = Ok 0%R.
Proof.
  intros D K. unfold eos_np. rewrite (absent_names d k D K).
  rewrite !np_branch_colon by (auto; unfold resub; rewrite has_resub; auto; discriminate).
  destruct (contains "Re{" k); [reflexivity|]. destruct (contains "Im{" k); reflexivity.
Qed.

(** ** The order of the parameter files *)
Definition good_file (f : doc) : Prop := match f with DMap m => wf m | _ => True end.
Definition agree_files (ds : list doc) : Prop := forall f g k v v', In f ds -> In g ds -> is_relevant f -> is_relevant g ->
  k <> "@metadata@" -> file_get f k = Some v -> file_get g k = Some v' -> v = v'.
Lemma sm_step_any f all all' a : sm_step all f = Ok a -> exists a', sm_step all' f = Ok a'.
Proof. destruct f; cbn; try discriminate. destruct (relevant _); cbn; [eauto|discriminate]. Qed.
Lemma sm_fold_all ds : forall all, (exists r, sm_fold all ds = Ok r) <-> (forall f, In f ds -> exists a, sm_step [] f = Ok a).
Proof.
  induction ds as [|f ds IH]; intros all; cbn [sm_fold].
  - split; [intros _ f []|eauto].
  - split.
    + intros [r H] g [<-|I].
      * destruct (sm_step all f) as [a|] eqn:E; [|discriminate]. exact (sm_step_any f all [] a E).
      * destruct (sm_step all f) as [a|] eqn:E; [|discriminate]. cbn [bind] in H. apply (proj1 (IH a)); eauto.
    + intros H. destruct (H f) as [a E]; [left; auto|]. destruct (sm_step_any f [] all a E) as [a' E']. rewrite E'. cbn [bind].
      apply IH. intros g I. apply H. right; auto.
Qed.
Lemma last_some ds k : forall f v, In f ds -> is_relevant f -> file_get f k = Some v -> exists w, last_defines ds k w.
Proof.
  induction ds as [|g ds IH]; intros f v I R G; [destruct I|].
  destruct (List.Exists_dec (fun f' => defines f' k) ds) as [X|X].
  { intros x. destruct (file_get x k) eqn:E.
    - assert ({is_relevant x} + {~ is_relevant x}) as [H|H]. 
      { destruct x as [| | | | |m]; try (right; intros (? & ? & ? & Q & _); discriminate).
        destruct (dget m "@metadata@") as [[| | | | |mm]|] eqn:E1; try (right; intros (? & ? & ? & Q & E2 & _); injection Q as <-; congruence).
        destruct (dget mm "wcxf-relevant") as [u|] eqn:E2; [|right; intros (? & ? & ? & Q & E3 & E4 & _); injection Q as <-; congruence].
        destruct (truthy u) eqn:T; [left; exists m, mm, u; auto|right; intros (? & ? & ? & Q & E3 & E4 & E5); injection Q as <-; congruence]. }
      + left. split; auto. congruence.
      + right. intros [A _]. auto.
    - right. intros [_ A]. auto. }
  - apply Exists_exists in X as (f' & I' & R' & N). destruct (file_get f' k) as [v'|] eqn:E; [|congruence].
    destruct (IH f' v' I' R' E) as (w & pre & h & post & -> & A & B & D). exists w, (g :: pre), h, post. auto.
  - destruct I as [->|I].
    + exists v, [], f, ds. repeat split; auto. intros f' I' D. apply X. apply Exists_exists. eauto.
    + exfalso. apply X. apply Exists_exists. exists f. split; auto. split; auto. congruence.
Qed.
Lemma sm_get ds r k v : Forall good_file ds -> agree_files ds -> get_sm_wcs ds = Ok r -> k <> "@metadata@" ->
  (dget r k = Some v <-> exists f, In f ds /\ is_relevant f /\ file_get f k = Some v).
Proof.
  intros W A G K. rewrite (get_sm_wcs_spec ds r k v W K G). split.
  - intros (pre & f & post & -> & R & E & _). exists f. split; auto. apply in_app_iff. right; left; auto.
  - intros (f & I & R & E). destruct (last_some ds k f v I R E) as (w & pre & g & post & Q & R' & E' & D).
    assert (v = w) as -> by (apply (A f g k v w); auto; rewrite Q; apply in_app_iff; right; left; auto). exists pre, g, post. auto.
Qed.
Lemma sm_perm ds ds' r : Permutation ds ds' -> Forall good_file ds -> agree_files ds -> get_sm_wcs ds = Ok r ->
  exists r', get_sm_wcs ds' = Ok r' /\ forall k, dget r' k = dget r k.
Proof.
  intros P W A G. assert (exists r', get_sm_wcs ds' = Ok r') as [r' G'].
  { apply sm_fold_all. intros f I. apply (proj1 (sm_fold_all ds [])); [eauto|]. apply (Permutation_in _ (Permutation_sym P)). exact I. }
  assert (Forall good_file ds') as W' by (apply Forall_forall; intros f I; apply (Permutation_in _ (Permutation_sym P)) in I; rewrite Forall_forall in W; auto).
  assert (agree_files ds') as A'.
  { intros f g k v v' I J. apply (Permutation_in _ (Permutation_sym P)) in I, J. apply A; auto. }
  exists r'. split; auto. intros k. destruct (String.string_dec k "@metadata@") as [->|K].
  - assert (forall l (x : dict string doc), Forall good_file l -> get_sm_wcs l = Ok x -> dget x "@metadata@" = None) as N.
    { intros l x Wl Gl. apply dget_None. exact (get_sm_wcs_meta l x Wl Gl). }
    rewrite (N ds' r' W' G'), (N ds r W G). reflexivity.
  - destruct (dget r' k) as [v|] eqn:E.
    + symmetry. apply (sm_get ds' r' k v W' A' G' K) in E as (f & I & Q). apply (sm_get ds r k v W A G K). exists f. split; auto.
      apply (Permutation_in _ (Permutation_sym P)). exact I.
    + destruct (dget r k) as [v|] eqn:E2; auto. apply (sm_get ds r k v W A G K) in E2 as (f & I & Q).
      assert (dget r' k = Some v) as H; [|congruence]. apply (sm_get ds' r' k v W' A' G' K). exists f. split; auto. apply (Permutation_in _ P). exact I.
Qed.
(** The parameter dictionary has each name once. *)
Lemma sm_wf ds : Forall good_file ds -> forall all r, wf all -> sm_fold all ds = Ok r -> wf r.
Proof.
  intros W. induction W as [|f ds F W IH]; intros all r A; cbn [sm_fold]; [intros [= <-]; auto|].
  destruct (sm_step all f) as [a|] eqn:E; [|discriminate]. cbn [bind]. apply IH. destruct f as [| | | | |m]; try discriminate. cbn [sm_step] in E.
  destruct (relevant _) as [b|]; [|discriminate]. cbn [bind] in E. injection E as <-. destruct b; auto. apply wf_dupdate. auto.
Qed.
Section Same.
Variable fs : string -> option R.
Lemma eos_same w sm sm' out : (forall k, dget sm' k = dget sm k) -> wf sm -> wf sm' -> wcxf2eos fs w sm = Ok out ->
  exists out', wcxf2eos fs w sm' = Ok out' /\ forall k, dget out' k = dget out k.
Proof.
  intros E W W' H.
  set (F := fun kv : string * doc => let! c := central (snd kv) in let! np := get_eos_np fs (fst kv) w in let! x := plus c np in Ok (fst kv, eos_entry x)).
  assert (forall (l : dict string doc) o, mapM F l = Ok o -> forall k v, wf l -> dget l k = Some v -> exists e, F (k, v) = Ok (k, e) /\ dget o k = Some e) as P.
  { intros l o M k v Wl G. apply mapM_ok_iff in M. induction M as [|[q x] [q' y] l o M1 M2 IH]; [discriminate|].
    assert (q' = q) as ->. { unfold F in M1. destruct (central _); [|discriminate]. cbn [bind] in M1. destruct (get_eos_np _ _ _); [|discriminate].
      cbn [bind] in M1. destruct (plus _ _); [|discriminate]. cbn [bind fst] in M1. congruence. }
    cbn [dget] in *. destruct (keqb k q) eqn:K.
    - apply keqb_eq in K. subst. injection G as <-. exists y. auto.
    - apply IH; auto. apply NoDup_cons_iff in Wl. apply Wl. }
  assert (forall (l : dict string doc) o, mapM F l = Ok o -> dkeys o = dkeys l) as KK by (intros l o M; apply (wcxf2eos_ok fs w l o M)).
  change (mapM F sm = Ok out) in H.
  assert (exists out', mapM F sm' = Ok out') as [out' H'].
  { assert (forall l, (forall x, In x l -> exists y, F x = Ok y) -> exists o, mapM F l = Ok o) as Q.
    { unfold mapM. induction l as [|x l IH]; intros A; [exists []; reflexivity|]. destruct (A x) as [y Y]; [left; auto|].
      destruct IH as [o O]; [intros z I; apply A; right; auto|]. exists (y :: o). cbn [map sequence]. rewrite Y, O. reflexivity. }
    apply Q. intros [k v] I. apply In_dget in I; auto. rewrite E in I. destruct (P sm out H k v W I) as (e & X & _). eauto. }
  exists out'. split; [exact H'|]. intros k. destruct (dget sm k) as [v|] eqn:G.
  - destruct (P sm out H k v W G) as (e & X & ->). rewrite <- E in G. destruct (P sm' out' H' k v W' G) as (e' & X' & ->). congruence.
  - assert (dget sm' k = None) as G' by (rewrite E; auto). apply dget_None in G, G'. rewrite <- (KK _ _ H) in G. rewrite <- (KK _ _ H') in G'.
    apply dget_None in G, G'. congruence.
Qed.
(** What the output holds *)
Lemma eos_all_fine w sm d : fst (wc_dict fs w) = Ok d -> (forall k v, In (k, v) sm -> exists m y, v = DMap m /\ dget m "central" = Some (DNum y)) ->
  (forall k v, In (k, v) sm -> exists x, eos_np k d = Ok x) -> exists out, wcxf2eos fs w sm = Ok out.
Proof.
  intros D. unfold wcxf2eos, mapM. set (F := fun kv : string * doc => _).
  assert (forall k m y x, dget m "central" = Some (DNum y) -> eos_np k d = Ok x -> exists z, F (k, DMap m) = Ok z) as Q.
  { intros k m y x C X. unfold F, get_eos_np. rewrite D. cbn [fst snd central]. unfold dlookup. rewrite C. cbn [bind]. rewrite X. cbn [bind plus]. eauto. }
  clearbody F. induction sm as [|[k v] sm IH]; intros M N; [exists []; reflexivity|].
  destruct IH as [o O]; [intros; eapply M; right; eauto|intros; eapply N; right; eauto|].
  destruct (M k v) as (m & y & -> & C); [left; auto|]. destruct (N k (DMap m)) as [x X]; [left; auto|].
  destruct (Q k m y x C X) as [z Z]. exists (z :: o). cbn [map sequence]. rewrite Z, O. reflexivity.
Qed.
End Same.
