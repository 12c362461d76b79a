(** Model of the markdown output of bases and coefficient files, classes.py 278-315 and 375-395. *)
From Coq Require Import String Ascii List Bool Arith Reals Lia.
From Verif Require Import PyBase PyDict Cplx Bases Wc.
Import ListNotations.
Open Scope string_scope.
Open Scope list_scope.
Open Scope nat_scope.
Local Notation "a +++ b" := (String.append a b) (at level 60, right associativity).

Definition nlc : ascii := "010"%char.
Definition nl : string := String nlc "".
Definition tick : ascii := "`"%char.

(** ** Bases *)
(** classes.py 305-310: one row; ['real' not in d] raises TypeError if the entry is null. *)
Definition basis_row (ke : string * option entry) : res string :=
  match snd ke with
  | None => Err TypeError
  | Some e => Ok ("| `" +++ fst ke +++ "` | $" +++ match e_tex e with Some t => t | None => "" end +++ "$ | " +++ (if e_real e then "R" else "C") +++ " |" +++ nl)
  end.
(** classes.py 299-304 *)
Definition dashes (n : nat) : string := String.concat "" (repeat "-" n).
Definition head_row : string := "| WC name | Operator | Type |" +++ nl.
Definition rule_row : string := "|" +++ dashes 18 +++ "|" +++ dashes 48 +++ "|" +++ dashes 6 +++ "|" +++ nl.
Definition cat (l : list string) : string := String.concat "" l.
(** classes.py 296-310: a null or empty sector gets no table. *)
Definition sector_md (sw : string * sector) : res string :=
  match snd sw with
  | Some (ke :: d) => let! rows := mapM basis_row (ke :: d) in Ok ("### `" +++ fst sw +++ "`" +++ nl +++ nl +++ head_row +++ rule_row +++ cat rows)
  | _ => Ok ("### `" +++ fst sw +++ "`" +++ nl +++ nl)
  end.
(** classes.py 288-295 *)
Definition tables_head : string := "## Sectors" +++ nl +++ nl +++ "The effective Lagrangian is defined as" +++ nl +++
  "$$\mathcal L_\text{eff} = -\mathcal H_\text{eff} =\sum_{O_i= O_i^\dagger} C_i \, O_i + \sum_{O_i\neq O_i^\dagger}\left( C_i \, O_i + C^*_i \, O^\dagger_i\right).$$" +++ nl +++ nl.
(** Basis._markdown_tables, classes.py 287-310 *)
Definition markdown_tables (s : sectors) : res string :=
  let! l := mapM sector_md s in Ok (tables_head +++ cat l).
(** Basis._repr_markdown_, classes.py 281-285.  [descr]: metadata['description'] if there is such an entry.
    Simplified: metadata is a mapping and the description a string. *)
Definition repr_markdown (e b : string) (descr : option string) : string :=
  "# Basis `" +++ b +++ "` (EFT `" +++ e +++ "`)" +++ nl +++ nl +++ match descr with Some d => d +++ nl +++ nl | None => "" end.
(** Basis.__str__, classes.py 312-315; without the attribute [sectors] AttributeError *)
Definition basis_str (w : world) (id : nat) (descr : option string) : res string :=
  match nth_error (w_objs w) id with
  | None => Err AttributeError
  | Some o => match sectors_of w id with
              | None => Err AttributeError
              | Some s => let! t := markdown_tables s in Ok (repr_markdown (bo_eft o) (bo_basis o) descr +++ t)
              end
  end.

(** ** Coefficient files *)
Section WcMd.
Variable float_of_str : string -> option R.
(** ['{}'.format(scale)], and ['{}'.format(v)] for the value [v] of the coefficient: numbers as text are not modelled.  Since
    [1.0] and [(1+0j)] are both the complex number 1 the text may also depend on the name. *)
Variable show_scale : R -> string.
Variable show : string -> C -> string.
Definition wc_row (kz : string * C) : string := "| `" +++ fst kz +++ "` | " +++ show (fst kz) (snd kz) +++ " |" +++ nl.
(** WC._repr_markdown_, classes.py 382-395 (also __str__, 379-380).  Reads [self.dict] and so fills the cache. *)
Definition wc_str (o : wc) : res string * wc :=
  let (d, o') := wc_dict float_of_str o in
  (let! c := d in Ok ("## WCxf Wilson coefficients" +++ nl +++ nl +++ "**EFT:** `" +++ wc_eft o +++ "`" +++ nl +++ nl +++
     "**Basis:** `" +++ wc_basis o +++ "`" +++ nl +++ nl +++ "**Scale:** " +++ show_scale (wc_scale o) +++ " GeV" +++ nl +++ nl +++
     "### Values" +++ nl +++ nl +++ "| WC name | Value |" +++ nl +++ "|" +++ dashes 20 +++ "|" +++ dashes 52 +++ "|" +++ nl +++ cat (map wc_row c)), o').
End WcMd.

(** ** Reading the text *)
(** [s.split('\n')] *)
Fixpoint lines (s : string) : list string :=
  match s with
  | EmptyString => [""]
  | String c t => if Ascii.eqb c nlc then "" :: lines t
                  else match lines t with [] => [String c ""] | l :: r => String c l :: r end
  end.
Fixpoint lacks (c : ascii) (s : string) : bool :=
  match s with EmptyString => true | String a t => negb (Ascii.eqb a c) && lacks c t end.
(** The text before the first [c] *)
Fixpoint upto (c : ascii) (s : string) : string :=
  match s with EmptyString => "" | String a t => if Ascii.eqb a c then "" else String a (upto c t) end.
Definition is_row (l : string) : bool := String.prefix "| `" l.
Definition rows (s : string) : list string := filter is_row (lines s).
Fixpoint drop (n : nat) (s : string) : string := match n, s with O, _ => s | S m, String _ t => drop m t | _, EmptyString => "" end.
(** The name: between the first two ticks *)
Definition row_name (l : string) : string := upto tick (drop 3 l).
(** The last column of a row: the third character from the end *)
Definition row_type (l : string) : option ascii := String.get (String.length l - 3) l.
(** The second of two columns *)
Definition row_value (l : string) : string := let n := String.length (row_name l) in substring (n + 7) (String.length l - n - 9) l.

Lemma app_assoc (a b c : string) : (a +++ b) +++ c = a +++ b +++ c.
Proof. induction a; simpl; congruence. Qed.
Lemma app_length (a b : string) : String.length (a +++ b) = String.length a + String.length b.
Proof. induction a; simpl; congruence. Qed.
Lemma lacks_app c a b : lacks c (a +++ b) = lacks c a && lacks c b.
Proof. induction a as [|x a IH]; simpl; auto. rewrite IH. apply andb_assoc. Qed.
Lemma lines_nonempty s : lines s <> [].
Proof. destruct s as [|c s]; simpl; [discriminate|]. destruct (Ascii.eqb c nlc); [discriminate|]. destruct (lines s); discriminate. Qed.
Lemma lines_app a b : lines (a +++ nl +++ b) = lines a ++ lines b.
Proof.
  induction a as [|c a IH]; [reflexivity|]. cbn [String.append lines]. rewrite IH. destruct (Ascii.eqb c nlc); [reflexivity|].
  pose proof (lines_nonempty a). destruct (lines a); [contradiction|reflexivity].
Qed.
Lemma lines_one a : lacks nlc a = true -> lines a = [a].
Proof.
  induction a as [|c a IH]; simpl; auto. intros H. apply andb_true_iff in H. destruct H as [H1 H2]. apply negb_true_iff in H1.
  rewrite H1, IH by auto. reflexivity.
Qed.
Lemma lines_cons a b : lacks nlc a = true -> lines (a +++ nl +++ b) = a :: lines b.
Proof. intros H. rewrite lines_app, lines_one by auto. reflexivity. Qed.
Lemma rows_app a b : rows (a +++ nl +++ b) = rows a ++ rows b.
Proof. unfold rows. rewrite lines_app. apply filter_app. Qed.
Lemma rows_one a : lacks nlc a = true -> rows a = if is_row a then [a] else [].
Proof. intros H. unfold rows. rewrite lines_one by auto. reflexivity. Qed.
Lemma app_nil (a : string) : a +++ "" = a.
Proof. induction a; simpl; congruence. Qed.
Lemma cat_cons a l : cat (a :: l) = a +++ cat l.
Proof. unfold cat. destruct l; simpl; auto. rewrite app_nil. reflexivity. Qed.
(** A text of complete lines *)
Definition complete (s : string) (r : list string) : Prop := forall b, rows (s +++ b) = r ++ rows b.
Lemma complete_line a : lacks nlc a = true -> complete (a +++ nl) (if is_row a then [a] else []).
Proof. intros H b. rewrite app_assoc, rows_app, rows_one by auto. reflexivity. Qed.
Lemma complete_lines a : complete (a +++ nl) (rows a).
Proof. intros b. rewrite app_assoc, rows_app. reflexivity. Qed.
Lemma complete_app a r b q : complete a r -> complete b q -> complete (a +++ b) (r ++ q).
Proof. intros A B c. rewrite app_assoc, A, B. apply List.app_assoc. Qed.
Lemma complete_nil : complete "" [].
Proof. intros b. reflexivity. Qed.
Lemma complete_cat {A} (l : list A) (f : A -> string) (g : A -> list string) : (forall x, In x l -> complete (f x) (g x)) -> complete (cat (map f l)) (flat_map g l).
Proof.
  induction l as [|x l IH]; intros H; [exact complete_nil|]. cbn [map flat_map]. rewrite cat_cons.
  apply complete_app; [apply H; left; auto|apply IH; intros y I; apply H; right; auto].
Qed.
Lemma complete_rows a r : complete a r -> rows a = r.
Proof. intros H. specialize (H ""). rewrite app_nil in H. rewrite H. unfold rows. simpl. apply app_nil_r. Qed.

Lemma ok_inj {A} (x y : A) : Ok x = Ok y -> x = y.
Proof. congruence. Qed.
(** ** What is in the tables *)
Definition named_ok (k : string) : bool := lacks nlc k && lacks tick k.
Definition entry_lines (ke : string * option entry) : bool :=
  named_ok (fst ke) && match snd ke with Some e => match e_tex e with Some t => lacks nlc t | None => true end | None => true end.
Definition sector_lines (sw : string * sector) : bool :=
  lacks nlc (fst sw) && match snd sw with Some d => forallb entry_lines d | None => true end.
Definition row_text (ke : string * entry) : string :=
  "| `" +++ fst ke +++ "` | $" +++ match e_tex (snd ke) with Some t => t | None => "" end +++ "$ | " +++ (if e_real (snd ke) then "R" else "C") +++ " |".
Definition there (d : dict string (option entry)) : list (string * entry) :=
  flat_map (fun ke => match snd ke with Some e => [(fst ke, e)] | None => [] end) d.
Definition listed (s : sectors) : list (string * entry) := flat_map (fun sw => match snd sw with Some d => there d | None => [] end) s.
Lemma upto_app c a b : lacks c a = true -> upto c (a +++ String c b) = a.
Proof.
  induction a as [|x a IH]; simpl; intros H; [rewrite Ascii.eqb_refl; reflexivity|]. apply andb_true_iff in H. destruct H as [H1 H2].
  apply negb_true_iff in H1. rewrite H1, IH by auto. reflexivity.
Qed.
Lemma get_app a b n : String.get (String.length a + n) (a +++ b) = String.get n b.
Proof. induction a; simpl; auto. Qed.
Lemma sub_app a b n m : substring (String.length a + n) m (a +++ b) = substring n m b.
Proof. induction a; simpl; auto. Qed.
Lemma sub_all a b : substring 0 (String.length a) (a +++ b) = a.
Proof. induction a as [|x a IH]; simpl; [destruct b; reflexivity|]. rewrite IH. reflexivity. Qed.
Lemma text_name k r : lacks tick k = true -> row_name ("| `" +++ k +++ String tick r) = k.
Proof. intros H. unfold row_name. cbn [String.append drop]. apply upto_app. exact H. Qed.
Lemma row_text_name ke : lacks tick (fst ke) = true -> row_name (row_text ke) = fst ke.
Proof. intros H. exact (text_name (fst ke) (" | $" +++ _) H). Qed.
Lemma row_text_type ke : row_type (row_text ke) = Some (if e_real (snd ke) then "R" else "C")%char.
Proof.
  unfold row_type, row_text. set (t := match e_tex (snd ke) with Some t => t | None => "" end). set (c := if e_real (snd ke) then "R" else "C").
  assert (String.length c = 1) as Lc by (unfold c; destruct (e_real (snd ke)); reflexivity).
  assert ("| `" +++ fst ke +++ "` | $" +++ t +++ "$ | " +++ c +++ " |" = ("| `" +++ fst ke +++ "` | $" +++ t +++ "$ | ") +++ c +++ " |") as ->.
  { rewrite !app_assoc. reflexivity. }
  rewrite app_length. replace (_ + String.length (c +++ " |") - 3) with (String.length ("| `" +++ fst ke +++ "` | $" +++ t +++ "$ | ") + 0) by (rewrite (app_length c); rewrite Lc; simpl (String.length " |"); lia).
  rewrite get_app. unfold c. destruct (e_real (snd ke)); reflexivity.
Qed.
Lemma prefix_app a b : String.prefix a (a +++ b) = true.
Proof. induction a as [|x a IH]; [destruct b; reflexivity|]. cbn [String.append String.prefix]. destruct (ascii_dec x x); congruence. Qed.
Lemma is_row_text ke : is_row (row_text ke) = true.
Proof. apply prefix_app. Qed.
Lemma row_text_line ke : entry_lines (fst ke, Some (snd ke)) = true -> lacks nlc (row_text ke) = true.
Proof.
  unfold entry_lines, named_ok, row_text. cbn [fst snd]. intros H. apply andb_true_iff in H. destruct H as [H1 H2]. apply andb_true_iff in H1. destruct H1 as [H1 _].
  rewrite !lacks_app, H1. destruct (e_tex (snd ke)) as [t|]; [rewrite H2|]; destruct (e_real (snd ke)); reflexivity.
Qed.
Lemma basis_row_ok k e : basis_row (k, Some e) = Ok (row_text (k, e) +++ nl).
Proof. unfold basis_row, row_text. cbn [fst snd]. rewrite !app_assoc. reflexivity. Qed.
Lemma head_complete n : lacks nlc n = true -> complete ("### `" +++ n +++ "`" +++ nl +++ nl) [].
Proof.
  intros H b. assert (("### `" +++ n +++ "`" +++ nl +++ nl) +++ b = ("### `" +++ n +++ "`") +++ nl +++ "" +++ nl +++ b) as -> by (rewrite !app_assoc; reflexivity).
  rewrite rows_app, rows_one, rows_app; [reflexivity|]. rewrite !lacks_app, H. reflexivity.
Qed.
Lemma rows_ok d l : forallb entry_lines d = true -> mapM basis_row d = Ok l -> complete (cat l) (map row_text (there d)) /\ forall ke, In ke d -> snd ke <> None.
Proof.
  revert l. induction d as [|[k [e|]] d IH]; intros l H M.
  - apply ok_inj in M; subst. split; [exact complete_nil|intros ke []].
  - cbn [forallb] in H. apply andb_true_iff in H. destruct H as [H1 H2]. unfold mapM in M. cbn [map sequence] in M. rewrite basis_row_ok in M. cbn [bind] in M.
    fold (mapM basis_row d) in M. destruct (mapM basis_row d) as [r|] eqn:E; [|discriminate]. apply ok_inj in M; subst. destruct (IH r H2 eq_refl) as [A B].
    split; [|intros ke [<-|I]; [discriminate|exact (B ke I)]].
    rewrite cat_cons. cbn [there flat_map snd fst app map]. change (row_text (k, e) :: ?r) with ([row_text (k, e)] ++ r).
    apply complete_app; [|exact A]. pose proof (complete_line _ (row_text_line (k, e) H1)) as X. rewrite is_row_text in X. exact X.
  - unfold mapM in M. cbn [map sequence] in M. discriminate.
Qed.
Lemma sector_ok sw m : sector_lines sw = true -> sector_md sw = Ok m ->
  complete m (map row_text (match snd sw with Some d => there d | None => [] end)).
Proof.
  unfold sector_lines, sector_md. destruct sw as [n [[|ke d]|]]; cbn [fst snd]; intros H M; apply andb_true_iff in H; destruct H as [H1 H2].
  - apply ok_inj in M; subst. apply head_complete; auto.
  - destruct (mapM basis_row (ke :: d)) as [l|] eqn:E; [|discriminate]. apply ok_inj in M; subst. destruct (rows_ok _ _ H2 E) as [A _]. intros b.
    assert (("### `" +++ n +++ "`" +++ nl +++ nl +++ head_row +++ rule_row +++ cat l) +++ b = ("### `" +++ n +++ "`" +++ nl +++ nl) +++ head_row +++ rule_row +++ cat l +++ b) as -> by (rewrite !app_assoc; reflexivity).
    rewrite (head_complete n H1), (complete_line "| WC name | Operator | Type |" eq_refl).
    change rule_row with ("|------------------|------------------------------------------------|------|" +++ nl).
    rewrite (complete_line "|------------------|------------------------------------------------|------|" eq_refl), A. reflexivity.
  - apply ok_inj in M; subst. apply head_complete; auto.
Qed.
Lemma tables_ok s m : forallb sector_lines s = true -> markdown_tables s = Ok m -> rows m = map row_text (listed s).
Proof.
  intros H M. unfold markdown_tables in M. destruct (mapM sector_md s) as [l|] eqn:E; [|discriminate]. apply ok_inj in M; subst.
  assert (complete (cat l) (map row_text (listed s))) as A.
  { revert l E. induction s as [|sw s IH]; intros l E; [apply ok_inj in E; subst; exact complete_nil|].
    cbn [forallb] in H. apply andb_true_iff in H. destruct H as [H1 H2]. unfold mapM in E. cbn [map sequence] in E. destruct (sector_md sw) as [m|] eqn:Em; [|discriminate]. cbn [bind] in E.
    fold (mapM sector_md s) in E. destruct (mapM sector_md s) as [r|] eqn:Er; [|discriminate]. apply ok_inj in E; subst.
    rewrite cat_cons. unfold listed. cbn [flat_map]. rewrite map_app. apply complete_app; [exact (sector_ok sw m H1 Em)|exact (IH H2 r eq_refl)]. }
  assert (complete tables_head []) as B by (unfold complete; intros b; reflexivity).
  apply complete_rows. exact (complete_app _ _ _ _ B A).
Qed.
(** Exactly the null entries make it fail. *)
Definition null_entry (s : sectors) : Prop := exists n d k, In (n, Some d) s /\ In (k, None) d.
Lemma basis_rows_cases d : (exists l, mapM basis_row d = Ok l /\ forall k, ~ In (k, None) d) \/ (mapM basis_row d = Err TypeError /\ exists k, In (k, None) d).
Proof.
  induction d as [|[k [e|]] d IH].
  - left. exists []. split; [reflexivity|intros k []].
  - unfold mapM in *. cbn [map sequence]. rewrite basis_row_ok. cbn [bind]. destruct IH as [(l & -> & N)|(-> & k' & I)].
    + left. eexists. split; [reflexivity|]. intros k' [H|H]; [discriminate|exact (N k' H)].
    + right. split; [reflexivity|]. exists k'. right. exact I.
  - right. split; [reflexivity|]. exists k. left. reflexivity.
Qed.
Lemma sector_cases sw : (exists m, sector_md sw = Ok m /\ forall d k, snd sw = Some d -> ~ In (k, None) d) \/
  (sector_md sw = Err TypeError /\ exists d k, snd sw = Some d /\ In (k, None) d).
Proof.
  destruct sw as [n [[|ke d]|]]; unfold sector_md; cbn [snd fst].
  - left. eexists. split; [reflexivity|]. intros d k H. injection H as <-. intros [].
  - destruct (basis_rows_cases (ke :: d)) as [(l & -> & N)|(-> & k & I)].
    + left. eexists. split; [reflexivity|]. intros d' k H. injection H as <-. apply N.
    + right. split; [reflexivity|]. exists (ke :: d), k. auto.
  - left. eexists. split; [reflexivity|]. discriminate.
Qed.
Lemma tables_cases s : (exists m, markdown_tables s = Ok m) /\ ~ null_entry s \/ markdown_tables s = Err TypeError /\ null_entry s.
Proof.
  assert ((exists l, mapM sector_md s = Ok l) /\ ~ null_entry s \/ mapM sector_md s = Err TypeError /\ null_entry s) as H.
  { induction s as [|sw s IH].
    - left. split; [exists []; reflexivity|]. intros (n & d & k & [] & _).
    - unfold mapM in *. cbn [map sequence]. destruct (sector_cases sw) as [(m & -> & N)|(-> & d & k & E & I)].
      + cbn [bind]. destruct IH as [((l & ->) & M)|(-> & n & d & k & I & K)].
        * left. split; [eexists; reflexivity|]. intros (n & d & k & [->|I] & K); [exact (N d k eq_refl K)|]. apply M. exists n, d, k. auto.
        * right. split; [reflexivity|]. exists n, d, k. split; [right; exact I|exact K].
      + right. split; [reflexivity|]. destruct sw as [n w]. cbn [snd] in E. subst w. exists n, d, k. split; [left; reflexivity|exact I]. }
  unfold markdown_tables. destruct H as [((l & ->) & N)|(-> & N)]; [left|right]; split; auto. eexists. reflexivity.
Qed.
Lemma listed_names s l : ~ null_entry s -> names_of s = Ok l -> map fst (listed s) = l.
Proof.
  revert l. induction s as [|[n [d|]] s IH]; intros l N H; simpl in H; [apply ok_inj in H; subst; reflexivity| |discriminate].
  destruct (names_of s) as [r|] eqn:E; [|discriminate]. injection H as <-. unfold listed. cbn [flat_map snd]. rewrite map_app. f_equal.
  - assert (forall k, ~ In (k, None) d) as M by (intros k I; apply N; exists n, d, k; split; [left; reflexivity|exact I]).
    clear -M. unfold there, dkeys. induction d as [|[k [e|]] d IH]; [reflexivity| |elim (M k (or_introl eq_refl))].
    cbn [flat_map snd fst app map]. f_equal. apply IH. intros k' I. exact (M k' (or_intror I)).
  - apply IH; auto. intros (n' & d' & k & I & K). apply N. exists n', d', k. split; [right; exact I|exact K].
Qed.
(** ** Coefficient files *)
Section WcRows.
Variable float_of_str : string -> option R.
Variable show_scale : R -> string.
Variable show : string -> C -> string.
Definition value_text (kz : string * C) : string := "| `" +++ fst kz +++ "` | " +++ show (fst kz) (snd kz) +++ " |".
Lemma value_text_name kz : lacks tick (fst kz) = true -> row_name (value_text kz) = fst kz.
Proof. intros H. exact (text_name (fst kz) (" | " +++ _) H). Qed.
Lemma value_text_value kz : lacks tick (fst kz) = true -> row_value (value_text kz) = show (fst kz) (snd kz).
Proof.
  intros H. unfold row_value. rewrite value_text_name by auto. unfold value_text.
  assert ("| `" +++ fst kz +++ "` | " +++ show (fst kz) (snd kz) +++ " |" = ("| `" +++ fst kz +++ "` | ") +++ show (fst kz) (snd kz) +++ " |") as ->.
  { rewrite !app_assoc. reflexivity. }
  assert (String.length ("| `" +++ fst kz +++ "` | ") = String.length (fst kz) + 7) as L by (cbn [String.append String.length]; rewrite app_length; simpl; lia).
  replace (String.length (fst kz) + 7) with (String.length ("| `" +++ fst kz +++ "` | ") + 0) by lia. rewrite sub_app.
  rewrite app_length, L, app_length. replace (_ - _ - 9) with (String.length (show (fst kz) (snd kz))) by (simpl (String.length " |"); lia). apply sub_all.
Qed.
Definition wc_head (o : wc) : string := "## WCxf Wilson coefficients" +++ nl +++ nl +++ "**EFT:** `" +++ wc_eft o +++ "`" +++ nl +++ nl +++
     "**Basis:** `" +++ wc_basis o +++ "`" +++ nl +++ nl +++ "**Scale:** " +++ show_scale (wc_scale o) +++ " GeV" +++ nl +++ nl +++
     "### Values" +++ nl +++ nl +++ "| WC name | Value |" +++ nl +++ "|" +++ dashes 20 +++ "|" +++ dashes 52 +++ "|" +++ nl.
Lemma wc_head_complete o : lacks nlc (wc_eft o) = true -> lacks nlc (wc_basis o) = true -> lacks nlc (show_scale (wc_scale o)) = true -> complete (wc_head o) [].
Proof.
  intros A B D. assert (wc_head o = ("## WCxf Wilson coefficients" +++ nl) +++ ("" +++ nl) +++ (("**EFT:** `" +++ wc_eft o +++ "`") +++ nl) +++ ("" +++ nl) +++
    (("**Basis:** `" +++ wc_basis o +++ "`") +++ nl) +++ ("" +++ nl) +++ (("**Scale:** " +++ show_scale (wc_scale o) +++ " GeV") +++ nl) +++ ("" +++ nl) +++
    ("### Values" +++ nl) +++ ("" +++ nl) +++ ("| WC name | Value |" +++ nl) +++ ("|--------------------|----------------------------------------------------|" +++ nl)) as ->.
  { unfold wc_head. rewrite !app_assoc. reflexivity. }
  assert (forall t, lacks nlc t = true -> is_row t = false -> complete (t +++ nl) []) as L by (intros t H N; pose proof (complete_line t H) as X; rewrite N in X; exact X).
  repeat (apply (complete_app _ [] _ []); [apply L; [rewrite ?lacks_app, ?A, ?B, ?D; reflexivity|reflexivity]|]). apply L; reflexivity.
Qed.
Definition text_ok (kz : string * C) : bool := named_ok (fst kz) && lacks nlc (show (fst kz) (snd kz)).
Lemma value_text_line kz : text_ok kz = true -> lacks nlc (value_text kz) = true.
Proof.
  unfold text_ok, named_ok, value_text. intros H. apply andb_true_iff in H. destruct H as [H1 H2]. apply andb_true_iff in H1. destruct H1 as [H1 _].
  rewrite !lacks_app, H1, H2. reflexivity.
Qed.
Lemma wc_rows_ok o c : lacks nlc (wc_eft o) = true -> lacks nlc (wc_basis o) = true -> lacks nlc (show_scale (wc_scale o)) = true ->
  fst (wc_dict float_of_str o) = Ok c -> forallb text_ok c = true ->
  exists m, wc_str float_of_str show_scale show o = (Ok m, snd (wc_dict float_of_str o)) /\ rows m = map value_text c.
Proof.
  intros A B D E T. exists (wc_head o +++ cat (map (wc_row show) c)). split.
  - unfold wc_str. destruct (wc_dict float_of_str o) as [d o']. cbn [fst snd] in *. subst d. cbn [bind]. unfold wc_head. rewrite !app_assoc. reflexivity.
  - apply complete_rows. apply (complete_app _ [] _ (map value_text c) (wc_head_complete o A B D)).
    replace (map value_text c) with (flat_map (fun kz => [value_text kz]) c) by (clear; induction c; simpl; congruence).
    apply complete_cat. intros kz I. rewrite forallb_forall in T. specialize (T kz I).
    replace (wc_row show kz) with (value_text kz +++ nl) by (unfold wc_row, value_text; rewrite !app_assoc; reflexivity).
    pose proof (complete_line _ (value_text_line kz T)) as X. unfold value_text at 2 in X. unfold is_row in X. rewrite prefix_app in X. exact X.
Qed.
End WcRows.
(** ** The whole text of a basis *)
Lemma intro_complete e b descr : lacks nlc e = true -> lacks nlc b = true ->
  complete (repr_markdown e b descr) (match descr with Some d => rows d | None => [] end).
Proof.
  intros A B. assert (complete ("# Basis `" +++ b +++ "` (EFT `" +++ e +++ "`)" +++ nl +++ nl) []) as H.
  { assert ("# Basis `" +++ b +++ "` (EFT `" +++ e +++ "`)" +++ nl +++ nl = (("# Basis `" +++ b +++ "` (EFT `" +++ e +++ "`)") +++ nl) +++ ("" +++ nl)) as -> by (rewrite !app_assoc; reflexivity).
    apply (complete_app _ [] _ []); [|exact (complete_line "" eq_refl)].
    assert (lacks nlc ("# Basis `" +++ b +++ "` (EFT `" +++ e +++ "`)") = true) as L by (rewrite !lacks_app, A, B; reflexivity).
    exact (complete_line _ L). }
  unfold repr_markdown. destruct descr as [d|].
  - assert ("# Basis `" +++ b +++ "` (EFT `" +++ e +++ "`)" +++ nl +++ nl +++ d +++ nl +++ nl = ("# Basis `" +++ b +++ "` (EFT `" +++ e +++ "`)" +++ nl +++ nl) +++ (d +++ nl) +++ ("" +++ nl)) as -> by (rewrite !app_assoc; reflexivity).
    apply (complete_app _ [] _ (rows d) H). rewrite <- (List.app_nil_r (rows d)). apply complete_app; [apply complete_lines|exact (complete_line "" eq_refl)].
  - rewrite app_nil. exact H.
Qed.
Lemma str_rows w id o s descr m : nth_error (w_objs w) id = Some o -> sectors_of w id = Some s -> lacks nlc (bo_eft o) = true -> lacks nlc (bo_basis o) = true ->
  forallb sector_lines s = true -> basis_str w id descr = Ok m -> rows m = (match descr with Some d => rows d | None => [] end) ++ map row_text (listed s).
Proof.
  intros N S A B L M. unfold basis_str in M. rewrite N, S in M. destruct (markdown_tables s) as [t|] eqn:T; [|discriminate]. apply ok_inj in M. subst m.
  rewrite (intro_complete _ _ descr A B). rewrite (tables_ok s t L T). reflexivity.
Qed.
Lemma str_cases w id o s descr : nth_error (w_objs w) id = Some o -> sectors_of w id = Some s ->
  (exists m, basis_str w id descr = Ok m) /\ ~ null_entry s \/ basis_str w id descr = Err TypeError /\ null_entry s.
Proof.
  intros N S. unfold basis_str. rewrite N, S. destruct (tables_cases s) as [((t & ->) & H)|(-> & H)]; [left|right]; split; auto. eexists. reflexivity.
Qed.
Lemma listed_good s ke : forallb sector_lines s = true -> In ke (listed s) -> lacks tick (fst ke) = true.
Proof.
  intros H I. unfold listed in I. apply in_flat_map in I. destruct I as ([n [d|]] & Is & I); [|destruct I]. cbn [snd] in I.
  rewrite forallb_forall in H. specialize (H _ Is). unfold sector_lines in H. cbn [snd fst] in H. apply andb_true_iff in H. destruct H as [_ H].
  unfold there in I. apply in_flat_map in I. destruct I as ([k [e|]] & Id & I); [|destruct I]. cbn [snd fst] in I. destruct I as [<-|[]].
  rewrite forallb_forall in H. specialize (H _ Id). unfold entry_lines, named_ok in H. cbn [fst snd] in H. do 2 (apply andb_true_iff in H; destruct H as [H ?]). assumption.
Qed.
