(** C62: str() of a basis and of a coefficient file (classes.py 278-315, 375-395). *)
From Coq Require Import String Ascii List Bool Arith Reals.
From Verif Require Import PyBase PyDict Cplx Bases Wc Markdown.
Import ListNotations.
Open Scope string_scope.
Open Scope list_scope.
Open Scope nat_scope.

(** One line of text: no newline; a name has no tick either. *)
Definition one_line (s : string) : Prop := lacks nlc s = true.
Definition plain_name (s : string) : Prop := one_line s /\ lacks tick s = true.
(** Sector names, names and TeX code of coefficients are such. *)
Definition printable (s : sectors) : Prop := forall n x, In (n, x) s -> one_line n /\
  forall d k e, x = Some d -> In (k, e) d -> plain_name k /\ forall y t, e = Some y -> e_tex y = Some t -> one_line t.
Lemma printable_ok s : printable s -> forallb sector_lines s = true.
Proof.
  intros P. apply forallb_forall. intros [n x] I. destruct (P n x I) as [A B]. unfold sector_lines. cbn [fst snd]. apply andb_true_iff. split; [exact A|].
  destruct x as [d|]; auto. apply forallb_forall. intros [k e] K. destruct (B d k e eq_refl K) as [[C1 C2] D]. unfold entry_lines, named_ok. cbn [fst snd].
  unfold one_line in *. rewrite C1, C2. destruct e as [y|]; auto. destruct (e_tex y) as [t|] eqn:T; auto. exact (D y t eq_refl T).
Qed.
(** [rows m]: the lines of the text [m] that begin with "| `".  They are one for each coefficient in the order of the file,
    with its name between ticks and R or C in the last column. *)
Theorem C62_rows : forall w id o s descr m, nth_error (w_objs w) id = Some o -> sectors_of w id = Some s -> one_line (bo_eft o) -> one_line (bo_basis o) ->
  printable s -> (forall d, descr = Some d -> rows d = []) -> basis_str w id descr = Ok m ->
  map (fun l => (row_name l, row_type l)) (rows m) =
  flat_map (fun sw => match snd sw with Some d => flat_map (fun ke => match snd ke with Some e => [(fst ke, Some (if e_real e then "R" else "C")%char)] | None => [] end) d | None => [] end) s.
Proof.
  intros w id o s descr m N S A B P D M. pose proof (printable_ok s P) as L. rewrite (str_rows w id o s descr m N S A B L M).
  replace (match descr with Some d => rows d | None => [] end) with (@nil string) by (destruct descr as [d|]; [rewrite (D d eq_refl)|]; reflexivity).
  cbn [app]. rewrite map_map.
  transitivity (map (fun ke : string * entry => (fst ke, Some (if e_real (snd ke) then "R" else "C")%char)) (listed s)).
  - apply map_ext_in. intros ke I. rewrite row_text_name by exact (listed_good s ke L I). rewrite row_text_type. reflexivity.
  - clear. unfold listed, there. induction s as [|[n [d|]] s IH]; auto. cbn [flat_map snd]. rewrite map_app, IH. f_equal. clear.
    induction d as [|[k [e|]] d IH]; auto. cbn [flat_map snd fst app map]. rewrite IH. reflexivity.
Qed.
(** So the table lists what [all_wcs] lists. *)
Theorem C62_all_wcs : forall w id o s descr m l, nth_error (w_objs w) id = Some o -> sectors_of w id = Some s -> bo_cache o = Some None ->
  one_line (bo_eft o) -> one_line (bo_basis o) -> printable s -> (forall d, descr = Some d -> rows d = []) -> basis_str w id descr = Ok m ->
  fst (all_wcs w id) = Ok l -> map row_name (rows m) = l.
Proof.
  intros w id o s descr m l N S Ca A B P D M Al. pose proof (printable_ok s P) as L. rewrite (str_rows w id o s descr m N S A B L M).
  replace (match descr with Some d => rows d | None => [] end) with (@nil string) by (destruct descr as [d|]; [rewrite (D d eq_refl)|]; reflexivity).
  cbn [app]. rewrite map_map. unfold all_wcs in Al. rewrite N, Ca, S in Al. destruct (names_of s) as [l'|] eqn:E; [|discriminate]. cbn [fst] in Al. injection Al as <-.
  destruct (str_cases w id o s descr N S) as [[_ Nu]|[X _]]; [|congruence]. rewrite <- (listed_names s l' Nu E).
  apply map_ext_in. intros ke I. apply row_text_name. exact (listed_good s ke L I).
Qed.
(** It fails exactly if a coefficient has no mapping (null) in the file, with TypeError. *)
Theorem C62_fails_iff : forall w id o s descr, nth_error (w_objs w) id = Some o -> sectors_of w id = Some s ->
  ((exists m, basis_str w id descr = Ok m) <-> ~ exists n d k, In (n, Some d) s /\ In (k, None) d) /\
  (basis_str w id descr = Err TypeError <-> exists n d k, In (n, Some d) s /\ In (k, None) d).
Proof.
  intros w id o s descr N S. destruct (str_cases w id o s descr N S) as [((m & E) & H)|(E & H)].
  - split; split; auto; [exists m; exact E|rewrite E; discriminate|intros Q; elim H; exact Q].
  - split; split; auto; [rewrite E; intros [m X]; discriminate|intros Q; elim Q; exact H].
Qed.
(** Such a file is valid: printing a validated basis can fail. *)
Theorem C62_validated_refuted : exists h id, basis_validate (fun _ => Ok true) (wrun h) id = Ok tt /\ fst (all_wcs (wrun h) id) = Ok ["C9"] /\
  basis_str (wrun h) id None = Err TypeError.
Proof.
  exists [NewEFT "WET" ["sb"]; NewBasis "WET" "flavio" None [("sb", Some [("C9", None)])]], 0. repeat split; reflexivity.
Qed.
(** Coefficient files: one row for each coefficient in [dict], and nothing but [dict] counts (so later changes of the values do
    not show, C10); printing reads [dict]. *)
Theorem C62_values : forall float_of_str show_scale show o c, one_line (wc_eft o) -> one_line (wc_basis o) -> one_line (show_scale (wc_scale o)) ->
  fst (wc_dict float_of_str o) = Ok c -> (forall k z, In (k, z) c -> plain_name k /\ one_line (show k z)) ->
  exists m, wc_str float_of_str show_scale show o = (Ok m, snd (wc_dict float_of_str o)) /\
    map (fun l => (row_name l, row_value l)) (rows m) = map (fun kz => (fst kz, show (fst kz) (snd kz))) c.
Proof.
  intros fs ss sh o c A B D E P.
  assert (forallb (text_ok sh) c = true) as T.
  { apply forallb_forall. intros [k z] I. destruct (P k z I) as [[P1 P2] P3]. unfold text_ok, named_ok. cbn [fst snd]. unfold one_line in *. rewrite P1, P2, P3. reflexivity. }
  destruct (wc_rows_ok fs ss sh o c A B D E T) as (m & M & R). exists m. split; [exact M|]. rewrite R, map_map. apply map_ext_in.
  intros [k z] I. destruct (P k z I) as [[_ P2] _]. rewrite value_text_name, value_text_value by exact P2. reflexivity.
Qed.
Theorem C62_values_fails : forall float_of_str show_scale show o x, fst (wc_dict float_of_str o) = Err x ->
  fst (wc_str float_of_str show_scale show o) = Err x.
Proof. intros fs ss sh o x E. unfold wc_str. destruct (wc_dict fs o) as [d o']. cbn [fst] in *. rewrite E. reflexivity. Qed.

Definition ex_basis : list wop := [NewEFT "WET" ["sb"; "dB"]; NewBasis "WET" "flavio" None
  [("sb", Some [("C9_bsmumu", Some (Entry (Some "O_9") false)); ("C10", Some (Entry None true))]); ("dB", None)]].
Example C62_case : exists o s m, nth_error (w_objs (wrun ex_basis)) 0 = Some o /\ sectors_of (wrun ex_basis) 0 = Some s /\ printable s /\
  one_line (bo_eft o) /\ one_line (bo_basis o) /\ basis_str (wrun ex_basis) 0 (Some "flavio basis") = Ok m /\ rows "flavio basis" = [] /\
  rows m = ["| `C9_bsmumu` | $O_9$ | C |"; "| `C10` | $$ | R |"].
Proof.
  do 3 eexists. split; [reflexivity|]. split; [reflexivity|]. split; [|repeat split; reflexivity].
  intros n x [I|[I|[]]]; injection I as <- <-; (split; [reflexivity|]); intros d k e H J; [|discriminate]. injection H as <-.
  destruct J as [J|[J|[]]]; injection J as <- <-; (split; [split; reflexivity|]); intros y t Y T; injection Y as <-; [injection T as <-; reflexivity|discriminate].
Qed.
Example C62_values_case : rows "a
| `C9` | 1.0 |
b" = ["| `C9` | 1.0 |"] /\ row_name "| `C9` | 1.0 |" = "C9" /\ row_value "| `C9` | 1.0 |" = "1.0" /\ plain_name "C9" /\ ~ plain_name "C`9".
Proof. repeat split; try reflexivity. intros [_ H]. discriminate. Qed.

Print Assumptions C62_rows.
Print Assumptions C62_all_wcs.
Print Assumptions C62_fails_iff.
Print Assumptions C62_validated_refuted.
Print Assumptions C62_values.
Print Assumptions C62_values_fails.
