(** C62: the text of str() of a basis and of a coefficient file, line by line (classes.py 278-315, 375-395). *)
From Coq Require Import String Ascii List Bool Arith Reals Lia.
From Verif Require Import PyBase PyDict Cplx Bases Wc Markdown P_Markdown.
Import ListNotations.
Open Scope string_scope.
Open Scope list_scope.
Open Scope nat_scope.
Local Notation "a +++ b" := (String.append a b) (at level 60, right associativity).

(** A line of the table: name, TeX code (or nothing), R for a real coefficient and C for a complex one *)
Definition table_row (ke : string * option entry) : string :=
  match snd ke with
  | Some e => "| `" +++ fst ke +++ "` | $" +++ (match e_tex e with Some t => t | None => "" end) +++ "$ | " +++ (if e_real e then "R" else "C") +++ " |"
  | None => ""
  end.
(** A sector: its heading, and a table unless it is null or empty *)
Definition sector_text (sw : string * sector) : list string :=
  ["### `" +++ fst sw +++ "`"; ""] ++
  match snd sw with
  | Some (x :: d) => ["| WC name | Operator | Type |"; "|------------------|------------------------------------------------|------|"] ++ map table_row (x :: d)
  | _ => []
  end.
Definition lagrangian : list string :=
  ["## Sectors"; ""; "The effective Lagrangian is defined as";
   "$$\mathcal L_\text{eff} = -\mathcal H_\text{eff} =\sum_{O_i= O_i^\dagger} C_i \, O_i + \sum_{O_i\neq O_i^\dagger}\left( C_i \, O_i + C^*_i \, O^\dagger_i\right).$$"; ""].

Definition whole (t : string) (l : list string) : Prop := forall b, lines (t +++ b) = l ++ lines b.
Lemma whole_line a : one_line a -> whole (a +++ nl) [a].
Proof. intros H b. rewrite app_assoc, lines_cons by exact H. reflexivity. Qed.
Lemma whole_lines a : whole (a +++ nl) (lines a).
Proof. intros b. rewrite app_assoc, lines_app. reflexivity. Qed.
Lemma whole_app a l b k : whole a l -> whole b k -> whole (a +++ b) (l ++ k).
Proof. intros A B c. rewrite app_assoc, A, B. apply List.app_assoc. Qed.
Lemma whole_nil : whole "" [].
Proof. intros b. reflexivity. Qed.
Lemma whole_end a l : whole a l -> lines a = l ++ [""].
Proof. intros H. rewrite <- (app_nil a), (H ""). reflexivity. Qed.
Lemma whole_rows d l : forallb entry_lines d = true -> mapM basis_row d = Ok l -> whole (cat l) (map table_row d).
Proof.
  revert l. induction d as [|[k [e|]] d IH]; intros l H M.
  - apply ok_inj in M; subst. exact whole_nil.
  - cbn [forallb] in H. apply andb_true_iff in H. destruct H as [H1 H2]. unfold mapM in M. cbn [map sequence] in M. rewrite basis_row_ok in M. cbn [bind] in M.
    fold (mapM basis_row d) in M. destruct (mapM basis_row d) as [r|] eqn:E; [|discriminate]. apply ok_inj in M; subst.
    rewrite cat_cons. cbn [map]. apply (whole_app _ [table_row (k, Some e)] _ _ (whole_line _ (row_text_line (k, e) H1)) (IH r H2 eq_refl)).
  - unfold mapM in M. cbn [map sequence] in M. discriminate.
Qed.
Lemma whole_head n : one_line n -> whole ("### `" +++ n +++ "`" +++ nl +++ nl) ["### `" +++ n +++ "`"; ""].
Proof.
  intros H. assert ("### `" +++ n +++ "`" +++ nl +++ nl = (("### `" +++ n +++ "`") +++ nl) +++ ("" +++ nl)) as -> by (rewrite !app_assoc; reflexivity).
  apply (whole_app _ [_] _ [_]); apply whole_line; [|reflexivity]. unfold one_line in *. rewrite !lacks_app, H. reflexivity.
Qed.
Lemma whole_sector sw m : sector_lines sw = true -> sector_md sw = Ok m -> whole m (sector_text sw).
Proof.
  unfold sector_lines, sector_md, sector_text. destruct sw as [n [[|ke d]|]]; cbn [fst snd]; intros H M; apply andb_true_iff in H; destruct H as [H1 H2].
  - apply ok_inj in M; subst. apply whole_head; auto.
  - destruct (mapM basis_row (ke :: d)) as [l|] eqn:E; [|discriminate]. apply ok_inj in M; subst.
    assert ("### `" +++ n +++ "`" +++ nl +++ nl +++ head_row +++ rule_row +++ cat l = ("### `" +++ n +++ "`" +++ nl +++ nl) +++ (("| WC name | Operator | Type |" +++ nl) +++ (("|------------------|------------------------------------------------|------|" +++ nl) +++ cat l))) as ->
      by (rewrite !app_assoc; reflexivity).
    apply whole_app; [apply whole_head; exact H1|]. apply (whole_app _ [_]); [apply whole_line; reflexivity|]. apply (whole_app _ [_]); [apply whole_line; reflexivity|].
    apply whole_rows; assumption.
  - apply ok_inj in M; subst. apply whole_head; auto.
Qed.
Lemma whole_tables s m : forallb sector_lines s = true -> markdown_tables s = Ok m -> whole m (lagrangian ++ flat_map sector_text s).
Proof.
  intros H M. unfold markdown_tables in M. destruct (mapM sector_md s) as [l|] eqn:E; [|discriminate]. apply ok_inj in M; subst.
  apply whole_app; [intros b; reflexivity|]. revert l E. induction s as [|sw s IH]; intros l E; [apply ok_inj in E; subst; exact whole_nil|].
  cbn [forallb] in H. apply andb_true_iff in H. destruct H as [H1 H2]. unfold mapM in E. cbn [map sequence] in E. destruct (sector_md sw) as [m|] eqn:Em; [|discriminate]. cbn [bind] in E.
  fold (mapM sector_md s) in E. destruct (mapM sector_md s) as [r|] eqn:Er; [|discriminate]. apply ok_inj in E; subst.
  rewrite cat_cons. cbn [flat_map]. apply whole_app; [exact (whole_sector sw m H1 Em)|exact (IH H2 r eq_refl)].
Qed.
(** C62: a basis prints as its name, its description, the convention for the Lagrangian and one block for each sector, in the order of the file. *)
Theorem C62_document : forall w id o s descr m, nth_error (w_objs w) id = Some o -> sectors_of w id = Some s -> one_line (bo_eft o) -> one_line (bo_basis o) ->
  printable s -> basis_str w id descr = Ok m ->
  lines m = ["# Basis `" +++ bo_basis o +++ "` (EFT `" +++ bo_eft o +++ "`)"; ""] ++ match descr with Some d => lines d ++ [""] | None => [] end ++
    lagrangian ++ flat_map sector_text s ++ [""].
Proof.
  intros w id o s descr m N S A B P M. pose proof (printable_ok s P) as L. unfold basis_str in M. rewrite N, S in M.
  destruct (markdown_tables s) as [t|] eqn:T; [|discriminate]. apply ok_inj in M. subst m. pose proof (whole_tables s t L T) as W.
  assert (whole (repr_markdown (bo_eft o) (bo_basis o) descr) (["# Basis `" +++ bo_basis o +++ "` (EFT `" +++ bo_eft o +++ "`)"; ""] ++ match descr with Some d => lines d ++ [""] | None => [] end)) as R.
  { unfold repr_markdown.
    assert (forall x, "# Basis `" +++ bo_basis o +++ "` (EFT `" +++ bo_eft o +++ "`)" +++ nl +++ nl +++ x = (("# Basis `" +++ bo_basis o +++ "` (EFT `" +++ bo_eft o +++ "`)") +++ nl) +++ ("" +++ nl) +++ x) as Q by (intros x; rewrite !app_assoc; reflexivity).
    rewrite Q. apply (whole_app _ [_]); [apply whole_line; unfold one_line in *; rewrite !lacks_app, A, B; reflexivity|]. apply (whole_app _ [_]); [apply whole_line; reflexivity|].
    destruct descr as [d|]; [|exact whole_nil]. rewrite <- app_assoc. apply whole_app; [apply whole_lines|apply (whole_line ""); reflexivity]. }
  rewrite (whole_end _ _ (whole_app _ _ _ _ R W)). rewrite <- !List.app_assoc. reflexivity.
Qed.
(** C62: and a coefficient file as its EFT, basis and scale and one row for each coefficient. *)
Theorem C62_file : forall float_of_str show_scale show o c, one_line (wc_eft o) -> one_line (wc_basis o) -> one_line (show_scale (wc_scale o)) ->
  fst (wc_dict float_of_str o) = Ok c -> (forall k z, In (k, z) c -> one_line k /\ one_line (show k z)) ->
  exists m, fst (wc_str float_of_str show_scale show o) = Ok m /\
    lines m = ["## WCxf Wilson coefficients"; ""; "**EFT:** `" +++ wc_eft o +++ "`"; ""; "**Basis:** `" +++ wc_basis o +++ "`"; "";
      "**Scale:** " +++ show_scale (wc_scale o) +++ " GeV"; ""; "### Values"; ""; "| WC name | Value |"; "|--------------------|----------------------------------------------------|"] ++
      map (fun kz => "| `" +++ fst kz +++ "` | " +++ show (fst kz) (snd kz) +++ " |") c ++ [""].
Proof.
  intros fs show_scale show o c A B D Q K. unfold wc_str. destruct (wc_dict fs o) as [r o']. cbn [fst] in *. subst r. cbn [bind]. eexists. split; [reflexivity|].
  assert (whole (cat (map (wc_row show) c)) (map (fun kz => "| `" +++ fst kz +++ "` | " +++ show (fst kz) (snd kz) +++ " |") c)) as W.
  { clear - K. induction c as [|[k z] c IH]; [exact whole_nil|]. cbn [map]. rewrite cat_cons. apply (whole_app _ [_]).
    - destruct (K k z (or_introl eq_refl)) as [K1 K2]. unfold wc_row. cbn [fst snd].
      assert ("| `" +++ k +++ "` | " +++ show k z +++ " |" +++ nl = ("| `" +++ k +++ "` | " +++ show k z +++ " |") +++ nl) as -> by (rewrite !app_assoc; reflexivity).
      apply whole_line. unfold one_line in *. rewrite !lacks_app, K1, K2. reflexivity.
    - apply IH. intros k' z' I. exact (K k' z' (or_intror I)). }
  assert (forall x, "## WCxf Wilson coefficients" +++ nl +++ nl +++ "**EFT:** `" +++ wc_eft o +++ "`" +++ nl +++ nl +++ "**Basis:** `" +++ wc_basis o +++ "`" +++ nl +++ nl +++ "**Scale:** " +++ show_scale (wc_scale o) +++ " GeV" +++ nl +++ nl +++
    "### Values" +++ nl +++ nl +++ "| WC name | Value |" +++ nl +++ "|" +++ dashes 20 +++ "|" +++ dashes 52 +++ "|" +++ nl +++ x =
    "## WCxf Wilson coefficients" +++ nl +++ "" +++ nl +++ ("**EFT:** `" +++ wc_eft o +++ "`") +++ nl +++ "" +++ nl +++ ("**Basis:** `" +++ wc_basis o +++ "`") +++ nl +++ "" +++ nl +++ ("**Scale:** " +++ show_scale (wc_scale o) +++ " GeV") +++ nl +++ "" +++ nl +++
    "### Values" +++ nl +++ "" +++ nl +++ "| WC name | Value |" +++ nl +++ "|--------------------|----------------------------------------------------|" +++ nl +++ x) as E by (intros x; rewrite !app_assoc; reflexivity).
  rewrite E. unfold one_line in *. rewrite !lines_cons by (first [reflexivity|rewrite ?lacks_app, ?A, ?B, ?D; reflexivity]). rewrite (whole_end _ _ W). reflexivity.
Qed.
(** The hypotheses are those of C62_case (P_Markdown.v), where the sector dB is null. *)
Example C62_document_case : exists o s m, nth_error (w_objs (wrun ex_basis)) 0 = Some o /\ sectors_of (wrun ex_basis) 0 = Some s /\ printable s /\
  one_line (bo_eft o) /\ one_line (bo_basis o) /\ basis_str (wrun ex_basis) 0 (Some "flavio basis") = Ok m /\
  lines m = ["# Basis `flavio` (EFT `WET`)"; ""; "flavio basis"; ""] ++ lagrangian ++
    ["### `sb`"; ""; "| WC name | Operator | Type |"; "|------------------|------------------------------------------------|------|";
     "| `C9_bsmumu` | $O_9$ | C |"; "| `C10` | $$ | R |"; "### `dB`"; ""; ""].
Proof.
  destruct C62_case as (o & s & m & N & S & P & A & B & M & _). exists o, s, m. repeat (split; [assumption|]).
  rewrite (C62_document _ _ o s _ m N S A B P M). vm_compute in N. vm_compute in S. injection N as <-. injection S as <-. reflexivity.
Qed.
Example C62_file_case : exists m, fst (wc_str (fun _ => None) (fun _ => "91.1876") (fun _ _ => "(1+2j)") (WCobj "WET" "flavio" 91%R [] (Some [("C9_bsmumu", (1%R, 2%R))]))) = Ok m /\
  lines m = ["## WCxf Wilson coefficients"; ""; "**EFT:** `WET`"; ""; "**Basis:** `flavio`"; ""; "**Scale:** 91.1876 GeV"; ""; "### Values"; ""; "| WC name | Value |";
    "|--------------------|----------------------------------------------------|"; "| `C9_bsmumu` | (1+2j) |"; ""].
Proof.
  destruct (C62_file (fun _ => None) (fun _ => "91.1876") (fun _ _ => "(1+2j)") (WCobj "WET" "flavio" 91%R [] (Some [("C9_bsmumu", (1%R, 2%R))])) [("C9_bsmumu", (1%R, 2%R))]) as (m & M & L);
    try reflexivity; [|exists m; split; [exact M|rewrite L; reflexivity]].
  intros k z [I|[]]. injection I as <- <-. split; reflexivity.
Qed.
(** ** The text determines what it shows *)
(** What is shown of a basis: null sectors and empty ones, and missing and empty TeX code, look the same. *)
Definition shown (s : sectors) : list (string * list (string * option (string * bool))) :=
  map (fun sw => (fst sw, map (fun ke => (fst ke, match snd ke with Some e => Some (match e_tex e with Some t => t | None => "" end, e_real e) | None => None end))
    (match snd sw with Some d => d | None => [] end))) s.
Lemma same_end a b x y : String.length x = String.length y -> a +++ x = b +++ y -> a = b /\ x = y.
Proof.
  intros L. revert b. induction a as [|c a IH]; intros [|e b] H; cbn [String.append] in H.
  - auto.
  - exfalso. apply (f_equal String.length) in H. cbn [String.length] in H. rewrite app_length in H. lia.
  - exfalso. apply (f_equal String.length) in H. cbn [String.length] in H. rewrite app_length in H. lia.
  - injection H as -> H. destruct (IH b H) as [-> ->]. auto.
Qed.
Lemma same_upto c a b x y : lacks c a = true -> lacks c b = true -> a +++ String c x = b +++ String c y -> a = b /\ x = y.
Proof.
  intros A B H. pose proof (f_equal (upto c) H) as U. rewrite !upto_app in U by assumption. subst b. split; auto.
  clear A B. induction a as [|e a IH]; cbn [String.append] in H; injection H as H; auto.
Qed.
Lemma row_inj k e k' e' : lacks tick k = true -> lacks tick k' = true -> table_row (k, Some e) = table_row (k', Some e') ->
  k = k' /\ match e_tex e with Some t => t | None => "" end = match e_tex e' with Some t => t | None => "" end /\ e_real e = e_real e'.
Proof.
  unfold table_row. cbn [fst snd]. intros A B H. cbn [String.append] in H. injection H as H. destruct (same_upto tick _ _ _ _ A B H) as [-> T]. split; auto.
  cbn [String.append] in T. injection T as T. apply same_end in T; [|destruct (e_real e), (e_real e'); reflexivity]. destruct T as [-> U]. split; auto.
  destruct (e_real e), (e_real e'); auto; discriminate.
Qed.
(** What follows a table: a heading or the end *)
Definition after (l : list string) : Prop := l = [""] \/ exists n r, l = ("### `" +++ n) :: r.
Lemma after_tail s : after (flat_map sector_text s ++ [""]).
Proof. destruct s as [|sw s]; [left; reflexivity|]. right. do 2 eexists. reflexivity. Qed.
Definition entries (d : dict string (option entry)) := map (fun ke : string * option entry => (fst ke, match snd ke with Some e => Some (match e_tex e with Some t => t | None => "" end, e_real e) | None => None end)) d.
Definition all_there (d : dict string (option entry)) : Prop := forall k e, In (k, e) d -> lacks tick k = true /\ e <> None.
Lemma rows_inj d d' r r' : all_there d -> all_there d' -> after r -> after r' -> map table_row d ++ r = map table_row d' ++ r' -> entries d = entries d' /\ r = r'.
Proof.
  revert d'. induction d as [|[k e] d IH]; intros [|[k' e'] d'] A A' R R' H.
  - auto.
  - exfalso. destruct (A' k' e' (or_introl eq_refl)) as [_ N]. destruct e' as [e'|]; [|congruence]. cbn [map app] in H. destruct R as [->|(n & q & ->)]; injection H as H _; discriminate.
  - exfalso. destruct (A k e (or_introl eq_refl)) as [_ N]. destruct e as [e|]; [|congruence]. cbn [map app] in H. destruct R' as [->|(n & q & ->)]; injection H as H _; discriminate.
  - destruct (A k e (or_introl eq_refl)) as [K N]. destruct e as [e|]; [|congruence]. destruct (A' k' e' (or_introl eq_refl)) as [K' N']. destruct e' as [e'|]; [|congruence].
    cbn [map app] in H. assert (table_row (k, Some e) = table_row (k', Some e')) as H1 by congruence. assert (map table_row d ++ r = map table_row d' ++ r') as H2 by congruence.
    destruct (row_inj k e k' e' K K' H1) as (-> & T & Re). destruct (IH d' (fun a b i => A a b (or_intror i)) (fun a b i => A' a b (or_intror i)) R R' H2) as [E ->].
    split; auto. unfold entries in *. cbn [map fst snd]. rewrite T, Re, E. reflexivity.
Qed.
Definition fine (s : sectors) : Prop := forall n d, In (n, Some d) s -> all_there d.
Lemma sectors_inj s s' : fine s -> fine s' -> flat_map sector_text s ++ [""] = flat_map sector_text s' ++ [""] -> shown s = shown s'.
Proof.
  revert s'. induction s as [|[n x] s IH]; intros [|[n' x'] s'] A A' H.
  - reflexivity.
  - exfalso. cbn in H. discriminate.
  - exfalso. cbn in H. discriminate.
  - cbn [flat_map] in H. unfold sector_text at 1 3 in H. cbn [fst snd] in H. rewrite <- !List.app_assoc in H. cbn [app] in H. apply (f_equal (fun l => (hd "" l, tl (tl l)))) in H.
    cbn [hd tl] in H. assert ("### `" +++ n +++ "`" = "### `" +++ n' +++ "`") as H1 by congruence. apply (f_equal snd) in H. cbn [snd] in H.
    cbn [String.append] in H1. injection H1 as H1. destruct (same_end _ _ _ _ eq_refl H1) as [-> _].
    assert (fine s) as F by (intros a b i; exact (A a b (or_intror i))). assert (fine s') as F' by (intros a b i; exact (A' a b (or_intror i))).
    pose proof (after_tail s) as R. pose proof (after_tail s') as R'. pose proof (IH s' F F') as J.
    assert (entries (match x with Some d => d | None => [] end) = entries (match x' with Some d => d | None => [] end) /\ flat_map sector_text s ++ [""] = flat_map sector_text s' ++ [""]) as [E Q].
    { destruct x as [[|u d]|], x' as [[|u' d']|]; auto;
        try (exfalso; cbn [app] in H; first [destruct R as [R|(? & ? & R)]; rewrite R in H; discriminate | destruct R' as [R'|(? & ? & R')]; rewrite R' in H; discriminate]).
      apply (f_equal (fun l => tl (tl l))) in H. cbn [app tl] in H. apply rows_inj; auto; [exact (A n' _ (or_introl eq_refl))|exact (A' n' _ (or_introl eq_refl))]. }
    apply (f_equal2 cons); [|exact (J Q)]. exact (f_equal (pair n') E).
Qed.
Lemma str_fine w id o s descr m : nth_error (w_objs w) id = Some o -> sectors_of w id = Some s -> printable s -> basis_str w id descr = Ok m -> fine s.
Proof.
  intros N S P M n d I k e K. destruct (P n (Some d) I) as [_ Q]. destruct (Q d k e eq_refl K) as [[_ T] _]. split; [exact T|]. intros ->.
  destruct (C62_fails_iff w id o s descr N S) as [[F _] _]. apply F; [exists m; exact M|]. exists n, d, k. auto.
Qed.
(** C62: two bases with the same description and the same text have the same name, EFT and sectors, with the same coefficients, TeX codes and types
    in the same order. *)
Theorem C62_determines : forall w id o s w' id' o' s' descr m,
  nth_error (w_objs w) id = Some o -> sectors_of w id = Some s -> one_line (bo_eft o) -> plain_name (bo_basis o) -> printable s ->
  nth_error (w_objs w') id' = Some o' -> sectors_of w' id' = Some s' -> one_line (bo_eft o') -> plain_name (bo_basis o') -> printable s' ->
  basis_str w id descr = Ok m -> basis_str w' id' descr = Ok m ->
  bo_eft o = bo_eft o' /\ bo_basis o = bo_basis o' /\ shown s = shown s'.
Proof.
  intros w id o s w' id' o' s' descr m N S A [B T] P N' S' A' [B' T'] P' M M'.
  pose proof (C62_document w id o s descr m N S A B P M) as D. rewrite (C62_document w' id' o' s' descr m N' S' A' B' P' M') in D. cbn [app] in D.
  assert ("# Basis `" +++ bo_basis o' +++ "` (EFT `" +++ bo_eft o' +++ "`)" = "# Basis `" +++ bo_basis o +++ "` (EFT `" +++ bo_eft o +++ "`)") as H by congruence.
  apply (f_equal (fun l => tl (tl l))) in D. cbn [tl] in D. apply app_inv_head in D. apply app_inv_head in D.
  cbn [String.append] in H. injection H as H. destruct (same_upto tick _ _ _ _ T' T H) as [E1 H2]. cbn [String.append] in H2. injection H2 as H2.
  destruct (same_end _ _ _ _ eq_refl H2) as [E2 _]. split; [auto|]. split; [auto|].
  symmetry. apply sectors_inj; [exact (str_fine w' id' o' s' descr m N' S' P' M')|exact (str_fine w id o s descr m N S P M)|exact D].
Qed.
(** Null and empty sectors look the same (ex_basis has the null sector dB), so the text does not determine more. *)
Definition ex_empty : list wop := [NewEFT "WET" ["sb"; "dB"]; NewBasis "WET" "flavio" None
  [("sb", Some [("C9_bsmumu", Some (Entry (Some "O_9") false)); ("C10", Some (Entry (Some "") true))]); ("dB", Some [])]].
Example C62_determines_case : exists m, basis_str (wrun ex_basis) 0 (Some "flavio basis") = Ok m /\ basis_str (wrun ex_empty) 0 (Some "flavio basis") = Ok m /\
  sectors_of (wrun ex_basis) 0 <> sectors_of (wrun ex_empty) 0 /\ exists s', sectors_of (wrun ex_empty) 0 = Some s' /\ printable s' /\
  shown s' = [("sb", [("C9_bsmumu", Some ("O_9", false)); ("C10", Some ("", true))]); ("dB", [])].
Proof.
  eexists. split; [vm_compute; reflexivity|]. split; [vm_compute; reflexivity|]. split; [vm_compute; discriminate|]. eexists. split; [reflexivity|]. split; [|reflexivity].
  intros n x [I|[I|[]]]; injection I as <- <-; (split; [reflexivity|]); intros d k e H J; injection H as <-; [|destruct J].
  destruct J as [J|[J|[]]]; injection J as <- <-; (split; [split; reflexivity|]); intros y t Y T; injection Y as <-; injection T as <-; reflexivity.
Qed.
(** C62: the text of a coefficient file determines its EFT, basis, formatted scale, and names and formatted values. *)
Theorem C62_file_determines : forall float_of_str show_scale show o c o' c' m,
  one_line (wc_eft o) -> one_line (wc_basis o) -> one_line (show_scale (wc_scale o)) -> fst (wc_dict float_of_str o) = Ok c -> (forall k z, In (k, z) c -> plain_name k /\ one_line (show k z)) ->
  one_line (wc_eft o') -> one_line (wc_basis o') -> one_line (show_scale (wc_scale o')) -> fst (wc_dict float_of_str o') = Ok c' -> (forall k z, In (k, z) c' -> plain_name k /\ one_line (show k z)) ->
  fst (wc_str float_of_str show_scale show o) = Ok m -> fst (wc_str float_of_str show_scale show o') = Ok m ->
  wc_eft o = wc_eft o' /\ wc_basis o = wc_basis o' /\ show_scale (wc_scale o) = show_scale (wc_scale o') /\
  map (fun kz => (fst kz, show (fst kz) (snd kz))) c = map (fun kz => (fst kz, show (fst kz) (snd kz))) c'.
Proof.
  intros fs ss sh o c o' c' m A B D E K A' B' D' E' K' M M'.
  destruct (C62_file fs ss sh o c A B D E (fun k z i => conj (proj1 (proj1 (K k z i))) (proj2 (K k z i)))) as (x & X & L).
  destruct (C62_file fs ss sh o' c' A' B' D' E' (fun k z i => conj (proj1 (proj1 (K' k z i))) (proj2 (K' k z i)))) as (x' & X' & L').
  assert (x = m) by congruence. assert (x' = m) by congruence. subst x x'. rewrite L in L'. cbn [app] in L'.
  pose proof (f_equal (fun l => nth 2 l "") L') as H1. pose proof (f_equal (fun l => nth 4 l "") L') as H2. pose proof (f_equal (fun l => nth 6 l "") L') as H3. pose proof (f_equal (skipn 12) L') as H4.
  cbn [nth String.append] in H1, H2, H3. cbn [skipn] in H4. injection H1 as H1. injection H2 as H2. injection H3 as H3.
  apply same_end in H1; [|reflexivity]. apply same_end in H2; [|reflexivity]. apply same_end in H3; [|reflexivity].
  split; [apply H1|]. split; [apply H2|]. split; [apply H3|]. apply app_inv_tail in H4. clear - H4 K K'. revert c' K' H4.
  induction c as [|[k z] c IH]; intros [|[k' z'] c'] K' H; try discriminate; auto. cbn [map fst snd] in H.
  assert ("| `" +++ k +++ "` | " +++ sh k z +++ " |" = "| `" +++ k' +++ "` | " +++ sh k' z' +++ " |") as H1 by congruence. assert (tl (map (fun kz => "| `" +++ fst kz +++ "` | " +++ sh (fst kz) (snd kz) +++ " |") ((k, z) :: c)) = tl (map (fun kz => "| `" +++ fst kz +++ "` | " +++ sh (fst kz) (snd kz) +++ " |") ((k', z') :: c'))) as H2 by (exact (f_equal (@tl string) H)).
  cbn [map tl] in H2. destruct (K k z (or_introl eq_refl)) as [[_ T] _]. destruct (K' k' z' (or_introl eq_refl)) as [[_ T'] _].
  cbn [String.append] in H1. injection H1 as H1. destruct (same_upto tick _ _ _ _ T T' H1) as [-> H3]. cbn [String.append] in H3. injection H3 as H3. apply same_end in H3; [|reflexivity]. destruct H3 as [H3 _].
  cbn [map fst snd]. rewrite H3. apply (f_equal2 cons); [reflexivity|]. exact (IH (fun a b i => K a b (or_intror i)) c' (fun a b i => K' a b (or_intror i)) H2).
Qed.
(** The hypotheses hold for the file of C62_file_case, whose name has no tick. *)
Example C62_file_determines_case : plain_name "C9_bsmumu" /\ one_line "(1+2j)" /\ one_line "91.1876" /\
  fst (wc_dict (fun _ => None) (WCobj "WET" "flavio" 91%R [] (Some [("C9_bsmumu", (1%R, 2%R))]))) = Ok [("C9_bsmumu", (1%R, 2%R))].
Proof. repeat split; reflexivity. Qed.
Print Assumptions C62_document.
Print Assumptions C62_file.
Print Assumptions C62_determines.
Print Assumptions C62_file_determines.
