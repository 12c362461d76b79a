(** C74: JSON texts.  The printer and the reader of the json package are those of JsonText.v; the text and the value of a
    number ([num_text], [num_value]) and characters above 255 ([wide]) are variables. *)
From Coq Require Import String Ascii List Bool Arith ZArith Reals Lra Lia.
From Verif Require Import PyBase PyDict Wc Dump JsonText JsonFacts JsonMore JsonSpec JsonGrammar P_Classes Cli Package PackMatch Tool P_Tool ToolConv P_ToolConv
  Args ArgsFacts ArgsForms ArgsThm ArgsAny P_Args Session P_Session.
From Verif Require Bases.
Import ListNotations.
Open Scope string_scope.
Open Scope list_scope.
Open Scope nat_scope.

Definition ascii_line (c : ascii) : Prop := 32 <= nat_of_ascii c <= 126 \/ nat_of_ascii c = 10.
Definition key_letter (c : ascii) : Prop := In c (list_ascii_of_string "abcdefghijklmnopqrstuvwxyzABCDEFGHIJKLMNOPQRSTUVWXYZ_").
Lemma white_all s : white s -> skip s = "".
Proof.
  unfold white. induction s as [|c s IH]; [reflexivity|]. cbn [list_ascii_of_string]. intros H. inversion H as [|? ? C S]; subst. cbn [skip].
  assert (W : is_ws c = true) by (destruct c as [[] [] [] [] [] [] [] []]; try reflexivity; exfalso; cbn in C; repeat (destruct C as [C|C]; [discriminate|]); exact C).
  rewrite W. apply IH, S.
Qed.
Lemma key_letter_letter c : key_letter c -> letter c = true.
Proof. unfold key_letter. cbn. intros H. repeat (destruct H as [<-|H]; [reflexivity|]). destruct H. Qed.

Section C74.
Variable num_text : R -> string.
Variable num_value : string -> R.
Variable wide : nat -> string.
Notation written := (written num_text num_value).
Notation loads := (json_loads num_value wide).
Notation dumps := (json_dumps num_text).

(** Reading what was written, for any indentation and with any white space around. *)
Theorem C74_roundtrip : forall indent d a b, written d -> white a -> white b -> loads (a ++ dumps indent d ++ b) = Ok d.
Proof. intros indent d a b W A B. exact (around num_value wide num_text indent a b d (written_doc _ _ d W) (white_all a A) (white_all b B)). Qed.
(** Different documents have different texts, even if indented differently. *)
Theorem C74_injective : forall i i' d d', written d -> written d' -> dumps i d = dumps i' d' -> d = d'.
Proof.
  intros i i' d d' W W' E. assert (H : Ok d = Ok d'); [|congruence].
  rewrite <- (loads_dumps num_value wide num_text i d (written_doc _ _ d W)), <- (loads_dumps num_value wide num_text i' d' (written_doc _ _ d' W')), E. reflexivity.
Qed.
(** The text has only printable ASCII characters and line feeds, whatever the strings contain. *)
Theorem C74_ascii : forall i d c, written d -> In c (list_ascii_of_string (dumps i d)) -> ascii_line c.
Proof.
  intros i d c W H. pose proof (plain_pr num_value num_text i d 0 "" (written_doc _ _ d W)) as P. fold (dumps i d) in P. cbn [plain_text] in P.
  induction (dumps i d) as [|x s IH]; [destruct H|]. cbn [plain_text] in P. apply andb_true_iff in P. destruct P as [P Q]. destruct H as [->|H]; [|auto].
  unfold plain_char in P. apply orb_true_iff in P. destruct P as [P|P].
  - apply andb_true_iff in P. destruct P as [P1 P2]. left. split; apply Nat.leb_le; assumption.
  - right. apply Nat.eqb_eq. exact P.
Qed.
(** How strings are written: character by character, printable ASCII as it is, and the rest with a backslash. *)
Definition as_is (c : ascii) : Prop := 32 <= nat_of_ascii c <= 126 /\ c <> """"%char /\ c <> "\"%char.
Lemma chars_app s t : chars s t = (chars s "" ++ t)%string.
Proof.
  revert t. induction s as [|c s IH]; intros t; [reflexivity|]. cbn [chars]. rewrite (IH t). generalize (chars s ""). intros u. unfold esc.
  repeat match goal with |- (if ?b then _ else _) = _ => destruct b; [reflexivity|] end. reflexivity.
Qed.
Theorem C74_escapes : exists body : string -> string,
  (forall i s, dumps i (DStr s) = ("""" ++ body s ++ """")%string) /\
  (forall a b, body (a ++ b)%string = (body a ++ body b)%string) /\
  body "" = ""%string /\ body """" = "\"""%string /\ body "\" = "\\"%string /\
  (forall n e, In (n, e) [(8, "\b"); (9, "\t"); (10, "\n"); (12, "\f"); (13, "\r")]%string -> body (String (ascii_of_nat n) "") = e) /\
  (forall c, as_is c -> body (String c "") = String c "") /\
  (forall c, ~ as_is c -> ~ In (nat_of_ascii c) [34; 92; 8; 9; 10; 12; 13] ->
     exists h l, body (String c "") = ("\u00" ++ String h (String l ""))%string /\
       String.get (nat_of_ascii c / 16) "0123456789abcdef" = Some h /\ String.get (nat_of_ascii c mod 16) "0123456789abcdef" = Some l).
Proof.
  exists (fun s => chars s ""). split; [|split; [|repeat (split; [reflexivity|])]].
  - intros i s. unfold JsonText.json_dumps. cbn [pr]. unfold quoted. cbn [append]. f_equal. apply chars_app.
  - intros a b. induction a as [|c a IH]; [reflexivity|]. change (String c a ++ b)%string with (String c (a ++ b)%string). cbn [chars]. rewrite IH.
    generalize (chars a "") (chars b ""). intros u v. unfold esc. repeat match goal with |- (if ?b then _ else _) = _ => destruct b; [reflexivity|] end. reflexivity.
  - split; [|split].
    + intros n e I. cbn [In] in I. repeat (destruct I as [I|I]; [injection I as <- <-; reflexivity|]). contradiction.
    + intros c (B & N1 & N2). revert B N1 N2. destruct c as [[] [] [] [] [] [] [] []]; cbn; intros B N1 N2; first [reflexivity | exfalso; lia | destruct (N1 eq_refl) | destruct (N2 eq_refl)].
    + intros c A I. assert (nat_of_ascii c < 32 \/ 126 < nat_of_ascii c) as B.
      { destruct (Nat.le_gt_cases 32 (nat_of_ascii c)); [|lia]. destruct (Nat.le_gt_cases (nat_of_ascii c) 126); [|lia]. exfalso. apply A. split; [lia|].
        split; intros ->; apply I; cbn; tauto. }
      clear A. revert B I. destruct c as [[] [] [] [] [] [] [] []]; cbn; intros B I; first [eexists _, _; split; [reflexivity|split; reflexivity] | exfalso; lia | exfalso; apply I; tauto].
Qed.
(** A file that was cut off anywhere is not taken for a complete one. *)
Theorem C74_cut_off : forall i m p q, written (DMap m) -> q <> "" -> dumps i (DMap m) = (p ++ q)%string -> loads p = Err JSONDecodeError.
Proof. intros i m p q W. exact (cut_off num_value wide num_text i (DMap m) p q (written_doc _ _ _ W) I). Qed.
(** Whatever the text is, the only exception is JSONDecodeError, so that the YAML reader is tried. *)
Theorem C74_errors : forall s, (exists d, loads s = Ok d) \/ loads s = Err JSONDecodeError.
Proof. intros s. destruct (loads s) as [d|e] eqn:E; [eauto|]. right. f_equal. exact (loads_err num_value wide s e E). Qed.
Theorem C74_fallback : forall yaml_load s, load_text string loads yaml_load s = match loads s with Ok d => Ok d | Err _ => yaml_load s end.
Proof. intros yl s. unfold load_text. destruct (C74_errors s) as [[d ->]| ->]; reflexivity. Qed.
(** Each number of the JSON grammar is read as that number. *)
Theorem C74_numbers : forall w, json_number w -> loads w = Ok (DNum (num_value w)).
Proof.
  intros w H. apply json_number_read in H.
  pose proof (pr_back num_value wide (fun _ => w) None (DNum (num_value w)) 0 "" (conj H eq_refl) I) as B.
  cbn [pr] in B. rewrite app_nil_s in B. rewrite loads_eq.
  destruct (number_head _ _ _ H) as (c & t & -> & G). apply num_start in G. destruct G as (G & _). cbn [skip]. rewrite G, B. reflexivity.
Qed.
(** The texts that are read are exactly those of the JSON grammar, with the document the grammar gives them. *)
Theorem C74_grammar : forall s d, loads s = Ok d <-> exists a w b, s = (a ++ w ++ b)%string /\ white a /\ white b /\ jvalue num_value wide w d.
Proof. exact (grammar num_value wide). Qed.
(** Block-style YAML (a key, a colon) is never a JSON text, whatever follows. *)
Theorem C74_block_yaml : forall c k t, key_letter c -> loads (String c k ++ ":" ++ t) = Err JSONDecodeError.
Proof. intros c k t L. apply (key_not_json num_value wide c); [apply key_letter_letter, L|]. rewrite has_app. cbn. apply orb_true_r. Qed.
(** A key given more than once: the last value counts, and no error is raised. *)
Theorem C74_duplicates : forall i m, (forall k d, In (k, d) m -> written d) -> loads (dumps i (DMap m)) = Ok (DMap (PyDict.dict_of m)).
Proof. exact (duplicates num_text num_value wide). Qed.
(** C09 for the JSON format, with no assumption on YAML. *)
Theorem C74_dump_load : forall i fs yaml_dump yaml_load c ps ps' m d fmt t,
  wf m -> construct fs ps c m = Ok d -> lower fmt = "json" -> dump string (dumps i) yaml_dump d fmt = Ok t ->
  (forall p, public d = Ok p -> written (DMap p)) -> (c = KBasis -> parent_shared ps' d) ->
  exists d' p, load fs string loads yaml_load ps' c t = Ok d' /\ public d = Ok p /\ public d' = Ok p.
Proof. exact (dump_load_json num_text num_value wide). Qed.

(** C73 with these texts: what is left to assume is that the YAML package reads its own block-style texts. *)
Theorem C74_chain : forall i stdin creatable float_of_str yaml_dump yaml_load translators matchers world odd odd_dict order isdir latex lha unusual (printable : doc -> Prop),
  (forall d, printable d -> written d) ->
  (forall d, printable d -> yaml_load (yaml_dump d) = Ok d) ->
  (forall m, m <> [] -> printable (DMap m) -> exists c k t, key_letter c /\ yaml_dump (DMap m) = (String c k ++ ":" ++ t)%string) ->
  forall l p s w w', chain_ok l p -> Session.typable creatable l -> file_name p -> dmem (files s) p = true ->
  Tool.file_of float_of_str loads yaml_load (content s p) w ->
  Tool.calls float_of_str translators matchers (map (fun x : step * string * string => fst (fst x)) l) w = Ok w' ->
  Tool.all_print float_of_str translators matchers printable (map (fun x : step * string * string => fst (fst x)) l) w ->
  let r := Session.session stdin creatable float_of_str (dumps i) yaml_dump loads yaml_load translators matchers world odd odd_dict order isdir latex lha unusual (chain_lines l p) s in
  fst r = map (fun _ => 0%Z) l /\ Tool.file_of float_of_str loads yaml_load (content (snd r) (last_file l p)) w' /\ seen (snd r) = seen s /\
  forall f, ~ In f (map (fun x : step * string * string => snd x) l) -> dget (files (snd r)) f = dget (files s) f.
Proof.
  intros i stdin creatable fs yd yl tr ma world odd odd_dict order isdir latex lha unusual printable W Y B.
  apply (C73_chain stdin creatable fs (dumps i) yd loads yl tr ma world odd odd_dict order isdir latex lha unusual printable); [|exact Y|].
  - intros d P. apply loads_dumps, written_doc, W, P.
  - intros m N P. destruct (B m N P) as (c & k & t & L & ->). exists JSONDecodeError. split; [apply C74_block_yaml, L|auto].
Qed.
End C74.

(** A coefficient file; "line" has a quote, a line feed, a backslash and the character 228 in it. *)
Definition case_text (x : R) : string := if Req_EM_T x 160 then "160.0" else "-5e-05".
Definition case_value (s : string) : R := if String.eqb s "160.0" then 160%R else (- (5 / 100000))%R.
Definition case_line : string := String quote (String newline (String "\" (String (ascii_of_nat 228) ""))).
Definition case_doc : doc := DMap [("scale", DNum 160); ("values", DMap [("C9_bsmumu", DNum (- (5 / 100000)))]); ("l", DList [DNull; DBool true; DStr case_line; DList []])].
Lemma case_nums : case_text 160 = "160.0" /\ case_text (- (5 / 100000)) = "-5e-05".
Proof. unfold case_text. destruct (Req_EM_T 160 160); [|congruence]. destruct (Req_EM_T (- (5 / 100000)) 160); [lra|auto]. Qed.
Example C74_case : written case_text case_value case_doc /\
  json_dumps case_text None case_doc = "{""scale"": 160.0, ""values"": {""C9_bsmumu"": -5e-05}, ""l"": [null, true, ""\""\n\\\u00e4"", []]}" /\
  json_dumps case_text (Some 2) (DMap [("values", DMap [("C9_bsmumu", DNum 160)])]) = "{
  ""values"": {
    ""C9_bsmumu"": 160.0
  }
}".
Proof.
  destruct case_nums as [A B]. split; [|split].
  - assert (W1 : written case_text case_value (DNum 160)).
    { constructor; rewrite A; [|reflexivity]. exists "", "160", ".0", "". repeat split; auto.
      - right. repeat split; try discriminate; cbn; tauto.
      - right. exists "0". repeat split; try discriminate; cbn; tauto. }
    assert (W2 : written case_text case_value (DNum (- (5 / 100000)))).
    { constructor; rewrite B; [|reflexivity]. exists "-", "5", "", "e-05". repeat split; auto.
      - right. repeat split; try discriminate; cbn; tauto.
      - right. exists "e"%char, "-", "05". repeat split; auto; try discriminate; cbn; tauto. }
    apply Wmap; [repeat constructor; cbn; intuition discriminate|]. intros k d [[= <- <-]|[[= <- <-]|[[= <- <-]|[]]]].
    + exact W1.
    + apply Wmap; [repeat constructor; auto|]. intros k d [[= <- <-]|[]]. exact W2.
    + apply Wlist. intros d [<-|[<-|[<-|[<-|[]]]]]; constructor. intros d [].
  - unfold json_dumps, case_doc. cbn [pr]. rewrite A, B. reflexivity.
  - unfold json_dumps. cbn [pr]. rewrite A. reflexivity.
Qed.
(** Texts with irregular white space, a duplicate key, and texts that are not read. *)
Example C74_read_case : forall v wide,
  json_loads v wide " { ""a"" :[1 ,-0.5E+3], ""b"":""A\/"" , ""a"": null } " = Ok (DMap [("a", DNull); ("b", DStr "A/")]) /\
  json_loads v wide "[1,]" = Err JSONDecodeError /\ json_loads v wide "01" = Err JSONDecodeError /\ json_loads v wide "{""a"": 1" = Err JSONDecodeError /\
  json_loads v wide "" = Err JSONDecodeError /\ json_loads v wide "null: 1" = Err JSONDecodeError.
Proof. intros v wide. repeat split. Qed.
Example C74_grammar_case : forall v wide,
  jvalue v wide "[1 ,""\u00e4""]" (DList [DNum (v "1"); DStr (String (ascii_of_nat 228) "")]).
Proof.
  intros v wide. apply (Jlist v wide "" "1 ,""\u00e4""]"); [constructor|].
  apply (Jmore v wide "1" _ " " "" """\u00e4""]"); [|repeat constructor|constructor|].
  - constructor. exists "", "1", "", "". repeat split; auto. right. repeat split; try discriminate; cbn; tauto.
  - apply (Jlast v wide """\u00e4""" _ ""); [|constructor]. apply (Jstr v wide "\u00e4").
    apply (Jhex wide "0" "0" "e" "4" 0 0 14 4 "" ""); try (left; reflexivity). constructor.
Qed.
(** An object: the hypotheses of C74_dump_load. *)
Example C74_object_case : let m := [("eft", DStr "WET"); ("basis", DStr "flavio"); ("scale", DNum 160); ("values", DMap [])] in
  wf m /\ construct (fun _ => None) (fun _ _ => None) KWC m = Ok [("eft", DStr "WET"); ("basis", DStr "flavio"); ("scale", DNum 160); ("values", DMap []); ("_dict", DNull)] /\
  lower "JSON" = "json" /\ written case_text case_value (DMap m).
Proof.
  intros m. assert (N : NoDup (map fst m)) by (repeat constructor; cbn; intuition discriminate). split; [exact N|]. repeat split.
  apply Wmap; [exact N|]. intros k d [[= <- <-]|[[= <- <-]|[[= <- <-]|[[= <- <-]|[]]]]]; try constructor.
  - rewrite (proj1 case_nums). exists "", "160", ".0", "". repeat split; auto.
    + right. repeat split; try discriminate; cbn; tauto.
    + right. exists "0". repeat split; try discriminate; cbn; tauto.
  - rewrite (proj1 case_nums). reflexivity.
  - constructor.
  - intros k d [].
Qed.

Print Assumptions C74_roundtrip.
Print Assumptions C74_injective.
Print Assumptions C74_ascii.
Print Assumptions C74_escapes.
Print Assumptions C74_cut_off.
Print Assumptions C74_errors.
Print Assumptions C74_fallback.
Print Assumptions C74_numbers.
Print Assumptions C74_grammar.
Print Assumptions C74_block_yaml.
Print Assumptions C74_duplicates.
Print Assumptions C74_dump_load.
Print Assumptions C74_chain.
