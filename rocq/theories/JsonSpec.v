(** What a JSON text and a document that can be written are, apart from the functions of JsonText.v; files and commands
    with the JSON texts of JsonText.v in place of any text layer. *)
From Coq Require Import String Ascii List Bool Arith Lia Reals.
From Verif Require Import PyBase PyDict Wc Dump JsonText JsonFacts JsonMore P_Classes.
Import ListNotations.
Open Scope string_scope.
Open Scope list_scope.
Open Scope nat_scope.

(** ** Numbers: the grammar of JSON (RFC 8259, section 6) *)
Fixpoint all_digits (s : string) : Prop := match s with EmptyString => True | String c t => In c (list_ascii_of_string "0123456789") /\ all_digits t end.
Definition digits (s : string) : Prop := s <> "" /\ all_digits s.
Definition json_number (w : string) : Prop := exists m i f e, w = (m ++ i ++ f ++ e)%string /\
  (m = "" \/ m = "-") /\ (i = "0" \/ (digits i /\ forall t, i <> String "0" t)) /\
  (f = "" \/ exists d, f = String "." d /\ digits d) /\
  (e = "" \/ exists c g d, e = String c (g ++ d) /\ (c = "e"%char \/ c = "E"%char) /\ (g = "" \/ g = "+" \/ g = "-") /\ digits d).
Lemma dig_in c : In c (list_ascii_of_string "0123456789") <-> is_dig c = true.
Proof. split; [cbn; intuition (subst; reflexivity)|]. destruct c as [[] [] [] [] [] [] [] []]; try discriminate; intros _; cbn; tauto. Qed.
Definition nodig (t : string) : Prop := match t with EmptyString => True | String c _ => is_dig c = false end.
Lemma digs_all d t : all_digits d -> nodig t -> digs (d ++ t) = (d, t).
Proof.
  intros D T. induction d as [|c d IH].
  - destruct t as [|c t]; [reflexivity|]. cbn in *. rewrite T. reflexivity.
  - destruct D as [C D]. apply dig_in in C. cbn [append digs]. rewrite C, (IH D). reflexivity.
Qed.
Lemma exp_read e : (e = "" \/ exists c g d, e = String c (g ++ d) /\ (c = "e"%char \/ c = "E"%char) /\ (g = "" \/ g = "+" \/ g = "-") /\ digits d) ->
  exp_part e = (e, "") /\ nodig e /\ frac_part e = ("", e).
Proof.
  intros [->|(c & g & d & -> & C & G & N & D)]; [repeat split; reflexivity|].
  assert (H : forall c, (c = "e"%char \/ c = "E"%char) -> exp_part (String c (g ++ d)) = (String c (g ++ d), "")).
  { intros c' C'. cbn [exp_part]. assert (Q : Ascii.eqb c' "e" || Ascii.eqb c' "E" = true) by (destruct C' as [->| ->]; reflexivity). rewrite Q.
    assert (S : sign_part (g ++ d) = (g, d)).
    { destruct G as [->|[->| ->]]; try reflexivity. destruct d as [|x d]; [reflexivity|]. destruct D as [X D]. apply dig_in in X. cbn [append sign_part].
      destruct (Ascii.eqb_spec x "-"); [subst; discriminate|]. destruct (Ascii.eqb_spec x "+"); [subst; discriminate|]. reflexivity. }
    rewrite S. pose proof (digs_all d "" D I) as E. rewrite app_nil_s in E. rewrite E. destruct d; [congruence|reflexivity]. }
  rewrite (H c C). destruct C as [->| ->]; repeat split; reflexivity.
Qed.
Lemma frac_read f e : (f = "" \/ exists d, f = String "." d /\ digits d) -> nodig e -> frac_part e = ("", e) -> frac_part (f ++ e) = (f, e) /\ nodig (f ++ e).
Proof.
  intros [->|(d & -> & N & D)] E X; [split; assumption|]. split; [|reflexivity]. cbn [append frac_part]. rewrite Ascii.eqb_refl, (digs_all d e D E).
  destruct d; [congruence|reflexivity].
Qed.
Lemma json_number_read w : json_number w -> number w = Some (w, "").
Proof.
  intros (m & i & f & e & -> & M & HI & F & E). destruct (exp_read e E) as (E1 & E2 & E3). destruct (frac_read f e F E2 E3) as [F1 F2].
  assert (J : int_part (i ++ f ++ e) = Some (i, (f ++ e)%string) /\ forall t, (i ++ f ++ e)%string <> String "-" t).
  { destruct HI as [->|[[N D] Z]]; [split; [reflexivity|discriminate]|]. destruct i as [|c i]; [congruence|]. pose proof (digs_all _ (f ++ e) D F2) as G.
    destruct D as [C D]. apply dig_in in C. cbn [append int_part] in *. split.
    - destruct (Ascii.eqb_spec c "0"); [subst; exfalso; apply (Z i); reflexivity|]. rewrite C. f_equal. exact G.
    - intros t [= -> _]. discriminate. }
  destruct J as [J K]. unfold number.
  assert (P : minus_part (m ++ i ++ f ++ e) = (m, (i ++ f ++ e)%string)).
  { destruct M as [->| ->]; [|reflexivity]. cbn [append]. destruct (i ++ f ++ e)%string as [|c t]; [reflexivity|]. cbn [minus_part].
    destruct (Ascii.eqb_spec c "-"); [subst; exfalso; apply (K t); reflexivity|reflexivity]. }
  rewrite P, J, F1, E1. reflexivity.
Qed.
(** The converse: nothing else is taken as a number *)
Lemma digs_digits s a b : digs s = (a, b) -> all_digits a.
Proof.
  revert a b. induction s as [|c s IH]; intros a b; cbn [digs]; [intros [= <- _]; exact I|]. destruct (is_dig c) eqn:D; [|intros [= <- _]; exact I].
  destruct (digs s) as [x y]. intros [= <- _]. split; [apply dig_in; exact D|apply (IH x y); reflexivity].
Qed.
Lemma number_grammar s w r : number s = Some (w, r) -> json_number w.
Proof.
  unfold number. destruct (minus_part s) as [m s1] eqn:M. destruct (int_part s1) as [[i s2]|] eqn:HI; [|discriminate].
  destruct (frac_part s2) as [f s3] eqn:F. destruct (exp_part s3) as [e s4] eqn:E. intros [= <- _]. exists m, i, f, e. split; [reflexivity|]. repeat split.
  - destruct s as [|c s]; cbn in M; [injection M as <- _; auto|]. destruct (Ascii.eqb c "-"); injection M as <- _; auto.
  - destruct s1 as [|c u]; cbn [int_part] in HI; [discriminate|]. destruct (Ascii.eqb_spec c "0"); [injection HI as <- _; auto|].
    destruct (is_dig c) eqn:D; [|discriminate]. assert (Q : digs (String c u) = (i, s2)) by congruence. right. repeat split.
    + intros ->. cbn [digs] in Q. rewrite D in Q. destruct (digs u). discriminate.
    + eapply digs_digits; exact Q.
    + intros t ->. cbn [digs] in Q. rewrite D in Q. destruct (digs u). injection Q as -> _. congruence.
  - destruct s2 as [|c u]; cbn [frac_part] in F; [injection F as <- _; auto|]. destruct (Ascii.eqb_spec c "."); [subst c|injection F as <- _; auto].
    destruct (digs u) as [[|a b] z] eqn:Q; injection F as <- _; [auto|]. right. eexists. split; [reflexivity|]. split; [discriminate|]. eapply digs_digits; exact Q.
  - destruct s3 as [|c u]; cbn [exp_part] in E; [injection E as <- _; auto|]. destruct (Ascii.eqb c "e" || Ascii.eqb c "E") eqn:Q; [|injection E as <- _; auto].
    destruct (sign_part u) as [g v] eqn:G. destruct (digs v) as [[|a b] z] eqn:Q2; injection E as <- _; [auto|]. right. exists c, g, (String a b). split; [reflexivity|]. repeat split.
    + apply orb_true_iff in Q. destruct Q as [Q|Q]; apply Ascii.eqb_eq in Q; auto.
    + destruct u as [|c' u]; cbn [sign_part] in G; [injection G as <- _; auto|]. destruct (Ascii.eqb_spec c' "-"); [subst; injection G as <- _; auto|].
      destruct (Ascii.eqb_spec c' "+"); [subst; injection G as <- _; auto|injection G as <- _; auto].
    + discriminate.
    + apply (digs_digits _ _ _ Q2).
    + apply (digs_digits _ _ _ Q2).
Qed.

(** ** Documents *)
Section Spec.
Variable num_text : R -> string.
Variable num_value : string -> R.
Variable wide : nat -> string.
(** Distinct keys in each mapping; the text of each number is a JSON number with that value *)
Inductive written : doc -> Prop :=
| Wnull : written DNull
| Wbool b : written (DBool b)
| Wstr s : written (DStr s)
| Wnum x : json_number (num_text x) -> num_value (num_text x) = x -> written (DNum x)
| Wlist l : (forall d, In d l -> written d) -> written (DList l)
| Wmap m : NoDup (map fst m) -> (forall k d, In (k, d) m -> written d) -> written (DMap m).
Lemma written_doc d : written d -> json_doc num_value num_text d.
Proof.
  induction d as [| b | x | s | l IH | m IH] using doc_rec'; intros W; try exact I.
  - inversion W; subst. split; [apply json_number_read; assumption|assumption].
  - inversion W as [| | | |? H|]; subst. apply json_list. rewrite Forall_forall in *. auto.
  - inversion W as [| | | | |? N H]; subst. apply json_map. split; [exact N|]. rewrite Forall_forall in *. intros [k d] Hk. apply (IH (k, d) Hk). eapply H; exact Hk.
Qed.
Notation loads := (json_loads num_value wide).
Notation dumps := (json_dumps num_text).

(** Keys that occur more than once *)
Lemma duplicates ind m : (forall k d, In (k, d) m -> written d) -> loads (dumps ind (DMap m)) = Ok (DMap (dict_of m)).
Proof.
  intros H. destruct m as [|[k x] r]; [reflexivity|]. rewrite loads_eq. unfold json_dumps. rewrite pr_map. cbn [skip]. change (is_ws "{") with false. cbv iota.
  rewrite val_eq. change (Ascii.eqb "{" quote) with false. change (Ascii.eqb "{" "{") with true. cbv iota. rewrite skip_gap.
  change (skip (entries num_text ind 0 ((k, x) :: r) "")) with (entries num_text ind 0 ((k, x) :: r) "").
  change (word "}" (entries num_text ind 0 ((k, x) :: r) "")) with (@None string). cbv iota.
  rewrite entries_back; [reflexivity| | |discriminate].
  - apply Forall_forall. intros [k' d] _. apply pr_back.
  - apply Forall_forall. intros [k' d] Hk. apply written_doc. eapply H; exact Hk.
Qed.

(** ** Objects written as JSON: nothing is assumed of YAML *)
Lemma dump_load_json ind fs yaml_dump yaml_load c ps ps' m d fmt t :
  wf m -> construct fs ps c m = Ok d -> lower fmt = "json" -> dump string (dumps ind) yaml_dump d fmt = Ok t ->
  (forall p, public d = Ok p -> written (DMap p)) -> (c = KBasis -> parent_shared ps' d) ->
  exists d' p, load fs string loads yaml_load ps' c t = Ok d' /\ public d = Ok p /\ public d' = Ok p.
Proof.
  intros W C F E P S.
  set (yd := fun d => String "a" (String ":" (dumps ind d))). set (yl := fun t => match t with String _ (String _ u) => loads u | _ => Err ValueError end).
  assert (E' : dump string (dumps ind) yd d fmt = Ok t) by (unfold dump in *; rewrite F in *; exact E).
  destruct (C09_dump_load fs string (dumps ind) yd loads yl written) with (c := c) (ps := ps) (ps' := ps') (m := m) (d := d) (fmt := fmt) (t := t) as (d' & p & L & P1 & P2); auto.
  - intros x X. apply loads_dumps, written_doc, X.
  - intros x X. apply loads_dumps, written_doc, X.
  - intros l _ _. exists JSONDecodeError. split; [|auto]. apply key_not_json; reflexivity.
  - exists d', p. split; [|auto]. unfold load in *. unfold dump in E. rewrite P1, F in E. cbn [bind] in E. change (String.eqb "json" "json") with true in E. cbv iota in E.
    injection E as <-. unfold load_text in *. rewrite (loads_dumps num_value wide num_text ind) in * by (apply written_doc; auto). exact L.
Qed.
End Spec.
