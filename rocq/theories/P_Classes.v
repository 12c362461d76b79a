(** Property theorems C08 - C13, C51: values, dump/load, caching, translate/match. *)
From Coq Require Import String Ascii List Bool Arith Reals Lra.
From Verif Require Import PyBase PyDict Cplx Wc Dump DumpInit Bases BasesFacts WetN.
Import ListNotations.
Open Scope string_scope.
Open Scope list_scope.

Definition no_str : string -> option R := fun _ => None.

(** C08: writing numbers as file values and reading them back. *)
Theorem C08_values_roundtrip : forall fs d, values2dict fs (dict2values d) = Ok d.
Proof. exact values_roundtrip. Qed.
(** C08: how a file value is read (missing Re/Im count as 0, other keys are ignored). *)
Theorem C08_read_mapping : forall fs m x y, num_entry m "Re" x -> num_entry m "Im" y ->
  to_number fs (DMap m) = Ok (x, y).
Proof. exact to_number_map. Qed.
Theorem C08_read_plain : forall fs x, to_number fs (DNum x) = Ok (x, 0%R).
Proof. exact to_number_plain. Qed.
Theorem C08_read_invalid : forall fs v, (v = DNull \/ exists l, v = DList l) ->
  to_number fs v = Err TypeError.
Proof. exact to_number_bad. Qed.
(** Which values count as real numbers: numbers, true (1), false (0), and strings that [float()] accepts. *)
Definition real_value (fs : string -> option R) (v : doc) (x : R) : Prop :=
  v = DNum x \/ (v = DBool true /\ x = 1%R) \/ (v = DBool false /\ x = 0%R) \/ exists s, v = DStr s /\ fs s = Some x.
(** A part of a number: 0 if it is not there. *)
Definition part_of (fs : string -> option R) (m : dict string doc) (k : string) (x : R) : Prop :=
  match dget m k with Some v => real_value fs v x | None => x = 0%R end.
Theorem C08_read_real : forall fs v,
  (forall x, to_float fs v = Ok x <-> real_value fs v x) /\
  (to_float fs v = Err ValueError <-> exists s, v = DStr s /\ fs s = None) /\
  (to_float fs v = Err TypeError <-> v = DNull \/ (exists l, v = DList l) \/ exists m, v = DMap m).
Proof.
  intros fs v. unfold real_value. split; [|split].
  - intros x. destruct v as [|b|y|s|l|m]; cbn [to_float]; (split; [try discriminate|intros H; repeat destruct H as [H|H]; try discriminate H; try (destruct H as [H _]; discriminate H); try (destruct H as (? & H & _); discriminate H)]).
    + intros [= <-]. destruct b; auto.
    + destruct H as [[= ->] ->]. reflexivity.
    + destruct H as [[= ->] ->]. reflexivity.
    + intros [= <-]. auto.
    + injection H as ->. reflexivity.
    + destruct (fs s) as [z|] eqn:E; [|discriminate]. intros [= <-]. right. right. right. eauto.
    + destruct H as (s' & [= ->] & ->). reflexivity.
  - destruct v as [|b|y|s|l|m]; cbn [to_float]; try (split; [discriminate|intros (? & H & _); discriminate H]). destruct (fs s) as [z|] eqn:E; split; try discriminate; [intros (s' & [= <-] & E'); congruence|eauto|reflexivity].
  - destruct v as [|b|y|s|l|m]; cbn [to_float]; split; try discriminate; try (intros [H|[[? H]|[? H]]]; discriminate H); eauto; try (destruct (fs s); discriminate).
Qed.
Theorem C08_read : forall fs v z, to_number fs v = Ok z <->
  (Im z = 0%R /\ real_value fs v (Re z)) \/ exists m, v = DMap m /\ part_of fs m "Re" (Re z) /\ part_of fs m "Im" (Im z).
Proof.
  intros fs v z. assert (forall m k x, to_float fs (get_default m k (DNum 0)) = Ok x <-> part_of fs m k x) as P.
  { intros m k x. unfold get_default, part_of. destruct (dget m k) as [d|]; [apply C08_read_real|]. cbn. split; [intros [= <-]; reflexivity|intros ->; reflexivity]. }
  assert (forall v, (forall m, v <> DMap m) -> rmap RtoC (to_float fs v) = Ok z <-> Im z = 0%R /\ real_value fs v (Re z)) as Q.
  { intros w _. rewrite <- (proj1 (C08_read_real fs w)). destruct (to_float fs w) as [x|]; cbn; split; try discriminate.
    - intros [= <-]. split; reflexivity.
    - intros [I [= ->]]. destruct z as [a b]. cbn in *. subst. reflexivity.
    - intros [_ H]. discriminate H. }
  destruct v as [|b|y|s|l|m]; cbn [to_number]; try (rewrite Q by (intros; discriminate); split; [auto|intros [H|(m & E & _)]; [exact H|discriminate E]]).
  split.
  - destruct (to_float fs (get_default m "Re" (DNum 0))) as [x|] eqn:X; cbn; [|discriminate]. destruct (to_float fs (get_default m "Im" (DNum 0))) as [y|] eqn:Y; cbn; [|discriminate]. intros [= <-]. right. exists m. split; [reflexivity|]. split; apply P; assumption.
  - intros [[_ H]|(m' & [= <-] & A & B)]; [unfold real_value in H; destruct H as [H|[[H _]|[[H _]|(t & H & _)]]]; discriminate H|]. apply P in A, B. rewrite A, B. cbn. destruct z. reflexivity.
Qed.
(** C08: normal form. *)
Theorem C08_plain_iff_real : forall z, (exists x, to_complex_dict z = DNum x) <-> Im z = 0%R.
Proof. exact complex_dict_plain_iff. Qed.
Theorem C08_normalise_idempotent : forall fs v v', normalise fs v = Ok v' -> normalise fs v' = Ok v'.
Proof. exact normalise_idem. Qed.
Theorem C08_normalise_same_number : forall fs v v' z, normalise fs v = Ok v' ->
  (to_number fs v = Ok z <-> to_number fs v' = Ok z).
Proof. exact normalise_same. Qed.
Theorem C08_distinct_numbers_distinct_values : forall z z',
  to_complex_dict z = to_complex_dict z' -> z = z'.
Proof. exact (to_complex_dict_inj no_str). Qed.

Example C08_case :
  num_entry [("Im", DNum 2); ("x", DNull)] "Re" 0 /\ num_entry [("Im", DNum 2); ("x", DNull)] "Im" 2 /\
  to_number no_str (DMap [("Im", DNum 2); ("x", DNull)]) = Ok (0%R, 2%R) /\
  normalise no_str (DMap [("Re", DNum 2)]) = Ok (DNum 2).
Proof.
  repeat split.
  - right; split; reflexivity.
  - left; reflexivity.
  - unfold normalise, to_complex_dict; simpl. destruct (Req_EM_T 0 0); [reflexivity|tauto].
Qed.

(** C09: round trip through text.  The text layer is any pair of printers and
    parsers with the stated laws for the documents in [printable]. *)
Theorem C09_dump_load : forall (fs : string -> option R) (text : Type)
  (json_dumps yaml_dump : doc -> text) (json_loads yaml_load : text -> res doc) (printable : doc -> Prop),
  (forall d, printable d -> json_loads (json_dumps d) = Ok d) ->
  (forall d, printable d -> yaml_load (yaml_dump d) = Ok d) ->
  (forall m, m <> [] -> printable (DMap m) -> exists x, json_loads (yaml_dump (DMap m)) = Err x /\ (x = ValueError \/ x = JSONDecodeError)) ->
  forall c ps ps' m d fmt t,
  wf m -> construct fs ps c m = Ok d -> dump text json_dumps yaml_dump d fmt = Ok t ->
  (forall p, public d = Ok p -> printable (DMap p)) ->
  (c = KBasis -> parent_shared ps' d) ->
  exists d' p, load fs text json_loads yaml_load ps' c t = Ok d' /\ public d = Ok p /\ public d' = Ok p.
Proof. exact dump_load_roundtrip. Qed.
Theorem C09_formats : forall (text : Type) (json_dumps yaml_dump : doc -> text) d p fmt, public d = Ok p ->
  (lower fmt = "json" -> dump text json_dumps yaml_dump d fmt = Ok (json_dumps (DMap p))) /\
  (lower fmt = "yaml" -> dump text json_dumps yaml_dump d fmt = Ok (yaml_dump (DMap p))) /\
  (lower fmt <> "json" -> lower fmt <> "yaml" -> dump text json_dumps yaml_dump d fmt = Err ValueError).
Proof. exact dump_defined. Qed.
Theorem C09_private_not_written : forall d p k v, public d = Ok p -> In (k, v) p ->
  In (k, v) d /\ exists a s, k = String a s /\ a <> "_"%char.
Proof. exact (public_private no_str). Qed.

(** Exactly the attributes whose name does not start with an underscore are written, in their order; an attribute
    with the empty name makes every dump fail. *)
Theorem C09_written : forall (text : Type) (json_dumps yaml_dump : doc -> text) d,
  ((exists v, In (""%string, v) d) -> forall fmt, dump text json_dumps yaml_dump d fmt = Err IndexError) /\
  ((forall v, ~ In (""%string, v) d) ->
   dump text json_dumps yaml_dump d "json" = Ok (json_dumps (DMap (filter (fun kv => negb (String.prefix "_" (fst kv))) d))) /\
   dump text json_dumps yaml_dump d "yaml" = Ok (yaml_dump (DMap (filter (fun kv => negb (String.prefix "_" (fst kv))) d)))).
Proof.
  intros text jd yd d. split.
  - intros (v & I) fmt. unfold dump. assert (public d = Err IndexError) as ->; [|reflexivity].
    induction d as [|[k x] d IH]; [contradiction|]. cbn [public]. destruct k as [|a k]; [reflexivity|]. cbn [is_public bind].
    destruct I as [I|I]; [discriminate I|]. rewrite (IH I). reflexivity.
  - intros N. assert (public d = Ok (filter (fun kv => negb (String.prefix "_" (fst kv))) d)) as P; [|unfold dump; rewrite P; split; reflexivity].
    induction d as [|[k x] d IH]; [reflexivity|]. cbn [public]. destruct k as [|a k]; [destruct (N x); left; reflexivity|]. cbn [is_public bind].
    rewrite IH by (intros v I; apply (N v); right; exact I). cbn [bind filter fst String.prefix].
    destruct (Ascii.eqb_spec a "_"%char) as [->|E]; [destruct k; reflexivity|]. destruct (ascii_dec "_"%char a) as [Q|Q]; [destruct E; symmetry; exact Q|]. reflexivity.
Qed.

(** A WC document with a private and a public extra attribute. *)
Definition toy_text : Type := (bool * doc)%type.
Definition toy_json (d : doc) : toy_text := (true, d).
Definition toy_yaml (d : doc) : toy_text := (false, d).
Definition toy_json_loads (t : toy_text) : res doc := if fst t then Ok (snd t) else Err JSONDecodeError.
Definition toy_yaml_load (t : toy_text) : res doc := Ok (snd t).
Example C09_case :
  let m := [("values", DMap [("C9_bsmumu", DNum (-1))]); ("eft", DStr "WET"); ("_x", DNum 3);
            ("basis", DStr "flavio"); ("scale", DNum 160); ("note", DStr "hi")] in
  let p := [("eft", DStr "WET"); ("basis", DStr "flavio"); ("scale", DNum 160);
            ("values", DMap [("C9_bsmumu", DNum (-1))]); ("note", DStr "hi")] in
  let d := [("eft", DStr "WET"); ("basis", DStr "flavio"); ("scale", DNum 160);
            ("values", DMap [("C9_bsmumu", DNum (-1))]); ("_dict", DNull); ("_x", DNum 3); ("note", DStr "hi")] in
  (forall d, toy_json_loads (toy_json d) = Ok d) /\ (forall d, toy_yaml_load (toy_yaml d) = Ok d) /\
  (forall l, l <> [] -> toy_json_loads (toy_yaml (DMap l)) = Err JSONDecodeError) /\
  construct no_str (fun _ _ => None) KWC m = Ok d /\ public d = Ok p /\
  dump toy_text toy_json toy_yaml d "YaML" = Ok (toy_yaml (DMap p)) /\
  dump toy_text toy_json toy_yaml d "xml" = Err ValueError.
Proof. repeat split. Qed.
Example C09_case_child :
  let S := [("sb", DMap [("C1", DNull)]); ("db", DMap [("C2", DNull)])] in
  let m := [("eft", DStr "WET"); ("basis", DStr "x"); ("parent", DStr "JMS");
            ("sectors", DMap [("db", DMap [("C2", DNull)])])] in
  let d := [("eft", DStr "WET"); ("basis", DStr "x"); ("_name", DNull); ("parent", DStr "JMS");
            ("sectors", DMap S); ("_all_wcs", DNull)] in
  construct no_str (fun _ _ => Some [("sb", DMap [("C1", DNull)])]) KBasis m = Ok d /\
  parent_shared (fun _ _ => Some S) d.
Proof.
  split; [reflexivity|]. intros e par _ _. eexists. repeat split.
  repeat constructor; simpl; intuition discriminate.
Qed.

(** C10 *)
Theorem C10_snapshot : forall fs o h d, fst (wc_dict fs o) = Ok d ->
  fst (wc_dict fs (wc_run fs o (ReadDict :: h))) = Ok (dupdate d (mutations h)).
Proof. exact snapshot. Qed.
Theorem C10_before_first_read : forall fs e b sc v h, existsb is_read h = false ->
  wc_cache (wc_run fs (new_wc e b sc v) h) = None /\
  fst (wc_dict fs (wc_run fs (new_wc e b sc v) h)) =
    values2dict fs (wc_values (wc_run fs (new_wc e b sc v) h)).
Proof. exact before_first_read. Qed.
Theorem C10_failed_read : forall fs o x, fst (wc_dict fs o) = Err x -> snd (wc_dict fs o) = o.
Proof. exact failed_read_no_effect. Qed.
Example C10_case :
  let o := new_wc "WET" "flavio" 160 [("a", DNum 1)] in
  fst (wc_dict no_str o) = Ok [("a", RtoC 1)] /\
  fst (wc_dict no_str (wc_run no_str o [ReadDict; SetValue "a" (DNum 5); SetValues []])) = Ok [("a", RtoC 1)] /\
  fst (wc_dict no_str (wc_run no_str o [SetValue "a" (DNum 5)])) = Ok [("a", RtoC 5)].
Proof. repeat split. Qed.

(** C11 *)
(** The class has instances and this is the one with that name. *)
Definition listed {A B} `{Key A} (r : option (dict A B)) (k : A) (x : B) : Prop := exists d, r = Some d /\ dget d k = Some x.
Lemma listed_iff {A B} `{Key A} (r : option (dict A B)) k x : reg_lookup r k = Ok x <-> listed r k x.
Proof.
  unfold reg_lookup, listed, dlookup. split.
  - destruct r as [d|]; [|discriminate]. destruct (dget d k) eqn:E; [|discriminate]. intros Q. injection Q as ->. eauto.
  - intros (d & -> & ->). reflexivity.
Qed.
Theorem C11_translate : forall fs r o t p, treg_ok r ->
  ((forall tr, ~ listed r (wc_eft o, wc_basis o, t) tr) -> translate fs r o t p = (Err ValueError, o)) /\
  (forall tr d out, listed r (wc_eft o, wc_basis o, t) tr -> fst (wc_dict fs o) = Ok d ->
     t_fun tr d (wc_scale o) p = Ok out ->
     exists w, fst (translate fs r o t p) = Ok w /\ wc_eft w = wc_eft o /\ wc_basis w = t /\
       wc_scale w = wc_scale o /\ fst (wc_dict fs w) = Ok (filter nonzero out)) /\
  (forall tr d x, listed r (wc_eft o, wc_basis o, t) tr -> fst (wc_dict fs o) = Ok d ->
     t_fun tr d (wc_scale o) p = Err x -> fst (translate fs r o t p) = Err x) /\
  (forall tr x, listed r (wc_eft o, wc_basis o, t) tr -> fst (wc_dict fs o) = Err x ->
     fst (translate fs r o t p) = Err x).
Proof.
  intros fs r o t p R. destruct (translate_contract fs r o t p R) as (A & B & C & D). repeat split.
  - intros N. destruct (reg_lookup r (wc_eft o, wc_basis o, t)) as [tr|x] eqn:E; [|exact (A x eq_refl)]. exfalso. apply listed_iff in E. exact (N tr E).
  - intros tr d out L. apply B, listed_iff, L.
  - intros tr d x L. apply C, listed_iff, L.
  - intros tr x L. apply (D tr), listed_iff, L.
Qed.
Theorem C11_match : forall fs r o e t p, mreg_ok r ->
  ((forall m, ~ listed r (wc_eft o, wc_basis o, e, t) m) -> wmatch fs r o e t p = (Err ValueError, o)) /\
  (forall m d out, listed r (wc_eft o, wc_basis o, e, t) m -> fst (wc_dict fs o) = Ok d ->
     m_fun m d (wc_scale o) p = Ok out ->
     exists w, fst (wmatch fs r o e t p) = Ok w /\ wc_eft w = e /\ wc_basis w = t /\
       wc_scale w = wc_scale o /\ fst (wc_dict fs w) = Ok (filter nonzero out)) /\
  (forall m d x, listed r (wc_eft o, wc_basis o, e, t) m -> fst (wc_dict fs o) = Ok d ->
     m_fun m d (wc_scale o) p = Err x -> fst (wmatch fs r o e t p) = Err x) /\
  (forall m x, listed r (wc_eft o, wc_basis o, e, t) m -> fst (wc_dict fs o) = Err x ->
     fst (wmatch fs r o e t p) = Err x).
Proof.
  intros fs r o e t p R. destruct (match_contract fs r o e t p R) as (A & B & C & D). repeat split.
  - intros N. destruct (reg_lookup r (wc_eft o, wc_basis o, e, t)) as [tr|x] eqn:E; [|exact (A x eq_refl)]. exfalso. apply listed_iff in E. exact (N tr E).
  - intros tr d out L. apply B, listed_iff, L.
  - intros tr d x L. apply C, listed_iff, L.
  - intros tr x L. apply (D tr), listed_iff, L.
Qed.
(** The coefficients of the result: the non-zero entries of the function's output. *)
Theorem C11_nonzero_entries : forall out, wf out -> forall k,
  dget (filter nonzero out) k =
    match dget out k with Some z => if Ceq_dec z C0 then None else Some z | None => None end.
Proof. exact filter_values. Qed.
Theorem C11_input_unchanged : forall fs r r' o e t p,
  let o1 := snd (translate fs r o t p) in let o2 := snd (wmatch fs r' o e t p) in
  (wc_eft o1 = wc_eft o /\ wc_basis o1 = wc_basis o /\ wc_scale o1 = wc_scale o /\
   wc_values o1 = wc_values o /\ fst (wc_dict fs o1) = fst (wc_dict fs o)) /\
  (wc_eft o2 = wc_eft o /\ wc_basis o2 = wc_basis o /\ wc_scale o2 = wc_scale o /\
   wc_values o2 = wc_values o /\ fst (wc_dict fs o2) = fst (wc_dict fs o)).
Proof. exact input_unchanged. Qed.
(** Registries built with the constructors satisfy the hypothesis. *)
Theorem C11_registries : forall tl ml,
  treg_ok (fold_left (fun r x => new_translator r (fst (fst (fst x))) (snd (fst (fst x))) (snd (fst x)) (snd x)) tl None) /\
  mreg_ok (fold_left (fun r x => new_matcher r (fst (fst (fst (fst x)))) (snd (fst (fst (fst x))))
                                 (snd (fst (fst x))) (snd (fst x)) (snd x)) ml None).
Proof. exact registries_ok. Qed.

Example C11_case :
  let fn : convfun := fun d sc p => Ok [("x", C0); ("y", (1%R, 2%R))] in
  let r := new_translator None "WET" "a" "b" fn in
  let o := new_wc "WET" "a" 160 [("k", DNum 1)] in
  treg_ok r /\ reg_lookup r (wc_eft o, wc_basis o, "b") = Ok (Translator "WET" "a" "b" fn) /\
  fst (wc_dict no_str o) = Ok [("k", RtoC 1)] /\
  filter nonzero [("x", C0); ("y", (1%R, 2%R))] = [("y", (1%R, 2%R))] /\
  translate no_str r o "c" None = (Err ValueError, o).
Proof.
  split; [apply treg_ok_new, treg_ok_init|].
  split; [reflexivity|]. split; [reflexivity|]. split; [|reflexivity].
  assert (nonzero ("x", C0) = false) as A
    by (unfold nonzero; simpl snd; destruct (Ceq_dec C0 C0); [reflexivity|tauto]).
  assert (nonzero ("y", (1%R, 2%R)) = true) as B.
  { unfold nonzero; simpl snd; destruct (Ceq_dec (1%R, 2%R) C0) as [E|_]; [|reflexivity].
    exfalso. injection E; intros; lra. }
  cbn [filter]. rewrite A, B. reflexivity.
Qed.

(** C12 *)
Theorem C12_translator_decorator : forall r e f t fn,
  snd (deco_translator r e f t fn) = fn /\
  reg_lookup (fst (deco_translator r e f t fn)) (e, f, t) = Ok (Translator e f t fn) /\
  (forall k, k <> (e, f, t) -> r <> None ->
     reg_lookup (fst (deco_translator r e f t fn)) k = reg_lookup r k).
Proof. exact deco_translator_spec. Qed.
Theorem C12_matcher_decorator : forall r e f e' t fn,
  snd (deco_matcher r e f e' t fn) = fn /\
  reg_lookup (fst (deco_matcher r e f e' t fn)) (e, f, e', t) = Ok (Matcher e f e' t fn) /\
  (forall k, k <> (e, f, e', t) -> r <> None ->
     reg_lookup (fst (deco_matcher r e f e' t fn)) k = reg_lookup r k).
Proof. exact deco_matcher_spec. Qed.
(** After decoration, translate uses the new function. *)
Theorem C12_decorated_is_used : forall fs r t fn o p, treg_ok r ->
  translate fs (fst (deco_translator r (wc_eft o) (wc_basis o) t fn)) o t p =
  convert fs fn (wc_eft o) t o p.
Proof. exact decorated_used. Qed.
Example C12_case :
  let fn : convfun := fun d sc p => Ok d in let fn' : convfun := fun d sc p => Ok [] in
  let r := new_translator (new_translator None "WET" "a" "b" fn) "WET" "a" "c" fn in
  r <> None /\ reg_lookup (fst (deco_translator r "WET" "a" "b" fn')) ("WET", "a", "b") = Ok (Translator "WET" "a" "b" fn') /\
  reg_lookup (fst (deco_translator r "WET" "a" "b" fn')) ("WET", "a", "c") = Ok (Translator "WET" "a" "c" fn).
Proof. repeat split; discriminate. Qed.

(** C13 *)
Theorem C13_exact : forall w e b d id l, wf d -> basis_get w e b = Ok id -> fst (all_wcs w id) = Ok l ->
  exists d', fst (wetn_match w e b d) = Ok d' /\ wf d' /\
    (forall k, dget d' k = if mem k l then dget d k else None) /\
    dkeys d' = filter (fun k => mem k l) (dkeys d).
Proof. exact wetn_exact. Qed.
Theorem C13_unregistered : forall w e b d x, basis_get w e b = Err x -> wetn_match w e b d = (Err x, w).
Proof. exact wetn_err. Qed.
Theorem C13_chain : forall w e1 e2 b d id1 id2 l1 l2,
  basis_get w e1 b = Ok id1 -> fst (all_wcs w id1) = Ok l1 ->
  let w1 := snd (wetn_match w e1 b d) in
  basis_get w1 e2 b = Ok id2 -> fst (all_wcs w1 id2) = Ok l2 ->
  exists d1 d2, fst (wetn_match w e1 b d) = Ok d1 /\ fst (wetn_match w1 e2 b d1) = Ok d2 /\
    (forall k v, In (k, v) d2 <-> In (k, v) d /\ In k l1 /\ In k l2).
Proof. exact wetn_chain. Qed.
Theorem C13_idempotent : forall w e b d d1, fst (wetn_match w e b d) = Ok d1 ->
  fst (wetn_match (snd (wetn_match w e b d)) e b d1) = Ok d1.
Proof. exact wetn_again. Qed.
Example C13_case :
  let sec l : sector := Some (map (fun k => (k, None)) l) in
  let w := wrun [NewBasis "WET-4" "flavio" None [("s", sec ["C1"; "C2"])];
                 NewBasis "WET-3" "flavio" None [("s", sec ["C2"; "C3"])]] in
  let d := [("C3", C1); ("C2", C1); ("C1", C0)] in
  basis_get w "WET-4" "flavio" = Ok 0 /\ fst (all_wcs w 0) = Ok ["C1"; "C2"] /\
  fst (wetn_match w "WET-4" "flavio" d) = Ok [("C2", C1); ("C1", C0)] /\
  basis_get (snd (wetn_match w "WET-4" "flavio" d)) "WET-3" "flavio" = Ok 1 /\ wf d.
Proof. repeat split. repeat constructor; simpl; intuition discriminate. Qed.

(** C51: which documents make an object, and what it then holds. *)
Theorem C51_missing_field : forall fs ps c m k, In k (required c) -> dmem m k = false -> construct fs ps c m = Err TypeError.
Proof. exact missing. Qed.
Theorem C51_self : forall fs ps c m, dmem m "self" = true -> construct fs ps c m = Err TypeError.
Proof. exact self_err. Qed.
Theorem C51_read_only : forall fs ps c m k, complete c m -> dmem m k = true -> In k (properties c) ->
  (c = KWC -> exists s x, dget m "scale" = Some s /\ to_float fs s = Ok x) ->
  construct fs ps c m = Err AttributeError.
Proof. exact readonly. Qed.
Theorem C51_bad_scale : forall fs ps m s x, complete KWC m -> dget m "scale" = Some s -> to_float fs s = Err x ->
  construct fs ps KWC m = Err x.
Proof. exact bad_scale. Qed.
Theorem C51_scale_kinds : forall fs ps m s, complete KWC m -> dget m "scale" = Some s ->
  (s = DNull \/ (exists l, s = DList l) \/ (exists d, s = DMap d) -> construct fs ps KWC m = Err TypeError) /\
  (forall t, s = DStr t -> fs t = None -> construct fs ps KWC m = Err ValueError).
Proof.
  intros fs ps m s C E. split.
  - intros H. apply (bad_scale fs ps m s TypeError C E). destruct H as [-> | [[l ->] | [d ->]]]; reflexivity.
  - intros t -> F. apply (bad_scale fs ps m _ ValueError C E). cbn. rewrite F. reflexivity.
Qed.
Example C51_scale_case : forall fs ps, fs "high" = None ->
  let m s := [("eft", DStr "WET"); ("basis", DStr "JMS"); ("scale", s); ("values", DMap [])] in
  construct fs ps KWC (m (DStr "high")) = Err ValueError /\ construct fs ps KWC (m DNull) = Err TypeError.
Proof.
  intros fs ps F m. assert (forall s, complete KWC (m s)) as C.
  { intros s. split; [reflexivity|]. intros k [<-|[<-|[<-|[<-|[]]]]]; reflexivity. }
  split.
  - exact (proj2 (C51_scale_kinds fs ps (m (DStr "high")) _ (C _) eq_refl) "high" eq_refl F).
  - exact (proj1 (C51_scale_kinds fs ps (m DNull) _ (C _) eq_refl) (or_introl eq_refl)).
Qed.
Theorem C51_eft : forall fs ps m, wf m -> complete KEFT m -> (forall k, dmem m k = true -> ~ In k (properties KEFT)) ->
  exists d, construct fs ps KEFT m = Ok d /\ forall k, ~ In k placeholder -> dget d k = dget m k.
Proof. exact eft_ok. Qed.
Theorem C51_wc : forall fs ps m s x, wf m -> complete KWC m -> (forall k, dmem m k = true -> ~ In k (properties KWC)) ->
  dget m "scale" = Some s -> to_float fs s = Ok x ->
  exists d, construct fs ps KWC m = Ok d /\ dget d "scale" = Some (DNum x) /\
            forall k, k <> "scale" -> ~ In k placeholder -> dget d k = dget m k.
Proof. exact wc_ok. Qed.
Theorem C51_basis : forall fs ps m s, wf m -> complete KBasis m -> (forall k, dmem m k = true -> ~ In k (properties KBasis)) ->
  dget m "sectors" = Some s -> dget m "parent" = None ->
  exists d, construct fs ps KBasis m = Ok d /\ forall k, ~ In k placeholder -> dget d k = dget m k.
Proof. exact basis_ok. Qed.
Theorem C51_child : forall fs ps m e s p, wf m -> complete KBasis m -> (forall k, dmem m k = true -> ~ In k (properties KBasis)) ->
  dget m "eft" = Some e -> dget m "sectors" = Some (DMap s) -> dget m "parent" = Some p ->
  (ps e p = None -> construct fs ps KBasis m = Err ValueError) /\
  (forall q, ps e p = Some q -> exists d, construct fs ps KBasis m = Ok d /\ dget d "sectors" = Some (DMap (dupdate q s)) /\
     forall k, k <> "sectors" -> ~ In k placeholder -> dget d k = dget m k).
Proof. exact basis_child. Qed.
(** A WC document with a note, the same with a forbidden name, and one without a scale. *)
Example C51_case :
  let m := [("values", DMap []); ("eft", DStr "WET"); ("note", DNum 3); ("basis", DStr "flavio"); ("scale", DBool true)] in
  let p := [("dict", DNull)] in
  wf m /\ complete KWC m /\ (forall k, dmem m k = true -> ~ In k (properties KWC)) /\
  complete KWC (m ++ p) /\ dmem (m ++ p) "dict" = true /\ In "dict" (properties KWC) /\
  construct no_str (fun _ _ => None) KWC (m ++ p) = Err AttributeError /\
  dmem (ddel m "scale") "scale" = false.
Proof.
  cbv zeta. repeat match goal with |- _ /\ _ => split end; try reflexivity; try (simpl; tauto).
  - unfold wf, dkeys; simpl. repeat constructor; simpl; intuition discriminate.
  - split; [reflexivity|]. simpl. intros k H. intuition (subst; reflexivity).
  - intros k H P. simpl in P. destruct P as [<-|[]]. discriminate.
  - split; [reflexivity|]. simpl. intros k H. intuition (subst; reflexivity).
Qed.

Print Assumptions C08_values_roundtrip.
Print Assumptions C08_read_mapping.
Print Assumptions C08_read_plain.
Print Assumptions C08_read_real.
Print Assumptions C08_read.
Print Assumptions C08_read_invalid.
Print Assumptions C08_plain_iff_real.
Print Assumptions C08_normalise_idempotent.
Print Assumptions C08_normalise_same_number.
Print Assumptions C08_distinct_numbers_distinct_values.
Print Assumptions C09_dump_load.
Print Assumptions C09_formats.
Print Assumptions C09_written.
Print Assumptions C09_private_not_written.
Print Assumptions C10_snapshot.
Print Assumptions C10_before_first_read.
Print Assumptions C10_failed_read.
Print Assumptions C11_translate.
Print Assumptions C11_match.
Print Assumptions C11_nonzero_entries.
Print Assumptions C11_input_unchanged.
Print Assumptions C11_registries.
Print Assumptions C12_translator_decorator.
Print Assumptions C12_matcher_decorator.
Print Assumptions C12_decorated_is_used.
Print Assumptions C13_exact.
Print Assumptions C13_unregistered.
Print Assumptions C13_chain.
Print Assumptions C13_idempotent.
Print Assumptions C51_missing_field.
Print Assumptions C51_self.
Print Assumptions C51_read_only.
Print Assumptions C51_bad_scale.
Print Assumptions C51_scale_kinds.
Print Assumptions C51_eft.
Print Assumptions C51_wc.
Print Assumptions C51_basis.
Print Assumptions C51_child.
