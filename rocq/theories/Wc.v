(** Model of WC values (classes.py 330-352, 368-374), translate/match
    (classes.py 393-455), the decorators (457-497) and the WET-n matchers
    (matchers/__init__.py 37-76). *)
From Coq Require Import String List Bool Arith Reals Lra.
From Verif Require Import PyBase PyDict Cplx.
Import ListNotations.
Open Scope string_scope.
Open Scope list_scope.
Open Scope nat_scope.

(** Document trees as produced by the JSON and YAML parsers.  Simplified:
    integers and floats are both reals; mapping keys are strings. *)
Inductive doc : Type :=
| DNull | DBool (b : bool) | DNum (x : R) | DStr (s : string)
| DList (l : list doc) | DMap (m : list (string * doc)).

Section Values.
(** [float(s)] for a string: [None] = ValueError.  External. *)
Variable float_of_str : string -> option R.

(** [float(v)] *)
Definition to_float (v : doc) : res R :=
  match v with
  | DNum x => Ok x
  | DBool b => Ok (if b then 1%R else 0%R)
  | DStr s => match float_of_str s with Some x => Ok x | None => Err ValueError end
  | DNull | DList _ | DMap _ => Err TypeError
  end.
Definition get_default (m : dict string doc) (k : string) (v : doc) : doc :=
  match dget m k with Some x => x | None => v end.
(** WC._to_number, classes.py 330-337 *)
Definition to_number (v : doc) : res C :=
  match v with
  | DMap m =>
      let! re := to_float (get_default m "Re" (DNum 0)) in
      let! im := to_float (get_default m "Im" (DNum 0)) in
      Ok (re, im)
  | _ => rmap RtoC (to_float v)
  end.
(** WC._to_complex_dict, classes.py 339-346 *)
Definition to_complex_dict (z : C) : doc :=
  if Req_EM_T (Im z) 0 then DNum (Re z)
  else DMap [("Re", DNum (Re z)); ("Im", DNum (Im z))].
(** WC.dict2values, classes.py 348-350 *)
Definition dict2values (d : dict string C) : dict string doc := dmap to_complex_dict d.
(** The comprehension of WC.dict, classes.py 373 *)
Definition values2dict (d : dict string doc) : res (dict string C) :=
  mapM (fun kv => let! z := to_number (snd kv) in Ok (fst kv, z)) d.

Lemma to_number_complex_dict z : to_number (to_complex_dict z) = Ok z.
Proof.
  unfold to_complex_dict. destruct (Req_EM_T (Im z) 0) as [E|N]; simpl.
  - f_equal. apply C_ext; csimp; auto.
  - destruct z; reflexivity.
Qed.
Lemma values_roundtrip d : values2dict (dict2values d) = Ok d.
Proof.
  unfold values2dict. apply mapM_ok_iff. unfold dict2values, dmap.
  induction d as [|[k z] t IH]; simpl; constructor; auto. simpl.
  rewrite to_number_complex_dict. reflexivity.
Qed.
Lemma to_number_plain x : to_number (DNum x) = Ok (x, 0%R).
Proof. reflexivity. Qed.
(** A file value that parses: a number, or a mapping whose (optional) entries
    Re and Im are numbers. *)
Definition num_entry (m : dict string doc) (k : string) (x : R) : Prop :=
  (dget m k = Some (DNum x)) \/ (dget m k = None /\ x = 0%R).
Lemma to_number_map m x y : num_entry m "Re" x -> num_entry m "Im" y ->
  to_number (DMap m) = Ok (x, y).
Proof.
  unfold num_entry, to_number, get_default. intros A B.
  destruct A as [->|[-> ->]]; destruct B as [->|[-> ->]]; reflexivity.
Qed.
Definition normalise (v : doc) : res doc := rmap to_complex_dict (to_number v).
Lemma normalise_idem v v' : normalise v = Ok v' -> normalise v' = Ok v'.
Proof.
  unfold normalise. destruct (to_number v) as [z|]; simpl; try discriminate.
  intros [= <-]. rewrite to_number_complex_dict. reflexivity.
Qed.
Lemma normalise_same v v' z : normalise v = Ok v' -> (to_number v = Ok z <-> to_number v' = Ok z).
Proof.
  unfold normalise. destruct (to_number v) as [z'|]; simpl; try discriminate.
  intros [= <-]. rewrite to_number_complex_dict. reflexivity.
Qed.
Lemma complex_dict_plain_iff z : (exists x, to_complex_dict z = DNum x) <-> Im z = 0%R.
Proof.
  unfold to_complex_dict. destruct (Req_EM_T (Im z) 0); split; eauto; try tauto.
  intros [x E]; discriminate.
Qed.
Lemma to_complex_dict_inj z z' : to_complex_dict z = to_complex_dict z' -> z = z'.
Proof.
  intros E. assert (Ok z = Ok z') as E'
    by (rewrite <- !to_number_complex_dict, E; reflexivity). congruence.
Qed.
(** [float(v)] succeeds only on numbers, booleans and numeric strings. *)
Lemma to_number_bad v : (v = DNull \/ exists l, v = DList l) -> to_number v = Err TypeError.
Proof. intros [->|[l ->]]; reflexivity. Qed.

(** ** WC objects *)
Record wc := WCobj {
  wc_eft : string; wc_basis : string; wc_scale : R;
  wc_values : dict string doc;
  wc_cache : option (dict string C) }.
(** WC.__init__ (classes.py 320-329) for a numeric scale, no extra attributes. *)
Definition new_wc (e b : string) (sc : R) (v : dict string doc) : wc := WCobj e b sc v None.
(** WC.dict, classes.py 368-374 *)
Definition wc_dict (o : wc) : res (dict string C) * wc :=
  match wc_cache o with
  | Some d => (Ok d, o)
  | None => match values2dict (wc_values o) with
            | Ok d => (Ok d, WCobj (wc_eft o) (wc_basis o) (wc_scale o) (wc_values o) (Some d))
            | Err x => (Err x, o)
            end
  end.
(** What a user can do to a WC object. *)
Inductive wcop :=
| ReadDict
| SetValue (k : string) (v : doc)        (* wc.values[k] = v *)
| DelValue (k : string)                  (* wc.values.pop(k, None) *)
| SetValues (v : dict string doc)        (* wc.values = v *)
| MutateDict (k : string) (z : C)        (* wc.dict already read: d[k] = z on that object *).
Definition set_values (o : wc) (v : dict string doc) : wc :=
  WCobj (wc_eft o) (wc_basis o) (wc_scale o) v (wc_cache o).
Definition wc_step (o : wc) (op : wcop) : wc :=
  match op with
  | ReadDict => snd (wc_dict o)
  | SetValue k v => set_values o (dset (wc_values o) k v)
  | DelValue k => set_values o (ddel (wc_values o) k)
  | SetValues v => set_values o v
  | MutateDict k z =>
      WCobj (wc_eft o) (wc_basis o) (wc_scale o) (wc_values o)
            (option_map (fun d => dset d k z) (wc_cache o))
  end.
Definition wc_run (o : wc) (h : list wcop) : wc := fold_left wc_step h o.
(** The user's own modifications of the returned dictionary. *)
Definition mutations (h : list wcop) : list (string * C) :=
  flat_map (fun op => match op with MutateDict k z => [(k, z)] | _ => [] end) h.
Definition is_read (op : wcop) : bool := match op with ReadDict => true | _ => false end.

Lemma wc_cached_run h o d : wc_cache o = Some d ->
  wc_cache (wc_run o h) = Some (dupdate d (mutations h)).
Proof.
  revert o d; induction h as [|op h IH]; intros o d E; auto.
  unfold wc_run in *; simpl fold_left. destruct op as [|k v|k|v|k z]; simpl mutations.
  - apply IH. simpl. unfold wc_dict. rewrite E; auto.
  - apply IH; auto.
  - apply IH; auto.
  - apply IH; auto.
  - rewrite (IH _ (dset d k z)); auto. simpl. rewrite E; reflexivity.
Qed.
Lemma snapshot o h d : fst (wc_dict o) = Ok d ->
  fst (wc_dict (wc_run o (ReadDict :: h))) = Ok (dupdate d (mutations h)).
Proof.
  intros R. unfold wc_run; simpl fold_left.
  assert (wc_cache (snd (wc_dict o)) = Some d) as C.
  { unfold wc_dict in *. destruct (wc_cache o) eqn:E; simpl in *; [congruence|].
    destruct (values2dict (wc_values o)); simpl in *; congruence. }
  pose proof (wc_cached_run h _ d C) as G. unfold wc_run in G.
  unfold wc_dict at 1. rewrite G. reflexivity.
Qed.
Lemma before_first_read e b sc v h : existsb is_read h = false ->
  wc_cache (wc_run (new_wc e b sc v) h) = None /\
  fst (wc_dict (wc_run (new_wc e b sc v) h)) = values2dict (wc_values (wc_run (new_wc e b sc v) h)).
Proof.
  intros N.
  assert (wc_cache (wc_run (new_wc e b sc v) h) = None) as C.
  { assert (forall o, wc_cache o = None -> wc_cache (wc_run o h) = None) as G; [|apply G; auto].
    induction h as [|op h IH]; intros o E; auto. simpl in N.
    destruct op; simpl in N; try discriminate; unfold wc_run; simpl; apply IH; auto.
    simpl. rewrite E; reflexivity. }
  split; auto. unfold wc_dict. rewrite C. destruct (values2dict _); reflexivity.
Qed.
Lemma failed_read_no_effect o x : fst (wc_dict o) = Err x -> snd (wc_dict o) = o.
Proof.
  unfold wc_dict. destruct (wc_cache o); simpl; [discriminate|].
  destruct (values2dict (wc_values o)); simpl; [discriminate|auto].
Qed.

(** ** Translators and matchers *)
Definition params := dict string R.
(** A conversion function: coefficients, scale, user parameters.  Simplified:
    it does not modify its arguments. *)
Definition convfun := dict string C -> R -> option params -> res (dict string C).
(** Translator.__init__ (classes.py 418-424) / Matcher.__init__ (437-445) *)
Record translator := Translator { t_eft : string; t_from : string; t_to : string; t_fun : convfun }.
Record matcher := Matcher { m_from_eft : string; m_from : string; m_to_eft : string;
                            m_to : string; m_fun : convfun }.
Notation key3 := ((string * string) * string)%type.
Notation key4 := (((string * string) * string) * string)%type.
Definition treg := option (dict key3 translator).
Definition mreg := option (dict key4 matcher).
Definition or_empty {A B} (r : option (dict A B)) : dict A B := match r with Some d => d | None => [] end.
Definition reg_lookup {A B} `{Key A} (r : option (dict A B)) (k : A) : res B :=
  match r with None => Err AttributeError | Some d => dlookup d k end.
Definition new_translator (r : treg) (e f t : string) (fn : convfun) : treg :=
  Some (dset (or_empty r) (e, f, t) (Translator e f t fn)).
Definition new_matcher (r : mreg) (e f e' t : string) (fn : convfun) : mreg :=
  Some (dset (or_empty r) (e, f, e', t) (Matcher e f e' t fn)).
(** Decorators, classes.py 466-497: register and return the function. *)
Definition deco_translator (r : treg) (e f t : string) (fn : convfun) : treg * convfun :=
  (new_translator r e f t fn, fn).
Definition deco_matcher (r : mreg) (e f e' t : string) (fn : convfun) : mreg * convfun :=
  (new_matcher r e f e' t fn, fn).

Definition nonzero (kv : string * C) : bool := if Ceq_dec (snd kv) C0 then false else true.
(** The common body of Translator.translate (classes.py 426-433) and
    Matcher.match (447-455): new WC and the input with its cache filled. *)
Definition convert (fn : convfun) (e t : string) (o : wc) (p : option params) : res wc * wc :=
  let (d, o') := wc_dict o in
  (let! d := d in
   let! out := fn d (wc_scale o') p in
   Ok (new_wc e t (wc_scale o') (dict2values (filter nonzero out))), o').
(** WC.translate, classes.py 393-400 *)
Definition translate (r : treg) (o : wc) (t : string) (p : option params) : res wc * wc :=
  match reg_lookup r (wc_eft o, wc_basis o, t) with
  | Ok tr => convert (t_fun tr) (t_eft tr) (t_to tr) o p
  | Err _ => (Err ValueError, o)
  end.
(** WC.match, classes.py 402-409 *)
Definition wmatch (r : mreg) (o : wc) (e t : string) (p : option params) : res wc * wc :=
  match reg_lookup r (wc_eft o, wc_basis o, e, t) with
  | Ok m => convert (m_fun m) (m_to_eft m) (m_to m) o p
  | Err _ => (Err ValueError, o)
  end.

(** Registry contents reachable through the constructors: the key agrees with
    the attributes. *)
Definition treg_ok (r : treg) : Prop :=
  forall e f t tr, reg_lookup r (e, f, t) = Ok tr -> t_eft tr = e /\ t_from tr = f /\ t_to tr = t.
Definition mreg_ok (r : mreg) : Prop :=
  forall e f e' t m, reg_lookup r (e, f, e', t) = Ok m ->
    m_from_eft m = e /\ m_from m = f /\ m_to_eft m = e' /\ m_to m = t.
Lemma reg_lookup_set A B `{Key A} (r : option (dict A B)) k v k' :
  reg_lookup (Some (dset (or_empty r) k v)) k' =
    if keqb k k' then Ok v else match r with None => Err KeyError | _ => reg_lookup r k' end.
Proof.
  simpl. unfold dlookup. rewrite dget_dset. destruct (keqb k k'); auto.
  destruct r; reflexivity.
Qed.
Lemma treg_ok_init : treg_ok None.
Proof. intros e f t tr; discriminate. Qed.
Lemma treg_ok_new r e f t fn : treg_ok r -> treg_ok (new_translator r e f t fn).
Proof.
  intros O e' f' t' tr. unfold new_translator. rewrite reg_lookup_set.
  destruct (keqb (e, f, t) (e', f', t')) eqn:E.
  - apply keqb_eq in E. injection E as -> -> ->. intros X; inversion X; subst; auto.
  - destruct r; [apply O|discriminate].
Qed.
Lemma treg_ok_del d k : treg_ok (Some d) -> wf d -> treg_ok (Some (ddel d k)).
Proof.
  intros O W e f t tr. simpl. unfold dlookup. rewrite dget_ddel by auto.
  destruct (keqb k (e, f, t)); [discriminate|]. apply O.
Qed.
Lemma mreg_ok_init : mreg_ok None.
Proof. intros e f e' t m; discriminate. Qed.
Lemma mreg_ok_new r e f e' t fn : mreg_ok r -> mreg_ok (new_matcher r e f e' t fn).
Proof.
  intros O a b c d tr. unfold new_matcher. rewrite reg_lookup_set.
  destruct (keqb (e, f, e', t) (a, b, c, d)) eqn:E.
  - apply keqb_eq in E. injection E as -> -> -> ->. intros X; inversion X; subst; auto.
  - destruct r; [apply O|discriminate].
Qed.

Lemma filter_values out : wf out -> forall k,
  dget (filter nonzero out) k =
    match dget out k with Some z => if Ceq_dec z C0 then None else Some z | None => None end.
Proof.
  intros W k. rewrite dget_filter by auto. unfold nonzero. simpl.
  destruct (dget out k); auto. destruct (Ceq_dec c C0); reflexivity.
Qed.
Lemma convert_ok fn e t o p d out :
  fst (wc_dict o) = Ok d -> fn d (wc_scale o) p = Ok out ->
  exists w, fst (convert fn e t o p) = Ok w /\ wc_eft w = e /\ wc_basis w = t /\
    wc_scale w = wc_scale o /\ fst (wc_dict w) = Ok (filter nonzero out).
Proof.
  intros D F. unfold convert. destruct (wc_dict o) as [d' o'] eqn:E. simpl in D; subst d'.
  assert (wc_scale o' = wc_scale o) as S.
  { unfold wc_dict in E. destruct (wc_cache o); [congruence|].
    destruct (values2dict (wc_values o)); congruence || (injection E; intros; subst; auto). }
  rewrite S. simpl. rewrite F. simpl. eexists; repeat split.
  unfold wc_dict; simpl. rewrite values_roundtrip. reflexivity.
Qed.
Lemma convert_err fn e t o p :
  (forall x, fst (wc_dict o) = Err x -> fst (convert fn e t o p) = Err x) /\
  (forall d x, fst (wc_dict o) = Ok d -> fn d (wc_scale o) p = Err x -> fst (convert fn e t o p) = Err x).
Proof.
  unfold convert. destruct (wc_dict o) as [d' o'] eqn:E. simpl.
  assert (wc_scale o' = wc_scale o) as S.
  { unfold wc_dict in E. destruct (wc_cache o); [congruence|].
    destruct (values2dict (wc_values o)); congruence || (injection E; intros; subst; auto). }
  rewrite S. split.
  - intros x ->; reflexivity.
  - intros d x -> F. simpl. rewrite F; reflexivity.
Qed.
Lemma convert_input fn e t o p :
  let o' := snd (convert fn e t o p) in
  wc_eft o' = wc_eft o /\ wc_basis o' = wc_basis o /\ wc_scale o' = wc_scale o /\
  wc_values o' = wc_values o /\ fst (wc_dict o') = fst (wc_dict o).
Proof.
  unfold convert. destruct (wc_dict o) as [d o'] eqn:E. simpl.
  unfold wc_dict in *. destruct (wc_cache o) eqn:C.
  - injection E; intros; subst. rewrite C. auto.
  - destruct (values2dict (wc_values o)) eqn:V; injection E; intros; subst; simpl; auto.
    rewrite C, V; auto 6.
Qed.
Lemma translate_spec r o t p : treg_ok r ->
  (forall x, reg_lookup r (wc_eft o, wc_basis o, t) = Err x -> translate r o t p = (Err ValueError, o)) /\
  (forall tr, reg_lookup r (wc_eft o, wc_basis o, t) = Ok tr ->
     translate r o t p = convert (t_fun tr) (wc_eft o) t o p).
Proof.
  intros O. unfold translate. split.
  - intros x ->; reflexivity.
  - intros tr E. rewrite E. destruct (O _ _ _ _ E) as (-> & _ & ->). reflexivity.
Qed.
Lemma match_spec r o e t p : mreg_ok r ->
  (forall x, reg_lookup r (wc_eft o, wc_basis o, e, t) = Err x -> wmatch r o e t p = (Err ValueError, o)) /\
  (forall m, reg_lookup r (wc_eft o, wc_basis o, e, t) = Ok m ->
     wmatch r o e t p = convert (m_fun m) e t o p).
Proof.
  intros O. unfold wmatch. split.
  - intros x ->; reflexivity.
  - intros tr E. rewrite E. destruct (O _ _ _ _ _ E) as (_ & _ & -> & ->). reflexivity.
Qed.

Lemma translate_contract r o t p : treg_ok r ->
  (forall x, reg_lookup r (wc_eft o, wc_basis o, t) = Err x -> translate r o t p = (Err ValueError, o)) /\
  (forall tr d out, reg_lookup r (wc_eft o, wc_basis o, t) = Ok tr -> fst (wc_dict o) = Ok d ->
     t_fun tr d (wc_scale o) p = Ok out ->
     exists w, fst (translate r o t p) = Ok w /\ wc_eft w = wc_eft o /\ wc_basis w = t /\
       wc_scale w = wc_scale o /\ fst (wc_dict w) = Ok (filter nonzero out)) /\
  (forall tr d x, reg_lookup r (wc_eft o, wc_basis o, t) = Ok tr -> fst (wc_dict o) = Ok d ->
     t_fun tr d (wc_scale o) p = Err x -> fst (translate r o t p) = Err x) /\
  (forall tr x, reg_lookup r (wc_eft o, wc_basis o, t) = Ok tr -> fst (wc_dict o) = Err x ->
     fst (translate r o t p) = Err x).
Proof.
  intros O. destruct (translate_spec r o t p O) as [A B]. split; [exact A|]. repeat split.
  - intros tr d out L D F. rewrite (B _ L). eapply convert_ok; eauto.
  - intros tr d x L D F. rewrite (B _ L). eapply convert_err; eauto.
  - intros tr x L D. rewrite (B _ L). apply convert_err; auto.
Qed.
Lemma match_contract r o e t p : mreg_ok r ->
  (forall x, reg_lookup r (wc_eft o, wc_basis o, e, t) = Err x -> wmatch r o e t p = (Err ValueError, o)) /\
  (forall m d out, reg_lookup r (wc_eft o, wc_basis o, e, t) = Ok m -> fst (wc_dict o) = Ok d ->
     m_fun m d (wc_scale o) p = Ok out ->
     exists w, fst (wmatch r o e t p) = Ok w /\ wc_eft w = e /\ wc_basis w = t /\
       wc_scale w = wc_scale o /\ fst (wc_dict w) = Ok (filter nonzero out)) /\
  (forall m d x, reg_lookup r (wc_eft o, wc_basis o, e, t) = Ok m -> fst (wc_dict o) = Ok d ->
     m_fun m d (wc_scale o) p = Err x -> fst (wmatch r o e t p) = Err x) /\
  (forall m x, reg_lookup r (wc_eft o, wc_basis o, e, t) = Ok m -> fst (wc_dict o) = Err x ->
     fst (wmatch r o e t p) = Err x).
Proof.
  intros O. destruct (match_spec r o e t p O) as [A B]. split; [exact A|]. repeat split.
  - intros tr d out L D F. rewrite (B _ L). eapply convert_ok; eauto.
  - intros tr d x L D F. rewrite (B _ L). eapply convert_err; eauto.
  - intros tr x L D. rewrite (B _ L). apply convert_err; auto.
Qed.
Lemma input_unchanged r r' o e t p :
  let o1 := snd (translate r o t p) in let o2 := snd (wmatch r' o e t p) in
  (wc_eft o1 = wc_eft o /\ wc_basis o1 = wc_basis o /\ wc_scale o1 = wc_scale o /\
   wc_values o1 = wc_values o /\ fst (wc_dict o1) = fst (wc_dict o)) /\
  (wc_eft o2 = wc_eft o /\ wc_basis o2 = wc_basis o /\ wc_scale o2 = wc_scale o /\
   wc_values o2 = wc_values o /\ fst (wc_dict o2) = fst (wc_dict o)).
Proof.
  unfold translate, wmatch. split.
  - destruct (reg_lookup r _) as [tr|]; [apply convert_input | simpl; auto 6].
  - destruct (reg_lookup r' _) as [tr|]; [apply convert_input | simpl; auto 6].
Qed.
Lemma registries_ok tl ml :
  treg_ok (fold_left (fun r x => new_translator r (fst (fst (fst x))) (snd (fst (fst x))) (snd (fst x)) (snd x)) tl None) /\
  mreg_ok (fold_left (fun r x => new_matcher r (fst (fst (fst (fst x)))) (snd (fst (fst (fst x))))
                                 (snd (fst (fst x))) (snd (fst x)) (snd x)) ml None).
Proof.
  split.
  - assert (forall r, treg_ok r -> treg_ok (fold_left (fun r x => new_translator r (fst (fst (fst x))) (snd (fst (fst x))) (snd (fst x)) (snd x)) tl r)) as G.
    { induction tl as [|x t IH]; simpl; auto using treg_ok_new. }
    apply G, treg_ok_init.
  - assert (forall r, mreg_ok r -> mreg_ok (fold_left (fun r x => new_matcher r (fst (fst (fst (fst x)))) (snd (fst (fst (fst x))))
                                 (snd (fst (fst x))) (snd (fst x)) (snd x)) ml r)) as G.
    { induction ml as [|x t IH]; simpl; auto using mreg_ok_new. }
    apply G, mreg_ok_init.
Qed.
Lemma deco_translator_spec r e f t fn :
  snd (deco_translator r e f t fn) = fn /\
  reg_lookup (fst (deco_translator r e f t fn)) (e, f, t) = Ok (Translator e f t fn) /\
  (forall k, k <> (e, f, t) -> r <> None ->
     reg_lookup (fst (deco_translator r e f t fn)) k = reg_lookup r k).
Proof.
  unfold deco_translator, new_translator; simpl fst; simpl snd. rewrite reg_lookup_set, keqb_refl.
  repeat split. intros k N NN. rewrite reg_lookup_set.
  assert (keqb (e, f, t) k = false) as -> by (apply keqb_neq; auto).
  destruct r; [reflexivity|congruence].
Qed.
Lemma deco_matcher_spec r e f e' t fn :
  snd (deco_matcher r e f e' t fn) = fn /\
  reg_lookup (fst (deco_matcher r e f e' t fn)) (e, f, e', t) = Ok (Matcher e f e' t fn) /\
  (forall k, k <> (e, f, e', t) -> r <> None ->
     reg_lookup (fst (deco_matcher r e f e' t fn)) k = reg_lookup r k).
Proof.
  unfold deco_matcher, new_matcher; simpl fst; simpl snd. rewrite reg_lookup_set, keqb_refl.
  repeat split. intros k N NN. rewrite reg_lookup_set.
  assert (keqb (e, f, e', t) k = false) as -> by (apply keqb_neq; auto).
  destruct r; [reflexivity|congruence].
Qed.
Lemma decorated_used r t fn o p : treg_ok r ->
  translate (fst (deco_translator r (wc_eft o) (wc_basis o) t fn)) o t p =
  convert fn (wc_eft o) t o p.
Proof.
  intros O. unfold translate.
  destruct (deco_translator_spec r (wc_eft o) (wc_basis o) t fn) as (_ & -> & _). reflexivity.
Qed.

(** ** The WET-n matchers: matchers/__init__.py 37-76, [keys] = all_wcs of the
    target basis. *)
Definition key_filter (keys : list string) (d : dict string C) : dict string C :=
  filter (fun kv => mem (fst kv) keys) d.
End Values.
