(** Documents up to the order of the keys in mappings.  [WCxf.dump] (classes.py 93-105) passes plain dicts to the YAML
    printer, and PyYAML writes their keys sorted: what is read back is the same mapping in another order.  *)
From Coq Require Import String List Bool Arith ZArith Reals Lia Permutation.
From Verif Require Import PyBase PyDict Cplx Wc Dump DumpInit Cli Tool P_Tool JsonText.
From Verif Require Bases.
Import ListNotations.
Open Scope string_scope.
Open Scope list_scope.
Open Scope nat_scope.

(** The same document, except for the order of the keys; keys occur once. *)
Inductive same_doc : doc -> doc -> Prop :=
| same_null : same_doc DNull DNull
| same_bool b : same_doc (DBool b) (DBool b)
| same_num x : same_doc (DNum x) (DNum x)
| same_str s : same_doc (DStr s) (DStr s)
| same_list l l' : Forall2 same_doc l l' -> same_doc (DList l) (DList l')
| same_map m m' : wf m -> wf m' -> (forall k, dget m k = None <-> dget m' k = None) ->
    (forall k v v', dget m k = Some v -> dget m' k = Some v' -> same_doc v v') -> same_doc (DMap m) (DMap m').
(** No mapping inside has a key twice: so for everything built of Python dictionaries. *)
Inductive distinct : doc -> Prop :=
| distinct_null : distinct DNull
| distinct_bool b : distinct (DBool b)
| distinct_num x : distinct (DNum x)
| distinct_str s : distinct (DStr s)
| distinct_list l : Forall distinct l -> distinct (DList l)
| distinct_map m : wf m -> (forall k v, dget m k = Some v -> distinct v) -> distinct (DMap m).

Lemma dget_value (m : list (string * doc)) (P : doc -> Prop) k v : Forall (fun kv => P (snd kv)) m -> dget m k = Some v -> P v.
Proof. intros F E. rewrite Forall_forall in F. exact (F _ (dget_In _ _ _ E)). Qed.
Lemma same_refl d : distinct d -> same_doc d d.
Proof.
  revert d. apply (doc_rec' (fun d => distinct d -> same_doc d d)); try (intros; constructor; fail).
  - intros l IH D. inversion D as [| | | |? F|]; subst. constructor. clear D. induction l as [|x l IHl]; constructor; inversion IH; inversion F; subst; auto.
  - intros m IH D. inversion D as [| | | | |? W F]; subst. constructor; auto; [tauto|]. intros k v v' E E'. assert (v' = v) as -> by congruence.
    exact (dget_value m (fun d => distinct d -> same_doc d d) k v IH E (F k v E)).
Qed.
Lemma same_sym a : forall b, same_doc a b -> same_doc b a.
Proof.
  revert a. apply (doc_rec' (fun a => forall b, same_doc a b -> same_doc b a)); try (intros; inversion H; subst; constructor; fail).
  - intros l IH b S. inversion S as [| | | |? l' F|]; subst. constructor. clear S. induction F; constructor; inversion IH; subst; auto.
  - intros m IH b S. inversion S as [| | | | |? m' W W' N V]; subst. constructor; auto; [intros k; symmetry; apply N|]. intros k v v' E E'.
    exact (dget_value m (fun a => forall b, same_doc a b -> same_doc b a) k v' IH E' v (V k v' v E' E)).
Qed.
Lemma same_trans a : forall b c, same_doc a b -> same_doc b c -> same_doc a c.
Proof.
  revert a. apply (doc_rec' (fun a => forall b c, same_doc a b -> same_doc b c -> same_doc a c)); try (intros; inversion H; subst; inversion H0; subst; constructor; fail).
  - intros l IH b c S T. inversion S as [| | | |? l' F|]; subst. inversion T as [| | | |? l2 G|]; subst. constructor. clear S T.
    revert l2 G. induction F as [|x y l l' H F IHF]; intros l2 G; inversion G; subst; constructor; inversion IH; subst; eauto.
  - intros m IH b c S T. inversion S as [| | | | |? m' W W' N V]; subst. inversion T as [| | | | |? m2 _ W2 N2 V2]; subst. constructor; auto.
    + intros k. rewrite N. apply N2.
    + intros k v v2 E E2. destruct (dget m' k) as [v'|] eqn:E'; [|apply N in E'; congruence].
      exact (dget_value m (fun a => forall b c, same_doc a b -> same_doc b c -> same_doc a c) k v IH E v' v2 (V k v v' E E') (V2 k v' v2 E' E2)).
Qed.
Lemma same_distinct a : forall b, same_doc a b -> distinct b.
Proof.
  revert a. apply (doc_rec' (fun a => forall b, same_doc a b -> distinct b)); try (intros; inversion H; subst; constructor; fail).
  - intros l IH b S. inversion S as [| | | |? l' F|]; subst. constructor. clear S. induction F; constructor; inversion IH; subst; eauto.
  - intros m IH b S. inversion S as [| | | | |? m' W W' N V]; subst. constructor; auto. intros k v' E'. destruct (dget m k) as [v|] eqn:E; [|apply N in E; congruence].
    exact (dget_value m (fun a => forall b, same_doc a b -> distinct b) k v IH E v' (V k v v' E E')).
Qed.
Lemma same_get m m' k v : same_doc (DMap m) (DMap m') -> dget m k = Some v -> exists v', dget m' k = Some v' /\ same_doc v v'.
Proof.
  intros S E. inversion S as [| | | | |? ? W W' N V]; subst. destruct (dget m' k) as [v'|] eqn:E'; [eauto|]. apply N in E'. congruence.
Qed.
Lemma same_none m m' k : same_doc (DMap m) (DMap m') -> (dget m k = None <-> dget m' k = None).
Proof. intros S. inversion S; subst; auto. Qed.
Lemma same_wf m m' : same_doc (DMap m) (DMap m') -> wf m /\ wf m'.
Proof. intros S. inversion S; subst; auto. Qed.
Lemma same_keys m m' : same_doc (DMap m) (DMap m') -> Permutation (dkeys m) (dkeys m').
Proof.
  intros S. destruct (same_wf _ _ S) as [W W']. apply NoDup_Permutation; auto. intros k. pose proof (same_none m m' k S) as N.
  split; intros I.
  - destruct (dget m' k) eqn:E; [eapply dget_Some_key; eauto|]. exfalso. exact (proj1 (dget_None m k) (proj2 N eq_refl) I).
  - destruct (dget m k) eqn:E; [eapply dget_Some_key; eauto|]. exfalso. exact (proj1 (dget_None m' k) (proj1 N eq_refl) I).
Qed.

(** ** Coefficient objects *)
Definition same_wc (w w1 : wc) : Prop :=
  wc_eft w = wc_eft w1 /\ wc_basis w = wc_basis w1 /\ wc_scale w = wc_scale w1 /\ wc_cache w = None /\ wc_cache w1 = None /\
  same_doc (DMap (wc_values w)) (DMap (wc_values w1)).
Lemma same_wc_trans a b c : same_wc a b -> same_wc b c -> same_wc a c.
Proof.
  intros (E & B & X & C & C' & S) (E' & B' & X' & _ & C2 & S'). repeat (split; [congruence|]). exact (same_trans _ _ _ S S').
Qed.
Lemma same_wc_refl w : wc_cache w = None -> distinct (DMap (wc_values w)) -> same_wc w w.
Proof. intros C D. repeat (split; [auto|]). apply same_refl, D. Qed.
Lemma same_wc_entries w w1 : same_wc w w1 -> same_doc (DMap (entries w)) (DMap (entries w1)).
Proof.
  intros (E & B & X & _ & _ & S). assert (forall u, wf (entries u)) as W by (intros u; repeat constructor; simpl; intuition discriminate).
  constructor; auto.
  - intros k. unfold entries. cbn [dget]. repeat (destruct (keqb k _); [split; discriminate|]). tauto.
  - intros k v v'. unfold entries. cbn [dget]. repeat (destruct (keqb k _); [intros Q Q'; inversion Q; inversion Q'; subst; rewrite ?E, ?B, ?X; exact S || constructor|]). discriminate.
Qed.

Section Values.
Variable float_of_str : string -> option R.
Notation to_number := (Wc.to_number float_of_str).
Notation to_float := (Wc.to_float float_of_str).
Notation values2dict := (Wc.values2dict float_of_str).
Notation wc_dict := (Wc.wc_dict float_of_str).
Lemma same_float v v' : same_doc v v' -> to_float v = to_float v'.
Proof. intros S. inversion S; subst; reflexivity. Qed.
Lemma same_number v v' : same_doc v v' -> to_number v = to_number v'.
Proof.
  intros S. inversion S as [| | | | |m m' W W' N V]; subst; try reflexivity. unfold Wc.to_number.
  assert (forall k, to_float (get_default m k (DNum 0)) = to_float (get_default m' k (DNum 0))) as H; [|rewrite !H; reflexivity].
  intros k. unfold get_default. destruct (dget m k) as [v|] eqn:E.
  - destruct (same_get _ _ _ _ S E) as (v' & -> & Sv). apply same_float, Sv.
  - apply N in E. rewrite E. reflexivity.
Qed.
Lemma values_ok (v : dict string doc) d : values2dict v = Ok d <-> Forall2 (fun kv kz => fst kv = fst kz /\ to_number (snd kv) = Ok (snd kz)) v d.
Proof.
  unfold Wc.values2dict. refine (iff_trans (mapM_ok_iff _ _ _ v d) _). split; intros F; induction F as [|x y l l' H F IH]; constructor; auto; clear - H.
  - destruct (to_number (snd x)) eqn:E; cbn in H; [|discriminate]. injection H as <-. auto.
  - destruct y. cbn in H. destruct H as [-> ->]. reflexivity.
Qed.
Lemma values_keys v d : values2dict v = Ok d -> dkeys d = dkeys v.
Proof. rewrite values_ok. unfold dkeys. intros F. induction F as [|x y l l' [H _] F IH]; cbn; congruence. Qed.
Lemma values_get v d k : values2dict v = Ok d -> match dget v k with Some x => exists z, dget d k = Some z /\ to_number x = Ok z | None => dget d k = None end.
Proof.
  rewrite values_ok. intros F. induction F as [|[k1 x] [k2 z] l l' [H1 H2] F IH]; cbn in *; auto. subst k2. destruct (keqb k k1); eauto.
Qed.
Lemma values_total v : (forall k x, dget v k = Some x -> exists z, to_number x = Ok z) -> wf v -> exists d, values2dict v = Ok d.
Proof.
  intros H W. assert (Forall (fun kv => exists z, to_number (snd kv) = Ok z) v) as F.
  { apply Forall_forall. intros [k x] I. apply (H k x). apply In_dget; auto. }
  clear H W. induction F as [|[k x] l [z E] F (d & IH)]; [exists []; reflexivity|]. exists ((k, z) :: d). apply values_ok. constructor; [auto|]. apply values_ok, IH.
Qed.
Lemma perm_get (d d1 : dict string C) : wf d -> Permutation d d1 -> wf d1 /\ forall k, dget d k = dget d1 k.
Proof.
  intros W P. assert (wf d1) as W1 by (eapply Permutation_NoDup; [apply Permutation_map; exact P|exact W]). split; [exact W1|]. intros k.
  destruct (dget d k) as [z|] eqn:E.
  - symmetry. apply In_dget; auto. eapply Permutation_in; eauto. apply dget_In, E.
  - destruct (dget d1 k) as [z|] eqn:E1; auto. apply dget_In in E1. apply (Permutation_in _ (Permutation_sym P)) in E1. apply In_dget in E1; auto. congruence.
Qed.
Lemma get_perm (d d1 : dict string C) : wf d -> wf d1 -> (forall k, dget d k = dget d1 k) -> Permutation d d1.
Proof.
  intros W W1 G. apply NoDup_Permutation.
  - apply (NoDup_map_inv fst). exact W.
  - apply (NoDup_map_inv fst). exact W1.
  - intros [k z]. split; intros I.
    + apply dget_In. rewrite <- G. apply In_dget; auto.
    + apply dget_In. rewrite G. apply In_dget; auto.
Qed.
Lemma same_values v v1 d : same_doc (DMap v) (DMap v1) -> values2dict v = Ok d -> exists d1, values2dict v1 = Ok d1 /\ wf d /\ Permutation d d1.
Proof.
  intros S D. destruct (same_wf _ _ S) as [W W1]. pose proof (same_sym _ _ S) as S'.
  destruct (values_total v1) as (d1 & D1); auto.
  { intros k x E. destruct (same_get _ _ _ _ S' E) as (y & Ey & Sy). pose proof (values_get v d k D) as G. rewrite Ey in G. destruct G as (z & _ & G). exists z. rewrite (same_number _ _ Sy). exact G. }
  exists d1. split; [exact D1|]. assert (wf d) as Wd by (unfold wf; rewrite (values_keys _ _ D); exact W). split; [exact Wd|].
  apply get_perm; auto; [unfold wf; rewrite (values_keys _ _ D1); exact W1|]. intros k. pose proof (values_get v d k D) as G. pose proof (values_get v1 d1 k D1) as G1.
  destruct (dget v k) as [x|] eqn:E.
  - destruct (same_get _ _ _ _ S E) as (x1 & E1 & Sx). rewrite E1 in G1. destruct G as (z & -> & Z), G1 as (z1 & -> & Z1). rewrite (same_number _ _ Sx) in Z. congruence.
  - apply (same_none _ _ _ S) in E. rewrite E in G1. congruence.
Qed.
Lemma same_wc_dict w w1 d : same_wc w w1 -> fst (wc_dict w) = Ok d -> exists d1, fst (wc_dict w1) = Ok d1 /\ wf d /\ Permutation d d1.
Proof.
  intros (_ & _ & _ & C & C1 & S). unfold Wc.wc_dict. rewrite C, C1. destruct (values2dict (wc_values w)) as [d'|] eqn:D; cbn; [|discriminate]. intros [= <-].
  destruct (same_values _ _ _ S D) as (d1 & -> & H). exists d1. split; [reflexivity|exact H].
Qed.
Lemma complex_distinct z : distinct (to_complex_dict z).
Proof.
  unfold to_complex_dict. destruct (Req_EM_T _ _); constructor.
  - repeat constructor; simpl; intuition discriminate.
  - intros k v. cbn [dget]. repeat (destruct (keqb k _); [intros [= <-]; constructor|]). discriminate.
Qed.
Lemma written_values (d d1 : dict string C) : wf d -> Permutation d d1 -> same_doc (DMap (dict2values d)) (DMap (dict2values d1)).
Proof.
  intros W P. destruct (perm_get _ _ W P) as [W1 G].
  assert (forall e : dict string C, wf e -> wf (dict2values e)) as K by (intros e; unfold wf, dkeys, dict2values, dmap; rewrite map_map; auto).
  assert (forall e k, dget (dict2values e) k = option_map to_complex_dict (dget e k)) as Q.
  { intros e k. unfold dict2values, dmap. induction e as [|[k' z] e IH]; cbn; auto. destruct (keqb k k'); auto. }
  constructor; auto.
  - intros k. rewrite !Q, G. tauto.
  - intros k v v'. rewrite !Q, <- G. intros E E'. assert (v' = v) as -> by congruence. destruct (dget d k); [|discriminate]. injection E as <-. apply same_refl, complex_distinct.
Qed.
Lemma perm_filter (p : string * C -> bool) d d1 : Permutation d d1 -> Permutation (filter p d) (filter p d1).
Proof.
  intros P. induction P as [|x l l' P IH|x y l|l m n P1 IH1 P2 IH2]; cbn [filter]; auto.
  - destruct (p x); auto.
  - destruct (p x), (p y); auto. apply perm_swap.
  - eapply perm_trans; eauto.
Qed.
Lemma wf_filter' (p : string * C -> bool) d : wf d -> wf (filter p d).
Proof.
  unfold wf, dkeys. induction d as [|x d IH]; cbn; auto. intros N. inversion N; subst. destruct (p x); cbn; auto. constructor; auto.
  intros I. apply H1. apply in_map_iff in I. destruct I as (y & E & I). apply filter_In in I. apply in_map_iff. exists y. tauto.
Qed.

(** A coefficient that is not there is zero. *)
Definition coeff (d : dict string C) (k : string) : C := match dget d k with Some z => z | None => C0 end.
(** A conversion function that gives the same result for the coefficients [d] in any order *)
Definition any_order (fn : convfun) (d : dict string C) : Prop :=
  forall sc p d1 o, Permutation d d1 -> fn d sc p = Ok o -> wf o /\ exists o1, fn d1 sc p = Ok o1 /\ wf o1 /\ forall k, coeff o1 k = coeff o k.
Lemma nonzero_perm (o o1 : dict string C) : wf o -> wf o1 -> (forall k, coeff o1 k = coeff o k) -> Permutation (filter nonzero o) (filter nonzero o1).
Proof.
  intros W W1 H. apply get_perm; [apply wf_filter', W|apply wf_filter', W1|]. intros k. rewrite !filter_values by auto. specialize (H k). unfold coeff in H.
  destruct (dget o k) as [z|], (dget o1 k) as [z1|]; subst; auto; destruct (Ceq_dec _ _); congruence.
Qed.
Lemma convert_same fn e t w w1 p u : same_wc w w1 -> (forall d, fst (wc_dict w) = Ok d -> any_order fn d) ->
  fst (Wc.convert float_of_str fn e t w p) = Ok u -> exists u1, fst (Wc.convert float_of_str fn e t w1 p) = Ok u1 /\ same_wc u u1.
Proof.
  intros S A. pose proof S as (_ & _ & X & C & C1 & _). unfold Wc.convert.
  destruct (wc_dict w) as [d o] eqn:D. destruct (wc_dict w1) as [d1 o1] eqn:D1.
  assert (wc_scale o = wc_scale w /\ wc_scale o1 = wc_scale w1) as [-> ->].
  { unfold Wc.wc_dict in D, D1. rewrite C in D. rewrite C1 in D1. split.
    - destruct (values2dict (wc_values w)); injection D as <- <-; reflexivity.
    - destruct (values2dict (wc_values w1)); injection D1 as <- <-; reflexivity. }
  cbn [fst]. destruct d as [d|]; [|discriminate]. cbn [bind].
  destruct (same_wc_dict w w1 d S) as (d1' & D1' & W & P); [rewrite D; reflexivity|]. rewrite D1 in D1'. cbn in D1'. subst d1. cbn [bind].
  destruct (fn d (wc_scale w) p) as [r|] eqn:F; [|discriminate]. cbn [bind]. intros [= <-].
  destruct (A d eq_refl _ _ _ _ P F) as (Wr & r1 & F1 & Wr1 & Pr). rewrite <- X, F1. cbn [bind]. eexists. split; [reflexivity|].
  repeat (split; [reflexivity|]). cbn [wc_values new_wc]. apply written_values; [apply wf_filter', Wr|apply nonzero_perm; auto].
Qed.
End Values.

(** ** The command line *)
Section Texts.
Variable float_of_str : string -> option R.
Variables json_dumps yaml_dump : doc -> string.
Variables json_loads yaml_load : string -> res doc.
Variable treg_ : treg.
Variable mreg_ : mreg.
Variable printable : doc -> Prop.
(** What is printed is read back up to the order of the keys. *)
Hypothesis json_roundtrip : forall d, printable d -> exists d', json_loads (json_dumps d) = Ok d' /\ same_doc d d'.
Hypothesis yaml_roundtrip : forall d, printable d -> exists d', yaml_load (yaml_dump d) = Ok d' /\ same_doc d d'.
Hypothesis yaml_not_json : forall m, m <> [] -> printable (DMap m) ->
  exists x, json_loads (yaml_dump (DMap m)) = Err x /\ (x = ValueError \/ x = JSONDecodeError).
(** The order of the keys does not matter for printing. *)
Hypothesis printable_same : forall d d', printable d -> same_doc d d' -> printable d'.
Notation file_of := (Tool.file_of float_of_str json_loads yaml_load).
Notation call := (Tool.call float_of_str treg_ mreg_).
Notation calls := (Tool.calls float_of_str treg_ mreg_).
Notation all_print := (Tool.all_print float_of_str treg_ mreg_ printable).
Notation text_for := (P_Tool.text_for json_dumps yaml_dump).
Notation wdump := (Tool.wdump json_dumps yaml_dump).

Lemma load_printed fmt w : format_ok fmt -> printable (DMap (entries w)) ->
  wdump (wc_attrs w) fmt = Ok (text_for fmt w) /\ exists m, load_text string json_loads yaml_load (text_for fmt w) = Ok (DMap m) /\ same_doc (DMap (entries w)) (DMap m).
Proof.
  intros F P. assert (public (wc_attrs w) = Ok (entries w)) as Q by reflexivity.
  destruct (dump_defined string json_dumps yaml_dump (wc_attrs w) (entries w) fmt Q) as (D1 & D2 & _).
  assert (forall d, same_doc (DMap (entries w)) d -> exists m, d = DMap m) as M by (intros d S; inversion S; eauto).
  assert (text_for fmt w = if String.eqb (lower fmt) "json" then json_dumps (DMap (entries w)) else yaml_dump (DMap (entries w))) as -> by reflexivity.
  destruct (String.eqb_spec (lower fmt) "json") as [E|N].
  - split; [exact (D1 E)|]. destruct (json_roundtrip _ P) as (d & L & S). destruct (M d S) as (m & ->). exists m. unfold load_text. rewrite L. auto.
  - destruct F as [F|F]; [congruence|]. split; [exact (D2 F)|]. destruct (yaml_roundtrip _ P) as (d & L & S). destruct (M d S) as (m & ->). exists m. unfold load_text.
    destruct (yaml_not_json (entries w)) as (x & -> & [-> | ->]); auto; discriminate.
Qed.
Lemma printed_file fmt w : wc_cache w = None -> format_ok fmt -> printable (DMap (entries w)) ->
  wdump (wc_attrs w) fmt = Ok (text_for fmt w) /\ exists w1, file_of (text_for fmt w) w1 /\ same_wc w w1.
Proof.
  intros C F P. destruct (load_printed fmt w F P) as (D & m & L & S). split; [exact D|].
  destruct (same_get _ _ "eft" (DStr (wc_eft w)) S eq_refl) as (a & Ea & Sa). inversion Sa; subst.
  destruct (same_get _ _ "basis" (DStr (wc_basis w)) S eq_refl) as (b & Eb & Sb). inversion Sb; subst.
  destruct (same_get _ _ "scale" (DNum (wc_scale w)) S eq_refl) as (x & Ex & Sx). inversion Sx; subst.
  destruct (same_get _ _ "values" (DMap (wc_values w)) S eq_refl) as (v & Ev & Sv).
  assert (exists v1, v = DMap v1) as (v1 & ->) by (inversion Sv; eauto).
  exists (WCobj (wc_eft w) (wc_basis w) (wc_scale w) v1 None). split; [|repeat (split; [auto|]); exact Sv].
  exists m, (DNum (wc_scale w)). split; [exact L|]. split; [exact (proj2 (same_wf _ _ S))|]. cbn [wc_eft wc_basis wc_scale wc_values wc_cache].
  do 6 (split; [assumption || reflexivity|]). intros k I. apply (proj1 (same_none _ _ k S)). unfold reserved in I. simpl in I.
  repeat (destruct I as [<-|I]; [reflexivity|]). destruct I.
Qed.

(** The method call gives the same for all orders of the coefficients of [w]. *)
Definition insensitive (x : step) (w : wc) : Prop :=
  forall w1 u, same_wc w w1 -> call x w = Ok u -> exists u1, call x w1 = Ok u1 /\ same_wc u u1.
Definition fn_of (x : step) (w : wc) : res convfun :=
  match x with
  | STranslate t => rmap t_fun (reg_lookup treg_ (wc_eft w, wc_basis w, t))
  | SMatch e t => rmap m_fun (reg_lookup mreg_ (wc_eft w, wc_basis w, e, t))
  end.
Lemma any_order_insensitive x w : (forall fn d, fn_of x w = Ok fn -> fst (wc_dict float_of_str w) = Ok d -> any_order fn d) -> insensitive x w.
Proof.
  intros A w1 u S. pose proof S as (E & B & _). destruct x as [t|e t]; cbn [Tool.call fn_of] in *; unfold Wc.translate, Wc.wmatch; rewrite <- E, <- B.
  - destruct (reg_lookup treg_ (wc_eft w, wc_basis w, t)) as [tr|]; [|discriminate]. apply convert_same; [exact S|]. intros d D. exact (A _ d eq_refl D).
  - destruct (reg_lookup mreg_ (wc_eft w, wc_basis w, e, t)) as [tr|]; [|discriminate]. apply convert_same; [exact S|]. intros d D. exact (A _ d eq_refl D).
Qed.
(** So at every step of the calls. *)
Definition order_free (l : list step) (w : wc) : Prop :=
  forall n x v, nth_error l n = Some x -> calls (firstn n l) w = Ok v -> insensitive x v.
Lemma order_free_cons x l w v : order_free (x :: l) w -> call x w = Ok v -> insensitive x w /\ order_free l v.
Proof.
  intros A C. split.
  - exact (A 0 x w eq_refl eq_refl).
  - intros n y u N E. apply (A (S n) y u N). cbn. rewrite C. exact E.
Qed.

Variable w0 : Bases.world.
Variable odd : attrs -> list string -> res wc.
Variable basis_ : Type.
Variable EFT_load : string -> res unit.
Variable Basis_load : string -> res basis_.
Variable basis_validate : basis_ -> res unit.
Notation tool := (Tool.tool float_of_str json_dumps yaml_dump json_loads yaml_load treg_ mreg_ w0 odd basis_ EFT_load Basis_load basis_validate).
Notation shell := (Tool.shell float_of_str json_dumps yaml_dump json_loads yaml_load treg_ mreg_ w0 odd basis_ EFT_load Basis_load basis_validate).
(** One command: [w] is what the calls so far give, [w1] what the file read has. *)
Lemma step_same x f o fmt s w w1 u : same_wc w w1 -> insensitive x w -> file_of (input_text (cmd_of x f o fmt) s) w1 -> format_ok fmt -> call x w = Ok u -> printable (DMap (entries u)) ->
  exists u1 u2, call x w1 = Ok u1 /\ tool (PCmd (cmd_of x f o fmt)) s = (0%Z, put o (text_for fmt u1) s) /\ file_of (text_for fmt u1) u2 /\ same_wc u u1 /\ same_wc u u2.
Proof.
  intros S A F K C P. destruct (A w1 u S C) as (u1 & C1 & S1).
  assert (printable (DMap (entries u1))) as P1 by (eapply printable_same; [exact P|]; apply same_wc_entries, S1).
  destruct (printed_file fmt u1 (call_fresh _ _ _ x w1 u1 C1) K P1) as (D & u2 & F2 & S2). exists u1, u2. split; [exact C1|]. split; [|split; [exact F2|split; [exact S1|exact (same_wc_trans _ _ _ S1 S2)]]].
  unfold Tool.tool. rewrite (main_ok _ _ _ _ _ _ _ _ _ _ _ _ _ _ (text_for fmt u1)); [rewrite cmd_of_out; reflexivity|].
  pose proof (outcome_step float_of_str json_dumps yaml_dump json_loads yaml_load treg_ mreg_ w0 odd basis_ EFT_load Basis_load basis_validate x f o fmt _ w1 (file_of_for _ _ _ _ _ F)) as O.
  unfold outcome in O. rewrite O, C1. cbn [bind]. rewrite D. reflexivity.
Qed.
Notation steps l := (map (fun x : step * string * string => fst (fst x)) l).
Lemma shell_same l : forall p s w w1 w', chain_ok l p -> same_wc w w1 -> file_of (content s p) w1 -> calls (steps l) w = Ok w' -> all_print (steps l) w -> order_free (steps l) w ->
  fst (fst (shell l p s)) = map (fun _ => 0%Z) l /\ exists w2, file_of (content (snd (shell l p s)) (snd (fst (shell l p s)))) w2 /\ same_wc w' w2.
Proof.
  induction l as [|[[x fmt] q] r IH]; intros p s w w1 w' K S F C A O.
  - cbn in *. injection C as <-. split; eauto.
  - destruct K as (N & K1 & K2). cbn [map fst snd Tool.calls] in C, A, O. destruct (call x w) as [v|] eqn:Cx; [|discriminate]. cbn [bind] in C.
    destruct (all_print_cons _ _ _ _ _ _ _ _ A Cx) as [Pv Av]. destruct (order_free_cons _ _ _ _ O Cx) as [Ox Or].
    destruct (step_same x (SFile p) (DFile q) fmt s w w1 v) as (u1 & u2 & C1 & T & G & S1 & S2); auto.
    { rewrite input_cmd_of, content_other by exact N. exact F. }
    specialize (IH q (put (DFile q) (text_for fmt u1) s) v u2 w' K2 S2). rewrite content_put in IH. specialize (IH G C Av Or).
    cbn [Tool.shell]. rewrite T. destruct (shell r q (put (DFile q) (text_for fmt u1) s)) as [[ns q'] s'']. cbn [fst snd map] in *. destruct IH as [-> IH]. auto.
Qed.
End Texts.
