(** Model of WCxf.load / WCxf.dump (classes.py 155-191, 28-37) on attribute
    dictionaries. *)
From Coq Require Import String Ascii List Bool Arith Reals.
From Verif Require Import PyBase PyDict Cplx Wc.
Import ListNotations.
Open Scope string_scope.
Open Scope list_scope.
Open Scope nat_scope.

Inductive wclass := KEFT | KBasis | KWC.
(** Named parameters of the constructors, in the order in which they are
    stored (classes.py 195-199, 215-231, 320-327). *)
Definition required (c : wclass) : list string :=
  match c with
  | KEFT => ["eft"; "sectors"]
  | KBasis => ["eft"; "basis"; "sectors"]
  | KWC => ["eft"; "basis"; "scale"; "values"]
  end.
(** Read-only properties: [setattr] raises AttributeError. *)
Definition properties (c : wclass) : list string :=
  match c with
  | KEFT => ["known_bases"; "known_translators"]
  | KBasis => ["known_translators"; "all_wcs"]
  | KWC => ["dict"]
  end.
Definition attrs := dict string doc.

(** [k[0] != '_']; IndexError for the empty name (classes.py 177) *)
Definition is_public (k : string) : res bool :=
  match k with
  | EmptyString => Err IndexError
  | String a _ => Ok (negb (Ascii.eqb a "_"%char))
  end.
Fixpoint public (d : attrs) : res attrs :=
  match d with
  | [] => Ok []
  | (k, v) :: t => let! b := is_public k in let! r := public t in
                   Ok (if b : bool then (k, v) :: r else r)
  end.

(** [str.lower] on ASCII (Simplified: other characters unchanged). *)
Definition lower_ascii (a : ascii) : ascii :=
  let n := nat_of_ascii a in
  if (Nat.leb 65 n && Nat.leb n 90)%bool then ascii_of_nat (n + 32) else a.
Fixpoint lower (s : string) : string :=
  match s with EmptyString => EmptyString | String a t => String (lower_ascii a) (lower t) end.

Section Dump.
Variable float_of_str : string -> option R.
(** Text layer: abstract serialised texts with the two printers and parsers. *)
Variable text : Type.
Variables json_dumps yaml_dump : doc -> text.
Variables json_loads yaml_load : text -> res doc.
Definition kwargs_of (c : wclass) (m : attrs) : attrs :=
  filter (fun kv => negb (mem (fst kv) (required c))) m.
Definition need (m : attrs) (k : string) : res doc :=
  match dget m k with Some v => Ok v | None => Err TypeError end.
(** [for k, v in kwargs.items(): setattr(self, k, v)] *)
Fixpoint setattrs (c : wclass) (d : attrs) (kw : attrs) : res attrs :=
  match kw with
  | [] => Ok d
  | (k, v) :: t => if mem k (properties c) then Err AttributeError
                   else setattrs c (dset d k v) t
  end.
(** [cls( **m)] : the resulting [__dict__].  Simplified: the private attributes
    [_name], [_dict], [_all_wcs] hold null placeholders; names with double
    underscores ([__class__]...) have no special meaning.  [parent_sectors e p] are
    the sectors of the registered basis [(e, p)] ([None]: ValueError). *)
Definition construct (parent_sectors : doc -> doc -> option (dict string doc))
    (c : wclass) (m : attrs) : res attrs :=
  if dmem m "self" then Err TypeError else
  match c with
  | KEFT =>
      let! e := need m "eft" in let! s := need m "sectors" in
      setattrs c [("eft", e); ("sectors", s); ("_name", DNull)] (kwargs_of c m)
  | KBasis =>
      let! e := need m "eft" in let! b := need m "basis" in let! s := need m "sectors" in
      let! d := setattrs c [("eft", e); ("basis", b); ("_name", DNull)] (kwargs_of c m) in
      let! s' := match dget d "parent" with
                 | None => Ok s
                 | Some p => match parent_sectors e p, s with
                             | Some ps, DMap sm => Ok (DMap (dupdate ps sm))
                             | Some _, _ => Err TypeError
                             | None, _ => Err ValueError
                             end
                 end in
      Ok (dset (dset d "sectors" s') "_all_wcs" DNull)
  | KWC =>
      let! e := need m "eft" in let! b := need m "basis" in
      let! sc := need m "scale" in let! v := need m "values" in
      let! x := to_float float_of_str sc in
      setattrs c [("eft", e); ("basis", b); ("scale", DNum x); ("values", v); ("_dict", DNull)]
               (kwargs_of c m)
  end.
(** WCxf.dump, classes.py 164-191 *)
Definition dump (d : attrs) (fmt : string) : res text :=
  let! p := public d in
  if String.eqb (lower fmt) "json" then Ok (json_dumps (DMap p))
  else if String.eqb (lower fmt) "yaml" then Ok (yaml_dump (DMap p))
  else Err ValueError.
(** _load_yaml_json, classes.py 28-37; JSONDecodeError is a ValueError *)
Definition load_text (t : text) : res doc :=
  match json_loads t with
  | Err ValueError | Err JSONDecodeError => yaml_load t
  | r => r
  end.
(** WCxf.load, classes.py 158-162 *)
Definition load (ps : doc -> doc -> option (dict string doc)) (c : wclass) (t : text) : res attrs :=
  let! d := load_text t in
  match d with DMap m => construct ps c m | _ => Err TypeError end.

(** Documents that the printers and parsers take over unchanged. *)
Variable printable : doc -> Prop.
Hypothesis json_roundtrip : forall d, printable d -> json_loads (json_dumps d) = Ok d.
Hypothesis yaml_roundtrip : forall d, printable d -> yaml_load (yaml_dump d) = Ok d.
(** Block-style YAML of a non-empty mapping is not a JSON text. *)
Hypothesis yaml_not_json : forall m, m <> [] -> printable (DMap m) ->
  exists x, json_loads (yaml_dump (DMap m)) = Err x /\ (x = ValueError \/ x = JSONDecodeError).

(** ** Facts *)
Lemma public_app a b :
  public (a ++ b) = (let! x := public a in let! y := public b in Ok (x ++ y)).
Proof.
  induction a as [|[k v] t IH]; simpl.
  - destruct (public b); reflexivity.
  - destruct (is_public k) as [q|]; simpl; auto. rewrite IH.
    destruct (public t); simpl; auto. destruct (public b); simpl; auto.
    destruct q; reflexivity.
Qed.
Lemma public_In d p k v : public d = Ok p ->
  (In (k, v) p <-> In (k, v) d /\ is_public k = Ok true).
Proof.
  revert p; induction d as [|[k' v'] t IH]; simpl; intros p E.
  - injection E as <-. simpl; tauto.
  - destruct (is_public k') as [q|] eqn:Q; simpl in E; try discriminate.
    destruct (public t) as [r|]; simpl in E; try discriminate.
    specialize (IH r eq_refl). injection E as <-. destruct q; simpl; rewrite IH; intuition; try congruence.
Qed.
Lemma dkeys_public_incl d p : public d = Ok p -> incl (dkeys p) (dkeys d).
Proof.
  intros E k I'. unfold dkeys in *. apply in_map_iff in I'. destruct I' as ([k' v] & <- & I').
  eapply public_In in I'; eauto. destruct I' as [I' _]. apply (in_map fst) in I'. exact I'.
Qed.
Lemma wf_public d p : wf d -> public d = Ok p -> wf p.
Proof.
  unfold wf. revert p; induction d as [|[k' v'] t IH]; simpl; intros p W E.
  - injection E as <-. constructor.
  - destruct (is_public k') as [q|] eqn:Q; simpl in E; try discriminate.
    destruct (public t) as [r|] eqn:P; simpl in E; try discriminate.
    inversion W; subst. injection E as <-. destruct q; simpl; auto.
    constructor; auto. intros I'. apply dkeys_public_incl in P. apply P in I'. auto.
Qed.
(** Only public names. *)
Definition all_public (d : attrs) : Prop := forall k v, In (k, v) d -> is_public k = Ok true.
Lemma public_id d : all_public d -> public d = Ok d.
Proof.
  induction d as [|[k v] t IH]; simpl; intros A; auto.
  rewrite (A k v) by (simpl; auto). simpl. rewrite IH; auto.
  intros k' v' I'. apply (A k' v'); simpl; auto.
Qed.
Lemma public_all d p : public d = Ok p -> all_public p.
Proof. intros E k v I'. eapply public_In in I'; eauto. tauto. Qed.

Lemma setattrs_ok c d kw r : setattrs c d kw = Ok r -> r = dupdate d kw /\
  (forall k, In k (map fst kw) -> mem k (properties c) = false).
Proof.
  revert d; induction kw as [|[k v] t IH]; simpl; intros d E.
  - injection E as <-. split; [reflexivity|tauto].
  - destruct (mem k (properties c)) eqn:M; try discriminate. apply IH in E.
    destruct E as [-> F]. split; [reflexivity|]. intros k' [<-|I']; auto.
Qed.
Lemma setattrs_ok_conv c d kw : (forall k, In k (map fst kw) -> mem k (properties c) = false) ->
  setattrs c d kw = Ok (dupdate d kw).
Proof.
  revert d; induction kw as [|[k v] t IH]; simpl; intros d F; auto.
  rewrite F by auto. rewrite IH by auto. reflexivity.
Qed.
Lemma dupdate_disjoint {V} (d kw : dict string V) : wf kw ->
  (forall k, In k (dkeys kw) -> ~ In k (dkeys d)) -> dupdate d kw = d ++ kw.
Proof.
  unfold wf. revert d; induction kw as [|[k v] t IH]; intros d W D.
  - rewrite app_nil_r; reflexivity.
  - rewrite dupdate_cons. simpl in W. inversion W; subst.
    rewrite dset_fresh by (apply D; simpl; auto). rewrite IH; auto.
    + rewrite <- app_assoc; reflexivity.
    + intros k' I'. unfold dkeys. rewrite map_app, in_app_iff; simpl.
      intros [A|[<-|[]]]; auto. apply (D k'); simpl; auto.
Qed.

(** Splitting an update by public / private names: the public part of
    [dupdate d kw] is [public d ++ public kw] when no public name of [kw]
    occurs in [d]. *)
Lemma public_dset_private d k v p : public d = Ok p -> is_public k = Ok false ->
  public (dset d k v) = Ok p.
Proof.
  revert p; induction d as [|[k' v'] t IH]; simpl; intros p E P.
  - injection E as <-. simpl. rewrite P; reflexivity.
  - destruct (keqb k k') eqn:K.
    + apply keqb_eq in K; subst. simpl. rewrite P in E |- *. simpl in *.
      destruct (public t); simpl in *; auto.
    + simpl. destruct (is_public k') as [q|]; simpl in *; try discriminate.
      destruct (public t) as [r|]; simpl in *; try discriminate.
      rewrite (IH r) by auto. simpl. exact E.
Qed.
Lemma public_dset_new d k v p : public d = Ok p -> is_public k = Ok true -> ~ In k (dkeys d) ->
  public (dset d k v) = Ok (p ++ [(k, v)]).
Proof.
  intros E P N. rewrite dset_fresh by auto. rewrite public_app, E. simpl. rewrite P. reflexivity.
Qed.
Lemma dkeys_dset_In {V} (d : dict string V) k k' v : In k' (dkeys (dset d k v)) <-> k' = k \/ In k' (dkeys d).
Proof. apply In_dkeys_dset. Qed.
Lemma public_dupdate kw : forall d p q, wf kw -> public d = Ok p -> public kw = Ok q ->
  (forall k, In k (dkeys q) -> ~ In k (dkeys d)) -> public (dupdate d kw) = Ok (p ++ q).
Proof.
  induction kw as [|[k v] t IH]; intros d p q W E Q D.
  - simpl in Q. injection Q as <-. rewrite app_nil_r. exact E.
  - rewrite dupdate_cons. simpl in Q. destruct (is_public k) as [b|] eqn:P; simpl in Q; try discriminate.
    destruct (public t) as [q'|] eqn:Pt; simpl in Q; try discriminate.
    injection Q as <-. unfold wf in W; simpl in W. inversion W as [|? ? Nk W']; subst.
    destruct b.
    + assert (~ In k (dkeys d)) as Nd by (apply D; simpl; auto).
      rewrite (IH (dset d k v) (p ++ [(k, v)]) q'); auto.
      * rewrite <- app_assoc; reflexivity.
      * apply public_dset_new; auto.
      * intros k' I'. rewrite dkeys_dset_In. intros [->|A].
        -- apply Nk. eapply dkeys_public_incl; eauto.
        -- apply (D k'); simpl; auto.
    + apply IH; auto.
      * apply public_dset_private; auto.
      * intros k' I'. rewrite dkeys_dset_In. intros [->|A].
        -- unfold dkeys in I'. apply in_map_iff in I'. destruct I' as ([k2 v2] & E2 & I2). simpl in E2; subst.
           apply (public_all _ _ Pt) in I2. congruence.
        -- apply (D k'); simpl; auto.
Qed.

Lemma kwargs_wf c m : wf m -> wf (kwargs_of c m).
Proof. apply wf_filter. Qed.
Lemma kwargs_notreq c m k : In k (dkeys (kwargs_of c m)) -> ~ In k (required c).
Proof.
  unfold dkeys, kwargs_of. intros I'. apply in_map_iff in I'. destruct I' as ([k' v] & <- & I').
  apply filter_In in I'. destruct I' as [_ I']. simpl in *. apply negb_true_iff in I'.
  apply mem_notIn in I'. exact I'.
Qed.
(** Prefix of required entries followed by extra ones. *)
Lemma kwargs_app c a b : kwargs_of c (a ++ b) = kwargs_of c a ++ kwargs_of c b.
Proof. apply filter_app. Qed.
Lemma kwargs_id c d : (forall k, In k (dkeys d) -> ~ In k (required c)) -> kwargs_of c d = d.
Proof.
  induction d as [|[k v] t IH]; simpl; intros N; auto.
  assert (mem k (required c) = false) as -> by (apply mem_notIn; apply N; simpl; auto).
  simpl. rewrite IH; auto.
Qed.
Lemma public_cons_pub k v d : is_public k = Ok true ->
  public ((k, v) :: d) = (let! r := public d in Ok ((k, v) :: r)).
Proof. intros P. simpl. rewrite P. simpl. destruct (public d); reflexivity. Qed.

Lemma public_props c kw q : public kw = Ok q ->
  (forall k, In k (map fst kw) -> mem k (properties c) = false) ->
  (forall k, In k (map fst q) -> mem k (properties c) = false).
Proof.
  intros P F k I'. apply F. eapply dkeys_public_incl in P. apply P. exact I'.
Qed.
Lemma not_self (m : attrs) : dmem m "self" = false -> forall q : attrs, incl (dkeys q) (dkeys m) -> dmem q "self" = false.
Proof.
  intros N q I'. destruct (dmem q "self") eqn:E; auto.
  apply dmem_In in E. apply I' in E. apply dmem_In in E. congruence.
Qed.
Lemma dmem_app {V} (a b : dict string V) k : dmem (a ++ b) k = dmem a k || dmem b k.
Proof.
  unfold dmem. induction a as [|[k' v] t IH]; simpl; auto.
  destruct (keqb k k'); auto.
Qed.
Lemma kwargs_keys_incl c m : incl (dkeys (kwargs_of c m)) (dkeys m).
Proof.
  intros k. unfold dkeys, kwargs_of. rewrite !in_map_iff. intros ([k' v] & E & I').
  apply filter_In in I'. exists (k', v); tauto.
Qed.
Lemma public_defined d : (exists p, public d = Ok p) <->
  (forall k, In k (dkeys d) -> exists b, is_public k = Ok b).
Proof.
  induction d as [|[k v] t IH]; simpl.
  - split; [intros _ k []|eauto].
  - split.
    + intros [p P] k' [E|I'].
      * subst. destruct (is_public k'); simpl in P; [eauto|discriminate].
      * apply IH; auto. destruct (is_public k); simpl in P; try discriminate.
        destruct (public t); simpl in P; try discriminate. eauto.
    + intros A. destruct (A k) as [b ->]; auto.
      assert (exists p, public t = Ok p) as [p ->] by (apply IH; intros; apply A; auto).
      simpl; eauto.
Qed.
Lemma public_err_kw c d kw r : setattrs c d kw = Ok r -> forall p0, public r = Ok p0 ->
  exists q, public kw = Ok q.
Proof.
  intros S p0 P. apply setattrs_ok in S. destruct S as [-> _].
  apply public_defined. intros k I'.
  apply (proj1 (public_defined (dupdate d kw))); eauto.
  apply In_dkeys_dupdate; right; exact I'.
Qed.

(** The extra attributes of an object and of its reloaded copy. *)
Lemma kw_part c m d0 p0 r p : wf m -> dmem m "self" = false ->
  setattrs c d0 (kwargs_of c m) = Ok r -> public r = Ok p -> public d0 = Ok p0 ->
  (forall k, In k (dkeys d0) -> In k (required c) \/ is_public k = Ok false) ->
  exists q, public (kwargs_of c m) = Ok q /\ p = p0 ++ q /\ all_public q /\ wf q /\
    (forall k, In k (dkeys q) -> ~ In k (required c)) /\
    (forall k, In k (dkeys q) -> ~ In k (dkeys d0)) /\
    dmem q "self" = false /\
    (forall k, In k (map fst q) -> mem k (properties c) = false).
Proof.
  intros W Sf E P P0 D.
  destruct (public_err_kw _ _ _ _ E p P) as [q Q].
  apply setattrs_ok in E. destruct E as [-> F].
  pose proof (kwargs_wf c m W) as Wk.
  assert (forall k, In k (dkeys q) -> ~ In k (required c)) as Nq.
  { intros k I'. apply (kwargs_notreq c m). eapply dkeys_public_incl; eauto. }
  assert (all_public q) as Aq by (eapply public_all; eauto).
  assert (forall k, In k (dkeys q) -> ~ In k (dkeys d0)) as Nd.
  { intros k I' I0. apply D in I0. destruct I0 as [I0|I0]; [apply (Nq k); auto|].
    unfold dkeys in I'. apply in_map_iff in I'. destruct I' as ([k2 v2] & E2 & I2).
    simpl in E2; subst. apply Aq in I2. congruence. }
  exists q. split; [exact Q|].
  rewrite (public_dupdate _ _ p0 q) in P; auto. injection P as <-.
  split; [reflexivity|]. split; [exact Aq|]. split; [eapply wf_public; eauto|].
  split; [exact Nq|]. split; [exact Nd|]. split.
  - apply (not_self m Sf). intros k I'. apply (kwargs_keys_incl c). eapply dkeys_public_incl; eauto.
  - eapply public_props; eauto.
Qed.
Lemma kwargs_required c d : (forall k, In k (dkeys d) -> In k (required c)) -> kwargs_of c d = [].
Proof.
  induction d as [|[k v] t IH]; simpl; intros N; auto.
  assert (mem k (required c) = true) as -> by (apply mem_In; apply N; simpl; auto).
  simpl. apply IH. intros; apply N; simpl; auto.
Qed.
Lemma dget_app {V} (a b : dict string V) k :
  dget (a ++ b) k = match dget a k with Some v => Some v | None => dget b k end.
Proof.
  induction a as [|[k' v] t IH]; simpl; auto. destruct (keqb k k'); auto.
Qed.

Ltac unneed E := unfold need in E;
  repeat match type of E with context [dget ?m ?k] =>
    let v := fresh "v" in destruct (dget m k) as [v|]; simpl in E; [|discriminate] end.

Lemma reload_eft ps ps' m d p : wf m -> construct ps KEFT m = Ok d -> public d = Ok p ->
  exists d', construct ps' KEFT p = Ok d' /\ public d' = Ok p.
Proof.
  intros W E P. unfold construct in E.
  destruct (dmem m "self") eqn:Sf; try discriminate.
  unfold need in E. destruct (dget m "eft") as [e|]; cbn [bind] in E; try discriminate.
  destruct (dget m "sectors") as [s|]; cbn [bind] in E; try discriminate.
  destruct (kw_part _ m _ [("eft", e); ("sectors", s)] _ _ W Sf E P)
    as (q & Q & -> & Aq & Wq & Nq & Nd & Sq & Fq); [reflexivity| |].
  { intros k [<-|[<-|[<-|[]]]]; simpl; auto. }
  assert (kwargs_of KEFT ([("eft", e); ("sectors", s)] ++ q) = q) as EK.
  { rewrite kwargs_app, kwargs_required, kwargs_id; auto. }
  exists (dupdate [("eft", e); ("sectors", s); ("_name", DNull)] q). split.
  - unfold construct. rewrite dmem_app, Sq. unfold need. rewrite !dget_app.
    cbn -[setattrs kwargs_of dupdate app]. rewrite EK. apply setattrs_ok_conv; auto.
  - apply public_dupdate; auto. apply public_id; auto.
Qed.
Lemma reload_wc ps ps' m d p : wf m -> construct ps KWC m = Ok d -> public d = Ok p ->
  exists d', construct ps' KWC p = Ok d' /\ public d' = Ok p.
Proof.
  intros W E P. unfold construct in E.
  destruct (dmem m "self") eqn:Sf; try discriminate.
  unfold need in E. destruct (dget m "eft") as [e|]; cbn [bind] in E; try discriminate.
  destruct (dget m "basis") as [b|]; cbn [bind] in E; try discriminate.
  destruct (dget m "scale") as [sc|]; cbn [bind] in E; try discriminate.
  destruct (dget m "values") as [v|]; cbn [bind] in E; try discriminate.
  destruct (to_float float_of_str sc) as [x|]; cbn [bind] in E; try discriminate.
  set (p0 := [("eft", e); ("basis", b); ("scale", DNum x); ("values", v)]).
  destruct (kw_part _ m _ p0 _ _ W Sf E P)
    as (q & Q & -> & Aq & Wq & Nq & Nd & Sq & Fq); [reflexivity| |].
  { intros k [<-|[<-|[<-|[<-|[<-|[]]]]]]; simpl; auto 6. }
  assert (kwargs_of KWC (p0 ++ q) = q) as EK.
  { rewrite kwargs_app, kwargs_required, kwargs_id; auto. }
  exists (dupdate [("eft", e); ("basis", b); ("scale", DNum x); ("values", v); ("_dict", DNull)] q). split.
  - unfold construct. rewrite dmem_app, Sq. unfold need. rewrite !dget_app.
    cbn -[setattrs kwargs_of dupdate app]. rewrite EK. apply setattrs_ok_conv; auto.
  - apply public_dupdate; auto. apply public_id; auto.
Qed.
(** For a child basis the parent's mapping is the object's own (they share
    it, Bases.v), so it is what the reload finds. *)
Definition parent_shared (ps : doc -> doc -> option (dict string doc)) (d : attrs) : Prop :=
  forall e par, dget d "eft" = Some e -> dget d "parent" = Some par ->
    exists sm, ps e par = Some sm /\ wf sm /\ dget d "sectors" = Some (DMap sm).
Lemma dupdate_self {V} (d : dict string V) : wf d -> dupdate d d = d.
Proof.
  intros W. apply dict_ext.
  - apply wf_dupdate; auto.
  - assert (forall l d0 : dict string V, incl (dkeys l) (dkeys d0) -> dkeys (dupdate d0 l) = dkeys d0) as G.
    { induction l as [|[k v] t IH]; intros d0 I'; auto. rewrite dupdate_cons.
      assert (dkeys (dset d0 k v) = dkeys d0) as EK.
      { rewrite dkeys_dset. assert (dmem d0 k = true) as ->; auto. apply dmem_In. apply I'; simpl; auto. }
      rewrite IH; auto. rewrite EK. intros a Ia. apply I'; simpl; auto. }
    apply G; apply incl_refl.
  - intros k I'. rewrite dget_dupdate, dget_last_wf by auto. destruct (dget d k); auto.
Qed.
Lemma wf_setattrs c d kw r : wf d -> setattrs c d kw = Ok r -> wf r.
Proof. intros W E. apply setattrs_ok in E. destruct E as [-> _]. apply wf_dupdate; auto. Qed.
Lemma reload_basis ps ps' m d p : wf m -> construct ps KBasis m = Ok d -> public d = Ok p ->
  parent_shared ps' d ->
  exists d', construct ps' KBasis p = Ok d' /\ public d' = Ok p.
Proof.
  intros W E P SH. unfold construct in E.
  destruct (dmem m "self") eqn:Sf; try discriminate.
  unfold need in E. destruct (dget m "eft") as [e|]; cbn [bind] in E; try discriminate.
  destruct (dget m "basis") as [b|]; cbn [bind] in E; try discriminate.
  destruct (dget m "sectors") as [s|]; cbn [bind] in E; try discriminate.
  set (d0 := [("eft", e); ("basis", b); ("_name", DNull)]) in *.
  set (p0 := [("eft", e); ("basis", b)]).
  destruct (setattrs KBasis d0 (kwargs_of KBasis m)) as [d1|] eqn:E1; cbn [bind] in E; try discriminate.
  destruct (match dget d1 "parent" with Some _ => _ | None => _ end) as [s'|] eqn:E2;
    cbn [bind] in E; try discriminate.
  assert (dset (dset d1 "sectors" s') "_all_wcs" DNull = d) as Ed by congruence. clear E. subst d.
  assert (exists p1, public d1 = Ok p1) as [p1 P1].
  { apply public_defined. intros k I'. apply (proj1 (public_defined (dset (dset d1 "sectors" s') "_all_wcs" DNull))); eauto.
    rewrite !dkeys_dset_In; auto. }
  destruct (kw_part _ m d0 p0 _ _ W Sf E1 P1)
    as (q & Q & -> & Aq & Wq & Nq & Nd & Sq & Fq); [reflexivity| |].
  { intros k [<-|[<-|[<-|[]]]]; simpl; auto 6. }
  assert (~ In "sectors" (dkeys d1)) as NS.
  { apply setattrs_ok in E1. destruct E1 as [-> _]. rewrite In_dkeys_dupdate. intros [A|A].
    - destruct A as [A|[A|[A|[]]]]; discriminate.
    - apply (kwargs_notreq KBasis m "sectors"); [exact A|simpl; auto]. }
  assert (p = p0 ++ q ++ [("sectors", s')]) as ->.
  { assert (public (dset d1 "sectors" s') = Ok ((p0 ++ q) ++ [("sectors", s')])) as A
      by (apply public_dset_new; auto).
    erewrite public_dset_private in P; [|exact A|reflexivity].
    assert (p = (p0 ++ q) ++ [("sectors", s')]) as -> by congruence.
    rewrite <- app_assoc; reflexivity. }
  assert (kwargs_of KBasis (p0 ++ q ++ [("sectors", s')]) = q) as EK.
  { rewrite !kwargs_app, (kwargs_required KBasis p0), (kwargs_id KBasis q); auto.
    - cbn. rewrite app_nil_r; reflexivity.
    - intros k [<-|[<-|[]]]; simpl; auto 6. }
  assert (~ In "sectors" (dkeys q)) as NSq by (intros A; apply (Nq _ A); simpl; auto).
  assert (wf d0) as W0.
  { unfold wf, d0; simpl. repeat constructor; simpl; intuition discriminate. }
  assert (public (dset (dset (dupdate d0 q) "sectors" s') "_all_wcs" DNull) = Ok (p0 ++ q ++ [("sectors", s')])) as PR.
  { eapply public_dset_private; [|reflexivity]. rewrite app_assoc.
    apply public_dset_new; [|reflexivity|].
    - apply public_dupdate; auto. apply public_id; auto.
    - rewrite In_dkeys_dupdate. intros [A|A]; auto.
      destruct A as [A|[A|[A|[]]]]; discriminate. }
  exists (dset (dset (dupdate d0 q) "sectors" s') "_all_wcs" DNull). split; [|exact PR].
  unfold construct. rewrite !dmem_app, Sq. unfold need. rewrite !dget_app.
  assert (dget q "sectors" = None) as -> by (apply dget_None; auto).
  rewrite EK.
  assert (dmem p0 "self" || (false || dmem [("sectors", s')] "self") = false) as -> by reflexivity.
  assert (dget p0 "eft" = Some e) as -> by reflexivity.
  assert (dget p0 "basis" = Some b) as -> by reflexivity.
  assert (dget p0 "sectors" = None) as -> by reflexivity.
  assert (dget [("sectors", s')] "sectors" = Some s') as -> by reflexivity.
  cbn [bind]. fold d0. rewrite setattrs_ok_conv by auto. cbn [bind].
  assert (dget (dupdate d0 q) "parent" = dget d1 "parent") as EP.
  { pose proof (wf_setattrs _ _ _ _ W0 E1) as W1.
    apply setattrs_ok in E1. destruct E1 as [-> _].
    rewrite !dget_dupdate, !dget_last_wf; auto using kwargs_wf.
    assert (dget q "parent" = dget (kwargs_of KBasis m) "parent") as ->; auto.
    destruct (dget (kwargs_of KBasis m) "parent") as [par|] eqn:G.
    - apply In_dget; auto. eapply public_In; eauto. split; [|reflexivity]. apply dget_In; auto.
    - apply dget_None. intros I'. apply dget_None in G. apply G.
      eapply dkeys_public_incl; eauto. }
  rewrite EP. destruct (dget d1 "parent") as [par|] eqn:G; [|reflexivity].
  assert (dget d1 "eft" = Some e) as Ge.
  { apply setattrs_ok in E1. destruct E1 as [-> _]. rewrite dget_dupdate, dget_last_wf by auto using kwargs_wf.
    assert (dget (kwargs_of KBasis m) "eft" = None) as ->; [|reflexivity].
    apply dget_None. intros I'. apply (kwargs_notreq KBasis m "eft"); [exact I'|simpl; auto]. }
  destruct (SH e par) as (sm & -> & Wm & Es).
  - rewrite !dget_dset_neq by discriminate. exact Ge.
  - rewrite !dget_dset_neq by discriminate. exact G.
  - rewrite dget_dset_neq in Es by discriminate. rewrite dget_dset_eq in Es.
    assert (s' = DMap sm) as -> by congruence. rewrite dupdate_self by auto. reflexivity.
Qed.

Lemma load_dump ps c d fmt t : dump d fmt = Ok t -> (exists k v, public d = Ok ((k, v) :: match public d with Ok (_ :: r) => r | _ => [] end)) ->
  (forall p, public d = Ok p -> printable (DMap p)) ->
  exists p, public d = Ok p /\ load ps c t = construct ps c p.
Proof.
  unfold dump, load, load_text. intros E [k [v Pd]] Pr. destruct (public d) as [p|]; [|discriminate]. specialize (Pr p eq_refl).
  exists p. split; auto. cbn [bind] in E.
  destruct (String.eqb (lower fmt) "json").
  - injection E as <-. rewrite json_roundtrip by exact Pr. reflexivity.
  - destruct (String.eqb (lower fmt) "yaml"); [|discriminate]. injection E as <-.
    destruct (yaml_not_json p) as (x & -> & [-> | ->]); [intros ->; discriminate|exact Pr| |]; rewrite yaml_roundtrip by exact Pr; reflexivity.
Qed.
Lemma public_has_eft c ps m d p : construct ps c m = Ok d -> public d = Ok p -> wf m -> p <> [].
Proof.
  intros E P W Hp. subst p.
  assert (exists e, dget d "eft" = Some e) as [e He].
  { unfold construct in E. destruct (dmem m "self"); try discriminate.
    assert (forall d0 e r, setattrs c (("eft", e) :: d0) (kwargs_of c m) = Ok r -> dget r "eft" = Some e) as G.
    { intros d0 e r S. apply setattrs_ok in S. destruct S as [-> _].
      rewrite dget_dupdate, dget_last_wf by auto using kwargs_wf.
      assert (dget (kwargs_of c m) "eft" = None) as ->; [|reflexivity].
      apply dget_None. intros I'. apply (kwargs_notreq c m "eft"); [exact I'|destruct c; simpl; auto]. }
    unfold need in E. destruct c; destruct (dget m "eft") as [e|]; cbn [bind] in E; try discriminate.
    - destruct (dget m "sectors") as [ss|]; cbn [bind] in E; try discriminate. eauto.
    - destruct (dget m "basis") as [bb|]; cbn [bind] in E; try discriminate.
      destruct (dget m "sectors") as [ss|]; cbn [bind] in E; try discriminate.
      destruct (setattrs _ _ _) as [d1|] eqn:E1; cbn [bind] in E; try discriminate.
      destruct (match dget d1 "parent" with Some _ => _ | None => _ end) as [s'|];
        cbn [bind] in E; try discriminate.
      apply G in E1. assert (dset (dset d1 "sectors" s') "_all_wcs" DNull = d) as <- by congruence.
      rewrite !dget_dset_neq by discriminate. eauto.
    - destruct (dget m "basis") as [bb|]; cbn [bind] in E; try discriminate.
      destruct (dget m "scale") as [sc|]; cbn [bind] in E; try discriminate.
      destruct (dget m "values") as [vv|]; cbn [bind] in E; try discriminate.
      destruct (to_float float_of_str sc); cbn [bind] in E; try discriminate. eauto. }
  apply dget_In in He. assert (In ("eft", e) []) as []. eapply public_In; eauto.
Qed.
(** C09 *)
Lemma dump_load_roundtrip c ps ps' m d fmt t :
  wf m -> construct ps c m = Ok d -> dump d fmt = Ok t ->
  (forall p, public d = Ok p -> printable (DMap p)) ->
  (c = KBasis -> parent_shared ps' d) ->
  exists d' p, load ps' c t = Ok d' /\ public d = Ok p /\ public d' = Ok p.
Proof.
  intros W E D Pr SH. destruct (public d) as [p|] eqn:P.
  2:{ unfold dump in D. rewrite P in D. discriminate. }
  pose proof (public_has_eft _ _ _ _ _ E P W) as NE.
  destruct (load_dump ps' c d fmt t D) as (p' & P' & L).
  { rewrite P. destruct p as [|[k v] r]; [congruence|eauto]. }
  { rewrite P. exact Pr. }
  assert (p' = p) by congruence. subst p'. rewrite L.
  assert (exists d', construct ps' c p = Ok d' /\ public d' = Ok p) as (d' & C1 & C2).
  { destruct c.
    - eapply reload_eft; eauto.
    - eapply reload_basis; eauto.
    - eapply reload_wc; eauto. }
  exists d', p. auto.
Qed.
Lemma dump_defined d p fmt : public d = Ok p ->
  (lower fmt = "json" -> dump d fmt = Ok (json_dumps (DMap p))) /\
  (lower fmt = "yaml" -> dump d fmt = Ok (yaml_dump (DMap p))) /\
  (lower fmt <> "json" -> lower fmt <> "yaml" -> dump d fmt = Err ValueError).
Proof.
  intros P. unfold dump. rewrite P. cbn [bind]. repeat split.
  - intros ->. reflexivity.
  - intros ->. reflexivity.
  - intros A B. apply String.eqb_neq in A, B. rewrite A, B. reflexivity.
Qed.
Lemma public_private d p k v : public d = Ok p -> In (k, v) p ->
  In (k, v) d /\ exists a s, k = String a s /\ a <> "_"%char.
Proof.
  intros P I'. eapply public_In in I'; eauto. destruct I' as [I' Q]. split; auto.
  destruct k as [|a s]; [discriminate|]. exists a, s. split; auto.
  simpl in Q. intros ->. discriminate.
Qed.
End Dump.
