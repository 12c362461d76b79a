(** [WCxf.load] and [WCxf.dump] (classes.py 155-191) up to the order of the keys: the constructors, [setattr] and the choice of the public
    attributes do not depend on the order of the entries.  *)
From Coq Require Import String List Bool Arith Reals Permutation.
From Verif Require Import PyBase PyDict Cplx Wc Dump Order.
Import ListNotations.
Open Scope string_scope.
Open Scope list_scope.
Open Scope nat_scope.

Notation same_attrs d d' := (same_doc (DMap d) (DMap d')).

(** ** Dictionaries *)
Lemma same_intro (a b : attrs) : wf a -> wf b ->
  (forall k, match dget a k, dget b k with None, None => True | Some x, Some y => same_doc x y | _, _ => False end) -> same_attrs a b.
Proof.
  intros W W' H. constructor; auto.
  - intros k. specialize (H k). destruct (dget a k), (dget b k); try tauto; split; discriminate.
  - intros k v v' E E'. specialize (H k). rewrite E, E' in H. exact H.
Qed.
Lemma same_at (a b : attrs) k : same_attrs a b ->
  match dget a k, dget b k with None, None => True | Some x, Some y => same_doc x y | _, _ => False end.
Proof.
  intros S. destruct (dget a k) as [v|] eqn:E.
  - destruct (same_get _ _ _ _ S E) as (v' & -> & H). exact H.
  - apply (same_none _ _ _ S) in E. rewrite E. exact I.
Qed.
Lemma same_dupdate (a a' b b' : attrs) : same_attrs a a' -> same_attrs b b' -> same_attrs (dupdate a b) (dupdate a' b').
Proof.
  intros S T. destruct (same_wf _ _ S) as [Wa Wa'], (same_wf _ _ T) as [Wb Wb'].
  apply same_intro; [apply wf_dupdate; auto|apply wf_dupdate; auto|].
  intros k. rewrite !dget_dupdate, !dget_last_wf by auto. pose proof (same_at _ _ k S) as P. pose proof (same_at _ _ k T) as Q.
  destruct (dget b k), (dget b' k); tauto.
Qed.
Lemma same_single k v v' : same_doc v v' -> same_attrs [(k, v)] [(k, v')].
Proof.
  intros S. apply same_intro; try (repeat constructor; simpl; tauto). intros q. cbn [dget]. destruct (keqb q k); auto.
Qed.
Lemma same_dset (a a' : attrs) k v v' : same_attrs a a' -> same_doc v v' -> same_attrs (dset a k v) (dset a' k v').
Proof. intros S V. exact (same_dupdate a a' [(k, v)] [(k, v')] S (same_single k v v' V)). Qed.
Lemma same_nil : same_attrs [] [].
Proof. apply same_intro; [constructor|constructor|]. intros k. exact I. Qed.
Lemma dget_filter_key {V} (f : string -> bool) (d : dict string V) k :
  dget (filter (fun kv => f (fst kv)) d) k = if f k then dget d k else None.
Proof.
  induction d as [|[k' v] t IH]; cbn [filter dget fst]; [destruct (f k); reflexivity|].
  destruct (f k') eqn:F; cbn [dget]; destruct (keqb k k') eqn:K.
  - apply keqb_eq in K. subst. rewrite F. reflexivity.
  - exact IH.
  - rewrite IH. apply keqb_eq in K. subst. rewrite F. reflexivity.
  - exact IH.
Qed.
Lemma same_kwargs c (m m' : attrs) : same_attrs m m' -> same_attrs (kwargs_of c m) (kwargs_of c m').
Proof.
  intros S. destruct (same_wf _ _ S) as [W W']. apply same_intro; [apply kwargs_wf, W|apply kwargs_wf, W'|].
  intros k. unfold kwargs_of. rewrite !(dget_filter_key (fun q => negb (mem q (required c)))).
  destruct (negb (mem k (required c))); [apply same_at, S|exact I].
Qed.
Lemma same_In (m m' : attrs) k : same_attrs m m' -> In k (dkeys m') -> In k (dkeys m).
Proof. intros S I'. eapply Permutation_in; [apply Permutation_sym, same_keys, S|exact I']. Qed.

(** ** Attributes *)
Local Notation nostr := (fun _ : string => @None R).
Lemma public_get d p k : wf d -> public d = Ok p -> dget p k = match is_public k with Ok true => dget d k | _ => None end.
Proof.
  intros W P. assert (wf p) as Wp by (eapply (wf_public nostr); eauto).
  destruct (dget p k) as [v|] eqn:E.
  - apply dget_In in E. apply (public_In nostr _ _ _ _ P) in E. destruct E as [E ->]. symmetry. apply In_dget; auto.
  - destruct (is_public k) as [[|]|] eqn:K; auto. destruct (dget d k) as [v|] eqn:F; auto.
    apply dget_In in F. assert (In (k, v) p) as J by (apply (public_In nostr _ _ _ _ P); auto). apply In_dget in J; auto. congruence.
Qed.
Lemma same_public d d' p : same_attrs d d' -> public d = Ok p -> exists p', public d' = Ok p' /\ same_attrs p p'.
Proof.
  intros S P. destruct (same_wf _ _ S) as [W W'].
  assert (exists p', public d' = Ok p') as (p' & P').
  { apply public_defined. intros k I'. apply (proj1 (public_defined d)); [eauto|]. eapply same_In; eauto. }
  exists p'. split; [exact P'|]. apply same_intro; [exact (wf_public nostr d p W P)|exact (wf_public nostr d' p' W' P')|].
  intros k. rewrite (public_get _ _ _ W P), (public_get _ _ _ W' P'). destruct (is_public k) as [[|]|]; auto. apply same_at, S.
Qed.
Lemma same_setattrs c d d' kw kw' r : same_attrs d d' -> same_attrs kw kw' -> setattrs c d kw = Ok r ->
  exists r', setattrs c d' kw' = Ok r' /\ same_attrs r r'.
Proof.
  intros S T E. apply (setattrs_ok nostr) in E. destruct E as [-> F]. exists (dupdate d' kw'). split.
  - apply setattrs_ok_conv. intros k I'. apply F. exact (same_In _ _ _ T I').
  - apply same_dupdate; auto.
Qed.
Lemma same_dmem (m m' : attrs) k : same_attrs m m' -> dmem m k = dmem m' k.
Proof. intros S. pose proof (same_at _ _ k S) as A. unfold dmem. destruct (dget m k), (dget m' k); tauto. Qed.

(** Two registries give the same parent for the documents [m] and [m']. *)
Definition agree_at (ps ps' : doc -> doc -> option (dict string doc)) (m m' : attrs) : Prop :=
  forall e e' b b', dget m "eft" = Some e -> dget m' "eft" = Some e' -> dget m "parent" = Some b -> dget m' "parent" = Some b' ->
  match ps e b, ps' e' b' with None, None => True | Some x, Some y => same_attrs x y | _, _ => False end.

Section Make.
Variable float_of_str : string -> option R.
Notation construct := (construct float_of_str).
Lemma wf_list3 (a b c : string * doc) : fst a <> fst b -> fst a <> fst c -> fst b <> fst c -> wf [a; b; c].
Proof. intros A B C. unfold wf, dkeys. cbn. repeat constructor; cbn; intuition congruence. Qed.
Lemma wf_construct ps c m d : construct ps c m = Ok d -> wf d.
Proof.
  intros E. unfold Dump.construct in E. destruct (dmem m "self"); [discriminate|]. unfold need in E.
  destruct c; destruct (dget m "eft") as [e|]; cbn [bind] in E; try discriminate.
  - destruct (dget m "sectors") as [s|]; cbn [bind] in E; [|discriminate]. eapply (wf_setattrs nostr); [|exact E]. apply wf_list3; discriminate.
  - destruct (dget m "basis") as [b|]; cbn [bind] in E; [|discriminate]. destruct (dget m "sectors") as [s|]; cbn [bind] in E; [|discriminate].
    destruct (setattrs _ _ _) as [d1|] eqn:E1; cbn [bind] in E; [|discriminate].
    destruct (match dget d1 "parent" with Some _ => _ | None => _ end) as [s'|]; cbn [bind] in E; [|discriminate].
    assert (dset (dset d1 "sectors" s') "_all_wcs" DNull = d) as <- by congruence. apply wf_dset, wf_dset.
    eapply (wf_setattrs nostr); [|exact E1]. apply wf_list3; discriminate.
  - destruct (dget m "basis") as [b|]; cbn [bind] in E; [|discriminate]. destruct (dget m "scale") as [x|]; cbn [bind] in E; [|discriminate].
    destruct (dget m "values") as [v|]; cbn [bind] in E; [|discriminate]. destruct (to_float float_of_str x) as [r|]; cbn [bind] in E; [|discriminate].
    eapply (wf_setattrs nostr); [|exact E]. unfold wf, dkeys. cbn. repeat constructor; cbn; intuition discriminate.
Qed.
Lemma parent_attr m d0 d1 : wf m -> dget d0 "parent" = None -> setattrs KBasis d0 (kwargs_of KBasis m) = Ok d1 -> dget d1 "parent" = dget m "parent".
Proof.
  intros W N E. apply (setattrs_ok nostr) in E. destruct E as [-> _]. rewrite dget_dupdate, dget_last_wf by (apply kwargs_wf, W).
  unfold kwargs_of. rewrite (dget_filter_key (fun q => negb (mem q (required KBasis)))). cbn -[dget]. rewrite N. destruct (dget m "parent"); reflexivity.
Qed.
Lemma same_construct ps ps' c m m' d : (c = KBasis -> agree_at ps ps' m m') -> same_attrs m m' -> construct ps c m = Ok d ->
  exists d', construct ps' c m' = Ok d' /\ same_attrs d d'.
Proof.
  intros B S. unfold Dump.construct. rewrite <- (same_dmem m m' "self" S). destruct (dmem m "self"); [discriminate|].
  unfold need. pose proof (same_at _ _ "eft" S) as Ae. pose proof (same_at _ _ "basis" S) as Ab. pose proof (same_at _ _ "sectors" S) as As.
  pose proof (same_at _ _ "scale" S) as Ac. pose proof (same_at _ _ "values" S) as Av. pose proof (same_kwargs c m m' S) as K.
  destruct c.
  - destruct (dget m "eft") as [e|], (dget m' "eft") as [e'|]; try contradiction; cbn [bind]; [|discriminate].
    destruct (dget m "sectors") as [s|], (dget m' "sectors") as [s'|]; try contradiction; cbn [bind]; [|discriminate].
    apply same_setattrs; [|exact K].
    exact (same_dupdate _ _ [("_name", DNull)] [("_name", DNull)] (same_dupdate _ _ [("sectors", s)] [("sectors", s')] (same_single "eft" _ _ Ae) (same_single _ _ _ As)) (same_single _ _ _ same_null)).
  - destruct (dget m "eft") as [e|] eqn:Ge, (dget m' "eft") as [e'|] eqn:Ge'; try contradiction; cbn [bind]; [|discriminate].
    destruct (dget m "basis") as [b|], (dget m' "basis") as [b'|]; try contradiction; cbn [bind]; [|discriminate].
    destruct (dget m "sectors") as [s|], (dget m' "sectors") as [s'|]; try contradiction; cbn [bind]; [|discriminate].
    destruct (setattrs KBasis [("eft", e); ("basis", b); ("_name", DNull)] (kwargs_of KBasis m)) as [d1|] eqn:E; cbn [bind]; [|discriminate].
    assert (same_attrs [("eft", e); ("basis", b); ("_name", DNull)] [("eft", e'); ("basis", b'); ("_name", DNull)]) as S0.
    { exact (same_dupdate _ _ [("_name", DNull)] [("_name", DNull)] (same_dupdate _ _ [("basis", b)] [("basis", b')] (same_single "eft" _ _ Ae) (same_single _ _ _ Ab)) (same_single _ _ _ same_null)). }
    destruct (same_setattrs _ _ _ _ _ _ S0 K E) as (d1' & E' & S1). rewrite E'. cbn [bind]. destruct (same_wf _ _ S) as [W W'].
    specialize (B eq_refl e e'). assert (dget d1 "parent" = dget m "parent") as Q by (eapply parent_attr; [exact W| |exact E]; reflexivity).
    assert (dget d1' "parent" = dget m' "parent") as Q' by (eapply parent_attr; [exact W'| |exact E']; reflexivity). rewrite <- Q, <- Q' in B. clear Q Q'.
    pose proof (same_at _ _ "parent" S1) as Ap.
    destruct (dget d1 "parent") as [par|], (dget d1' "parent") as [par'|]; try contradiction; cbn [bind].
    + specialize (B par par' Ge Ge' eq_refl eq_refl). destruct (ps e par) as [sm|]; [|discriminate]. destruct (ps' e' par') as [sm'|]; [|contradiction].
      destruct s as [| | | | |s]; try discriminate. inversion As as [| | | | |? s2]; subst. cbn [bind]. intros E2.
      assert (dset (dset d1 "sectors" (DMap (dupdate sm s))) "_all_wcs" DNull = d) as <- by congruence.
      eexists. split; [reflexivity|]. apply same_dset; [|constructor]. apply same_dset; [exact S1|].
      apply same_dupdate; [exact B|exact As].
    + intros E2. assert (dset (dset d1 "sectors" s) "_all_wcs" DNull = d) as <- by congruence.
      eexists. split; [reflexivity|]. apply same_dset; [|constructor]. apply same_dset; [exact S1|exact As].
  - destruct (dget m "eft") as [e|], (dget m' "eft") as [e'|]; try contradiction; cbn [bind]; [|discriminate].
    destruct (dget m "basis") as [b|], (dget m' "basis") as [b'|]; try contradiction; cbn [bind]; [|discriminate].
    destruct (dget m "scale") as [x|], (dget m' "scale") as [x'|]; try contradiction; cbn [bind]; [|discriminate].
    destruct (dget m "values") as [v|], (dget m' "values") as [v'|]; try contradiction; cbn [bind]; [|discriminate].
    rewrite <- (same_float float_of_str _ _ Ac). destruct (to_float float_of_str x) as [r|]; cbn [bind]; [|discriminate].
    apply same_setattrs; [|exact K].
    exact (same_dupdate _ _ [("_dict", DNull)] [("_dict", DNull)]
      (same_dupdate _ _ [("values", v)] [("values", v')]
        (same_dupdate _ _ [("scale", DNum r)] [("scale", DNum r)]
          (same_dupdate _ _ [("basis", b)] [("basis", b')] (same_single "eft" _ _ Ae) (same_single _ _ _ Ab)) (same_single _ _ _ (same_num r)))
        (same_single _ _ _ Av)) (same_single _ _ _ same_null)).
Qed.
(** The constructor fails for one order if it fails for another.  The exceptions may differ: of several reasons another can come first. *)
Lemma construct_fails ps ps' c m m' x : (c = KBasis -> agree_at ps ps' m m') -> same_attrs m m' -> construct ps c m = Err x -> exists y, construct ps' c m' = Err y.
Proof.
  intros B S E. destruct (construct ps' c m') as [d'|y] eqn:F; [|eauto]. exfalso.
  destruct (same_construct ps' ps c m' m d') as (d & G & _); [|apply same_sym, S|exact F|congruence].
  intros ->. intros e e' b b' E1 E2 E3 E4. specialize (B eq_refl e' e b' b E2 E1 E4 E3).
  destruct (ps' e b), (ps e' b'); auto. apply same_sym, B.
Qed.

(** ** Texts *)
Variable text : Type.
Variables json_dumps yaml_dump : doc -> text.
Variables json_loads yaml_load : text -> res doc.
Variable printable : doc -> Prop.
Hypothesis json_roundtrip : forall d, printable d -> exists d', json_loads (json_dumps d) = Ok d' /\ same_doc d d'.
Hypothesis yaml_roundtrip : forall d, printable d -> exists d', yaml_load (yaml_dump d) = Ok d' /\ same_doc d d'.
Hypothesis yaml_not_json : forall m, m <> [] -> printable (DMap m) ->
  exists x, json_loads (yaml_dump (DMap m)) = Err x /\ (x = ValueError \/ x = JSONDecodeError).
Notation dump := (dump text json_dumps yaml_dump).
Notation load := (load float_of_str text json_loads yaml_load).

Lemma load_dump_same ps c d fmt t p : dump d fmt = Ok t -> public d = Ok p -> p <> [] -> printable (DMap p) ->
  exists q, same_attrs p q /\ load ps c t = construct ps c q.
Proof.
  intros E P N Pr. unfold Dump.dump in E. rewrite P in E. cbn [bind] in E.
  assert (forall x, same_doc (DMap p) x -> exists q, x = DMap q) as M by (intros x S; inversion S; eauto).
  unfold Dump.load, load_text. destruct (String.eqb (lower fmt) "json").
  - injection E as <-. destruct (json_roundtrip _ Pr) as (x & -> & S). destruct (M x S) as (q & ->). exists q. auto.
  - destruct (String.eqb (lower fmt) "yaml"); [|discriminate]. injection E as <-.
    destruct (yaml_roundtrip _ Pr) as (x & L & S). destruct (M x S) as (q & ->). exists q. split; [exact S|].
    destruct (yaml_not_json p N Pr) as (y & -> & [-> | ->]); rewrite L; reflexivity.
Qed.
(** The parent of a child basis is found, and has the child's sectors up to order: they share the mapping (Bases.v). *)
Definition parent_kept (ps : doc -> doc -> option (dict string doc)) (d : attrs) : Prop :=
  forall e par s e' par', dget d "eft" = Some e -> dget d "parent" = Some par -> dget d "sectors" = Some s -> same_doc e e' -> same_doc par par' ->
  exists sm, ps e' par' = Some sm /\ same_doc s (DMap sm).
Lemma kept_same ps d d' : same_attrs d d' -> parent_kept ps d -> parent_kept ps d'.
Proof.
  intros S K e par s e' par' E P X Se Sp. pose proof (same_sym _ _ S) as S'.
  destruct (same_get _ _ _ _ S' E) as (e0 & E0 & Se0), (same_get _ _ _ _ S' P) as (p0 & P0 & Sp0), (same_get _ _ _ _ S' X) as (s0 & X0 & Ss0).
  destruct (K e0 p0 s0 e' par' E0 P0 X0) as (sm & L & Q).
  - exact (same_trans _ _ _ (same_sym _ _ Se0) Se).
  - exact (same_trans _ _ _ (same_sym _ _ Sp0) Sp).
  - exists sm. split; [exact L|]. exact (same_trans _ _ _ Ss0 Q).
Qed.
Lemma kept_public ps d p : wf d -> public d = Ok p -> (parent_kept ps d <-> parent_kept ps p).
Proof.
  intros W P. pose proof (fun k => public_get d p k W P) as G.
  unfold parent_kept. rewrite (G "eft"), (G "parent"), (G "sectors"). cbn [is_public]. tauto.
Qed.
Lemma dump_load_same c ps ps' m d fmt t :
  wf m -> construct ps c m = Ok d -> dump d fmt = Ok t ->
  (forall p, public d = Ok p -> printable (DMap p)) ->
  (c = KBasis -> parent_kept ps' d) ->
  exists q d' p p', wf q /\ construct ps' c q = Ok d' /\ load ps' c t = Ok d' /\ public d = Ok p /\ public d' = Ok p' /\ same_attrs p p'.
Proof.
  intros W E D Pr SH. destruct (public d) as [p|] eqn:P.
  2:{ unfold Dump.dump in D. rewrite P in D. discriminate. }
  pose proof (public_has_eft _ _ _ _ _ _ E P W) as NE. pose proof (wf_construct _ _ _ _ E) as Wd.
  destruct (load_dump_same ps' c d fmt t p D P NE (Pr p eq_refl)) as (q & S & ->).
  set (psc := fun _ _ : doc => match dget d "sectors" with Some (DMap sm) => Some sm | _ => None end).
  assert (forall k v, is_public k = Ok true -> dget d k = Some v -> exists v', dget q k = Some v' /\ same_doc v v') as G.
  { intros k v K Ek. apply (same_get p q k v S). rewrite (public_get d p k Wd P), K. exact Ek. }
  assert (exists d0, construct psc c p = Ok d0 /\ public d0 = Ok p) as (d0 & C1 & C2).
  { destruct c.
    - eapply reload_eft; [exact W|exact E|exact P].
    - eapply reload_basis; [exact W|exact E|exact P|]. intros e par Ee Ep. destruct (G "eft" _ eq_refl Ee) as (e' & _ & Se), (G "parent" _ eq_refl Ep) as (par' & _ & Sp).
      assert (exists s, dget d "sectors" = Some s) as (s & Es).
      { destruct (dget d "sectors") as [s|] eqn:Es; [eauto|]. exfalso. clear - E Es. unfold Dump.construct in E. destruct (dmem m "self"); [discriminate|].
        destruct (need m "eft"); cbn [bind] in E; [|discriminate]. destruct (need m "basis"); cbn [bind] in E; [|discriminate]. destruct (need m "sectors"); cbn [bind] in E; [|discriminate].
        destruct (setattrs _ _ _) as [d1|]; cbn [bind] in E; [|discriminate]. destruct (match dget d1 "parent" with Some _ => _ | None => _ end) as [s'|]; cbn [bind] in E; [|discriminate].
        assert (dset (dset d1 "sectors" s') "_all_wcs" DNull = d) as <- by congruence. rewrite dget_dset_neq in Es by discriminate. rewrite dget_dset_eq in Es. discriminate. }
      destruct (SH eq_refl e par s e' par' Ee Ep Es Se Sp) as (sm & L & Q). inversion Q as [| | | | |s0 sm0 W0]; subst. exists s0. unfold psc. rewrite Es. auto.
    - eapply reload_wc; [exact W|exact E|exact P]. }
  destruct (same_construct psc ps' c p q d0) as (d' & C & S'); [|exact S|exact C1|].
  { intros ->. intros e e' b b' Ee Ee' Eb Eb'. pose proof (proj1 (kept_public ps' d p Wd P) (SH eq_refl)) as KP.
    pose proof (same_at _ _ "eft" S) as Ae. pose proof (same_at _ _ "parent" S) as Ab. rewrite Ee, Ee' in Ae. rewrite Eb, Eb' in Ab.
    assert (dget p "sectors" = dget d "sectors") as Es by (rewrite (public_get d p _ Wd P); reflexivity).
    unfold psc. rewrite <- Es. destruct (dget p "sectors") as [s|] eqn:Ep.
    - destruct (KP e b s e' b' Ee Eb Ep Ae Ab) as (sm & -> & Q). inversion Q; subst. exact Q.
    - exfalso. clear - C1 Ep. unfold Dump.construct in C1. destruct (dmem p "self"); [discriminate|]. unfold need in C1. rewrite Ep in C1.
      destruct (dget p "eft"); cbn [bind] in C1; [|discriminate]. destruct (dget p "basis"); cbn [bind] in C1; discriminate. }
  destruct (same_public _ _ _ S' C2) as (p' & P' & Q).
  exists q, d', p, p'. split; [exact (proj2 (same_wf _ _ S))|]. auto 6.
Qed.

(** Writing and reading back again and again: the formats, and what the registry holds at each reading *)
Fixpoint rounds (c : wclass) (l : list (string * (doc -> doc -> option (dict string doc)))) (d : attrs) : res attrs :=
  match l with
  | [] => Ok d
  | (fmt, ps) :: r => let! t := dump d fmt in let! d' := load ps c t in rounds c r d'
  end.
Hypothesis printable_same : forall d d', printable d -> same_doc d d' -> printable d'.
Lemma rounds_same c l : forall ps m d p, wf m -> construct ps c m = Ok d -> public d = Ok p -> printable (DMap p) ->
  Forall (fun x => (lower (fst x) = "json" \/ lower (fst x) = "yaml") /\ (c = KBasis -> parent_kept (snd x) d)) l ->
  exists d' p', rounds c l d = Ok d' /\ public d' = Ok p' /\ same_attrs p p'.
Proof.
  induction l as [|[fmt ps1] l IH]; intros ps m d p W E P Pr F.
  - exists d, p. split; [reflexivity|]. split; [exact P|]. destruct (json_roundtrip _ Pr) as (x & _ & S). apply same_refl.
    exact (same_distinct _ _ (same_sym _ _ S)).
  - inversion F as [|? ? [Fm K] F']; subst. cbn [fst snd] in *.
    assert (exists t, dump d fmt = Ok t) as (t & D).
    { destruct (dump_defined text json_dumps yaml_dump d p fmt P) as (D1 & D2 & _). destruct Fm as [Fm|Fm]; eauto. }
    destruct (dump_load_same c ps ps1 m d fmt t W E D) as (q & d1 & p0 & p1 & Wq & E1 & L & P0 & P1 & S); [intros p0 P0; assert (p0 = p) as -> by congruence; exact Pr|exact K|].
    assert (p0 = p) by congruence. subst p0. cbn [rounds]. rewrite D. cbn [bind]. rewrite L. cbn [bind].
    destruct (IH ps1 q d1 p1 Wq E1 P1 (printable_same _ _ Pr S)) as (d' & p' & R & P' & S').
    { eapply Forall_impl; [|exact F']. intros [f ps2] [H1 H2]. split; [exact H1|]. intros Ec. cbn [snd] in *.
      apply (kept_public ps2 d1 p1 (wf_construct _ _ _ _ E1) P1). apply (kept_same _ _ _ S). apply (kept_public ps2 d p (wf_construct _ _ _ _ E) P). auto. }
    exists d', p'. split; [exact R|]. split; [exact P'|]. exact (same_trans _ _ _ S S').
Qed.
End Make.
