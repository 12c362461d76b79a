(** C79: writing to a text and reading back, when only the order of the keys may change (PyYAML sorts the keys it writes). *)
From Coq Require Import String List Bool Arith Reals Permutation.
From Verif Require Import PyBase PyDict Cplx Wc Dump Order OrderSort DumpOrder.
Import ListNotations.
Open Scope string_scope.
Open Scope list_scope.

(** What is printed is read back up to the order of the keys. *)
Definition keeps_documents (text : Type) (json_dumps yaml_dump : doc -> text) (json_loads yaml_load : text -> res doc) (printable : doc -> Prop) : Prop :=
  (forall d, printable d -> exists d', json_loads (json_dumps d) = Ok d' /\ same_doc d d') /\
  (forall d, printable d -> exists d', yaml_load (yaml_dump d) = Ok d' /\ same_doc d d') /\
  (forall m, m <> [] -> printable (DMap m) -> exists x, json_loads (yaml_dump (DMap m)) = Err x /\ (x = ValueError \/ x = JSONDecodeError)) /\
  (forall d d', printable d -> same_doc d d' -> printable d').

Section Laws.
Variable fs : string -> option R.
Variable text : Type.
Variables json_dumps yaml_dump : doc -> text.
Variables json_loads yaml_load : text -> res doc.
Variable printable : doc -> Prop.
Hypothesis laws : keeps_documents text json_dumps yaml_dump json_loads yaml_load printable.
Notation construct := (construct fs).
Notation dump := (dump text json_dumps yaml_dump).
Notation load := (load fs text json_loads yaml_load).

(** The object read back has the same public attributes up to the order of the keys. *)
Theorem C79_dump_load : forall c ps ps' m d fmt t, wf m -> construct ps c m = Ok d -> dump d fmt = Ok t ->
  (forall p, public d = Ok p -> printable (DMap p)) -> (c = KBasis -> parent_kept ps' d) ->
  exists d' p p', load ps' c t = Ok d' /\ public d = Ok p /\ public d' = Ok p' /\ same_doc (DMap p) (DMap p').
Proof.
  destruct laws as (L1 & L2 & L3 & _). intros c ps ps' m d fmt t W E D Pr K.
  destruct (dump_load_same fs text json_dumps yaml_dump json_loads yaml_load printable L1 L2 L3 c ps ps' m d fmt t W E D Pr K) as (q & d' & p & p' & _ & _ & H). eauto.
Qed.
(** So after any number of rounds, in any formats. *)
Theorem C79_rounds : forall c l ps m d p, wf m -> construct ps c m = Ok d -> public d = Ok p -> printable (DMap p) ->
  Forall (fun x => (lower (fst x) = "json" \/ lower (fst x) = "yaml") /\ (c = KBasis -> parent_kept (snd x) d)) l ->
  exists d' p', rounds fs text json_dumps yaml_dump json_loads yaml_load c l d = Ok d' /\ public d' = Ok p' /\ same_doc (DMap p) (DMap p').
Proof. destruct laws as (L1 & L2 & L3 & L4). exact (rounds_same fs text json_dumps yaml_dump json_loads yaml_load printable L1 L2 L3 L4). Qed.
(** A coefficient file keeps its names, its scale and its coefficients. *)
Theorem C79_coefficients : forall ps ps' m d fmt t e b v cs, wf m -> construct ps KWC m = Ok d -> dump d fmt = Ok t ->
  (forall p, public d = Ok p -> printable (DMap p)) ->
  dget d "eft" = Some (DStr e) -> dget d "basis" = Some (DStr b) -> dget d "values" = Some (DMap v) -> values2dict fs v = Ok cs ->
  exists d' v' cs', load ps' KWC t = Ok d' /\ dget d' "eft" = Some (DStr e) /\ dget d' "basis" = Some (DStr b) /\ dget d' "scale" = dget d "scale" /\
    dget d' "values" = Some (DMap v') /\ values2dict fs v' = Ok cs' /\ Permutation cs cs' /\ wf cs.
Proof.
  destruct laws as (L1 & L2 & L3 & _). intros ps ps' m d fmt t e b v cs W E D Pr Ge Gb Gv V.
  destruct (dump_load_same fs text json_dumps yaml_dump json_loads yaml_load printable L1 L2 L3 KWC ps ps' m d fmt t W E D Pr) as (q & d' & p & p' & Wq & E' & L & P & P' & S); [discriminate|].
  pose proof (wf_construct _ _ _ _ _ E) as Wd. pose proof (wf_construct _ _ _ _ _ E') as Wd'.
  assert (forall k x, is_public k = Ok true -> dget d k = Some x -> exists x', dget d' k = Some x' /\ same_doc x x') as G.
  { intros k x K Gk. destruct (same_get p p' k x S) as (x' & H1 & H2); [rewrite (public_get d p k Wd P), K; exact Gk|]. exists x'. split; [|exact H2].
    rewrite (public_get d' p' k Wd' P'), K in H1. exact H1. }
  destruct (G "eft" _ eq_refl Ge) as (e' & He & Se). inversion Se; subst. destruct (G "basis" _ eq_refl Gb) as (b' & Hb & Sb). inversion Sb; subst.
  destruct (G "values" _ eq_refl Gv) as (v' & Hv & Sv). assert (exists v1, v' = DMap v1) as (v1 & ->) by (inversion Sv; eauto).
  destruct (same_values fs v v1 cs Sv V) as (cs' & V' & Wc & Pm).
  exists d', v1, cs'. split; [exact L|]. split; [exact He|]. split; [exact Hb|]. split; [|auto 6].
  assert (forall ps0 m0 d0, wf m0 -> construct ps0 KWC m0 = Ok d0 -> exists x, dget d0 "scale" = Some (DNum x)) as X.
  { clear. intros ps0 m0 d0 W E. unfold Dump.construct in E. destruct (dmem m0 "self"); [discriminate|].
    destruct (need m0 "eft"); cbn [bind] in E; [|discriminate]. destruct (need m0 "basis"); cbn [bind] in E; [|discriminate].
    destruct (need m0 "scale") as [sc|]; cbn [bind] in E; [|discriminate]. destruct (need m0 "values"); cbn [bind] in E; [|discriminate].
    destruct (to_float fs sc) as [x|]; cbn [bind] in E; [|discriminate]. exists x.
    apply (setattrs_ok fs) in E. destruct E as [-> _]. rewrite dget_dupdate, dget_last_wf by (apply kwargs_wf, W).
    unfold kwargs_of. rewrite (dget_filter_key (fun q => negb (mem q (required KWC)))). reflexivity. }
  destruct (X _ _ _ W E) as (x & Hx). destruct (G "scale" _ eq_refl Hx) as (x' & Hx' & Sx). inversion Sx; subst. congruence.
Qed.
(** The constructors do not depend on the order of the fields; in particular a document is rejected in all orders or in none. *)
Theorem C79_fields : forall c ps ps' m m', same_doc (DMap m) (DMap m') -> (c = KBasis -> agree_at ps ps' m m') ->
  (forall d, construct ps c m = Ok d -> exists d', construct ps' c m' = Ok d' /\ same_doc (DMap d) (DMap d')) /\
  (forall x, construct ps c m = Err x -> exists y, construct ps' c m' = Err y).
Proof.
  intros c ps ps' m m' S A. split.
  - intros d E. exact (same_construct fs ps ps' c m m' d A S E).
  - intros x E. exact (construct_fails fs ps ps' c m m' x A S E).
Qed.
End Laws.

(** A registry whose keys are pairs of names agrees with itself, for documents in any order. *)
Definition lookup_names (reg : dict (string * string) (dict string doc)) (e b : doc) : option (dict string doc) :=
  match e, b with DStr e, DStr b => dget reg (e, b) | _, _ => None end.
Theorem C79_registry : forall reg m m', same_doc (DMap m) (DMap m') -> Forall (fun kv => distinct (DMap (snd kv))) reg -> agree_at (lookup_names reg) (lookup_names reg) m m'.
Proof.
  intros reg m m' S F e e' b b' Ee Ee' Eb Eb'. pose proof (same_at _ _ "eft" S) as Ae. pose proof (same_at _ _ "parent" S) as Ab. rewrite Ee, Ee' in Ae. rewrite Eb, Eb' in Ab.
  unfold lookup_names. destruct Ae; auto. destruct Ab; auto. match goal with |- match ?x with _ => _ end => destruct x as [sm|] eqn:G end; auto.
  apply same_refl. apply dget_In in G. rewrite Forall_forall in F. exact (F _ G).
Qed.

(** ** Cases *)
(** Texts that are documents with the format; reading YAML gives the keys sorted. *)
Definition ordered_text : Type := (bool * doc)%type.
Definition o_json (d : doc) : ordered_text := (true, d).
Definition o_yaml (d : doc) : ordered_text := (false, sorted d).
Definition o_json_loads (t : ordered_text) : res doc := if fst t then Ok (snd t) else Err JSONDecodeError.
Definition o_yaml_load (t : ordered_text) : res doc := Ok (snd t).
Theorem C79_laws_met : keeps_documents ordered_text o_json o_yaml o_json_loads o_yaml_load distinct.
Proof.
  split; [|split; [|split]].
  - intros d D. exists d. split; [reflexivity|]. apply same_refl, D.
  - intros d D. exists (sorted d). split; [reflexivity|]. apply sorted_same, D.
  - intros m _ _. exists JSONDecodeError. split; [reflexivity|]. auto.
  - intros d d' _ S. exact (same_distinct _ _ S).
Qed.
Definition nostr : string -> option R := fun _ => None.
Definition secs : dict string doc := [("sb", DMap [("C9", DNull); ("C1", DNull)]); ("db", DMap [("C2", DNull)])].
(** A child basis with two further attributes, read back twice; the registry's mapping is the child's. *)
Definition child : attrs := [("eft", DStr "WET"); ("basis", DStr "x"); ("parent", DStr "JMS"); ("note", DStr "n"); ("metadata", DMap [("z", DNull); ("a", DNull)]);
  ("sectors", DMap [("db", DMap [("C2", DNull)])])].
Definition child_d : attrs := [("eft", DStr "WET"); ("basis", DStr "x"); ("_name", DNull); ("parent", DStr "JMS"); ("note", DStr "n"); ("metadata", DMap [("z", DNull); ("a", DNull)]);
  ("sectors", DMap secs); ("_all_wcs", DNull)].
Definition reg0 : dict (string * string) (dict string doc) := [(("WET", "JMS"), [("sb", DMap [("C9", DNull); ("C1", DNull)])])].
Definition reg1 : dict (string * string) (dict string doc) := [(("WET", "JMS"), secs)].
Lemma distinct_docs l : NoDup (map fst l) -> Forall (fun kv : string * doc => distinct (snd kv)) l -> distinct (DMap l).
Proof. intros N F. constructor; [exact N|]. intros k v E. exact (dget_value l distinct k v F E). Qed.
Ltac names := repeat (constructor; [simpl; intuition discriminate|]); constructor.
Ltac dd := cbn [snd]; first [apply distinct_docs; [names|dds] | constructor] with dds := first [apply Forall_nil | apply Forall_cons; [dd|dds]].
Lemma secs_distinct : distinct (DMap secs).
Proof. unfold secs. dd. Qed.
Lemma child_kept : parent_kept (lookup_names reg1) child_d.
Proof.
  intros e par s e' par' E P X Se Sp. cbv in E, P, X. injection E as <-. injection P as <-. injection X as <-. inversion Se; inversion Sp; subst.
  exists secs. split; [reflexivity|]. exact (same_refl _ secs_distinct).
Qed.
Example C79_case : construct nostr (lookup_names reg0) KBasis child = Ok child_d /\ wf child /\ parent_kept (lookup_names reg1) child_d /\
  (forall p, public child_d = Ok p -> distinct (DMap p)) /\
  rounds nostr ordered_text o_json o_yaml o_json_loads o_yaml_load KBasis [("yaml", lookup_names reg1); ("JSON", lookup_names reg1)] child_d =
    Ok [("eft", DStr "WET"); ("basis", DStr "x"); ("_name", DNull); ("metadata", DMap [("a", DNull); ("z", DNull)]); ("note", DStr "n"); ("parent", DStr "JMS");
        ("sectors", DMap [("sb", DMap [("C1", DNull); ("C9", DNull)]); ("db", DMap [("C2", DNull)])]); ("_all_wcs", DNull)].
Proof.
  split; [reflexivity|]. split; [names|]. split; [exact child_kept|]. split; [|reflexivity].
  intros p E. cbv in E. injection E as <-. dd.
Qed.
(** The order itself is not kept. *)
Theorem C79_order_refuted : exists d t d' p p',
  construct nostr (fun _ _ => None) KEFT [("eft", DStr "WET"); ("sectors", DMap []); ("z", DNull); ("a", DNull)] = Ok d /\
  dump ordered_text o_json o_yaml d "yaml" = Ok t /\ load nostr ordered_text o_json_loads o_yaml_load (fun _ _ => None) KEFT t = Ok d' /\
  public d = Ok p /\ public d' = Ok p' /\ p <> p' /\ same_doc (DMap p) (DMap p').
Proof.
  do 5 eexists. split; [reflexivity|]. split; [reflexivity|]. split; [reflexivity|]. split; [reflexivity|]. split; [reflexivity|]. split; [discriminate|].
  assert (same_doc (DMap [("z", DNull); ("a", DNull)]) (DMap [("a", DNull); ("z", DNull)])) as S.
  { apply same_intro; [names|names|]. intros k. cbn [dget]. destruct (keqb k "z") eqn:A, (keqb k "a") eqn:B; constructor. }
  assert (distinct (DMap [("eft", DStr "WET"); ("sectors", DMap [])])) as T by dd. exact (same_dupdate _ _ _ _ (same_refl _ T) S).
Qed.
Print Assumptions C79_dump_load.
Print Assumptions C79_rounds.
Print Assumptions C79_coefficients.
Print Assumptions C79_fields.
Print Assumptions C79_registry.
Print Assumptions C79_laws_met.
Print Assumptions C79_order_refuted.
