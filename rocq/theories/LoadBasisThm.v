(** Facts about loading and validating EFT and basis files (LoadBasis.v). *)
From Coq Require Import String Ascii List Bool Arith ZArith Reals Lia.
From Verif Require Import PyBase PyDict Cplx Wc Dump DumpInit Cli Tool LoadBasis.
From Verif Require Import Bases BasesFacts.
Import ListNotations.
Open Scope string_scope.
Open Scope list_scope.
Open Scope nat_scope.

(** ** Vocabulary *)
Definition entry_ok (v : doc) : Prop :=
  v = DNull \/ exists d, v = DMap d /\ forall x, dget d "tex" = Some x -> exists s, x = DStr s.
Definition sector_ok (c : doc) : Prop := exists d : dict string doc, c = DMap d /\ forall k v, In (k, v) d -> entry_ok v.
Definition names_in (c : doc) : list string := match c with DMap d => dkeys d | _ => [] end.
Definition coefficients (S : dict string doc) : list string := flat_map (fun kc => names_in (snd kc)) S.
(** The formula of an entry: the empty text if none is given, no formula for a null entry *)
Definition tex_in (v : doc) : list string :=
  match v with
  | DMap d => [match dget d "tex" with Some (DStr s) => s | _ => "" end]
  | _ => []
  end.
Definition texs_in (c : doc) : list string := match c with DMap d => flat_map (fun kv => tex_in (snd kv)) d | _ => [] end.
Definition formulas (S : dict string doc) : string :=
  ("$" ++ String.concat "$, $" (flat_map (fun kc => texs_in (snd kc)) S) ++ "$")%string.
(** What [dict.update] takes from a document *)
Inductive reads_pair : doc -> string * doc -> Prop :=
| RP_list k v : reads_pair (DList [DStr k; v]) (k, v)
| RP_str a b : reads_pair (DStr (String a (String b EmptyString))) (String a EmptyString, DStr (String b EmptyString))
| RP_map k x v y : reads_pair (DMap [(k, x); (v, y)]) (k, DStr v).
Inductive reads_as : doc -> dict string doc -> Prop :=
| RA_map m : reads_as (DMap m) m
| RA_list l m : Forall2 reads_pair l m -> reads_as (DList l) m
| RA_empty : reads_as (DStr "") [].

(** ** dict.update *)
Lemma pair_text x p k : pair_of x = Ok p -> fst p = DStr k -> reads_pair x (k, snd p).
Proof.
  destruct x as [| | |s|l|l]; cbn [pair_of]; try discriminate.
  - destruct s as [|a [|b [|]]]; try discriminate. intros [= <-] [= <-]. constructor.
  - destruct l as [|a [|b [|]]]; try discriminate. intros [= <-]. cbn [fst snd]. intros ->. constructor.
  - destruct l as [|[a x] [|[b y] [|]]]; try discriminate. intros [= <-] [= <-]. constructor.
Qed.
Lemma pair_text_conv x k v : reads_pair x (k, v) -> pair_of x = Ok (DStr k, v).
Proof. intros H. inversion H; subst; reflexivity. Qed.
Lemma update_seq_ok l : forall d d', update_seq (d, false) l = Ok (d', false) <-> exists m, Forall2 reads_pair l m /\ d' = dupdate d m.
Proof.
  assert (forall l d r, update_seq (d, true) l = Ok r -> snd r = true) as T.
  { clear l. induction l as [|x t IH]; intros d r; cbn [update_seq].
    - intros [= <-]. reflexivity.
    - destruct (pair_of x) as [p|]; cbn [bind]; [|discriminate]. destruct (negb _); [discriminate|].
      destruct (fst p); cbn [fst snd]; apply IH. }
  induction l as [|x t IH]; intros d d'; cbn [update_seq].
  - split.
    + intros [= <-]. exists []. split; [constructor|reflexivity].
    + intros (m & F & ->). inversion F; subst. reflexivity.
  - split.
    + destruct (pair_of x) as [p|] eqn:P; cbn [bind]; [|discriminate]. destruct (negb (hashable (fst p))); [discriminate|].
      destruct (fst p) as [| | |k| |] eqn:F; cbn [fst snd]; intros E; try (apply T in E; discriminate).
      apply IH in E. destruct E as (m & Fm & ->). exists ((k, snd p) :: m). split; [|reflexivity].
      constructor; [apply pair_text; auto|exact Fm].
    + intros (m & F & ->). inversion F as [|y [k v] l' m' Hp Ht]; subst. rewrite (pair_text_conv _ _ _ Hp). cbn [bind fst snd hashable negb].
      apply IH. exists m'. split; [exact Ht|reflexivity].
Qed.
Lemma update_doc_ok d s d' : update_doc d s = Ok (d', false) <-> exists m, reads_as s m /\ d' = dupdate d m.
Proof.
  split.
  - destruct s as [|b|x|s|l|m]; cbn [update_doc]; try discriminate.
    + destruct s; [|discriminate]. intros [= <-]. exists []. split; [constructor|reflexivity].
    + intros E. apply update_seq_ok in E. destruct E as (m & F & ->). exists m. split; [constructor; exact F|reflexivity].
    + intros [= <-]. exists m. split; [constructor|reflexivity].
  - intros (m & R & ->). inversion R; subst; cbn [update_doc]; auto. apply update_seq_ok. eauto.
Qed.

(** ** The checks on the sectors *)
Lemma doc_keys_ok S : forall l, doc_keys S = Ok l <-> (forall k c, In (k, c) S -> exists d, c = DMap d) /\ l = coefficients S.
Proof.
  induction S as [|[k c] t IH]; intros l; cbn [doc_keys].
  - split; [intros [= <-]; split; [intros k c []|reflexivity]|intros [_ ->]; reflexivity].
  - destruct c as [| | | | |d]; cbn [items bind].
    6: { destruct (doc_keys t) as [r|] eqn:E; cbn [bind].
      - destruct (proj1 (IH r) eq_refl) as [A ->]. split.
        + intros [= <-]. split; [|reflexivity]. intros k' c' [[= <- <-]|I]; eauto.
        + intros [_ ->]. reflexivity.
      - split; [discriminate|]. intros [A _]. assert (Err e = Ok (coefficients t)) as X; [|discriminate].
        apply IH. split; [|reflexivity]. intros k' c' I. apply (A k' c'). right. exact I. }
    all: split; [discriminate|]; intros [A _]; destruct (A k _ (or_introl eq_refl)); discriminate.
Qed.
Lemma doc_keys_err S x : doc_keys S = Err x -> x = AttributeError.
Proof.
  induction S as [|[k c] t IH]; cbn [doc_keys]; [discriminate|].
  destruct c as [| | | | |d]; cbn [items bind]; try (intros [= <-]; reflexivity). destruct (doc_keys t); cbn [bind]; [discriminate|auto].
Qed.
Lemma strs_map l : strs (map DStr l) = Ok l.
Proof. induction l as [|a t IH]; cbn [map strs]; [|rewrite IH]; reflexivity. Qed.
Lemma strs_ok l s : strs l = Ok s <-> l = map DStr s.
Proof.
  split; [|intros ->; apply strs_map]. revert s. induction l as [|a t IH]; intros s; cbn [strs]; [intros [= <-]; reflexivity|].
  destruct a; try discriminate. destruct (strs t) as [r|] eqn:E; cbn [bind]; [|discriminate]. intros [= <-]. cbn [map]. rewrite <- (IH r eq_refl). reflexivity.
Qed.
Lemma entry_texs_ok d : forall s, entry_texs d = Ok (map DStr s) <-> (forall k v, In (k, v) d -> entry_ok v) /\ s = flat_map (fun kv => tex_in (snd kv)) d.
Proof.
  assert (forall s, map DStr s = [] -> s = []) as N by (intros [|]; [auto|discriminate]).
  induction d as [|[k v] t IH]; intros s.
  - split; cbn.
    + intros [= E]. symmetry in E. apply N in E. subst s. split; [intros k v []|reflexivity].
    + intros [_ ->]. reflexivity.
  - assert (forall e, (let! x := items v in let! r := entry_texs t in Ok (match dget x "tex" with Some y => y | None => DStr "" end :: r)) = e -> v <> DNull -> entry_texs ((k, v) :: t) = e) as Q.
    { intros e <- Nv. destruct v; [congruence|reflexivity..]. }
    destruct v as [|b|z|z|l|m].
    2-5: rewrite (Q _ eq_refl) by discriminate; cbn [items bind]; split; [discriminate|]; intros [A _]; destruct (A k _ (or_introl eq_refl)) as [X|(d & X & _)]; discriminate.
    + cbn [entry_texs]. rewrite IH. cbn [flat_map snd tex_in app]. split; intros [A B]; split; auto.
      * intros k' v' [[= <- <-]|I]; [left; reflexivity|eauto].
      * intros k' v' I. apply (A k' v'). right. exact I.
    + rewrite (Q _ eq_refl) by discriminate. cbn [items bind flat_map snd tex_in app]. split.
      * destruct (entry_texs t) as [r|]; cbn [bind]; [|discriminate]. destruct s as [|a s]; [discriminate|].
        cbn [map]. intros [= E1 E2]. destruct (proj1 (IH s) (f_equal Ok E2)) as [A ->]. split.
        -- intros k' v' [[= <- <-]|I]; [|eauto]. right. exists m. split; [reflexivity|]. intros x X. rewrite X in E1. eauto.
        -- f_equal. destruct (dget m "tex"); [rewrite E1; reflexivity|injection E1 as <-; reflexivity].
      * intros [A ->]. rewrite (proj2 (IH _) (conj (fun k' v' I => A k' v' (or_intror I)) eq_refl)). cbn [bind map]. do 2 f_equal.
        destruct (A k (DMap m) (or_introl eq_refl)) as [X|(d & [= <-] & X)]; [discriminate|]. destruct (dget m "tex") as [x|]; [|reflexivity].
        destruct (X x eq_refl) as [y ->]. reflexivity.
Qed.
Lemma map_str_app (a : list doc) b s : a ++ b = map DStr s -> exists s1 s2, a = map DStr s1 /\ b = map DStr s2 /\ s = s1 ++ s2.
Proof.
  revert s. induction a as [|x t IH]; intros s E.
  - exists [], s. repeat split. exact E.
  - destruct s as [|y s]; [discriminate|]. cbn in E. injection E as -> E. destruct (IH s E) as (s1 & s2 & -> & -> & ->).
    exists (y :: s1), s2. repeat split.
Qed.
Lemma doc_texs_ok S : forall s, doc_texs S = Ok (map DStr s) <-> (forall k c, In (k, c) S -> sector_ok c) /\ s = flat_map (fun kc => texs_in (snd kc)) S.
Proof.
  induction S as [|[k c] t IH]; intros s; cbn [doc_texs].
  - split.
    + intros [= E]. destruct s; [|discriminate]. split; [intros k c []|reflexivity].
    + intros [_ ->]. reflexivity.
  - destruct c as [| | | | |d]; cbn [items bind].
    6: { cbn [flat_map snd texs_in]. split.
      - destruct (entry_texs d) as [a|] eqn:E; cbn [bind]; [|discriminate]. destruct (doc_texs t) as [r|] eqn:E2; cbn [bind]; [|discriminate].
        intros [= X]. destruct (map_str_app _ _ _ X) as (s1 & s2 & -> & -> & ->). apply entry_texs_ok in E. destruct E as [A ->].
        destruct (proj1 (IH _) eq_refl) as [B ->]. split; [|reflexivity]. intros k' c' [[= <- <-]|I]; [exists d; auto|eauto].
      - intros [A ->]. destruct (A k _ (or_introl eq_refl)) as (d' & [= <-] & B).
        rewrite (proj2 (entry_texs_ok d _) (conj B eq_refl)). cbn [bind].
        rewrite (proj2 (IH _) (conj (fun k' c' I => A k' c' (or_intror I)) eq_refl)). cbn [bind]. rewrite map_app. reflexivity. }
    all: split; [discriminate|]; intros [A _]; destruct (A k _ (or_introl eq_refl)) as (d' & X & _); discriminate.
Qed.

Section Thm.
Variables json_loads yaml_load : string -> res doc.
Variable w0 : world.
Variable tex : string -> res bool.
Notation parses t d := (load_text string json_loads yaml_load t = Ok d).
Notation basis_load := (LoadBasis.basis_load json_loads yaml_load w0).
Notation eft_load := (LoadBasis.eft_load json_loads yaml_load).
Notation doc_validate := (LoadBasis.doc_validate w0 tex).
Definition basis_check (t : string) : res unit := let! l := basis_load t in doc_validate l.

(** Sectors that pass the validation against an EFT with the sectors [known] *)
Definition good_sectors (known : list string) (S : dict string doc) : Prop :=
  incl (dkeys S) known /\ (forall k c, In (k, c) S -> sector_ok c) /\ NoDup (coefficients S) /\ tex (formulas S) = Ok true.
Definition checks (known : list string) (s : dict string doc) (other : bool) : res unit :=
  if negb (forallb (fun k => mem k known) (dkeys s)) || other then Err ValueError else
  let! n := doc_keys s in
  if has_dupes n then Err ValueError else
  let! x := doc_texs s in let! y := strs x in
  let! ok := tex ("$" ++ String.concat "$, $" y ++ "$")%string in
  if ok : bool then Ok tt else Err ValueError.
Lemma checks_ok known S o : checks known S o = Ok tt <-> o = false /\ good_sectors known S.
Proof.
  unfold checks, good_sectors. destruct (forallb _ _) eqn:F; cbn [negb orb].
  2: { split; [discriminate|]. intros (_ & I & _). apply forallb_mem in I. congruence. }
  apply forallb_mem in F. destruct o; [split; [discriminate|intros [X _]; discriminate]|]. split.
  - destruct (doc_keys S) as [n|] eqn:K; cbn [bind]; [|discriminate]. apply doc_keys_ok in K. destruct K as [M ->].
    destruct (has_dupes _) eqn:D; [discriminate|]. apply has_dupes_iff in D.
    destruct (doc_texs S) as [x|] eqn:X; cbn [bind]; [|discriminate]. destruct (strs x) as [y|] eqn:Y; cbn [bind]; [|discriminate].
    apply strs_ok in Y. subst x. apply doc_texs_ok in X. destruct X as [A ->].
    fold (formulas S). destruct (tex (formulas S)) as [[]|]; cbn [bind]; try discriminate. auto.
  - intros (_ & _ & A & N & T).
    assert (doc_keys S = Ok (coefficients S)) as ->.
    { apply doc_keys_ok. split; [|reflexivity]. intros k c I. destruct (A k c I) as (d & -> & _). eauto. }
    cbn [bind]. rewrite (proj2 (has_dupes_iff _) N). rewrite (proj2 (doc_texs_ok S _) (conj A eq_refl)). cbn [bind]. rewrite strs_map. cbn [bind].
    fold (formulas S). rewrite T. reflexivity.
Qed.

(** The sectors that the object for the file [m] gets: its own, or those of the parent with its own written over them. *)
Definition effective (m : attrs) (e : string) (b : doc) (S : dict string doc) : Prop :=
  dget m "parent" = None /\ dget m "sectors" = Some (DMap S) \/
  exists p id P s own, dget m "parent" = Some (DStr p) /\ b <> DStr p /\ basis_get w0 e p = Ok id /\ sectors_of w0 id = Some P /\
    dget m "sectors" = Some s /\ reads_as s own /\ S = dupdate (sectors_doc P) own.
(** Nothing in the way: no entry named like the first parameter of the constructor, like a property or like the method called. *)
Definition free (m : attrs) (l : list string) : Prop := forall k, In k l -> dget m k = None.
Lemma setattrs_free c m base : (exists d, setattrs c base (kwargs_of c m) = Ok d) <-> free m (properties c).
Proof.
  split.
  - intros [d E] k P. destruct (dget m k) eqn:G; auto. exfalso.
    assert (In k (dkeys (kwargs_of c m))) as I. { apply kwargs_In; [apply dget_Some_key with d0; exact G|apply (prop_notreq (fun _ => None)); exact P]. }
    rewrite (setattrs_bad (fun _ => None) c _ base k I P) in E. discriminate.
  - intros F. eexists. apply (setattrs_good (fun _ => None)). intros k M P. apply F in P. unfold dmem in M. rewrite P in M. discriminate.
Qed.
Lemma dmem_none (m : attrs) k : dmem m k = false <-> dget m k = None.
Proof. unfold dmem. destruct (dget m k); split; congruence. Qed.
Lemma basis_check_iff t : basis_check t = Ok tt <->
  exists m e b known S, parses t (DMap m) /\ free m ["self"; "known_translators"; "all_wcs"; "validate"] /\
    dget m "eft" = Some (DStr e) /\ dget m "basis" = Some b /\ hashable b = true /\
    lookup_reg (w_efts w0) e = Ok known /\ effective m e b S /\ good_sectors known S.
Proof.
  unfold basis_check, LoadBasis.basis_load. destruct (load_text _ _ _ t) as [d|x] eqn:L; cbn [bind].
  2: { split; [discriminate|]. intros (m & _ & _ & _ & _ & X & _). discriminate. }
  destruct d as [| | | | |m]; try (split; [discriminate|]; intros (m & _ & _ & _ & _ & [= X] & _); discriminate).
  split.
  - destruct (dmem m "self") eqn:Se; [discriminate|]. unfold need.
    destruct (dget m "eft") as [e|] eqn:Ee; cbn [bind]; [|discriminate].
    destruct (dget m "basis") as [b|] eqn:Eb; cbn [bind]; [|discriminate].
    destruct (dget m "sectors") as [s|] eqn:Es; cbn [bind]; [|discriminate].
    destruct (hashable e) eqn:He; cbn [andb negb]; [|discriminate]. destruct (hashable b) eqn:Hb; cbn [negb]; [|discriminate].
    destruct (setattrs KBasis [] (kwargs_of KBasis m)) as [a|] eqn:A; cbn [bind]; [|discriminate].
    assert (free m (properties KBasis)) as F by (apply (setattrs_free KBasis m []); eauto).
    intros E.
    assert (exists S o, (let! l := Ok (Loaded e (DMap S) o (dmem m "validate")) in doc_validate l) = Ok tt /\
              (o = false -> forall e', e = DStr e' -> effective m e' b S)) as (S & o & E' & Eff).
    { destruct (dget m "parent") as [p|] eqn:Ep.
      - destruct (hashable p) eqn:Hp; cbn [negb bind] in E; [|discriminate].
        destruct (parent_of w0 e b p) as [q|] eqn:Q; cbn [bind] in E; [|discriminate].
        destruct (update_doc q s) as [[u o]|] eqn:U; cbn [bind fst snd] in E; [|discriminate]. exists u, o. split; [exact E|].
        intros -> e' ->. right. destruct p as [| | |p| |]; cbn in Q; try discriminate.
        destruct (match b with DStr b' => String.eqb b' p | _ => false end) eqn:B; [discriminate|].
        destruct (lookup_reg (w_bases w0) (e', p)) as [id|] eqn:R; [|discriminate].
        destruct (sectors_of w0 id) as [P|] eqn:SP; [|discriminate]. cbn in Q. injection Q as <-.
        apply update_doc_ok in U. destruct U as (own & RA & ->).
        exists p, id, P, s, own. repeat split; auto. intros ->. rewrite String.eqb_refl in B. discriminate.
      - cbn [bind] in E. unfold LoadBasis.doc_validate in E. cbn [l_hidden l_eft l_sectors l_other] in E.
        destruct (dmem m "validate") eqn:V; [discriminate|]. destruct e as [| | |e| |]; try discriminate.
        destruct (lookup_reg (w_efts w0) e) as [known|] eqn:K; [|discriminate].
        destruct s as [| | | | |S]; cbn [items bind] in E; try discriminate. exists S, false. split.
        + unfold LoadBasis.doc_validate. cbn [bind l_hidden l_eft l_sectors l_other items]. rewrite K. exact E.
        + intros _ e' [= <-]. left. split; [exact Ep|exact Es]. }
    clear E. cbn [bind] in E'. unfold LoadBasis.doc_validate in E'. cbn [l_hidden l_eft l_sectors l_other items bind] in E'.
    destruct (dmem m "validate") eqn:V; [discriminate|]. destruct e as [| | |e| |]; try discriminate.
    destruct (lookup_reg (w_efts w0) e) as [known|] eqn:K; [|discriminate]. fold (checks known S o) in E'.
    apply checks_ok in E'. destruct E' as [-> G]. exists m, e, b, known, S.
    split; [reflexivity|]. split; [|auto 10].
    intros k [<-|[<-|[<-|[<-|[]]]]]; [apply dmem_none; exact Se|apply F; cbn; auto|apply F; cbn; auto|apply dmem_none; exact V].
  - intros (m' & e & b & known & S & [= <-] & F & Ee & Eb & Hb & K & Eff & G).
    rewrite (proj2 (dmem_none m "self")) by (apply F; cbn; auto). unfold need. rewrite Ee, Eb. cbn [bind].
    assert (dmem m "validate" = false) as V by (apply dmem_none; apply F; cbn; auto).
    assert (exists a, setattrs KBasis [] (kwargs_of KBasis m) = Ok a) as [a A].
    { apply setattrs_free. intros k [<-|[<-|[]]]; apply F; cbn; auto. }
    assert ((let! l := Ok (Loaded (DStr e) (DMap S) false false) in doc_validate l) = Ok tt) as R.
    { cbn [bind]. unfold LoadBasis.doc_validate. cbn [l_hidden l_eft l_sectors l_other items bind]. rewrite K. fold (checks known S false).
      apply checks_ok. auto. }
    destruct Eff as [[Ep Es]|(p & id & P & s & own & Ep & Np & R1 & SP & Es & RA & ->)]; rewrite Es; cbn [bind hashable andb negb];
      rewrite Hb; cbn [negb]; rewrite A; cbn [bind]; rewrite Ep, V.
    + exact R.
    + cbn [hashable negb]. assert (parent_of w0 (DStr e) b (DStr p) = Some (sectors_doc P)) as ->.
      { cbn. assert (match b with DStr b' => String.eqb b' p | _ => false end = false) as ->.
        { destruct b as [| | |b| |]; auto. apply String.eqb_neq. congruence. }
        unfold basis_get in R1. rewrite R1, SP. reflexivity. }
      rewrite (proj2 (update_doc_ok (sectors_doc P) s _)) by eauto. exact R.
Qed.

(** ** EFT files *)
Lemma eft_load_iff t : eft_load t = Ok tt <->
  exists m e s, parses t (DMap m) /\ free m ["self"; "known_bases"; "known_translators"] /\
    dget m "eft" = Some e /\ hashable e = true /\ dget m "sectors" = Some s.
Proof.
  unfold LoadBasis.eft_load. destruct (load_text _ _ _ t) as [d|x] eqn:L; cbn [bind].
  2: { split; [discriminate|]. intros (m & _ & _ & X & _). discriminate. }
  destruct d as [| | | | |m]; try (split; [discriminate|]; intros (m & _ & _ & [= X] & _); discriminate). split.
  - destruct (dmem m "self") eqn:Se; [discriminate|]. unfold need.
    destruct (dget m "eft") as [e|] eqn:Ee; cbn [bind]; [|discriminate].
    destruct (dget m "sectors") as [s|] eqn:Es; cbn [bind]; [|discriminate].
    destruct (hashable e) eqn:He; cbn [negb]; [|discriminate].
    destruct (setattrs KEFT [] (kwargs_of KEFT m)) as [a|] eqn:A; cbn [bind]; [|discriminate]. intros _.
    assert (free m (properties KEFT)) as F by (apply (setattrs_free KEFT m []); eauto).
    exists m, e, s. split; [reflexivity|]. split; [|auto].
    intros k [<-|[<-|[<-|[]]]]; [apply dmem_none; exact Se|apply F; cbn; auto|apply F; cbn; auto].
  - intros (m' & e & s & [= <-] & F & Ee & He & Es). rewrite (proj2 (dmem_none m "self")) by (apply F; cbn; auto).
    unfold need. rewrite Ee, Es. cbn [bind]. rewrite He. cbn [negb].
    assert (exists a, setattrs KEFT [] (kwargs_of KEFT m) = Ok a) as [a ->]; [|reflexivity].
    apply setattrs_free. intros k [<-|[<-|[]]]; apply F; cbn; auto.
Qed.
Lemma eft_load_err t x d : parses t d -> eft_load t = Err x -> x = TypeError \/ x = AttributeError.
Proof.
  intros L. unfold LoadBasis.eft_load. rewrite L. cbn [bind]. destruct d as [| | | | |m]; try (intros [= <-]; auto; fail).
  destruct (dmem m "self"); [intros [= <-]; auto|]. unfold need. destruct (dget m "eft") as [e|]; cbn [bind]; [|intros [= <-]; auto].
  destruct (dget m "sectors") as [s|]; cbn [bind]; [|intros [= <-]; auto]. destruct (negb (hashable e)); [intros [= <-]; auto|].
  destruct (setattrs _ _ _) as [a|y] eqn:A; cbn [bind]; [discriminate|]. intros [= <-]. right. clear -A. revert A. generalize (@nil (string * doc)).
  induction (kwargs_of KEFT m) as [|[k v] r IH]; intros d0; cbn [setattrs]; [discriminate|]. destruct (mem k _); [intros [= <-]; reflexivity|apply IH].
Qed.

(** ** The command *)
Definition shown (s : st) (r : res unit) : Z * st :=
  match r with
  | Ok _ => (0%Z, St (files s) (seen s ++ [Printed "Validation successful."]))
  | Err AttributeError => (0%Z, St (files s) (seen s ++ [Help]))
  | Err SystemExit => (0%Z, s)
  | Err x => (1%Z, St (files s) (seen s ++ [Trace x]))
  end.
Section Command.
Variable float_of_str : string -> option R.
Variables json_dumps yaml_dump : doc -> string.
Variable treg_ : treg.
Variable mreg_ : mreg.
Variable odd : attrs -> list string -> res wc.
Definition tool : parsed -> st -> Z * st :=
  Tool.tool float_of_str json_dumps yaml_dump json_loads yaml_load treg_ mreg_ w0 odd loaded eft_load basis_load doc_validate.
Definition input (f : source) (s : st) : string := match f with SStdin t => t | SFile p => content s p end.
Lemma tool_basis f s : tool (PCmd (Cli.Validate "basis" f)) s = shown s (basis_check (input f s)).
Proof.
  unfold tool, Tool.tool, wcxf_main, basis_check. cbn [run_cmd]. unfold Cli.validate. change (String.eqb "basis" "eft") with false. change (String.eqb "basis" "basis") with true. cbv iota.
  unfold mbind, mret, input. destruct f as [t|p]; cbn [cmd_out truncate read]; destruct (basis_load _) as [l|x]; cbn [bind];
    try (destruct x; reflexivity); destruct (doc_validate l) as [[]|x]; [reflexivity|destruct x; reflexivity|reflexivity|destruct x; reflexivity].
Qed.
Lemma tool_eft f s : tool (PCmd (Cli.Validate "eft" f)) s = shown s (eft_load (input f s)).
Proof.
  unfold tool, Tool.tool, wcxf_main. cbn [run_cmd]. unfold Cli.validate. change (String.eqb "eft" "eft") with true. cbv iota.
  unfold mbind, mret, input. destruct f as [t|p]; cbn [cmd_out truncate read]; destruct (eft_load _) as [[]|x]; try reflexivity; destruct x; reflexivity.
Qed.
End Command.
End Thm.

(** ** Well-formed files: the same as the objects of Bases.v *)
Lemma sectors_doc_dset (d : sectors) k v : sectors_doc (dset d k v) = dset (sectors_doc d) k (sector_doc v).
Proof.
  induction d as [|[k' v'] t IH]; [reflexivity|]. cbn [dset sectors_doc map fst snd]. destruct (keqb k k'); [reflexivity|].
  cbn [map fst snd]. fold (sectors_doc (dset t k v)). rewrite IH. reflexivity.
Qed.
Lemma sectors_doc_dupdate (s d : sectors) : sectors_doc (dupdate d s) = dupdate (sectors_doc d) (sectors_doc s).
Proof.
  revert d. induction s as [|[k v] t IH]; intros d; [reflexivity|]. cbn [sectors_doc map fst snd]. rewrite !dupdate_cons, IH, sectors_doc_dset. reflexivity.
Qed.
Lemma sectors_doc_keys (s : sectors) : dkeys (sectors_doc s) = dkeys s.
Proof. unfold dkeys, sectors_doc. rewrite map_map. reflexivity. Qed.
Lemma keys_same (s : sectors) : doc_keys (sectors_doc s) = all_keys s.
Proof.
  induction s as [|[k [d|]] t IH]; [reflexivity| |reflexivity]. cbn [sectors_doc map fst snd sector_doc doc_keys items bind all_keys].
  fold (sectors_doc t). rewrite IH. destruct (all_keys t); cbn [bind]; [|reflexivity]. do 2 f_equal. unfold dkeys. rewrite map_map. reflexivity.
Qed.
Lemma entry_texs_same (d : dict string (option entry)) :
  entry_texs (map (fun kv => (fst kv, entry_doc (snd kv))) d) = Ok (map DStr (flat_map (fun kv => entry_tex (snd kv)) d)).
Proof.
  induction d as [|[k [[tx r]|]] t IH]; [reflexivity| |cbn; exact IH].
  cbn [map fst snd entry_doc entry_texs items e_tex e_real]. rewrite IH. cbn [bind flat_map snd entry_tex app map e_tex]. do 2 f_equal.
  destruct tx; [reflexivity|]. destruct r; reflexivity.
Qed.
Lemma texs_same (s : sectors) l : all_keys s = Ok l -> doc_texs (sectors_doc s) = Ok (map DStr (tex_strings s)).
Proof.
  revert l. induction s as [|[k [d|]] t IH]; intros l; [reflexivity| |discriminate]. cbn [all_keys].
  destruct (all_keys t) as [r|]; cbn [bind]; [|discriminate]. intros _.
  cbn [sectors_doc map fst snd sector_doc doc_texs items bind tex_strings]. rewrite entry_texs_same. cbn [bind]. fold (sectors_doc t).
  rewrite (IH r eq_refl). cbn [bind]. rewrite map_app. reflexivity.
Qed.
Lemma checks_same tex known (s : sectors) :
  checks tex known (sectors_doc s) false =
  (if negb (forallb (fun k => mem k known) (dkeys s)) then Err ValueError else
   let! l := all_keys s in
   if has_dupes l then Err ValueError else
   let! ok := tex (alltex s) in
   if ok : bool then Ok tt else Err ValueError).
Proof.
  unfold checks. rewrite sectors_doc_keys, orb_false_r, keys_same. destruct (negb _); [reflexivity|].
  destruct (all_keys s) as [l|] eqn:A; cbn [bind]; [|reflexivity]. destruct (has_dupes l); [reflexivity|].
  rewrite (texs_same s l A). cbn [bind]. rewrite strs_map. reflexivity.
Qed.

(** The state of new_basis, when it accepts. *)
Lemma new_basis_state h e b parent s : let w := wrun h in
  match new_basis w e b parent s with
  | (Ok id, w') => exists S, sectors_of w' id = Some S /\ w_efts w' = w_efts w /\ (exists o, nth_error (w_objs w') id = Some o /\ bo_eft o = e /\ bo_cache o = Some None) /\
      match parent with
      | None => S = s
      | Some p => p <> b /\ exists pid P, basis_get w e p = Ok pid /\ sectors_of w pid = Some P /\ S = dupdate P s
      end
  | (Err x, _) => x = ValueError /\ exists p, parent = Some p /\ ~ usable_parent w e b p
  end.
Proof.
  intros w. pose proof (new_basis_result h e b parent s) as NR. fold w in NR. destruct NR as [[R U]|[R N]].
  2: { destruct (new_basis w e b parent s) as [r w']. cbn in R. subst r. auto. }
  revert R. unfold new_basis. set (id := length (w_objs w)). destruct parent as [p|].
  - destruct (U p eq_refl) as (Np & pid & P & G & SP). unfold basis_get in G.
    assert (lookup_reg (Some (dset (reg_or_empty (w_bases w)) (e, b) id)) (e, p) = Ok pid) as G1.
    { unfold lookup_reg, dlookup. rewrite dget_dset_neq by congruence. unfold lookup_reg in G. destruct (w_bases w); [exact G|discriminate]. }
    cbn [w_bases]. rewrite G1. cbn [bind]. unfold sectors_of in SP. destruct (obj_sectors_ref w pid) as [r|] eqn:OR; [|discriminate].
    assert (obj_sectors_ref (World (w_efts w) (Some (dset (reg_or_empty (w_bases w)) (e, b) id)) (w_objs w ++ [BObj e b None None]) (w_secs w)) pid = Ok r) as ->.
    { unfold obj_sectors_ref in *. cbn [w_objs]. destruct (nth_error (w_objs w) pid) as [o|] eqn:O; [|discriminate].
      rewrite nth_error_app1 by (apply nth_error_Some; congruence). rewrite O. exact OR. }
    cbn [w_secs]. rewrite SP. intros _. exists (dupdate P s).
    assert (forall o, nth_error (list_set (w_objs w ++ [BObj e b None None]) id o) id = Some o) as NE.
    { intros o. rewrite nth_list_set, Nat.eqb_refl, app_length. cbn [length]. replace (id <? length (w_objs w) + 1) with true; [reflexivity|]. symmetry. apply Nat.ltb_lt. unfold id. lia. }
    split.
    { unfold sectors_of, obj_sectors_ref. cbn [w_objs w_secs]. rewrite NE. cbn [bo_sectors]. rewrite nth_list_set, Nat.eqb_refl.
      replace (r <? length (w_secs w)) with true; [reflexivity|]. symmetry. apply Nat.ltb_lt. apply nth_error_Some. congruence. }
    split; [reflexivity|]. split; [eexists; split; [apply NE|split; reflexivity]|]. split; [exact Np|]. exists pid, P. split; [exact G|]. split; [|reflexivity].
    unfold sectors_of. rewrite OR. exact SP.
  - intros _. exists s. cbn [w_secs w_objs w_efts].
    assert (forall o, nth_error (list_set (w_objs w ++ [BObj e b None None]) id o) id = Some o) as NE.
    { intros o. rewrite nth_list_set, Nat.eqb_refl, app_length. cbn [length]. replace (id <? length (w_objs w) + 1) with true; [reflexivity|]. symmetry. apply Nat.ltb_lt. unfold id. lia. }
    split; [|split; [reflexivity|split; [eexists; split; [apply NE|split; reflexivity]|reflexivity]]].
    unfold sectors_of, obj_sectors_ref. cbn [w_objs w_secs]. rewrite NE. cbn [bo_sectors]. rewrite nth_error_app2, Nat.sub_diag by lia. reflexivity.
Qed.

Section Typed.
Variables json_loads yaml_load : string -> res doc.
Variable h : list wop.
Notation w0 := (wrun h).
Variable tex : string -> res bool.
Notation parses t d := (load_text string json_loads yaml_load t = Ok d).
Notation basis_load := (LoadBasis.basis_load json_loads yaml_load w0).
Notation basis_check := (LoadBasisThm.basis_check json_loads yaml_load w0 tex).

(** The text [t] is a well-formed basis file for the given entries. *)
Definition basis_file (t : string) (e b : string) (parent : option string) (s : sectors) : Prop :=
  exists m, parses t (DMap m) /\ free m ["self"; "known_translators"; "all_wcs"; "validate"] /\
    dget m "eft" = Some (DStr e) /\ dget m "basis" = Some (DStr b) /\ dget m "sectors" = Some (DMap (sectors_doc s)) /\
    dget m "parent" = option_map DStr parent.
Lemma typed_load t e b parent s : basis_file t e b parent s ->
  basis_load t = match parent with
                 | None => Ok (Loaded (DStr e) (DMap (sectors_doc s)) false false)
                 | Some p => match parent_of w0 (DStr e) (DStr b) (DStr p) with
                             | None => Err ValueError
                             | Some q => Ok (Loaded (DStr e) (DMap (dupdate q (sectors_doc s))) false false)
                             end
                 end.
Proof.
  intros (m & L & F & Ee & Eb & Es & Ep). unfold LoadBasis.basis_load. rewrite L. cbn [bind].
  rewrite (proj2 (dmem_none m "self")) by (apply F; cbn; auto). unfold need. rewrite Ee, Eb, Es. cbn [bind hashable andb negb].
  assert (exists a, setattrs KBasis [] (kwargs_of KBasis m) = Ok a) as [a ->].
  { apply setattrs_free. intros k [<-|[<-|[]]]; apply F; cbn; auto. }
  cbn [bind]. rewrite Ep. rewrite (proj2 (dmem_none m "validate")) by (apply F; cbn; auto).
  destruct parent as [p|]; cbn [option_map hashable negb]; [|reflexivity]. destruct (parent_of _ _ _ _); reflexivity.
Qed.
Lemma typed_check t e b parent s : basis_file t e b parent s ->
  basis_check t = match new_basis w0 e b parent s with
                  | (Ok id, w) => Bases.basis_validate tex w id
                  | (Err x, _) => Err x
                  end.
Proof.
  intros T. unfold LoadBasisThm.basis_check. rewrite (typed_load t e b parent s T). clear T.
  pose proof (new_basis_state h e b parent s) as N. cbv zeta in N. destruct (new_basis w0 e b parent s) as [[id|x] w].
  - destruct N as (S & SO & WE & (o & NO & OE & OC) & P).
    assert ((match parent with
             | None => Ok (Loaded (DStr e) (DMap (sectors_doc s)) false false)
             | Some p => match parent_of w0 (DStr e) (DStr b) (DStr p) with
                         | None => Err ValueError
                         | Some q => Ok (Loaded (DStr e) (DMap (dupdate q (sectors_doc s))) false false)
                         end
             end) = Ok (Loaded (DStr e) (DMap (sectors_doc S)) false false)) as ->.
    { destruct parent as [p|]; [|subst S; reflexivity]. destruct P as (Np & pid & P & G & SP & ->).
      unfold parent_of. replace (String.eqb b p) with false by (symmetry; apply String.eqb_neq; congruence).
      unfold basis_get in G. rewrite G, SP. cbn [option_map]. rewrite sectors_doc_dupdate. reflexivity. }
    cbn [bind]. unfold LoadBasis.doc_validate, Bases.basis_validate. cbn [l_hidden l_eft l_sectors l_other items bind].
    rewrite NO, OE, WE. destruct (lookup_reg (w_efts w0) e) as [known|]; [|reflexivity]. rewrite SO.
    fold (checks tex known (sectors_doc S) false). apply checks_same.
  - destruct N as (-> & p & -> & NU). assert (parent_of w0 (DStr e) (DStr b) (DStr p) = None) as ->; [|reflexivity].
    unfold parent_of. destruct (String.eqb b p) eqn:B; [reflexivity|]. apply String.eqb_neq in B.
    destruct (lookup_reg (w_bases w0) (e, p)) as [pid|] eqn:G; [|reflexivity]. destruct (sectors_of w0 pid) as [P|] eqn:SP; [|reflexivity].
    exfalso. apply NU. split; [congruence|]. exists pid, P. auto.
Qed.
(** A validated basis, once loaded, accepts exactly the coefficient files with its names. *)
Lemma validated_usable t e b parent s keys : basis_file t e b parent s -> basis_check t = Ok tt ->
  exists id S, fst (new_basis w0 e b parent s) = Ok id /\ sectors_of (snd (new_basis w0 e b parent s)) id = Some S /\
    (fst (wc_validate (snd (new_basis w0 e b parent s)) e b keys) = Ok tt <-> incl keys (coefficients (sectors_doc S))).
Proof.
  intros T C. rewrite (typed_check t e b parent s T) in C.
  pose proof (new_basis_state h e b parent s) as N. cbv zeta in N. pose proof (new_basis_registered w0 e b parent s) as [RG _].
  pose proof (new_basis_result h e b parent s) as NR.
  destruct (new_basis w0 e b parent s) as [[id|x] w]; [|discriminate].
  assert (id = length (w_objs w0)) as -> by (destruct NR as [[[= ->] _]|[[=] _]]; reflexivity). cbn [fst snd] in *. clear NR. set (id := length (w_objs w0)) in *.
  destruct N as (S & SO & WE & (o & NO & OE & OC) & _). exists id, S. split; [reflexivity|]. split; [exact SO|].
  unfold Bases.basis_validate in C. rewrite NO, OE, SO in C. destruct (lookup_reg (w_efts w) e) as [known|] eqn:K; [|discriminate].
  destruct (negb _); [discriminate|]. destruct (all_keys S) as [l|] eqn:A; cbn [bind] in C; [|discriminate].
  assert (coefficients (sectors_doc S) = l) as ->. { rewrite <- keys_same in A. apply doc_keys_ok in A. symmetry. apply A. }
  rewrite wc_validate_iff. assert (fst (all_wcs w id) = Ok l) as AW.
  { unfold all_wcs. rewrite NO, OC, SO. apply all_keys_names in A. rewrite A. reflexivity. }
  split.
  - intros (known' & id' & l' & _ & G & AL & I). rewrite RG in G. injection G as <-. rewrite AW in AL. injection AL as <-. exact I.
  - intros I. exists known, id, l. auto.
Qed.
End Typed.

(** ** Malformed files *)
Section Malformed.
Variables json_loads yaml_load : string -> res doc.
Variable w0 : world.
Variable tex : string -> res bool.
Notation parses t d := (load_text string json_loads yaml_load t = Ok d).
Notation basis_check := (LoadBasisThm.basis_check json_loads yaml_load w0 tex).
Notation effective := (LoadBasisThm.effective w0).
Definition proper (m : attrs) : Prop := free m ["self"; "known_translators"; "all_wcs"; "validate"].
Lemma proper_load t m e b s : parses t (DMap m) -> proper m -> dget m "eft" = Some e -> dget m "basis" = Some b -> dget m "sectors" = Some s ->
  hashable e = true -> hashable b = true ->
  LoadBasis.basis_load json_loads yaml_load w0 t =
  match dget m "parent" with
  | None => Ok (Loaded e s false false)
  | Some p => if negb (hashable p) then Err TypeError else
              match parent_of w0 e b p with
              | None => Err ValueError
              | Some q => let! u := update_doc q s in Ok (Loaded e (DMap (fst u)) (snd u) false)
              end
  end.
Proof.
  intros L F Ee Eb Es He Hb. unfold LoadBasis.basis_load. rewrite L. cbn [bind].
  rewrite (proj2 (dmem_none m "self")) by (apply F; cbn; auto). unfold need. rewrite Ee, Eb, Es. cbn [bind]. rewrite He, Hb. cbn [andb negb].
  assert (exists a, setattrs KBasis [] (kwargs_of KBasis m) = Ok a) as [a ->].
  { apply setattrs_free. intros k [<-|[<-|[]]]; apply F; cbn; auto. }
  cbn [bind]. rewrite (proj2 (dmem_none m "validate")) by (apply F; cbn; auto). reflexivity.
Qed.
Lemma effective_check t m e b known S : parses t (DMap m) -> proper m -> dget m "eft" = Some (DStr e) -> dget m "basis" = Some b -> hashable b = true ->
  lookup_reg (w_efts w0) e = Ok known -> effective m e b S -> basis_check t = checks tex known S false.
Proof.
  intros L F Ee Eb Hb K Eff. unfold LoadBasisThm.basis_check.
  assert (LoadBasis.basis_load json_loads yaml_load w0 t = Ok (Loaded (DStr e) (DMap S) false false)) as ->.
  { destruct Eff as [[Ep Es]|(p & id & P & s & own & Ep & Np & R1 & SP & Es & RA & ->)].
    - rewrite (proper_load t m _ _ _ L F Ee Eb Es eq_refl Hb), Ep. reflexivity.
    - rewrite (proper_load t m _ _ _ L F Ee Eb Es eq_refl Hb), Ep. cbn [hashable negb].
      assert (parent_of w0 (DStr e) b (DStr p) = Some (sectors_doc P)) as ->.
      { cbn. assert (match b with DStr b' => String.eqb b' p | _ => false end = false) as ->.
        { destruct b as [| | |b| |]; auto. apply String.eqb_neq. congruence. }
        unfold basis_get in R1. rewrite R1, SP. reflexivity. }
      rewrite (proj2 (update_doc_ok (sectors_doc P) s _)) by eauto. reflexivity. }
  cbn [bind]. unfold LoadBasis.doc_validate. cbn [l_hidden l_eft l_sectors l_other items bind]. rewrite K. reflexivity.
Qed.
Lemma unknown_eft t m e b s : parses t (DMap m) -> proper m -> dget m "eft" = Some e -> dget m "basis" = Some b -> dget m "sectors" = Some s ->
  hashable e = true -> hashable b = true -> dget m "parent" = None -> (forall n known, e = DStr n -> lookup_reg (w_efts w0) n <> Ok known) ->
  basis_check t = Err ValueError.
Proof.
  intros L F Ee Eb Es He Hb Ep U. unfold LoadBasisThm.basis_check. rewrite (proper_load t m _ _ _ L F Ee Eb Es He Hb), Ep. cbn [bind].
  unfold LoadBasis.doc_validate. cbn [l_hidden l_eft]. destruct e as [| | |e| |]; auto. destruct (lookup_reg (w_efts w0) e) as [known|] eqn:K; auto.
  exfalso. exact (U e known eq_refl K).
Qed.
Lemma no_mapping t m e b s known : parses t (DMap m) -> proper m -> dget m "eft" = Some (DStr e) -> dget m "basis" = Some b -> dget m "sectors" = Some s ->
  hashable b = true -> dget m "parent" = None -> lookup_reg (w_efts w0) e = Ok known -> (forall S, s <> DMap S) ->
  basis_check t = Err AttributeError.
Proof.
  intros L F Ee Eb Es Hb Ep K N. unfold LoadBasisThm.basis_check. rewrite (proper_load t m _ _ _ L F Ee Eb Es eq_refl Hb), Ep. cbn [bind].
  unfold LoadBasis.doc_validate. cbn [l_hidden l_eft l_sectors]. rewrite K. destruct s; try reflexivity. exfalso. exact (N m0 eq_refl).
Qed.
Lemma entry_err d x : entry_texs d = Err x -> x = AttributeError.
Proof.
  induction d as [|[k v] t IH]; cbn [entry_texs]; [discriminate|].
  destruct v; cbn [items bind]; try (intros [= <-]; reflexivity); auto. destruct (entry_texs t); cbn [bind]; [discriminate|auto].
Qed.
Lemma texs_err S x : doc_texs S = Err x -> x = AttributeError.
Proof.
  induction S as [|[k c] t IH]; cbn [doc_texs]; [discriminate|].
  destruct c; cbn [items bind]; try (intros [= <-]; reflexivity).
  destruct (entry_texs m) as [a|y] eqn:E; cbn [bind]; [|intros [= <-]; exact (entry_err m y E)]. destruct (doc_texs t); cbn [bind]; [discriminate|auto].
Qed.
Lemma entry_texs_bad (d : dict string doc) k v : In (k, v) d -> v <> DNull -> (forall x, v <> DMap x) -> entry_texs d = Err AttributeError.
Proof.
  intros I N M. destruct (entry_texs d) as [l|x] eqn:E; [|f_equal; exact (entry_err d x E)]. exfalso. revert l E.
  induction d as [|[k' v'] t IH]; intros l; [destruct I|]. destruct I as [[= -> ->]|I]; cbn [entry_texs].
  - destruct v; cbn [items bind]; try discriminate; [congruence|exfalso; exact (M m eq_refl)].
  - destruct v'; cbn [items bind]; try discriminate.
    + intros E. exact (IH I l E).
    + destruct (entry_texs t) as [r|] eqn:E; cbn [bind]; [|discriminate]. intros _. exact (IH I r eq_refl).
Qed.
Lemma doc_texs_bad (S : dict string doc) k d k' v : In (k, DMap d) S -> In (k', v) d -> v <> DNull -> (forall x, v <> DMap x) -> doc_texs S = Err AttributeError.
Proof.
  intros I J N M. destruct (doc_texs S) as [l|x] eqn:E; [|f_equal; exact (texs_err S x E)]. exfalso. revert l E.
  induction S as [|[k0 c] t IH]; intros l; [destruct I|]. destruct I as [[= -> ->]|I]; cbn [doc_texs].
  - cbn [items bind]. rewrite (entry_texs_bad d k' v J N M). discriminate.
  - destruct c; cbn [items bind]; try discriminate. destruct (entry_texs m); cbn [bind]; [|discriminate].
    destruct (doc_texs t) as [r|] eqn:E; cbn [bind]; [|discriminate]. intros _. exact (IH I r eq_refl).
Qed.
(** In the order of the code *)
Lemma checks_unknown known S : ~ incl (dkeys S) known -> checks tex known S false = Err ValueError.
Proof.
  intros N. unfold checks. destruct (forallb _ _) eqn:F; [|reflexivity]. exfalso. apply N. apply forallb_mem. exact F.
Qed.
Lemma checks_sector known S k c : incl (dkeys S) known -> In (k, c) S -> (forall d, c <> DMap d) -> checks tex known S false = Err AttributeError.
Proof.
  intros I J N. unfold checks. rewrite (proj2 (forallb_mem (dkeys S) known) I). cbn [negb orb].
  destruct (doc_keys S) as [n|x] eqn:E; cbn [bind]; [|f_equal; exact (doc_keys_err S x E)].
  exfalso. apply doc_keys_ok in E. destruct E as [A _]. destruct (A k c J) as [d ->]. exact (N d eq_refl).
Qed.
Lemma checks_dupes known S : incl (dkeys S) known -> (forall k c, In (k, c) S -> exists d, c = DMap d) -> ~ NoDup (coefficients S) ->
  checks tex known S false = Err ValueError.
Proof.
  intros I M N. unfold checks. rewrite (proj2 (forallb_mem (dkeys S) known) I). cbn [negb orb].
  rewrite (proj2 (doc_keys_ok S (coefficients S)) (conj M eq_refl)). cbn [bind]. destruct (has_dupes _) eqn:D; [reflexivity|]. exfalso. apply N. apply has_dupes_iff. exact D.
Qed.
Lemma checks_entry known S k d k' v : incl (dkeys S) known -> (forall k c, In (k, c) S -> exists d, c = DMap d) -> NoDup (coefficients S) ->
  In (k, DMap d) S -> In (k', v) d -> v <> DNull -> (forall x, v <> DMap x) -> checks tex known S false = Err AttributeError.
Proof.
  intros I M N J1 J2 V1 V2. unfold checks. rewrite (proj2 (forallb_mem (dkeys S) known) I). cbn [negb orb].
  rewrite (proj2 (doc_keys_ok S (coefficients S)) (conj M eq_refl)). cbn [bind]. rewrite (proj2 (has_dupes_iff _) N).
  rewrite (doc_texs_bad S k d k' v J1 J2 V1 V2). reflexivity.
Qed.
Lemma checks_tex known S : incl (dkeys S) known -> (forall k c, In (k, c) S -> sector_ok c) -> NoDup (coefficients S) ->
  checks tex known S false = match tex (formulas S) with Ok true => Ok tt | Ok false => Err ValueError | Err x => Err x end.
Proof.
  intros I A N. unfold checks. rewrite (proj2 (forallb_mem (dkeys S) known) I). cbn [negb orb].
  assert (doc_keys S = Ok (coefficients S)) as ->.
  { apply doc_keys_ok. split; [|reflexivity]. intros k c J. destruct (A k c J) as (d & -> & _). eauto. }
  cbn [bind]. rewrite (proj2 (has_dupes_iff _) N). rewrite (proj2 (doc_texs_ok S _) (conj A eq_refl)). cbn [bind]. rewrite strs_map. cbn [bind].
  fold (formulas S). destruct (tex (formulas S)) as [[]|]; reflexivity.
Qed.
End Malformed.

(** ** Which exceptions there are *)
Definition usual (x : exn) : Prop := x = TypeError \/ x = ValueError \/ x = AttributeError.
Lemma setattrs_err c kw : forall d x, setattrs c d kw = Err x -> x = AttributeError.
Proof.
  induction kw as [|[k v] r IH]; intros d x; cbn [setattrs]; [discriminate|]. destruct (mem k _); [intros [= <-]; reflexivity|apply IH].
Qed.
Lemma update_seq_err l : forall d x, update_seq d l = Err x -> usual x.
Proof.
  unfold usual. induction l as [|y t IH]; intros d x; cbn [update_seq]; [discriminate|].
  destruct (pair_of y) as [p|z] eqn:P; cbn [bind].
  - destruct (negb _); [intros [= <-]; auto|apply IH].
  - intros [= <-]. clear -P. destruct y as [| | |s|l|l]; cbn [pair_of] in P; try (injection P as <-; auto).
    + destruct s as [|? [|? [|]]]; try discriminate; injection P as <-; auto.
    + destruct l as [|? [|? [|]]]; try discriminate; injection P as <-; auto.
    + destruct l as [|[] [|[] [|]]]; try discriminate; injection P as <-; auto.
Qed.
Lemma update_doc_err d s x : update_doc d s = Err x -> usual x.
Proof.
  destruct s as [| | |s|l|m]; cbn [update_doc]; try (intros [= <-]; unfold usual; auto; fail); try discriminate.
  - destruct s; [discriminate|]. intros [= <-]. unfold usual; auto.
  - apply update_seq_err.
Qed.
Lemma strs_err l x : strs l = Err x -> x = TypeError.
Proof.
  induction l as [|a t IH]; cbn [strs]; [discriminate|]. destruct a; try (intros [= <-]; reflexivity). destruct (strs t); cbn [bind]; [discriminate|auto].
Qed.
Section Errors.
Variables json_loads yaml_load : string -> res doc.
Variable w0 : world.
Variable tex : string -> res bool.
Lemma checks_err known S o x : checks tex known S o = Err x -> usual x \/ exists f, tex f = Err x.
Proof.
  unfold checks, usual. destruct (_ || _); [intros [= <-]; auto|].
  destruct (doc_keys S) as [n|y] eqn:K; cbn [bind]; [|intros [= <-]; rewrite (doc_keys_err S y K); auto].
  destruct (has_dupes n); [intros [= <-]; auto|].
  destruct (doc_texs S) as [z|y] eqn:T; cbn [bind]; [|intros [= <-]; rewrite (texs_err S y T); auto].
  destruct (strs z) as [u|y] eqn:U; cbn [bind]; [|intros [= <-]; rewrite (strs_err z y U); auto].
  destruct (tex _) as [[]|y] eqn:X; cbn [bind]; [discriminate|intros [= <-]; auto|intros [= <-]; right; eauto].
Qed.
Lemma basis_check_err t d x : load_text string json_loads yaml_load t = Ok d -> basis_check json_loads yaml_load w0 tex t = Err x ->
  usual x \/ exists f, tex f = Err x.
Proof.
  intros L. unfold basis_check, LoadBasis.basis_load. rewrite L. cbn [bind].
  assert (usual TypeError /\ usual ValueError /\ usual AttributeError) as (UT & UV & UA) by (unfold usual; auto).
  destruct d as [| | | | |m]; cbn [bind]; try (intros [= <-]; auto; fail).
  destruct (dmem m "self"); cbn [bind]; [intros [= <-]; auto|]. unfold need.
  destruct (dget m "eft") as [e|]; cbn [bind]; [|intros [= <-]; auto].
  destruct (dget m "basis") as [b|]; cbn [bind]; [|intros [= <-]; auto].
  destruct (dget m "sectors") as [s|]; cbn [bind]; [|intros [= <-]; auto].
  destruct (negb _); cbn [bind]; [intros [= <-]; auto|].
  destruct (setattrs _ _ _) as [a|y] eqn:A; cbn [bind]; [|intros [= <-]; rewrite (setattrs_err _ _ _ _ A); auto].
  assert (forall l, doc_validate w0 tex l = Err x -> usual x \/ exists f, tex f = Err x) as D.
  { intros l. unfold doc_validate. destruct (l_hidden l); [intros [= <-]; auto|]. destruct (l_eft l); try (intros [= <-]; auto; fail).
    destruct (lookup_reg (w_efts w0) s0) as [known|]; [|intros [= <-]; auto]. destruct (l_sectors l); cbn [items bind]; try (intros [= <-]; auto; fail).
    fold (checks tex known m0 (l_other l)). apply checks_err. }
  destruct (dget m "parent") as [p|]; [|apply D]. destruct (negb (hashable p)); cbn [bind]; [intros [= <-]; auto|].
  destruct (parent_of w0 e b p) as [q|]; cbn [bind]; [|intros [= <-]; auto].
  destruct (update_doc q s) as [u|y] eqn:U; cbn [bind]; [apply D|intros [= <-]; left; exact (update_doc_err _ _ _ U)].
Qed.
Lemma basis_check_unparsed t x : load_text string json_loads yaml_load t = Err x -> basis_check json_loads yaml_load w0 tex t = Err x.
Proof. intros L. unfold basis_check, LoadBasis.basis_load. rewrite L. reflexivity. Qed.
End Errors.
