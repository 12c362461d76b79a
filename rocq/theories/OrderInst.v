(** The installed translators and matchers do not depend on the order of the coefficients. *)
From Coq Require Import String Ascii List Bool Arith ZArith Reals Lra Permutation.
From Verif Require Import PyBase PyDict Cplx Tensor SmeftSyntax SmeftTab Wc WetN Params Smeft SmeftSpec SmeftNames SmeftRot SmeftWarsaw SmeftMass SmeftReg
  Match MatchThm MatchFacts MatchWarsaw MatchUser WetExpr Wet WetNf MatchWet FkTab FlavorKit Package PackMatch Tool Order OrderPackage.
Import ListNotations.
Open Scope string_scope.
Open Scope list_scope.
Open Scope nat_scope.
#[local] Opaque WC_keys C_keys_shape Ceq_dec fk_jms fk_jms_conj revert.
#[local] Opaque JMS_to_Bern_prog JMS_to_flavio_prog JMS_to_FormFlavor_prog JMS_to_EOS_prog Bern_to_flavio_prog flavio_to_Bern_prog.

Lemma fold_translators tl : forall r (Q : string * string * string -> convfun -> Prop), (forall k tr, reg_lookup r k = Ok tr -> Q k (t_fun tr)) -> (forall x, In x tl -> Q (fst x) (snd x)) ->
  forall k tr, reg_lookup (fold_left (fun r x => new_translator r (fst (fst (fst x))) (snd (fst (fst x))) (snd (fst x)) (snd x)) tl r) k = Ok tr -> Q k (t_fun tr).
Proof.
  induction tl as [|[[[e f] t] fn] tl IH]; intros r Q A B; [exact A|]. cbn [fold_left fst snd]. apply IH.
  - intros k tr. unfold new_translator. rewrite reg_lookup_set. destruct (keqb (e, f, t) k) eqn:E.
    + apply keqb_eq in E. subst k. intros X. inversion X; subst. cbn. exact (B _ (or_introl eq_refl)).
    + destruct r; [apply A|discriminate].
  - intros x I. apply B. right. exact I.
Qed.
Lemma fold_matchers ml : forall r (Q : string * string * string * string -> convfun -> Prop), (forall k tr, reg_lookup r k = Ok tr -> Q k (m_fun tr)) -> (forall x, In x ml -> Q (fst x) (snd x)) ->
  forall k tr, reg_lookup (fold_left (fun r x => new_matcher r (fst (fst (fst (fst x)))) (snd (fst (fst (fst x)))) (snd (fst (fst x))) (snd (fst x)) (snd x)) ml r) k = Ok tr -> Q k (m_fun tr).
Proof.
  induction ml as [|[[[[e f] e'] t] fn] ml IH]; intros r Q A B; [exact A|]. cbn [fold_left fst snd]. apply IH.
  - intros k tr. unfold new_matcher. rewrite reg_lookup_set. destruct (keqb (e, f, e', t) k) eqn:E.
    + apply keqb_eq in E. subst k. intros X. inversion X; subst. cbn. exact (B _ (or_introl eq_refl)).
    + destruct r; [apply A|discriminate].
  - intros x I. apply B. right. exact I.
Qed.

(** The names for which the order does not matter.  In most bases of the WET these are all names. *)
Definition known (e b k : string) : Prop :=
  (e = "SMEFT" -> good_name k) /\ (b = "FlavorKit" -> In k fk_known) /\ (b = "JMS" -> jms_known k).
Section Inst.
Variable ckm_tree : R -> R -> R -> R -> mat.
Variable msvd_values : mat -> fl -> C.
Variable qcd_mb qcd_ms : R -> R -> R -> res R.
Variable qcd_as : R -> R -> res R.
Variable all_wcs_of : string -> string -> list string.
Variable with_nan : dict string cval -> res (dict string C).
Notation W := (all_wcs_of "SMEFT" "Warsaw").
Notation U := (all_wcs_of "SMEFT" "Warsaw up").
Notation J := (all_wcs_of "WET" "JMS").
(** The entries of a Python dictionary have different keys. *)
Hypothesis nan_dict : forall d o, wf d -> with_nan d = Ok o -> wf o.
(** The dipoles of the JMS basis have two flavour indices. *)
Hypothesis J_known : forall k, In k J -> jms_known k.
Notation plain := (Package.plain with_nan).
Lemma plain_wf o d : (forall x, o = Ok x -> wf x) -> plain o = Ok d -> wf d.
Proof.
  intros Wx. unfold Package.plain. destruct o as [x|]; [|discriminate]. cbn [bind]. specialize (Wx x eq_refl).
  destruct (sequence _) as [n|] eqn:S; [|apply nan_dict, Wx]. intros [= <-]. unfold wf, dkeys in *. assert (map fst n = map fst x) as ->; [|exact Wx].
  revert n S. clear. induction x as [|[k z] t IH]; intros n; cbn [map sequence fst snd]; [intros [= <-]; reflexivity|].
  destruct z as [z|]; [|discriminate]. cbn [bind]. destruct (sequence _) as [n'|]; [|discriminate]. intros [= <-]. cbn. f_equal. apply IH. reflexivity.
Qed.
(** A function that depends on the coefficients only, zero or not there *)
Definition by_value (fn : convfun) (G : dict string C -> Prop) : Prop :=
  forall d d1 sc p o, G d -> G d1 -> (forall k, coeff d1 k = coeff d k) -> fn d sc p = Ok o ->
    wf o /\ exists o1, fn d1 sc p = Ok o1 /\ wf o1 /\ forall k, coeff o1 k = coeff o k.
Lemma by_value_order fn (G : dict string C -> Prop) d : by_value fn G -> (forall d1, Permutation d d1 -> G d1) -> wf d -> any_order fn d.
Proof. intros B H Wd sc p d1 o P E. apply (B d d1 sc p o); auto. apply coeff_perm; auto. Qed.
Lemma jms_by_value q keys : by_value (fun c sc p => plain (from_JMS ckm_tree qcd_mb qcd_ms qcd_as q keys (nums c) sc p)) (fun _ => True).
Proof.
  intros d d1 sc p o _ _ H E. assert (wf o) as Wo.
  { eapply plain_wf; [|exact E]. intros x. unfold from_JMS. destruct (get_parameters _ _ _ sc p); [|discriminate]. cbn [bind]. destruct (JMS_to_array keys (nums d)); [|discriminate]. cbn [bind].
    destruct q; [|discriminate]. cbn [bind]. apply run_prog_wf. }
  split; [exact Wo|]. exists o. split; [|auto]. rewrite <- E. unfold from_JMS, JMS_to_array. rewrite (fill_same keys d d1 H). reflexivity.
Qed.
Lemma flat_by_value q keys : by_value (fun c sc p => plain (from_flat ckm_tree qcd_mb qcd_ms qcd_as q keys (nums c) sc p)) (fun _ => True).
Proof.
  intros d d1 sc p o _ _ H E. assert (wf o) as Wo.
  { eapply plain_wf; [|exact E]. intros x. unfold from_flat. destruct (get_parameters _ _ _ sc p); [|discriminate]. cbn [bind].
    destruct q; [|discriminate]. cbn [bind]. apply run_prog_wf. }
  split; [exact Wo|]. exists o. split; [|auto]. rewrite <- E. unfold from_flat. rewrite (fill_same keys d d1 H). reflexivity.
Qed.
Lemma by_value_ext f g G : (forall d sc p, g d sc p = f d sc p) -> by_value f G -> by_value g G.
Proof. intros E B d d1 sc p o Gd Gd1 H. rewrite !E. apply B; assumption. Qed.
(** One function after the other *)
Lemma by_value_then (f g : convfun) G : by_value f G -> by_value g (fun _ => True) -> by_value (fun c sc p => let! x := f c sc p in g x sc p) G.
Proof.
  intros F Hg d d1 sc p o Gd Gd1 H. destruct (f d sc p) as [x|] eqn:E; [|discriminate]. cbn [bind]. intros E2. destruct (F d d1 sc p x Gd Gd1 H E) as (_ & x1 & -> & _ & Hx).
  cbn [bind]. exact (Hg x x1 sc p o I I Hx E2).
Qed.
(** SMEFT *)
Lemma rotate_by_value V keys : by_value (fun d _ _ => let! c := rotate_q V d in Ok (key_filter keys c)) good_dict.
Proof.
  intros d d1 sc p o G G1 H. destruct (rotate_ok V d G) as (r & E). destruct (rotate_ok V d1 G1) as (r1 & E1). rewrite E, E1. cbn [bind]. intros [= <-].
  pose proof (proj1 (rotate_q_good V d r G E)) as Wr. pose proof (proj1 (rotate_q_good V d1 r1 G1 E1)) as Wr1.
  split; [apply PyDict.wf_filter, Wr|]. exists (key_filter keys r1). split; [reflexivity|]. split; [apply PyDict.wf_filter, Wr1|]. intros k.
  change (dval (key_filter keys r1) k = dval (key_filter keys r) k). rewrite !dval_keys by assumption. destruct (mem k keys); [|reflexivity].
  exact (rotate_same V d d1 r r1 G G1 H E E1 k).
Qed.
Lemma match_by_value keys : by_value (fun d _ p => match_all ckm_tree keys d p) good_dict.
Proof.
  intros d d1 sc p o G G1 H E. pose proof (match_same ckm_tree keys d d1 p G G1 H) as M. rewrite E in M.
  destruct (match_all ckm_tree keys d1 p) as [o1|] eqn:E1; [|contradiction]. pose proof (match_wf ckm_tree (fun _ _ => keys) d p o E) as Wo. pose proof (match_wf ckm_tree (fun _ _ => keys) d1 p o1 E1) as Wo1.
  split; [exact Wo|]. exists o1. split; [reflexivity|]. split; [exact Wo1|]. intros k.
  pose proof (num_of_nonzero o k Wo) as A. pose proof (num_of_nonzero o1 k Wo1) as B. rewrite M, A in B. symmetry. exact B.
Qed.
Lemma warsaw_match_by_value : by_value (fun d _ p => warsaw_to_jms ckm_tree U J p d) good_dict.
Proof.
  intros d d1 sc p o G G1 H. unfold warsaw_to_jms, warsaw_to_warsaw_up. set (V := Tensor.mdag (ckm_of ckm_tree (merge_params p))).
  destruct (rotate_ok V d G) as (r & E). destruct (rotate_ok V d1 G1) as (r1 & E1). rewrite E, E1. cbn [bind].
  pose proof (rotate_q_good V d r G E) as Gr. pose proof (rotate_q_good V d1 r1 G1 E1) as Gr1.
  apply (match_by_value J (key_filter U r) (key_filter U r1) sc p o); auto using good_filter.
  intros k. change (dval (key_filter U r1) k = dval (key_filter U r) k). destruct Gr as [Wr _], Gr1 as [Wr1 _]. rewrite !dval_keys by assumption. destruct (mem k U); [|reflexivity].
  exact (rotate_same V d d1 r r1 G G1 H E E1 k).
Qed.
Lemma mass_wf d o : wf d -> warsaw_to_warsawmass ckm_tree msvd_values None d = Ok o -> wf o.
Proof.
  intros Wd. unfold warsaw_to_warsawmass, rotate_up. destruct (smeft_toarray "uphi" d); [|discriminate]. cbn [bind]. destruct (smeft_toarray "uG" d); [|discriminate]. cbn [bind].
  destruct (smeft_toarray "uW" d); [|discriminate]. cbn [bind]. destruct (smeft_toarray "uB" d); [|discriminate]. cbn [bind]. destruct (smeft_toarray "llphiphi" d); [|discriminate]. cbn [bind].
  assert (forall x y : dict string C, Ok x = Ok y -> x = y) as Oi by (intros x y X; congruence). intros E. apply Oi in E. rewrite <- E. do 5 apply wf_dupdate. exact Wd.
Qed.
Lemma mass_by_value : by_value (tr_warsawmass ckm_tree msvd_values) good_dict.
Proof.
  intros d d1 sc p o G G1 H. unfold tr_warsawmass. intros E.
  destruct (warsawmass_spec ckm_tree msvd_values None d G) as (o' & ll & E' & L & _ & A & B & D & K). rewrite E in E'. injection E' as <-.
  destruct (warsawmass_spec ckm_tree msvd_values None d1 G1) as (o1 & ll1 & E1 & L1 & _ & A1 & B1 & D1 & K1).
  split; [exact (mass_wf d o (proj1 G) E)|]. exists o1. split; [exact E1|]. split; [exact (mass_wf d1 o1 (proj1 G1) E1)|].
  assert (forall op, mat_in d1 op = mat_in d op) as M by (intros op; apply mat_ext; intros i j; unfold mat_in; apply H).
  assert (ll1 = ll) as ->.
  { destruct (smeft_toarray_good "llphiphi" d eq_refl eq_refl G) as (m & X & Y). destruct (smeft_toarray_good "llphiphi" d1 eq_refl eq_refl G1) as (m1 & X1 & Y1).
    rewrite (array_same d d1 _ _ H) in Y1. congruence. }
  assert (forall op, In op ("llphiphi" :: up_ops) -> forall i j, dget o1 (sname op [i; j]) = dget o (sname op [i; j])) as Same.
  { intros op [<-|I] i j; [rewrite D, D1; reflexivity|]. rewrite (B op i j I), (B1 op i j I), M. reflexivity. }
  intros k. destruct (in_dec string_dec (name_part k) ("llphiphi" :: up_ops)) as [I|N].
  2: { specialize (H k). unfold coeff in *. rewrite (A k N), (A1 k N). exact H. }
  assert (forall (d0 o0 : dict string C), good_dict d0 -> (forall k, In k (dkeys o0) -> In k (dkeys d0) \/ exists op i j, In op ("llphiphi" :: up_ops) /\ k = sname op [i; j]) ->
    In k (dkeys o0) -> exists op i j, In op ("llphiphi" :: up_ops) /\ k = sname op [i; j]) as Kk.
  { intros d0 o0 G0 K0 Ik. destruct (K0 k Ik) as [Id|X]; [|exact X]. destruct (proj2 G0 k Id) as (op & s & x & S & Ix & ->).
    assert (name_part (sname op x) = op) as Np by (apply name_part_sname; eauto using shape_no_us). rewrite Np in I.
    assert (s = Sh2) as -> by (destruct I as [<-|[<-|[<-|[<-|[<-|[]]]]]]; vm_compute in S; congruence).
    apply idx2_shape in Ix. destruct Ix as (i & j & ->). exists op, i, j. auto. }
  unfold coeff. destruct (dget o k) as [z|] eqn:Z, (dget o1 k) as [z1|] eqn:Z1; auto.
  - destruct (Kk d o G K (dget_Some_key _ _ _ Z)) as (op & i & j & Io & ->). rewrite Same in Z1 by exact Io. congruence.
  - destruct (Kk d o G K (dget_Some_key _ _ _ Z)) as (op & i & j & Io & ->). rewrite Same in Z1 by exact Io. congruence.
  - destruct (Kk d1 o1 G1 K1 (dget_Some_key _ _ _ Z1)) as (op & i & j & Io & ->). rewrite Same in Z1 by exact Io. congruence.
Qed.

(** ** The registered functions *)
Definition fine (e f e' t : string) (fn : convfun) : Prop :=
  forall d, wf d -> (forall k, In k (dkeys d) -> known e f k) -> any_order fn d /\ forall sc p o, fn d sc p = Ok o -> forall k, In k (dkeys o) -> known e' t k.
Lemma known_other e b k : e <> "SMEFT" -> b <> "FlavorKit" -> b <> "JMS" -> known e b k.
Proof. intros A B D. repeat split; intros; contradiction. Qed.
Lemma good_perms (d d1 : dict string C) f : wf d -> (forall k, In k (dkeys d) -> known "SMEFT" f k) -> Permutation d d1 -> good_dict d1.
Proof. intros Wd K P. apply (good_perm d d1 P). split; [exact Wd|]. intros k I. apply (K k I). reflexivity. Qed.
Lemma wet_fine e f e' t fn : by_value fn (fun _ => True) -> e' <> "SMEFT" -> t <> "FlavorKit" -> t <> "JMS" -> fine e f e' t fn.
Proof. intros B N1 N2 N3 d Wd K. split; [exact (by_value_order fn _ d B (fun _ _ => I) Wd)|]. intros; apply known_other; assumption. Qed.
Lemma smeft_fine f e' t fn : by_value fn good_dict -> (forall d sc p o, good_dict d -> fn d sc p = Ok o -> forall k, In k (dkeys o) -> known e' t k) -> fine "SMEFT" f e' t fn.
Proof.
  intros B H d Wd K. split; [exact (by_value_order fn _ d B (fun d1 P => good_perms d d1 f Wd K P) Wd)|]. intros sc p o. apply H. split; [exact Wd|]. intros k I. apply (K k I). reflexivity.
Qed.
Lemma known_smeft t k : t <> "FlavorKit" -> t <> "JMS" -> good_name k -> known "SMEFT" t k.
Proof. intros. repeat split; intros; auto; contradiction. Qed.
Lemma known_jms e k : e <> "SMEFT" -> jms_known k -> known e "JMS" k.
Proof. intros. repeat split; intros; auto; [contradiction|discriminate]. Qed.
Lemma key_filter_in keys (d : dict string C) k : In k (dkeys (key_filter keys d)) -> In k keys /\ In k (dkeys d).
Proof.
  unfold key_filter, dkeys. rewrite in_map_iff. intros (kv & <- & I). apply filter_In in I. destruct I as [I M]. split; [apply mem_In in M; exact M|]. apply in_map, I.
Qed.
Lemma match_in d p o k : match_all ckm_tree J d p = Ok o -> In k (dkeys o) -> In k J.
Proof.
  intros M I. unfold match_all in M. destruct (read_smeft d); [|discriminate]. cbn [bind] in M. destruct (matched _ _ _); [|discriminate]. cbn [bind] in M.
  assert (forall x y : dict string C, Ok x = Ok y -> x = y) as Oi by (intros x y X; congruence). apply Oi in M. rewrite <- M in I. apply key_filter_in in I. tauto.
Qed.
Lemma filter_fine e f e' keys : e <> "SMEFT" -> e' <> "SMEFT" -> f <> "FlavorKit" -> fine e f e' f (fun c _ _ => Ok (key_filter keys c)).
Proof.
  intros N N' N2 d Wd K. split.
  - intros sc p d1 o P [= <-]. split; [apply PyDict.wf_filter, Wd|]. exists (key_filter keys d1). split; [reflexivity|].
    assert (Permutation (key_filter keys d) (key_filter keys d1)) as Q by (apply perm_filter, P). destruct (perm_get _ _ (PyDict.wf_filter _ d Wd) Q) as [W1 _].
    split; [exact W1|]. apply coeff_perm; [apply PyDict.wf_filter, Wd|exact Q].
  - intros sc p o [= <-] k I. apply key_filter_in in I. destruct (K k (proj2 I)) as (_ & A & B). repeat split; auto; contradiction.
Qed.
Notation translators := (Package.translators ckm_tree msvd_values qcd_mb qcd_ms qcd_as all_wcs_of with_nan).
Notation matchers := (Package.matchers ckm_tree qcd_mb qcd_ms qcd_as all_wcs_of with_nan).
Lemma fk_jms_any d sc p d1 o : wf d -> (forall k, In k (dkeys d) -> In k fk_known) -> Permutation d d1 -> FlavorKit_to_JMS qcd_mb qcd_ms qcd_as d sc p = Ok o ->
  wf o /\ (exists o1, FlavorKit_to_JMS qcd_mb qcd_ms qcd_as d1 sc p = Ok o1 /\ wf o1 /\ forall k, coeff o1 k = coeff o k) /\ forall t, In t (dkeys o) -> jms_known t.
Proof.
  intros Wd K P. unfold FlavorKit_to_JMS. destruct (get_parameters _ _ _ sc p) as [q|]; [|discriminate]. cbn [bind]. apply fk_perm; assumption.
Qed.
Lemma jms_fk_any d sc p d1 o : wf d -> (forall k, In k (dkeys d) -> jms_known k) -> Permutation d d1 -> JMS_to_FlavorKit qcd_mb qcd_ms qcd_as d sc p = Ok o ->
  wf o /\ (exists o1, JMS_to_FlavorKit qcd_mb qcd_ms qcd_as d1 sc p = Ok o1 /\ wf o1 /\ forall k, coeff o1 k = coeff o k) /\ forall t, In t (dkeys o) -> In t fk_known.
Proof.
  intros Wd K P. unfold JMS_to_FlavorKit. destruct (get_parameters _ _ _ sc p) as [q|]; [|discriminate]. cbn [bind]. apply jms_perm; assumption.
Qed.
Lemma rotated_known V keys t d o : t <> "FlavorKit" -> t <> "JMS" -> good_dict d -> (let! c := rotate_q V d in Ok (key_filter keys c)) = Ok o -> forall k, In k (dkeys o) -> known "SMEFT" t k.
Proof.
  intros N1 N2 G. destruct (rotate_q V d) as [r|] eqn:E; [|discriminate]. cbn [bind]. intros [= <-] k I. apply key_filter_in in I. apply known_smeft; auto.
  exact (proj2 (rotate_q_good V d r G E) k (proj2 I)).
Qed.
Lemma translators_fine x : In x translators -> fine (fst (fst (fst x))) (snd (fst (fst x))) (fst (fst (fst x))) (snd (fst x)) (snd x).
Proof.
  unfold Package.translators. cbn [In].
  intros [<-|[<-|[<-|[<-|[<-|[<-|[<-|[<-|[<-|[<-|[<-|[<-|[<-|[<-|[<-|[<-|[<-|[<-|[<-|[<-|[]]]]]]]]]]]]]]]]]]]]]; cbn [fst snd];
    try (apply wet_fine; [first [apply jms_by_value|apply flat_by_value]|discriminate..]).
  - apply smeft_fine; [exact mass_by_value|]. intros d sc p o G E k I. unfold tr_warsawmass in E.
    destruct (warsawmass_spec ckm_tree msvd_values None d G) as (o' & ll & E' & _ & _ & _ & _ & _ & K). rewrite E in E'. injection E' as <-.
    apply known_smeft; try discriminate. destruct (K k I) as [Id|(op & i & j & Io & ->)]; [apply G, Id|]. exists op, Sh2, [i; j].
    split; [|split; [apply idx2_in|reflexivity]]. destruct Io as [<-|[<-|[<-|[<-|[<-|[]]]]]]; vm_compute; reflexivity.
  - apply smeft_fine; [exact (rotate_by_value _ U)|]. intros d sc p o G. apply rotated_known; auto; discriminate.
  - apply smeft_fine; [exact (rotate_by_value _ W)|]. intros d sc p o G. apply rotated_known; auto; discriminate.
  - intros d Wd K. split.
    + intros sc p d1 o P E. destruct (fk_jms_any d sc p d1 o) as (A & B & _); auto. intros k I. apply (K k I). reflexivity.
    + intros sc p o E k I. destruct (fk_jms_any d sc p d o) as (_ & _ & A); auto; [intros q Iq; apply (K q Iq); reflexivity|]. apply known_jms; [discriminate|]. exact (A k I).
  - intros d Wd K. split.
    + intros sc p d1 o P E. destruct (jms_fk_any d sc p d1 o) as (A & B & _); auto. intros k I. apply (K k I). reflexivity.
    + intros sc p o E k I. destruct (jms_fk_any d sc p d o) as (_ & _ & A); auto; [intros q Iq; apply (K q Iq); reflexivity|]. repeat split; try discriminate. intros _. exact (A k I).
  - intros d Wd K. split; [|intros; apply known_other; discriminate].
    intros sc p d1 o P. unfold reg_FlavorKit_flavio. destruct (FlavorKit_to_JMS qcd_mb qcd_ms qcd_as d sc p) as [j|] eqn:E; [|discriminate]. cbn [bind]. intros E2.
    destruct (fk_jms_any d sc p d1 j) as (A & (j1 & -> & B & H) & _); auto; [intros k I; apply (K k I); reflexivity|]. cbn [bind].
    exact (jms_by_value _ _ j j1 sc p o I I H E2).
Qed.
Lemma matchers_fine x : In x matchers -> fine (fst (fst (fst (fst x)))) (snd (fst (fst (fst x)))) (snd (fst (fst x))) (snd (fst x)) (snd x).
Proof.
  unfold Package.matchers. cbn [In].
  intros [<-|[<-|[<-|[<-|[<-|[<-|[<-|[<-|[<-|[<-|[<-|[<-|[]]]]]]]]]]]]]; cbn [fst snd]; try (apply filter_fine; discriminate).
  - apply smeft_fine; [exact (match_by_value J)|]. intros d sc p o G E k I. apply known_jms; [discriminate|]. apply J_known. exact (match_in d p o k E I).
  - apply smeft_fine; [exact warsaw_match_by_value|]. intros d sc p o G E k I. apply known_jms; [discriminate|]. apply J_known.
    unfold reg_warsaw_jms in E. destruct (jms_inv _ _ _ _ _ _ E) as (u & _ & E2). exact (match_in u p o k E2 I).
  - apply smeft_fine; [|intros; apply known_other; discriminate]. refine (by_value_ext _ _ _ _ (by_value_then _ _ _ warsaw_match_by_value (jms_by_value JMS_to_flavio_prog J))).
    intros d sc p. unfold reg_warsaw_flavio. rewrite (proj1 (via_jms _ _ _ _ _ _ _ _ _)). destruct (warsaw_to_jms ckm_tree U J p d); reflexivity.
  - apply smeft_fine; [|intros; apply known_other; discriminate]. refine (by_value_ext _ _ _ _ (by_value_then _ _ _ warsaw_match_by_value (jms_by_value JMS_to_EOS_prog J))).
    intros d sc p. unfold reg_warsaw_eos. rewrite (proj1 (proj2 (via_jms _ _ _ _ _ _ _ _ _))). destruct (warsaw_to_jms ckm_tree U J p d); reflexivity.
  - apply smeft_fine; [|intros; apply known_other; discriminate]. refine (by_value_ext _ _ _ _ (by_value_then _ _ _ warsaw_match_by_value (jms_by_value JMS_to_Bern_prog J))).
    intros d sc p. unfold reg_warsaw_bern. rewrite (proj2 (proj2 (via_jms _ _ _ _ _ _ _ _ _))). destruct (warsaw_to_jms ckm_tree U J p d); reflexivity.
Qed.

(** ** The installed registries *)
Variable float_of_str : string -> option R.
Notation treg_ := (Package.installed ckm_tree msvd_values qcd_mb qcd_ms qcd_as all_wcs_of with_nan).
Notation mreg_ := (Package.installed_m ckm_tree qcd_mb qcd_ms qcd_as all_wcs_of with_nan).
Notation call := (Tool.call float_of_str treg_ mreg_).
Notation calls := (Tool.calls float_of_str treg_ mreg_).
(** The names of the coefficients of [w] *)
Definition known_wc (w : wc) : Prop := forall k, In k (dkeys (wc_values w)) -> known (wc_eft w) (wc_basis w) k.
Lemma installed_fine x w fn : fn_of treg_ mreg_ x w = Ok fn ->
  fine (wc_eft w) (wc_basis w) (match x with STranslate _ => wc_eft w | SMatch e _ => e end) (match x with STranslate t => t | SMatch _ t => t end) fn.
Proof.
  destruct x as [t|e t]; cbn [fn_of].
  - destruct (reg_lookup treg_ (wc_eft w, wc_basis w, t)) as [tr|] eqn:L; [|discriminate]. cbn [rmap bind]. intros E. injection E as <-.
    refine (fold_translators translators None (fun k f => fine (fst (fst k)) (snd (fst k)) (fst (fst k)) (snd k) f) _ _ _ _ L); [discriminate|]. intros y I. apply translators_fine, I.
  - destruct (reg_lookup mreg_ (wc_eft w, wc_basis w, e, t)) as [tr|] eqn:L; [|discriminate]. cbn [rmap bind]. intros E. injection E as <-.
    refine (fold_matchers matchers None (fun k f => fine (fst (fst (fst k))) (snd (fst (fst k))) (snd (fst k)) (snd k) f) _ _ _ _ L); [discriminate|]. intros y I. apply matchers_fine, I.
Qed.
Lemma known_dict w d : wc_cache w = None -> known_wc w -> fst (Wc.wc_dict float_of_str w) = Ok d -> forall k, In k (dkeys d) -> known (wc_eft w) (wc_basis w) k.
Proof.
  intros C K. unfold Wc.wc_dict. rewrite C. destruct (values2dict float_of_str (wc_values w)) as [d'|] eqn:D; cbn; [|discriminate]. intros E. injection E as <-.
  intros k I. apply K. rewrite <- (values_keys _ _ _ D). exact I.
Qed.
Lemma known_insensitive x w : known_wc w -> Order.insensitive float_of_str treg_ mreg_ x w.
Proof.
  intros K w1 u S. pose proof S as (_ & _ & _ & C & _). refine (any_order_insensitive float_of_str treg_ mreg_ x w _ w1 u S).
  intros fn d F D. destruct (same_wc_dict _ _ _ d S D) as (_ & _ & Wd & _). exact (proj1 (installed_fine x w fn F d Wd (known_dict w d C K D))).
Qed.
Lemma convert_values fn e t w p u : fst (Wc.convert float_of_str fn e t w p) = Ok u ->
  exists c o, fst (Wc.wc_dict float_of_str w) = Ok c /\ fn c (wc_scale w) p = Ok o /\ u = new_wc e t (wc_scale w) (dict2values (filter Wc.nonzero o)).
Proof.
  rewrite convert_run. destruct (fst (Wc.wc_dict float_of_str w)) as [c|]; [|discriminate]. cbn [bind]. destruct (fn c (wc_scale w) p) as [o|] eqn:F; [|discriminate]. cbn [bind].
  intros E. exists c, o. split; [reflexivity|]. split; [exact F|]. symmetry. unfold PackWet.result in E. assert (forall x y : wc, Ok x = Ok y -> x = y) as Oi by (intros x y X; congruence). apply Oi, E.
Qed.
Lemma call_convert x w u : call x w = Ok u -> exists fn, fn_of treg_ mreg_ x w = Ok fn /\
  fst (Wc.convert float_of_str fn (match x with STranslate _ => wc_eft w | SMatch e _ => e end) (match x with STranslate t => t | SMatch _ t => t end) w None) = Ok u.
Proof.
  destruct x as [t|e t]; cbn [Tool.call fn_of].
  - destruct (reg_lookup treg_ (wc_eft w, wc_basis w, t)) as [tr|] eqn:L.
    + rewrite (proj2 (translate_spec float_of_str treg_ w t None (installed_ok _ _ _ _ _ _ _)) tr L). intros E. exists (t_fun tr). split; [reflexivity|exact E].
    + rewrite (proj1 (translate_spec float_of_str treg_ w t None (installed_ok _ _ _ _ _ _ _)) _ L). discriminate.
  - destruct (reg_lookup mreg_ (wc_eft w, wc_basis w, e, t)) as [tr|] eqn:L.
    + rewrite (proj2 (match_spec float_of_str mreg_ w e t None (installed_m_ok _ _ _ _ _ _)) tr L). intros E. exists (m_fun tr). split; [reflexivity|exact E].
    + rewrite (proj1 (match_spec float_of_str mreg_ w e t None (installed_m_ok _ _ _ _ _ _)) _ L). discriminate.
Qed.
Lemma values_of_dict (d : dict string C) : dkeys (dict2values d) = dkeys d.
Proof. symmetry. apply (values_keys float_of_str). apply values_roundtrip. Qed.
(** The results have such names again. *)
Lemma call_known x w u : wc_cache w = None -> wf (wc_values w) -> known_wc w -> call x w = Ok u -> known_wc u /\ wf (wc_values u).
Proof.
  intros C Wv K E. destruct (call_convert x w u E) as (fn & F & Q). destruct (convert_values _ _ _ _ _ _ Q) as (c & o & D & R & ->).
  assert (wf c) as Wc'. { unfold Wc.wc_dict in D. rewrite C in D. destruct (values2dict float_of_str (wc_values w)) as [d'|] eqn:D'; cbn in D; [|discriminate]. injection D as <-.
    unfold wf. rewrite (values_keys _ _ _ D'). exact Wv. }
  destruct (installed_fine x w fn F c Wc' (known_dict w c C K D)) as [A B]. destruct (A _ _ c o (Permutation_refl c) R) as (Wo & _).
  split.
  - intros k I. cbn [new_wc wc_values wc_eft wc_basis] in *. rewrite values_of_dict in I. apply (B _ _ _ R k). unfold dkeys in *. apply in_map_iff in I. destruct I as (kv & <- & I).
    apply filter_In in I. apply in_map, I.
  - cbn [new_wc wc_values]. unfold wf. rewrite values_of_dict. apply PyDict.wf_filter, Wo.
Qed.
Lemma calls_known l : forall w v, wc_cache w = None -> wf (wc_values w) -> known_wc w -> calls l w = Ok v -> known_wc v.
Proof.
  induction l as [|x l IH]; intros w v C Wv K E; cbn [Tool.calls] in E; [injection E as <-; exact K|]. destruct (call x w) as [u|] eqn:Cx; [|discriminate]. cbn [bind] in E.
  destruct (call_known x w u C Wv K Cx) as [Ku Wu]. exact (IH u v (call_fresh _ _ _ x w u Cx) Wu Ku E).
Qed.
Theorem installed_order_free l w : wc_cache w = None -> wf (wc_values w) -> known_wc w -> Order.order_free float_of_str treg_ mreg_ l w.
Proof. intros C Wv K n x v _ E. apply known_insensitive. exact (calls_known _ w v C Wv K E). Qed.
Lemma known_same w w1 : same_wc w w1 -> known_wc w -> known_wc w1.
Proof. intros (E & B & _ & _ & _ & S) K k I. rewrite <- E, <- B. apply K. exact (Permutation_in _ (Permutation_sym (same_keys _ _ S)) I). Qed.
Lemma same_wc_sym w w1 : same_wc w w1 -> same_wc w1 w.
Proof. intros (A & B & D & E & F & S). repeat split; auto. apply same_sym, S. Qed.
(** A call fails for all orders or for none. *)
Lemma installed_fails x w w1 e : same_wc w w1 -> known_wc w -> call x w = Err e -> exists e1, call x w1 = Err e1.
Proof.
  intros S K E. destruct (call x w1) as [u|e1] eqn:E1; [|eauto]. destruct (known_insensitive x w1 (known_same w w1 S K) w u (same_wc_sym _ _ S) E1) as (u1 & E2 & _). congruence.
Qed.
(** With parameters given by the user *)
Lemma translate_same w w1 t p u : same_wc w w1 -> known_wc w -> fst (Wc.translate float_of_str treg_ w t p) = Ok u ->
  exists u1, fst (Wc.translate float_of_str treg_ w1 t p) = Ok u1 /\ same_wc u u1.
Proof.
  intros S K. pose proof S as (E & B & _ & C & _). pose proof (installed_fine (STranslate t) w) as F. cbn [fn_of] in F. unfold Wc.translate. rewrite <- E, <- B.
  destruct (reg_lookup treg_ (wc_eft w, wc_basis w, t)) as [tr|] eqn:L; [|discriminate]. apply convert_same; [exact S|]. intros d D.
  destruct (same_wc_dict _ _ _ d S D) as (_ & _ & Wd & _). exact (proj1 (F _ eq_refl d Wd (known_dict w d C K D))).
Qed.
Lemma match_same_wc w w1 e t p u : same_wc w w1 -> known_wc w -> fst (Wc.wmatch float_of_str mreg_ w e t p) = Ok u ->
  exists u1, fst (Wc.wmatch float_of_str mreg_ w1 e t p) = Ok u1 /\ same_wc u u1.
Proof.
  intros S K. pose proof S as (E & B & _ & C & _). pose proof (installed_fine (SMatch e t) w) as F. cbn [fn_of] in F. unfold Wc.wmatch. rewrite <- E, <- B.
  destruct (reg_lookup mreg_ (wc_eft w, wc_basis w, e, t)) as [tr|] eqn:L; [|discriminate]. apply convert_same; [exact S|]. intros d D.
  destruct (same_wc_dict _ _ _ d S D) as (_ & _ & Wd & _). exact (proj1 (F _ eq_refl d Wd (known_dict w d C K D))).
Qed.
End Inst.
