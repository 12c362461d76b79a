(** The installed package: the translators and matchers as translators/__init__.py and
    matchers/__init__.py register them, used through WC.translate and WC.match. *)
From Coq Require Import String List Bool Arith Reals.
From Verif Require Import PyBase PyDict Cplx Tensor Wc WetN Params Smeft SmeftNames SmeftReg Match WetExpr Wet WetJms WetNf WetSpec WetChk WetThm WetAux MatchWet FlavorKit.
Import ListNotations.
Open Scope string_scope.
Open Scope list_scope.
Open Scope nat_scope.
#[local] Opaque Ceq_dec.
#[local] Opaque JMS_to_Bern_prog JMS_to_flavio_prog JMS_to_FormFlavor_prog JMS_to_EOS_prog Bern_to_flavio_prog flavio_to_Bern_prog.
#[local] Opaque nf nf_ok deqb leqb mirror_names.
#[local] Opaque nJB nJF nJX nJE nBF nFB bern_read flavio_read bern flavio eos formflavor.

Local Notation nonzero := Wc.nonzero.
(** ** Dictionaries without their zeros *)
Lemma num_of_nonzero d k : wf d -> num_of (filter nonzero d) k = num_of d k.
Proof.
  intros W. unfold num_of. rewrite filter_values by auto. destruct (dget d k); auto.
  destruct (Ceq_dec c C0); auto.
Qed.
Lemma key_filter_nonzero keys d : key_filter keys (filter nonzero d) = filter nonzero (key_filter keys d).
Proof.
  unfold key_filter. induction d as [|[k z] t IH]; auto. cbn [filter].
  destruct (nonzero (k, z)) eqn:N; cbn [filter fst]; destruct (mem k keys); cbn [filter]; rewrite ?N, IH; reflexivity.
Qed.
Lemma nonzero_idem d : filter nonzero (filter nonzero d) = filter nonzero d.
Proof.
  induction d as [|x t IH]; auto. cbn [filter]. destruct (nonzero x) eqn:N; auto. cbn [filter]. rewrite N, IH. reflexivity.
Qed.
Lemma num_of_keys d keys k : wf d -> num_of (key_filter keys d) k = if mem k keys then num_of d k else C0.
Proof.
  intros W. unfold num_of. rewrite (proj1 (proj2 (key_filter_spec keys d W))). destruct (mem k keys); auto.
Qed.

Section Package.
(** [float(s)] for strings, ckmutil's ckm_tree and the singular values of msvd, the running parameters:
    not part of /repo. *)
Variable float_of_str : string -> option R.
Variable ckm_tree : R -> R -> R -> R -> mat.
Variable msvd_values : mat -> fl -> C.
Variable qcd_mb qcd_ms : R -> R -> R -> res R.
Variable qcd_as : R -> R -> res R.
(** [Basis[eft, basis].all_wcs]: the basis files are not part of /repo.  Assumed loaded. *)
Variable all_wcs_of : string -> string -> list string.
(** What becomes of results that contain NaN: not modelled. *)
Variable with_nan : dict string cval -> res (dict string C).
Definition plain (o : res (dict string cval)) : res (dict string C) :=
  let! d := o in match sequence (map (fun kv : string * cval => match snd kv with Some z => Ok (fst kv, z) | None => Err ValueError end) d) with
                 | Ok n => Ok n | Err _ => with_nan d end.
Lemma plain_nums o : plain (Ok (nums o)) = Ok o.
Proof.
  unfold plain. cbn [bind]. assert (sequence (map (fun kv : string * cval => match snd kv with Some z => Ok (fst kv, z) | None => Err ValueError end) (nums o)) = Ok o) as ->; auto.
  induction o as [|[k z] t IH]; auto. change (nums ((k, z) :: t)) with ((k, Some z) :: nums t). cbn [map sequence fst snd]. rewrite IH. reflexivity.
Qed.
Notation W := (all_wcs_of "SMEFT" "Warsaw").
Notation U := (all_wcs_of "SMEFT" "Warsaw up").
Notation J := (all_wcs_of "WET" "JMS").
Notation B := (all_wcs_of "WET" "Bern").
Notation F := (all_wcs_of "WET" "flavio").

(** ** translators/__init__.py *)
(** 21-23, 26-28, 31-33 *)
Definition reg_JMS_flavio : convfun := fun c scale p => plain (JMS_to_flavio ckm_tree qcd_mb qcd_ms qcd_as J (nums c) scale p).
(** 36-38, 46-48, 56-58 *)
Definition reg_Bern_flavio : convfun := fun c scale p => plain (Bern_to_flavio ckm_tree qcd_mb qcd_ms qcd_as B (nums c) scale p).
(** 41-43, 51-53, 61-63 *)
Definition reg_flavio_Bern : convfun := fun c scale p => plain (flavio_to_Bern ckm_tree qcd_mb qcd_ms qcd_as F (nums c) scale p).
(** 66-68 *)
Definition reg_JMS_EOS : convfun := fun c scale p => plain (JMS_to_EOS ckm_tree qcd_mb qcd_ms qcd_as J (nums c) scale p).
(** 71-73, 76-78, 81-83 *)
Definition reg_JMS_Bern : convfun := fun c scale p => plain (JMS_to_Bern ckm_tree qcd_mb qcd_ms qcd_as J (nums c) scale p).
(** 86-88 *)
Definition reg_JMS_formflavor : convfun := fun c scale p => plain (JMS_to_FormFlavor ckm_tree qcd_mb qcd_ms qcd_as J (nums c) scale p).
(** 91-93 *)
Definition reg_FlavorKit_JMS : convfun := fun c scale p => FlavorKit_to_JMS qcd_mb qcd_ms qcd_as c scale p.
(** 96-98 *)
Definition reg_JMS_FlavorKit : convfun := fun c scale p => JMS_to_FlavorKit qcd_mb qcd_ms qcd_as c scale p.
(** 101-104 *)
Definition reg_FlavorKit_flavio : convfun := fun c scale p =>
  let! j := FlavorKit_to_JMS qcd_mb qcd_ms qcd_as c scale p in plain (JMS_to_flavio ckm_tree qcd_mb qcd_ms qcd_as J (nums j) scale p).
(** The decorated functions in the order of the file; the first three are lines 6-18. *)
Definition translators : list (string * string * string * convfun) :=
  [("SMEFT", "Warsaw", "Warsaw mass", tr_warsawmass ckm_tree msvd_values);
   ("SMEFT", "Warsaw", "Warsaw up", tr_warsaw_up ckm_tree U);
   ("SMEFT", "Warsaw up", "Warsaw", tr_up_warsaw ckm_tree W);
   ("WET", "JMS", "flavio", reg_JMS_flavio);
   ("WET-4", "JMS", "flavio", reg_JMS_flavio);
   ("WET-3", "JMS", "flavio", reg_JMS_flavio);
   ("WET", "Bern", "flavio", reg_Bern_flavio);
   ("WET", "flavio", "Bern", reg_flavio_Bern);
   ("WET-4", "Bern", "flavio", reg_Bern_flavio);
   ("WET-4", "flavio", "Bern", reg_flavio_Bern);
   ("WET-3", "Bern", "flavio", reg_Bern_flavio);
   ("WET-3", "flavio", "Bern", reg_flavio_Bern);
   ("WET", "JMS", "EOS", reg_JMS_EOS);
   ("WET", "JMS", "Bern", reg_JMS_Bern);
   ("WET-4", "JMS", "Bern", reg_JMS_Bern);
   ("WET-3", "JMS", "Bern", reg_JMS_Bern);
   ("WET", "JMS", "formflavor", reg_JMS_formflavor);
   ("WET", "FlavorKit", "JMS", reg_FlavorKit_JMS);
   ("WET", "JMS", "FlavorKit", reg_JMS_FlavorKit);
   ("WET", "FlavorKit", "flavio", reg_FlavorKit_flavio)].
(** Translator.instances after the import *)
Definition installed : treg :=
  fold_left (fun r x => new_translator r (fst (fst (fst x))) (snd (fst (fst x))) (snd (fst x)) (snd x)) translators None.

(** ** matchers/__init__.py *)
(** 5-7 *)
Definition reg_up_jms : convfun := fun c _ p => warsaw_up_to_jms ckm_tree J p c.
(** 10-13 *)
Definition reg_warsaw_jms : convfun := fun c _ p => warsaw_to_jms ckm_tree U J p c.
(** 16-20 *)
Definition reg_warsaw_flavio : convfun := fun c scale p => plain (warsaw_to_flavio ckm_tree qcd_mb qcd_ms qcd_as U J scale p c).
(** 23-27 *)
Definition reg_warsaw_eos : convfun := fun c scale p => plain (warsaw_to_eos ckm_tree qcd_mb qcd_ms qcd_as U J scale p c).
(** 30-34 *)
Definition reg_warsaw_bern : convfun := fun c scale p => plain (warsaw_to_bern ckm_tree qcd_mb qcd_ms qcd_as U J scale p c).
(** 37-76: the bodies of the seven matchers inside the WET *)
Definition reg_filter (eft basis : string) : convfun := fun c _ _ => Ok (key_filter (all_wcs_of eft basis) c).
Definition matchers : list (string * string * string * string * convfun) :=
  [("SMEFT", "Warsaw up", "WET", "JMS", reg_up_jms);
   ("SMEFT", "Warsaw", "WET", "JMS", reg_warsaw_jms);
   ("SMEFT", "Warsaw", "WET", "flavio", reg_warsaw_flavio);
   ("SMEFT", "Warsaw", "WET", "EOS", reg_warsaw_eos);
   ("SMEFT", "Warsaw", "WET", "Bern", reg_warsaw_bern);
   ("WET", "flavio", "WET-4", "flavio", reg_filter "WET-4" "flavio");
   ("WET-4", "flavio", "WET-3", "flavio", reg_filter "WET-3" "flavio");
   ("WET", "Bern", "WET-4", "Bern", reg_filter "WET-4" "Bern");
   ("WET-4", "Bern", "WET-3", "Bern", reg_filter "WET-3" "Bern");
   ("WET", "JMS", "WET-4", "JMS", reg_filter "WET-4" "JMS");
   ("WET-4", "JMS", "WET-3", "JMS", reg_filter "WET-3" "JMS");
   ("WET-3", "JMS", "WET-2", "JMS", reg_filter "WET-2" "JMS")].
(** Matcher.instances after the import *)
Definition installed_m : mreg :=
  fold_left (fun r x => new_matcher r (fst (fst (fst (fst x)))) (snd (fst (fst (fst x)))) (snd (fst (fst x))) (snd (fst x)) (snd x)) matchers None.

Lemma installed_ok : treg_ok installed.
Proof. exact (proj1 (registries_ok translators [])). Qed.
Lemma installed_m_ok : mreg_ok installed_m.
Proof. exact (proj2 (registries_ok [] matchers)). Qed.
Notation translate := (Wc.translate float_of_str installed).
Notation wmatch := (Wc.wmatch float_of_str installed_m).
Notation wc_dict := (Wc.wc_dict float_of_str).

(** ** What is available *)
Lemma installed_keys : exists d, installed = Some d /\ dkeys d = map fst translators.
Proof. eexists. split; reflexivity. Qed.
Lemma installed_m_keys : exists d, installed_m = Some d /\ dkeys d = map fst matchers.
Proof. eexists. split; reflexivity. Qed.
Lemma lookup_key {A D} `{Key A} (d : dict A D) k : (exists v, reg_lookup (Some d) k = Ok v) <-> In k (dkeys d).
Proof.
  unfold reg_lookup, dlookup. destruct (dget d k) as [v|] eqn:E.
  - split; [intros _; eapply dget_Some_key; eauto|eauto].
  - apply dget_None in E. split; [intros [v X]; discriminate|contradiction].
Qed.
Lemma offered o t : (exists tr, reg_lookup installed (wc_eft o, wc_basis o, t) = Ok tr) <-> In (wc_eft o, wc_basis o, t) (map fst translators).
Proof. destruct installed_keys as (d & -> & <-). apply lookup_key. Qed.
Lemma offered_m o e t : (exists tr, reg_lookup installed_m (wc_eft o, wc_basis o, e, t) = Ok tr) <-> In (wc_eft o, wc_basis o, e, t) (map fst matchers).
Proof. destruct installed_m_keys as (d & -> & <-). apply lookup_key. Qed.
Lemma refused o t p : ~ In (wc_eft o, wc_basis o, t) (map fst translators) -> translate o t p = (Err ValueError, o).
Proof.
  intros N. rewrite <- offered in N. destruct (reg_lookup installed (wc_eft o, wc_basis o, t)) as [tr|x] eqn:E; [elim N; eauto|].
  exact (proj1 (translate_spec float_of_str installed o t p installed_ok) x E).
Qed.
Lemma refused_m o e t p : ~ In (wc_eft o, wc_basis o, e, t) (map fst matchers) -> wmatch o e t p = (Err ValueError, o).
Proof.
  intros N. rewrite <- offered_m in N. destruct (reg_lookup installed_m (wc_eft o, wc_basis o, e, t)) as [tr|x] eqn:E; [elim N; eauto|].
  exact (proj1 (match_spec float_of_str installed_m o e t p installed_m_ok) x E).
Qed.

(** ** What is done *)
Lemma convert_eq fn e t o p c out : fst (wc_dict o) = Ok c -> fn c (wc_scale o) p = Ok out ->
  fst (convert float_of_str fn e t o p) = Ok (new_wc e t (wc_scale o) (dict2values (filter nonzero out))).
Proof.
  intros D E. unfold convert. destruct (wc_dict o) as [d' o'] eqn:X. simpl in D; subst d'.
  assert (wc_scale o' = wc_scale o) as S.
  { unfold Wc.wc_dict in X. destruct (wc_cache o); [congruence|].
    destruct (values2dict float_of_str (wc_values o)); congruence || (injection X; intros; subst; auto). }
  rewrite S. simpl. rewrite E. reflexivity.
Qed.
Lemma new_dict e t s d : fst (wc_dict (new_wc e t s (dict2values d))) = Ok d.
Proof. unfold Wc.wc_dict. cbn [new_wc wc_cache wc_values]. rewrite values_roundtrip. reflexivity. Qed.
Lemma translate_eq e f t fn o p c out : reg_lookup installed (e, f, t) = Ok (Translator e f t fn) -> wc_eft o = e -> wc_basis o = f ->
  fst (wc_dict o) = Ok c -> fn c (wc_scale o) p = Ok out ->
  fst (translate o t p) = Ok (new_wc e t (wc_scale o) (dict2values (filter nonzero out))).
Proof.
  intros L <- <- D E. rewrite (proj2 (translate_spec float_of_str installed o t p installed_ok) _ L). exact (convert_eq fn _ _ o p c out D E).
Qed.
Lemma match_eq e f e' t fn o p c out : reg_lookup installed_m (e, f, e', t) = Ok (Matcher e f e' t fn) -> wc_eft o = e -> wc_basis o = f ->
  fst (wc_dict o) = Ok c -> fn c (wc_scale o) p = Ok out ->
  fst (wmatch o e' t p) = Ok (new_wc e' t (wc_scale o) (dict2values (filter nonzero out))).
Proof.
  intros L <- <- D E. rewrite (proj2 (match_spec float_of_str installed_m o e' t p installed_m_ok) _ L). exact (convert_eq fn _ _ o p c out D E).
Qed.
Lemma translate_fails e f t fn o p c x : reg_lookup installed (e, f, t) = Ok (Translator e f t fn) -> wc_eft o = e -> wc_basis o = f ->
  fst (wc_dict o) = Ok c -> fn c (wc_scale o) p = Err x -> fst (translate o t p) = Err x.
Proof.
  intros L <- <- D E. rewrite (proj2 (translate_spec float_of_str installed o t p installed_ok) _ L).
  exact (proj2 (convert_err float_of_str fn (wc_eft o) t o p) c x D E).
Qed.
Lemma match_fails e f e' t fn o p c x : reg_lookup installed_m (e, f, e', t) = Ok (Matcher e f e' t fn) -> wc_eft o = e -> wc_basis o = f ->
  fst (wc_dict o) = Ok c -> fn c (wc_scale o) p = Err x -> fst (wmatch o e' t p) = Err x.
Proof.
  intros L <- <- D E. rewrite (proj2 (match_spec float_of_str installed_m o e' t p installed_m_ok) _ L).
  exact (proj2 (convert_err float_of_str fn e' t o p) c x D E).
Qed.
End Package.
