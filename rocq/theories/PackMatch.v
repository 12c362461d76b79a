(** Dropping zero coefficients does not change what the SMEFT functions compute, and what this means for
    WC.translate and WC.match, which drop them. *)
From Coq Require Import String List Bool Arith Reals Lra FunctionalExtensionality.
From Verif Require Import PyBase PyDict Cplx Tensor SmeftSyntax SmeftTab Wc WetN Params Smeft SmeftSpec SmeftNames SmeftRot SmeftWarsaw SmeftIll SmeftMass SmeftReg
  MatchOps MatchTab Match MatchSpec MatchFacts MatchRot MatchThm MatchSm MatchLin MatchWarsaw MatchExch MatchMix MatchEx MatchUser
  WetExpr Wet WetJms WetNf WetSpec WetChk WetThm WetAux MatchWet FlavorKit Package PackWet.
Import ListNotations.
Open Scope string_scope.
Open Scope list_scope.
Open Scope nat_scope.
#[local] Opaque WC_keys C_keys_shape Ceq_dec.
#[local] Opaque nf nf_ok deqb leqb mirror_names.
#[local] Opaque nJB nJF nJX nJE nBF nFB bern_read flavio_read bern flavio eos formflavor.
Local Notation nonzero := Wc.nonzero.

(** ** The matching formulas *)
Lemma table_g k p A B : g0 A = g0 B -> g2 A = g2 B -> g4 A = g4 B -> forall op f, In (op, f) match_tab -> f k p A = f k p B.
Proof.
  intros E0 E2 E4 op f I. unfold match_tab in I. cbn [In] in I.
  repeat (destruct I as [I|I]; [injection I as <- <-; match goal with |- ?m k p A = _ => unfold m end;
    unfold wl, wq, wr, znu, zel, zer, zul, zur, zdl, zdr; rewrite ?E0, ?E2, ?E4; reflexivity|]). contradiction.
Qed.
Lemma match_array_g A B p : g0 A = g0 B -> g2 A = g2 B -> g4 A = g4 B -> match_all_array A p = match_all_array B p.
Proof.
  intros E0 E2 E4. destruct (gs_zero A) as (A0 & A2 & A4). destruct (gs_zero B) as (B0 & B2 & B4).
  assert (forall X Y, g0 X = g0 Y -> g2 X = g2 Y -> g4 X = g4 Y -> weak X p (vT X p) = weak Y p (vT Y p)) as Wk.
  { intros X Y F0 F2 F4. unfold weak, vT, gfx, eps, phiWB. rewrite F0, F2, F4. reflexivity. }
  assert (forall X Y k, g0 X = g0 Y -> with_gz X k = with_gz Y k) as Gz.
  { intros X Y k F0. unfold with_gz, phiWB. rewrite F0. reflexivity. }
  assert (g0 (dmap azero A) = g0 (dmap azero B)) as Z0 by congruence.
  assert (g2 (dmap azero A) = g2 (dmap azero B)) as Z2 by congruence.
  assert (g4 (dmap azero A) = g4 (dmap azero B)) as Z4 by congruence.
  unfold match_all_array. rewrite (Wk _ _ E0 E2 E4), (Wk _ _ Z0 Z2 Z4).
  destruct (weak B p (vT B p)) as [k|]; [|reflexivity]. cbn [bind].
  destruct (weak (dmap azero B) p (vT (dmap azero B) p)) as [k0|]; [|reflexivity]. cbn [bind].
  rewrite (Gz _ _ k E0), (Gz _ _ k0 Z0). destruct (with_gz B k) as [k'|]; [|reflexivity]. cbn [bind].
  destruct (Req_EM_T (param p "m_Z") 0); [reflexivity|].
  destruct (with_gz (dmap azero B) k0) as [k0'|]; [|reflexivity]. cbn [bind]. f_equal.
  apply map_ext_in. intros [op f] I. cbn [fst snd].
  rewrite (table_g k' p A B E0 E2 E4 op f I), (table_g k0' p _ _ Z0 Z2 Z4 op f I). reflexivity.
Qed.
Lemma good_nonzero d : good_dict d -> good_dict (filter nonzero d).
Proof.
  intros [W G]. split; [apply PyDict.wf_filter; auto|]. intros k I. apply G. unfold dkeys in *.
  apply in_map_iff in I. destruct I as (kv & E & I). apply filter_In in I. apply in_map_iff. exists kv; tauto.
Qed.
Lemma dval_nonzero d k : wf d -> dval (filter nonzero d) k = dval d k.
Proof. exact (num_of_nonzero d k). Qed.
Lemma array_same d d' op s : (forall k, dval d' k = dval d k) -> array_in d' op s = array_in d op s.
Proof. intros H. unfold array_in. destruct s; cbn [arr_of]; f_equal; auto; [apply mat_ext|apply ten_ext]; intros; apply H. Qed.
(** The arrays that are read *)
Lemma read_same d d' c c' op : good_dict d -> good_dict d' -> (forall k, dval d' k = dval d k) -> read_smeft d = Ok c -> read_smeft d' = Ok c' ->
  dget (add_missing c') op = dget (add_missing c) op.
Proof.
  intros G G' H E E'. rewrite !add_missing_get, (read_get _ _ op G E), (read_get _ _ op G' E').
  destruct (op_shape op) as [s|] eqn:S; [|reflexivity]. rewrite (array_same d d' op s H).
  change (mem op WC_keys) with (is_wc op). destruct (is_wc op) eqn:M; [|reflexivity]. cbn [andb].
  assert (forall d0, (forall k, dval d0 k = dval d k) -> touched d0 op = false -> symm1 op (array_in d op s) = zeros s) as Z.
  { intros d0 H0 T. rewrite (array_zero d op s).
    - apply (symm1_fix s); auto using MatchFacts.zeros_symm, fits_zeros.
    - intros x. rewrite <- H0. unfold dval. rewrite untouched_dval by eauto using shape_no_us. reflexivity. }
  destruct (touched d' op) eqn:T', (touched d op) eqn:T; auto.
  - rewrite (Z d (fun _ => eq_refl) T). reflexivity.
  - rewrite (Z d' H T'). reflexivity.
Qed.
Lemma read_ok d : good_dict d -> exists c, read_smeft d = Ok c.
Proof.
  intros G. destruct (wcxf2arrays_good d G) as (c0 & H & Rc). unfold read_smeft. rewrite H. cbn [bind].
  rewrite symmetrize_spec by exact (represents_typed _ _ Rc). eauto.
Qed.
Lemma filter_flat {X Y} (f : Y -> bool) (g : X -> list Y) l : filter f (flat_map g l) = flat_map (fun x => filter f (g x)) l.
Proof. induction l as [|x t IH]; auto. cbn [flat_map]. rewrite filter_app, IH. reflexivity. Qed.
Lemma filter_comm {X} (f g : X -> bool) l : filter f (filter g l) = filter g (filter f l).
Proof.
  induction l as [|x t IH]; auto. cbn [filter]. destruct (g x) eqn:G, (f x) eqn:F; cbn [filter]; rewrite ?G, ?F, IH; reflexivity.
Qed.
Section Same.
Variable ckm_tree : R -> R -> R -> R -> mat.
(** Which names G and Gtilde get does not matter if they are zero. *)
Lemma matched_zero p c c' w op z : matched ckm_tree p c = Ok w -> In (op, A0 z) w -> dget (add_missing c') op = dget (add_missing c) op ->
  dmem c op <> dmem c' op -> z = C0.
Proof.
  intros M I S N. destruct (matched_inv _ _ _ _ M) as (w0 & M0 & Rd & K).
  assert (wf w) as W by (unfold wf; rewrite K; apply match_names_NoDup).
  pose proof (In_dget _ op (A0 z) W I) as D. destruct (matched_fits _ _ _ _ _ _ M D) as (s & Sh & F). destruct s; try contradiction.
  assert (~ In op rd_names) as Nr.
  { intros J. pose proof rd_names_four as R4. rewrite forallb_forall in R4. specialize (R4 _ J). rewrite Sh in R4. discriminate. }
  rewrite (rotate_down_rest _ _ _ _ Rd Nr) in D. destruct (match_array_inv _ _ _ M0) as (k & k0 & ->). apply dget_In in D.
  apply in_map_iff in D. destruct D as ([o f] & E & If). injection E as <- E. cbn [fst snd] in E.
  assert (g0 (add_missing c) o = C0) as Zc.
  { unfold g0. destruct (dget (add_missing c) o) as [[x|m|t]|] eqn:Dc; auto. rewrite add_missing_get in Dc, S.
    unfold dmem in N. destruct (dget c o) as [v|] eqn:C1, (dget c' o) as [v'|] eqn:C2; try congruence.
    - destruct (mem o WC_keys); [|congruence]. destruct (op_shape o) as [[]|]; cbn [zeros] in S; congruence.
    - destruct (mem o WC_keys); [|congruence]. destruct (op_shape o) as [[]|]; cbn [zeros] in Dc; congruence. }
  clear - E If Zc. unfold match_tab in If. cbn [In] in If.
  repeat (destruct If as [If|If]; [injection If as <- <-; first [discriminate E|
    unfold m_G, m_Gtilde in E; cbn [asub] in E; rewrite Zc, (g0_blank (dmap azero (add_missing c))) in E by apply azero_blank; injection E as <-; ring]|]).
  contradiction.
Qed.
Theorem match_same J d d' input : good_dict d -> good_dict d' -> (forall k, dval d' k = dval d k) ->
  match match_all ckm_tree J d input, match_all ckm_tree J d' input with
  | Ok o, Ok o' => filter nonzero o' = filter nonzero o
  | Err x, Err x' => x' = x
  | _, _ => False end.
Proof.
  intros G G' H. destruct (read_ok d G) as (c & E). destruct (read_ok d' G') as (c' & E').
  pose proof (fun op => read_same d d' c c' op G G' H E E') as S.
  assert (matched ckm_tree (merge_params input) c' = matched ckm_tree (merge_params input) c) as M.
  { unfold matched. rewrite (match_array_g (add_missing c') (add_missing c)); auto; apply functional_extensionality; intros op; unfold g0, g2, g4; rewrite S; reflexivity. }
  unfold match_all. rewrite E, E'. cbn [bind]. rewrite M. destruct (matched ckm_tree (merge_params input) c) as [w|x] eqn:Mw; cbn [bind]; [|reflexivity].
  destruct (matched_inv _ _ _ _ Mw) as (_ & _ & _ & K).
  assert (wf w) as W by (unfold wf; rewrite K; apply match_names_NoDup).
  assert (MatchThm.plain w) as P by (intros k I; rewrite K in I; apply match_names_plain; auto).
  unfold key_filter. rewrite !(filter_comm nonzero). f_equal. unfold out_names. rewrite !dict_of_wf by (apply flat_out_NoDup; auto).
  rewrite !filter_flat. rewrite !flat_map_concat_map. f_equal. apply map_ext_in. intros [op v] I.
  destruct v as [z|m|t]; try reflexivity. unfold out_entries. cbn [fst snd].
  destruct (dmem c op) eqn:D, (dmem c' op) eqn:D'; try reflexivity; cbn [negb];
  (assert (z = C0) as -> by (apply (matched_zero _ c c' w op z Mw I (S op)); congruence)); cbn [entries filter]; unfold Wc.nonzero; cbn [snd];
  destruct (Ceq_dec C0 C0); congruence.
Qed.
(** The rotation to and from the Warsaw up basis *)
Lemma touched_zero d op s : op_shape op = Some s -> touched d op = false -> forall x, dval d (sname op x) = C0.
Proof. intros S T x. unfold dval. rewrite untouched_dval by eauto using shape_no_us. reflexivity. Qed.
Lemma rotate_same V d d' r r' : good_dict d -> good_dict d' -> (forall k, dval d' k = dval d k) -> rotate_q V d = Ok r -> rotate_q V d' = Ok r' ->
  forall k, dval r' k = dval r k.
Proof.
  intros G G' H E E' k.
  assert (forall d0 r0, good_dict d0 -> (forall k, dval d0 k = dval d k) -> rotate_q V d0 = Ok r0 -> forall op s x, op_shape op = Some s -> In x (idxs s) ->
    dval r0 (sname op x) = if is_wc op then entry (rot1 (uq_only V) (op_rot op) (symm1 op (array_in d op s))) x else C0) as A.
  { intros d0 r0 G0 H0 E0 op s x S I. unfold dval. rewrite (rotate_q_get V d0 r0 op s x G0 E0 S I). destruct (is_wc op) eqn:M; auto. cbn [andb].
    rewrite (array_same d d0 op s H0). destruct (touched d0 op) eqn:T; auto.
    rewrite (array_zero d op s) by (intros y; rewrite <- H0; apply (touched_zero d0 op s S T)).
    rewrite (symm1_fix s) by auto using MatchFacts.zeros_symm, fits_zeros. rewrite rot1_zeros, entry_zeros. reflexivity. }
  assert (good_name k -> dval r' k = dval r k) as K.
  { intros (op & s & x & S & I & ->). rewrite (A d r G (fun _ => eq_refl) E op s x), (A d' r' G' H E' op s x) by auto. reflexivity. }
  unfold dval in *. destruct (dget r k) as [z|] eqn:D; [apply K; apply (proj2 (rotate_q_good V d r G E)); exact (dget_Some_key _ _ _ D)|].
  destruct (dget r' k) as [z'|] eqn:D'; [|reflexivity]. apply K. apply (proj2 (rotate_q_good V d' r' G' E')). exact (dget_Some_key _ _ _ D').
Qed.
Lemma rotate_ok V d : good_dict d -> exists r, rotate_q V d = Ok r.
Proof. intros G. destruct (rotate_q_spec V d G) as (c & r & _ & _ & _ & _ & E & _). eauto. Qed.
Lemma dval_keys ks d k : wf d -> dval (key_filter ks d) k = if mem k ks then dval d k else C0.
Proof. intros W. unfold dval. rewrite key_filter_get by auto. destruct (mem k ks); reflexivity. Qed.
End Same.

(** ** A user of the package *)
Section User.
Variable float_of_str : string -> option R.
Variable ckm_tree : R -> R -> R -> R -> mat.
Variable msvd_values : mat -> fl -> C.
Variable qcd_mb qcd_ms : R -> R -> R -> res R.
Variable qcd_as : R -> R -> res R.
Variable all_wcs_of : string -> string -> list string.
Variable with_nan : dict string cval -> res (dict string C).
Notation W := (all_wcs_of "SMEFT" "Warsaw").
Notation U := (all_wcs_of "SMEFT" "Warsaw up").
Notation J := (all_wcs_of "WET" "JMS").
Notation translate := (Wc.translate float_of_str (installed ckm_tree msvd_values qcd_mb qcd_ms qcd_as all_wcs_of with_nan)).
Notation wmatch := (Wc.wmatch float_of_str (installed_m ckm_tree qcd_mb qcd_ms qcd_as all_wcs_of with_nan)).
Notation wc_dict := (Wc.wc_dict float_of_str).
Notation okp := (okp ckm_tree qcd_mb qcd_ms qcd_as).
Lemma convert_run fn e t o p : fst (convert float_of_str fn e t o p) =
  let! c := fst (wc_dict o) in let! out := fn c (wc_scale o) p in Ok (result e t (wc_scale o) out).
Proof.
  destruct (fst (wc_dict o)) as [c|x] eqn:D; cbn [bind].
  - destruct (fn c (wc_scale o) p) as [out|x] eqn:E; cbn [bind]; [exact (convert_eq float_of_str fn e t o p c out D E)|].
    exact (proj2 (convert_err float_of_str fn e t o p) c x D E).
  - exact (proj1 (convert_err float_of_str fn e t o p) x D).
Qed.
Lemma translate_run e f t fn o p : reg_lookup (installed ckm_tree msvd_values qcd_mb qcd_ms qcd_as all_wcs_of with_nan) (e, f, t) = Ok (Translator e f t fn) ->
  wc_eft o = e -> wc_basis o = f -> fst (translate o t p) = let! c := fst (wc_dict o) in let! out := fn c (wc_scale o) p in Ok (result e t (wc_scale o) out).
Proof.
  intros L <- <-. rewrite (proj2 (translate_spec float_of_str _ o t p (installed_ok ckm_tree msvd_values qcd_mb qcd_ms qcd_as all_wcs_of with_nan)) _ L). apply convert_run.
Qed.
Lemma match_run e f e' t fn o p : reg_lookup (installed_m ckm_tree qcd_mb qcd_ms qcd_as all_wcs_of with_nan) (e, f, e', t) = Ok (Matcher e f e' t fn) ->
  wc_eft o = e -> wc_basis o = f -> fst (wmatch o e' t p) = let! c := fst (wc_dict o) in let! out := fn c (wc_scale o) p in Ok (result e' t (wc_scale o) out).
Proof.
  intros L <- <-. rewrite (proj2 (match_spec float_of_str _ o e' t p (installed_m_ok ckm_tree qcd_mb qcd_ms qcd_as all_wcs_of with_nan)) _ L). apply convert_run.
Qed.
Lemma match_wf d input o : match_all ckm_tree J d input = Ok o -> wf o.
Proof. intros M. destruct (match_inv _ _ _ _ _ M) as (c & w & _ & _ & -> & _ & _). apply PyDict.wf_filter, out_wf. Qed.

(** Matching to flavio, Bern and EOS is matching to JMS and translating, errors included. *)
Section Then.
Hypothesis J_good : good J.
Variables (o : wc) (input : option params) (p : params).
Hypotheses (P : okp (wc_scale o) input p) (E : wc_eft o = "SMEFT") (Hb : wc_basis o = "Warsaw").
Lemma jms_wf c j : warsaw_to_jms ckm_tree U J input c = Ok j -> wf j.
Proof. intros H. destruct (jms_inv _ _ _ _ _ _ H) as (u & _ & M). exact (match_wf u input j M). Qed.
Lemma match_then (t : string) (fn : convfun) (n : list (string * lform)) :
  reg_lookup (installed_m ckm_tree qcd_mb qcd_ms qcd_as all_wcs_of with_nan) ("SMEFT", "Warsaw", "WET", t) = Ok (Matcher "SMEFT" "Warsaw" "WET" t fn) ->
  (forall w c, wc_scale w = wc_scale o -> fst (wc_dict w) = Ok c -> wc_eft w = "WET" -> wc_basis w = "JMS" ->
    fst (translate w t input) = Ok (result "WET" t (wc_scale w) (outJ ckm_tree n J c p))) ->
  (forall c, fn c (wc_scale o) input = let! j := warsaw_to_jms ckm_tree U J input c in Ok (outJ ckm_tree n J j p)) -> jdata n = true ->
  fst (wmatch o "WET" t input) = let! w := fst (wmatch o "WET" "JMS" input) in fst (translate w t input).
Proof.
  intros L T F Dn. rewrite (match_run _ _ _ _ fn o input L E Hb).
  rewrite (match_run "SMEFT" "Warsaw" "WET" "JMS" (reg_warsaw_jms ckm_tree all_wcs_of) o input eq_refl E Hb).
  destruct (fst (wc_dict o)) as [c|x]; [|reflexivity]. cbn [bind]. rewrite F. unfold reg_warsaw_jms.
  destruct (warsaw_to_jms ckm_tree U J input c) as [j|x] eqn:Ej; [|reflexivity]. cbn [bind].
  rewrite (T (result "WET" "JMS" (wc_scale o) j) _ eq_refl (result_dict float_of_str _ _ _ _) eq_refl eq_refl). cbn [result new_wc wc_scale].
  rewrite (outJ_num ckm_tree J p J_good n _ j Dn (fun k => num_of_nonzero j k (jms_wf c j Ej))). reflexivity.
Qed.
Theorem user_match_flavio : fst (wmatch o "WET" "flavio" input) = let! w := fst (wmatch o "WET" "JMS" input) in fst (translate w "flavio" input).
Proof.
  apply (match_then "flavio" (reg_warsaw_flavio ckm_tree qcd_mb qcd_ms qcd_as all_wcs_of with_nan) nJF eq_refl).
  - intros w c S D Ew Hw. rewrite (to_flavio_eq float_of_str ckm_tree msvd_values qcd_mb qcd_ms qcd_as all_wcs_of with_nan J_good w input p c (eq_ind_r (fun s => okp s input p) P S) D); [rewrite Ew; reflexivity| |exact Hw].
    rewrite Ew. left. reflexivity.
  - intros c. unfold reg_warsaw_flavio. rewrite (proj1 (via_jms ckm_tree qcd_mb qcd_ms qcd_as U J (wc_scale o) input c)).
    destruct (warsaw_to_jms ckm_tree U J input c) as [j|x]; [|reflexivity]. cbn [bind].
    rewrite (run_JF ckm_tree qcd_mb qcd_ms qcd_as J (wc_scale o) input p J_good P j). apply plain_nums.
  - exact nJF_data.
Qed.
Theorem user_match_Bern : fst (wmatch o "WET" "Bern" input) = let! w := fst (wmatch o "WET" "JMS" input) in fst (translate w "Bern" input).
Proof.
  apply (match_then "Bern" (reg_warsaw_bern ckm_tree qcd_mb qcd_ms qcd_as all_wcs_of with_nan) nJB eq_refl).
  - intros w c S D Ew Hw. rewrite (to_Bern_eq float_of_str ckm_tree msvd_values qcd_mb qcd_ms qcd_as all_wcs_of with_nan J_good w input p c (eq_ind_r (fun s => okp s input p) P S) D); [rewrite Ew; reflexivity| |exact Hw].
    rewrite Ew. left. reflexivity.
  - intros c. unfold reg_warsaw_bern. rewrite (proj2 (proj2 (via_jms ckm_tree qcd_mb qcd_ms qcd_as U J (wc_scale o) input c))).
    destruct (warsaw_to_jms ckm_tree U J input c) as [j|x]; [|reflexivity]. cbn [bind].
    rewrite (run_JB ckm_tree qcd_mb qcd_ms qcd_as J (wc_scale o) input p J_good P j). apply plain_nums.
  - exact nJB_data.
Qed.
Theorem user_match_EOS : light p -> fst (wmatch o "WET" "EOS" input) = let! w := fst (wmatch o "WET" "JMS" input) in fst (translate w "EOS" input).
Proof.
  intros L. apply (match_then "EOS" (reg_warsaw_eos ckm_tree qcd_mb qcd_ms qcd_as all_wcs_of with_nan) nJE eq_refl).
  - intros w c S D Ew Hw. exact (to_EOS_eq float_of_str ckm_tree msvd_values qcd_mb qcd_ms qcd_as all_wcs_of with_nan J_good w input p c (eq_ind_r (fun s => okp s input p) P S) D L Ew Hw).
  - intros c. unfold reg_warsaw_eos. rewrite (proj1 (proj2 (via_jms ckm_tree qcd_mb qcd_ms qcd_as U J (wc_scale o) input c))).
    destruct (warsaw_to_jms ckm_tree U J input c) as [j|x]; [|reflexivity]. cbn [bind].
    rewrite (run_JE ckm_tree qcd_mb qcd_ms qcd_as J (wc_scale o) input p J_good P j L). apply plain_nums.
  - exact nJE_data.
Qed.
End Then.

(** Through the Warsaw up basis: the translation uses the default CKM matrix. *)
Theorem user_match_up o input c : wc_eft o = "SMEFT" -> wc_basis o = "Warsaw" -> fst (wc_dict o) = Ok c -> good_dict c ->
  ckm_of ckm_tree (merge_params input) = ckm_of ckm_tree (merge_params None) ->
  fst (wmatch o "WET" "JMS" input) = let! w := fst (translate o "Warsaw up" input) in fst (wmatch w "WET" "JMS" input).
Proof.
  intros E Hb D G V.
  rewrite (match_run "SMEFT" "Warsaw" "WET" "JMS" (reg_warsaw_jms ckm_tree all_wcs_of) o input eq_refl E Hb), D. cbn [bind].
  rewrite (translate_run "SMEFT" "Warsaw" "Warsaw up" (tr_warsaw_up ckm_tree U) o input eq_refl E Hb), D. cbn [bind].
  unfold reg_warsaw_jms, tr_warsaw_up, warsaw_to_jms, warsaw_to_warsaw_up. rewrite V.
  destruct (rotate_ok (mdag (ckm_of ckm_tree (merge_params None))) c G) as (r & Er). rewrite Er. cbn [bind].
  rewrite (match_run "SMEFT" "Warsaw up" "WET" "JMS" (reg_up_jms ckm_tree all_wcs_of) (result "SMEFT" "Warsaw up" (wc_scale o) (key_filter U r)) input eq_refl eq_refl eq_refl).
  rewrite (result_dict float_of_str). cbn [bind result new_wc wc_scale]. unfold reg_up_jms, warsaw_up_to_jms.
  pose proof (good_filter U r (rotate_q_good _ _ _ G Er)) as Gf.
  pose proof (match_same ckm_tree J _ _ input Gf (good_nonzero _ Gf) (fun k => dval_nonzero _ k (proj1 Gf))) as M.
  destruct (match_all ckm_tree J (key_filter U r) input) as [j|x], (match_all ckm_tree J (filter nonzero (key_filter U r)) input) as [j'|x']; try contradiction; cbn [bind].
  - unfold result. rewrite M. reflexivity.
  - congruence.
Qed.

(** Up and back *)
Theorem user_up_down o input c : wc_eft o = "SMEFT" -> wc_basis o = "Warsaw" -> fst (wc_dict o) = Ok c -> good_dict c -> lists_kept U ->
  unitary (ckm_of ckm_tree (merge_params None)) ->
  exists w w' c', fst (translate o "Warsaw up" input) = Ok w /\ fst (translate w "Warsaw" input) = Ok w' /\ fst (wc_dict w') = Ok c' /\
  wc_eft w' = "SMEFT" /\ wc_basis w' = "Warsaw" /\ wc_scale w' = wc_scale o /\
  forall op s x, In op WC_keys -> op_shape op = Some s -> In x (idxs s) -> In (sname op x) W ->
    keeps op false x -> (keeps op true x \/ Im (num_of c (sname op x)) = 0%R) -> num_of c' (sname op x) = num_of c (sname op x).
Proof.
  intros E Hb D G L Un. destruct (translators_total ckm_tree None U c G) as [(u & Eu & Gu) _].
  destruct (translators_total ckm_tree None W (filter nonzero u) (good_nonzero u Gu)) as [_ (d' & Ed & Gd)].
  exists (result "SMEFT" "Warsaw up" (wc_scale o) u), (result "SMEFT" "Warsaw" (wc_scale o) d'), (filter nonzero d').
  split; [rewrite (translate_run "SMEFT" "Warsaw" "Warsaw up" (tr_warsaw_up ckm_tree U) o input eq_refl E Hb), D; cbn [bind]; unfold tr_warsaw_up; rewrite Eu; reflexivity|].
  split; [rewrite (translate_run "SMEFT" "Warsaw up" "Warsaw" (tr_up_warsaw ckm_tree W) (result "SMEFT" "Warsaw up" (wc_scale o) u) input eq_refl eq_refl eq_refl);
    rewrite (result_dict float_of_str); cbn [bind result new_wc wc_scale]; unfold tr_up_warsaw; rewrite Ed; reflexivity|].
  split; [apply result_dict|]. do 3 (split; [reflexivity|]). intros op s x M S I Iw K0 K1.
  destruct (translators_total ckm_tree None W u Gu) as [_ (d1 & E1 & G1)].
  destruct (up_down ckm_tree None W U c u d1 G L Un Eu E1) as (a & sy & Ha & Hs & K).
  refine (eq_trans (num_of_nonzero d' _ (proj1 Gd)) _).
  assert (num_of d' (sname op x) = num_of d1 (sname op x)) as ->.
  { unfold warsaw_up_to_warsaw in Ed, E1. destruct (rotate_q _ (filter nonzero u)) as [r'|] eqn:R'; [|discriminate].
    destruct (rotate_q _ u) as [r|] eqn:R; [|discriminate]. cbn [bind] in Ed, E1. apply Ok_inj in Ed, E1. subst d' d1.
    change (dval (key_filter W r') (sname op x) = dval (key_filter W r) (sname op x)).
    rewrite !dval_keys by (first [exact (proj1 (rotate_q_good _ _ _ Gu R))|exact (proj1 (rotate_q_good _ _ _ (good_nonzero u Gu) R'))]).
    rewrite (rotate_same _ u (filter nonzero u) r r' Gu (good_nonzero u Gu) (fun k => dval_nonzero u k (proj1 Gu)) R R'). reflexivity. }
  unfold num_of at 1. rewrite K, (proj2 (mem_In _ _ _) Iw). rewrite (symmetrised_dict_get c a sy op s x G Ha Hs M S I K0 K1).
  unfold num_of. destruct (dget c (sname op x)); auto. destruct (touched c op); reflexivity.
Qed.
Theorem user_down_up o input c : wc_eft o = "SMEFT" -> wc_basis o = "Warsaw up" -> fst (wc_dict o) = Ok c -> good_dict c -> lists_kept W ->
  unitary (ckm_of ckm_tree (merge_params None)) ->
  exists w w' c', fst (translate o "Warsaw" input) = Ok w /\ fst (translate w "Warsaw up" input) = Ok w' /\ fst (wc_dict w') = Ok c' /\
  wc_eft w' = "SMEFT" /\ wc_basis w' = "Warsaw up" /\ wc_scale w' = wc_scale o /\
  forall op s x, In op WC_keys -> op_shape op = Some s -> In x (idxs s) -> In (sname op x) U ->
    keeps op false x -> (keeps op true x \/ Im (num_of c (sname op x)) = 0%R) -> num_of c' (sname op x) = num_of c (sname op x).
Proof.
  intros E Hb D G L Un. destruct (translators_total ckm_tree None W c G) as [_ (u & Eu & Gu)].
  destruct (translators_total ckm_tree None U (filter nonzero u) (good_nonzero u Gu)) as [(d' & Ed & Gd) _].
  exists (result "SMEFT" "Warsaw" (wc_scale o) u), (result "SMEFT" "Warsaw up" (wc_scale o) d'), (filter nonzero d').
  split; [rewrite (translate_run "SMEFT" "Warsaw up" "Warsaw" (tr_up_warsaw ckm_tree W) o input eq_refl E Hb), D; cbn [bind]; unfold tr_up_warsaw; rewrite Eu; reflexivity|].
  split; [rewrite (translate_run "SMEFT" "Warsaw" "Warsaw up" (tr_warsaw_up ckm_tree U) (result "SMEFT" "Warsaw" (wc_scale o) u) input eq_refl eq_refl eq_refl);
    rewrite (result_dict float_of_str); cbn [bind result new_wc wc_scale]; unfold tr_warsaw_up; rewrite Ed; reflexivity|].
  split; [apply result_dict|]. do 3 (split; [reflexivity|]). intros op s x M S I Iw K0 K1.
  destruct (translators_total ckm_tree None U u Gu) as [(d1 & E1 & G1) _].
  destruct (down_up ckm_tree None W U c u d1 G L Un Eu E1) as (a & sy & Ha & Hs & K).
  refine (eq_trans (num_of_nonzero d' _ (proj1 Gd)) _).
  assert (num_of d' (sname op x) = num_of d1 (sname op x)) as ->.
  { unfold warsaw_to_warsaw_up in Ed, E1. destruct (rotate_q _ (filter nonzero u)) as [r'|] eqn:R'; [|discriminate].
    destruct (rotate_q _ u) as [r|] eqn:R; [|discriminate]. cbn [bind] in Ed, E1. apply Ok_inj in Ed, E1. subst d' d1.
    change (dval (key_filter U r') (sname op x) = dval (key_filter U r) (sname op x)).
    rewrite !dval_keys by (first [exact (proj1 (rotate_q_good _ _ _ Gu R))|exact (proj1 (rotate_q_good _ _ _ (good_nonzero u Gu) R'))]).
    rewrite (rotate_same _ u (filter nonzero u) r r' Gu (good_nonzero u Gu) (fun k => dval_nonzero u k (proj1 Gu)) R R'). reflexivity. }
  unfold num_of at 1. rewrite K, (proj2 (mem_In _ _ _) Iw). rewrite (symmetrised_dict_get c a sy op s x G Ha Hs M S I K0 K1).
  unfold num_of. destruct (dget c (sname op x)); auto. destruct (touched c op); reflexivity.
Qed.
End User.

(** ** With other CKM parameters *)
(** The rotation and the matching with different parameters *)
Lemma mixed_num ckm_tree V U J input d r o op s y : good_dict d -> no_shift d -> lists_reps U -> rotate_q V d = Ok r ->
  match_all ckm_tree J (key_filter U r) input = Ok o -> dget jms_slots op = Some s -> ~ In op rd_names -> In (cname op y) J -> length y = length s ->
  num_of o (cname op y) = entry (new_left is_quark V s (tree_of input d op)) y.
Proof.
  intros G N L Er M S Nu I Ly. destruct (match_inv _ _ _ _ _ M) as (c1 & w & R1 & Mw & _). destruct (read_ok d G) as (c0 & R0).
  destruct (matched_inv _ _ _ _ Mw) as (w0 & M0 & Rd & _).
  destruct (slots_shape op s S) as (Io & Sh). pose proof Io as Io'. rewrite <- (match_array_keys _ _ _ M0) in Io. apply key_dget in Io. destruct Io as (v0 & D0).
  destruct (match_quiet _ _ _ _ _ (match_array_sm _ _ _ M0) (up_quiet _ _ _ _ _ _ G Er L R0 R1 (no_shift_quiet d c0 G N R0)) M0 D0) as (sh & Ms & V0).
  assert (dget w op = Some v0) as Dw by (rewrite (rotate_down_rest _ _ _ _ Rd Nu); exact D0).
  rewrite (match_num ckm_tree J _ input o c1 w op v0 y M R1 Mw Dw I); [|destruct Sh as [[Z Ln]|[Z Ln]]; [left|right]; split; congruence].
  f_equal. unfold tree_of, coefficients. rewrite Ms, R0. rewrite V0. fold (weak_c (merge_params input)).
  destruct Sh as [[Sh Ln]|[Sh Ln]]; rewrite Sh in Ms; injection Ms as <-; unfold tree, new_left; f_equal.
  - rewrite (up4 _ _ _ _ _ _ G Er L R0 R1). destruct (dget tree4 op) as [f|] eqn:F; cbn [look].
    + apply dget_In in F. destruct (tree_lift V (g4 (add_missing c0)) op f F) as (s' & S' & _ & ->).
      assert (s' = s) as -> by congruence. reflexivity.
    + rewrite !left_zero4. reflexivity.
  - rewrite (up2 _ _ _ _ _ _ G Er L R0 R1). destruct (dget (tree2 _ _ _) op) as [f|] eqn:F; cbn [look].
    + apply dget_In in F. rewrite (tree_lift2 _ _ _ _ _ _ _ _ F S). reflexivity.
    + rewrite !left_zero2. reflexivity.
Qed.
Definition no_vus : option params := Some [("Vus", 0%R)].
Lemma no_vus_sm : sm_ok (merge_params no_vus).
Proof. exact default_sm. Qed.
Lemma sign_dip m : entry (new_left is_quark (Tensor.mdag (fun i j => Cneg (delta i j))) (dip MatchSpec.Dn) (A2 m)) [F1; F2] = Cneg (entry (A2 m) [F1; F2]).
Proof.
  cbv [entry new_left new_left2 dip is_quark on_slot2 SmeftSymm.of_mat]. cbv [S3 Tensor.mconj Tensor.mdag mT delta keqb Key_fl fl_eqb].
  rewrite ?Cconj_conj, ?Cconj_neg, ?Cconj_0, ?Cconj_1, ?Cconj_conj. ring.
Qed.
Lemma one_dip m : entry (new_left is_quark (mdag meye) (dip MatchSpec.Dn) (A2 m)) [F1; F2] = entry (A2 m) [F1; F2].
Proof.
  cbv [entry new_left new_left2 dip is_quark on_slot2 SmeftSymm.of_mat]. cbv [S3 Tensor.mconj Tensor.mdag mT delta meye keqb Key_fl fl_eqb].
  rewrite ?Cconj_conj, ?Cconj_neg, ?Cconj_0, ?Cconj_1, ?Cconj_conj. ring.
Qed.
(** Every CKM matrix that occurs is unitary, both ways succeed, and the results have opposite signs. *)
Theorem up_ckm_differs float_of_str msvd_values qcd_mb qcd_ms qcd_as with_nan lists : In "dgamma_12" (lists "WET" "JMS") -> lists "SMEFT" "Warsaw up" = kept_names ->
  let translate := Wc.translate float_of_str (installed sign_ckm msvd_values qcd_mb qcd_ms qcd_as lists with_nan) in
  let wmatch := Wc.wmatch float_of_str (installed_m sign_ckm qcd_mb qcd_ms qcd_as lists with_nan) in
  let o := new_wc "SMEFT" "Warsaw" 160 (dict2values dB_ex) in
  exists w1 w w2 d1 d2, fst (wmatch o "WET" "JMS" no_vus) = Ok w1 /\ fst (translate o "Warsaw up" no_vus) = Ok w /\ fst (wmatch w "WET" "JMS" no_vus) = Ok w2 /\
    fst (Wc.wc_dict float_of_str w1) = Ok d1 /\ fst (Wc.wc_dict float_of_str w2) = Ok d2 /\
    num_of d1 "dgamma_12" <> C0 /\ num_of d2 "dgamma_12" = Cneg (num_of d1 "dgamma_12").
Proof.
  intros Ij Hu translate wmatch o.
  pose proof (lists_kept_reps _ kept_names_list) as L. set (J := lists "WET" "JMS") in *.
  assert (ckm_of sign_ckm (merge_params no_vus) = meye) as V1 by exact sign_ckm_zero.
  assert (ckm_of sign_ckm (merge_params None) = fun i j => Cneg (delta i j)) as V2 by exact sign_ckm_default.
  assert (fst (Wc.wc_dict float_of_str o) = Ok dB_ex) as D by apply new_dict.
  destruct (rotate_ok (mdag meye) dB_ex dB_good) as (r1 & R1).
  destruct (rotate_ok (Tensor.mdag (fun i j => Cneg (delta i j))) dB_ex dB_good) as (r2 & R2).
  destruct (warsaw_total sign_ckm kept_names J no_vus dB_ex dB_good dB_no_shift L no_vus_sm) as (j1 & M1).
  pose proof (good_filter kept_names r2 (rotate_q_good _ _ _ dB_good R2)) as Gf.
  assert (exists j2, match_all sign_ckm J (key_filter kept_names r2) no_vus = Ok j2) as (j2 & M2).
  { destruct (read_ok _ Gf) as (c1 & C1). destruct (read_ok _ dB_good) as (c0 & C0').
    apply (match_like_ok sign_ckm J _ no_vus c1 no_vus_sm C1). apply quiet_like.
    exact (up_quiet _ _ _ _ _ _ dB_good R2 L C0' C1 (no_shift_quiet dB_ex c0 dB_good dB_no_shift C0')). }
  pose proof (match_same sign_ckm J _ _ no_vus Gf (good_nonzero _ Gf) (fun k => dval_nonzero _ k (proj1 Gf))) as Ms. rewrite M2 in Ms.
  destruct (match_all sign_ckm J (filter nonzero (key_filter kept_names r2)) no_vus) as [j3|] eqn:M3; [|contradiction].
  assert (M1' : match_all sign_ckm J (key_filter kept_names r1) no_vus = Ok j1).
  { unfold warsaw_to_jms, warsaw_to_warsaw_up in M1. rewrite V1, R1 in M1. exact M1. }
  exists (result "WET" "JMS" 160 j1), (result "SMEFT" "Warsaw up" 160 (key_filter kept_names r2)), (result "WET" "JMS" 160 j3), (filter nonzero j1), (filter nonzero j3).
  split; [unfold wmatch; rewrite (match_run float_of_str sign_ckm qcd_mb qcd_ms qcd_as lists with_nan "SMEFT" "Warsaw" "WET" "JMS" (reg_warsaw_jms sign_ckm lists) o no_vus eq_refl eq_refl eq_refl), D;
    cbn [bind]; unfold reg_warsaw_jms; rewrite Hu; fold J; rewrite M1; reflexivity|].
  split; [unfold translate; rewrite (translate_run float_of_str sign_ckm msvd_values qcd_mb qcd_ms qcd_as lists with_nan "SMEFT" "Warsaw" "Warsaw up" (tr_warsaw_up sign_ckm (lists "SMEFT" "Warsaw up")) o no_vus eq_refl eq_refl eq_refl), D;
    cbn [bind]; unfold tr_warsaw_up, warsaw_to_warsaw_up; rewrite Hu, V2, R2; reflexivity|].
  split; [unfold wmatch; rewrite (match_run float_of_str sign_ckm qcd_mb qcd_ms qcd_as lists with_nan "SMEFT" "Warsaw up" "WET" "JMS" (reg_up_jms sign_ckm lists) (result "SMEFT" "Warsaw up" 160 (key_filter kept_names r2)) no_vus eq_refl eq_refl eq_refl);
    rewrite (result_dict float_of_str); cbn [bind result new_wc wc_scale]; unfold reg_up_jms, warsaw_up_to_jms; fold J; rewrite M3; reflexivity|].
  split; [apply result_dict|]. split; [apply result_dict|]. rewrite Ms.
  pose proof (mixed_num sign_ckm _ kept_names J no_vus dB_ex r1 j1 "dgamma" _ [F1; F2] dB_good dB_no_shift L R1 M1' eq_refl (proj2 dgamma_named) Ij eq_refl) as H1.
  pose proof (mixed_num sign_ckm _ kept_names J no_vus dB_ex r2 j2 "dgamma" _ [F1; F2] dB_good dB_no_shift L R2 M2 eq_refl (proj2 dgamma_named) Ij eq_refl) as H2.
  change (cname "dgamma" [F1; F2]) with "dgamma_12" in H1, H2.
  assert (exists m, tree_of no_vus dB_ex "dgamma" = A2 m) as (m & Em) by (unfold tree_of; rewrite (proj1 dgamma_named); eexists; reflexivity).
  pose proof (dB_tree no_vus) as T. rewrite Em in H1, H2, T. rewrite one_dip in H1. rewrite sign_dip in H2.
  assert (wf j1) as W1 by exact (match_wf sign_ckm lists _ _ _ M1'). assert (wf j2) as W2 by exact (match_wf sign_ckm lists _ _ _ M2).
  rewrite !num_of_nonzero by assumption. rewrite H1, H2. split; [|reflexivity]. rewrite T. intros Z.
  destruct (weak_c_pos _ no_vus_sm) as [K|K]; apply (f_equal Re) in Z; unfold Re, RtoC, C0 in Z; cbn [fst] in Z; lra.
Qed.
