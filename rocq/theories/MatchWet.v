(** The matched coefficients as input of the WET translators. *)
From Coq Require Import String List Bool Arith Reals Lra.
From Verif Require Import PyBase PyDict Cplx Tensor SmeftSyntax SmeftTab Wc Params Smeft SmeftSpec SmeftNames SmeftRot SmeftWarsaw SmeftIll
  MatchOps MatchTab Match MatchFacts MatchRot MatchThm MatchSm WetExpr Wet WetJms WetNf WetSpec WetChk WetThm WetAux.
Import ListNotations.
Open Scope string_scope.
Open Scope list_scope.
Open Scope nat_scope.
#[local] Opaque WC_keys C_keys_shape match_tab.
#[local] Opaque JMS_to_Bern_prog JMS_to_flavio_prog JMS_to_FormFlavor_prog JMS_to_EOS_prog Bern_to_flavio_prog flavio_to_Bern_prog.
#[local] Opaque nf nf_ok deqb leqb mirror_names.
#[local] Opaque nJB nJF nJX nJE nBF nFB bern_read flavio_read bern flavio eos formflavor.

Lemma kinds : forallb (fun op => match jms_kind op with JHerm => true | _ => false end) herm_ops &&
  forallb (fun op => match jms_kind op with JExchange => true | _ => false end) cur_ops &&
  forallb (fun op => match jms_kind op with JBoth => true | _ => false end) both_ops = true.
Proof. vm_compute. reflexivity. Qed.
Lemma kind_of_list op : (In op herm_ops -> jms_kind op = JHerm) /\ (In op cur_ops -> jms_kind op = JExchange) /\ (In op both_ops -> jms_kind op = JBoth).
Proof.
  pose proof kinds as H. apply andb_true_iff in H. destruct H as [H H3]. apply andb_true_iff in H. destruct H as [H1 H2].
  rewrite forallb_forall in H1, H2, H3. repeat split; intros I.
  - specialize (H1 _ I). destruct (jms_kind op); congruence.
  - specialize (H2 _ I). destruct (jms_kind op); congruence.
  - specialize (H3 _ I). destruct (jms_kind op); congruence.
Qed.
(** Every member of an orbit holds the same information. *)
Lemma members_entry op v x y b : jms_symmetry op v -> length x = 4 -> In (y, b) (members op x) -> cj b (entry v y) = entry v x.
Proof.
  intros S Ln. destruct x as [|i [|j [|k [|l [|]]]]]; try discriminate. unfold members. destruct (kind_of_list op) as (K1 & K2 & K3).
  unfold jms_symmetry in S.
  destruct (mem op herm_ops) eqn:E1; [|destruct (mem op cur_ops) eqn:E2; [|destruct (mem op both_ops) eqn:E3]]; intros I.
  - apply mem_In in E1. rewrite (K1 E1) in S. destruct v as [| |t]; try contradiction.
    cbn [In] in I. destruct I as [I|[I|[]]]; injection I as <- <-; cbn [cj herm_ix entry]; [reflexivity|]. symmetry. apply S.
  - apply mem_In in E2. rewrite (K2 E2) in S. destruct v as [| |t]; try contradiction.
    cbn [In] in I. destruct I as [I|[I|[]]]; injection I as <- <-; cbn [cj cur_ix entry]; [reflexivity|]. symmetry. apply S.
  - apply mem_In in E3. rewrite (K3 E3) in S. destruct v as [| |t]; try contradiction. destruct S as [H X].
    cbn [In] in I. destruct I as [I|[I|[I|[I|[]]]]]; injection I as <- <-; cbn [cj cur_ix herm_ix entry]; [reflexivity|symmetry; apply X| |].
    + symmetry. apply H.
    + cbn [SmeftSymm.of_ten]. rewrite <- X. symmetry. apply H.
  - destruct I as [I|[]]. injection I as <- <-. reflexivity.
Qed.
Lemma jms_matched : forallb (fun kv : string * list field => mem (fst kv) match_names &&
  match match_shape (fst kv) with Some Sh4 => Nat.eqb (length (snd kv)) 4 | Some Sh2 => Nat.eqb (length (snd kv)) 2 && negb (mem (fst kv) (herm_ops ++ cur_ops ++ both_ops))
   | _ => false end) jms_fields = true.
Proof. Transparent match_tab. vm_compute. reflexivity. Qed.
#[local] Opaque match_tab.
Lemma jms_matched_ix op x : jms_ix op x = true -> In op match_names /\
  (match_shape op = Some Sh4 /\ length x = 4 \/ match_shape op = Some Sh2 /\ length x = 2 /\ members op x = [(x, false)]).
Proof.
  unfold jms_ix. destruct (dget jms_fields op) as [fs|] eqn:D; [|discriminate]. intros F. apply fits_len in F.
  apply dget_In in D. pose proof jms_matched as H. rewrite forallb_forall in H. specialize (H _ D). cbn [fst snd] in H.
  apply andb_true_iff in H. destruct H as [A H]. apply mem_In in A. split; auto.
  destruct (match_shape op) as [[]|]; try discriminate.
  - apply andb_true_iff in H. destruct H as [H N]. apply Nat.eqb_eq in H. right. split; auto. split; [congruence|].
    apply negb_true_iff in N. rewrite !mem_app in N. apply orb_false_iff in N. destruct N as [N1 N]. apply orb_false_iff in N.
    destruct N as [N2 N3]. unfold members. rewrite N1, N2, N3. reflexivity.
  - apply Nat.eqb_eq in H. left. split; auto. congruence.
Qed.
Lemma in_idx (x : idx) : (length x = 4 -> In x idx4) /\ (length x = 2 -> In x idx2).
Proof.
  split; intros L.
  - destruct x as [|i [|j [|k [|l [|]]]]]; try discriminate. apply idx4_in.
  - destruct x as [|i [|j [|]]]; try discriminate. apply idx2_in.
Qed.
Lemma sname_cname op x : x <> [] -> sname op x = cname op x.
Proof. destruct x; [congruence|reflexivity]. Qed.

Section MatchWet.
Variable ckm_tree : R -> R -> R -> R -> mat.
(** Listed coefficients of the result are entries of the matched arrays. *)
Lemma match_num J d input o c w op v y : match_all ckm_tree J d input = Ok o -> read_smeft d = Ok c ->
  matched ckm_tree (merge_params input) c = Ok w -> dget w op = Some v -> In (cname op y) J ->
  (match_shape op = Some Sh4 /\ length y = 4 \/ match_shape op = Some Sh2 /\ length y = 2) ->
  num_of o (cname op y) = entry v y.
Proof.
  intros M R0 Mw D I Sh. destruct (match_inv _ _ _ _ _ M) as (c' & w' & R1 & Mw' & -> & W & P).
  assert (c' = c) as -> by congruence. assert (w' = w) as -> by congruence.
  destruct (matched_fits _ _ _ _ _ _ Mw D) as (s & S & F). unfold num_of. rewrite key_filter_get by apply out_wf.
  rewrite (proj2 (mem_In _ _ J) I). rewrite <- sname_cname by (destruct Sh as [[_ L]|[_ L]]; destruct y; discriminate).
  destruct Sh as [[S' L]|[S' L]]; rewrite S' in S; injection S as <-; destruct v as [|m|t]; try contradiction.
  - rewrite (out_get _ _ _ _ _ W P D); [reflexivity|]. cbn [out_idx]. apply in_idx; auto.
  - rewrite (out_get _ _ _ _ _ W P D); [reflexivity|]. cbn [out_idx]. apply in_idx; auto.
Qed.
(** Nothing is lost: the WET translators see the matched arrays. *)
Lemma match_entry J d input o c w op x : good J -> match_all ckm_tree J d input = Ok o -> read_smeft d = Ok c ->
  matched ckm_tree (merge_params input) c = Ok w -> jms_ix op x = true ->
  exists v, dget w op = Some v /\ entry_of J o op x = Some (entry v x).
Proof.
  intros [L Hc] M R0 Mw I. destruct (jms_matched_ix op x I) as [A Sh].
  destruct (matched_inv _ _ _ _ Mw) as (_ & _ & _ & K). rewrite <- K in A. apply key_dget in A. destruct A as (v & Dv).
  exists v. split; auto. destruct (complete_pick J op x Hc I) as ([y b] & Pk & Im & Ik). unfold entry_of. rewrite Pk.
  cbn [option_map fst snd] in *. f_equal. pose proof (members_len op x (y, b) Im) as Ly. cbn [fst] in Ly.
  rewrite (match_num J d input o c w op v y M R0 Mw Dv Ik).
  - destruct Sh as [[_ Lx]|(_ & _ & Mm)].
    + apply (members_entry op v x); auto. eapply matched_symm; eauto. eapply read_proper; eauto.
    + rewrite Mm in Im. destruct Im as [Im|[]]. injection Im as <- <-. reflexivity.
  - destruct Sh as [[S' Lx]|(S' & Lx & _)]; [left|right]; split; auto; congruence.
Qed.
Lemma nothing_lost J d input o c w : good J -> match_all ckm_tree J d input = Ok o -> read_smeft d = Ok c ->
  matched ckm_tree (merge_params input) c = Ok w -> exists a, JMS_to_array J (nums o) = Ok a /\
  forall op x, jms_ix op x = true -> exists v r, dget w op = Some v /\ dget a op = Some r /\ n_ent r x = Some (entry v x).
Proof.
  intros G M R0 Mw. destruct (jms_entries J o (proj1 G) (proj2 G)) as (a & E & H). exists a. split; auto. intros op x I.
  destruct (H op x I) as (r & z & D & _ & N & P). destruct (match_entry _ _ _ _ _ _ _ _ G M R0 Mw I) as (v & Dv & Ev).
  exists v, r. split; auto. split; auto. congruence.
Qed.
(** So it does not matter which member of an orbit the basis lists. *)
Lemma listing_entry J J' d input o o' op x : good J -> good J' -> match_all ckm_tree J d input = Ok o ->
  match_all ckm_tree J' d input = Ok o' -> jms_ix op x = true -> entry_of J o op x = entry_of J' o' op x.
Proof.
  intros G G' M M' I. destruct (match_inv _ _ _ _ _ M) as (c & w & R0 & Mw & _).
  destruct (match_entry _ _ _ _ _ _ _ _ G M R0 Mw I) as (v & Dv & ->).
  destruct (match_entry _ _ _ _ _ _ _ _ G' M' R0 Mw I) as (v' & Dv' & ->). congruence.
Qed.
Lemma listing_ok_both J J' d input o : match_all ckm_tree J d input = Ok o -> exists o', match_all ckm_tree J' d input = Ok o'.
Proof.
  unfold match_all. destruct (read_smeft d) as [c|]; [|discriminate]. cbn [bind].
  destruct (matched ckm_tree (merge_params input) c); [|discriminate]. cbn [bind]. eauto.
Qed.
Lemma outJ_ext J J' c c' p n : good J -> good J' -> jdata n = true ->
  (forall op x, jms_ix op x = true -> entry_of J c op x = entry_of J' c' op x) -> outJ ckm_tree n J c p = outJ ckm_tree n J' c' p.
Proof.
  intros [L Hc] [L' Hc'] D H. unfold outJ. apply dmap_ext. intros k f I. apply lval_ext; try reflexivity.
  intros t It. apply in_map_iff in It. destruct It as (t' & <- & It). unfold jdata in D. rewrite forallb_forall in D. specialize (D _ I).
  cbn [snd] in D. rewrite forallb_forall in D. specialize (D _ It). destruct (fst t') as [|op x b]; [discriminate|].
  cbn [dtval]. f_equal. specialize (H op x D).
  pose proof (arr_entry ckm_tree J c p op x L Hc D) as E. pose proof (arr_entry ckm_tree J' c' p op x L' Hc' D) as E'. congruence.
Qed.

(** ** The matchers, matchers/__init__.py 5-40 *)
Variable qcd_mb qcd_ms : R -> R -> R -> res R.
Variable qcd_as : R -> R -> res R.
Variables (U J : list string) (scale : R) (input : option params).
(** lines 5-7 *)
Definition warsaw_up_to_jms (d : dict string C) : res (dict string C) := match_all ckm_tree J d input.
(** lines 10-13 *)
Definition warsaw_to_jms (d : dict string C) : res (dict string C) :=
  let! u := warsaw_to_warsaw_up ckm_tree U input d in match_all ckm_tree J u input.
(** lines 16-20, 23-27, 30-34: [JMS_to_flavio], [JMS_to_EOS], [JMS_to_Bern] *)
Definition warsaw_to_flavio (d : dict string C) : res (dict string cval) :=
  let! u := warsaw_to_warsaw_up ckm_tree U input d in let! c := match_all ckm_tree J u input in
  JMS_to_flavio ckm_tree qcd_mb qcd_ms qcd_as J (nums c) scale input.
Definition warsaw_to_eos (d : dict string C) : res (dict string cval) :=
  let! u := warsaw_to_warsaw_up ckm_tree U input d in let! c := match_all ckm_tree J u input in
  JMS_to_EOS ckm_tree qcd_mb qcd_ms qcd_as J (nums c) scale input.
Definition warsaw_to_bern (d : dict string C) : res (dict string cval) :=
  let! u := warsaw_to_warsaw_up ckm_tree U input d in let! c := match_all ckm_tree J u input in
  JMS_to_Bern ckm_tree qcd_mb qcd_ms qcd_as J (nums c) scale input.
Lemma jms_inv d o : warsaw_to_jms d = Ok o -> exists u, warsaw_to_warsaw_up ckm_tree U input d = Ok u /\ warsaw_up_to_jms u = Ok o.
Proof.
  unfold warsaw_to_jms, warsaw_up_to_jms. destruct (warsaw_to_warsaw_up ckm_tree U input d) as [u|]; [|discriminate]. cbn [bind]. eauto.
Qed.
Lemma via_jms d : warsaw_to_flavio d = (let! c := warsaw_to_jms d in JMS_to_flavio ckm_tree qcd_mb qcd_ms qcd_as J (nums c) scale input) /\
  warsaw_to_eos d = (let! c := warsaw_to_jms d in JMS_to_EOS ckm_tree qcd_mb qcd_ms qcd_as J (nums c) scale input) /\
  warsaw_to_bern d = (let! c := warsaw_to_jms d in JMS_to_Bern ckm_tree qcd_mb qcd_ms qcd_as J (nums c) scale input).
Proof.
  unfold warsaw_to_flavio, warsaw_to_eos, warsaw_to_bern, warsaw_to_jms.
  destruct (warsaw_to_warsaw_up ckm_tree U input d); cbn [bind]; auto.
Qed.
End MatchWet.
Lemma match_orbit ckm_tree J d input o op x y b : match_all ckm_tree J d input = Ok o -> jms_ix op x = true ->
  In (y, b) (members op x) -> In (cname op x) J -> In (cname op y) J -> num_of o (cname op x) = cj b (num_of o (cname op y)).
Proof.
  intros M I Im Kx Ky. destruct (match_inv _ _ _ _ _ M) as (c & w & R0 & Mw & _). destruct (jms_matched_ix op x I) as [A Sh].
  destruct (matched_inv _ _ _ _ Mw) as (_ & _ & _ & K). rewrite <- K in A. apply key_dget in A. destruct A as (v & Dv).
  pose proof (members_len op x (y, b) Im) as Ly. cbn [fst] in Ly.
  rewrite (match_num ckm_tree J d input o c w op v x M R0 Mw Dv Kx), (match_num ckm_tree J d input o c w op v y M R0 Mw Dv Ky).
  - destruct Sh as [[_ Lx]|(_ & _ & Mm)].
    + symmetry. apply (members_entry op v x); auto. eapply matched_symm; eauto. eapply read_proper; eauto.
    + rewrite Mm in Im. destruct Im as [Im|[]]. injection Im as <- <-. reflexivity.
  - destruct Sh as [[S' Lx]|(S' & Lx & _)]; [left|right]; split; auto; congruence.
  - destruct Sh as [[S' Lx]|(S' & Lx & _)]; [left|right]; split; auto; congruence.
Qed.
Lemma listing_same ckm_tree qcd_mb qcd_ms qcd_as U J J' scale input p d : good J -> good J' -> okp ckm_tree qcd_mb qcd_ms qcd_as scale input p ->
  warsaw_to_flavio ckm_tree qcd_mb qcd_ms qcd_as U J scale input d = warsaw_to_flavio ckm_tree qcd_mb qcd_ms qcd_as U J' scale input d /\
  warsaw_to_bern ckm_tree qcd_mb qcd_ms qcd_as U J scale input d = warsaw_to_bern ckm_tree qcd_mb qcd_ms qcd_as U J' scale input d /\
  (light p -> warsaw_to_eos ckm_tree qcd_mb qcd_ms qcd_as U J scale input d = warsaw_to_eos ckm_tree qcd_mb qcd_ms qcd_as U J' scale input d).
Proof.
  intros G G' P. unfold warsaw_to_flavio, warsaw_to_bern, warsaw_to_eos.
  destruct (warsaw_to_warsaw_up ckm_tree U input d) as [u|e]; cbn [bind]; [|auto].
  destruct (match_all ckm_tree J u input) as [o|e] eqn:M.
  - destruct (listing_ok_both ckm_tree J J' u input o M) as (o' & M'). rewrite M'. cbn [bind].
    pose proof (fun op x => listing_entry ckm_tree J J' u input o o' op x G G' M M') as H.
    rewrite (run_JF ckm_tree qcd_mb qcd_ms qcd_as J scale input p G P o), (run_JF ckm_tree qcd_mb qcd_ms qcd_as J' scale input p G' P o').
    rewrite (run_JB ckm_tree qcd_mb qcd_ms qcd_as J scale input p G P o), (run_JB ckm_tree qcd_mb qcd_ms qcd_as J' scale input p G' P o').
    rewrite (outJ_ext ckm_tree J J' o o' p nJF G G' nJF_data H), (outJ_ext ckm_tree J J' o o' p nJB G G' nJB_data H).
    split; [reflexivity|]. split; [reflexivity|]. intros L.
    rewrite (run_JE ckm_tree qcd_mb qcd_ms qcd_as J scale input p G P o L), (run_JE ckm_tree qcd_mb qcd_ms qcd_as J' scale input p G' P o' L).
    rewrite (outJ_ext ckm_tree J J' o o' p nJE G G' nJE_data H). reflexivity.
  - assert (match_all ckm_tree J' u input = Err e) as ->; [|auto].
    unfold match_all in M |- *. destruct (read_smeft u) as [c|]; [|exact M]. cbn [bind] in M |- *.
    destruct (matched ckm_tree (merge_params input) c); [discriminate M|exact M].
Qed.
