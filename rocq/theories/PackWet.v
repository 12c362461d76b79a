(** The WET translators and matchers as installed. *)
From Coq Require Import String List Bool Arith ZArith Reals Lra.
From Verif Require Import PyBase PyDict Cplx Tensor Wc WetN Params Smeft SmeftNames SmeftReg Match WetExpr Wet WetJms WetNf WetSpec WetChk WetThm WetAux MatchWet FkTab FlavorKit Package.
Import ListNotations.
Open Scope string_scope.
Open Scope list_scope.
Open Scope nat_scope.
#[local] Opaque Ceq_dec.
Local Notation nonzero := Wc.nonzero.

(** ** Which fields a coefficient needs *)
(** How many fields of flavour [f] an operator has, barred or not. *)
Definition amount (q : content) (f : flavour) : nat := length (filter (fun g => flavour_eqb f (fst g)) q).
Definition same_fields (q r : content) : bool := forallb (fun f => Nat.eqb (amount q f) (amount r f)) flavours.
Definition jsame (q : coefs) (n : dict string lform) : bool :=
  forallb (fun kf => match dget q (fst kf) with
    | None => false
    | Some r => forallb (fun t => match fst t with
        | DArr op x _ => forallb (fun m => jms_ix op (fst m) && same_fields r (jms_content op (fst m))) (members op x)
        | DGet _ _ => false end) (snd kf)
    end) n.
Definition gsame (i q : coefs) (n : dict string lform) : bool :=
  forallb (fun kf => match dget q (fst kf) with
    | None => false
    | Some r => forallb (fun t => match fst t with
        | DGet k _ => match dget i k with Some s => same_fields r s | None => false end
        | DArr _ _ _ => false end) (snd kf)
    end) n.
Lemma nJB_same : jsame bern nJB = true. Proof. vm_cast_no_check (eq_refl true). Qed.
Lemma nJF_same : jsame flavio nJF = true. Proof. vm_cast_no_check (eq_refl true). Qed.
Lemma nBF_same : gsame bern flavio nBF = true. Proof. vm_cast_no_check (eq_refl true). Qed.
Lemma nFB_same : gsame flavio bern_of_flavio nFB = true. Proof. vm_cast_no_check (eq_refl true). Qed.
#[local] Opaque JMS_to_Bern_prog JMS_to_flavio_prog JMS_to_FormFlavor_prog JMS_to_EOS_prog Bern_to_flavio_prog flavio_to_Bern_prog.
#[local] Opaque nf nf_ok deqb leqb mirror_names.
#[local] Opaque nJB nJF nJX nJE nBF nFB bern_read flavio_read bern flavio eos formflavor bern_of_flavio.

Lemma flavour_in f : In f flavours.
Proof. destruct f as [[]|[]|[]]; simpl; tauto. Qed.
Lemma same_amount q r f : same_fields q r = true -> amount q f = amount r f.
Proof. intros H. unfold same_fields in H. rewrite forallb_forall in H. apply Nat.eqb_eq. apply H. apply flavour_in. Qed.
(** No field of the flavours [hs] *)
Definition without (hs : list flavour) (q : content) : bool := forallb (fun f => Nat.eqb (amount q f) 0) hs.
Lemma same_without hs q r : same_fields q r = true -> without hs q = without hs r.
Proof.
  intros H. unfold without. induction hs as [|f t IH]; auto. cbn [forallb]. rewrite IH, (same_amount q r f H). reflexivity.
Qed.

Section Deps.
Variable ckm_tree : R -> R -> R -> R -> mat.
Variables (J : list string) (p : params).
Hypothesis GJ : good J.
Lemma self_member op x : In (x, false) (members op x).
Proof. unfold members. destruct (mem op herm_ops); [|destruct (mem op cur_ops); [|destruct (mem op both_ops)]]; simpl; auto. Qed.
(** The data of an output coefficient *)
Lemma jsame_data q n k r t : jsame q n = true -> dget q k = Some r -> In t (getf n k) -> exists op x b, fst t = DArr op x b /\ jms_ix op x = true /\
  forall y s, In (y, s) (members op x) -> jms_ix op y = true /\ same_fields r (jms_content op y) = true.
Proof.
  intros H Q I. unfold getf in I. destruct (dget n k) as [f|] eqn:E; [|destruct I].
  unfold jsame in H. rewrite forallb_forall in H. specialize (H _ (dget_In _ _ _ E)). cbn [fst snd] in H. rewrite Q in H.
  rewrite forallb_forall in H. specialize (H _ I). destruct (fst t) as [|op x b]; [discriminate|]. rewrite forallb_forall in H.
  exists op, x, b. split; auto. assert (forall y s, In (y, s) (members op x) -> jms_ix op y = true /\ same_fields r (jms_content op y) = true) as G.
  { intros y s M. specialize (H _ M). cbn [fst] in H. apply andb_true_iff in H. exact H. }
  split; auto. exact (proj1 (G x false (self_member op x))).
Qed.
Lemma pick_listed op x y s : pick J op x = Some (y, s) -> In (cname op y) J.
Proof. unfold pick. intros P. apply find_some in P. destruct P as [_ P]. cbn [fst] in P. apply mem_In in P. exact P. Qed.
(** It depends on listed JMS coefficients with the same fields only. *)
Lemma jsame_dep q n c1 c2 k r : jsame q n = true -> dget q k = Some r ->
  (forall op x, jms_ix op x = true -> In (cname op x) J -> same_fields r (jms_content op x) = true -> num_of c1 (cname op x) = num_of c2 (cname op x)) ->
  num_of (outJ ckm_tree n J c1 p) k = num_of (outJ ckm_tree n J c2 p) k.
Proof.
  intros H Q S. unfold outJ. rewrite !dget_dmap_lval. apply lval_ext; try reflexivity.
  intros t I. apply in_map_iff in I. destruct I as (t' & <- & I).
  destruct (jsame_data q n k r t' H Q I) as (op & x & b & -> & X & G).
  destruct (dt_pick ckm_tree J p GJ op x b X) as (y & s & M & V & P). rewrite !V. f_equal.
  destruct (G y s M) as [Y F]. apply S; auto. exact (pick_listed _ _ _ _ P).
Qed.
Lemma outJ_num n c c' : jdata n = true -> (forall k, num_of c k = num_of c' k) -> outJ ckm_tree n J c p = outJ ckm_tree n J c' p.
Proof. intros D H. apply (outJ_ext ckm_tree J J c c' p n GJ GJ D). intros op x X. unfold entry_of. destruct (pick J op x) as [[y s]|]; auto. cbn [option_map fst snd]. rewrite H. reflexivity. Qed.
Lemma outG_num l n B c c' : NoDup B -> incl l B -> gdata l n = true -> (forall k, num_of c k = num_of c' k) -> outG ckm_tree n B c p = outG ckm_tree n B c' p.
Proof.
  intros N I D H. unfold outG. apply dmap_ext. intros k f M. apply lval_ext; try reflexivity.
  intros t It. apply in_map_iff in It. destruct It as (t' & <- & It).
  unfold gdata in D. rewrite forallb_forall in D. specialize (D _ M). cbn [snd] in D. rewrite forallb_forall in D. specialize (D _ It).
  destruct (fst t') as [j b|]; [|discriminate]. apply andb_true_iff in D. destruct D as [D1 D2]. apply negb_true_iff in D1. subst b. apply mem_In in D2.
  cbn [dtval cj]. rewrite !get0_fenv by auto. apply H.
Qed.
Lemma gsame_dep i q l n B c1 c2 k r : NoDup B -> incl l B -> gdata l n = true -> gsame i q n = true -> dget q k = Some r ->
  (forall j s, In (j, s) i -> In j l -> same_fields r s = true -> num_of c1 j = num_of c2 j) ->
  num_of (outG ckm_tree n B c1 p) k = num_of (outG ckm_tree n B c2 p) k.
Proof.
  intros N I D H Q S. unfold outG. rewrite !dget_dmap_lval. apply lval_ext; try reflexivity.
  intros t M. apply in_map_iff in M. destruct M as (t' & <- & M). destruct (gdata_in _ _ _ _ D M) as (j & E & QQ).
  rewrite E. cbn [dtval cj]. rewrite !get0_fenv by auto.
  unfold getf in M. destruct (dget n k) as [f|] eqn:F; [|destruct M].
  unfold gsame in H. rewrite forallb_forall in H. specialize (H _ (dget_In _ _ _ F)). cbn [fst snd] in H. rewrite Q in H.
  rewrite forallb_forall in H. specialize (H _ M). rewrite E in H. destruct (dget i j) as [s|] eqn:G; [|discriminate].
  apply (S j s); auto. exact (dget_In _ _ _ G).
Qed.
Lemma out_nilG l n B k : NoDup B -> incl l B -> gdata l n = true -> num_of (outG ckm_tree n B [] p) k = C0.
Proof.
  intros N I D. assert (sum_of [] [] []) as S by (intros x; unfold num_of; simpl; ring).
  pose proof (ling_add ckm_tree p l n B [] [] [] N I D S k) as E.
  apply (f_equal (fun z => Csub z (num_of (outG ckm_tree n B [] p) k))) in E.
  replace (Csub (Cadd (num_of (outG ckm_tree n B [] p) k) (num_of (outG ckm_tree n B [] p) k)) (num_of (outG ckm_tree n B [] p) k)) with (num_of (outG ckm_tree n B [] p) k) in E by ring.
  replace (Csub (num_of (outG ckm_tree n B [] p) k) (num_of (outG ckm_tree n B [] p) k)) with C0 in E by ring. auto.
Qed.
End Deps.

(** ** Listings of a theory with fewer quarks *)
Definition lists_without (hs : list flavour) (J J' : list string) : Prop :=
  forall op x, jms_ix op x = true -> In (cname op x) J -> (In (cname op x) J' <-> without hs (jms_content op x) = true).
Definition names_without (hs : list flavour) (q : coefs) (K : list string) : Prop :=
  forall k r, In (k, r) q -> (In k K <-> without hs r = true).
(** Two dictionaries with the same keys, the second with the values of the first that are kept *)
Lemma filters_agree (o o' : dict string C) K : wf o -> dkeys o' = dkeys o ->
  (forall k, In k (dkeys o) -> num_of o' k = if mem k K then num_of o k else C0) ->
  filter nonzero o' = key_filter K (filter nonzero o).
Proof.
  intros Wo E H. rewrite key_filter_nonzero.
  assert (wf o') as Wo' by (unfold wf; rewrite E; exact Wo).
  assert (forall a b, In a (dkeys o) -> dget o a = Some b -> exists b', dget o' a = Some b' /\ b' = if mem a K then b else C0) as G.
  { intros a b I D. specialize (H a I). unfold num_of in H. rewrite D in H. destruct (dget o' a) as [b'|] eqn:D'.
    - exists b'. split; auto.
    - apply dget_None in D'. rewrite E in D'. contradiction. }
  clear H. revert o' E Wo' G. induction o as [|[k z] t IH]; intros [|[k' z'] t'] E Wo' G; try discriminate; auto.
  cbn [dkeys map fst] in E. injection E as -> E. destruct (G k z) as (b' & D & Z); [left; reflexivity|cbn [dget]; rewrite keqb_refl; reflexivity|].
  cbn [dget] in D. rewrite keqb_refl in D. injection D as ->.
  inversion Wo as [|? ? W1 W2]; subst. inversion Wo' as [|? ? W1' W2']; subst.
  assert (filter nonzero t' = filter nonzero (key_filter K t)) as IHt.
  { apply IH; auto. intros a b I D. assert (keqb a k = false) as N by (apply keqb_neq; intros ->; contradiction).
    destruct (G a b) as (b'' & D'' & Z''); [right; exact I|cbn [dget]; rewrite N; exact D|]. cbn [dget] in D''. rewrite N in D''. eauto. }
  unfold key_filter in *. cbn [filter fst]. destruct (mem k K) eqn:M; cbn [filter].
  - rewrite IHt. reflexivity.
  - assert (nonzero (k, C0) = false) as ->; [|exact IHt]. unfold Wc.nonzero. cbn [snd]. destruct (Ceq_dec C0 C0); [reflexivity|contradiction].
Qed.
Section Heavy.
Variable ckm_tree : R -> R -> R -> R -> mat.
Variables (J : list string) (p : params) (hs : list flavour).
Hypothesis GJ : good J.
(** Removing the heavy coefficients before and after *)
Lemma remove_J q n J' K c : jsame q n = true -> jdata n = true -> dkeys (outJ ckm_tree n J c p) = names q -> NoDup (names q) -> wf c ->
  lists_without hs J J' -> names_without hs q K ->
  filter nonzero (outJ ckm_tree n J (key_filter J' c) p) = key_filter K (filter nonzero (outJ ckm_tree n J c p)).
Proof.
  intros H D Nk N Wc LJ LK. apply filters_agree.
  - unfold wf. rewrite Nk. exact N.
  - unfold outJ. rewrite !dkeys_dmap. reflexivity.
  - rewrite Nk. intros k I. apply in_map_iff in I. destruct I as ([k' r] & E & I). cbn [fst] in E. subst k'.
    assert (dget q k = Some r) as Q by (apply In_dget; auto). specialize (LK k r I).
    destruct (mem k K) eqn:M.
    + apply mem_In in M. apply LK in M. apply (jsame_dep ckm_tree J p GJ q n _ _ k r H Q).
      intros op x X L F. rewrite num_of_keys by auto. assert (mem (cname op x) J' = true) as ->; auto.
      apply mem_In. apply (LJ op x X L). rewrite <- (same_without hs _ _ F). exact M.
    + assert (without hs r = false) as Z.
      { destruct (without hs r) eqn:Z; auto. rewrite (proj2 (mem_In _ k K) (proj2 LK eq_refl)) in M. discriminate. }
      rewrite <- (out_nil ckm_tree J p GJ n k D). apply (jsame_dep ckm_tree J p GJ q n _ _ k r H Q).
      intros op x X L F. rewrite num_of_keys by auto. destruct (mem (cname op x) J') eqn:M'; auto.
      apply mem_In in M'. apply (LJ op x X L) in M'. rewrite <- (same_without hs _ _ F), Z in M'. discriminate.
Qed.
Lemma remove_G i q l n B B' K c : NoDup B -> incl l B -> gsame i q n = true -> gdata l n = true -> dkeys (outG ckm_tree n B c p) = names q -> NoDup (names q) -> wf c ->
  names_without hs i B' -> names_without hs q K ->
  filter nonzero (outG ckm_tree n B (key_filter B' c) p) = key_filter K (filter nonzero (outG ckm_tree n B c p)).
Proof.
  intros NB IB H D Nk N Wc LJ LK. apply filters_agree.
  - unfold wf. rewrite Nk. exact N.
  - unfold outG. rewrite !dkeys_dmap. reflexivity.
  - rewrite Nk. intros k I. apply in_map_iff in I. destruct I as ([k' r] & E & I). cbn [fst] in E. subst k'.
    assert (dget q k = Some r) as Q by (apply In_dget; auto). specialize (LK k r I).
    destruct (mem k K) eqn:M.
    + apply mem_In in M. apply LK in M. apply (gsame_dep ckm_tree p i q l n B _ _ k r NB IB D H Q).
      intros j s X L F. rewrite num_of_keys by auto. assert (mem j B' = true) as ->; auto.
      apply mem_In. apply (LJ j s X). rewrite <- (same_without hs _ _ F). exact M.
    + assert (without hs r = false) as Z.
      { destruct (without hs r) eqn:Z; auto. rewrite (proj2 (mem_In _ k K) (proj2 LK eq_refl)) in M. discriminate. }
      rewrite <- (out_nilG ckm_tree p l n B k NB IB D). apply (gsame_dep ckm_tree p i q l n B _ _ k r NB IB D H Q).
      intros j s X L F. rewrite num_of_keys by auto. destruct (mem j B') eqn:M'; auto.
      apply mem_In in M'. apply (LJ j s X) in M'. rewrite <- (same_without hs _ _ F), Z in M'. discriminate.
Qed.
(** What contains no heavy quark stays free of them *)
Lemma free_J q n c k : jsame q n = true -> jdata n = true -> dkeys (outJ ckm_tree n J c p) = names q -> NoDup (names q) ->
  (forall op x, jms_ix op x = true -> num_of c (cname op x) <> C0 -> without hs (jms_content op x) = true) ->
  In k (dkeys (filter nonzero (outJ ckm_tree n J c p))) -> exists r, In (k, r) q /\ without hs r = true.
Proof.
  intros H D Nk N L I. assert (wf (outJ ckm_tree n J c p)) as Wo by (unfold wf; rewrite Nk; exact N).
  apply key_dget in I. destruct I as (z & E). rewrite filter_values in E by auto.
  assert (In k (names q)) as Ik by (rewrite <- Nk; destruct (dget (outJ ckm_tree n J c p) k) eqn:G; [eapply dget_Some_key; eauto|discriminate]).
  apply in_map_iff in Ik. destruct Ik as ([k' r] & Ek & Ik). cbn [fst] in Ek. subst k'. exists r. split; auto.
  assert (dget q k = Some r) as Q by (apply In_dget; auto).
  destruct (without hs r) eqn:Z; auto. exfalso.
  assert (num_of (outJ ckm_tree n J c p) k = C0) as V.
  { rewrite <- (out_nil ckm_tree J p GJ n k D). apply (jsame_dep ckm_tree J p GJ q n _ _ k r H Q).
    intros op x X _ F. destruct (Ceq_dec (num_of c (cname op x)) C0) as [->|Y]; auto. specialize (L op x X Y).
    rewrite <- (same_without hs _ _ F), Z in L. discriminate. }
  unfold num_of in V. destruct (dget (outJ ckm_tree n J c p) k) as [v|]; [|discriminate]. destruct (Ceq_dec v C0); [discriminate|contradiction].
Qed.
End Heavy.

(** ** FlavorKit: zeros *)
Lemma same_number_zero p k v w : usable_fk p -> same_number p k v w -> (v = C0 <-> w = C0).
Proof.
  intros (A & M1 & M2 & M3) S. destruct S as [k t v E|k t v E|k v I|ij v I]; try tauto.
  - split; intros H.
    + rewrite H. apply Cconj_0.
    + rewrite <- (Cconj_conj v), H. apply Cconj_0.
  - split; intros H; [rewrite H; ring|].
    set (f := (1 / 2 * sqrt (4 * PI * param p "alpha_e") * lepton_mass p (fst ij))%R) in *.
    assert (f <> 0)%R as N.
    { unfold f. assert (lepton_mass p (fst ij) <> 0)%R as N by (unfold lepton_mass; destruct (fst ij); assumption).
      assert (0 < sqrt (4 * PI * param p "alpha_e"))%R as E2 by (apply sqrt_lt_R0; pose proof PI_RGT_0; apply Rmult_lt_0_compat; lra).
      apply Rmult_integral_contrapositive_currified; auto. apply Rmult_integral_contrapositive_currified; lra. }
    transitivity (Cmul (RtoC (/ f)) (Cmul (RtoC f) v)).
    + transitivity (Cmul (Cmul (RtoC (/ f)) (RtoC f)) v); [|ring]. rewrite <- RtoC_mul, Rinv_l by auto. change (RtoC 1) with C1. ring.
    + rewrite H. ring.
Qed.
Lemma translated_nonzero p c d : usable_fk p -> translated p c d -> translated p (filter nonzero c) (filter nonzero d).
Proof.
  intros U. unfold translated. induction 1 as [|[k v] [t w] c d (A & S & G) T IH]; [constructor|].
  pose proof (same_number_zero p k v w U S) as Z.
  assert (nonzero (k, v) = nonzero (t, w)) as N by (unfold Wc.nonzero; cbn [snd]; destruct (Ceq_dec v C0), (Ceq_dec w C0); tauto).
  cbn [filter]. rewrite N. destruct (nonzero (t, w)); [constructor; auto|exact IH].
Qed.
Theorem fk_round_nonzero p c : usable_fk p -> wf c -> (forall k, In k (dkeys c) -> exists t, common k t) ->
  exists d, fk_run p None [] c = Ok d /\ jms_run p None [] (filter nonzero d) = Ok (filter nonzero c).
Proof.
  intros U Wc K. destruct (fk_run_ok p U c K Wc None []) as (d & E & T); [intros k t _ _ []|]. exists d. split; auto.
  exact (jms_run_ok p (filter nonzero c) (filter nonzero d) (translated_nonzero p c d U T) (wf_filter c _ Wc) None [] (fun _ _ x => x)).
Qed.

Lemma num_of_absent d k : ~ In k (dkeys d) -> num_of d k = C0.
Proof. intros N. unfold num_of. apply dget_None in N. rewrite N. reflexivity. Qed.
(** ** Translations one after the other *)
Section User.
Variable float_of_str : string -> option R.
Variable ckm_tree : R -> R -> R -> R -> mat.
Variable msvd_values : mat -> fl -> C.
Variable qcd_mb qcd_ms : R -> R -> R -> res R.
Variable qcd_as : R -> R -> res R.
Variable all_wcs_of : string -> string -> list string.
Variable with_nan : dict string cval -> res (dict string C).
Notation J := (all_wcs_of "WET" "JMS").
Notation B := (all_wcs_of "WET" "Bern").
Notation F := (all_wcs_of "WET" "flavio").
Hypothesis J_good : good J.
Hypothesis B_ok : NoDup B /\ incl bern_read B.
Hypothesis F_ok : NoDup F /\ incl flavio_read F.
Notation translate := (Wc.translate float_of_str (installed ckm_tree msvd_values qcd_mb qcd_ms qcd_as all_wcs_of with_nan)).
Notation wmatch := (Wc.wmatch float_of_str (installed_m ckm_tree qcd_mb qcd_ms qcd_as all_wcs_of with_nan)).
Notation wc_dict := (Wc.wc_dict float_of_str).
Notation okp := (okp ckm_tree qcd_mb qcd_ms qcd_as).
Definition wets : list string := ["WET"; "WET-4"; "WET-3"].
Let tr e f t fn o p c out := translate_eq float_of_str ckm_tree msvd_values qcd_mb qcd_ms qcd_as all_wcs_of with_nan e f t fn o p c out.
Let ma e f e' t fn o p c out := match_eq float_of_str ckm_tree qcd_mb qcd_ms qcd_as all_wcs_of with_nan e f e' t fn o p c out.
Definition result e t s (o : dict string C) : wc := new_wc e t s (dict2values (filter nonzero o)).
Lemma result_dict e t s o : fst (wc_dict (result e t s o)) = Ok (filter nonzero o).
Proof. apply new_dict. Qed.

Section One.
Variables (o : wc) (input : option params) (p : params) (c : dict string C).
Hypothesis P : okp (wc_scale o) input p.
Hypothesis D : fst (wc_dict o) = Ok c.
Lemma to_Bern_eq : In (wc_eft o) wets -> wc_basis o = "JMS" ->
  fst (translate o "Bern" input) = Ok (result (wc_eft o) "Bern" (wc_scale o) (outJ ckm_tree nJB J c p)).
Proof.
  intros E Hb. assert (reg_JMS_Bern ckm_tree qcd_mb qcd_ms qcd_as all_wcs_of with_nan c (wc_scale o) input = Ok (outJ ckm_tree nJB J c p)) as R.
  { unfold reg_JMS_Bern. rewrite (run_JB ckm_tree qcd_mb qcd_ms qcd_as J (wc_scale o) input p J_good P c). apply plain_nums. }
  destruct E as [E|[E|[E|[]]]]; rewrite <- E; refine (tr _ _ _ _ o input c _ _ (eq_sym E) Hb D R); reflexivity.
Qed.
Lemma to_flavio_eq : In (wc_eft o) wets -> wc_basis o = "JMS" ->
  fst (translate o "flavio" input) = Ok (result (wc_eft o) "flavio" (wc_scale o) (outJ ckm_tree nJF J c p)).
Proof.
  intros E Hb. assert (reg_JMS_flavio ckm_tree qcd_mb qcd_ms qcd_as all_wcs_of with_nan c (wc_scale o) input = Ok (outJ ckm_tree nJF J c p)) as R.
  { unfold reg_JMS_flavio. rewrite (run_JF ckm_tree qcd_mb qcd_ms qcd_as J (wc_scale o) input p J_good P c). apply plain_nums. }
  destruct E as [E|[E|[E|[]]]]; rewrite <- E; refine (tr _ _ _ _ o input c _ _ (eq_sym E) Hb D R); reflexivity.
Qed.
Lemma to_EOS_eq : light p -> wc_eft o = "WET" -> wc_basis o = "JMS" ->
  fst (translate o "EOS" input) = Ok (result "WET" "EOS" (wc_scale o) (outJ ckm_tree nJE J c p)).
Proof.
  intros L E Hb. assert (reg_JMS_EOS ckm_tree qcd_mb qcd_ms qcd_as all_wcs_of with_nan c (wc_scale o) input = Ok (outJ ckm_tree nJE J c p)) as R.
  { unfold reg_JMS_EOS. rewrite (run_JE ckm_tree qcd_mb qcd_ms qcd_as J (wc_scale o) input p J_good P c L). apply plain_nums. }
  refine (tr _ _ _ _ o input c _ _ E Hb D R); reflexivity.
Qed.
Lemma Bern_flavio_eq : In (wc_eft o) wets -> wc_basis o = "Bern" ->
  fst (translate o "flavio" input) = Ok (result (wc_eft o) "flavio" (wc_scale o) (outG ckm_tree nBF B c p)).
Proof.
  intros E Hb. assert (reg_Bern_flavio ckm_tree qcd_mb qcd_ms qcd_as all_wcs_of with_nan c (wc_scale o) input = Ok (outG ckm_tree nBF B c p)) as R.
  { unfold reg_Bern_flavio. rewrite (run_BF ckm_tree qcd_mb qcd_ms qcd_as (wc_scale o) input p P B c (proj1 B_ok) (proj2 B_ok)). apply plain_nums. }
  destruct E as [E|[E|[E|[]]]]; rewrite <- E; refine (tr _ _ _ _ o input c _ _ (eq_sym E) Hb D R); reflexivity.
Qed.
Lemma flavio_Bern_eq : In (wc_eft o) wets -> wc_basis o = "flavio" ->
  fst (translate o "Bern" input) = Ok (result (wc_eft o) "Bern" (wc_scale o) (outG ckm_tree nFB F c p)).
Proof.
  intros E Hb. assert (reg_flavio_Bern ckm_tree qcd_mb qcd_ms qcd_as all_wcs_of with_nan c (wc_scale o) input = Ok (outG ckm_tree nFB F c p)) as R.
  { unfold reg_flavio_Bern. rewrite (run_FB ckm_tree qcd_mb qcd_ms qcd_as (wc_scale o) input p P F c (proj1 F_ok) (proj2 F_ok)). apply plain_nums. }
  destruct E as [E|[E|[E|[]]]]; rewrite <- E; refine (tr _ _ _ _ o input c _ _ (eq_sym E) Hb D R); reflexivity.
Qed.
Lemma filter_eq e e' b : In (e, e', b) wetn_matchers -> wc_eft o = e -> wc_basis o = b ->
  fst (wmatch o e' b input) = Ok (result e' b (wc_scale o) (key_filter (all_wcs_of e' b) c)).
Proof.
  intros I E Hb. assert (reg_filter all_wcs_of e' b c (wc_scale o) input = Ok (key_filter (all_wcs_of e' b) c)) as R by reflexivity.
  repeat (destruct I as [I|I]; [injection I as <- <- <-; refine (ma _ _ _ _ _ o input c _ _ E Hb D R); reflexivity|]). destruct I.
Qed.
End One.

Lemma keysB c p : wf (outJ ckm_tree nJB J c p).
Proof. unfold wf. rewrite keys_JB. exact bern_nodup. Qed.
Lemma keysF c p : wf (outJ ckm_tree nJF J c p).
Proof. unfold wf. rewrite keys_JF. exact flavio_nodup. Qed.
Lemma keysBF c p : wf (outG ckm_tree nBF B c p).
Proof. unfold wf. rewrite keys_BF. exact flavio_nodup. Qed.
Lemma keysFB c p : wf (outG ckm_tree nFB F c p).
Proof. unfold wf. rewrite keys_FB. exact bernf_nodup. Qed.

(** Directly or through Bern *)
Theorem user_detour o input p c : okp (wc_scale o) input p -> fst (wc_dict o) = Ok c -> In (wc_eft o) wets -> wc_basis o = "JMS" ->
  exists w w', fst (translate o "Bern" input) = Ok w /\ fst (translate w "flavio" input) = Ok w' /\ fst (translate o "flavio" input) = Ok w'.
Proof.
  intros P D E Hb. eexists. eexists. split; [exact (to_Bern_eq o input p c P D E Hb)|].
  split; [|exact (to_flavio_eq o input p c P D E Hb)].
  rewrite (Bern_flavio_eq (result (wc_eft o) "Bern" (wc_scale o) (outJ ckm_tree nJB J c p)) input p _ P (result_dict _ _ _ _) E eq_refl).
  cbn [result new_wc wc_eft wc_scale].
  rewrite (outG_num ckm_tree p bern_read nBF B _ (outJ ckm_tree nJB J c p) (proj1 B_ok) (proj2 B_ok) nBF_data (fun k => num_of_nonzero _ k (keysB c p))).
  rewrite (via_bern ckm_tree qcd_mb qcd_ms qcd_as J (wc_scale o) input p J_good P B c (proj1 B_ok) (proj2 B_ok)). reflexivity.
Qed.
(** flavio, Bern and back *)
Theorem user_flavio_Bern o input p c : okp (wc_scale o) input p -> fst (wc_dict o) = Ok c -> In (wc_eft o) wets -> wc_basis o = "flavio" ->
  exists w w' c', fst (translate o "Bern" input) = Ok w /\ fst (translate w "flavio" input) = Ok w' /\ fst (wc_dict w') = Ok c' /\
  wc_eft w' = wc_eft o /\ wc_scale w' = wc_scale o /\ wc_basis w' = "flavio" /\
  (forall k, In k flavio_read -> num_of c' k = num_of c k) /\ (forall k, ~ In k flavio_read -> num_of c' k = C0).
Proof.
  intros P D E Hb. eexists. eexists. eexists. split; [exact (flavio_Bern_eq o input p c P D E Hb)|].
  split; [exact (Bern_flavio_eq (result (wc_eft o) "Bern" (wc_scale o) (outG ckm_tree nFB F c p)) input p _ P (result_dict _ _ _ _) E eq_refl)|].
  split; [apply result_dict|]. do 3 (split; [reflexivity|]).
  rewrite (outG_num ckm_tree p bern_read nBF B _ (outG ckm_tree nFB F c p) (proj1 B_ok) (proj2 B_ok) nBF_data (fun k => num_of_nonzero _ k (keysFB c p))).
  destruct (flavio_bern_flavio ckm_tree qcd_mb qcd_ms qcd_as (wc_scale o) input p P F B c (proj1 F_ok) (proj1 B_ok) (proj2 F_ok) (proj2 B_ok)) as [H1 H2].
  split; intros k I; refine (eq_trans (num_of_nonzero _ k (keysBF (outG ckm_tree nFB F c p) p)) _); [exact (H1 k I)|].
  destruct (in_dec string_dec k (names flavio)) as [K|K].
  - apply H2. destruct (in_dec string_dec k (names flavio_sdnu)) as [S|S]; auto. elim I. apply in_flavio_read; auto.
  - apply num_of_absent. rewrite (keys_BF ckm_tree p B (outG ckm_tree nFB F c p)). exact K.
Qed.
Theorem user_Bern_flavio o input p c : okp (wc_scale o) input p -> fst (wc_dict o) = Ok c -> In (wc_eft o) wets -> wc_basis o = "Bern" ->
  exists w w' c', fst (translate o "flavio" input) = Ok w /\ fst (translate w "Bern" input) = Ok w' /\ fst (wc_dict w') = Ok c' /\
  wc_eft w' = wc_eft o /\ wc_scale w' = wc_scale o /\ wc_basis w' = "Bern" /\ (forall k, In k bern_kept -> num_of c' k = num_of c k).
Proof.
  intros P D E Hb. eexists. eexists. eexists. split; [exact (Bern_flavio_eq o input p c P D E Hb)|].
  split; [exact (flavio_Bern_eq (result (wc_eft o) "flavio" (wc_scale o) (outG ckm_tree nBF B c p)) input p _ P (result_dict _ _ _ _) E eq_refl)|].
  split; [apply result_dict|]. do 3 (split; [reflexivity|]).
  rewrite (outG_num ckm_tree p flavio_read nFB F _ (outG ckm_tree nBF B c p) (proj1 F_ok) (proj2 F_ok) nFB_data (fun k => num_of_nonzero _ k (keysBF c p))).
  destruct (bern_flavio_bern ckm_tree qcd_mb qcd_ms qcd_as (wc_scale o) input p P F B c (proj1 F_ok) (proj1 B_ok) (proj2 F_ok) (proj2 B_ok)) as [H1 _].
  intros k I. exact (eq_trans (num_of_nonzero _ k (keysFB (outG ckm_tree nBF B c p) p)) (H1 k I)).
Qed.

(** ** FlavorKit *)
Theorem user_FlavorKit_flavio o input p c j : okp (wc_scale o) input p -> fst (wc_dict o) = Ok c -> wc_eft o = "WET" -> wc_basis o = "FlavorKit" ->
  FlavorKit_to_JMS qcd_mb qcd_ms qcd_as c (wc_scale o) input = Ok j -> wf j ->
  exists w w', fst (translate o "JMS" input) = Ok w /\ fst (translate w "flavio" input) = Ok w' /\ fst (translate o "flavio" input) = Ok w'.
Proof.
  intros P D E Hb R Wj. exists (result "WET" "JMS" (wc_scale o) j). exists (result "WET" "flavio" (wc_scale o) (outJ ckm_tree nJF J j p)). split; [refine (tr "WET" "FlavorKit" "JMS" _ o input c j _ E Hb D R); reflexivity|].
  assert (reg_FlavorKit_flavio ckm_tree qcd_mb qcd_ms qcd_as all_wcs_of with_nan c (wc_scale o) input = Ok (outJ ckm_tree nJF J j p)) as Q.
  { unfold reg_FlavorKit_flavio. rewrite R. cbn [bind]. rewrite (run_JF ckm_tree qcd_mb qcd_ms qcd_as J (wc_scale o) input p J_good P j). apply plain_nums. }
  split; [|refine (tr "WET" "FlavorKit" "flavio" _ o input c _ _ E Hb D Q); reflexivity].
  rewrite (to_flavio_eq (result "WET" "JMS" (wc_scale o) j) input p _ P (result_dict _ _ _ _) (or_introl eq_refl) eq_refl).
  cbn [result new_wc wc_eft wc_scale].
  rewrite (outJ_num ckm_tree J p J_good nJF _ j nJF_data (fun k => num_of_nonzero _ k Wj)). reflexivity.
Qed.
Theorem user_FlavorKit o input p c : get_parameters qcd_mb qcd_ms qcd_as (wc_scale o) input = Ok p -> usable_fk p -> fst (wc_dict o) = Ok c -> wf c ->
  (forall k, In k (dkeys c) -> exists t, common k t) -> wc_eft o = "WET" -> wc_basis o = "FlavorKit" ->
  exists w w', fst (translate o "JMS" input) = Ok w /\ fst (translate w "FlavorKit" input) = Ok w' /\ fst (wc_dict w') = Ok (filter nonzero c) /\
  wc_eft w' = "WET" /\ wc_basis w' = "FlavorKit" /\ wc_scale w' = wc_scale o.
Proof.
  intros G Uf D Wf K E Hb. destruct (fk_round_nonzero p c Uf Wf K) as (d & R1 & R2).
  assert (reg_FlavorKit_JMS qcd_mb qcd_ms qcd_as c (wc_scale o) input = Ok d) as Q1 by (unfold reg_FlavorKit_JMS, FlavorKit_to_JMS; rewrite G; exact R1).
  assert (reg_JMS_FlavorKit qcd_mb qcd_ms qcd_as (filter nonzero d) (wc_scale o) input = Ok (filter nonzero c)) as Q2 by (unfold reg_JMS_FlavorKit, JMS_to_FlavorKit; rewrite G; exact R2).
  exists (result "WET" "JMS" (wc_scale o) d). exists (result "WET" "FlavorKit" (wc_scale o) (filter nonzero c)). split; [refine (tr "WET" "FlavorKit" "JMS" _ o input c d _ E Hb D Q1); reflexivity|].
  split; [refine (tr "WET" "JMS" "FlavorKit" _ (result "WET" "JMS" (wc_scale o) d) input _ _ _ eq_refl eq_refl (result_dict _ _ _ _) Q2); reflexivity|].
  split; [rewrite result_dict, nonzero_idem; reflexivity|auto].
Qed.

(** ** Fewer quarks *)
Definition heavy (eft : string) : list flavour :=
  if String.eqb eft "WET-4" then [Qd F3] else if String.eqb eft "WET-3" then [Qd F3; Qu F2] else [].
Section Fewer.
Variables (e e' : string).
Hypothesis step : In (e, e') [("WET", "WET-4"); ("WET-4", "WET-3")].
Lemma steps : In e wets /\ In e' wets /\ In (e, e', "JMS") wetn_matchers /\ In (e, e', "Bern") wetn_matchers /\ In (e, e', "flavio") wetn_matchers.
Proof. destruct step as [H|[H|[]]]; injection H as <- <-; simpl; tauto. Qed.
Theorem fewer_flavio o input p c : okp (wc_scale o) input p -> fst (wc_dict o) = Ok c -> wf c -> wc_eft o = e -> wc_basis o = "JMS" ->
  lists_without (heavy e') J (all_wcs_of e' "JMS") -> names_without (heavy e') flavio (all_wcs_of e' "flavio") ->
  exists w1 w2 w, fst (wmatch o e' "JMS" input) = Ok w1 /\ fst (translate w1 "flavio" input) = Ok w /\
    fst (translate o "flavio" input) = Ok w2 /\ fst (wmatch w2 e' "flavio" input) = Ok w.
Proof.
  intros P D Wf E Hb L K. destruct steps as (S1 & S2 & S3 & S4 & S5). eexists. eexists. eexists.
  split; [exact (filter_eq o input c D _ _ _ S3 E Hb)|].
  split; [exact (to_flavio_eq (result e' "JMS" (wc_scale o) _) input p _ P (result_dict _ _ _ _) S2 eq_refl)|].
  split; [apply (to_flavio_eq o input p c P D); [rewrite E; exact S1|exact Hb]|].
  rewrite E. rewrite (filter_eq (result e "flavio" (wc_scale o) (outJ ckm_tree nJF J c p)) input _ (result_dict _ _ _ _) _ _ _ S5 eq_refl eq_refl).
  cbn [result new_wc wc_eft wc_scale].
  rewrite (outJ_num ckm_tree J p J_good nJF _ (key_filter (all_wcs_of e' "JMS") c) nJF_data (fun k => num_of_nonzero _ k (proj1 (key_filter_spec _ c Wf)))).
  rewrite <- (remove_J ckm_tree J p (heavy e') J_good flavio nJF (all_wcs_of e' "JMS") (all_wcs_of e' "flavio") c nJF_same nJF_data (keys_JF ckm_tree J p c) flavio_nodup Wf L K).
  unfold result. rewrite nonzero_idem. reflexivity.
Qed.
Theorem fewer_Bern o input p c : okp (wc_scale o) input p -> fst (wc_dict o) = Ok c -> wf c -> wc_eft o = e -> wc_basis o = "JMS" ->
  lists_without (heavy e') J (all_wcs_of e' "JMS") -> names_without (heavy e') bern (all_wcs_of e' "Bern") ->
  exists w1 w2 w, fst (wmatch o e' "JMS" input) = Ok w1 /\ fst (translate w1 "Bern" input) = Ok w /\
    fst (translate o "Bern" input) = Ok w2 /\ fst (wmatch w2 e' "Bern" input) = Ok w.
Proof.
  intros P D Wf E Hb L K. destruct steps as (S1 & S2 & S3 & S4 & S5). eexists. eexists. eexists.
  split; [exact (filter_eq o input c D _ _ _ S3 E Hb)|].
  split; [exact (to_Bern_eq (result e' "JMS" (wc_scale o) _) input p _ P (result_dict _ _ _ _) S2 eq_refl)|].
  split; [apply (to_Bern_eq o input p c P D); [rewrite E; exact S1|exact Hb]|].
  rewrite E. rewrite (filter_eq (result e "Bern" (wc_scale o) (outJ ckm_tree nJB J c p)) input _ (result_dict _ _ _ _) _ _ _ S4 eq_refl eq_refl).
  cbn [result new_wc wc_eft wc_scale].
  rewrite (outJ_num ckm_tree J p J_good nJB _ (key_filter (all_wcs_of e' "JMS") c) nJB_data (fun k => num_of_nonzero _ k (proj1 (key_filter_spec _ c Wf)))).
  rewrite <- (remove_J ckm_tree J p (heavy e') J_good bern nJB (all_wcs_of e' "JMS") (all_wcs_of e' "Bern") c nJB_same nJB_data (keys_JB ckm_tree J p c) bern_nodup Wf L K).
  unfold result. rewrite nonzero_idem. reflexivity.
Qed.
Theorem fewer_Bern_flavio o input p c : okp (wc_scale o) input p -> fst (wc_dict o) = Ok c -> wf c -> wc_eft o = e -> wc_basis o = "Bern" ->
  names_without (heavy e') bern (all_wcs_of e' "Bern") -> names_without (heavy e') flavio (all_wcs_of e' "flavio") ->
  exists w1 w2 w, fst (wmatch o e' "Bern" input) = Ok w1 /\ fst (translate w1 "flavio" input) = Ok w /\
    fst (translate o "flavio" input) = Ok w2 /\ fst (wmatch w2 e' "flavio" input) = Ok w.
Proof.
  intros P D Wf E Hb L K. destruct steps as (S1 & S2 & S3 & S4 & S5). eexists. eexists. eexists.
  split; [exact (filter_eq o input c D _ _ _ S4 E Hb)|].
  split; [exact (Bern_flavio_eq (result e' "Bern" (wc_scale o) _) input p _ P (result_dict _ _ _ _) S2 eq_refl)|].
  split; [apply (Bern_flavio_eq o input p c P D); [rewrite E; exact S1|exact Hb]|].
  rewrite E. rewrite (filter_eq (result e "flavio" (wc_scale o) (outG ckm_tree nBF B c p)) input _ (result_dict _ _ _ _) _ _ _ S5 eq_refl eq_refl).
  cbn [result new_wc wc_eft wc_scale].
  rewrite (outG_num ckm_tree p bern_read nBF B _ (key_filter (all_wcs_of e' "Bern") c) (proj1 B_ok) (proj2 B_ok) nBF_data (fun k => num_of_nonzero _ k (proj1 (key_filter_spec _ c Wf)))).
  rewrite <- (remove_G ckm_tree p (heavy e') bern flavio bern_read nBF B (all_wcs_of e' "Bern") (all_wcs_of e' "flavio") c (proj1 B_ok) (proj2 B_ok) nBF_same nBF_data (keys_BF ckm_tree p B c) flavio_nodup Wf L K).
  unfold result. rewrite nonzero_idem. reflexivity.
Qed.
End Fewer.
(** Free of heavy quarks *)
Theorem user_free o input p c t : okp (wc_scale o) input p -> fst (wc_dict o) = Ok c -> In (wc_eft o) wets -> wc_basis o = "JMS" ->
  (forall op x, jms_ix op x = true -> num_of c (cname op x) <> C0 -> without (heavy (wc_eft o)) (jms_content op x) = true) ->
  In t ["flavio"; "Bern"] -> exists w c', fst (translate o t input) = Ok w /\ fst (wc_dict w) = Ok c' /\
  forall k, In k (dkeys c') -> exists r, In (k, r) (if String.eqb t "flavio" then flavio else bern) /\ without (heavy (wc_eft o)) r = true.
Proof.
  intros P D E Hb L [<-|[<-|[]]]; eexists; eexists.
  - split; [exact (to_flavio_eq o input p c P D E Hb)|]. split; [apply result_dict|]. intros k I.
    exact (free_J ckm_tree J p (heavy (wc_eft o)) J_good flavio nJF c k nJF_same nJF_data (keys_JF ckm_tree J p c) flavio_nodup L I).
  - split; [exact (to_Bern_eq o input p c P D E Hb)|]. split; [apply result_dict|]. intros k I.
    exact (free_J ckm_tree J p (heavy (wc_eft o)) J_good bern nJB c k nJB_same nJB_data (keys_JB ckm_tree J p c) bern_nodup L I).
Qed.
End User.
