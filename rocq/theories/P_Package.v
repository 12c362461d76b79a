(** C63-C65: the installed package, as used through WC.translate and WC.match.
    [lists eft basis]: the coefficients of the basis files, which are not part of /repo.  [float_of_str], [ckm_tree],
    [msvd_values], [qcd_mb], [qcd_ms], [qcd_as] come from other packages, [with_nan] stands for results with NaN. *)
From Coq Require Import String List Bool Arith Reals Lra.
From Verif Require Import PyBase PyDict Cplx Tensor Wc WetN Params Smeft SmeftSpec SmeftNames SmeftMass SmeftReg SmeftWarsaw SmeftTab
  MatchSpec MatchRot MatchSm MatchThm Match MatchWarsaw MatchWet MatchEx
  WetExpr Wet WetJms WetNf WetSpec WetChk WetThm WetVals WetList WetAux FkTab FlavorKit Package PackWet PackMatch PackEx MatchUser.
Import ListNotations.
Open Scope string_scope.
Open Scope list_scope.
Open Scope nat_scope.
#[local] Opaque Ceq_dec.
#[local] Opaque JMS_to_Bern_prog JMS_to_flavio_prog JMS_to_FormFlavor_prog JMS_to_EOS_prog Bern_to_flavio_prog flavio_to_Bern_prog.
#[local] Opaque nf nf_ok deqb leqb mirror_names.
#[local] Opaque nJB nJF nJX nJE nBF nFB bern_read flavio_read bern flavio eos formflavor bern_of_flavio J0 fk_jms fk_jms_conj MatchTab.match_tab SmeftTab.WC_keys.
Local Notation nonzero := Wc.nonzero.

(** All translations (EFT, from, to) ... *)
Definition translations : list (string * string * string) :=
  [("SMEFT", "Warsaw", "Warsaw mass"); ("SMEFT", "Warsaw", "Warsaw up"); ("SMEFT", "Warsaw up", "Warsaw");
   ("WET", "JMS", "flavio"); ("WET-4", "JMS", "flavio"); ("WET-3", "JMS", "flavio");
   ("WET", "Bern", "flavio"); ("WET", "flavio", "Bern"); ("WET-4", "Bern", "flavio"); ("WET-4", "flavio", "Bern");
   ("WET-3", "Bern", "flavio"); ("WET-3", "flavio", "Bern"); ("WET", "JMS", "EOS");
   ("WET", "JMS", "Bern"); ("WET-4", "JMS", "Bern"); ("WET-3", "JMS", "Bern"); ("WET", "JMS", "formflavor");
   ("WET", "FlavorKit", "JMS"); ("WET", "JMS", "FlavorKit"); ("WET", "FlavorKit", "flavio")].
(** ... and matchings (EFT, basis, to EFT, to basis). *)
Definition matchings : list (string * string * string * string) :=
  [("SMEFT", "Warsaw up", "WET", "JMS"); ("SMEFT", "Warsaw", "WET", "JMS"); ("SMEFT", "Warsaw", "WET", "flavio");
   ("SMEFT", "Warsaw", "WET", "EOS"); ("SMEFT", "Warsaw", "WET", "Bern");
   ("WET", "flavio", "WET-4", "flavio"); ("WET-4", "flavio", "WET-3", "flavio"); ("WET", "Bern", "WET-4", "Bern");
   ("WET-4", "Bern", "WET-3", "Bern"); ("WET", "JMS", "WET-4", "JMS"); ("WET-4", "JMS", "WET-3", "JMS"); ("WET-3", "JMS", "WET-2", "JMS")].
(** [q] and [r] have the same number of fields of every flavour. *)
Definition same_amounts (q r : content) : Prop := forall f, amount q f = amount r f.
(** The quarks which the theory does not have; the top quark is in none. *)
Definition absent (eft : string) : list flavour :=
  if String.eqb eft "WET-4" then [Qd F3] else if String.eqb eft "WET-3" then [Qd F3; Qu F2] else [].
(** The coefficients [K] of a basis with the contents [q] are those without absent quarks. *)
Definition light_only (eft : string) (q : coefs) (K : list string) : Prop :=
  forall k r, In (k, r) q -> (In k K <-> forall f, In f (absent eft) -> amount r f = 0).
Definition light_only_JMS (eft : string) (J K : list string) : Prop :=
  forall op x, jms_ix op x = true -> In (cname op x) J -> (In (cname op x) K <-> forall f, In f (absent eft) -> amount (jms_content op x) f = 0).
Lemma without_spec hs q : without hs q = true <-> forall f, In f hs -> amount q f = 0.
Proof. unfold without. rewrite forallb_forall. split; intros H f I; apply Nat.eqb_eq; auto. Qed.
Lemma light_only_ok e q K : light_only e q K <-> names_without (heavy e) q K.
Proof. split; intros H k r I; specialize (H k r I); rewrite without_spec in *; exact H. Qed.
Lemma light_only_JMS_ok e J K : light_only_JMS e J K <-> lists_without (heavy e) J K.
Proof. split; intros H op x I M; specialize (H op x I M); rewrite without_spec in *; exact H. Qed.
Lemma same_amounts_ok q r : same_fields q r = true <-> same_amounts q r.
Proof.
  split; [intros H f; exact (same_amount q r f H)|]. intros H. unfold same_fields. apply forallb_forall. intros f _. apply Nat.eqb_eq. apply H.
Qed.

Definition triple_dec (a b : string * string * string) : {a = b} + {a <> b}.
Proof. decide equality; [apply string_dec|decide equality; apply string_dec]. Defined.
Definition quad_dec (a b : string * string * string * string) : {a = b} + {a <> b}.
Proof. decide equality; [apply string_dec|apply triple_dec]. Defined.
Lemma bind_assoc {A B D : Type} (r : res A) (f : A -> res B) (g : B -> res D) :
  (let! y := (let! x := r in f x) in g y) = let! x := r in let! y := f x in g y.
Proof. destruct r; reflexivity. Qed.
Lemma bind_ok {A : Type} (r : res A) : (let! x := r in Ok x) = r.
Proof. destruct r; reflexivity. Qed.

Ltac show_match := cbn [snd]; unfold reg_up_jms, reg_warsaw_jms, reg_warsaw_flavio, reg_warsaw_bern, reg_warsaw_eos, reg_filter, warsaw_up_to_jms, warsaw_to_jms, warsaw_to_flavio, warsaw_to_bern, warsaw_to_eos;
  first [reflexivity
  | destruct (warsaw_to_warsaw_up _ _ _ _) as [uu|]; cbn [bind]; [|reflexivity]; destruct (match_all _ _ _ _); reflexivity].
Section Package.
Variable float_of_str : string -> option R.
Variable ckm_tree : R -> R -> R -> R -> mat.
Variable msvd_values : mat -> fl -> C.
Variable qcd_mb qcd_ms : R -> R -> R -> res R.
Variable qcd_as : R -> R -> res R.
Variable lists : string -> string -> list string.
Variable with_nan : dict string cval -> res (dict string C).
(** What the user calls: the result and the object afterwards *)
Definition do_translate (o : wc) (t : string) (input : option params) : res wc * wc :=
  Wc.translate float_of_str (installed ckm_tree msvd_values qcd_mb qcd_ms qcd_as lists with_nan) o t input.
Definition do_match (o : wc) (e t : string) (input : option params) : res wc * wc :=
  Wc.wmatch float_of_str (installed_m ckm_tree qcd_mb qcd_ms qcd_as lists with_nan) o e t input.
(** The coefficients as numbers *)
Definition coefficients_of (o : wc) : res (dict string C) := fst (Wc.wc_dict float_of_str o).
Notation J := (lists "WET" "JMS").
Notation B := (lists "WET" "Bern").
Notation F := (lists "WET" "flavio").
Notation U := (lists "SMEFT" "Warsaw up").
Notation W := (lists "SMEFT" "Warsaw").
Notation okp := (okp ckm_tree qcd_mb qcd_ms qcd_as).

(** C63: every translation and matching there is, with the EFTs it is offered for and the function that is applied.
    SMEFT translations get no parameters; a WET function serves WET, WET-4 and WET-3. *)
Notation numbers := (Package.plain with_nan).
Definition wet_efts : list string := ["WET"; "WET-4"; "WET-3"].
Definition translation_table : list (list string * string * string * convfun) :=
  [(["SMEFT"], "Warsaw", "Warsaw mass", fun c _ _ => warsaw_to_warsawmass ckm_tree msvd_values None c);
   (["SMEFT"], "Warsaw", "Warsaw up", fun c _ _ => warsaw_to_warsaw_up ckm_tree U None c);
   (["SMEFT"], "Warsaw up", "Warsaw", fun c _ _ => warsaw_up_to_warsaw ckm_tree W None c);
   (wet_efts, "JMS", "flavio", fun c s i => numbers (JMS_to_flavio ckm_tree qcd_mb qcd_ms qcd_as J (nums c) s i));
   (wet_efts, "JMS", "Bern", fun c s i => numbers (JMS_to_Bern ckm_tree qcd_mb qcd_ms qcd_as J (nums c) s i));
   (wet_efts, "Bern", "flavio", fun c s i => numbers (Bern_to_flavio ckm_tree qcd_mb qcd_ms qcd_as B (nums c) s i));
   (wet_efts, "flavio", "Bern", fun c s i => numbers (flavio_to_Bern ckm_tree qcd_mb qcd_ms qcd_as F (nums c) s i));
   (["WET"], "JMS", "EOS", fun c s i => numbers (JMS_to_EOS ckm_tree qcd_mb qcd_ms qcd_as J (nums c) s i));
   (["WET"], "JMS", "formflavor", fun c s i => numbers (JMS_to_FormFlavor ckm_tree qcd_mb qcd_ms qcd_as J (nums c) s i));
   (["WET"], "JMS", "FlavorKit", fun c s i => JMS_to_FlavorKit qcd_mb qcd_ms qcd_as c s i);
   (["WET"], "FlavorKit", "JMS", fun c s i => FlavorKit_to_JMS qcd_mb qcd_ms qcd_as c s i);
   (["WET"], "FlavorKit", "flavio", fun c s i => let! j := FlavorKit_to_JMS qcd_mb qcd_ms qcd_as c s i in numbers (JMS_to_flavio ckm_tree qcd_mb qcd_ms qcd_as J (nums j) s i))].
Definition translation (e f t : string) : option convfun :=
  option_map snd (List.find (fun x => mem e (fst (fst (fst x))) && String.eqb f (snd (fst (fst x))) && String.eqb t (snd (fst x))) translation_table).
(** Only one step at a time inside the WET, and the basis stays. *)
Definition matching (e f e' t : string) : option convfun :=
  if String.eqb e "SMEFT" then
    if negb (String.eqb e' "WET") then None else
    if String.eqb f "Warsaw up" then (if String.eqb t "JMS" then Some (fun c _ i => match_all ckm_tree J c i) else None) else
    if String.eqb f "Warsaw" then option_map (fun g : dict string C -> R -> option params -> res (dict string C) => fun c s i => let! u := warsaw_to_warsaw_up ckm_tree U i c in let! j := match_all ckm_tree J u i in g j s i)
      (dget [("JMS", fun j _ _ => Ok j);
             ("flavio", fun j s i => numbers (JMS_to_flavio ckm_tree qcd_mb qcd_ms qcd_as J (nums j) s i));
             ("Bern", fun j s i => numbers (JMS_to_Bern ckm_tree qcd_mb qcd_ms qcd_as J (nums j) s i));
             ("EOS", fun j s i => numbers (JMS_to_EOS ckm_tree qcd_mb qcd_ms qcd_as J (nums j) s i))] t)
    else None
  else if String.eqb f t && match dget [("WET", ("WET-4", ["JMS"; "Bern"; "flavio"])); ("WET-4", ("WET-3", ["JMS"; "Bern"; "flavio"])); ("WET-3", ("WET-2", ["JMS"]))] e with
                            | Some (e2, bs) => String.eqb e' e2 && mem f bs | None => false end
    then Some (fun c _ _ => Ok (filter (fun kz => mem (fst kz) (lists e' t)) c)) else None.
Theorem C63_translations : forall o t input,
  match translation (wc_eft o) (wc_basis o) t with
  | None => do_translate o t input = (Err ValueError, o)
  | Some f => fst (do_translate o t input) = let! c := coefficients_of o in let! d := f c (wc_scale o) input in
                Ok (new_wc (wc_eft o) t (wc_scale o) (dict2values (filter nonzero d)))
  end.
Proof.
  intros o t input. pose proof (refused float_of_str ckm_tree msvd_values qcd_mb qcd_ms qcd_as lists with_nan o t input) as R.
  destruct (in_dec triple_dec (wc_eft o, wc_basis o, t) translations) as [I|N].
  - clear R. assert (forall e f t' fn, (e, f, t') = (wc_eft o, wc_basis o, t) ->
      reg_lookup (installed ckm_tree msvd_values qcd_mb qcd_ms qcd_as lists with_nan) (e, f, t') = Ok (Translator e f t' fn) -> fst (do_translate o t input) = let! c := coefficients_of o in let! d := fn c (wc_scale o) input in
                Ok (new_wc (wc_eft o) t (wc_scale o) (dict2values (filter nonzero d)))) as T.
    { intros e f t' fn Q L. injection Q as -> -> ->. exact (translate_run float_of_str ckm_tree msvd_values qcd_mb qcd_ms qcd_as lists with_nan _ _ _ fn o input L eq_refl eq_refl). }
    repeat (destruct I as [I|I]; [pose proof (T _ _ _ _ I eq_refl) as G; injection I as E1 E2 E3; clear T; rewrite <- E1, <- E2, <- E3 in *; exact G|]). destruct I.
  - pose proof (R N) as R'. clear R. unfold translation. destruct (List.find _ translation_table) as [x|] eqn:Fx; [|exact R'].
    elim N. apply find_some in Fx. destruct Fx as [I Q]. apply andb_true_iff in Q. destruct Q as [Q Q3]. apply andb_true_iff in Q. destruct Q as [Q1 Q2].
    apply mem_In in Q1. apply String.eqb_eq in Q2, Q3. rewrite Q2, Q3. clear Q2 Q3 N R'.
    repeat (destruct I as [<-|I]; [cbn [fst snd] in *; unfold wet_efts in Q1; cbn [In] in Q1; repeat (destruct Q1 as [<-|Q1]; [simpl; tauto|]); destruct Q1|]). destruct I.
Qed.
Theorem C63_matchings : forall o e t input,
  match matching (wc_eft o) (wc_basis o) e t with
  | None => do_match o e t input = (Err ValueError, o)
  | Some f => fst (do_match o e t input) = let! c := coefficients_of o in let! d := f c (wc_scale o) input in
                Ok (new_wc e t (wc_scale o) (dict2values (filter nonzero d)))
  end.
Proof.
  intros o e t input. pose proof (refused_m float_of_str ckm_tree qcd_mb qcd_ms qcd_as lists with_nan o e t input) as R.
  destruct (in_dec quad_dec (wc_eft o, wc_basis o, e, t) matchings) as [I|N].
  - clear R. assert (forall e0 f e' t' fn, (e0, f, e', t') = (wc_eft o, wc_basis o, e, t) ->
      reg_lookup (installed_m ckm_tree qcd_mb qcd_ms qcd_as lists with_nan) (e0, f, e', t') = Ok (Matcher e0 f e' t' fn) -> fst (do_match o e t input) = let! c := coefficients_of o in let! d := fn c (wc_scale o) input in
                Ok (new_wc e t (wc_scale o) (dict2values (filter nonzero d)))) as T.
    { intros e0 f e' t' fn Q L. injection Q as -> -> -> ->. exact (match_run float_of_str ckm_tree qcd_mb qcd_ms qcd_as lists with_nan _ _ _ _ fn o input L eq_refl eq_refl). }
    repeat (destruct I as [I|I]; [pose proof (T _ _ _ _ _ I eq_refl) as G; injection I as E1 E2 E3 E4; clear T; rewrite <- E1, <- E2, <- E3, <- E4 in *; clear E1 E2 E3 E4;
      lazymatch goal with |- context [matching ?a ?b ?c ?d] => let m := eval hnf in (matching a b c d) in change (matching a b c d) with m; cbv iota beta end;
      rewrite G; clear G; destruct (coefficients_of o) as [cc|]; [cbn [bind]; show_match|reflexivity]|]). destruct I.
  - pose proof (R N) as R'. clear R. destruct (matching (wc_eft o) (wc_basis o) e t) as [x|] eqn:Fx; [|exact R'].
    elim N. clear R' N. unfold matching in Fx. destruct (String.eqb (wc_eft o) "SMEFT") eqn:E1.
    + apply String.eqb_eq in E1. rewrite E1. destruct (String.eqb e "WET") eqn:E2; [|discriminate]. apply String.eqb_eq in E2. rewrite E2. cbn [negb] in Fx.
      destruct (String.eqb (wc_basis o) "Warsaw up") eqn:E3.
      * apply String.eqb_eq in E3. rewrite E3. destruct (String.eqb t "JMS") eqn:E4; [|discriminate]. apply String.eqb_eq in E4. rewrite E4. simpl. tauto.
      * destruct (String.eqb (wc_basis o) "Warsaw") eqn:E4; [|discriminate]. apply String.eqb_eq in E4. rewrite E4.
        match type of Fx with option_map _ (dget ?l t) = _ => destruct (dget l t) as [g|] eqn:D; [|discriminate]; apply dget_In in D end.
        repeat (destruct D as [D|D]; [apply (f_equal fst) in D; cbn [fst] in D; rewrite <- D; simpl; tauto|]). destruct D.
    + destruct (String.eqb (wc_basis o) t) eqn:E3; [|discriminate]. apply String.eqb_eq in E3. rewrite E3 in *. cbn [andb] in Fx.
      match type of Fx with context [dget ?l (wc_eft o)] => destruct (dget l (wc_eft o)) as [[e2 bs]|] eqn:D; [|discriminate]; apply dget_In in D end.
      destruct (String.eqb e e2) eqn:E4; [|discriminate]. apply String.eqb_eq in E4. subst e2. cbn [andb] in Fx. destruct (mem t bs) eqn:M; [|discriminate]. apply mem_In in M.
      repeat (destruct D as [D|D]; [injection D as <- <- <-; cbn [In] in M; repeat (destruct M as [<-|M]; [simpl; tauto|]); destruct M|]). destruct D.
Qed.

Section Wet.
Hypothesis J_good : good J.
Hypothesis B_ok : NoDup B /\ incl bern_read B.
Hypothesis F_ok : NoDup F /\ incl flavio_read F.
Variables (o : wc) (input : option params) (p : params) (c : dict string C).
Hypothesis p_ok : okp (wc_scale o) input p.
Hypothesis coefs : coefficients_of o = Ok c.

(** C63: through the Bern basis one arrives at the same object as directly. *)
Theorem C63_detour : In (wc_eft o) ["WET"; "WET-4"; "WET-3"] -> wc_basis o = "JMS" ->
  exists w w', fst (do_translate o "Bern" input) = Ok w /\ fst (do_translate w "flavio" input) = Ok w' /\ fst (do_translate o "flavio" input) = Ok w'.
Proof. exact (user_detour float_of_str ckm_tree msvd_values qcd_mb qcd_ms qcd_as lists with_nan J_good B_ok o input p c p_ok coefs). Qed.
Theorem C63_flavio_and_back : In (wc_eft o) ["WET"; "WET-4"; "WET-3"] -> wc_basis o = "flavio" ->
  exists w w' c', fst (do_translate o "Bern" input) = Ok w /\ fst (do_translate w "flavio" input) = Ok w' /\ coefficients_of w' = Ok c' /\
  wc_eft w' = wc_eft o /\ wc_scale w' = wc_scale o /\ wc_basis w' = "flavio" /\
  (forall k, In k flavio_read -> num_of c' k = num_of c k) /\ (forall k, ~ In k flavio_read -> num_of c' k = C0).
Proof. exact (user_flavio_Bern float_of_str ckm_tree msvd_values qcd_mb qcd_ms qcd_as lists with_nan B_ok F_ok o input p c p_ok coefs). Qed.
Theorem C63_Bern_and_back : In (wc_eft o) ["WET"; "WET-4"; "WET-3"] -> wc_basis o = "Bern" ->
  exists w w' c', fst (do_translate o "flavio" input) = Ok w /\ fst (do_translate w "Bern" input) = Ok w' /\ coefficients_of w' = Ok c' /\
  wc_eft w' = wc_eft o /\ wc_scale w' = wc_scale o /\ wc_basis w' = "Bern" /\
  (forall k, In k (names bern_of_flavio) -> ~ In k (map fst tensors) -> num_of c' k = num_of c k).
Proof.
  intros E Hb. destruct (user_Bern_flavio float_of_str ckm_tree msvd_values qcd_mb qcd_ms qcd_as lists with_nan B_ok F_ok o input p c p_ok coefs E Hb)
    as (w & w' & c' & H1 & H2 & H3 & H4 & H5 & H6 & H7).
  exists w, w', c'. do 6 (split; [assumption|]). intros k I N. apply H7. exact (in_bern_kept k I N).
Qed.
Theorem C63_FlavorKit_flavio : usable_fk p -> wf c -> incl (dkeys c) fk_names -> wc_eft o = "WET" -> wc_basis o = "FlavorKit" ->
  exists w w', fst (do_translate o "JMS" input) = Ok w /\ fst (do_translate w "flavio" input) = Ok w' /\ fst (do_translate o "flavio" input) = Ok w'.
Proof.
  intros Uf Wc K E Hb. destruct (fk_round p Uf c Wc) as (d & R & Wd & _); [intros k I; apply fk_names_common; apply K; exact I|].
  refine (user_FlavorKit_flavio float_of_str ckm_tree msvd_values qcd_mb qcd_ms qcd_as lists with_nan J_good o input p c d p_ok coefs E Hb _ Wd).
  unfold FlavorKit_to_JMS. rewrite (proj1 p_ok). exact R.
Qed.
Theorem C63_FlavorKit_and_back : usable_fk p -> wf c -> incl (dkeys c) fk_names -> wc_eft o = "WET" -> wc_basis o = "FlavorKit" ->
  exists w w', fst (do_translate o "JMS" input) = Ok w /\ fst (do_translate w "FlavorKit" input) = Ok w' /\
  coefficients_of w' = Ok (filter nonzero c) /\ wc_eft w' = "WET" /\ wc_basis w' = "FlavorKit" /\ wc_scale w' = wc_scale o.
Proof.
  intros Uf Wc K. refine (user_FlavorKit float_of_str ckm_tree msvd_values qcd_mb qcd_ms qcd_as lists with_nan o input p c (proj1 p_ok) Uf coefs Wc _).
  intros k I. apply fk_names_common. apply K. exact I.
Qed.

(** C64: a translated coefficient depends only on coefficients whose operators have the same fields. *)
Theorem C64_same_fields : forall o2 c2 t k r, In (wc_eft o) ["WET"; "WET-4"; "WET-3"] -> wc_basis o = "JMS" ->
  wc_eft o2 = wc_eft o -> wc_basis o2 = "JMS" -> wc_scale o2 = wc_scale o -> coefficients_of o2 = Ok c2 ->
  In (t, k, r) (map (fun x => ("flavio", fst x, snd x)) flavio ++ map (fun x => ("Bern", fst x, snd x)) bern) ->
  (forall op x, jms_ix op x = true -> In (cname op x) J -> same_amounts r (jms_content op x) -> num_of c (cname op x) = num_of c2 (cname op x)) ->
  exists w w2 d d2, fst (do_translate o t input) = Ok w /\ fst (do_translate o2 t input) = Ok w2 /\
    coefficients_of w = Ok d /\ coefficients_of w2 = Ok d2 /\ num_of d k = num_of d2 k.
Proof.
  intros o2 c2 t k r E Hb E2 Hb2 S D2 I A. pose proof p_ok as P2. rewrite <- S in P2. pose proof E as E'. rewrite <- E2 in E'.
  apply in_app_or in I. destruct I as [I|I]; apply in_map_iff in I; destruct I as ([k' r'] & Q & I); cbn [fst snd] in Q; injection Q as <- -> ->.
  - do 4 eexists. split; [exact (to_flavio_eq float_of_str ckm_tree msvd_values qcd_mb qcd_ms qcd_as lists with_nan J_good o input p c p_ok coefs E Hb)|].
    split; [exact (to_flavio_eq float_of_str ckm_tree msvd_values qcd_mb qcd_ms qcd_as lists with_nan J_good o2 input p c2 P2 D2 E' Hb2)|].
    split; [exact (result_dict float_of_str _ _ _ _)|]. split; [exact (result_dict float_of_str _ _ _ _)|].
    refine (eq_trans (num_of_nonzero _ k (keysF ckm_tree lists c p)) (eq_trans _ (eq_sym (num_of_nonzero _ k (keysF ckm_tree lists c2 p))))).
    refine (jsame_dep ckm_tree J p J_good flavio nJF c c2 k r nJF_same (In_dget _ _ _ flavio_nodup I) _).
    intros op x X L F'. exact (A op x X L (proj1 (same_amounts_ok _ _) F')).
  - do 4 eexists. split; [exact (to_Bern_eq float_of_str ckm_tree msvd_values qcd_mb qcd_ms qcd_as lists with_nan J_good o input p c p_ok coefs E Hb)|].
    split; [exact (to_Bern_eq float_of_str ckm_tree msvd_values qcd_mb qcd_ms qcd_as lists with_nan J_good o2 input p c2 P2 D2 E' Hb2)|].
    split; [exact (result_dict float_of_str _ _ _ _)|]. split; [exact (result_dict float_of_str _ _ _ _)|].
    refine (eq_trans (num_of_nonzero _ k (keysB ckm_tree lists c p)) (eq_trans _ (eq_sym (num_of_nonzero _ k (keysB ckm_tree lists c2 p))))).
    refine (jsame_dep ckm_tree J p J_good bern nJB c c2 k r nJB_same (In_dget _ _ _ bern_nodup I) _).
    intros op x X L F'. exact (A op x X L (proj1 (same_amounts_ok _ _) F')).
Qed.
(** If no operator has absent quarks, none has after the translation: JMS to flavio and Bern. *)
Theorem C64_stays_light : forall t, In (wc_eft o) ["WET"; "WET-4"; "WET-3"] -> wc_basis o = "JMS" ->
  (forall op x f, jms_ix op x = true -> num_of c (cname op x) <> C0 -> In f (absent (wc_eft o)) -> amount (jms_content op x) f = 0) ->
  In t ["flavio"; "Bern"] -> exists w c', fst (do_translate o t input) = Ok w /\ coefficients_of w = Ok c' /\
  forall k, In k (dkeys c') -> exists r, In (k, r) (if String.eqb t "flavio" then flavio else bern) /\ forall f, In f (absent (wc_eft o)) -> amount r f = 0.
Proof.
  intros t E Hb A T.
  destruct (user_free float_of_str ckm_tree msvd_values qcd_mb qcd_ms qcd_as lists with_nan J_good o input p c t p_ok coefs E Hb) as (w & c' & H1 & H2 & H3); auto.
  - intros op x X N. apply without_spec. intros f. exact (A op x f X N).
  - exists w, c'. split; [exact H1|]. split; [exact H2|]. intros k I. destruct (H3 k I) as (r & R1 & R2). exists r. split; [exact R1|]. apply without_spec. exact R2.
Qed.
(** Integrating out and translating can be done in either order. *)
Theorem C64_fewer_flavio : forall e e', In (e, e') [("WET", "WET-4"); ("WET-4", "WET-3")] -> wf c -> wc_eft o = e -> wc_basis o = "JMS" ->
  light_only_JMS e' J (lists e' "JMS") -> light_only e' flavio (lists e' "flavio") ->
  exists w1 w2 w, fst (do_match o e' "JMS" input) = Ok w1 /\ fst (do_translate w1 "flavio" input) = Ok w /\
    fst (do_translate o "flavio" input) = Ok w2 /\ fst (do_match w2 e' "flavio" input) = Ok w.
Proof.
  intros e e' S Wc E Hb L K. exact (fewer_flavio float_of_str ckm_tree msvd_values qcd_mb qcd_ms qcd_as lists with_nan J_good B_ok F_ok e e' S o input p c p_ok coefs Wc E Hb
    (proj1 (light_only_JMS_ok _ _ _) L) (proj1 (light_only_ok _ _ _) K)).
Qed.
Theorem C64_fewer_Bern : forall e e', In (e, e') [("WET", "WET-4"); ("WET-4", "WET-3")] -> wf c -> wc_eft o = e -> wc_basis o = "JMS" ->
  light_only_JMS e' J (lists e' "JMS") -> light_only e' bern (lists e' "Bern") ->
  exists w1 w2 w, fst (do_match o e' "JMS" input) = Ok w1 /\ fst (do_translate w1 "Bern" input) = Ok w /\
    fst (do_translate o "Bern" input) = Ok w2 /\ fst (do_match w2 e' "Bern" input) = Ok w.
Proof.
  intros e e' S Wc E Hb L K. exact (fewer_Bern float_of_str ckm_tree msvd_values qcd_mb qcd_ms qcd_as lists with_nan J_good B_ok F_ok e e' S o input p c p_ok coefs Wc E Hb
    (proj1 (light_only_JMS_ok _ _ _) L) (proj1 (light_only_ok _ _ _) K)).
Qed.
Theorem C64_fewer_Bern_flavio : forall e e', In (e, e') [("WET", "WET-4"); ("WET-4", "WET-3")] -> wf c -> wc_eft o = e -> wc_basis o = "Bern" ->
  light_only e' bern (lists e' "Bern") -> light_only e' flavio (lists e' "flavio") ->
  exists w1 w2 w, fst (do_match o e' "Bern" input) = Ok w1 /\ fst (do_translate w1 "flavio" input) = Ok w /\
    fst (do_translate o "flavio" input) = Ok w2 /\ fst (do_match w2 e' "flavio" input) = Ok w.
Proof.
  intros e e' S Wc E Hb L K. exact (fewer_Bern_flavio float_of_str ckm_tree msvd_values qcd_mb qcd_ms qcd_as lists with_nan B_ok F_ok e e' S o input p c p_ok coefs Wc E Hb
    (proj1 (light_only_ok _ _ _) L) (proj1 (light_only_ok _ _ _) K)).
Qed.

(** C65: matching to flavio, Bern or EOS is matching to JMS and translating, with the same exceptions. *)
Theorem C65_through_JMS : forall t, In t ["flavio"; "Bern"; "EOS"] -> (t = "EOS" -> light p) -> wc_eft o = "SMEFT" -> wc_basis o = "Warsaw" ->
  fst (do_match o "WET" t input) = let! w := fst (do_match o "WET" "JMS" input) in fst (do_translate w t input).
Proof.
  intros t [<-|[<-|[<-|[]]]] L E Hb.
  - exact (user_match_flavio float_of_str ckm_tree msvd_values qcd_mb qcd_ms qcd_as lists with_nan J_good o input p p_ok E Hb).
  - exact (user_match_Bern float_of_str ckm_tree msvd_values qcd_mb qcd_ms qcd_as lists with_nan J_good o input p p_ok E Hb).
  - exact (user_match_EOS float_of_str ckm_tree msvd_values qcd_mb qcd_ms qcd_as lists with_nan J_good o input p p_ok E Hb (L eq_refl)).
Qed.
End Wet.

(** C65: with the default CKM matrix matching is translating to Warsaw up and matching. *)
Theorem C65_through_up : forall o input c, wc_eft o = "SMEFT" -> wc_basis o = "Warsaw" -> coefficients_of o = Ok c -> good_dict c ->
  ckm_of ckm_tree (merge_params input) = ckm_of ckm_tree (merge_params None) ->
  fst (do_match o "WET" "JMS" input) = let! w := fst (do_translate o "Warsaw up" input) in fst (do_match w "WET" "JMS" input).
Proof. exact (user_match_up float_of_str ckm_tree msvd_values qcd_mb qcd_ms qcd_as lists with_nan). Qed.
Theorem C65_up_and_back : forall o input c, wc_eft o = "SMEFT" -> wc_basis o = "Warsaw" -> coefficients_of o = Ok c -> good_dict c -> lists_kept U ->
  unitary (ckm_of ckm_tree (merge_params None)) ->
  exists w w' c', fst (do_translate o "Warsaw up" input) = Ok w /\ fst (do_translate w "Warsaw" input) = Ok w' /\ coefficients_of w' = Ok c' /\
  wc_eft w' = "SMEFT" /\ wc_basis w' = "Warsaw" /\ wc_scale w' = wc_scale o /\
  forall op s x, In op WC_keys -> op_shape op = Some s -> In x (idxs s) -> In (sname op x) W ->
    keeps op false x -> (keeps op true x \/ Im (num_of c (sname op x)) = 0%R) -> num_of c' (sname op x) = num_of c (sname op x).
Proof. exact (user_up_down float_of_str ckm_tree msvd_values qcd_mb qcd_ms qcd_as lists with_nan). Qed.
Theorem C65_down_and_back : forall o input c, wc_eft o = "SMEFT" -> wc_basis o = "Warsaw up" -> coefficients_of o = Ok c -> good_dict c -> lists_kept W ->
  unitary (ckm_of ckm_tree (merge_params None)) ->
  exists w w' c', fst (do_translate o "Warsaw" input) = Ok w /\ fst (do_translate w "Warsaw up" input) = Ok w' /\ coefficients_of w' = Ok c' /\
  wc_eft w' = "SMEFT" /\ wc_basis w' = "Warsaw up" /\ wc_scale w' = wc_scale o /\
  forall op s x, In op WC_keys -> op_shape op = Some s -> In x (idxs s) -> In (sname op x) U ->
    keeps op false x -> (keeps op true x \/ Im (num_of c (sname op x)) = 0%R) -> num_of c' (sname op x) = num_of c (sname op x).
Proof. exact (user_down_up float_of_str ckm_tree msvd_values qcd_mb qcd_ms qcd_as lists with_nan). Qed.
End Package.

(** C65 fails if the user passes other CKM parameters: WC.match uses them, WC.translate does not.  The CKM matrix here is
    unitary; with Vus = 0 the direct result and the one through Warsaw up are nonzero and have opposite signs. *)
Theorem C65_ckm_refuted : forall float_of_str msvd_values qcd_mb qcd_ms qcd_as with_nan lists, In "dgamma_12" (lists "WET" "JMS") -> lists "SMEFT" "Warsaw up" = kept_names ->
  let tr := do_translate float_of_str sign_ckm msvd_values qcd_mb qcd_ms qcd_as lists with_nan in
  let ma := do_match float_of_str sign_ckm qcd_mb qcd_ms qcd_as lists with_nan in
  let input := Some [("Vus", 0%R)] in
  (forall a b c g, unitary (sign_ckm a b c g)) /\
  exists o w1 w w2 d1 d2, wc_eft o = "SMEFT" /\ wc_basis o = "Warsaw" /\
    fst (ma o "WET" "JMS" input) = Ok w1 /\ fst (tr o "Warsaw up" input) = Ok w /\ fst (ma w "WET" "JMS" input) = Ok w2 /\
    coefficients_of float_of_str w1 = Ok d1 /\ coefficients_of float_of_str w2 = Ok d2 /\
    num_of d1 "dgamma_12" <> C0 /\ num_of d2 "dgamma_12" = Cneg (num_of d1 "dgamma_12").
Proof.
  intros f m b s a n l I K tr ma input. split; [exact sign_ckm_unitary|].
  destruct (up_ckm_differs f m b s a n l I K) as (w1 & w & w2 & d1 & d2 & H).
  exists (new_wc "SMEFT" "Warsaw" 160 (dict2values dB_ex)), w1, w, w2, d1, d2. split; [reflexivity|]. split; [reflexivity|]. exact H.
Qed.

(** The hypotheses hold: [lists0] lists all coefficients of each theory. *)
Example C63_case : good (lists0 "WET" "JMS") /\ (NoDup (lists0 "WET" "Bern") /\ incl bern_read (lists0 "WET" "Bern")) /\
  (NoDup (lists0 "WET" "flavio") /\ incl flavio_read (lists0 "WET" "flavio")) /\ okp ckm1 mb4 ms1 as1 5 None p1 /\ usable_fk p1 /\
  (forall f, coefficients_of f (new_wc "WET" "JMS" 5 (dict2values [("VddLL_1213", Ci)])) = Ok [("VddLL_1213", Ci)]) /\
  In ("WET", "FlavorKit", "flavio") translations /\ ~ In ("WET-2", "JMS", "flavio") translations /\ ~ In ("WET", "EOS", "JMS") translations /\
  ~ In ("WET", "JMS", "WET-3", "JMS") matchings.
Proof.
  split; [exact J0_good|]. split; [exact (conj bern_nodup bern_read_in)|]. split; [exact (conj flavio_nodup flavio_read_in)|].
  split; [exact p1_ok|].
  split; [unfold usable_fk; change (0 < 10 / 1279 /\ 5109989461 / 10000000000000 <> 0 /\ 1056583745 / 10000000000 <> 0 /\ 177686 / 100000 <> 0)%R; lra|].
  split; [intros f; apply new_dict|]. split; [simpl; auto 25|].
  split; [|split]; intros H; repeat (destruct H as [H|H]; [discriminate|]); destruct H.
Qed.
Example C64_case : light_only_JMS "WET-4" (lists0 "WET" "JMS") (lists0 "WET-4" "JMS") /\ light_only_JMS "WET-3" (lists0 "WET" "JMS") (lists0 "WET-3" "JMS") /\
  light_only "WET-4" flavio (lists0 "WET-4" "flavio") /\ light_only "WET-3" flavio (lists0 "WET-3" "flavio") /\
  light_only "WET-4" bern (lists0 "WET-4" "Bern") /\ light_only "WET-3" bern (lists0 "WET-3" "Bern") /\
  amount (jms_content "VddLL" [F1; F2; F1; F2]) (Qd F1) = 2 /\ amount (jms_content "VddLL" [F1; F2; F1; F2]) (Qd F3) = 0 /\
  amount (jms_content "VddLL" [F1; F2; F1; F3]) (Qd F3) = 1.
Proof.
  split; [apply light_only_JMS_ok; exact (jms_free_ok (heavy "WET-4"))|]. split; [apply light_only_JMS_ok; exact (jms_free_ok (heavy "WET-3"))|].
  split; [apply light_only_ok; exact (coefs_free_ok (heavy "WET-4") flavio flavio_nodup)|]. split; [apply light_only_ok; exact (coefs_free_ok (heavy "WET-3") flavio flavio_nodup)|].
  split; [apply light_only_ok; exact (coefs_free_ok (heavy "WET-4") bern bern_nodup)|]. split; [apply light_only_ok; exact (coefs_free_ok (heavy "WET-3") bern bern_nodup)|].
  repeat split; reflexivity.
Qed.
Example C65_case : good_dict dB_ex /\ lists_kept (lists0 "SMEFT" "Warsaw up") /\ unitary (ckm_of sign_ckm (merge_params None)) /\ light p1 /\
  lists0 "SMEFT" "Warsaw up" = kept_names /\ ckm_of sign_ckm (merge_params (Some [("Vcb", 1%R)])) = ckm_of sign_ckm (merge_params None).
Proof.
  split; [exact dB_good|]. split; [exact kept_names_list|]. split; [apply sign_ckm_unitary|]. split; [exact p1_light|]. split; reflexivity.
Qed.

Print Assumptions C63_translations.
Print Assumptions C63_matchings.
Print Assumptions C63_detour.
Print Assumptions C63_flavio_and_back.
Print Assumptions C63_Bern_and_back.
Print Assumptions C63_FlavorKit_flavio.
Print Assumptions C63_FlavorKit_and_back.
Print Assumptions C64_same_fields.
Print Assumptions C64_stays_light.
Print Assumptions C64_fewer_flavio.
Print Assumptions C64_fewer_Bern.
Print Assumptions C64_fewer_Bern_flavio.
Print Assumptions C65_through_JMS.
Print Assumptions C65_through_up.
Print Assumptions C65_up_and_back.
Print Assumptions C65_down_and_back.
Print Assumptions C65_ckm_refuted.
