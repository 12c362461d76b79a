(** C40: which parameters the SMEFT translators, the matching and the WET translators use, and how; C24: the neutrino masses in the mass basis. *)
From Coq Require Import String Ascii List Bool Arith ZArith Reals Lra Lia FunctionalExtensionality.
From Verif Require Import PyBase PyDict Cplx Tensor SmeftSyntax SmeftTab SmeftSymm Wc Params Smeft SmeftSpec SmeftNames SmeftRot SmeftWarsaw SmeftMass SmeftFields MatchOps MatchTab Match Wet SmeftReg.
Import ListNotations.
Open Scope string_scope.
Open Scope list_scope.

(** The value of a parameter: the user's, or else the default *)
Definition value_of (input : option params) (k : string) (x : R) : Prop :=
  match input with
  | None => dget default_parameters k = Some x
  | Some q => dget q k = Some x \/ dget q k = None /\ dget default_parameters k = Some x
  end.
Definition as_dict (input : option params) : Prop := match input with None => True | Some q => wf q end.
(** The four parameters have the values [a], [b], [c], [g]. *)
Definition ckm_inputs (input : option params) (a b c g : R) : Prop :=
  value_of input "Vus" a /\ value_of input "Vub" b /\ value_of input "Vcb" c /\ value_of input "gamma" g.

Lemma value_param input k x : as_dict input -> value_of input k x -> param (merge_params input) k = x.
Proof.
  intros W V. unfold param. rewrite merge_params_get. destruct input as [q|]; cbn [value_of] in V; [|rewrite V; reflexivity].
  rewrite dget_last_wf by exact W. destruct V as [-> | [-> ->]]; reflexivity.
Qed.
Lemma ckm_value ckm_tree input a b c g : as_dict input -> ckm_inputs input a b c g -> ckm_of ckm_tree (merge_params input) = ckm_tree a b c g.
Proof. intros W (V1 & V2 & V3 & V4). unfold ckm_of. rewrite (value_param _ _ a W V1), (value_param _ _ b W V2), (value_param _ _ c W V3), (value_param _ _ g W V4). reflexivity. Qed.

Section C40.
Variable ckm_tree : R -> R -> R -> R -> mat.
(** C40: Warsaw to Warsaw mass multiplies the up-type dipoles and Yukawas from the left with the CKM matrix of the four parameters. *)
Theorem C40_ckm_mass : forall msvd_values input a b c g d, as_dict input -> ckm_inputs input a b c g -> good_dict d ->
  exists o, warsaw_to_warsawmass ckm_tree msvd_values input d = Ok o /\
    forall op i j, In op ["uphi"; "uG"; "uW"; "uB"] -> dget o (sname op [i; j]) = Some (S3 (fun k => Cmul (ckm_tree a b c g i k) (mat_in d op k j))).
Proof.
  intros msvd input a b c g d W V G. destruct (warsawmass_spec ckm_tree msvd input d G) as (o & ll & E & _ & _ & _ & Q & _).
  exists o. split; [exact E|]. intros op i j I. rewrite (Q op i j I), (ckm_value ckm_tree input a b c g W V). reflexivity.
Qed.
(** C40: Warsaw to Warsaw up and back rotate the quark doublets with this matrix. *)
Theorem C40_ckm_up : forall keys input a b c g d r op s x, as_dict input -> ckm_inputs input a b c g -> good_dict d -> warsaw_to_warsaw_up ckm_tree keys input d = Ok r ->
  In op WC_keys -> op_shape op = Some s -> In x (idxs s) -> touched d op = true -> In (sname op x) keys ->
  exists c' sy t, wcxf2arrays d = Ok c' /\ symmetrize c' = Ok sy /\ dget sy op = Some t /\
    dget r (sname op x) = Some (transformed (UMats (mdag (ckm_tree a b c g)) meye meye meye meye) (fields op) (entry t) x).
Proof. intros keys input a b c g d r op s x W V. rewrite <- (ckm_value ckm_tree input a b c g W V). apply up_fields. Qed.
Theorem C40_ckm_down : forall keys input a b c g d r op s x, as_dict input -> ckm_inputs input a b c g -> good_dict d -> warsaw_up_to_warsaw ckm_tree keys input d = Ok r ->
  In op WC_keys -> op_shape op = Some s -> In x (idxs s) -> touched d op = true -> In (sname op x) keys ->
  exists c' sy t, wcxf2arrays d = Ok c' /\ symmetrize c' = Ok sy /\ dget sy op = Some t /\
    dget r (sname op x) = Some (transformed (UMats (ckm_tree a b c g) meye meye meye meye) (fields op) (entry t) x).
Proof. intros keys input a b c g d r op s x W V. rewrite <- (ckm_value ckm_tree input a b c g W V). apply down_fields. Qed.
(** C40: no other parameter has an influence on the SMEFT translators. *)
Theorem C40_smeft_uses : forall msvd_values keys input input' a b c g d, as_dict input -> as_dict input' -> ckm_inputs input a b c g -> ckm_inputs input' a b c g ->
  warsaw_to_warsawmass ckm_tree msvd_values input d = warsaw_to_warsawmass ckm_tree msvd_values input' d /\
  warsaw_to_warsaw_up ckm_tree keys input d = warsaw_to_warsaw_up ckm_tree keys input' d /\
  warsaw_up_to_warsaw ckm_tree keys input d = warsaw_up_to_warsaw ckm_tree keys input' d.
Proof.
  intros msvd keys input input' a b c g d W W' V V'. unfold warsaw_to_warsawmass, warsaw_to_warsaw_up, warsaw_up_to_warsaw.
  rewrite (ckm_value ckm_tree input a b c g W V), (ckm_value ckm_tree input' a b c g W' V'). auto.
Qed.

Lemma table_uses k p p' A : param p "m_W" = param p' "m_W" -> param p "m_Z" = param p' "m_Z" -> forall op f, In (op, f) match_tab -> f k p A = f k p' A.
Proof.
  intros EW EZ op f I. unfold match_tab in I. cbn [In] in I.
  repeat (destruct I as [I|I]; [injection I as <- <-; match goal with |- ?h _ _ _ = _ => unfold h end; rewrite ?EW, ?EZ; reflexivity|]). destruct I.
Qed.
(** C40: the matching uses the four parameters and m_W, m_Z, GF and alpha_e, and no other. *)
Theorem C40_matching_uses : forall J input input' d, as_dict input -> as_dict input' ->
  (forall k, In k ["Vus"; "Vub"; "Vcb"; "gamma"; "m_W"; "m_Z"; "GF"; "alpha_e"] -> exists x, value_of input k x /\ value_of input' k x) ->
  match_all ckm_tree J d input = match_all ckm_tree J d input'.
Proof.
  intros J input input' d W W' V. set (p := merge_params input). set (p' := merge_params input').
  assert (forall k, In k ["Vus"; "Vub"; "Vcb"; "gamma"; "m_W"; "m_Z"; "GF"; "alpha_e"] -> param p k = param p' k) as E.
  { intros k I. destruct (V k I) as (x & X & X'). unfold p, p'. rewrite (value_param _ _ x W X), (value_param _ _ x W' X'). reflexivity. }
  unfold match_all. fold p p'. destruct (read_smeft d) as [c|]; cbn [bind]; [|reflexivity].
  assert (matched ckm_tree p c = matched ckm_tree p' c) as ->; [|reflexivity]. unfold matched. assert (ckm_of ckm_tree p = ckm_of ckm_tree p') as ->.
  { unfold ckm_of. rewrite !E by (cbn; tauto). reflexivity. }
  assert (match_all_array (add_missing c) p = match_all_array (add_missing c) p') as ->; [|reflexivity]. unfold match_all_array.
  assert (forall A, vT A p = vT A p') as T by (intros A; unfold vT, gfx; rewrite (E "GF") by (cbn; tauto); reflexivity).
  assert (forall A v, weak A p v = weak A p' v) as Wk by (intros A v; unfold weak, g2b; rewrite (E "alpha_e"), (E "m_W") by (cbn; tauto); reflexivity).
  cbv zeta. rewrite !T, !Wk, (E "m_Z") by (cbn; tauto).
  destruct (weak (add_missing c) p' _) as [k|]; cbn [bind]; [|reflexivity]. destruct (weak (dmap azero _) p' _) as [k0|]; cbn [bind]; [|reflexivity].
  destruct (with_gz _ k) as [k1|]; cbn [bind]; [|reflexivity]. destruct (Req_EM_T _ 0); [reflexivity|]. destruct (with_gz _ k0) as [k2|]; cbn [bind]; [|reflexivity].
  apply (f_equal Ok). apply map_ext_in. intros [op f] I. cbn [fst snd].
  rewrite (table_uses k1 p p' _ (E "m_W" ltac:(cbn; tauto)) (E "m_Z" ltac:(cbn; tauto)) op f I), (table_uses k2 p p' _ (E "m_W" ltac:(cbn; tauto)) (E "m_Z" ltac:(cbn; tauto)) op f I). reflexivity.
Qed.

(** C40: the CKM matrix in the WET translators, and what enters their running parameters *)
Theorem C40_ckm_wet : forall qcd_mb qcd_ms qcd_as scale input p a b c g, as_dict input -> ckm_inputs input a b c g ->
  get_parameters qcd_mb qcd_ms qcd_as scale input = Ok p -> ckm_of ckm_tree p = ckm_tree a b c g.
Proof.
  intros qcd_mb qcd_ms qcd_as scale input p a b c g W V G. rewrite <- (ckm_value ckm_tree input a b c g W V). unfold get_parameters in G.
  destruct (qcd_mb _ _ _) as [mb|]; [|discriminate]. destruct (qcd_ms _ _ _) as [ms|]; [|discriminate]. destruct (qcd_as _ _) as [als|]; [|discriminate].
  cbn [bind] in G. injection G as <-. reflexivity.
Qed.
Theorem C40_running : forall qcd_mb qcd_ms qcd_as scale input p mb ms als, as_dict input ->
  value_of input "m_b" mb -> value_of input "m_s" ms -> value_of input "alpha_s" als -> get_parameters qcd_mb qcd_ms qcd_as scale input = Ok p ->
  exists x y z, dget p "m_b" = Some x /\ dget p "m_s" = Some y /\ dget p "alpha_s" = Some z /\
    qcd_mb mb scale als = Ok x /\ qcd_ms ms scale als = Ok y /\ qcd_as scale als = Ok z /\
    forall k v, In k ["m_W"; "m_Z"; "GF"; "alpha_e"; "Vus"; "Vub"; "Vcb"; "gamma"; "m_e"; "m_mu"; "m_tau"] -> value_of input k v -> dget p k = Some v.
Proof.
  intros qcd_mb qcd_ms qcd_as scale input p mb ms als W Vb Vs Va G. unfold get_parameters in G.
  rewrite (value_param _ _ mb W Vb), (value_param _ _ ms W Vs), (value_param _ _ als W Va) in G.
  destruct (qcd_mb mb scale als) as [x|]; [|discriminate]. destruct (qcd_ms ms scale als) as [y|]; [|discriminate]. destruct (qcd_as scale als) as [z|]; [|discriminate].
  cbn [bind] in G. injection G as <-. exists x, y, z. do 6 (split; [reflexivity|]). intros k v I V. rewrite <- (value_param _ _ v W V).
  repeat (destruct I as [<-|I]; [reflexivity|]). destruct I.
Qed.
End C40.

(** C24: the neutrino masses are the singular values of the symmetric matrix whose upper half is given. *)
Definition neutrino (d : dict string C) : mat := fun i j =>
  let x n := match dget d ("llphiphi_" ++ n)%string with Some z => z | None => C0 end in
  match i, j with
  | F1, F1 => x "11" | F1, F2 | F2, F1 => x "12" | F1, F3 | F3, F1 => x "13"
  | F2, F2 => x "22" | F2, F3 | F3, F2 => x "23" | F3, F3 => x "33"
  end.
Theorem C24_neutrino : forall ckm_tree msvd_values p d, good_dict d ->
  exists o, warsaw_to_warsawmass ckm_tree msvd_values p d = Ok o /\
    forall i j, dget o (sname "llphiphi" [i; j]) = Some (if fl_eqb i j then msvd_values (neutrino d) i else C0).
Proof.
  intros ckm_tree msvd p d G. destruct (warsawmass_spec ckm_tree msvd p d G) as (o & ll & E & T & _ & _ & _ & Q & _).
  exists o. split; [exact E|]. intros i j. rewrite Q. assert (ll = neutrino d) as ->; [|reflexivity].
  destruct (smeft_toarray_good "llphiphi" d eq_refl eq_refl G) as (m & T' & M). rewrite T in T'. assert (ll = m) as -> by (inversion T'; reflexivity).
  apply functional_extensionality. intros a. apply functional_extensionality. intros b.
  assert (entry (A2 m) [a; b] = entry (symm1 "llphiphi" (array_in d "llphiphi" Sh2)) [a; b]) as K by (rewrite M; reflexivity).
  change (entry (A2 m) [a; b]) with (m a b) in K. rewrite K. destruct a, b; reflexivity.
Qed.

(** The user sets Vub and the top mass; the other three values are the defaults. *)
Example C40_ckm_case : let input := Some [("m_t", 173%R); ("Vub", (4 / 1000)%R)] in
  as_dict input /\ ckm_inputs input (2243 / 10000) (4 / 1000) (4221 / 100000) (127 / 100) /\ ckm_inputs None (2243 / 10000) (362 / 100000) (4221 / 100000) (127 / 100) /\
  value_of input "m_b" (418 / 100) /\ good_dict [("uphi_11", C1)].
Proof.
  cbv zeta. split; [repeat constructor; cbn; intuition discriminate|]. split; [|split; [repeat split; reflexivity|split; [right; split; reflexivity|]]].
  - split; [right; split; reflexivity|]. split; [left; reflexivity|]. split; right; split; reflexivity.
  - apply good_uphi.
Qed.
Print Assumptions C40_ckm_mass.
Print Assumptions C40_ckm_up.
Print Assumptions C40_ckm_down.
Print Assumptions C40_smeft_uses.
Print Assumptions C40_matching_uses.
Print Assumptions C40_ckm_wet.
Print Assumptions C40_running.
Print Assumptions C24_neutrino.
