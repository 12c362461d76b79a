(** The SMEFTsim card as text: the rows of converters/smeftsim.py with the format
    '.6e' applied (Sci.v), for coefficients with their Python type (float or complex).
    What remains of pylha.dump is only the layout of the rows. *)
From Coq Require Import String Ascii List Bool Arith NArith ZArith Reals Lra Lia.
From Verif Require Import PyBase PyDict Cplx Wc Tensor SmeftSyntax SmeftTab SmeftSymm Smeft SmeftNames SmeftSpec Dump Tex SmeftSimSyntax SmeftSimTab SmeftSim Sci.
Import ListNotations.
Open Scope string_scope.
Open Scope list_scope.
Open Scope nat_scope.

(** ** Numbers with their Python type *)
Inductive num := Flt (x : R) | Cpx (z : C).
Definition cnum (v : num) : C := match v with Flt x => RtoC x | Cpx z => z end.
Section Typed.
Variable float_of_str : string -> option R.
(** WC._to_number, classes.py 330-337: complex exactly for a Re/Im dictionary *)
Definition to_num (v : doc) : res num :=
  match v with
  | DMap m =>
      let! re := to_float float_of_str (get_default m "Re" (DNum 0)) in
      let! im := to_float float_of_str (get_default m "Im" (DNum 0)) in Ok (Cpx (re, im))
  | _ => rmap Flt (to_float float_of_str v)
  end.
(** The comprehension of WC.dict, classes.py 373 *)
Definition typed_dict (d : dict string doc) : res (dict string num) :=
  mapM (fun kv => let! z := to_num (snd kv) in Ok (fst kv, z)) d.
Lemma to_num_number v : rmap cnum (to_num v) = to_number float_of_str v.
Proof.
  destruct v as [| | | | |m]; try reflexivity.
  - simpl. destruct (float_of_str s); reflexivity.
  - simpl. destruct (to_float float_of_str (get_default m "Re" (DNum 0))); simpl; [|reflexivity].
    destruct (to_float float_of_str (get_default m "Im" (DNum 0))); reflexivity.
Qed.
Lemma typed_values d : values2dict float_of_str d = rmap (dmap cnum) (typed_dict d).
Proof.
  unfold values2dict, typed_dict, mapM. induction d as [|[k v] t IH]; [reflexivity|]. cbn [map sequence fst snd].
  rewrite <- to_num_number. destruct (to_num v); cbn [rmap bind]; [|reflexivity]. rewrite IH. clear IH.
  set (q := sequence (map (fun kv : string * doc => let! z := to_num (snd kv) in Ok (fst kv, z)) t)). destruct q; reflexivity.
Qed.
End Typed.
Lemma dget_values (d : dict string num) n : dget (dmap cnum d) n = option_map cnum (dget d n).
Proof. apply dget_dmap. Qed.

(** ** The card *)
Definition trow := (list N * string * string)%type.
Definition tcard := dict string (list trow).
(** The text of a row, smeftsim.py 91-5315.  A complex number is printed as such:
    format(w * L**2, '.6e') of a complex w. *)
Definition row_text (d : dict string num) (L : R) (r : row) : res string :=
  match r_kind r with
  | VLambda => Ok (fmt L)
  | VAbs => let! w := dlookup d (r_name r) in Ok (fmt (Cabs (cnum w) * (L * L)))
  | VAbsAll => let! w := dlookup d (r_name r) in Ok (fmt (Cabs (Cmul (cnum w) (RtoC (L * L)))))
  | VAngle => let! w := dlookup d (r_name r) in Ok (fmt (angle (cnum w)))
  | VRaw => let! w := dlookup d (r_name r) in
      Ok match w with
         | Flt x => fmt (x * (L * L))
         | Cpx z => fmt_complex (Re z * (L * L)) (Im z * (L * L))
         end
  end.
Definition tfill_row (d : dict string num) (L : R) (r : row) : res trow :=
  let! v := row_text d L r in Ok (r_ix r, v, r_label r).
Definition tfill_block (d : dict string num) (L : R) (b : string * list row) : res (string * list trow) :=
  let! rs := mapM (tfill_row d L) (snd b) in Ok (fst b, rs).
(** smeftsim.py 2700-2701 *)
Definition tmw_row : trow := ([1475%N], fmt 80.387, "# MW0").
Definition tadd_mw (c : tcard) : tcard :=
  match dget c "FRBlock" with Some l => dset c "FRBlock" (insert_at (N.to_nat 1474) tmw_row l) | None => c end.
(** initialize_smeftsim_card, smeftsim.py 8-88 *)
Definition tinit_card (set : string) : res tcard :=
  if String.eqb set "A" then Ok (map (fun b => (b, [])) blocksA)
  else if String.eqb set "B" then Ok (map (fun b => (b, [])) blocksB)
  else Err UnboundLocalError.
(** smeftsim_card_fill, smeftsim.py 91-5315 *)
Definition tcard_fill (c : tcard) (d : dict string num) (set : string) (L : R) (scheme : string) : res tcard :=
  if String.eqb set "A" then
    let! bs := mapM (tfill_block d L) tableA in
    Ok (if String.eqb scheme "mw" then tadd_mw (dupdate c bs) else dupdate c bs)
  else if String.eqb set "B" then
    let! bs := mapM (tfill_block d L) tableB in Ok (dupdate c bs)
  else Ok c.
Definition make_tcard (d : dict string num) (set : string) (L : R) (scheme : string) : res tcard :=
  let! c := tinit_card set in tcard_fill c d set L scheme.

(** ** In step with the card of numbers (SmeftSim.v) *)
Definition rel {A B} (P : A -> B -> Prop) (x : res A) (y : res B) : Prop :=
  match x, y with Ok a, Ok b => P a b | Err e, Err e' => e = e' | _, _ => False end.
Definition printed (x : crow) (y : trow) : Prop :=
  fst (fst x) = fst (fst y) /\ snd x = snd y /\
  (Im (snd (fst x)) = 0%R /\ snd (fst y) = fmt (Re (snd (fst x))) \/ snd (fst y) = fmt_complex (Re (snd (fst x))) (Im (snd (fst x)))).
Definition printed_block (x : string * list crow) (y : string * list trow) : Prop :=
  fst x = fst y /\ Forall2 printed (snd x) (snd y).
Definition printed_card : card -> tcard -> Prop := Forall2 printed_block.
Lemma mapM_rel {A B X} (P : A -> B -> Prop) (f : X -> res A) (g : X -> res B) l :
  (forall x, rel P (f x) (g x)) -> rel (Forall2 P) (mapM f l) (mapM g l).
Proof.
  intros H. induction l as [|a t IH]; [constructor|]. unfold mapM in *. cbn [map sequence]. specialize (H a).
  destruct (f a), (g a); cbn [rel bind] in *; try tauto; auto.
  destruct (sequence (map f t)), (sequence (map g t)); cbn [rel bind] in *; try tauto; auto.
Qed.
Lemma fill_row_rel d L r : rel printed (fill_row (dmap cnum d) L r) (tfill_row d L r).
Proof.
  unfold fill_row, tfill_row, row_value, row_text, dlookup. rewrite dget_values.
  destruct (r_kind r); cbn [bind]; try (repeat split; left; split; reflexivity);
    destruct (dget d (r_name r)) as [w|]; cbn [bind option_map rel]; try reflexivity; repeat split; try (left; split; reflexivity).
  destruct w as [x|z]; cbn [fst snd].
  - left. unfold cnum, Cmul, RtoC, Re, Im; cbn [fst snd]. split; [ring|]. f_equal. ring.
  - right. unfold cnum, Cmul, RtoC, Re, Im; cbn [fst snd]. f_equal; ring.
Qed.
Lemma fill_block_rel d L b : rel printed_block (fill_block (dmap cnum d) L b) (tfill_block d L b).
Proof.
  unfold fill_block, tfill_block. pose proof (mapM_rel printed _ _ (snd b) (fill_row_rel d L)) as H.
  destruct (mapM (fill_row _ _) _), (mapM (tfill_row _ _) _); cbn [rel bind] in *; try tauto. split; auto.
Qed.
Lemma printed_dget c t k : printed_card c t -> match dget c k, dget t k with Some l, Some m => Forall2 printed l m | None, None => True | _, _ => False end.
Proof.
  intros H. induction H as [|[a l] [b m] c t [E F] H IH]; [exact I|]. cbn [fst snd] in *. subst b.
  cbn [dget]. destruct (keqb k a); auto.
Qed.
Lemma printed_dset c t k l m : printed_card c t -> Forall2 printed l m -> printed_card (dset c k l) (dset t k m).
Proof.
  intros H F. induction H as [|[a l'] [b m'] c t [E G] H IH]; [repeat constructor; auto|]. cbn [fst snd] in *. subst b.
  cbn [dset]. destruct (keqb k a); repeat constructor; auto.
Qed.
Lemma printed_dupdate bs ts : printed_card bs ts -> forall c t, printed_card c t -> printed_card (dupdate c bs) (dupdate t ts).
Proof.
  intros H. induction H as [|[a l] [b m] bs ts [E F] H IH]; intros c t K; [exact K|]. cbn [fst snd] in *. subst b.
  unfold dupdate in *. cbn [fold_left fst snd]. apply IH, printed_dset; auto.
Qed.
Lemma Forall2_insert {A B} (P : A -> B -> Prop) n x y l m : P x y -> Forall2 P l m -> Forall2 P (insert_at n x l) (insert_at n y m).
Proof.
  unfold insert_at. intros H. revert l m. induction n as [|n IH]; intros l m F.
  - cbn. constructor; auto.
  - destruct F as [|a b l m K F]; cbn [firstn skipn app]; [repeat constructor; auto|]. constructor; [exact K|]. apply (IH l m F).
Qed.
Lemma printed_mw : printed mw_row tmw_row.
Proof. repeat split. left. split; reflexivity. Qed.
Lemma printed_add_mw c t : printed_card c t -> printed_card (add_mw c) (tadd_mw t).
Proof.
  intros H. unfold add_mw, tadd_mw. pose proof (printed_dget c t "FRBlock" H) as G.
  destruct (dget c "FRBlock") as [l|], (dget t "FRBlock") as [m|]; try tauto.
  apply printed_dset; auto. apply Forall2_insert; auto. apply printed_mw.
Qed.
Lemma printed_empty (l : list string) : printed_card (map (fun b => (b, [])) l) (map (fun b => (b, [])) l).
Proof. induction l; repeat constructor; auto. Qed.
Lemma fill_rel c t d set L scheme : printed_card c t -> rel printed_card (card_fill c (dmap cnum d) set L scheme) (tcard_fill t d set L scheme).
Proof.
  intros H. unfold card_fill, tcard_fill.
  destruct (String.eqb set "A"); [|destruct (String.eqb set "B"); [|exact H]].
  - pose proof (mapM_rel printed_block _ _ tableA (fill_block_rel d L)) as M.
    destruct (mapM (fill_block _ _) tableA), (mapM (tfill_block _ _) tableA); cbn [rel bind] in *; try tauto.
    pose proof (printed_dupdate _ _ M _ _ H). destruct (String.eqb scheme "mw"); auto. apply printed_add_mw; auto.
  - pose proof (mapM_rel printed_block _ _ tableB (fill_block_rel d L)) as M.
    destruct (mapM (fill_block _ _) tableB), (mapM (tfill_block _ _) tableB); cbn [rel bind] in *; try tauto.
    apply printed_dupdate; auto.
Qed.
Lemma make_rel d set L scheme : rel printed_card (make_card (dmap cnum d) set L scheme) (make_tcard d set L scheme).
Proof.
  unfold make_card, make_tcard, init_card, tinit_card.
  destruct (String.eqb set "A"); [|destruct (String.eqb set "B"); [|reflexivity]]; cbn [bind]; apply fill_rel, printed_empty.
Qed.

(** ** Looking up a parameter *)
(** The text of the parameter called [lab] (letter case ignored) in the block [b] *)
Definition param (tc : tcard) (b lab : string) : option string :=
  match dget tc b with Some l => option_map (fun x : trow => snd (fst x)) (find (fun x : trow => same_text (snd x) lab) l) | None => None end.
Definition read_param (tc : tcard) (b lab : string) (v : R) : Prop := exists t, param tc b lab = Some t /\ read_number t = Some v.

Lemma tfill_keys d L l bs : mapM (tfill_block d L) l = Ok bs -> dkeys bs = dkeys l.
Proof.
  intros H. apply mapM_ok_iff in H. induction H as [|b x l r E F IH]; simpl; auto. unfold dkeys in *. simpl. rewrite IH.
  unfold tfill_block in E. destruct (mapM (tfill_row d L) (snd b)); simpl in E; [|discriminate]. injection E as <-. reflexivity.
Qed.
Lemma make_tcard_eq d set L scheme tc : model_set set -> make_tcard d set L scheme = Ok tc ->
  exists bs, mapM (tfill_block d L) (table set) = Ok bs /\ tc = if String.eqb set "A" && String.eqb scheme "mw" then tadd_mw bs else bs.
Proof.
  intros M H.
  assert (make_tcard d set L scheme = (let! bs := mapM (tfill_block d L) (table set) in
    Ok (if String.eqb set "A" && String.eqb scheme "mw" then tadd_mw (dupdate (map (fun b => (b, [])) (if String.eqb set "A" then blocksA else blocksB)) bs)
        else dupdate (map (fun b => (b, [])) (if String.eqb set "A" then blocksA else blocksB)) bs))) as E by (destruct M as [-> | ->]; reflexivity).
  rewrite E in H. clear E. destruct (mapM (tfill_block d L) (table set)) as [bs|] eqn:B; [|discriminate]. cbn [bind] in H.
  exists bs. split; [reflexivity|]. rewrite (dupdate_same_keys _ _ bs) in H; [congruence| |].
  - unfold wf. rewrite (tfill_keys _ _ _ _ B). apply table_wf.
  - rewrite (tfill_keys _ _ _ _ B), table_blocks. unfold dkeys. rewrite map_map. apply map_id.
Qed.
Lemma tfill_get d L l bs b rs : mapM (tfill_block d L) l = Ok bs -> dget l b = Some rs -> exists xs, dget bs b = Some xs /\ mapM (tfill_row d L) rs = Ok xs.
Proof.
  intros H. apply mapM_ok_iff in H. induction H as [|[k r] x l bs E F IH]; intros G; [discriminate|].
  unfold tfill_block in E. cbn [fst snd] in E. destruct (mapM (tfill_row d L) r) as [xs|] eqn:Q; [|discriminate]. cbn [bind] in E. injection E as <-.
  cbn [dget] in *. destruct (keqb b k); [|auto]. injection G as <-. exists xs. auto.
Qed.
Lemma NoDup_part {A B} (f : A -> B) (T : list (string * list A)) p : NoDup (map f (flat_map snd T)) -> In p T -> NoDup (map f (snd p)).
Proof.
  assert (forall a b : list B, NoDup (a ++ b) -> NoDup a /\ NoDup b) as S.
  { induction a as [|x a IH]; intros b H; [split; [constructor|exact H]|]. inversion H; subst. apply IH in H3 as [H3 H4].
    split; auto. constructor; auto. intros I. apply H2, in_or_app. auto. }
  induction T as [|q T IH]; intros N I; [destruct I|]. cbn [flat_map] in N. rewrite map_app in N. apply S in N as [N1 N2].
  destruct I as [->|I]; auto.
Qed.
Lemma find_row d L rs xs r : NoDup (map (fun r => lower (r_label r)) rs) -> mapM (tfill_row d L) rs = Ok xs -> In r rs ->
  exists t, row_text d L r = Ok t /\ find (fun x : trow => same_text (snd x) (r_label r)) xs = Some (r_ix r, t, r_label r).
Proof.
  intros N F I. apply mapM_ok_iff in F. induction F as [|a x rs xs E F IH]; [destruct I|].
  unfold tfill_row in E. destruct (row_text d L a) as [t|] eqn:T; [|discriminate]. cbn [bind] in E. injection E as <-.
  inversion N as [|? ? N1 N2]; subst. cbn [find snd]. destruct I as [->|I].
  - exists t. split; auto. unfold same_text. rewrite String.eqb_refl. reflexivity.
  - unfold same_text at 1. destruct (String.eqb_spec (lower (r_label a)) (lower (r_label r))) as [Q|_]; [|apply IH; auto].
    exfalso. apply N1. rewrite Q. apply (in_map (fun r => lower (r_label r))). exact I.
Qed.
Lemma find_insert {A} (f : A -> bool) n x l : f x = false -> find f (insert_at n x l) = find f l.
Proof.
  intros H. unfold insert_at. revert l. induction n as [|n IH]; intros l; [cbn; rewrite H; reflexivity|].
  destruct l as [|a l]; cbn [firstn skipn app find]; [rewrite H; reflexivity|]. destruct (f a); [reflexivity|apply (IH l)].
Qed.
Lemma mw_label set : model_set set -> forallb (fun r => negb (same_text "# MW0" (r_label r))) (rows set) = true.
Proof. intros [-> | ->]; vm_cast_no_check (eq_refl true). Qed.
Lemma param_row d set L scheme tc b rs r : model_set set -> make_tcard d set L scheme = Ok tc -> In (b, rs) (table set) -> In r rs ->
  exists t, row_text d L r = Ok t /\ param tc b (r_label r) = Some t.
Proof.
  intros M H I R. destruct (make_tcard_eq _ _ _ _ _ M H) as (bs & B & ->).
  pose proof (In_dget _ _ _ (table_wf set) I) as G. destruct (tfill_get _ _ _ _ _ _ B G) as (xs & X & F).
  pose proof (NoDup_part _ _ _ (labels_NoDup set M) I) as N. cbn [snd] in N.
  destruct (find_row _ _ _ _ _ N F R) as (t & T & Q). exists t. split; auto. unfold param.
  assert (same_text "# MW0" (r_label r) = false) as W.
  { pose proof (mw_label set M) as K. rewrite forallb_forall in K. apply negb_true_iff, K. apply in_flat_map. exists (b, rs). auto. }
  destruct (String.eqb set "A" && String.eqb scheme "mw"); [|rewrite X, Q; reflexivity].
  unfold tadd_mw. destruct (dget bs "FRBlock") as [l|] eqn:E; [|rewrite X, Q; reflexivity].
  rewrite dget_dset. destruct (keqb "FRBlock" b) eqn:V; [|rewrite X, Q; reflexivity].
  apply keqb_eq in V. subst b. rewrite E in X. injection X as ->. rewrite find_insert by exact W. rewrite Q. reflexivity.
Qed.
(** ** The precision of what is read *)
Open Scope R_scope.
Lemma ratio_near L Lr x a : L <> 0 -> Rabs (Lr - L) <= 5 / 10000000 * Rabs L -> Rabs (a - x * (L * L)) <= 5 / 10000000 * Rabs (x * (L * L)) ->
  Lr <> 0 /\ Rabs (a / (Lr * Lr) - x) <= 16 / 10000000 * Rabs x.
Proof.
  intros N HL Ha. set (u := Lr / L). set (s := a / (L * L)).
  assert (0 < Rabs L) as P by (apply Rabs_pos_lt; auto).
  assert (Rabs (u - 1) <= 5 / 10000000) as U.
  { apply (Rmult_le_reg_r (Rabs L)); auto. rewrite <- Rabs_mult. replace ((u - 1) * L) with (Lr - L) by (unfold u; field; auto). exact HL. }
  assert (0 < L * L) as P2 by nra.
  assert (Rabs (s - x) <= 5 / 10000000 * Rabs x) as S.
  { apply (Rmult_le_reg_r (L * L)); auto. rewrite Rabs_mult, (Rabs_pos_eq (L * L)) in Ha by lra.
    replace (Rabs (s - x) * (L * L)) with (Rabs (a - x * (L * L))); [lra|].
    rewrite <- (Rabs_pos_eq (L * L)) at 2 by lra. rewrite <- Rabs_mult. f_equal. unfold s. field. auto. }
  apply Rabs_between in U. assert (u <> 0) as U0 by lra. assert (Lr <> 0) as R0.
  { intros ->. apply U0. unfold u. field. auto. }
  split; auto. assert (9999989 / 10000000 <= u * u <= 10000011 / 10000000) as V by nra.
  replace (a / (Lr * Lr)) with (s / (u * u)) by (unfold s, u; field; auto).
  apply (Rmult_le_reg_r (u * u)); [lra|]. rewrite <- (Rabs_pos_eq (u * u)) at 2 by lra. rewrite <- Rabs_mult.
  replace ((s / (u * u) - x) * (u * u)) with ((s - x) + x * (1 - u * u)) by (field; auto).
  eapply Rle_trans; [apply Rabs_triang|]. rewrite (Rabs_mult x).
  assert (Rabs (1 - u * u) <= 101 / 100000000) as W.
  { apply Rabs_le. nra. }
  pose proof (Rabs_pos x) as X. nra.
Qed.
Lemma sin_abs_le x : sin x * sin x <= x * x.
Proof.
  assert (forall y, 0 <= y -> sin y * sin y <= y * y) as G.
  { intros y Y. destruct (Rle_dec y 1) as [B|B].
    - destruct Y as [Y|<-]; [|rewrite sin_0; lra]. pose proof (sin_lt_x y Y) as A.
      assert (0 <= sin y) as Z by (apply sin_ge_0; pose proof PI_RGT_0; pose proof PI2_1; lra). nra.
    - pose proof (SIN_bound y). nra. }
  destruct (Rle_dec 0 x) as [H|H]; [auto|]. specialize (G (- x) ltac:(lra)). rewrite sin_neg in G. lra.
Qed.
Lemma chord_near r r' t p : 0 <= r -> Rabs (r' - r) <= 16 / 10000000 * r -> Rabs (p - t) <= 2 / 1000000 ->
  Cabs (Csub (r' * cos p, r' * sin p) (r * cos t, r * sin t)) <= 3 / 1000000 * r.
Proof.
  intros P A B. unfold Cabs, Csub. cbn [fst snd].
  replace ((r' * cos p - r * cos t) * (r' * cos p - r * cos t) + (r' * sin p - r * sin t) * (r' * sin p - r * sin t))
    with ((r' - r) * (r' - r) + 4 * (r * r') * (sin ((p - t) / 2) * sin ((p - t) / 2))).
  - rewrite <- (sqrt_square (3 / 1000000 * r)) by lra. apply sqrt_le_1_alt.
    pose proof (sin_abs_le ((p - t) / 2)) as S. apply Rabs_between in A. apply Rabs_between in B.
    assert ((p - t) / 2 * ((p - t) / 2) <= 1 / 1000000 * (1 / 1000000)) as Q by nra.
    assert (0 <= r') as P' by lra. assert (0 <= r * r') as PP by nra.
    assert (r * r' <= 10000016 / 10000000 * (r * r)) as R1 by nra.
    assert ((r' - r) * (r' - r) <= 16 / 10000000 * r * (16 / 10000000 * r)) as R2 by nra.
    set (y := sin _ * sin _) in *. assert (0 <= y) as Y by (unfold y; nra).
    assert (r * r' * y <= r * r' * (1 / 1000000 * (1 / 1000000))) as R3 by (apply Rmult_le_compat_l; lra).
    nra.
  - assert (cos (p - t) = 1 - 2 * (sin ((p - t) / 2) * sin ((p - t) / 2))) as E.
    { replace (p - t) with (2 * ((p - t) / 2)) at 1 by field. rewrite cos_2a_sin. ring. }
    pose proof (cos_minus p t) as M. pose proof (sin2_cos2 p) as C1. pose proof (sin2_cos2 t) as C2. unfold Rsqr in *.
    transitivity (r' * r' * (sin p * sin p + cos p * cos p) + r * r * (sin t * sin t + cos t * cos t) - 2 * (r * r') * (cos p * cos t + sin p * sin t));
      [rewrite C1, C2, <- M, E; ring|ring].
Qed.
(** ** Reading the coefficients *)
(** [lab] is the name of SMEFTsim's parameter (absolute value, or phase if [ph]) for the coefficient [n] in the block [b]. *)
Definition stands_for (n b lab : string) (ph : bool) : Prop :=
  exists op s i j, n = sname op i /\ op_shape op = Some s /\ In i (idxs s) /\ In j (idxs s) /\
    (forall a, fits s a -> index_symmetry op a -> entry a j = entry a i) /\
    lower lab = lower (label_of (matrix_block b) ph op j) /\ (ph = true -> i <> []).
(** The coefficient is real in every symmetric set of coefficients. *)
Definition real_entry (n : string) : Prop :=
  exists op s i, n = sname op i /\ op_shape op = Some s /\ In i (idxs s) /\ forall a, fits s a -> index_symmetry op a -> Im (entry a i) = 0.
(** The scale Lambda of the card *)
Definition scale_read (set : string) (tc : tcard) (l : R) : Prop :=
  if String.eqb set "A" then read_param tc "FRBlock" "# LambdaSMEFT" l else read_param tc "NEWCOUP" "# Lambda" l.
(** The value that the numbers in the card give to the coefficient [n] *)
Definition gives (set : string) (tc : tcard) (n : string) (z : C) : Prop :=
  exists l b lab a, scale_read set tc l /\ stands_for n b lab false /\ read_param tc b lab a /\
    ((real_entry n /\ z = RtoC (a / (l * l))) \/
     exists b' lab' p, stands_for n b' lab' true /\ read_param tc b' lab' p /\ z = (a / (l * l) * cos p, a / (l * l) * sin p)).
Definition near (z w : C) : Prop := Cabs (Csub z w) <= 3 / 1000000 * Cabs w.

Lemma row_stands b r : row_ok b r = true -> coefficient r = true -> stands_for (r_name r) b (r_label r) (phase r).
Proof.
  intros K Q. unfold row_ok in K. rewrite Q in K. destruct (decode (r_name r)) as [[[op s] i]|]; [|discriminate].
  rewrite !andb_true_iff in K. destruct K as ((((E & I) & S) & J) & V).
  apply String.eqb_eq in E. apply idx_in_existsb in I. apply existsb_exists in J as (j & J & T).
  apply andb_true_iff in T as [T U]. apply String.eqb_eq in T.
  assert (op_shape op = Some s) as O by (destruct (op_shape op) as [[]|], s; congruence).
  exists op, s, i, j. repeat split; auto.
  - eapply same_entries_in; eauto.
  - intros a Fa Sa. eapply same_entries_eq; eauto.
  - unfold phase. destruct (r_kind r); try discriminate. intros _ ->. discriminate.
Qed.
Lemma raw_real b r : row_ok b r = true -> r_kind r = VRaw -> real_entry (r_name r).
Proof.
  intros K Q. unfold row_ok, coefficient in K. rewrite Q in K. destruct (decode (r_name r)) as [[[op s] i]|]; [|discriminate].
  rewrite !andb_true_iff in K. destruct K as ((((E & I) & S) & J) & V).
  apply String.eqb_eq in E. apply idx_in_existsb in I.
  assert (op_shape op = Some s) as O by (destruct (op_shape op) as [[]|], s; congruence).
  exists op, s, i. repeat split; auto. intros a Fa Sa. eapply self_conj_real; eauto.
Qed.
Lemma table_row_ok set b rs r : model_set set -> In (b, rs) (table set) -> In r rs -> row_ok b r = true.
Proof.
  intros M B R. pose proof (rows_ok set M) as K. rewrite forallb_forall in K. specialize (K _ B). rewrite forallb_forall in K. exact (K r R).
Qed.
Lemma scale_row set : model_set set -> exists b rs r, In (b, rs) (table set) /\ In r rs /\ r_kind r = VLambda /\
  b = (if String.eqb set "A" then "FRBlock" else "NEWCOUP") /\ r_label r = (if String.eqb set "A" then "# LambdaSMEFT" else "# Lambda").
Proof.
  assert (forall set, model_set set -> existsb (fun br => String.eqb (fst br) (if String.eqb set "A" then "FRBlock" else "NEWCOUP") &&
    existsb (fun r => match r_kind r with VLambda => String.eqb (r_label r) (if String.eqb set "A" then "# LambdaSMEFT" else "# Lambda") | _ => false end) (snd br))%bool (table set) = true) as K.
  { intros ? [-> | ->]; vm_cast_no_check (eq_refl true). }
  intros M. specialize (K set M). apply existsb_exists in K as ([b rs] & I & K). apply andb_true_iff in K as [K1 K2].
  apply String.eqb_eq in K1. apply existsb_exists in K2 as (r & R & K2). destruct (r_kind r) eqn:Q; try discriminate. apply String.eqb_eq in K2.
  exists b, rs, r. auto.
Qed.
Lemma scale_near set d L scheme tc : model_set set -> make_tcard d set L scheme = Ok tc -> scale_read set tc (signed L).
Proof.
  intros M H. destruct (scale_row set M) as (b & rs & r & I & R & K & -> & E). destruct (param_row _ _ _ _ _ _ _ _ M H I R) as (t & T & P).
  unfold row_text in T. rewrite K in T. injection T as <-. rewrite E in P. unfold scale_read.
  destruct (String.eqb set "A"); exists (fmt L); split; auto; apply read_fmt.
Qed.
Lemma angle_bound z : Rabs (angle z) <= 4.
Proof.
  unfold angle. pose proof PI_4 as P. pose proof PI_RGT_0 as P0. destruct (Ceq_dec z C0); [rewrite Rabs_R0; lra|].
  pose proof (acos_bound (Re z / Cabs z)) as B. destruct (Rle_dec 0 (Im z)); [|rewrite Rabs_Ropp]; rewrite Rabs_pos_eq; lra.
Qed.
Lemma signed_angle_near z : Rabs (signed (angle z) - angle z) <= 2 / 1000000.
Proof. pose proof (signed_near (angle z)). pose proof (angle_bound z). lra. Qed.
Lemma near_real (l a L x : R) : L <> 0 -> l = signed L -> a = signed (x * (L * L)) -> near (RtoC (a / (l * l))) (RtoC x).
Proof.
  intros N -> ->. destruct (ratio_near L (signed L) x (signed (x * (L * L))) N (signed_near _) (signed_near _)) as [_ E].
  unfold near. replace (Csub _ _) with (RtoC (signed (x * (L * L)) / (signed L * signed L) - x)) by (unfold Csub, RtoC; cbn [fst snd]; f_equal; ring).
  rewrite !Cabs_R. pose proof (Rabs_pos x). lra.
Qed.
Lemma near_polar (l a p L : R) (w : C) : L <> 0 -> l = signed L -> a = signed (Cabs w * (L * L)) -> p = signed (angle w) ->
  near (a / (l * l) * cos p, a / (l * l) * sin p) w.
Proof.
  intros N -> -> ->. assert (0 <= Cabs w) as P by apply sqrt_pos.
  destruct (ratio_near L (signed L) (Cabs w) (signed (Cabs w * (L * L))) N (signed_near _) (signed_near _)) as [_ E].
  rewrite (Rabs_pos_eq (Cabs w)) in E by auto. unfold near.
  set (rr := signed (Cabs w * (L * L)) / (signed L * signed L)) in *. set (p := signed (angle w)).
  replace (Csub (rr * cos p, rr * sin p) w) with (Csub (rr * cos p, rr * sin p) (Cabs w * cos (angle w), Cabs w * sin (angle w))) by (rewrite <- polar; reflexivity).
  apply chord_near; auto. apply signed_angle_near.
Qed.
(** The indices of the name are mapped by the symmetries to those of the complex conjugate: the coefficient must be real. *)
Definition decoded_real (n : string) : bool := match decode n with Some (op, _, x) => self_conj (sym_kind op) x | None => false end.
Lemma raw_exactly set : model_set set ->
  forallb (fun n => Bool.eqb (decoded_real n && negb (mem n (sign_lost set))) (has_kind set n is_raw)) (needed set) = true.
Proof.
  assert (forall set, model_set set -> (fun t s => forallb (fun n => Bool.eqb (decoded_real n && negb (mem n s)) (Trie.tmem n t)) (needed set))
    (Trie.build (of_kind set is_raw)) (sign_lost set) = true) as K.
  { intros ? [-> | ->]; vm_cast_no_check (eq_refl true). }
  intros M. rewrite <- (K set M). apply forallb_ext. intros n. rewrite has_kind_build. reflexivity.
Qed.
Lemma decoded_real_entry set n : model_set set -> In n (needed set) -> decoded_real n = true -> ~ In n (sign_lost set) -> real_entry n.
Proof.
  intros M I SR S. pose proof (raw_exactly set M) as K. rewrite forallb_forall in K. specialize (K n I). apply eqb_prop in K.
  rewrite SR in K. destruct (mem n (sign_lost set)) eqn:E; [apply (mem_In _ _ _) in E; tauto|]. cbn in K. symmetry in K.
  apply has_kind_row in K as (b & rs & r & B & R & <- & K). apply (raw_real b); [exact (table_row_ok set b rs r M B R)|].
  destruct (r_kind r); auto; discriminate.
Qed.
Lemma read_back set n : model_set set -> In n (needed set) -> ~ In n (sign_lost set) ->
  forall d0 L0 scheme0 tc, make_tcard d0 set L0 scheme0 = Ok tc -> (decoded_real n = true -> exists x, dget d0 n = Some (Flt x)) ->
  exists z, gives set tc n z /\
    forall d L scheme w, L <> 0 -> make_tcard d set L scheme = Ok tc -> dget d n = Some w -> near z (cnum w).
Proof.
  intros M I S d0 L0 scheme0 tc H0 Y. pose proof (scale_near set d0 L0 scheme0 tc M H0) as SC.
  assert (forall d L scheme, make_tcard d set L scheme = Ok tc -> signed L = signed L0) as SL.
  { intros d L scheme H. pose proof (scale_near set d L scheme tc M H) as SC'. unfold scale_read, read_param in *.
    destruct (String.eqb set "A"); destruct SC as (t & P & Q), SC' as (t' & P' & Q'); congruence. }
  pose proof (all_determined set M) as D. rewrite forallb_forall in D. specialize (D n I).
  apply orb_true_iff in D as [D|D]; [apply (mem_In _ _ _) in D; tauto|]. unfold determined in D. apply orb_true_iff in D as [D|D].
  - apply has_kind_row in D as (b & rs & r & B & R & <- & K). assert (r_kind r = VRaw) as Q by (destruct (r_kind r); auto; discriminate).
    pose proof (table_row_ok set b rs r M B R) as O.
    assert (stands_for (r_name r) b (r_label r) false) as ST.
    { pose proof (row_stands b r O) as X. unfold coefficient, phase in X. rewrite Q in X. auto. }
    pose proof (raw_real b r O Q) as RR.
    assert (decoded_real (r_name r) = true) as DR.
    { pose proof (raw_exactly set M) as KK. rewrite forallb_forall in KK. specialize (KK _ I). apply eqb_prop in KK.
      assert (has_kind set (r_name r) is_raw = true) as HK.
      { unfold has_kind. apply existsb_exists. exists r. split; [apply in_flat_map; exists (b, rs); auto|]. rewrite Q. cbn. apply String.eqb_refl. }
      rewrite HK in KK. apply andb_true_iff in KK as [K1 _]. exact K1. }
    destruct (Y DR) as (x0 & X0).
    assert (forall d L scheme, make_tcard d set L scheme = Ok tc -> exists t, param tc b (r_label r) = Some t /\
      match dget d (r_name r) with Some (Flt x) => t = fmt (x * (L * L)) | Some (Cpx z) => read_number t = None | None => False end) as T.
    { intros d L scheme H. destruct (param_row _ _ _ _ _ _ _ _ M H B R) as (t & T & P). exists t. split; auto.
      unfold row_text, dlookup in T. rewrite Q in T. destruct (dget d (r_name r)) as [[x|z]|]; cbn [bind] in T; try discriminate; injection T as <-; auto.
      apply read_complex. }
    destruct (T _ _ _ H0) as (t0 & P0 & T0). rewrite X0 in T0. subst t0.
    exists (RtoC (signed (x0 * (L0 * L0)) / (signed L0 * signed L0))). split.
    + exists (signed L0), b, (r_label r), (signed (x0 * (L0 * L0))). repeat split; auto. exists (fmt (x0 * (L0 * L0))). split; auto. apply read_fmt.
    + intros d L scheme w N H W. destruct (T _ _ _ H) as (t & P & T1). rewrite W in T1. rewrite P0 in P. injection P as <-.
      destruct w as [x|z]; [|rewrite read_fmt in T1; discriminate]. apply (near_real _ _ L x N).
      * symmetry. eapply SL; eauto.
      * assert (read_number (fmt (x0 * (L0 * L0))) = read_number (fmt (x * (L * L)))) as E by congruence. rewrite !read_fmt in E. congruence.
  - apply andb_true_iff in D as [D1 D2].
    apply has_kind_row in D1 as (b & rs & r & B & R & Q & K). apply has_kind_row in D2 as (b2 & rs2 & r2 & B2 & R2 & Q2 & K2).
    pose proof (table_row_ok set b rs r M B R) as O. pose proof (table_row_ok set b2 rs2 r2 M B2 R2) as O2.
    assert (stands_for n b (r_label r) false) as ST.
    { pose proof (row_stands b r O) as X. unfold coefficient, phase in X. rewrite Q in X. destruct (r_kind r); try discriminate; auto. }
    assert (stands_for n b2 (r_label r2) true) as ST2.
    { pose proof (row_stands b2 r2 O2) as X. unfold coefficient, phase in X. rewrite Q2 in X. destruct (r_kind r2); try discriminate; auto. }
    assert (forall d L scheme, make_tcard d set L scheme = Ok tc -> exists w, dget d n = Some w /\
      param tc b (r_label r) = Some (fmt (Cabs (cnum w) * (L * L))) /\ param tc b2 (r_label r2) = Some (fmt (angle (cnum w)))) as T.
    { intros d L scheme H. destruct (param_row _ _ _ _ _ _ _ _ M H B R) as (t & T & P). destruct (param_row _ _ _ _ _ _ _ _ M H B2 R2) as (t2 & T2 & P2).
      unfold row_text, dlookup in T, T2. rewrite Q in T. rewrite Q2 in T2. destruct (dget d n) as [w|].
      - exists w. split; auto. split; [rewrite P|rewrite P2]; f_equal.
        + destruct (r_kind r); try discriminate; cbn [bind] in T; [|rewrite Cabs_scale in T]; congruence.
        + destruct (r_kind r2); try discriminate; cbn [bind] in T2. congruence.
      - destruct (r_kind r); discriminate. }
    destruct (T _ _ _ H0) as (w0 & W0 & P & P2).
    exists (signed (Cabs (cnum w0) * (L0 * L0)) / (signed L0 * signed L0) * cos (signed (angle (cnum w0))),
            signed (Cabs (cnum w0) * (L0 * L0)) / (signed L0 * signed L0) * sin (signed (angle (cnum w0)))). split.
    + exists (signed L0), b, (r_label r), (signed (Cabs (cnum w0) * (L0 * L0))). split; [exact SC|]. split; [exact ST|].
      split; [exists (fmt (Cabs (cnum w0) * (L0 * L0))); split; [exact P|apply read_fmt]|]. right.
      exists b2, (r_label r2), (signed (angle (cnum w0))). split; [exact ST2|]. split; [|reflexivity].
      exists (fmt (angle (cnum w0))). split; [exact P2|apply read_fmt].
    + intros d L scheme w N H W. destruct (T _ _ _ H) as (w' & W' & P' & P2'). rewrite W in W'. injection W' as <-.
      apply (near_polar _ _ _ L (cnum w) N).
      * symmetry. eapply SL; eauto.
      * assert (read_number (fmt (Cabs (cnum w0) * (L0 * L0))) = read_number (fmt (Cabs (cnum w) * (L * L)))) as E by congruence. rewrite !read_fmt in E. congruence.
      * assert (read_number (fmt (angle (cnum w0))) = read_number (fmt (angle (cnum w)))) as E by congruence. rewrite !read_fmt in E. congruence.
Qed.
(** ** A complex number among the real coefficients *)
Lemma complex_unreadable set n : model_set set -> In n (needed set) -> decoded_real n = true -> ~ In n (sign_lost set) ->
  forall d L scheme tc z, make_tcard d set L scheme = Ok tc -> dget d n = Some (Cpx z) ->
  exists b lab t, stands_for n b lab false /\ param tc b lab = Some t /\ read_number t = None.
Proof.
  intros M I SR S d L scheme tc z H W. pose proof (raw_exactly set M) as K. rewrite forallb_forall in K. specialize (K n I). apply eqb_prop in K.
  rewrite SR in K. destruct (mem n (sign_lost set)) eqn:E; [apply (mem_In _ _ _) in E; tauto|]. cbn in K. symmetry in K.
  apply has_kind_row in K as (b & rs & r & B & R & <- & K). assert (r_kind r = VRaw) as Q by (destruct (r_kind r); auto; discriminate).
  pose proof (table_row_ok set b rs r M B R) as O. destruct (param_row _ _ _ _ _ _ _ _ M H B R) as (t & T & P).
  exists b, (r_label r), t. repeat split; auto.
  - pose proof (row_stands b r O) as X. unfold coefficient, phase in X. rewrite Q in X. auto.
  - unfold row_text, dlookup in T. rewrite Q, W in T. cbn [bind] in T. injection T as <-. apply read_complex.
Qed.
(** Without complex numbers every text in the card is a number. *)
Lemma floats_readable set d L scheme tc b x : model_set set -> make_tcard d set L scheme = Ok tc ->
  (forall n z, In n (needed set) -> dget d n = Some (Cpx z) -> decoded_real n = false \/ In n (sign_lost set)) ->
  (exists l, dget tc b = Some l /\ In x l) -> exists v, read_number (snd (fst x)) = Some v.
Proof.
  intros M H F (l & G & I). destruct (make_tcard_eq _ _ _ _ _ M H) as (bs & B & E).
  assert (forall xs, dget bs b = Some xs -> In x xs -> exists v, read_number (snd (fst x)) = Some v) as A.
  { intros xs X J. assert (exists rs, In (b, rs) (table set) /\ mapM (tfill_row d L) rs = Ok xs) as (rs & R & Q).
    { assert (In b (dkeys (table set))) as D by (rewrite <- (tfill_keys _ _ _ _ B); exact (dget_Some_key _ _ _ X)).
      apply key_dget in D as [rs D]. exists rs. split; [apply dget_In; exact D|]. destruct (tfill_get _ _ _ _ _ _ B D) as (xs' & X' & Q). congruence. }
    apply mapM_ok_iff in Q. assert (exists r, In r rs /\ tfill_row d L r = Ok x) as (r & Rr & T).
    { clear -Q J. induction Q as [|r y rs xs E Q IH]; [destruct J|]. destruct J as [->|J]; [exists r; split; [left|]; auto|].
      destruct (IH J) as (r' & A & B). exists r'. split; [right|]; auto. }
    unfold tfill_row in T. destruct (row_text d L r) as [t|] eqn:RT; [|discriminate]. cbn [bind] in T. injection T as <-. cbn [fst snd].
    unfold row_text, dlookup in RT.
    assert (r_kind r = VRaw -> forall z, dget d (r_name r) = Some (Cpx z) -> False) as NC.
    { intros K z W. assert (In (r_name r) (needed set)) as In1.
      { apply needed_in. exists (b, rs), r. repeat split; auto. unfold coefficient. rewrite K. reflexivity. }
      pose proof (raw_exactly set M) as KK. rewrite forallb_forall in KK. specialize (KK _ In1). apply eqb_prop in KK.
      assert (has_kind set (r_name r) is_raw = true) as HK.
      { unfold has_kind. apply existsb_exists. exists r. split; [apply in_flat_map; exists (b, rs); auto|]. rewrite K. cbn. apply String.eqb_refl. }
      rewrite HK in KK. apply andb_true_iff in KK as [K1 K2]. destruct (F _ _ In1 W) as [F1|F1]; [congruence|].
      apply (proj2 (mem_In _ _ _)) in F1. rewrite F1 in K2. discriminate. }
    destruct (r_kind r); try (injection RT as <-; rewrite read_fmt; eauto; fail);
      destruct (dget d (r_name r)) as [[y|y]|]; cbn [bind] in RT; try discriminate; try (injection RT as <-; rewrite read_fmt; eauto; fail).
    exfalso. eapply NC; eauto. }
  subst tc. destruct (String.eqb set "A" && String.eqb scheme "mw")%bool; [|eapply A; eauto].
  unfold tadd_mw in G. destruct (dget bs "FRBlock") as [l0|] eqn:Q; [|eapply A; eauto].
  rewrite dget_dset in G. destruct (keqb "FRBlock" b) eqn:V; [|eapply A; eauto].
  apply keqb_eq in V. subst b. injection G as <-. unfold insert_at in I. apply in_app_or in I as [I|[<-|I]].
  - eapply A; eauto. rewrite <- (firstn_skipn (N.to_nat 1474) l0). apply in_or_app. auto.
  - exists (signed 80.387). apply read_fmt.
  - eapply A; eauto. rewrite <- (firstn_skipn (N.to_nat 1474) l0). apply in_or_app. auto.
Qed.
