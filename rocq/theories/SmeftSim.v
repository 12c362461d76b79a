(** Model of converters/smeftsim.py on the tables of SmeftSimTab.v.  A row of a
    card is kept before formatting; SmeftSimPrint.v applies the format '.6e'. *)
From Coq Require Import String Ascii List Bool Arith NArith Reals Lra Lia.
From Verif Require Trie.
From Verif Require Import PyBase PyDict Cplx Tensor SmeftSyntax SmeftTab SmeftSymm Smeft SmeftNames SmeftSpec Dump Tex Eos SmeftSimSyntax SmeftSimTab.
Import ListNotations.
Open Scope string_scope.
Open Scope list_scope.
Open Scope nat_scope.

(** numpy.angle: the argument in (-pi, pi]; 0 for 0.  Simplified: no signed zeros. *)
Definition angle (z : C) : R :=
  if Ceq_dec z C0 then 0%R
  else let t := acos (Re z / Cabs z) in if Rle_dec 0 (Im z) then t else (- t)%R.

Definition crow := (list N * C * string)%type.
Definition card := dict string (list crow).
(** The value of a row for the dictionary [d] = wc.dict and the scale [L]. *)
Definition row_value (d : dict string C) (L : R) (r : row) : res C :=
  match r_kind r with
  | VLambda => Ok (RtoC L)
  | VAbs => let! w := dlookup d (r_name r) in Ok (RtoC (Cabs w * (L * L)))
  | VAbsAll => let! w := dlookup d (r_name r) in Ok (RtoC (Cabs (Cmul w (RtoC (L * L)))))
  | VAngle => let! w := dlookup d (r_name r) in Ok (RtoC (angle w))
  | VRaw => let! w := dlookup d (r_name r) in Ok (Cmul w (RtoC (L * L)))
  end.
Definition fill_row (d : dict string C) (L : R) (r : row) : res crow :=
  let! v := row_value d L r in Ok (r_ix r, v, r_label r).
Definition fill_block (d : dict string C) (L : R) (b : string * list row) : res (string * list crow) :=
  let! rs := mapM (fill_row d L) (snd b) in Ok (fst b, rs).
(** list.insert *)
Definition insert_at {A} (n : nat) (x : A) (l : list A) : list A := firstn n l ++ x :: skipn n l.
Definition mw_row : crow := ([1475%N], RtoC 80.387, "# MW0").
Definition add_mw (c : card) : card :=
  match dget c "FRBlock" with Some l => dset c "FRBlock" (insert_at (N.to_nat 1474) mw_row l) | None => c end.
(** initialize_smeftsim_card, smeftsim.py 8-88 *)
Definition init_card (set : string) : res card :=
  if String.eqb set "A" then Ok (map (fun b => (b, [])) blocksA)
  else if String.eqb set "B" then Ok (map (fun b => (b, [])) blocksB)
  else Err UnboundLocalError.
(** smeftsim_card_fill, smeftsim.py 91-5315.  Simplified: the card passed in is not
    changed if an error occurs. *)
Definition card_fill (c : card) (d : dict string C) (set : string) (L : R) (scheme : string) : res card :=
  if String.eqb set "A" then
    let! bs := mapM (fill_block d L) tableA in
    Ok (if String.eqb scheme "mw" then add_mw (dupdate c bs) else dupdate c bs)
  else if String.eqb set "B" then
    let! bs := mapM (fill_block d L) tableB in Ok (dupdate c bs)
  else Ok c.
(** What the command line does (cli.py 187-188). *)
Definition make_card (d : dict string C) (set : string) (L : R) (scheme : string) : res card :=
  let! c := init_card set in card_fill c d set L scheme.

Definition table (set : string) : list (string * list row) := if String.eqb set "A" then tableA else tableB.
Definition rows (set : string) : list row := flat_map snd (table set).
Definition coefficient (r : row) : bool := match r_kind r with VLambda => false | _ => true end.
(** The coefficients a card needs. *)
Definition needed (set : string) : list string := map r_name (filter coefficient (rows set)).
Definition model_set (s : string) : Prop := s = "A" \/ s = "B".

(** * Polar coordinates *)
Lemma Cabs_pos z : z <> C0 -> (0 < Cabs z)%R.
Proof.
  intros N. unfold Cabs. apply sqrt_lt_R0. destruct z as [x y]. simpl.
  destruct (Req_EM_T x 0) as [->|X]; [destruct (Req_EM_T y 0) as [->|Y]|].
  - exfalso. apply N. reflexivity.
  - assert (0 < y * y)%R by nra. lra.
  - assert (0 < x * x)%R by nra. nra.
Qed.
Lemma Cabs_sqr z : (Cabs z * Cabs z = Re z * Re z + Im z * Im z)%R.
Proof. unfold Cabs. apply sqrt_sqrt. destruct z; simpl; nra. Qed.
Lemma polar z : z = ((Cabs z * cos (angle z))%R, (Cabs z * sin (angle z))%R).
Proof.
  unfold angle. destruct (Ceq_dec z C0) as [->|N].
  { rewrite Cabs_0. unfold C0, RtoC. f_equal; ring. }
  pose proof (Cabs_pos z N) as P. pose proof (Cabs_sqr z) as S.
  set (r := Cabs z) in *. set (x := (Re z / r)%R).
  assert (x * r = Re z)%R as X by (unfold x; field; lra).
  assert (x * x <= 1)%R as B.
  { assert ((x * x) * (r * r) <= 1 * (r * r))%R as H by (replace ((x*x)*(r*r))%R with ((x*r)*(x*r))%R by ring; rewrite X; nra).
    apply Rmult_le_reg_r in H; nra. }
  assert (-1 <= x <= 1)%R as B1 by nra.
  assert (r * sqrt (1 - Rsqr x) = Rabs (Im z))%R as Y.
  { apply Rsqr_inj; [apply Rmult_le_pos; [lra|apply sqrt_pos]|apply Rabs_pos|].
    unfold Rsqr. replace ((r * sqrt (1 - x * x)) * (r * sqrt (1 - x * x)))%R with ((r * r) * (sqrt (1 - x * x) * sqrt (1 - x * x)))%R by ring.
    rewrite sqrt_sqrt by nra. rewrite <- Rabs_mult, Rabs_pos_eq by nra. rewrite S. rewrite <- X at 1.
    replace ((x * r * Re z + Im z * Im z) * (1 - x * x))%R with ((r * r) * (1 - x * x))%R by (rewrite S, <- X; ring).
    rewrite Rmult_minus_distr_l. replace (r * r * (x * x))%R with ((x * r) * (x * r))%R by ring. rewrite X. lra. }
  destruct (Rle_dec 0 (Im z)) as [G|G].
  - rewrite cos_acos, sin_acos by auto. rewrite Y, Rabs_pos_eq by auto. rewrite Rmult_comm, X. destruct z; reflexivity.
  - rewrite cos_neg, sin_neg, cos_acos, sin_acos by auto.
    replace (r * - sqrt (1 - x²))%R with (- (r * sqrt (1 - x²)))%R by ring. rewrite Y, Rabs_left by lra.
    rewrite Rmult_comm, X. destruct z; simpl. f_equal. ring.
Qed.
Lemma polar_inj z w : Cabs z = Cabs w -> angle z = angle w -> z = w.
Proof. intros A B. rewrite (polar z), (polar w), A, B. reflexivity. Qed.
Lemma Cabs_scale z x : Cabs (Cmul z (RtoC (x * x))) = (Cabs z * (x * x))%R.
Proof.
  unfold Cabs. destruct z as [a b]. unfold Cmul, RtoC; cbn [fst snd].
  replace ((a * (x * x) - b * 0) * (a * (x * x) - b * 0) + (a * 0 + b * (x * x)) * (a * 0 + b * (x * x)))%R
    with ((a * a + b * b) * ((x * x) * (x * x)))%R by ring.
  assert (0 <= x * x)%R by nra. rewrite sqrt_mult_alt by nra. rewrite (sqrt_square (x * x)) by auto. reflexivity.
Qed.

(** * Filling *)
Lemma row_value_ok d L r : (coefficient r = true -> dget d (r_name r) <> None) -> exists v, row_value d L r = Ok v.
Proof.
  unfold coefficient, row_value, dlookup. destruct (r_kind r); intros H; eauto;
    (destruct (dget d (r_name r)) as [w|]; [simpl; eauto | exfalso; apply H; auto]).
Qed.
Lemma row_value_err d L r : coefficient r = true -> dget d (r_name r) = None -> row_value d L r = Err KeyError.
Proof. unfold coefficient, row_value, dlookup. intros C H. rewrite H. destruct (r_kind r); auto. discriminate. Qed.
Lemma mapM_err A B (f : A -> res B) l :
  (forall x, In x l -> (exists y, f x = Ok y) \/ f x = Err KeyError) ->
  (exists x, In x l /\ f x = Err KeyError) -> mapM f l = Err KeyError.
Proof.
  induction l as [|a t IH]; intros H (x & I & E); [destruct I|].
  destruct (H a (or_introl eq_refl)) as [[y F]|F]; unfold mapM in *; simpl; rewrite F; simpl; auto.
  destruct I as [->|I]; [congruence|]. rewrite IH; eauto. intros z Hz. apply H. right; auto.
Qed.
Lemma mapM_total A B (f : A -> res B) l : (forall x, In x l -> exists y, f x = Ok y) -> exists ys, mapM f l = Ok ys.
Proof.
  induction l as [|a t IH]; intros H; [exists []; reflexivity|].
  destruct (H a (or_introl eq_refl)) as [y F]. destruct IH as [ys E]; [intros; apply H; right; auto|].
  exists (y :: ys). unfold mapM in *. simpl. rewrite F. simpl. rewrite E. reflexivity.
Qed.
Lemma fill_row_cases d L r : (exists y, fill_row d L r = Ok y) \/ fill_row d L r = Err KeyError.
Proof.
  unfold fill_row. destruct (coefficient r) eqn:C.
  - destruct (dget d (r_name r)) eqn:E.
    + destruct (row_value_ok d L r) as [v ->]; [congruence|]. left. eexists. reflexivity.
    + rewrite row_value_err by auto. auto.
  - destruct (row_value_ok d L r) as [v ->]; [congruence|]. left. eexists. reflexivity.
Qed.
Lemma fill_row_err d L r : fill_row d L r = Err KeyError <-> coefficient r = true /\ dget d (r_name r) = None.
Proof.
  unfold fill_row. split.
  - intros H. destruct (coefficient r) eqn:C.
    + destruct (dget d (r_name r)) eqn:E; auto. destruct (row_value_ok d L r) as [v Q]; [congruence|]. rewrite Q in H. discriminate.
    + destruct (row_value_ok d L r) as [v Q]; [congruence|]. rewrite Q in H. discriminate.
  - intros [C E]. rewrite row_value_err by auto. reflexivity.
Qed.
Lemma fill_block_cases d L b : (exists y, fill_block d L b = Ok y) \/ fill_block d L b = Err KeyError.
Proof.
  unfold fill_block.
  assert ((exists ys, mapM (fill_row d L) (snd b) = Ok ys) \/ mapM (fill_row d L) (snd b) = Err KeyError) as [[ys ->] | ->].
  { induction (snd b) as [|r t IH]; [left; exists []; reflexivity|]. unfold mapM in *. simpl.
    destruct (fill_row_cases d L r) as [[y ->] | ->]; simpl; auto. destruct IH as [[ys ->] | ->]; simpl; eauto. }
  - left. eexists. reflexivity.
  - right. reflexivity.
Qed.
Definition missing (set : string) (d : dict string C) : Prop := exists n, In n (needed set) /\ dget d n = None.
Lemma needed_in set n : In n (needed set) <->
  exists b r, In b (table set) /\ In r (snd b) /\ coefficient r = true /\ r_name r = n.
Proof.
  unfold needed, rows. rewrite in_map_iff. split.
  - intros (r & E & H). apply filter_In in H as [H C]. apply in_flat_map in H as (b & B & H). exists b, r. auto.
  - intros (b & r & B & H & C & E). exists r. split; auto. apply filter_In. split; auto. apply in_flat_map. eauto.
Qed.
Lemma blocks_err set d L : missing set d -> mapM (fill_block d L) (table set) = Err KeyError.
Proof.
  intros (n & I & E). apply needed_in in I as (b & r & B & H & C & <-). apply mapM_err.
  - intros x _. apply fill_block_cases.
  - exists b. split; auto. unfold fill_block. rewrite (mapM_err _ _ (fill_row d L)); auto.
    + intros x _. apply fill_row_cases.
    + exists r. split; auto. apply fill_row_err. auto.
Qed.
Definition complete (set : string) (d : dict string C) : Prop := forall n, In n (needed set) -> dget d n <> None.
Lemma complete_or_missing set d : complete set d \/ missing set d.
Proof.
  unfold complete, missing. induction (needed set) as [|n t IH].
  - left. intros n [].
  - destruct (dget d n) eqn:E.
    + destruct IH as [H|(m & I & H)].
      * left. intros m [<-|I]; [congruence|auto].
      * right. exists m. split; auto. right; auto.
    + right. exists n. split; auto. left; auto.
Qed.
Lemma blocks_ok set d L : complete set d -> exists bs, mapM (fill_block d L) (table set) = Ok bs.
Proof.
  intros H. apply mapM_total. intros b B. unfold fill_block.
  destruct (mapM_total _ _ (fill_row d L) (snd b)) as [ys ->]; [|eexists; reflexivity].
  intros r R. destruct (fill_row_cases d L r) as [Q|Q]; auto. apply fill_row_err in Q as [C E].
  exfalso. apply (H (r_name r)); auto. apply needed_in. exists b, r. auto.
Qed.
Lemma fill_eq c d set L scheme : model_set set ->
  card_fill c d set L scheme =
  (let! bs := mapM (fill_block d L) (table set) in
   Ok (if String.eqb set "A" && String.eqb scheme "mw" then add_mw (dupdate c bs) else dupdate c bs)).
Proof. intros [-> | ->]; reflexivity. Qed.
Lemma init_eq set : model_set set -> init_card set = Ok (map (fun b => (b, [])) (if String.eqb set "A" then blocksA else blocksB)).
Proof. intros [-> | ->]; reflexivity. Qed.

(** The blocks of a new card are those that are filled, in this order. *)
Lemma tables_blocks : dkeys tableA = blocksA /\ dkeys tableB = blocksB.
Proof. split; vm_compute; reflexivity. Qed.
Lemma table_blocks set : dkeys (table set) = if String.eqb set "A" then blocksA else blocksB.
Proof. unfold table. destruct (String.eqb set "A"); apply tables_blocks. Qed.
Fixpoint nodupb (l : list string) : bool :=
  match l with [] => true | x :: t => negb (existsb (String.eqb x) t) && nodupb t end.
Lemma nodupb_ok l : nodupb l = true -> NoDup l.
Proof.
  induction l as [|x t IH]; simpl; constructor; apply andb_true_iff in H as [A B]; auto.
  apply negb_true_iff in A. intros I. assert (existsb (String.eqb x) t = true); [|congruence].
  apply existsb_exists. exists x. split; auto. apply String.eqb_refl.
Qed.
Lemma table_wf set : wf (table set).
Proof.
  unfold wf. rewrite table_blocks. destruct (String.eqb set "A"); apply nodupb_ok; vm_compute; reflexivity.
Qed.
Lemma fill_keys d L l bs : mapM (fill_block d L) l = Ok bs -> dkeys bs = dkeys l.
Proof.
  intros H. apply mapM_ok_iff in H. induction H as [|b x l r E F IH]; simpl; auto. unfold dkeys in *. simpl. rewrite IH.
  unfold fill_block in E. destruct (mapM (fill_row d L) (snd b)); simpl in E; [|discriminate]. injection E as <-. reflexivity.
Qed.
Lemma dupdate_same_keys V (c bs : dict string V) : wf bs -> dkeys c = dkeys bs -> dupdate c bs = bs.
Proof.
  intros W E. apply dict_ext.
  - apply wf_dupdate. unfold wf. rewrite E. exact W.
  - assert (forall l (d : dict string V), (forall k, In k (map fst l) -> In k (dkeys d)) -> dkeys (dupdate d l) = dkeys d) as G.
    { induction l as [|[k v] t IH]; intros d H; auto. rewrite dupdate_cons, IH.
      - assert (In k (dkeys d)) as K by (apply H; left; auto). clear -K. unfold dkeys in *.
        induction d as [|[k' v'] d IH]; simpl in *; [tauto|]. destruct (keqb k k') eqn:Q; simpl; auto.
        f_equal. apply IH. destruct K as [->|K]; auto. rewrite keqb_refl in Q. discriminate.
      - intros k' K'. apply In_dkeys_dset. right. apply H. right; auto. }
    rewrite G; auto. intros k K. rewrite E. exact K.
  - intros k _. rewrite dget_dupdate, dget_last_wf by auto. destruct (dget bs k) eqn:Q; auto.
    destruct (dget c k) eqn:Q2; auto. exfalso. apply dget_Some_key in Q2. rewrite E in Q2. apply key_dget in Q2 as [w Q2]. congruence.
Qed.
Lemma make_card_eq d set L scheme bs : model_set set -> mapM (fill_block d L) (table set) = Ok bs ->
  make_card d set L scheme = Ok (if String.eqb set "A" && String.eqb scheme "mw" then add_mw bs else bs).
Proof.
  intros M H. unfold make_card. rewrite init_eq by auto. cbn [bind]. rewrite fill_eq, H by auto. cbn [bind].
  rewrite (dupdate_same_keys _ _ bs); auto.
  - unfold wf. rewrite (fill_keys _ _ _ _ H). apply table_wf.
  - rewrite (fill_keys _ _ _ _ H), table_blocks. unfold dkeys. rewrite map_map. apply map_id.
Qed.
Lemma make_card_err d set L scheme : model_set set -> missing set d -> make_card d set L scheme = Err KeyError.
Proof.
  intros M H. unfold make_card. rewrite init_eq by auto. cbn [bind]. rewrite fill_eq, blocks_err by auto. reflexivity.
Qed.
Lemma dkeys_add_mw c : dkeys (add_mw c) = dkeys c.
Proof.
  unfold add_mw. destruct (dget c "FRBlock") as [l|] eqn:E; auto. apply dget_Some_key in E. unfold dkeys in *.
  generalize (insert_at (N.to_nat 1474) mw_row l). intros w.
  induction c as [|[k v] t IH]; [destruct E|]. cbn [dset]. destruct (keqb "FRBlock" k) eqn:Q; cbn; auto.
  f_equal. apply IH. destruct E as [E|E]; auto. cbn in E. subst. rewrite keqb_refl in Q. discriminate.
Qed.
Lemma make_card_blocks d set L scheme c : model_set set -> make_card d set L scheme = Ok c ->
  dkeys c = (if String.eqb set "A" then blocksA else blocksB).
Proof.
  intros M H. destruct (complete_or_missing set d) as [K|K]; [|rewrite make_card_err in H by auto; discriminate].
  destruct (blocks_ok set d L K) as [bs B]. rewrite (make_card_eq d set L scheme bs) in H by auto.
  injection H as <-. rewrite <- table_blocks, <- (fill_keys _ _ _ _ B).
  destruct (_ && _); [apply dkeys_add_mw|reflexivity].
Qed.
Lemma make_card_error_iff d set L scheme : model_set set ->
  (make_card d set L scheme = Err KeyError <-> missing set d) /\
  ((exists c, make_card d set L scheme = Ok c) <-> complete set d).
Proof.
  intros M. destruct (complete_or_missing set d) as [K|K].
  - destruct (blocks_ok set d L K) as [bs B]. rewrite (make_card_eq d set L scheme bs) by auto. split.
    + split; [discriminate|]. intros (n & I & E). exfalso. apply (K n); auto.
    + split; eauto.
  - rewrite make_card_err by auto. split.
    + split; auto.
    + split; [intros [c E]; discriminate|]. intros Q. destruct K as (n & I & E). exfalso. apply (Q n); auto.
Qed.

(** * Rows of a card *)
Definition card_row (c : card) (b : string) (x : crow) : Prop := exists l, dget c b = Some l /\ In x l.
Lemma Forall2_In_l {A B} (R : A -> B -> Prop) l r a : Forall2 R l r -> In a l -> exists b, In b r /\ R a b.
Proof.
  intros F. induction F as [|u v l r H F IH]; intros I; [destruct I|]. simpl in *. destruct I as [->|I]; eauto.
  destruct (IH I) as (z & Z & Q). eauto.
Qed.
Lemma Forall2_In_r {A B} (R : A -> B -> Prop) l r b : Forall2 R l r -> In b r -> exists a, In a l /\ R a b.
Proof.
  intros F. induction F as [|u v l r H F IH]; intros I; [destruct I|]. simpl in *. destruct I as [->|I]; eauto.
  destruct (IH I) as (z & Z & Q). eauto.
Qed.
Lemma fill_get d L l bs : mapM (fill_block d L) l = Ok bs -> forall b,
  match dget l b, dget bs b with
  | Some rs, Some xs => mapM (fill_row d L) rs = Ok xs
  | None, None => True
  | _, _ => False
  end.
Proof.
  intros H b. apply mapM_ok_iff in H.
  pose proof (Forall2_get (fun x y => fill_block d L x = Ok y)) as G. specialize (G ltac:(
    intros x y E; unfold fill_block in E; destruct (mapM (fill_row d L) (snd x)); simpl in E; [|discriminate]; injection E as <-; reflexivity) l bs H b).
  destruct (dget l b) as [rs|], (dget bs b) as [xs|]; auto.
  unfold fill_block in G. cbn [fst snd] in G. destruct (mapM (fill_row d L) rs); simpl in G; [|discriminate]. injection G as <-. reflexivity.
Qed.
(** Every row of the table appears, and every row of the card is one of them or
    the W mass. *)
Definition is_mw (set scheme : string) : bool := String.eqb set "A" && String.eqb scheme "mw".
Lemma add_mw_rows c b x : card_row (add_mw c) b x <-> card_row c b x \/ (b = "FRBlock" /\ x = mw_row /\ dget c "FRBlock" <> None).
Proof.
  unfold card_row, add_mw. destruct (dget c "FRBlock") as [l|] eqn:E.
  - generalize (N.to_nat 1474). intros n. rewrite dget_dset. destruct (keqb "FRBlock" b) eqn:Q.
    + apply keqb_eq in Q. subst b. rewrite E. split.
      * intros (l' & H & I). injection H as <-. unfold insert_at in I. apply in_app_or in I. destruct I as [I|[I|I]].
        -- left. exists l. split; auto. rewrite <- (firstn_skipn n l). apply in_or_app; auto.
        -- right. repeat split; auto. congruence.
        -- left. exists l. split; auto. rewrite <- (firstn_skipn n l). apply in_or_app; auto.
      * intros [(l' & H & I)|(_ & -> & _)].
        -- injection H as <-. eexists. split; [reflexivity|]. unfold insert_at. rewrite <- (firstn_skipn n l) in I.
           apply in_app_or in I. apply in_or_app. simpl. tauto.
        -- eexists. split; [reflexivity|]. unfold insert_at. apply in_or_app. simpl. auto.
    + split; auto. intros [H|(-> & _)]; auto. rewrite keqb_refl in Q. discriminate.
  - split; auto. intros [H|(_ & _ & H)]; auto. congruence.
Qed.
Lemma card_rows d set L scheme c b x : model_set set -> make_card d set L scheme = Ok c ->
  (card_row c b x <->
   (exists rs r, In (b, rs) (table set) /\ In r rs /\ fill_row d L r = Ok x) \/
   (is_mw set scheme = true /\ b = "FRBlock" /\ x = mw_row)).
Proof.
  intros M H. destruct (complete_or_missing set d) as [K|K]; [|rewrite make_card_err in H by auto; discriminate].
  destruct (blocks_ok set d L K) as [bs B]. rewrite (make_card_eq d set L scheme bs) in H by auto.
  assert (card_row bs b x <-> exists rs r, In (b, rs) (table set) /\ In r rs /\ fill_row d L r = Ok x) as G.
  { pose proof (fill_get _ _ _ _ B b) as G. unfold card_row. split.
    - intros (xs & E & I). rewrite E in G. destruct (dget (table set) b) as [rs|] eqn:T; [|tauto].
      apply mapM_ok_iff in G. destruct (Forall2_In_r _ _ _ _ G I) as (r & R & Q). exists rs, r. split; auto.
      apply dget_In; auto.
    - intros (rs & r & I & R & Q). apply In_dget in I; [|apply table_wf]. rewrite I in G.
      destruct (dget bs b) as [xs|]; [|tauto]. exists xs. split; auto. apply mapM_ok_iff in G.
      destruct (Forall2_In_l _ _ _ _ G R) as (y & Y & Q2). congruence. }
  fold (is_mw set scheme) in H. injection H as <-. destruct (is_mw set scheme) eqn:W.
  - rewrite add_mw_rows, G. split.
    + intros [H|(-> & -> & _)]; auto.
    + intros [H|(_ & -> & ->)]; auto. right. split; auto. split; auto.
      pose proof (fill_get _ _ _ _ B "FRBlock") as Q. unfold is_mw in W. apply andb_true_iff in W as [W _].
      apply String.eqb_eq in W. subst set. change (table "A") with tableA in Q.
      change (dget tableA "FRBlock") with (Some rowsA_FRBlock) in Q. destruct (dget bs "FRBlock"); [congruence|tauto].
  - rewrite G. split; auto. intros [H|(H & _)]; auto. discriminate.
Qed.

(** * Index symmetries of single entries *)
(** Entries equal to the entry [x] by the symmetry class, and entries equal to its
    complex conjugate. *)
Definition same_entries (k : symkind) (x : idx) : list idx :=
  x :: match k, x with
       | SSymmetric, [i; j] => [[j; i]]
       | SIdentical, [p; r; s; u] => [[s; u; p; r]]
       | SEe, [p; r; s; u] => [[s; u; p; r]; [p; u; s; r]; [s; r; p; u]]
       | SQque, [p; r; s; u] => [[r; p; s; u]]
       | _, _ => []
       end.
Definition conj_entries (k : symkind) (x : idx) : list idx :=
  match k, x with
  | SReal, [] => [[]]
  | SHermitian, [i; j] => [[j; i]]
  | SCurrents, [p; r; s; u] => [[r; p; u; s]]
  | SIdentical, [p; r; s; u] => [[r; p; u; s]; [u; s; r; p]]
  | SEe, [p; r; s; u] => [[r; p; u; s]; [u; s; r; p]; [r; s; u; p]; [u; p; r; s]]
  | _, _ => []
  end.
Lemma same_entries_eq op s x y v : fits s v -> index_symmetry op v -> In x (idxs s) ->
  In y (same_entries (sym_kind op) x) -> entry v y = entry v x.
Proof.
  intros F S X I. unfold same_entries in I. destruct I as [<-|I]; auto. pose proof (idxs_length _ _ X) as N.
  unfold index_symmetry in S. destruct (sym_kind op) eqn:K; try (destruct I; fail).
  all: destruct s, v as [z|m|t]; try (destruct F; fail); destruct x as [|a [|b [|c [|e [|]]]]]; try discriminate; simpl in I; try tauto.
  - destruct I as [<-|[]]. apply (S b a).
  - destruct I as [<-|[]]. symmetry. apply (proj2 S a b c e).
  - destruct S as [[S1 S2] S3]. destruct I as [<-|[<-|[<-|[]]]]; simpl.
    + symmetry. apply (S2 a b c e).
    + symmetry. apply (S3 a b c e).
    + change (t c b a e = t a b c e). rewrite (S3 a b c e), (S2 a e c b). reflexivity.
  - destruct I as [<-|[]]. symmetry. apply (S a b c e).
Qed.
Lemma conj_entries_eq op s x y v : fits s v -> index_symmetry op v -> In x (idxs s) ->
  In y (conj_entries (sym_kind op) x) -> entry v y = Cconj (entry v x).
Proof.
  intros F S X I. unfold conj_entries in I. pose proof (idxs_length _ _ X) as N.
  unfold index_symmetry in S. destruct (sym_kind op) eqn:K; try (destruct I; fail).
  all: destruct s, v as [z|m|t]; try (destruct F; fail); destruct x as [|a [|b [|c [|e [|]]]]]; try discriminate; simpl in I; try tauto.
  - destruct I as [<-|[]]. destruct z as [u w]. simpl in *. subst w. unfold Cconj. simpl. f_equal. ring.
  - destruct I as [<-|[]]. apply (S b a).
  - destruct I as [<-|[]]. apply (S b a e c).
  - destruct S as [S1 S2]. destruct I as [<-|[<-|[]]].
    + apply (S1 b a e c).
    + change (t e c b a = Cconj (t a b c e)). rewrite (S2 e c b a). apply S1.
  - destruct S as [[S1 S2] S3]. assert (t b a e c = Cconj (t a b c e)) as H by apply S1.
    destruct I as [<-|[<-|[<-|[<-|[]]]]].
    + exact H.
    + change (t e c b a = Cconj (t a b c e)). rewrite (S2 e c b a). exact H.
    + change (t b c e a = Cconj (t a b c e)). rewrite (S3 b c e a). exact H.
    + change (t e a b c = Cconj (t a b c e)). rewrite (S2 e a b c), (S3 b c e a). exact H.
Qed.
Definition self_conj (k : symkind) (x : idx) : bool :=
  existsb (fun y => existsb (idx_eqb y) (conj_entries k x)) (same_entries k x).
Lemma self_conj_real op s x v : fits s v -> index_symmetry op v -> In x (idxs s) -> self_conj (sym_kind op) x = true ->
  Im (entry v x) = 0%R.
Proof.
  intros F S X H. apply existsb_exists in H as (y & I & H). apply existsb_exists in H as (y' & J & E).
  apply idx_eqb_eq in E. subst y'. pose proof (same_entries_eq op s x y v F S X I) as A.
  pose proof (conj_entries_eq op s x y v F S X J) as B. rewrite A in B. clear -B.
  destruct (entry v x) as [a b]. unfold Cconj in B. simpl in *. injection B as B. lra.
Qed.

(** * Labels *)
(** SMEFTsim's name of an operator. *)
Definition smeftsim_op (op : string) : string :=
  if String.eqb op "phiD" then "HDD" else if String.eqb op "phiWtildeB" then "HWBtil"
  else replace (replace op "tilde" "til") "phi" "H".
(** Indices run together, or separated by x. *)
Fixpoint x_digits (x : idx) : string :=
  match x with [] => "" | [i] => digits [i] | i :: t => (digits [i] ++ "x" ++ x_digits t)%string end.
Definition matrix_block (b : string) : bool := negb (String.eqb b "FRBlock" || String.eqb b "NEWCOUP").
Definition label_of (matrix phase : bool) (op : string) (y : idx) : string :=
  match y with
  | [] => ("# c" ++ smeftsim_op op)%string
  | _ => ("# c" ++ smeftsim_op op ++ (if phase then "Ph" else "Abs") ++ (if matrix then x_digits y else digits y))%string
  end.
Definition phase (r : row) : bool := match r_kind r with VAngle => true | _ => false end.
Definition flN (i : fl) : N := match i with F1 => 1 | F2 => 2 | F3 => 3 end%N.

(** Search for the operator and the indices: the name determines them. *)
Definition decode (n : string) : option (string * shape * idx) :=
  match op_shape (name_part n) with
  | Some Sh0 => Some (name_part n, Sh0, [])
  | Some s => match parse_index 4 (index_part n) with Ok x => Some (name_part n, s, x) | Err _ => None end
  | None => None
  end.
Definition same_text (a b : string) : bool := String.eqb (lower a) (lower b).
Definition ix_eqb (a b : list N) : bool := if list_eq_dec N.eq_dec a b then true else false.
Definition row_ok (b : string) (r : row) : bool :=
  if coefficient r then
      match decode (r_name r) with
      | Some (op, s, x) =>
          String.eqb (r_name r) (sname op x) && existsb (idx_eqb x) (idxs s)
          && (match op_shape op, s with Some Sh0, Sh0 | Some Sh2, Sh2 | Some Sh4, Sh4 => true | _, _ => false end)
          && existsb (fun y => same_text (r_label r) (label_of (matrix_block b) (phase r) op y)
                               && (if matrix_block b then idx_eqb y x && ix_eqb (r_ix r) (map flN x) else true))
                     (same_entries (sym_kind op) x)
          && match r_kind r with VRaw => self_conj (sym_kind op) x | VAngle => match x with [] => false | _ => true end | _ => true end
      | None => false
      end
  else same_text (r_label r) "# LambdaSMEFT" || same_text (r_label r) "# Lambda".
Lemma rows_ok set : model_set set -> forallb (fun b => forallb (row_ok (fst b)) (snd b)) (table set) = true.
Proof. intros [-> | ->]; vm_cast_no_check (eq_refl true). Qed.

(** What a row of a card says about the coefficients [d]. *)
Definition row_correct (d : dict string C) (L : R) (b : string) (x : crow) : Prop :=
  let '(ix, v, lab) := x in
  (v = RtoC L /\ (lower lab = lower "# LambdaSMEFT" \/ lower lab = lower "# Lambda")) \/
  (exists op s i j w ph,
     op_shape op = Some s /\ In i (idxs s) /\ In j (idxs s) /\ dget d (sname op i) = Some w /\
     (forall a, fits s a -> index_symmetry op a -> entry a j = entry a i) /\
     lower lab = lower (label_of (matrix_block b) ph op j) /\
     (matrix_block b = true -> ix = map flN j) /\
     (if ph then i <> [] /\ v = RtoC (angle w)
      else v = RtoC (Cabs w * (L * L)) \/
           (v = Cmul w (RtoC (L * L)) /\ forall a, fits s a -> index_symmetry op a -> Im (entry a i) = 0%R))).
Lemma same_entries_in s k x y : In x (idxs s) -> In y (same_entries k x) -> In y (idxs s).
Proof.
  intros X I. apply length_idxs. pose proof (idxs_length _ _ X) as N. rewrite <- N.
  destruct I as [<-|I]; auto. destruct k; try (destruct I; fail); destruct x as [|a [|p [|c [|e [|]]]]]; simpl in I; try tauto;
    repeat destruct I as [<-|I]; try reflexivity; tauto.
Qed.
Lemma idx_in_existsb x l : existsb (idx_eqb x) l = true -> In x l.
Proof. intros H. apply existsb_exists in H as (y & I & E). apply idx_eqb_eq in E. subst; auto. Qed.
Lemma row_ok_correct d L b r x : row_ok b r = true -> fill_row d L r = Ok x -> row_correct d L b x.
Proof.
  intros K F. unfold row_ok in K. unfold fill_row in F. destruct (coefficient r) eqn:Q.
  - destruct (decode (r_name r)) as [[[op s] i]|]; [|discriminate].
    rewrite !andb_true_iff in K. destruct K as ((((E & I) & S) & J) & V).
    apply String.eqb_eq in E. apply idx_in_existsb in I. apply existsb_exists in J as (j & J & T).
    apply andb_true_iff in T as [T U]. apply String.eqb_eq in T.
    assert (op_shape op = Some s) as O by (destruct (op_shape op) as [[]|], s; congruence).
    assert (exists w, dget d (sname op i) = Some w) as [w W].
    { rewrite <- E. destruct (dget d (r_name r)) eqn:G; eauto. rewrite row_value_err in F by auto. discriminate. }
    unfold row_value, dlookup in F. rewrite E, W in F.
    assert (forall v, x = (r_ix r, v, r_label r) ->
      (if phase r then i <> [] /\ v = RtoC (angle w)
      else v = RtoC (Cabs w * (L * L)) \/
           (v = Cmul w (RtoC (L * L)) /\ forall a, fits s a -> index_symmetry op a -> Im (entry a i) = 0%R)) ->
      row_correct d L b x) as G.
    { intros v -> H. right. exists op, s, i, j, w, (phase r). repeat split; auto.
      - eapply same_entries_in; eauto.
      - intros a Fa Sa. eapply same_entries_eq; eauto.
      - intros M. rewrite M in U. apply andb_true_iff in U as [U1 U2]. apply idx_eqb_eq in U1. subst j.
        unfold ix_eqb in U2. destruct (list_eq_dec N.eq_dec (r_ix r) (map flN i)); congruence. }
    unfold phase in G. unfold coefficient in Q. destruct (r_kind r); simpl in F; injection F as <-; try discriminate.
    + eapply G; [reflexivity|]. auto.
    + eapply G; [reflexivity|]. left. f_equal. apply Cabs_scale.
    + eapply G; [reflexivity|]. split; [destruct i; congruence|auto].
    + eapply G; [reflexivity|]. right. split; auto. intros a Fa Sa. eapply self_conj_real; eauto.
  - unfold row_value, coefficient in *. destruct (r_kind r); try discriminate. simpl in F. injection F as <-.
    left. split; auto. apply orb_true_iff in K as [K|K]; apply String.eqb_eq in K; auto.
Qed.
Lemma card_correct d set L scheme c b x : model_set set -> make_card d set L scheme = Ok c -> card_row c b x ->
  row_correct d L b x \/ (set = "A" /\ scheme = "mw" /\ b = "FRBlock" /\ x = mw_row).
Proof.
  intros M H I. apply (card_rows _ _ _ _ _ _ _ M H) in I. destruct I as [(rs & r & B & R & F)|(W & -> & ->)].
  - left. pose proof (rows_ok set M) as K. rewrite forallb_forall in K. specialize (K _ B). rewrite forallb_forall in K.
    exact (row_ok_correct _ _ _ _ _ (K r R) F).
  - right. unfold is_mw in W. apply andb_true_iff in W as [W1 W2]. apply String.eqb_eq in W1, W2. auto.
Qed.

(** * Numbering *)
Definition Nseq (a : N) (n : nat) : list N := map (fun k => (a + N.of_nat k)%N) (seq 0 n).
Definition lists_eqb (a b : list (list N)) : bool := if list_eq_dec (list_eq_dec N.eq_dec) a b then true else false.
Definition numbers (b : string) (l : list (list N)) : Prop :=
  if matrix_block b then l = map (map flN) idx2 \/ l = map (map flN) idx4
  else l = map (fun n => [n]) (Nseq 0 (length l)) \/ l = map (fun n => [n]) (Nseq 1 (length l)).
Definition numbers_b (b : string) (l : list (list N)) : bool :=
  if matrix_block b then lists_eqb l (map (map flN) idx2) || lists_eqb l (map (map flN) idx4)
  else lists_eqb l (map (fun n => [n]) (Nseq 0 (length l))) || lists_eqb l (map (fun n => [n]) (Nseq 1 (length l))).
Lemma numbers_ok b l : numbers_b b l = true -> numbers b l.
Proof.
  unfold numbers_b, numbers, lists_eqb. destruct (matrix_block b); rewrite orb_true_iff;
    intros [H|H]; destruct (list_eq_dec _ _ _) in H; try discriminate; auto.
Qed.
Lemma table_numbers set : model_set set -> forallb (fun b => numbers_b (fst b) (map r_ix (snd b))) (table set) = true.
Proof. intros [-> | ->]; vm_cast_no_check (eq_refl true). Qed.
Lemma mw_numbers : numbers_b "FRBlock" (insert_at (N.to_nat 1474) [1475%N] (map r_ix rowsA_FRBlock)) = true.
Proof. vm_compute; reflexivity. Qed.
Definition row_number (x : crow) : list N := fst (fst x).
Lemma fill_numbers d L rs xs : mapM (fill_row d L) rs = Ok xs -> map row_number xs = map r_ix rs.
Proof.
  intros H. apply mapM_ok_iff in H. induction H as [|r x l q E F IH]; simpl; auto. f_equal; auto.
  unfold fill_row in E. destruct (row_value d L r); simpl in E; [|discriminate]. injection E as <-. reflexivity.
Qed.
Lemma map_insert A B (f : A -> B) n x l : map f (insert_at n x l) = insert_at n (f x) (map f l).
Proof. unfold insert_at. rewrite map_app. cbn [map]. rewrite firstn_map, skipn_map. reflexivity. Qed.
Lemma tableA_FRBlock : dget tableA "FRBlock" = Some rowsA_FRBlock.
Proof. reflexivity. Qed.
#[local] Opaque rowsA_FRBlock.
Lemma card_numbers d set L scheme c b xs : model_set set -> make_card d set L scheme = Ok c -> dget c b = Some xs ->
  numbers b (map row_number xs).
Proof.
  intros M H I. destruct (complete_or_missing set d) as [K|K]; [|rewrite make_card_err in H by auto; discriminate].
  destruct (blocks_ok set d L K) as [bs B]. rewrite (make_card_eq d set L scheme bs) in H by auto.
  pose proof (fill_get _ _ _ _ B) as G. apply numbers_ok. pose proof (table_numbers set M) as T. rewrite forallb_forall in T.
  assert (forall ys, dget bs b = Some ys -> numbers_b b (map row_number ys) = true) as P.
  { intros ys Y. specialize (G b). rewrite Y in G. destruct (dget (table set) b) as [rs|] eqn:Q; [|tauto].
    rewrite (fill_numbers _ _ _ _ G). apply (T (b, rs)). apply dget_In; auto. }
  destruct (String.eqb set "A" && String.eqb scheme "mw") eqn:W; injection H as <-; [|auto].
  unfold add_mw in I. destruct (dget bs "FRBlock") as [l|] eqn:Q; [|auto].
  rewrite dget_dset in I. destruct (keqb "FRBlock" b) eqn:E; [|auto].
  apply keqb_eq in E. subst b. injection I as <-. rewrite map_insert.
  apply andb_true_iff in W as [W _]. apply String.eqb_eq in W. subst set. change (table "A") with tableA in G.
  specialize (G "FRBlock"). rewrite tableA_FRBlock, Q in G. rewrite (fill_numbers _ _ _ _ G). exact mw_numbers.
Qed.
#[local] Transparent rowsA_FRBlock.

(** * Each coefficient once *)
Definition kinds (set : string) (ph : bool) : list string :=
  map r_name (filter (fun r => coefficient r && Bool.eqb (phase r) ph) (rows set)).
Lemma kinds_NoDup set ph : model_set set -> NoDup (kinds set ph).
Proof. intros [-> | ->]; destruct ph; apply Trie.distinct_ok; vm_cast_no_check (eq_refl true). Qed.
Lemma labels_NoDup set : model_set set -> NoDup (map (fun r => lower (r_label r)) (rows set)).
Proof. intros [-> | ->]; apply Trie.distinct_ok; vm_cast_no_check (eq_refl true). Qed.
Definition card_labels (c : card) : list string := flat_map (fun b => map snd (snd b)) c.

(** * Completeness of the cards *)
Definition not_in_smeftsim : list string := ["llphiphi"; "duql"; "qque"; "qqql"; "duue"].
Definition covered (names : list string) (op : string) (x : idx) : bool :=
  existsb (fun y => existsb (String.eqb (sname op y)) names)
    (same_entries (sym_kind op) x ++ conj_entries (sym_kind op) x).
Definition covered_t (t : Trie.trie) (op : string) (x : idx) : bool :=
  existsb (fun y => Trie.tmem (sname op y) t) (same_entries (sym_kind op) x ++ conj_entries (sym_kind op) x).
Definition all_covered_by (t : Trie.trie) : bool :=
  forallb (fun os => negb (mem (fst os) WC_keys) || mem (fst os) not_in_smeftsim || forallb (covered_t t (fst os)) (idxs (snd os))) C_keys_shape.
Lemma all_covered_t set : model_set set -> all_covered_by (Trie.build (needed set)) = true.
Proof. intros [-> | ->]; vm_cast_no_check (eq_refl true). Qed.
Lemma existsb_ext {A} (f g : A -> bool) l : (forall x, f x = g x) -> existsb f l = existsb g l.
Proof. intros H. induction l as [|x l IH]; simpl; auto. rewrite H, IH. reflexivity. Qed.
Lemma forallb_ext {A} (f g : A -> bool) l : (forall x, f x = g x) -> forallb f l = forallb g l.
Proof. intros H. induction l as [|x l IH]; simpl; auto. rewrite H, IH. reflexivity. Qed.
Lemma covered_build names op x : covered_t (Trie.build names) op x = covered names op x.
Proof. apply existsb_ext. intros y. apply Trie.build_mem. Qed.
Lemma all_covered set : model_set set ->
  forallb (fun os => negb (mem (fst os) WC_keys) || mem (fst os) not_in_smeftsim || forallb (covered (needed set) (fst os)) (idxs (snd os))) C_keys_shape = true.
Proof.
  intros M. rewrite <- (all_covered_t set M). apply forallb_ext. intros os. f_equal. apply forallb_ext. intros x. symmetry. apply covered_build.
Qed.
Lemma card_covers set op s x : model_set set -> op_shape op = Some s -> mem op WC_keys = true -> mem op not_in_smeftsim = false -> In x (idxs s) ->
  exists y, In (sname op y) (needed set) /\
    ((forall a, fits s a -> index_symmetry op a -> entry a y = entry a x) \/
     (forall a, fits s a -> index_symmetry op a -> entry a y = Cconj (entry a x))).
Proof.
  intros M O W N X. pose proof (all_covered set M) as H. rewrite forallb_forall in H.
  specialize (H (op, s) (dget_In _ _ _ O)). cbn [fst snd] in H. rewrite W, N in H. cbn [negb orb] in H. rewrite forallb_forall in H.
  specialize (H x X). apply existsb_exists in H as (y & I & H). apply existsb_exists in H as (n & J & E).
  apply String.eqb_eq in E. subst n. exists y. split; auto. apply in_app_or in I as [I|I].
  - left. intros a F S. eapply same_entries_eq; eauto.
  - right. intros a F S. eapply conj_entries_eq; eauto.
Qed.

(** * What a card determines *)
Definition sign_lost (set : string) : list string :=
  flat_map (fun op => map (fun i => sname op [i; i]) all_fl) ["phil1"; "phil3"; "phiq1"; "phiq3"; "phie"; "phiu"; "phid"]
  ++ (if String.eqb set "A" then ["ee_3333"] else []).
Definition has_kind (set n : string) (f : vkind -> bool) : bool :=
  existsb (fun r => if f (r_kind r) then String.eqb (r_name r) n else false) (rows set).
Definition is_raw k := match k with VRaw => true | _ => false end.
Definition is_abs k := match k with VAbs | VAbsAll => true | _ => false end.
Definition is_ang k := match k with VAngle => true | _ => false end.
Definition determined (set n : string) : bool :=
  has_kind set n is_raw || (has_kind set n is_abs && has_kind set n is_ang).
Definition of_kind (set : string) (f : vkind -> bool) : list string := map r_name (filter (fun r => f (r_kind r)) (rows set)).
Lemma has_kind_build set n f : Trie.tmem n (Trie.build (of_kind set f)) = has_kind set n f.
Proof.
  rewrite Trie.build_mem. unfold of_kind, has_kind. generalize (rows set). intros l. induction l as [|r l IH]; [reflexivity|].
  cbn [filter existsb]. destruct (f (r_kind r)); cbn [map existsb]; rewrite IH; auto. rewrite String.eqb_sym. reflexivity.
Qed.
Definition determined_by (d a b c : Trie.trie) (names : list string) : bool :=
  forallb (fun n => Trie.tmem n d || (Trie.tmem n a || (Trie.tmem n b && Trie.tmem n c))) names.
Lemma all_determined_t set : model_set set -> determined_by (Trie.build (sign_lost set))
  (Trie.build (of_kind set is_raw)) (Trie.build (of_kind set is_abs)) (Trie.build (of_kind set is_ang)) (needed set) = true.
Proof. intros [-> | ->]; vm_cast_no_check (eq_refl true). Qed.
Lemma all_determined set : model_set set ->
  forallb (fun n => mem n (sign_lost set) || determined set n) (needed set) = true.
Proof.
  intros M. rewrite <- (all_determined_t set M). apply forallb_ext. intros n. rewrite !has_kind_build, Trie.build_mem. reflexivity.
Qed.
Lemma lost_only_abs set : model_set set ->
  forallb (fun r => negb (mem (r_name r) (sign_lost set)) || is_abs (r_kind r)) (rows set) = true.
Proof. intros [-> | ->]; vm_cast_no_check (eq_refl true). Qed.
Lemma has_kind_row set n f : has_kind set n f = true -> exists b rs r, In (b, rs) (table set) /\ In r rs /\ r_name r = n /\ f (r_kind r) = true.
Proof.
  intros H. apply existsb_exists in H as (r & I & H). destruct (f (r_kind r)) eqn:F; [|discriminate]. apply String.eqb_eq in H.
  apply in_flat_map in I as ([b rs] & B & I). exists b, rs, r. auto.
Qed.
Lemma insert_inj A n (x : A) l l' : length l = length l' -> insert_at n x l = insert_at n x l' -> l = l'.
Proof.
  unfold insert_at. revert l l'. induction n as [|n IH]; intros l l' N E; [simpl in E; congruence|].
  destruct l as [|a l], l' as [|a' l']; simpl in *; try discriminate; auto. injection E as -> E. injection N as N. f_equal. auto.
Qed.
Lemma Forall2_both {A B} (R S : A -> B -> Prop) l r a : Forall2 R l r -> Forall2 S l r -> In a l -> exists b, R a b /\ S a b.
Proof.
  intros F. induction F as [|u v l r H F IH]; intros G I; [destruct I|]. inversion G; subst.
  destruct I as [<-|I]; eauto.
Qed.
Lemma Forall2_len {A B} (R : A -> B -> Prop) l r : Forall2 R l r -> length l = length r.
Proof. intros F. induction F; simpl; auto. Qed.
(** Equal cards have equal rows. *)
Lemma cards_equal set d d' L scheme c : model_set set ->
  make_card d set L scheme = Ok c -> make_card d' set L scheme = Ok c ->
  forall b rs r, In (b, rs) (table set) -> In r rs -> row_value d L r = row_value d' L r.
Proof.
  intros M H H'. destruct (complete_or_missing set d) as [K|K]; [|rewrite make_card_err in H by auto; discriminate].
  destruct (complete_or_missing set d') as [K'|K']; [|rewrite make_card_err in H' by auto; discriminate].
  destruct (blocks_ok set d L K) as [bs B]. rewrite (make_card_eq d set L scheme bs) in H by auto.
  destruct (blocks_ok set d' L K') as [bs' B']. rewrite (make_card_eq d' set L scheme bs') in H' by auto.
  assert (forall b, dget bs b = dget bs' b) as E.
  { rewrite <- H' in H. injection H as H. destruct (String.eqb set "A" && String.eqb scheme "mw"); [|congruence].
    intros b. pose proof (fill_get _ _ _ _ B "FRBlock") as G. pose proof (fill_get _ _ _ _ B' "FRBlock") as G'.
    unfold add_mw in H. destruct (dget (table set) "FRBlock") as [rs|].
    - destruct (dget bs "FRBlock") as [l|] eqn:Q; [|tauto]. destruct (dget bs' "FRBlock") as [l'|] eqn:Q'; [|tauto].
      assert (length l = length l') as N.
      { apply mapM_ok_iff in G. apply mapM_ok_iff in G'. apply Forall2_len in G. apply Forall2_len in G'. congruence. }
      revert H. generalize (N.to_nat 1474). intros n H. pose proof (f_equal (fun c => dget c b) H) as D. cbv beta in D. rewrite !dget_dset in D.
      destruct (keqb "FRBlock" b) eqn:W; auto. apply keqb_eq in W. subst b. injection D as D. apply insert_inj in D; auto.
      congruence.
    - destruct (dget bs "FRBlock"); [tauto|]. destruct (dget bs' "FRBlock"); [tauto|]. congruence. }
  intros b rs r I R. pose proof (fill_get _ _ _ _ B b) as G. pose proof (fill_get _ _ _ _ B' b) as G'.
  apply In_dget in I; [|apply table_wf]. rewrite I in G, G'. rewrite E in G.
  destruct (dget bs' b) as [xs|]; [|tauto]. apply mapM_ok_iff in G. apply mapM_ok_iff in G'.
  destruct (Forall2_both _ _ _ _ _ G G' R) as (x & X & X'). unfold fill_row in X, X'.
  destruct (row_value d L r); simpl in X; [|discriminate]. destruct (row_value d' L r); simpl in X'; [|discriminate]. congruence.
Qed.
Lemma card_determines set d d' L scheme c : model_set set -> L <> 0%R ->
  make_card d set L scheme = Ok c -> make_card d' set L scheme = Ok c ->
  forall n, In n (needed set) -> ~ In n (sign_lost set) -> dget d n = dget d' n.
Proof.
  intros M N H H' n I S. pose proof (cards_equal set d d' L scheme c M H H') as E.
  assert (0 < L * L)%R as P by (destruct (Rtotal_order L 0) as [|[|]]; [nra|tauto|nra]).
  assert (exists w, dget d n = Some w) as [w W].
  { destruct (dget d n) eqn:Q; eauto. rewrite make_card_err in H; [discriminate|auto|exists n; auto]. }
  assert (exists w, dget d' n = Some w) as [w' W'].
  { destruct (dget d' n) eqn:Q; eauto. rewrite make_card_err in H'; [discriminate|auto|exists n; auto]. }
  rewrite W, W'. f_equal. pose proof (all_determined set M) as D. rewrite forallb_forall in D. specialize (D n I).
  apply orb_true_iff in D as [D|D]; [apply (mem_In _ _ _) in D; tauto|]. unfold determined in D. apply orb_true_iff in D as [D|D].
  - apply has_kind_row in D as (b & rs & r & B & R & <- & K). specialize (E b rs r B R). unfold row_value, dlookup in E.
    rewrite W, W' in E. destruct (r_kind r); try discriminate. simpl in E. injection E as E1 E2.
    destruct w, w'. simpl in *. f_equal; nra.
  - apply andb_true_iff in D as [D1 D2].
    apply has_kind_row in D1 as (b & rs & r & B & R & Q & K). pose proof (E b rs r B R) as A. unfold row_value, dlookup in A.
    apply has_kind_row in D2 as (b2 & rs2 & r2 & B2 & R2 & Q2 & K2). pose proof (E b2 rs2 r2 B2 R2) as A2. unfold row_value, dlookup in A2.
    rewrite Q, W, W' in A. rewrite Q2, W, W' in A2. apply polar_inj.
    + destruct (r_kind r); try discriminate; cbn [bind] in A; [|rewrite !Cabs_scale in A];
        injection A as A; apply Rmult_eq_reg_r in A; auto; lra.
    + destruct (r_kind r2); try discriminate. cbn [bind] in A2. injection A2 as A2. exact A2.
Qed.
Lemma mapM_ext A B (f g : A -> res B) l : (forall x, In x l -> f x = g x) -> mapM f l = mapM g l.
Proof.
  induction l as [|a t IH]; intros H; auto. unfold mapM in *. simpl. rewrite (H a) by (left; auto).
  rewrite IH; auto. intros; apply H; right; auto.
Qed.
(** Coefficients that differ only by the phase of a sign_lost one give the same card. *)
Lemma card_sign_lost set d d' L scheme : model_set set ->
  (forall n, In n (needed set) -> ~ In n (sign_lost set) -> dget d n = dget d' n) ->
  (forall n, In n (sign_lost set) -> match dget d n, dget d' n with Some w, Some w' => Cabs w = Cabs w' | None, None => True | _, _ => False end) ->
  make_card d set L scheme = make_card d' set L scheme.
Proof.
  intros M H H'. unfold make_card. rewrite init_eq by auto. cbn [bind]. rewrite !fill_eq by auto.
  rewrite (mapM_ext _ _ (fill_block d L) (fill_block d' L)); auto. intros [b rs] B. unfold fill_block. cbn [fst snd].
  rewrite (mapM_ext _ _ (fill_row d L) (fill_row d' L)); auto. intros r R. unfold fill_row.
  assert (row_value d L r = row_value d' L r) as ->; auto.
  destruct (coefficient r) eqn:Q; [|unfold row_value, coefficient in *; destruct (r_kind r); try discriminate; auto].
  assert (In r (rows set)) as RR by (apply in_flat_map; exists (b, rs); auto).
  assert (In (r_name r) (needed set)) as I by (apply needed_in; exists (b, rs), r; auto).
  destruct (in_dec string_dec (r_name r) (sign_lost set)) as [S|S].
  - pose proof (lost_only_abs set M) as K. rewrite forallb_forall in K. specialize (K r RR).
    apply orb_true_iff in K as [K|K].
    { apply negb_true_iff in K. apply (proj1 (mem_notIn _ _ _)) in K. tauto. }
    specialize (H' _ S). unfold row_value, dlookup. destruct (dget d (r_name r)), (dget d' (r_name r)); try tauto.
    destruct (r_kind r); try discriminate; cbn [bind]; [|rewrite !Cabs_scale]; rewrite H'; reflexivity.
  - specialize (H _ I S). unfold row_value, dlookup. rewrite H. reflexivity.
Qed.
