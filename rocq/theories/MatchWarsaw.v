(** From the Warsaw basis to WET: the rotation to the Warsaw up basis and rotate_down together. *)
From Coq Require Import String List Bool Arith Reals Lra Lia FunctionalExtensionality.
From Verif Require Import PyBase PyDict Cplx Tensor SmeftSyntax SmeftTab Wc Params Smeft SmeftSpec SmeftNames SmeftRot SmeftWarsaw SmeftIll
  MatchOps MatchTab Match MatchSpec MatchFacts MatchRot MatchThm MatchSm MatchLin.
Import ListNotations.
Open Scope string_scope.
Open Scope list_scope.
Open Scope nat_scope.
#[local] Opaque WC_keys C_keys_shape match_tab.

(** ** What a change of basis of left-handed quarks does to an operator *)
(** The left-handed fields that [who] selects are replaced, f = W f'. *)
Fixpoint new_left4 (who : fermion -> bool) (W : mat) (n : nat) (s : list slot) (x : ten) : ten :=
  match s with
  | [] => x
  | (f, b, LH) :: t => if who f then on_slot n (if b then mconj W else W) (new_left4 who W (S n) t x) else new_left4 who W (S n) t x
  | _ :: t => new_left4 who W (S n) t x
  end.
Fixpoint new_left2 (who : fermion -> bool) (W : mat) (n : nat) (s : list slot) (x : mat) : mat :=
  match s with
  | [] => x
  | (f, b, LH) :: t => if who f then on_slot2 n (if b then mconj W else W) (new_left2 who W (S n) t x) else new_left2 who W (S n) t x
  | _ :: t => new_left2 who W (S n) t x
  end.
Definition new_left (who : fermion -> bool) (W : mat) (s : list slot) (v : arr) : arr :=
  match v with A0 _ => v | A2 m => A2 (new_left2 who W 0 s m) | A4 t => A4 (new_left4 who W 0 s t) end.
Definition is_up (f : fermion) : bool := match f with Up => true | _ => false end.
Definition is_down (f : fermion) : bool := match f with Dn => true | _ => false end.
Definition is_quark (f : fermion) : bool := match f with Up | Dn => true | _ => false end.
Lemma downs_left4 V s : forall n x, new_downs4 V n s x = new_left4 is_down V n s x.
Proof. induction s as [|[[[] b] []] t IH]; intros n x; simpl; rewrite ?IH; reflexivity. Qed.

Lemma left4_comm who W n m x : forall s k, n < k -> k + length s <= 4 ->
  on_slot n m (new_left4 who W k s x) = new_left4 who W k s (on_slot n m x).
Proof.
  induction s as [|[[f b] []] t IH]; intros k L B; simpl in *; auto.
  - destruct (who f); [|apply IH; lia]. rewrite slot_comm by lia. rewrite IH by lia. reflexivity.
  - apply IH; lia.
Qed.
(** Undoing the change for the down quarks leaves that of the up quarks. *)
Lemma downs_cancel V W s : mmul W V = meye -> forall n x, n + length s <= 4 ->
  new_downs4 V n s (new_left4 is_quark W n s x) = new_left4 is_up W n s x.
Proof.
  intros H. assert (mmul (mconj W) (mconj V) = meye) as H' by (rewrite <- mconj_mul, H; apply mconj_eye).
  induction s as [|[[f b] c] t IH]; intros n x B; [reflexivity|]. cbn [length] in B.
  assert (n < 4) by lia.
  assert (forall m y, new_downs4 V (S n) t (on_slot n m y) = on_slot n m (new_downs4 V (S n) t y)) as K.
  { intros m y. rewrite !downs_left4. symmetry. apply left4_comm; lia. }
  destruct f, c; cbn [new_downs4 new_left4 is_quark is_up]; rewrite ?K, ?slot_comp; try (rewrite IH by lia; reflexivity).
  destruct b; rewrite ?H, ?H', slot_eye, IH by lia; reflexivity.
Qed.
Lemma slot2_comp n a b x : on_slot2 n a (on_slot2 n b x) = on_slot2 n (mmul b a) x.
Proof. apply mat_ext; intros p r. destruct n; unfold on_slot2, mmul, S3; ring. Qed.
Lemma slot2_eye n x : on_slot2 n meye x = x.
Proof.
  apply mat_ext; intros p r. destruct n; unfold on_slot2, meye; [apply (S3_delta_l (fun i => x i r))|apply (S3_delta_l (fun i => x p i))].
Qed.

(** ** The arrays in the Warsaw up basis *)
Definition lift4 (W : mat) (a : string -> ten) (op : string) : ten :=
  match op_rot op with
  | R4 b d x y => einsum4 (umat (uq_only W) b) (umat (uq_only W) d) (umat (uq_only W) x) (umat (uq_only W) y) (a op)
  | _ => a op end.
Definition lift2 (W : mat) (a : string -> mat) (op : string) : mat :=
  match op_rot op with
  | R2 l x => mmul (mmul (mT (umat (uq_only W) l)) (a op)) (umat (uq_only W) x)
  | _ => a op end.
Lemma einsum_slots B D A X t : einsum4 B D A X t = on_slot 0 A (on_slot 1 B (on_slot 2 X (on_slot 3 D t))).
Proof.
  apply ten_ext; intros a b c d. unfold einsum4, on_slot. apply S3_ext; intros i. rewrite S3_mul_l. apply S3_ext; intros j.
  rewrite S3_mul_l, S3_mul_l. apply S3_ext; intros k. rewrite !S3_mul_l. apply S3_ext; intros l. ring.
Qed.
Lemma mmul_slots L m X : mmul (mmul (mT L) m) X = on_slot2 0 L (on_slot2 1 X m).
Proof. apply mat_ext; intros a b. unfold mmul, mT, on_slot2, S3. ring. Qed.
Section Shift.
Local Open Scope C_scope.
Lemma ein_add B D A X x y : einsum4 B D A X (fun p r s t => x p r s t + y p r s t)
  = (fun p r s t => einsum4 B D A X x p r s t + einsum4 B D A X y p r s t).
Proof.
  rewrite !einsum_slots. apply ten_ext; intros a b c d. unfold on_slot, S3. ring.
Qed.
Lemma ein_scale B D A X z x : einsum4 B D A X (fun p r s t => z * x p r s t) = (fun p r s t => z * einsum4 B D A X x p r s t).
Proof. rewrite !einsum_slots. apply ten_ext; intros a b c d. unfold on_slot, S3. ring. Qed.
Lemma ein_neg B D A X x : einsum4 B D A X (fun p r s t => - x p r s t) = (fun p r s t => - einsum4 B D A X x p r s t).
Proof.
  transitivity (einsum4 B D A X (fun p r s t => (- C1) * x p r s t)); [f_equal; apply ten_ext; intros; ring|].
  rewrite ein_scale. apply ten_ext; intros; ring.
Qed.
Lemma ein_sub B D A X x y : einsum4 B D A X (fun p r s t => x p r s t - y p r s t)
  = (fun p r s t => einsum4 B D A X x p r s t - einsum4 B D A X y p r s t).
Proof.
  transitivity (einsum4 B D A X (fun p r s t => x p r s t + - y p r s t)); [f_equal; apply ten_ext; intros; ring|].
  rewrite (ein_add _ _ _ _ x (fun p r s t => - y p r s t)), ein_neg. apply ten_ext; intros; ring.
Qed.
Lemma ein_stpr B D A X q : einsum4 B D A X (fun p r s t => q s t p r) = fun p r s t => einsum4 D B X A q s t p r.
Proof.
  rewrite !einsum_slots. apply ten_ext; intros p r s t.
  transitivity (on_slot 2 A (on_slot 3 B (on_slot 0 X (on_slot 1 D q))) s t p r); [reflexivity|].
  rewrite (slot_comm 3 0), (slot_comm 2 0), (slot_comm 3 1), (slot_comm 2 1) by lia. reflexivity.
Qed.
Lemma ein_ptsr B D A X q : einsum4 B D A X (fun p r s t => q p t s r) = fun p r s t => einsum4 D B A X q p t s r.
Proof.
  rewrite !einsum_slots. apply ten_ext; intros p r s t.
  transitivity (on_slot 0 A (on_slot 3 B (on_slot 2 X (on_slot 1 D q))) p t s r); [reflexivity|].
  rewrite (slot_comm 2 1), (slot_comm 3 1), (slot_comm 3 2) by lia. reflexivity.
Qed.
Lemma ein_srpt B D A X q : einsum4 B D A X (fun p r s t => q s r p t) = fun p r s t => einsum4 B D X A q s r p t.
Proof.
  rewrite !einsum_slots. apply ten_ext; intros p r s t.
  transitivity (on_slot 2 A (on_slot 1 B (on_slot 0 X (on_slot 3 D q))) s r p t); [reflexivity|].
  rewrite (slot_comm 1 0), (slot_comm 2 0), (slot_comm 2 1) by lia. reflexivity.
Qed.
Lemma ein_rpst B D A X q : einsum4 B D A X (fun p r s t => q r p s t) = fun p r s t => einsum4 A D B X q r p s t.
Proof.
  rewrite !einsum_slots. apply ten_ext; intros p r s t.
  transitivity (on_slot 1 A (on_slot 0 B (on_slot 2 X (on_slot 3 D q))) r p s t); [reflexivity|].
  rewrite (slot_comm 1 0) by lia. reflexivity.
Qed.
End Shift.
(** The matrix at one field *)
Definition field_mat (who : fermion -> bool) (W : mat) (x : slot) : mat :=
  match x with (f, b, LH) => if who f then if b then mconj W else W else meye | _ => meye end.
Lemma left_slot who W n a t x : new_left4 who W n (a :: t) x = on_slot n (field_mat who W a) (new_left4 who W (S n) t x).
Proof. destruct a as [[f b] []]; simpl; [destruct (who f); [reflexivity|]|]; rewrite slot_eye; reflexivity. Qed.
Lemma left_einsum who W a b c d x : new_left4 who W 0 [a; b; c; d] x =
  einsum4 (field_mat who W b) (field_mat who W d) (field_mat who W a) (field_mat who W c) x.
Proof. rewrite einsum_slots, !left_slot. reflexivity. Qed.
Lemma mconj_eye' : mconj meye = meye. Proof. apply mconj_eye. Qed.

Ltac rots := unfold lift4; repeat match goal with |- context [op_rot ?o] =>
  let r := eval vm_compute in (op_rot o) in change (op_rot o) with r end; cbv iota.
Ltac push_in := repeat first [rewrite ein_add|rewrite ein_sub|rewrite ein_neg|rewrite ein_scale];
  repeat match goal with
    | |- context [einsum4 ?B ?D ?A ?X (fun p r s t => ?a ?o s t p r)] => rewrite (ein_stpr B D A X (a o))
    | |- context [einsum4 ?B ?D ?A ?X (fun p r s t => ?a ?o p t s r)] => rewrite (ein_ptsr B D A X (a o))
    | |- context [einsum4 ?B ?D ?A ?X (fun p r s t => ?a ?o s r p t)] => rewrite (ein_srpt B D A X (a o))
    | |- context [einsum4 ?B ?D ?A ?X (fun p r s t => ?a ?o r p s t)] => rewrite (ein_rpst B D A X (a o))
    end; reflexivity.
Lemma tree_lift W a : forall op f, In (op, f) tree4 -> exists s, dget jms_slots op = Some s /\ length s = 4 /\
  f (lift4 W a) = new_left4 is_quark W 0 s (f a).
Proof.
  intros op f I. unfold tree4 in I. cbn [In] in I.
  repeat (destruct I as [I|I]; [injection I as <- <-|]); [..|contradiction];
  (eexists; split; [reflexivity|]; split; [reflexivity|]; unfold vec, sca, bnv, flip; rewrite left_einsum;
   unfold field_mat; cbn [is_quark]; rots;
   unfold umat, uq_only; cbn [fst snd u_q u_u u_d u_l u_e]; rewrite ?mconj_eye;
   try reflexivity).
  all: push_in.
Qed.

Section Shift2.
Local Open Scope C_scope.
Lemma slot2_add n m x y : on_slot2 n m (fun i j => x i j + y i j) = (fun i j => on_slot2 n m x i j + on_slot2 n m y i j).
Proof. apply mat_ext; intros a b. destruct n; unfold on_slot2, S3; ring. Qed.
Lemma slot2_sub n m x y : on_slot2 n m (fun i j => x i j - y i j) = (fun i j => on_slot2 n m x i j - on_slot2 n m y i j).
Proof. apply mat_ext; intros a b. destruct n; unfold on_slot2, S3; ring. Qed.
Lemma slot2_scale n m z x : on_slot2 n m (fun i j => z * x i j) = (fun i j => z * on_slot2 n m x i j).
Proof. apply mat_ext; intros a b. destruct n; unfold on_slot2, S3; ring. Qed.
End Shift2.
Ltac rots2 := unfold lift2; repeat match goal with |- context [op_rot ?o] =>
  let r := eval vm_compute in (op_rot o) in change (op_rot o) with r end; cbv iota.
Ltac lifted2 := rots2; unfold umat, uq_only; cbn [fst snd u_q u_u u_d u_l u_e]; rewrite ?mconj_eye, ?mmul_slots, ?slot2_eye.
Lemma tree_lift2 W a v s c op f sl : In (op, f) (tree2 v s c) -> dget jms_slots op = Some sl -> f (lift2 W a) = new_left2 is_quark W 0 sl (f a).
Proof.
  intros I. unfold tree2 in I. cbn [In] in I.
  repeat (destruct I as [I|I]; [injection I as <- <-|]); [..|contradiction]; intros E; [discriminate E|..];
  (let r := eval cbv in (dget jms_slots "egamma") in idtac);
  match type of E with dget jms_slots ?o = _ => let r := eval cbv in (dget jms_slots o) in change (dget jms_slots o) with r in E end;
  injection E as <-; cbn [new_left2 is_quark]; apply mat_ext; intros i j; lifted2; unfold on_slot2, S3; ring.
Qed.
Lemma lift_nu W a : lift2 W a "llphiphi" = a "llphiphi".
Proof. lifted2. reflexivity. Qed.

(** ** The arrays read from a dictionary *)
Lemma read_get d c op : good_dict d -> read_smeft d = Ok c ->
  dget c op = match op_shape op with Some s => if is_wc op && touched d op then Some (symm1 op (array_in d op s)) else None | None => None end.
Proof.
  intros G E. destruct (wcxf2arrays_good d G) as (c0 & H & Rc). unfold read_smeft in E. rewrite H in E. cbn [bind] in E.
  pose proof (represents_typed _ _ Rc) as T. rewrite symmetrize_spec in E by auto. injection E as <-. fold (symmetrized c0).
  rewrite symmetrized_get by auto. destruct Rc as [W Rc]. rewrite Rc. destruct (op_shape op) as [s|]; [|destruct (is_wc op); reflexivity].
  destruct (is_wc op), (touched d op); reflexivity.
Qed.
Lemma rot1_zeros u r s : rot1 u r (zeros s) = zeros s.
Proof.
  destruct s, r; try reflexivity; unfold zeros, rot1; f_equal.
  - rewrite mmul_slots. apply mat_ext; intros i j. unfold on_slot2, S3. ring.
  - rewrite einsum_slots. change (fun _ _ _ _ : fl => C0) with tzero. rewrite !slot_zero. reflexivity.
Qed.
Section Up.
Variables (W : mat) (U : list string) (d r : dict string C) (c0 c1 : arrays).
Hypotheses (G : good_dict d) (E : rotate_q W d = Ok r) (L : lists_reps U).
Hypotheses (R0 : read_smeft d = Ok c0) (R1 : read_smeft (key_filter U r) = Ok c1).
(** In the Warsaw up basis every operator is the rotated one. *)
Lemma up_get op : dget (add_missing c1) op = option_map (rot1 (uq_only W) (op_rot op)) (dget (add_missing c0) op).
Proof.
  pose proof (good_filter U r (rotate_q_good W d r G E)) as Gf. rewrite !add_missing_get.
  rewrite (read_get _ _ op Gf R1), (read_get _ _ op G R0). fold (is_wc op). destruct (op_shape op) as [s|] eqn:S.
  - destruct (is_wc op) eqn:M; [|reflexivity]. destruct (symm_of_filtered W d r U op s G E L M S) as [T K]. rewrite T.
    destruct (touched d op); cbn [andb option_map]; [rewrite K by reflexivity; reflexivity|]. rewrite rot1_zeros. reflexivity.
  - destruct (is_wc op) eqn:M; [|reflexivity]. destruct (wc_shape op M) as (s & S' & _). congruence.
Qed.
Lemma rot_plain op : is_wc op = false -> op_rot op = RNone.
Proof.
  intros M. unfold op_rot. destruct (dget rot_tab op) as [r0|] eqn:D; auto. apply dget_In in D.
  pose proof rot_tab_ok as H. rewrite forallb_forall in H. specialize (H _ D). cbn [fst] in H. rewrite M in H. discriminate.
Qed.
Lemma up4 : g4 (add_missing c1) = lift4 W (g4 (add_missing c0)).
Proof.
  apply functional_extensionality. intros op. unfold g4, lift4. rewrite up_get. 
  destruct (dget (add_missing c0) op) as [[z|m|t]|]; cbn [option_map]; destruct (op_rot op); cbn [rot1]; auto;
    rewrite einsum_slots, !slot_zero; reflexivity.
Qed.
Lemma mzero_slots n m : on_slot2 n m mzero = mzero.
Proof. apply mat_ext; intros i j. destruct n; unfold on_slot2, mzero, S3; ring. Qed.
Lemma up2 : g2 (add_missing c1) = lift2 W (g2 (add_missing c0)).
Proof.
  apply functional_extensionality. intros op. unfold g2, lift2. rewrite up_get.
  destruct (dget (add_missing c0) op) as [[z|m|t]|]; cbn [option_map]; destruct (op_rot op); cbn [rot1]; auto;
    rewrite mmul_slots, !mzero_slots; reflexivity.
Qed.
Lemma up0 op : g0 (add_missing c1) op = g0 (add_missing c0) op.
Proof.
  unfold g0. rewrite up_get. destruct (dget (add_missing c0) op) as [[z|m|t]|]; cbn [option_map]; destruct (op_rot op); reflexivity.
Qed.
Lemma up_ll : g4 (add_missing c1) "ll" = g4 (add_missing c0) "ll".
Proof. rewrite up4. rots. unfold umat, uq_only. cbn [fst snd u_q u_u u_d u_l u_e]. rewrite mconj_eye, einsum_slots, !slot_eye. reflexivity. Qed.
Lemma up_quiet : quiet (add_missing c0) -> quiet (add_missing c1).
Proof.
  intros (H & P & K). split; [|split].
  - intros op I. rewrite up2. unfold lift2. rewrite (H op I). destruct (op_rot op); auto. rewrite mmul_slots, !mzero_slots. reflexivity.
  - unfold phiWB. rewrite up0. exact P.
  - rewrite up_ll. exact K.
Qed.
End Up.

(** ** From the Warsaw basis to JMS *)
Lemma slots_named : forallb (fun kv : string * list slot => mem (fst kv) match_names &&
  match match_shape (fst kv) with Some Sh4 => Nat.eqb (length (snd kv)) 4 | Some Sh2 => Nat.eqb (length (snd kv)) 2 | _ => false end) jms_slots = true.
Proof. Transparent match_tab. vm_compute. reflexivity. Qed.
#[local] Opaque match_tab.
Lemma slots_shape op s : dget jms_slots op = Some s -> In op match_names /\
  (match_shape op = Some Sh4 /\ length s = 4 \/ match_shape op = Some Sh2 /\ length s = 2).
Proof.
  intros D. apply dget_In in D. pose proof slots_named as H. rewrite forallb_forall in H. specialize (H _ D). cbn [fst snd] in H.
  apply andb_true_iff in H. destruct H as [A B]. apply mem_In in A. split; auto.
  destruct (match_shape op) as [[]|]; try discriminate; apply Nat.eqb_eq in B; auto.
Qed.
Lemma left_zero4 who W s : forall n, new_left4 who W n s tzero = tzero.
Proof. induction s as [|a t IH]; intros n; [reflexivity|]. rewrite left_slot, IH. apply slot_zero. Qed.
Lemma left_slot2 who W n a t x : new_left2 who W n (a :: t) x = on_slot2 n (field_mat who W a) (new_left2 who W (S n) t x).
Proof. destruct a as [[f b] []]; simpl; [destruct (who f); [reflexivity|]|]; rewrite slot2_eye; reflexivity. Qed.
Lemma left_zero2 who W s : forall n, new_left2 who W n s mzero = mzero.
Proof. induction s as [|a t IH]; intros n; [reflexivity|]. rewrite left_slot2, IH. apply mzero_slots. Qed.
Lemma downs_left2 V s : forall n x, new_downs2 V n s x = new_left2 is_down V n s x.
Proof. induction s as [|[[[] b] []] t IH]; intros n x; simpl; rewrite ?IH; reflexivity. Qed.
Lemma slot2_comm a b x : on_slot2 0 a (on_slot2 1 b x) = on_slot2 1 b (on_slot2 0 a x).
Proof. apply mat_ext; intros i j. unfold on_slot2, S3. ring. Qed.
Lemma field_cancel V W a : mmul W V = meye -> mmul (field_mat is_quark W a) (field_mat is_down V a) = field_mat is_up W a.
Proof.
  intros H. assert (mmul (mconj W) (mconj V) = meye) as H' by (rewrite <- mconj_mul, H; apply mconj_eye).
  destruct a as [[[] []] []]; cbn [field_mat is_quark is_down is_up]; auto; apply mmul_1_r || apply mmul_1_l.
Qed.
Lemma downs_cancel2 V W s x : mmul W V = meye -> length s = 2 -> new_downs2 V 0 s (new_left2 is_quark W 0 s x) = new_left2 is_up W 0 s x.
Proof.
  intros H Ln. destruct s as [|a [|b [|]]]; try discriminate. rewrite downs_left2, !left_slot2. cbn [new_left2].
  rewrite <- (slot2_comm (field_mat is_quark W a)). rewrite slot2_comp, slot2_comp, !field_cancel by auto. reflexivity.
Qed.

Section Warsaw.
Variable ckm_tree : R -> R -> R -> R -> mat.
Definition weak_c (p : params) : R := (sqrt (sm_D p) / sm_g2 p)%R.
(** The couplings do not matter, the down quarks do not notice the CKM matrix and the up quarks are
    rotated by it. *)
Lemma warsaw_matched U d u input c0 c1 w op s :
  let p := merge_params input in
  unitary (ckm_of ckm_tree p) -> good_dict d -> lists_reps U -> warsaw_to_warsaw_up ckm_tree U input d = Ok u ->
  read_smeft d = Ok c0 -> read_smeft u = Ok c1 -> quiet (add_missing c0) -> matched ckm_tree p c1 = Ok w ->
  dget jms_slots op = Some s -> ~ In op unrotated ->
  exists sh, match_shape op = Some sh /\
    dget w op = Some (new_left is_up (mdag (ckm_of ckm_tree p)) s (tree (vev p) (sm_s p) (weak_c p) (add_missing c0) op sh)).
Proof.
  intros p Hu G L E R0 R1 Q M S N. unfold warsaw_to_warsaw_up in E. fold p in E.
  destruct (rotate_q (mdag (ckm_of ckm_tree p)) d) as [r|] eqn:Er; [|discriminate]. cbn [bind] in E. apply Ok_inj in E. subst u.
  destruct (matched_inv _ _ _ _ M) as (w0 & M0 & Rd & _).
  destruct (slots_shape op s S) as (Io & Sh). rewrite <- (match_array_keys _ _ _ M0) in Io. apply key_dget in Io. destruct Io as (v0 & D0).
  destruct (match_quiet _ _ _ _ _ (match_array_sm _ _ _ M0) (up_quiet _ _ _ _ _ _ G Er L R0 R1 Q) M0 D0) as (sh & Ms & V0).
  exists sh. split; auto. rewrite (rotate_down_spec _ _ _ _ _ _ Rd S D0 N). f_equal. subst v0. fold (weak_c p).
  assert (mmul (mdag (ckm_of ckm_tree p)) (ckm_of ckm_tree p) = meye) as Hu' by exact Hu.
  destruct Sh as [[Sh Ln]|[Sh Ln]]; rewrite Sh in Ms; injection Ms as <-; unfold tree, new_downs, new_left; f_equal.
  - rewrite (up4 _ _ _ _ _ _ G Er L R0 R1). destruct (dget tree4 op) as [f|] eqn:F; cbn [look].
    + apply dget_In in F. destruct (tree_lift (mdag (ckm_of ckm_tree p)) (g4 (add_missing c0)) op f F) as (s' & S' & _ & ->).
      assert (s' = s) as -> by congruence. apply downs_cancel; auto. rewrite Ln. auto.
    + rewrite downs_left4, !left_zero4. reflexivity.
  - rewrite (up2 _ _ _ _ _ _ G Er L R0 R1). destruct (dget (tree2 _ _ _) op) as [f|] eqn:F; cbn [look].
    + apply dget_In in F. rewrite (tree_lift2 _ _ _ _ _ _ _ _ F S). apply downs_cancel2; auto.
    + rewrite downs_left2, !left_zero2. reflexivity.
Qed.
(** The operators rotate_down forgets: both rotations are missing for the down quarks. *)
Lemma warsaw_forgotten U d u input c0 c1 w op s :
  let p := merge_params input in
  good_dict d -> lists_reps U -> warsaw_to_warsaw_up ckm_tree U input d = Ok u ->
  read_smeft d = Ok c0 -> read_smeft u = Ok c1 -> quiet (add_missing c0) -> matched ckm_tree p c1 = Ok w ->
  dget jms_slots op = Some s -> ~ In op rd_names ->
  exists sh, match_shape op = Some sh /\
    dget w op = Some (new_left is_quark (mdag (ckm_of ckm_tree p)) s (tree (vev p) (sm_s p) (weak_c p) (add_missing c0) op sh)).
Proof.
  intros p G L E R0 R1 Q M S N. unfold warsaw_to_warsaw_up in E. fold p in E.
  destruct (rotate_q (mdag (ckm_of ckm_tree p)) d) as [r|] eqn:Er; [|discriminate]. cbn [bind] in E. apply Ok_inj in E. subst u.
  destruct (matched_inv _ _ _ _ M) as (w0 & M0 & Rd & _).
  destruct (slots_shape op s S) as (Io & Sh). rewrite <- (match_array_keys _ _ _ M0) in Io. apply key_dget in Io. destruct Io as (v0 & D0).
  destruct (match_quiet _ _ _ _ _ (match_array_sm _ _ _ M0) (up_quiet _ _ _ _ _ _ G Er L R0 R1 Q) M0 D0) as (sh & Ms & V0).
  exists sh. split; auto. rewrite (rotate_down_rest _ _ _ _ Rd N), D0. f_equal. subst v0. fold (weak_c p).
  destruct Sh as [[Sh Ln]|[Sh Ln]]; rewrite Sh in Ms; injection Ms as <-; unfold tree, new_left; f_equal.
  - rewrite (up4 _ _ _ _ _ _ G Er L R0 R1). destruct (dget tree4 op) as [f|] eqn:F; cbn [look].
    + apply dget_In in F. destruct (tree_lift (mdag (ckm_of ckm_tree p)) (g4 (add_missing c0)) op f F) as (s' & S' & _ & ->).
      assert (s' = s) as -> by congruence. reflexivity.
    + rewrite !left_zero4. reflexivity.
  - rewrite (up2 _ _ _ _ _ _ G Er L R0 R1). destruct (dget (tree2 _ _ _) op) as [f|] eqn:F; cbn [look].
    + apply dget_In in F. rewrite (tree_lift2 _ _ _ _ _ _ _ _ F S). reflexivity.
    + rewrite !left_zero2. reflexivity.
Qed.
End Warsaw.
