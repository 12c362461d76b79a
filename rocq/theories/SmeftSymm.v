(** symmetrize_2 ... symmetrize_9 and symmetrize (smeftutil.py 133-575) as
    programs of assignments; symbolic execution of such programs. *)
From Coq Require Import String List Bool ZArith Reals Lra Lia.
From Verif Require Import PyBase PyDict Cplx Tensor SmeftSyntax SmeftTab.
Import ListNotations.
Open Scope list_scope.

(** ** Semantics *)
(** Sum [+-a[j] +-a[k] ...] *)
Definition lin_val (a : idx -> C) (l : list (bool * idx)) : C :=
  fold_left (fun s t => if fst t : bool then Csub s (a (snd t)) else Cadd s (a (snd t))) l C0.
(** One assignment on the array [a]. *)
Definition upd (a : idx -> C) (i : idx) (z : C) : idx -> C := fun x => if idx_eqb i x then z else a x.
Definition exec1 (a : idx -> C) (s : stmt) : idx -> C :=
  match s with
  | SRe i j => upd a i (Re (a j), Im (a i))
  | SIm i neg j => upd a i (Re (a i), if neg then (- Im (a j))%R else Im (a j))
  | SIm0 i => upd a i (Re (a i), 0%R)
  | SCopy i j => upd a i (a j)
  | SConj i j => upd a i (Cconj (a j))
  | SLin i l => upd a i (lin_val a l)
  end.
Definition exec (tab : list stmt) (a : idx -> C) : idx -> C := fold_left exec1 tab a.

Definition of_ten (t : ten) : idx -> C :=
  fun x => match x with [i; j; k; l] => t i j k l | _ => C0 end.
Definition of_mat (m : mat) : idx -> C :=
  fun x => match x with [i; j] => m i j | _ => C0 end.
Definition to_ten (a : idx -> C) : ten := fun i j k l => a [i; j; k; l].
Definition to_mat (a : idx -> C) : mat := fun i j => a [i; j].

(** smeftutil.py 133-142, 551-558 *)
Definition symmetrize_2 (m : mat) : mat := to_mat (exec symm_2_tab (of_mat m)).
Definition symmetrize_9 (m : mat) : mat := to_mat (exec symm_9_tab (of_mat m)).
(** smeftutil.py 144-549 *)
Definition symmetrize_4 (t : ten) : ten := to_ten (exec symm_4_tab (of_ten t)).
Definition symmetrize_5 (t : ten) : ten := to_ten (exec symm_5_tab (of_ten t)).
Definition symmetrize_6 (t : ten) : ten := to_ten (exec symm_6_tab (of_ten t)).
Definition symmetrize_7 (t : ten) : ten := to_ten (exec symm_7_tab (of_ten t)).
Definition symmetrize_8 (t : ten) : ten := to_ten (exec symm_8_tab (of_ten t)).

(** ** Symbolic execution: every real cell of the result as a linear form over
    the real cells of the input. *)
Definition cell := (bool * idx)%type.  (* false: real part, true: imaginary part *)
Definition cell_eqb (c d : cell) : bool := Bool.eqb (fst c) (fst d) && idx_eqb (snd c) (snd d).
Lemma cell_eqb_eq c d : cell_eqb c d = true <-> c = d.
Proof.
  destruct c, d; unfold cell_eqb; simpl. rewrite andb_true_iff, Bool.eqb_true_iff, idx_eqb_eq.
  split; [intros [-> ->]; auto | intros E; inversion E; auto].
Qed.
Lemma cell_eqb_refl c : cell_eqb c c = true.
Proof. apply cell_eqb_eq; auto. Qed.
Definition cellval (a : idx -> C) (c : cell) : R := if fst c then Im (a (snd c)) else Re (a (snd c)).
Definition form := list (Z * cell).
Definition fval (a : idx -> C) (f : form) : R :=
  fold_right (fun t s => (IZR (fst t) * cellval a (snd t) + s)%R) 0%R f.
Definition scale (z : Z) (f : form) : form := map (fun t => ((z * fst t)%Z, snd t)) f.
Lemma fval_app a f g : fval a (f ++ g) = (fval a f + fval a g)%R.
Proof. induction f as [|t f IH]; simpl; [lra|rewrite IH; lra]. Qed.
Lemma fval_scale a z f : fval a (scale z f) = (IZR z * fval a f)%R.
Proof. induction f as [|t f IH]; simpl; [lra|rewrite IH, mult_IZR; lra]. Qed.

Definition sstate := list (cell * form).
Fixpoint sget (st : sstate) (c : cell) : form :=
  match st with
  | [] => [(1%Z, c)]
  | (c', f) :: t => if cell_eqb c' c then f else sget t c
  end.
Definition sstep (st : sstate) (s : stmt) : sstate :=
  match s with
  | SRe i j => ((false, i), sget st (false, j)) :: st
  | SIm i neg j => ((true, i), scale (if neg then (-1)%Z else 1%Z) (sget st (true, j))) :: st
  | SIm0 i => ((true, i), []) :: st
  | SCopy i j => ((false, i), sget st (false, j)) :: ((true, i), sget st (true, j)) :: st
  | SConj i j => ((false, i), sget st (false, j)) :: ((true, i), scale (-1) (sget st (true, j))) :: st
  | SLin i l =>
      ((false, i), flat_map (fun t : bool * idx => scale (if fst t then (-1)%Z else 1%Z) (sget st (false, snd t))) l) ::
      ((true, i), flat_map (fun t : bool * idx => scale (if fst t then (-1)%Z else 1%Z) (sget st (true, snd t))) l) :: st
  end.
Definition srun (tab : list stmt) : sstate := fold_left sstep tab [].

Definition sim (a b : idx -> C) (st : sstate) : Prop := forall c, fval a (sget st c) = cellval b c.
Lemma lin_val_Re b l z :
  Re (fold_left (fun s (t : bool * idx) => if fst t then Csub s (b (snd t)) else Cadd s (b (snd t))) l z) =
  (Re z + fold_right (fun t s => ((if fst t : bool then - Re (b (snd t)) else Re (b (snd t))) + s)) 0 l)%R.
Proof.
  revert z; induction l as [|[s j] t IH]; intros z; simpl; [lra|].
  rewrite IH. destruct s; unfold Re, Csub, Cadd; simpl; lra.
Qed.
Lemma lin_val_Im b l z :
  Im (fold_left (fun s (t : bool * idx) => if fst t then Csub s (b (snd t)) else Cadd s (b (snd t))) l z) =
  (Im z + fold_right (fun t s => ((if fst t : bool then - Im (b (snd t)) else Im (b (snd t))) + s)) 0 l)%R.
Proof.
  revert z; induction l as [|[s j] t IH]; intros z; simpl; [lra|].
  rewrite IH. destruct s; unfold Im, Csub, Cadd; simpl; lra.
Qed.
Lemma fval_lin a b st im (l : list (bool * idx)) : sim a b st ->
  fval a (flat_map (fun t : bool * idx => scale (if fst t then (-1)%Z else 1%Z) (sget st (im, snd t))) l) =
  fold_right (fun t s => ((if fst t : bool then - cellval b (im, snd t) else cellval b (im, snd t)) + s)%R) 0%R l.
Proof.
  intros S. induction l as [|[s j] t IH]; simpl; auto.
  rewrite fval_app, IH, fval_scale, S. destruct s; simpl; lra.
Qed.
Lemma sstep_sim a b st s : sim a b st -> sim a (exec1 b s) (sstep st s).
Proof.
  intros S [im x]. destruct s; cbn [sstep exec1 sget]; unfold upd, cell_eqb; cbn [fst snd].
  - destruct im; cbn [Bool.eqb andb].
    + rewrite S. unfold cellval; cbn [fst snd]. destruct (idx_eqb i x) eqn:E; auto.
      apply idx_eqb_eq in E; subst; reflexivity.
    + destruct (idx_eqb i x) eqn:E; rewrite S; unfold cellval; cbn [fst snd]; rewrite E; reflexivity.
  - destruct im; cbn [Bool.eqb andb].
    + destruct (idx_eqb i x) eqn:E.
      * rewrite fval_scale, S; unfold cellval; cbn [fst snd]; rewrite E. destruct neg; unfold Im; simpl; lra.
      * rewrite S; unfold cellval; cbn [fst snd]; rewrite E; reflexivity.
    + rewrite S. unfold cellval; cbn [fst snd]. destruct (idx_eqb i x) eqn:E; auto.
      apply idx_eqb_eq in E; subst; reflexivity.
  - destruct im; cbn [Bool.eqb andb].
    + destruct (idx_eqb i x) eqn:E.
      * unfold cellval; cbn [fst snd]; rewrite E. reflexivity.
      * rewrite S; unfold cellval; cbn [fst snd]; rewrite E; reflexivity.
    + rewrite S. unfold cellval; cbn [fst snd]. destruct (idx_eqb i x) eqn:E; auto.
      apply idx_eqb_eq in E; subst; reflexivity.
  - destruct im; cbn [Bool.eqb andb]; destruct (idx_eqb i x) eqn:E; rewrite S;
      unfold cellval; cbn [fst snd]; rewrite E; reflexivity.
  - destruct im; cbn [Bool.eqb andb]; destruct (idx_eqb i x) eqn:E; rewrite ?fval_scale, S;
      unfold cellval; cbn [fst snd]; rewrite E; try reflexivity. unfold Im, Cconj; simpl; lra.
  - destruct im; cbn [Bool.eqb andb]; destruct (idx_eqb i x) eqn:E.
    + rewrite (fval_lin a b st true l S). unfold cellval at 3; cbn [fst snd]; rewrite E.
      unfold lin_val. rewrite lin_val_Im. unfold Im at 1; simpl. unfold cellval; simpl. lra.
    + rewrite S; unfold cellval; cbn [fst snd]; rewrite E; reflexivity.
    + rewrite (fval_lin a b st false l S). unfold cellval at 3; cbn [fst snd]; rewrite E.
      unfold lin_val. rewrite lin_val_Re. unfold Re at 1; simpl. unfold cellval; simpl. lra.
    + rewrite S; unfold cellval; cbn [fst snd]; rewrite E; reflexivity.
Qed.
Lemma srun_sim a tab : sim a (exec tab a) (srun tab).
Proof.
  unfold exec, srun.
  assert (forall b st, sim a b st -> sim a (fold_left exec1 tab b) (fold_left sstep tab st)) as G.
  { induction tab as [|s t IH]; simpl; auto using sstep_sim. }
  apply G. intros c. simpl. lra.
Qed.

(** Zero test of linear forms by collecting coefficients. *)
Fixpoint fadd (z : Z) (c : cell) (f : form) : form :=
  match f with
  | [] => [(z, c)]
  | (z', c') :: t => if cell_eqb c' c then ((z' + z)%Z, c') :: t else (z', c') :: fadd z c t
  end.
Definition fnorm (f : form) : form := fold_right (fun t g => fadd (fst t) (snd t) g) [] f.
Definition fzero (f : form) : bool := forallb (fun t => Z.eqb (fst t) 0) (fnorm f).
Lemma fval_fadd a z c f : fval a (fadd z c f) = (IZR z * cellval a c + fval a f)%R.
Proof.
  induction f as [|[z' c'] t IH]; simpl; [lra|].
  destruct (cell_eqb c' c) eqn:E; simpl.
  - apply cell_eqb_eq in E; subst. rewrite plus_IZR; lra.
  - rewrite IH; lra.
Qed.
Lemma fzero_sound a f : fzero f = true -> fval a f = 0%R.
Proof.
  unfold fzero. intros H.
  assert (fval a (fnorm f) = fval a f) as <-.
  { clear H. induction f as [|[z c] t IH]; simpl; auto. rewrite fval_fadd, IH; reflexivity. }
  induction (fnorm f) as [|[z c] t IH]; simpl in *; auto.
  apply andb_true_iff in H. destruct H as [H1 H2]. apply Z.eqb_eq in H1. subst. rewrite IH by auto; lra.
Qed.

(** A linear relation between cells of the result that holds for all inputs. *)
Definition out (st : sstate) (f : form) : form := flat_map (fun t => scale (fst t) (sget st (snd t))) f.
Definition holds (st : sstate) (f : form) : bool := fzero (out st f).
Lemma holds_sound tab a f : holds (srun tab) f = true -> fval (exec tab a) f = 0%R.
Proof.
  unfold holds. intros H. apply fzero_sound with (a := a) in H. rewrite <- H. clear H.
  induction f as [|[z c] t IH]; simpl; auto.
  rewrite fval_app, fval_scale, (srun_sim a tab c), IH. reflexivity.
Qed.
(** [a[x] = a[y]] resp. [a[x] = a[y].conj()] *)
Definition rel_eq (x y : idx) (cj : bool) : list form :=
  [[(1%Z, (false, x)); ((-1)%Z, (false, y))]; [(1%Z, (true, x)); ((if cj then 1 else -1)%Z, (true, y))]].
Lemma rel_eq_sound tab a x y cj : forallb (holds (srun tab)) (rel_eq x y cj) = true ->
  exec tab a x = if cj then Cconj (exec tab a y) else exec tab a y.
Proof.
  simpl. rewrite !andb_true_iff. intros (H1 & H2 & _).
  apply (holds_sound tab a) in H1. apply (holds_sound tab a) in H2.
  simpl in H1, H2. unfold cellval in *; simpl in *.
  apply C_ext; destruct cj; unfold Re, Im, Cconj in *; simpl in *; lra.
Qed.

(** ** Preservation of symmetric arrays.  A symmetry group is given by index maps
    with a conjugation flag. *)
Definition gelem := ((idx -> idx) * bool)%type.
Definition invariant (dom : list idx) (G : list gelem) (a : idx -> C) : Prop :=
  forall g x, In g G -> In x dom -> a (fst g x) = if snd g then Cconj (a x) else a x.
Definition fixes_cell (G : list gelem) (st : sstate) (c : cell) : bool :=
  match sget st c with
  | [] => fst c && existsb (fun g => snd g && idx_eqb (fst g (snd c)) (snd c)) G
  | [(z, (im, y))] =>
      Bool.eqb im (fst c) &&
      existsb (fun g => idx_eqb (fst g (snd c)) y && Z.eqb z (if snd g && fst c then (-1) else 1)) G
  | _ => false
  end.
Lemma fixes_sound tab dom G a :
  invariant dom G a ->
  forallb (fun x => fixes_cell G (srun tab) (false, x) && fixes_cell G (srun tab) (true, x)) dom = true ->
  forall x, In x dom -> exec tab a x = a x.
Proof.
  intros I F x Hx. rewrite forallb_forall in F. specialize (F x Hx).
  apply andb_true_iff in F.
  assert (forall im, fixes_cell G (srun tab) (im, x) = true ->
                     cellval (exec tab a) (im, x) = cellval a (im, x)) as K.
  { intros im. rewrite <- (srun_sim a tab (im, x)). unfold fixes_cell.
    destruct (sget (srun tab) (im, x)) as [|[z [im' y]] [|]]; try discriminate; cbn [fst snd].
    - rewrite andb_true_iff. intros [-> E]. apply existsb_exists in E.
      destruct E as (g & Hg & E). apply andb_true_iff in E. destruct E as [E1 E2].
      apply idx_eqb_eq in E2. specialize (I g x Hg Hx). rewrite E1, E2 in I.
      apply (f_equal Im) in I. unfold cellval, Im, Cconj in *; simpl in *. lra.
    - rewrite andb_true_iff. intros [E E']. apply Bool.eqb_prop in E. subst im'.
      apply existsb_exists in E'. destruct E' as (g & Hg & E).
      apply andb_true_iff in E. destruct E as [E1 E2].
      apply idx_eqb_eq in E1. apply Z.eqb_eq in E2. subst y z.
      specialize (I g x Hg Hx). simpl. unfold cellval; cbn [fst snd]. rewrite I.
      destruct (snd g), im; unfold Re, Im, Cconj; simpl; lra. }
  destruct F as [F1 F2].
  apply C_ext; [exact (K false F1)|exact (K true F2)].
Qed.

(** ** Representatives: the cells a program never assigns. *)
Definition assigned (s : stmt) : list cell :=
  match s with
  | SRe i _ => [(false, i)]
  | SIm i _ _ | SIm0 i => [(true, i)]
  | SCopy i _ | SConj i _ | SLin i _ => [(false, i); (true, i)]
  end.
Definition representative (tab : list stmt) (c : cell) : bool :=
  negb (existsb (fun s => existsb (cell_eqb c) (assigned s)) tab).
Lemma cell_neq_idx x i im : cell_eqb (im, x) (im, i) = false -> idx_eqb i x = false.
Proof.
  unfold cell_eqb; simpl. rewrite Bool.eqb_reflx; simpl. intros E.
  destruct (idx_eqb i x) eqn:F; auto. apply idx_eqb_eq in F. subst.
  assert (idx_eqb x x = true) by (apply idx_eqb_eq; auto). congruence.
Qed.
Lemma exec1_unassigned b s c : existsb (cell_eqb c) (assigned s) = false ->
  cellval (exec1 b s) c = cellval b c.
Proof.
  destruct c as [im x].
  destruct s as [i j|i n j|i|i j|i j|i l]; simpl; rewrite ?orb_false_r; rewrite ?orb_false_iff;
    intros E; unfold cellval, upd; simpl; destruct im;
    try (destruct (idx_eqb i x) eqn:F; auto; apply idx_eqb_eq in F; subst; reflexivity);
    repeat match goal with
    | H : _ /\ _ |- _ => destruct H
    | H : cell_eqb (true, x) (true, i) = false |- _ => apply cell_neq_idx in H; rewrite H
    | H : cell_eqb (false, x) (false, i) = false |- _ => apply cell_neq_idx in H; rewrite H
    end; auto.
Qed.
Lemma representative_kept tab a c : representative tab c = true -> cellval (exec tab a) c = cellval a c.
Proof.
  unfold representative. rewrite negb_true_iff. unfold exec. revert a.
  induction tab as [|s t IH]; simpl; intros a H; auto.
  apply orb_false_iff in H. destruct H as [H1 H2]. rewrite (IH (exec1 a s) H2).
  apply exec1_unassigned; auto.
Qed.
Definition reads_reps (tab : list stmt) (st : sstate) (x : idx) : bool :=
  forallb (fun im : bool => forallb (fun t => representative tab (snd t)) (sget st (im, x))) [false; true].
Lemma fval_agree a b f : (forall t, In t f -> cellval a (snd t) = cellval b (snd t)) -> fval a f = fval b f.
Proof.
  induction f as [|t f IH]; simpl; intros H; auto. rewrite (H t) by auto. rewrite IH; auto.
Qed.
Lemma reads_reps_sound tab dom a b :
  forallb (reads_reps tab (srun tab)) dom = true ->
  (forall c, representative tab c = true -> cellval a c = cellval b c) ->
  forall x, In x dom -> exec tab a x = exec tab b x.
Proof.
  intros F H x Hx. rewrite forallb_forall in F. specialize (F x Hx).
  unfold reads_reps in F. simpl in F. rewrite !andb_true_iff in F. destruct F as (F1 & F2 & _).
  rewrite forallb_forall in F1, F2.
  pose proof (srun_sim a tab) as Sa. pose proof (srun_sim b tab) as Sb.
  apply C_ext.
  - pose proof (Sa (false, x)) as A. pose proof (Sb (false, x)) as B. unfold cellval in A, B; simpl in A, B.
    rewrite <- A, <- B. apply fval_agree. intros t Ht. apply H, F1, Ht.
  - pose proof (Sa (true, x)) as A. pose proof (Sb (true, x)) as B. unfold cellval in A, B; simpl in A, B.
    rewrite <- A, <- B. apply fval_agree. intros t Ht. apply H, F2, Ht.
Qed.
