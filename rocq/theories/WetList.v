(** A complete listing of the JMS operators the translators read, one member of each orbit;
    used to show that the hypotheses of the theorems about WET can be met. *)
From Coq Require Import String Ascii List Bool Arith ZArith QArith Reals Lra Lia FinFun.
From Verif Require Import PyBase PyDict Cplx Tensor Wc Params Smeft SmeftNames WetExpr WetStr WetTab Wet WetJms WetNf WetSpec WetChk WetThm WetVals.
Import ListNotations.
Open Scope string_scope.
Open Scope list_scope.
Open Scope nat_scope.
#[local] Opaque Ceq_dec.

Definition listing (T : dict string (list idx)) : list string := flat_map (fun t => map (cname (fst t)) (snd t)) T.
Fixpoint nodup_ix (l : list idx) : bool := match l with [] => true | x :: t => negb (existsb (idx_eqb x) t) && nodup_ix t end.
Definition table_ok (T : dict string (list idx)) : bool :=
  nodupb (dkeys T) &&
  forallb (fun t => no_us (fst t) && nodup_ix (snd t) &&
     match snd t with
     | [] => true
     | x :: _ => negb (Nat.eqb (length x) 0) && forallb (fun y => Nat.eqb (length y) (length x)) (snd t) &&
                 (negb (mem (fst t) sym_ops) || Nat.eqb (length x) 4)
     end) T.
Lemma nodup_ix_ok l : nodup_ix l = true -> NoDup l.
Proof.
  induction l as [|x t IH]; simpl; intros H; constructor; apply andb_true_iff in H; destruct H as [A B]; auto.
  intros I. apply negb_true_iff in A. assert (existsb (idx_eqb x) t = true) as E; [|congruence].
  apply existsb_exists. exists x. split; auto. apply idx_eqb_eq. reflexivity.
Qed.
Lemma in_listing T k : In k (listing T) <-> exists op xs x, In (op, xs) T /\ In x xs /\ k = cname op x.
Proof.
  unfold listing. rewrite in_flat_map. split.
  - intros ([op xs] & I & J). apply in_map_iff in J. destruct J as (x & <- & J). exists op, xs, x. auto.
  - intros (op & xs & x & I & J & ->). exists (op, xs). split; auto. apply in_map. exact J.
Qed.
Section Ok.
Variable T : dict string (list idx).
Hypothesis K : table_ok T = true.
Lemma tab_wf : NoDup (dkeys T).
Proof. unfold table_ok in K. apply andb_true_iff in K. apply nodupb_ok, K. Qed.
Lemma tab_row op xs x : In (op, xs) T -> In x xs ->
  no_us op = true /\ NoDup xs /\ x <> [] /\ (forall y, In y xs -> length y = length x) /\ (In op sym_ops -> length x = 4).
Proof.
  intros I J. unfold table_ok in K. apply andb_true_iff in K. destruct K as [_ H]. rewrite forallb_forall in H. specialize (H _ I).
  cbn [fst snd] in H. apply andb_true_iff in H. destruct H as [H Q]. apply andb_true_iff in H. destruct H as [A B].
  destruct xs as [|z xs']; [destruct J|]. apply andb_true_iff in Q. destruct Q as [Q S]. apply andb_true_iff in Q. destruct Q as [Q1 Q2].
  rewrite forallb_forall in Q2. assert (forall y, In y (z :: xs') -> length y = length z) as L by (intros y Y; apply Nat.eqb_eq; auto).
  split; auto. split; [apply nodup_ix_ok; auto|]. split; [|split].
  - intros ->. specialize (L [] J). destruct z; discriminate.
  - intros y Y. rewrite (L y Y), (L x J). reflexivity.
  - intros M. rewrite (L x J). apply orb_true_iff in S. destruct S as [S|S]; [|apply Nat.eqb_eq; auto].
    rewrite (proj2 (mem_In _ op sym_ops) M) in S. discriminate.
Qed.
Lemma tab_in op x : no_us op = true -> In (cname op x) (listing T) -> exists xs, In (op, xs) T /\ In x xs.
Proof.
  intros N I. apply in_listing in I. destruct I as (op' & xs & y & A & B & E). destruct (tab_row _ _ _ A B) as (N' & _ & Y & _).
  apply (f_equal split_us) in E. rewrite !split_cname in E by auto. injection E as -> E. apply digits_inj in E. subst y. eauto.
Qed.
Lemma tab_fun op xs ys : In (op, xs) T -> In (op, ys) T -> xs = ys.
Proof. intros A B. apply (In_dget _ _ _ tab_wf) in A. apply (In_dget _ _ _ tab_wf) in B. congruence. Qed.
Lemma listing_of : listing_ok (listing T).
Proof.
  assert (forall k, In k (listing T) -> no_us k = false) as U.
  { intros k I. apply in_listing in I. destruct I as (op & xs & x & A & B & ->). apply cname_us. apply (tab_row _ _ _ A B). }
  constructor.
  - pose proof tab_row as R. pose proof tab_wf as W. unfold listing. clear K U.
    induction T as [|[op xs] t IH]; cbn [flat_map]; [constructor|].
    assert (forall op xs x, In (op, xs) t -> In x xs -> no_us op = true /\ NoDup xs /\ x <> [] /\ (forall y, In y xs -> length y = length x) /\ (In op sym_ops -> length x = 4)) as R'
      by (intros; apply R; simpl; auto).
    inversion W as [|? ? W1 W2]; subst. specialize (IH R' W2). cbn [fst snd].
    assert (NoDup (map (cname op) xs)) as N.
    { destruct xs as [|x0 xs']; [constructor|]. destruct (R op (x0 :: xs') x0) as (Q1 & Q2 & _); simpl; auto.
      apply (Injective_map_NoDup (f := cname op) (l := x0 :: xs')); auto. intros a b E. apply (f_equal split_us) in E. rewrite !split_cname in E by auto.
      injection E as E. apply digits_inj in E. exact E. }
    assert (forall k, In k (map (cname op) xs) -> ~ In k (flat_map (fun t => map (cname (fst t)) (snd t)) t)) as D.
    { intros k A B. apply in_map_iff in A. destruct A as (x & <- & A). apply in_flat_map in B. destruct B as ([op' ys] & B1 & B2).
      apply in_map_iff in B2. destruct B2 as (y & E & B2). cbn [fst snd] in *. destruct (R op xs x) as (Q1 & _); simpl; auto.
      destruct (R' op' ys y B1 B2) as (Q2 & _). apply (f_equal split_us) in E. rewrite !split_cname in E by auto. injection E as -> _.
      apply W1. apply (in_map fst) in B1. exact B1. }
    clear -N IH D. induction (map (cname op) xs) as [|k l IHl]; auto. simpl. inversion N; subst. constructor.
    + intros I. apply in_app_or in I. destruct I as [I|I]; auto. apply (D k); simpl; auto.
    + apply IHl; auto. intros; apply D; simpl; auto.
  - intros k I. right. apply in_listing in I. destruct I as (op & xs & x & A & B & ->). exists op, x.
    destruct (tab_row _ _ _ A B) as (N & _ & Y & _). auto.
  - intros op x I N. rewrite (U op I) in N. discriminate.
  - intros op x y A B N. destruct (tab_in op x N A) as (xs & A1 & A2). destruct (tab_in op y N B) as (ys & B1 & B2).
    rewrite (tab_fun _ _ _ B1 A1) in B2. apply (tab_row _ _ _ A1 B2); auto.
  - intros op x A N M. destruct (tab_in op x N A) as (xs & A1 & A2). apply (tab_row _ _ _ A1 A2). exact M.
  - intros op M I. apply U in I. assert (no_us op = true) as E; [|congruence].
    revert op M I. cut (forallb no_us sym_ops = true). { intros H op M _. rewrite forallb_forall in H. apply H. exact M. } reflexivity.
Qed.
End Ok.

Fixpoint all_ix (fs : list field) : list idx :=
  match fs with
  | [] => [[]]
  | f :: r => flat_map (fun i => map (cons i) (all_ix r)) (match f with Up => [F1; F2] | _ => [F1; F2; F3] end)
  end.
Lemma all_ix_fits fs : forall x, fits fs x = true -> In x (all_ix fs).
Proof.
  induction fs as [|f r IH]; destruct x as [|i x]; simpl; try discriminate; auto. rewrite andb_true_iff. intros [A B].
  apply in_flat_map. exists i. split; [|apply in_map; auto]. destruct f, i; simpl in *; auto; discriminate.
Qed.
Definition is_rep (op : string) (x : idx) : bool := forallb (fun m => idx_leb x (fst m)) (members op x).
Definition T0 : dict string (list idx) := map (fun t => (fst t, filter (is_rep (fst t)) (all_ix (snd t)))) jms_fields.
Definition J0 : list string := listing T0.
Lemma T0_ok : table_ok T0 = true.
Proof. vm_cast_no_check (eq_refl true). Qed.
Lemma T0_complete : forallb (fun t => forallb (fun x => existsb (fun m =>
    match dget T0 (fst t) with Some xs => existsb (idx_eqb (fst m)) xs | None => false end) (members (fst t) x)) (all_ix (snd t))) jms_fields = true.
Proof. vm_cast_no_check (eq_refl true). Qed.
Lemma T0_irr : forallb (fun op => match dget T0 op with Some xs => forallb (fun x => negb (existsb (idx_eqb (cur_ix x)) xs) || idx_eqb (cur_ix x) x) xs
    | None => true end) cur_ops = true.
Proof. vm_cast_no_check (eq_refl true). Qed.
Lemma J0_good : good J0.
Proof.
  split; [apply listing_of, T0_ok|]. intros op x H. unfold jms_ix in H. destruct (dget jms_fields op) as [fs|] eqn:F; [|discriminate].
  apply dget_In in F. pose proof T0_complete as Q. rewrite forallb_forall in Q. specialize (Q _ F). cbn [fst snd] in Q.
  rewrite forallb_forall in Q. specialize (Q x (all_ix_fits _ _ H)). apply existsb_exists in Q. destruct Q as (m & M & Q).
  destruct (dget T0 op) as [xs|] eqn:E; [|discriminate]. apply existsb_exists in Q. destruct Q as (y & Y & Q). apply idx_eqb_eq in Q.
  exists m. split; auto. apply in_listing. exists op, xs, y. split; [exact (dget_In _ _ _ E)|]. rewrite Q. auto.
Qed.
Lemma J0_irredundant : irredundant J0.
Proof.
  intros op x I A B. assert (no_us op = true) as N by (destruct I as [<-|[<-|[<-|[<-|[]]]]]; reflexivity).
  destruct (tab_in T0 T0_ok op x N A) as (xs & A1 & A2). destruct (tab_in T0 T0_ok op _ N B) as (ys & B1 & B2).
  rewrite (tab_fun T0 T0_ok _ _ _ B1 A1) in B2. pose proof T0_irr as Q. rewrite forallb_forall in Q. specialize (Q op I).
  rewrite (In_dget _ _ _ (tab_wf T0 T0_ok) A1) in Q. rewrite forallb_forall in Q. specialize (Q x A2). apply orb_true_iff in Q.
  destruct Q as [Q|Q]; [|apply idx_eqb_eq; exact Q]. apply negb_true_iff in Q.
  assert (existsb (idx_eqb (cur_ix x)) xs = true) as E; [|congruence]. apply existsb_exists. exists (cur_ix x). split; auto. apply idx_eqb_eq. reflexivity.
Qed.

Lemma J0_mem op x : no_us op = true -> mem (cname op x) J0 = match dget T0 op with Some xs => existsb (idx_eqb x) xs | None => false end.
Proof.
  intros N. destruct (mem (cname op x) J0) eqn:M.
  - apply mem_In in M. destruct (tab_in T0 T0_ok op x N M) as (xs & A & B). rewrite (In_dget _ _ _ (tab_wf T0 T0_ok) A).
    symmetry. apply existsb_exists. exists x. split; auto. apply idx_eqb_eq. reflexivity.
  - destruct (dget T0 op) as [xs|] eqn:D; auto. destruct (existsb (idx_eqb x) xs) eqn:E; auto. exfalso.
    apply existsb_exists in E. destruct E as (y & Y & E). apply idx_eqb_eq in E. subst y.
    rewrite (proj2 (mem_In _ (cname op x) J0)) in M; [discriminate|]. apply in_listing. exists op, xs, x. split; [exact (dget_In _ _ _ D)|auto].
Qed.
Definition pick0 (op : string) (x : idx) : option (idx * bool) :=
  List.find (fun m => match dget T0 op with Some xs => existsb (idx_eqb (fst m)) xs | None => false end) (members op x).
Lemma find_same {A} (f g : A -> bool) l : (forall x, f x = g x) -> List.find f l = List.find g l.
Proof. intros H. induction l as [|x l IH]; simpl; auto. rewrite H, IH. reflexivity. Qed.
Lemma pick0_eq op x : no_us op = true -> pick J0 op x = pick0 op x.
Proof. intros N. exact (find_same _ _ _ (fun m => J0_mem op (fst m) N)). Qed.

(** Parameters *)
Definition ckm1 : R -> R -> R -> R -> mat := fun _ _ _ _ _ _ => C1.
Definition mb4 : R -> R -> R -> res R := fun _ _ _ => Ok 4%R.
Definition ms1 : R -> R -> R -> res R := fun _ _ _ => Ok 1%R.
Definition as1 : R -> R -> res R := fun _ _ => Ok 1%R.
Definition p1 : params := [("m_b", 4%R); ("m_s", 1%R); ("alpha_s", 1%R)] ++ map (fun k => (k, param (merge_params None) k)) copied.
Lemma p1_ok : okp ckm1 mb4 ms1 as1 5 None p1.
Proof.
  split; [reflexivity|]. repeat split.
  - vm_compute. lra.
  - change (0 < param (merge_params None) "alpha_e")%R. vm_compute. lra.
  - vm_compute. lra.
  - vm_compute. lra.
  - intros i j. apply C1_neq_0.
Qed.
Lemma p1_light : light p1.
Proof. unfold light. change (4 * 4 <> 1 * 1)%R. lra. Qed.
