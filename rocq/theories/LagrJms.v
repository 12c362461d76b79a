(** The JMS Lagrangian in terms of the entries of the completed arrays. *)
From Coq Require Import String Ascii List Bool Arith ZArith QArith Reals Lra Lia Permutation FinFun.
From Verif Require Import PyBase PyDict Cplx Tensor Wc Params Smeft SmeftNames WetExpr Wet WetJms WetNf WetSpec WetChk WetThm WetVals Dirac LagrBases LagrRefl.
Import ListNotations.
Open Scope string_scope.
Open Scope list_scope.
Open Scope nat_scope.
#[local] Opaque Ceq_dec.

(** ** Sums *)
Definition lsum {A} (f : A -> C) (l : list A) : C := fold_right (fun a s => Cadd (f a) s) C0 l.
Lemma lsum_ext {A} (f g : A -> C) l : (forall a, In a l -> f a = g a) -> lsum f l = lsum g l.
Proof. induction l as [|a l IH]; simpl; intros H; auto. rewrite H, IH; auto. Qed.
Lemma lsum_add {A} (f g : A -> C) l : lsum (fun a => Cadd (f a) (g a)) l = Cadd (lsum f l) (lsum g l).
Proof. induction l as [|a l IH]; simpl; [ring|]. rewrite IH. ring. Qed.
Lemma lsum_app {A} (f : A -> C) l m : lsum f (l ++ m) = Cadd (lsum f l) (lsum f m).
Proof. induction l as [|a l IH]; simpl; [ring|]. rewrite IH. ring. Qed.
Lemma amplitude_app l m x y z w : amplitude (l ++ m) x y z w = Cadd (amplitude l x y z w) (amplitude m x y z w).
Proof. unfold amplitude. induction l as [|a l IH]; simpl; [ring|]. rewrite IH. ring. Qed.
Lemma amplitude_flat {A} (f : A -> lagrangian) l x y z w :
  amplitude (flat_map f l) x y z w = lsum (fun a => amplitude (f a) x y z w) l.
Proof. induction l as [|a l IH]; simpl; auto. rewrite amplitude_app, IH. reflexivity. Qed.
Lemma lsum_perm {A} (f : A -> C) l m : Permutation.Permutation l m -> lsum f l = lsum f m.
Proof. induction 1; simpl; try congruence. ring. Qed.
Lemma lsum_map {A B} (f : B -> C) (h : A -> B) l : lsum f (map h l) = lsum (fun a => f (h a)) l.
Proof. induction l as [|a l IH]; simpl; auto. rewrite IH. reflexivity. Qed.

(** ** Indices *)
Lemma idx4_nodup : NoDup idx4.
Proof.
  assert (forall l : list idx, (fix nd (l : list idx) := match l with [] => true | a :: t => negb (existsb (idx_eqb a) t) && nd t end) l = true -> NoDup l) as H.
  { induction l as [|a l IH]; intros H; constructor; apply andb_true_iff in H; destruct H as [H1 H2]; auto.
    intros I. apply negb_true_iff in H1. assert (existsb (idx_eqb a) l = true); [|congruence]. apply existsb_exists. exists a. split; auto. apply idx_eqb_eq; auto. }
  apply H. vm_compute. reflexivity.
Qed.
Lemma herm_herm x : herm_ix (herm_ix x) = x.
Proof. destruct x as [|? [|? [|? [|? [|]]]]]; reflexivity. Qed.
Lemma cur_cur x : cur_ix (cur_ix x) = x.
Proof. destruct x as [|? [|? [|? [|? [|]]]]]; reflexivity. Qed.
Lemma cur_herm x : cur_ix (herm_ix x) = herm_ix (cur_ix x).
Proof. destruct x as [|? [|? [|? [|? [|]]]]]; reflexivity. Qed.
Lemma herm_in x : In x idx4 -> In (herm_ix x) idx4.
Proof. intros I. apply idx4_shape in I. destruct I as (? & ? & ? & ? & ->). apply idx4_in. Qed.
Lemma cur_in x : In x idx4 -> In (cur_ix x) idx4.
Proof. intros I. apply idx4_shape in I. destruct I as (? & ? & ? & ? & ->). apply idx4_in. Qed.
Lemma invol_sum (h : idx -> idx) f : (forall x, h (h x) = x) -> (forall x, In x idx4 -> In (h x) idx4) ->
  lsum (fun x => f (h x)) idx4 = lsum f idx4.
Proof.
  intros H1 H2. rewrite <- (lsum_map f h). apply lsum_perm. apply Permutation.NoDup_Permutation.
  - apply FinFun.Injective_map_NoDup; [|apply idx4_nodup]. intros a b E. rewrite <- (H1 a), <- (H1 b), E. reflexivity.
  - apply idx4_nodup.
  - intros x. split; intros I.
    + apply in_map_iff in I. destruct I as (y & <- & I). auto.
    + apply in_map_iff. exists (h x). auto.
Qed.
(** One index of each pair related by the exchange of the currents. *)
Definition lower (x : idx) : bool := idx_leb x (cur_ix x).
Lemma lower_total x : In x idx4 -> lower x = true \/ lower (cur_ix x) = true.
Proof.
  intros I. assert (forallb (fun x => lower x || lower (cur_ix x)) idx4 = true) as H by (vm_compute; reflexivity).
  rewrite forallb_forall in H. apply orb_true_iff. auto.
Qed.
Lemma lower_both x : In x idx4 -> lower x = true -> lower (cur_ix x) = true -> cur_ix x = x.
Proof.
  intros I. assert (forallb (fun x => negb (lower x && lower (cur_ix x)) || idx_eqb (cur_ix x) x) idx4 = true) as H by (vm_compute; reflexivity).
  rewrite forallb_forall in H. specialize (H x I). intros A B. rewrite A, B in H. apply idx_eqb_eq; auto.
Qed.
Lemma cur_sum f : lsum f idx4 = lsum (fun x => if lower x then if idx_eqb (cur_ix x) x then f x else Cadd (f x) (f (cur_ix x)) else C0) idx4.
Proof.
  assert (forall x, In x idx4 -> Cadd (if lower x then f x else C0) (if lower x then if idx_eqb (cur_ix x) x then C0 else f (cur_ix x) else C0) =
    (if lower x then if idx_eqb (cur_ix x) x then f x else Cadd (f x) (f (cur_ix x)) else C0)) as E.
  { intros x _. destruct (lower x); [|ring]. destruct (idx_eqb (cur_ix x) x); ring. }
  rewrite <- (lsum_ext _ _ _ E), lsum_add.
  rewrite <- (invol_sum cur_ix (fun x => if lower x then if idx_eqb (cur_ix x) x then C0 else f (cur_ix x) else C0) cur_cur cur_in).
  rewrite <- lsum_add. apply lsum_ext. intros x I. rewrite cur_cur.
  destruct (lower x) eqn:A; destruct (lower (cur_ix x)) eqn:B.
  - rewrite (lower_both x I A B). assert (idx_eqb x x = true) as -> by (apply idx_eqb_eq; auto). ring.
  - ring.
  - assert (idx_eqb x (cur_ix x) = false) as ->; [|ring]. destruct (idx_eqb x (cur_ix x)) eqn:Q; auto. apply idx_eqb_eq in Q. rewrite <- Q in B. congruence.
  - destruct (lower_total x I); congruence.
Qed.

(** ** Listings without redundancy: no two members of an orbit *)
Definition nonredundant (J : list string) : Prop :=
  forall op x m, In m (members op x) -> In (cname op x) J -> In (cname op (fst m)) J -> fst m = x.
Section Values.
Variables (J : list string) (c : dict string C).
Hypothesis NR : nonredundant J.
Notation "'P' op x" := (mem (cname op x) J) (at level 10, op at level 9, x at level 9).
Notation "'K' op x" := (num_of c (cname op x)) (at level 10, op at level 9, x at level 9).
Lemma value_herm op x : mem op herm_ops = true ->
  value J c op x = (if P op x then K op x else if P op (herm_ix x) then Cconj (K op (herm_ix x)) else C0).
Proof.
  intros H. unfold value, entry_of, pick, members. rewrite H. cbn [List.find fst snd]. destruct (P op x); [reflexivity|].
  destruct (P op (herm_ix x)); reflexivity.
Qed.
Lemma value_cur op x : mem op cur_ops = true ->
  value J c op x = (if P op x then K op x else if P op (cur_ix x) then K op (cur_ix x) else C0).
Proof.
  intros H. unfold value, entry_of, pick, members. rewrite H.
  assert (mem op herm_ops = false) as ->.
  { destruct (mem op herm_ops) eqn:HH; auto. destruct (proj1 (sym_disjoint op) HH). congruence. }
  cbn [List.find fst snd]. destruct (P op x); [reflexivity|]. destruct (P op (cur_ix x)); reflexivity.
Qed.
Lemma value_both op x : mem op both_ops = true ->
  value J c op x = (if P op x then K op x else if P op (cur_ix x) then K op (cur_ix x)
    else if P op (herm_ix x) then Cconj (K op (herm_ix x)) else if P op (cur_ix (herm_ix x)) then Cconj (K op (cur_ix (herm_ix x))) else C0).
Proof.
  intros H. unfold value, entry_of, pick, members. rewrite H.
  assert (mem op herm_ops = false) as ->.
  { destruct (mem op herm_ops) eqn:HH; auto. destruct (proj1 (sym_disjoint op) HH). congruence. }
  assert (mem op cur_ops = false) as ->.
  { destruct (mem op cur_ops) eqn:HH; auto. pose proof (proj2 (sym_disjoint op) HH). congruence. }
  cbn [List.find fst snd]. destruct (P op x); [reflexivity|]. destruct (P op (cur_ix x)); [reflexivity|].
  destruct (P op (herm_ix x)); [reflexivity|]. destruct (P op (cur_ix (herm_ix x))); reflexivity.
Qed.
Lemma value_none op x : mem op herm_ops = false -> mem op cur_ops = false -> mem op both_ops = false ->
  value J c op x = (if P op x then K op x else C0).
Proof. intros H1 H2 H3. unfold value, entry_of, pick, members. rewrite H1, H2, H3. cbn [List.find fst snd]. destruct (P op x); reflexivity. Qed.
Lemma nr_herm op x : mem op herm_ops = true \/ mem op both_ops = true -> P op x = true -> P op (herm_ix x) = true -> herm_ix x = x.
Proof.
  intros H A B. apply mem_In in A. apply mem_In in B. apply (NR op x (herm_ix x, true)); auto.
  unfold members. destruct H as [H|H].
  - rewrite H. simpl; auto.
  - assert (mem op herm_ops = false) as ->.
    { destruct (mem op herm_ops) eqn:HH; auto. destruct (proj1 (sym_disjoint op) HH). congruence. }
    assert (mem op cur_ops = false) as ->.
    { destruct (mem op cur_ops) eqn:HH; auto. pose proof (proj2 (sym_disjoint op) HH). congruence. }
    rewrite H. simpl; auto.
Qed.
Lemma nr_cur op x : mem op cur_ops = true \/ mem op both_ops = true -> P op x = true -> P op (cur_ix x) = true -> cur_ix x = x.
Proof.
  intros H A B. apply mem_In in A. apply mem_In in B. apply (NR op x (cur_ix x, false)); auto.
  unfold members.
  assert (mem op herm_ops = false) as ->.
  { destruct (mem op herm_ops) eqn:HH; auto. destruct (proj1 (sym_disjoint op) HH). destruct H; congruence. }
  destruct (mem op cur_ops) eqn:HC; [simpl; auto|]. destruct H as [H|H]; [discriminate|]. rewrite H. simpl; auto.
Qed.
Lemma nr_curherm op x : mem op both_ops = true -> P op x = true -> P op (cur_ix (herm_ix x)) = true -> cur_ix (herm_ix x) = x.
Proof.
  intros H A B. apply mem_In in A. apply mem_In in B. apply (NR op x (cur_ix (herm_ix x), true)); auto.
  unfold members.
  assert (mem op herm_ops = false) as ->.
  { destruct (mem op herm_ops) eqn:HH; auto. destruct (proj1 (sym_disjoint op) HH). congruence. }
  assert (mem op cur_ops = false) as ->.
  { destruct (mem op cur_ops) eqn:HH; auto. pose proof (proj2 (sym_disjoint op) HH). congruence. }
  rewrite H. simpl; auto.
Qed.
(** The entries of one orbit. *)
Lemma value_herm_conj op x : mem op herm_ops = true -> herm_ix x <> x -> value J c op (herm_ix x) = Cconj (value J c op x).
Proof.
  intros H N. rewrite !value_herm, herm_herm by auto. destruct (P op x) eqn:A, (P op (herm_ix x)) eqn:B; rewrite ?Cconj_conj, ?Cconj_0; auto.
  exfalso. apply N. eapply nr_herm; eauto.
Qed.
Lemma value_cur_same op x : mem op cur_ops = true \/ mem op both_ops = true -> value J c op (cur_ix x) = value J c op x.
Proof.
  intros [H|H].
  - rewrite !value_cur, cur_cur by auto. destruct (P op x) eqn:A, (P op (cur_ix x)) eqn:B; auto. rewrite (nr_cur op x); auto.
  - rewrite !value_both, <- !cur_herm, !cur_cur by auto.
    destruct (P op x) eqn:A, (P op (cur_ix x)) eqn:B; auto; [rewrite (nr_cur op x); auto|].
    destruct (P op (herm_ix x)) eqn:D, (P op (cur_ix (herm_ix x))) eqn:E; auto.
    rewrite (nr_cur op (herm_ix x)); auto.
Qed.
Lemma value_both_conj op x : mem op both_ops = true -> herm_ix x <> x -> cur_ix (herm_ix x) <> x -> value J c op (herm_ix x) = Cconj (value J c op x).
Proof.
  intros H N M. rewrite !value_both, herm_herm by auto.
  destruct (P op x) eqn:A.
  - destruct (P op (herm_ix x)) eqn:B; [exfalso; apply N; apply (nr_herm op); auto|].
    destruct (P op (cur_ix (herm_ix x))) eqn:D; [exfalso; apply M; apply (nr_curherm op); auto|]. auto.
  - destruct (P op (cur_ix x)) eqn:A'.
    + destruct (P op (herm_ix x)) eqn:B.
      { exfalso. apply M. rewrite <- (cur_cur x) at 2. f_equal. rewrite <- (herm_herm (cur_ix x)).
        assert (cur_ix (herm_ix (cur_ix x)) = cur_ix x) as E.
        { apply (nr_curherm op); auto. rewrite <- cur_herm, cur_cur. auto. }
        rewrite <- cur_herm, cur_cur in E. rewrite herm_herm. exact E. }
      destruct (P op (cur_ix (herm_ix x))) eqn:D.
      { exfalso. apply N. rewrite <- (cur_cur x) at 2. rewrite <- (cur_cur (herm_ix x)). f_equal. rewrite cur_herm. apply (nr_herm op); auto. rewrite <- cur_herm. auto. }
      auto.
    + destruct (P op (herm_ix x)) eqn:B; [rewrite Cconj_conj; auto|]. destruct (P op (cur_ix (herm_ix x))) eqn:D; rewrite ?Cconj_conj, ?Cconj_0; auto.
Qed.
(** A representative of each orbit. *)
Definition rep_of (op : string) (x : idx) : idx * bool :=
  if mem op herm_ops then if idx_leb x (herm_ix x) then (x, false) else (herm_ix x, true)
  else if mem op cur_ops then if lower x then (x, false) else (cur_ix x, false)
  else if mem op both_ops then
    let y := if lower x then x else cur_ix x in
    let y' := if lower (herm_ix x) then herm_ix x else cur_ix (herm_ix x) in
    if idx_leb y y' then (y, false) else (y', true)
  else (x, false).
End Values.
Lemma leb_refl4 : forallb (fun x => idx_leb x x) idx4 = true.
Proof. vm_compute. reflexivity. Qed.
Lemma leb_refl x : In x idx4 -> idx_leb x x = true.
Proof. pose proof leb_refl4 as H. rewrite forallb_forall in H. auto. Qed.
Lemma rep_value J c op x : nonredundant J -> In x idx4 -> value J c op x = cj (snd (rep_of op x)) (value J c op (fst (rep_of op x))).
Proof.
  intros NR I. unfold rep_of.
  destruct (mem op herm_ops) eqn:H1.
  { destruct (idx_leb x (herm_ix x)) eqn:L; [reflexivity|]. cbn [fst snd cj]. rewrite (value_herm_conj J c NR) by (auto; intros E; rewrite E, leb_refl in L by auto; discriminate).
    rewrite Cconj_conj. reflexivity. }
  destruct (mem op cur_ops) eqn:H2.
  { destruct (lower x); [reflexivity|]. cbn [fst snd cj]. rewrite (value_cur_same J c NR) by auto. reflexivity. }
  destruct (mem op both_ops) eqn:H3; [|reflexivity].
  assert (forall z, value J c op (if lower z then z else cur_ix z) = value J c op z) as Q.
  { intros z. destruct (lower z); auto. apply value_cur_same; auto. }
  destruct (idx_leb _ _) eqn:L; cbn [fst snd cj]; rewrite Q; auto.
  rewrite (value_both_conj J c NR); auto; [rewrite Cconj_conj; auto| |].
  - intros E. rewrite E in L. rewrite leb_refl in L; [discriminate|]. destruct (lower x); auto using cur_in.
  - intros E. assert (herm_ix x = cur_ix x) as E' by (rewrite <- E at 2; rewrite cur_cur; auto). rewrite E', cur_cur in L.
    destruct (lower x) eqn:A, (lower (cur_ix x)) eqn:B.
    + rewrite (lower_both x I A B), leb_refl in L by auto. discriminate.
    + rewrite leb_refl in L by auto. discriminate.
    + rewrite leb_refl in L by auto using cur_in. discriminate.
    + destruct (lower_total x I); congruence.
Qed.

(** ** Symmetries of the operators *)
Definition symmetric_d (d : dirac) : bool :=
  let t := dterms d in forallb (fun k => match k with (a, b, c, e) => geqb (dsum t a b c e) (dsum t c e a b) end) cfgs.
Definition selfbar_d (d : dirac) : bool :=
  let t := dterms d in let t' := dterms (Bar d) in
  forallb (fun k => match k with (a, b, c, e) => geqb (dsum t a b c e) (dsum t' a b c e) end) cfgs.
Lemma geqb_eq a b : geqb a b = true -> a = b.
Proof. unfold geqb. destruct a, b. cbn [fst snd]. rewrite andb_true_iff, !Z.eqb_eq. intros [-> ->]. reflexivity. Qed.
Lemma symmetric_dent d a b c e : symmetric_d d = true -> dent d a b c e = dent d c e a b.
Proof. unfold symmetric_d. rewrite forallb_forall. intros H. specialize (H _ (cfgs_all a b c e)). cbv beta iota in H. apply geqb_eq in H. exact H. Qed.
Lemma selfbar_dent d a b c e : selfbar_d d = true -> dent (Bar d) a b c e = dent d a b c e.
Proof. unfold selfbar_d. rewrite forallb_forall. intros H. specialize (H _ (cfgs_all a b c e)). cbv beta iota in H. apply geqb_eq in H. symmetry. exact H. Qed.
Definition exch (o : oper) : oper := Oper (o3 o) (o4 o) (o1 o) (o2 o) (o_dirac o) (o_colour o).
Lemma vertex_exch o x y z w : o_colour o <> Crossed -> symmetric_d (o_dirac o) = true -> vertex (exch o) x y z w = vertex o z w x y.
Proof.
  intros NC S. unfold vertex. cbn [exch o1 o2 o3 o4 o_dirac o_colour].
  replace (fermion_eqb (o3 o) (l_f x) && fermion_eqb (o4 o) (l_f y) && fermion_eqb (o1 o) (l_f z) && fermion_eqb (o2 o) (l_f w))
    with (fermion_eqb (o1 o) (l_f z) && fermion_eqb (o2 o) (l_f w) && fermion_eqb (o3 o) (l_f x) && fermion_eqb (o4 o) (l_f y))
    by (destruct (fermion_eqb (o1 o) (l_f z)), (fermion_eqb (o2 o) (l_f w)), (fermion_eqb (o3 o) (l_f x)), (fermion_eqb (o4 o) (l_f y)); reflexivity).
  destruct (_ && _); auto. rewrite (symmetric_dent _ _ _ _ _ S). f_equal. unfold colour_factor. cbn [exch o1 o3 o_colour].
  destruct (o_colour o); [ring|congruence|]. rewrite !octet_val. f_equal. f_equal. f_equal. ring.
Qed.
Lemma amp1_exch o x y z w : o_colour o <> Crossed -> symmetric_d (o_dirac o) = true -> amp1 (exch o) x y z w = amp1 o x y z w.
Proof. intros NC S. unfold amp1. rewrite !vertex_exch by auto. ring. Qed.
Definition undag (o : oper) : oper := Oper (o2 o) (o1 o) (o4 o) (o3 o) (o_dirac o) (o_colour o).
Lemma amp1_selfbar o x y z w : selfbar_d (o_dirac o) = true -> amp1 (dag o) x y z w = amp1 (undag o) x y z w.
Proof.
  intros S. assert (forall x y z w, vertex (dag o) x y z w = vertex (undag o) x y z w) as E; [|unfold amp1; rewrite !E; reflexivity].
  intros. unfold vertex. cbn [dag undag o1 o2 o3 o4 o_dirac o_colour]. rewrite (selfbar_dent _ _ _ _ _ S). reflexivity.
Qed.
Definition field_pairs (o : jms_op) : bool :=
  match j_fields o with [a; b; e; f] => field_eqb a b && field_eqb e f | _ => false end.
Definition same_class (name : string) (o : jms_op) : bool :=
  Bool.eqb (mem name herm_ops) (j_herm o && negb (alike o)) && Bool.eqb (mem name both_ops) (j_herm o && alike o) &&
  Bool.eqb (mem name cur_ops) (negb (j_herm o) && alike o) &&
  Nat.eqb (length (j_fields o)) 4 &&
  match j_colour o with Crossed => false | _ => true end &&
  (negb (j_herm o) || field_pairs o) &&
  (negb (j_herm o) || selfbar_d (j_dirac o)) &&
  (negb (alike o) || symmetric_d (j_dirac o) && symmetric_d (Bar (j_dirac o))).
Lemma classes_ok : forallb (fun no => same_class (fst no) (snd no)) jms_ops = true.
Proof. vm_cast_no_check (eq_refl true). Qed.
Lemma field_eqb_eq a b : field_eqb a b = true -> a = b.
Proof. destruct a, b; try discriminate; reflexivity. Qed.
Record class_facts (name : string) (o : jms_op) : Prop := {
  cf_herm : mem name herm_ops = j_herm o && negb (alike o);
  cf_both : mem name both_ops = j_herm o && alike o;
  cf_cur : mem name cur_ops = negb (j_herm o) && alike o;
  cf_len : length (j_fields o) = 4;
  cf_col : j_colour o <> Crossed;
  cf_pairs : j_herm o = true -> field_pairs o = true;
  cf_selfbar : j_herm o = true -> selfbar_d (j_dirac o) = true;
  cf_sym : alike o = true -> symmetric_d (j_dirac o) = true /\ symmetric_d (Bar (j_dirac o)) = true }.
Lemma class_ok name o : In (name, o) jms_ops -> class_facts name o.
Proof.
  intros I. pose proof classes_ok as H. rewrite forallb_forall in H. specialize (H _ I). cbn [fst snd] in H.
  unfold same_class in H. rewrite !andb_true_iff in H. destruct H as (((((((A & B) & D) & L) & Cc) & F) & S) & Y).
  apply eqb_prop in A. apply eqb_prop in B. apply eqb_prop in D. apply Nat.eqb_eq in L. constructor; auto.
  - destruct (j_colour o); congruence.
  - intros E. rewrite E in F. auto.
  - intros E. rewrite E in S. auto.
  - intros E. rewrite E in Y. apply andb_true_iff in Y. auto.
Qed.
Section Amps.
Variables (name : string) (o : jms_op) (x y z w : leg).
Hypothesis CF : class_facts name o.
Definition Aof (i : idx) : C := amp1 (jms_oper o i) x y z w.
Definition Adag (i : idx) : C := amp1 (dag (jms_oper o i)) x y z w.
Lemma A_herm i : j_herm o = true -> In i idx4 -> Adag i = Aof (herm_ix i).
Proof.
  intros H I. pose proof (cf_pairs _ _ CF H) as P. pose proof (cf_selfbar _ _ CF H) as S. unfold Adag, Aof.
  apply idx4_shape in I. destruct I as (i1 & i2 & i3 & i4 & ->). unfold jms_oper, four, herm_ix. unfold field_pairs in P.
  destruct (j_fields o) as [|a [|b [|e [|f [|]]]]]; try discriminate. apply andb_true_iff in P. destruct P as [P1 P2].
  apply field_eqb_eq in P1. apply field_eqb_eq in P2. subst b f. rewrite amp1_selfbar by exact S. reflexivity.
Qed.
Lemma alike_fields : alike o = true -> exists a b, j_fields o = [a; b; a; b].
Proof.
  unfold alike. destruct (j_fields o) as [|a [|b [|e [|f [|]]]]]; try discriminate. destruct (j_dirac o); try discriminate.
  rewrite !andb_true_iff. intros [[A B] _]. apply field_eqb_eq in A. apply field_eqb_eq in B. subst. eauto.
Qed.
Lemma A_cur i : alike o = true -> In i idx4 -> Aof (cur_ix i) = Aof i /\ Adag (cur_ix i) = Adag i.
Proof.
  intros H I. destruct (cf_sym _ _ CF H) as [S S']. destruct (alike_fields H) as (a & b & F).
  apply idx4_shape in I. destruct I as (i1 & i2 & i3 & i4 & ->). unfold Aof, Adag, jms_oper. rewrite F. cbn [four cur_ix]. split.
  - rewrite <- (amp1_exch (Oper (a, i1) (b, i2) (a, i3) (b, i4) (j_dirac o) (j_colour o))); [reflexivity|exact (cf_col _ _ CF)|exact S].
  - rewrite <- (amp1_exch (dag (Oper (a, i1) (b, i2) (a, i3) (b, i4) (j_dirac o) (j_colour o)))); [reflexivity|exact (cf_col _ _ CF)|exact S'].
Qed.
Lemma self_conj i : In i idx4 -> self_conjugate o i = j_herm o && (idx_eqb (herm_ix i) i || alike o && idx_eqb (cur_ix (herm_ix i)) i).
Proof. intros I. apply idx4_shape in I. destruct I as (? & ? & ? & ? & ->). reflexivity. Qed.
Variables (J : list string) (c : dict string C).
Hypothesis NR : nonredundant J.
(** The terms with one entry per independent operator. *)
Definition entry_terms (i : idx) : lagrangian :=
  if negb (alike o) || lower i then
    if j_herm o then [(value J c name i, jms_oper o i)] else plus_hc (value J c name i) (jms_oper o i)
  else [].
Notation "'P' i" := (mem (cname name i) J) (at level 10, i at level 9).
Notation "'K' i" := (num_of c (cname name i)) (at level 10, i at level 9).
Lemma terms_amp i : amplitude (jms_terms J c name o i) x y z w =
  if P i then if self_conjugate o i then Cmul (K i) (Aof i) else Cadd (Cmul (K i) (Aof i)) (Cmul (Cconj (K i)) (Adag i)) else C0.
Proof.
  unfold jms_terms. destruct (mem (cname name i) J); [|reflexivity]. destruct (self_conjugate o i); unfold amplitude, plus_hc; cbn [fold_right fst snd]; fold (Aof i); fold (Adag i); ring.
Qed.
Lemma entry_amp i : amplitude (entry_terms i) x y z w =
  if negb (alike o) || lower i then
    if j_herm o then Cmul (value J c name i) (Aof i) else Cadd (Cmul (value J c name i) (Aof i)) (Cmul (Cconj (value J c name i)) (Adag i))
  else C0.
Proof.
  unfold entry_terms. destruct (negb (alike o) || lower i); [|reflexivity]. destruct (j_herm o); unfold amplitude, plus_hc; cbn [fold_right fst snd]; fold (Aof i); fold (Adag i); ring.
Qed.
(** the coefficient of A_i once the conjugates are collected *)
Definition Kof (i : idx) : C :=
  Cadd (if P i then K i else C0) (if P (herm_ix i) && negb (self_conjugate o (herm_ix i)) then Cconj (K (herm_ix i)) else C0).
Lemma collect_herm : j_herm o = true ->
  lsum (fun i => amplitude (jms_terms J c name o i) x y z w) idx4 = lsum (fun i => Cmul (Kof i) (Aof i)) idx4.
Proof.
  intros H.
  assert (forall i, In i idx4 -> amplitude (jms_terms J c name o i) x y z w =
    Cadd (Cmul (if P i then K i else C0) (Aof i)) (Cmul (if P i && negb (self_conjugate o i) then Cconj (K i) else C0) (Aof (herm_ix i)))) as E.
  { intros i I. rewrite terms_amp, (A_herm i H I). destruct (mem (cname name i) J); [|cbn [andb]; ring]. destruct (self_conjugate o i); cbn [andb negb]; ring. }
  rewrite (lsum_ext _ _ _ E), lsum_add.
  rewrite <- (invol_sum herm_ix (fun i => Cmul (if P i && negb (self_conjugate o i) then Cconj (K i) else C0) (Aof (herm_ix i))) herm_herm herm_in).
  rewrite <- lsum_add. apply lsum_ext. intros i _. rewrite herm_herm. unfold Kof. ring.
Qed.
Lemma idx_eqb_refl (i : idx) : idx_eqb i i = true.
Proof. apply idx_eqb_eq; auto. Qed.
Lemma idx_eqb_neq (i j : idx) : i <> j -> idx_eqb i j = false.
Proof. intros N. destruct (idx_eqb i j) eqn:E; auto. apply idx_eqb_eq in E. congruence. Qed.
Lemma terms_entries : lsum (fun i => amplitude (jms_terms J c name o i) x y z w) idx4 = lsum (fun i => amplitude (entry_terms i) x y z w) idx4.
Proof.
  destruct (j_herm o) eqn:H; destruct (alike o) eqn:L.
  - (* hermitian and symmetric *)
    assert (mem name both_ops = true) as M by (rewrite (cf_both _ _ CF), H, L; reflexivity).
    rewrite (collect_herm H), cur_sum. apply lsum_ext. intros i I. rewrite entry_amp, L, H. cbn [negb orb].
    destruct (lower i) eqn:LO; [|reflexivity]. destruct (A_cur i L I) as [-> _].
    rewrite (value_both J c) by auto. unfold Kof. rewrite !self_conj, H, L by auto using herm_in, cur_in. cbn [andb].
    rewrite <- !cur_herm, !herm_herm, !cur_cur. 
    destruct (idx_eqb (cur_ix i) i) eqn:Q.
    + apply idx_eqb_eq in Q. rewrite cur_herm, Q. 
      destruct (mem (cname name i) J) eqn:B1.
      * destruct (mem (cname name (herm_ix i)) J) eqn:B2; [|cbn [andb]; ring].
        pose proof (nr_herm J NR name i (or_intror M) B1 B2) as N. rewrite N, idx_eqb_refl. cbn [orb negb andb]. ring.
      * destruct (mem (cname name (herm_ix i)) J) eqn:B2; [|cbn [andb]; ring].
        rewrite idx_eqb_neq by (intros Z; rewrite Z in B1; congruence). cbn [orb negb andb]. ring.
    + assert (cur_ix i <> i) as NQ by (intros Z; rewrite Z, idx_eqb_refl in Q; discriminate). clear Q.
      assert (cur_ix (herm_ix i) <> herm_ix i) as NH.
      { intros Z. apply NQ. rewrite cur_herm in Z. rewrite <- (herm_herm (cur_ix i)), Z. apply herm_herm. }
      destruct (mem (cname name i) J) eqn:B1.
      { destruct (mem (cname name (cur_ix i)) J) eqn:B2; [exfalso; apply NQ; apply (nr_cur J NR name); auto|].
        destruct (mem (cname name (herm_ix i)) J) eqn:B3.
        - pose proof (nr_herm J NR name i (or_intror M) B1 B3) as Z. rewrite Z, idx_eqb_refl, B2. cbn [orb negb andb]. ring.
        - destruct (mem (cname name (cur_ix (herm_ix i))) J) eqn:B4; [|cbn [andb]; ring].
          pose proof (nr_curherm J NR name i M B1 B4) as Z. rewrite Z.
          assert (herm_ix i = cur_ix i) as Z' by (rewrite <- Z at 2; rewrite cur_cur; auto). rewrite Z'.
          rewrite ?idx_eqb_refl, ?orb_true_r. cbn [negb andb]. ring. }
      destruct (mem (cname name (cur_ix i)) J) eqn:B2.
      { destruct (mem (cname name (herm_ix i)) J) eqn:B3.
        - assert (herm_ix i = cur_ix i) as Z.
          { assert (cur_ix (herm_ix (cur_ix i)) = cur_ix i) as Z by (apply (nr_curherm J NR name); auto; rewrite <- cur_herm, cur_cur; auto).
            rewrite <- cur_herm, cur_cur in Z. exact Z. }
          rewrite Z, cur_cur, idx_eqb_refl, B1, orb_true_r. cbn [orb negb andb]. ring.
        - destruct (mem (cname name (cur_ix (herm_ix i))) J) eqn:B4; [|cbn [andb]; ring].
          assert (herm_ix (cur_ix i) = cur_ix i) as Z by (apply (nr_herm J NR name); auto; rewrite <- cur_herm; auto).
          rewrite cur_herm, Z, idx_eqb_refl. cbn [orb negb andb]. ring. }
      destruct (mem (cname name (herm_ix i)) J) eqn:B3.
      { destruct (mem (cname name (cur_ix (herm_ix i))) J) eqn:B4; [exfalso; apply NH; apply (nr_cur J NR name); auto|].
        cbn [andb]. rewrite !idx_eqb_neq.
        - cbn [orb negb andb]. ring.
        - intros Z. rewrite <- Z in B3. congruence.
        - intros Z. rewrite <- Z in B3. congruence. }
      destruct (mem (cname name (cur_ix (herm_ix i))) J) eqn:B4; [|cbn [andb]; ring].
      cbn [andb]. rewrite !idx_eqb_neq.
      * cbn [orb negb andb]. ring.
      * intros Z. rewrite <- Z in B4. congruence.
      * intros Z. rewrite <- Z in B4. congruence.
  - (* hermitian *)
    assert (mem name herm_ops = true) as M by (rewrite (cf_herm _ _ CF), H, L; reflexivity).
    rewrite (collect_herm H). apply lsum_ext. intros i I. rewrite entry_amp, L, H. cbn [negb orb]. rewrite (value_herm J c) by auto.
    f_equal. unfold Kof. rewrite self_conj, H, L, herm_herm by auto using herm_in. cbn [andb]. rewrite orb_false_r.
    destruct (mem (cname name i) J) eqn:B1, (mem (cname name (herm_ix i)) J) eqn:B2; cbn [andb]; try ring.
    + rewrite (nr_herm J NR name i (or_introl M) B1 B2), idx_eqb_refl. cbn [negb]. ring.
    + rewrite idx_eqb_neq by (intros Z; rewrite <- Z in B2; congruence). cbn [negb]. ring.
  - (* symmetric *)
    assert (mem name cur_ops = true) as M by (rewrite (cf_cur _ _ CF), H, L; reflexivity).
    rewrite cur_sum. apply lsum_ext. intros i I. rewrite !terms_amp, entry_amp, L, H. cbn [negb orb].
    destruct (lower i); [|reflexivity]. destruct (A_cur i L I) as [-> ->]. rewrite (value_cur J c) by auto.
    rewrite !self_conj, H by auto using cur_in. cbn [andb]. destruct (idx_eqb (cur_ix i) i) eqn:Q.
    + apply idx_eqb_eq in Q. rewrite Q. destruct (mem (cname name i) J); rewrite ?Cconj_0; ring.
    + destruct (mem (cname name i) J) eqn:B1, (mem (cname name (cur_ix i)) J) eqn:B2; rewrite ?Cconj_0; try ring.
      rewrite (nr_cur J NR name i (or_introl M) B1 B2), idx_eqb_refl in Q. discriminate.
  - apply lsum_ext. intros i I. rewrite terms_amp, entry_amp, L, H. cbn [negb orb]. rewrite self_conj, H by auto. cbn [andb].
    rewrite (value_none J c) by (rewrite ?(cf_herm _ _ CF), ?(cf_cur _ _ CF), ?(cf_both _ _ CF), ?H, ?L; reflexivity).
    destruct (mem (cname name i) J); rewrite ?Cconj_0; ring.
Qed.
End Amps.
(** The amplitudes of the JMS Lagrangian. *)
Theorem jms_entries_amp ops J c x y z w : incl ops jms_ops -> nonredundant J ->
  amplitude (L_on ops J c) x y z w =
  lsum (fun no => lsum (fun i => amplitude (entry_terms (fst no) (snd no) J c i) x y z w) idx4) ops.
Proof.
  intros IN NR. unfold L_on. rewrite amplitude_flat. apply lsum_ext. intros [name o] I. cbn [fst snd]. rewrite amplitude_flat.
  apply terms_entries; auto. apply class_ok; auto.
Qed.
