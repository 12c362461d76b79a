(** Completion of JMS arrays: facts about _scalar2array and _JMS_to_array. *)
From Coq Require Import String Ascii List Bool Arith Reals Lia.
From Verif Require Import PyBase PyDict Cplx Tensor Wc Params Smeft SmeftNames WetExpr WetStr Wet.
Import ListNotations.
Open Scope string_scope.
Open Scope list_scope.
Open Scope nat_scope.

(** Names as a basis file lists them: plain ones and operator_indices, where an operator has
    a fixed number of indices: four for the operators that are symmetrised. *)
Record listing_ok (keys : list string) : Prop := {
  lo_nodup : NoDup keys;
  lo_form : forall k, In k keys -> no_us k = true \/ exists op x, no_us op = true /\ x <> [] /\ k = cname op x;
  lo_plain : forall op x, In op keys -> no_us op = true -> x <> [] -> ~ In (cname op x) keys;
  lo_rank : forall op x y, In (cname op x) keys -> In (cname op y) keys -> no_us op = true -> length x = length y;
  lo_four : forall op x, In (cname op x) keys -> no_us op = true -> In op (herm_ops ++ cur_ops ++ both_ops) -> length x = 4;
  lo_sym : forall op, In op (herm_ops ++ cur_ops ++ both_ops) -> ~ In op keys }.

Lemma has_us_plain k : no_us k = true -> has_us k = false.
Proof. intros H. unfold has_us. rewrite split_us_plain by auto. reflexivity. Qed.
Lemma split_cname op x : no_us op = true -> split_us (cname op x) = [op; digits x].
Proof. intros H. unfold cname. rewrite split_us_app, split_us_plain; auto. apply digits_no_us. Qed.
Lemma append_nil_r s : (s ++ "" = s)%string.
Proof. induction s; simpl; congruence. Qed.
Lemma digits_length x : String.length (digits x) = length x.
Proof. induction x; simpl; auto. Qed.
Lemma s2a_plain da k v : no_us k = true -> s2a_step da k v = Ok (dset da k (NArr 0 (fun _ => v))).
Proof. intros H. unfold s2a_step. rewrite has_us_plain by auto. reflexivity. Qed.
Lemma s2a_cname da op x v : no_us op = true -> x <> [] ->
  match dget da op with Some a => n_rank a = length x | None => True end ->
  s2a_step da (cname op x) v =
  Ok (dset da op (nset (match dget da op with Some a => a | None => nans (length x) end) x v)).
Proof.
  intros H N M. unfold s2a_step, has_us, index_part. rewrite !split_cname by auto. simpl. rewrite append_nil_r, digits_length.
  assert (Nat.eqb (length x) 0 = false) as L by (destruct x; [congruence|reflexivity]).
  destruct (dget da op) as [a|].
  - rewrite M, L. simpl. rewrite M, parse_digits by auto. reflexivity.
  - rewrite L. simpl. rewrite parse_digits by auto. reflexivity.
Qed.
Lemma cname_inj op op' x x' : no_us op = true -> no_us op' = true -> x <> [] -> x' <> [] ->
  cname op x = cname op' x' -> op = op' /\ x = x'.
Proof.
  intros A B X X' E. apply (f_equal split_us) in E. rewrite !split_cname in E by auto.
  injection E as E1 E2. apply digits_inj in E2. auto.
Qed.
Lemma cname_us op x : no_us op = true -> no_us (cname op x) = false.
Proof. induction op as [|a t IH]; simpl; auto. rewrite andb_true_iff. intros [-> H]. simpl. apply IH; auto. Qed.
Lemma is_prefix_eq p x : length p = length x -> is_prefix p x = idx_eqb p x.
Proof.
  revert x; induction p as [|a p IH]; destruct x as [|b x]; simpl; try discriminate; auto. intros E.
  rewrite IH; auto.
Qed.

(** What the arrays hold after the entries [l]. *)
Record rep (da : dict string narr) (l : dict string cval) : Prop := {
  r_wf : wf da;
  r_val : forall op x v, no_us op = true -> x <> [] -> dget l (cname op x) = Some v ->
          exists a, dget da op = Some a /\ n_rank a = length x /\ n_ent a x = v;
  r_nan : forall op a x, dget da op = Some a -> n_rank a = length x -> x <> [] -> dget l (cname op x) = None -> n_ent a x = None;
  r_key : forall op a, dget da op = Some a ->
          (n_rank a = 0 /\ In op (dkeys l)) \/ (n_rank a <> 0 /\ no_us op = true /\ exists x, In (cname op x) (dkeys l) /\ length x = n_rank a) }.
Lemma rep_nil : rep [] [].
Proof. constructor; simpl; intros; try discriminate. constructor. Qed.
Lemma dget_snoc1 (l : dict string cval) k v k' : ~ In k (dkeys l) ->
  dget (l ++ [(k, v)]) k' = if keqb k' k then Some v else dget l k'.
Proof.
  induction l as [|[a w] t IH]; simpl; intros N; [reflexivity|].
  destruct (keqb k' a) eqn:E.
  - apply keqb_eq in E. subst a. destruct (keqb k' k) eqn:F; auto. apply keqb_eq in F. subst. exfalso. apply N. auto.
  - apply IH. tauto.
Qed.
Lemma rep_step da l k v : listing_ok (dkeys l ++ [k]) -> rep da l ->
  exists da', s2a_step da k v = Ok da' /\ rep da' (l ++ [(k, v)]).
Proof.
  intros L R. destruct L as [LN LF LP LR L4 LS]. destruct R as [RW RV RN RK].
  assert (~ In k (dkeys l)) as NI.
  { apply NoDup_remove_2 in LN. rewrite app_nil_r in LN. auto. }
  assert (forall k', dget (l ++ [(k, v)]) k' = if keqb k' k then Some v else dget l k') as G by (intros; apply dget_snoc1; auto).
  assert (In k (dkeys l ++ [k])) as Ik by (apply in_or_app; simpl; auto).
  assert (forall x, In x (dkeys l) -> In x (dkeys l ++ [k])) as Il by (intros; apply in_or_app; auto).
  destruct (LF k Ik) as [P|(op & x & P & X & ->)].
  - rewrite s2a_plain by auto. eexists; split; [reflexivity|].
    assert (forall op x, no_us op = true -> cname op x <> k) as NC.
    { intros op x Q E. subst k. rewrite cname_us in P by auto. discriminate. }
    constructor.
    + apply wf_dset; auto.
    + intros op x w Q X E. rewrite G in E. destruct (keqb (cname op x) k) eqn:F.
      { apply keqb_eq in F. elim (NC op x Q F). }
      destruct (RV _ _ _ Q X E) as (a & A & B). exists a. split; auto. rewrite dget_dset_neq; auto.
      intros ->. apply (LP op x); auto. apply Il. exact (dget_Some_key _ _ _ E).
    + intros op a x E. rewrite dget_dset in E. destruct (keqb k op) eqn:F.
      * inversion E; subst. simpl. intros Z X. destruct x; [congruence|discriminate].
      * intros Z X E'. rewrite G in E'. apply (RN op a x E Z X). destruct (keqb (cname op x) k); [discriminate|auto].
    + intros op a E. rewrite dget_dset in E. unfold dkeys. rewrite map_app. simpl. destruct (keqb k op) eqn:F.
      * apply keqb_eq in F. inversion E; subst. left. split; auto.
      * destruct (RK op a E) as [(A & B)|(A & B & y & C & D)]; [left|right].
        -- split; auto.
        -- split; auto. split; auto. exists y. split; auto.
  - assert (match dget da op with Some a => n_rank a = length x | None => True end) as M.
    { destruct (dget da op) as [a|] eqn:E; auto. destruct (RK _ _ E) as [(A & B)|(A & _ & y & B & D)].
      - exfalso. apply (LP op x); auto.
      - rewrite <- D. apply (LR op); auto. }
    rewrite s2a_cname by auto. eexists; split; [reflexivity|].
    set (cur := match dget da op with Some a => a | None => nans (length x) end).
    assert (n_rank cur = length x) as CR by (unfold cur; destruct (dget da op); auto).
    constructor.
    + apply wf_dset; auto.
    + intros op' y w Q Y E. rewrite G in E. destruct (keqb (cname op' y) (cname op x)) eqn:F.
      * apply keqb_eq in F. apply cname_inj in F; auto. destruct F as [-> ->]. inversion E; subst.
        exists (nset cur x w). rewrite dget_dset_eq. split; auto. split; auto. simpl.
        rewrite is_prefix_eq by auto. rewrite (proj2 (idx_eqb_eq x x) eq_refl). reflexivity.
      * destruct (RV _ _ _ Q Y E) as (a & A & B & D). destruct (keqb op op') eqn:O.
        -- apply keqb_eq in O. subst op'. exists (nset cur x v). rewrite dget_dset_eq. split; auto.
           assert (cur = a) as -> by (unfold cur; rewrite A; auto). simpl. split; auto.
           rewrite is_prefix_eq by congruence. destruct (idx_eqb x y) eqn:I; auto. apply idx_eqb_eq in I. subst y.
           rewrite keqb_refl in F. discriminate.
        -- exists a. rewrite dget_dset_neq by (apply (proj1 (keqb_neq _ _ _)); auto). auto.
    + intros op' a y E Z Y E'. rewrite G in E'. rewrite dget_dset in E. destruct (keqb op op') eqn:O.
      * apply keqb_eq in O. subst op'. inversion E; subst. simpl in Z |- *. rewrite is_prefix_eq by congruence.
        destruct (idx_eqb x y) eqn:I.
        { apply idx_eqb_eq in I. subst y. rewrite keqb_refl in E'. discriminate. }
        assert (dget l (cname op y) = None) as E2 by (destruct (keqb (cname op y) (cname op x)); [discriminate|auto]).
        unfold cur. destruct (dget da op) as [b|] eqn:B; [|reflexivity]. apply (RN op b y); auto.
      * apply (RN op' a y); auto. destruct (keqb (cname op' y) (cname op x)); [discriminate|auto].
    + intros op' a E. rewrite dget_dset in E. unfold dkeys. rewrite map_app. simpl. destruct (keqb op op') eqn:O.
      * apply keqb_eq in O. subst op'. inversion E; subst. right. simpl. rewrite CR. split; [destruct x; [congruence|discriminate]|].
        split; auto. exists x. split; auto.
      * destruct (RK op' a E) as [(A & B)|(A & B & y & C & D)]; [left|right].
        -- split; auto.
        -- split; auto. split; auto. exists y. split; auto.
Qed.
Lemma listing_app l m : listing_ok (l ++ m) -> listing_ok l.
Proof.
  intros [LN LF LP LR L4 LS]. assert (forall k, In k l -> In k (l ++ m)) as I by (intros; apply in_or_app; auto).
  constructor.
  - clear - LN. induction l as [|a t IH]; [constructor|]. simpl in LN. inversion LN; subst. constructor; auto.
    intros H; apply H1. apply in_or_app; auto.
  - intros; apply LF; auto.
  - intros op x A B C D. apply (LP op x); auto.
  - intros op x y A B; apply LR; auto.
  - intros op x A; apply L4; auto.
  - intros op A B; apply (LS op); auto.
Qed.
Lemma scalar2array_rep m : forall da l, listing_ok (dkeys (l ++ m)) -> rep da l ->
  exists da', scalar2array_from da m = Ok da' /\ rep da' (l ++ m).
Proof.
  induction m as [|[k v] m IH]; intros da l L R; simpl.
  - exists da. rewrite app_nil_r. auto.
  - destruct (rep_step da l k v) as (da1 & E & R1); auto.
    { unfold dkeys in L. rewrite map_app in L. simpl in L. replace (map fst l ++ k :: map fst m) with ((map fst l ++ [k]) ++ map fst m) in L.
      - apply listing_app in L. exact L.
      - rewrite <- app_assoc. reflexivity. }
    rewrite E. simpl. replace (l ++ (k, v) :: m) with ((l ++ [(k, v)]) ++ m) by (rewrite <- app_assoc; reflexivity).
    apply IH; auto. replace ((l ++ [(k, v)]) ++ m) with (l ++ (k, v) :: m) by (rewrite <- app_assoc; reflexivity). auto.
Qed.

(** The value the user gave, or 0. *)
Definition jval (c : dict string cval) (k : string) : cval := match dget c k with Some v => v | None => Some C0 end.
Lemma dkeys_fill keys c : NoDup keys -> dkeys (fill keys c) = keys.
Proof.
  intros N. unfold fill. rewrite dict_of_wf; unfold dkeys; rewrite map_map; simpl; rewrite map_id; auto.
Qed.
Lemma dget_fill keys c k : NoDup keys -> dget (fill keys c) k = if mem k keys then Some (jval c k) else None.
Proof.
  intros N. destruct (mem k keys) eqn:M.
  - unfold fill. rewrite dict_of_wf by (rewrite map_map; simpl; rewrite map_id; auto).
    apply In_dget; [unfold wf, dkeys; rewrite map_map; simpl; rewrite map_id; auto|].
    apply in_map_iff. exists k. split; [reflexivity|]. exact (proj1 (mem_In _ k keys) M).
  - apply dget_None. rewrite dkeys_fill by auto. apply (proj1 (mem_notIn _ _ _)); auto.
Qed.
Definition raw (keys : list string) (c : dict string cval) (op : string) (x : idx) : cval :=
  if mem (cname op x) keys then jval c (cname op x) else None.
Definition first (a b : cval) : cval := match a with Some z => Some z | None => b end.
Definition full (keys : list string) (c : dict string cval) (op : string) (x : idx) : cval :=
  let r := raw keys c op in
  if mem op herm_ops then first (r x) (conjv (r (herm_ix x)))
  else if mem op cur_ops then first (r x) (r (cur_ix x))
  else if mem op both_ops then first (first (r x) (r (cur_ix x))) (conjv (first (r (herm_ix x)) (r (cur_ix (herm_ix x)))))
  else r x.
Lemma sym_disjoint op : (mem op herm_ops = true -> mem op cur_ops = false /\ mem op both_ops = false) /\
  (mem op cur_ops = true -> mem op both_ops = false).
Proof.
  split.
  - intros H. apply mem_In in H. cbn [herm_ops In] in H.
    repeat (destruct H as [<-|H]; [split; reflexivity|]). destruct H.
  - intros H. apply mem_In in H. cbn [cur_ops In] in H.
    repeat (destruct H as [<-|H]; [reflexivity|]). destruct H.
Qed.
Lemma four_len (x : idx) : length x = 4 -> exists i j k l, x = [i; j; k; l].
Proof. destruct x as [|i [|j [|k [|l [|]]]]]; try discriminate. eauto 6. Qed.
Definition sym_ops : list string := herm_ops ++ cur_ops ++ both_ops.
Lemma complete1_ok op a : (In op sym_ops -> n_rank a = 4) ->
  exists b, complete1 op a = Ok b /\ n_rank b = n_rank a /\
  (forall x, n_ent b x =
    if mem op herm_ops then first (n_ent a x) (conjv (n_ent a (herm_ix x)))
    else if mem op cur_ops then first (n_ent a x) (n_ent a (cur_ix x))
    else if mem op both_ops then first (first (n_ent a x) (n_ent a (cur_ix x)))
           (conjv (first (n_ent a (herm_ix x)) (n_ent a (cur_ix (herm_ix x)))))
    else n_ent a x).
Proof.
  intros R. unfold complete1. destruct (sym_disjoint op) as [D1 D2].
  destruct (mem op herm_ops) eqn:H1.
  - destruct (D1 eq_refl) as [-> ->]. unfold symm_herm. rewrite R by (apply mem_In in H1; unfold sym_ops; apply in_or_app; auto). simpl.
    eexists; split; [reflexivity|]. split; auto.
  - cbn [bind]. destruct (mem op cur_ops) eqn:H2.
    + rewrite D2 by auto. unfold symm_current.
      rewrite R by (apply mem_In in H2; unfold sym_ops; apply in_or_app; right; apply in_or_app; auto). simpl.
      eexists; split; [reflexivity|]. split; auto.
    + cbn [bind]. destruct (mem op both_ops) eqn:H3.
      * unfold symm_current. rewrite R by (apply mem_In in H3; unfold sym_ops; apply in_or_app; right; apply in_or_app; auto). simpl.
        eexists; split; [reflexivity|]. split; auto.
      * exists a. auto.
Qed.
Lemma mapM_dget (f : string -> narr -> res narr) (d : dict string narr) :
  (forall k a, In (k, a) d -> exists b, f k a = Ok b) ->
  exists e, mapM (fun kv => let! a := f (fst kv) (snd kv) in Ok (fst kv, a)) d = Ok e /\
  forall k, match dget d k with None => dget e k = None | Some a => exists b, f k a = Ok b /\ dget e k = Some b end.
Proof.
  induction d as [|[k a] t IH]; intros H.
  - exists []. split; [reflexivity|]. intros k; reflexivity.
  - destruct (H k a) as (b & E); [simpl; auto|]. destruct IH as (e & M & G); [intros; apply H; simpl; auto|].
    exists ((k, b) :: e). unfold mapM in *. simpl. rewrite E. simpl. rewrite M. split; [reflexivity|].
    intros k'. destruct (keqb k' k) eqn:K; [|apply G]. apply keqb_eq in K. subst. eauto.
Qed.
Lemma conjv_conj a : conjv (conjv a) = a.
Proof. destruct a; simpl; rewrite ?Cconj_conj; reflexivity. Qed.
Theorem jms_array keys c : listing_ok keys -> exists a, JMS_to_array keys c = Ok a /\
  (forall op, no_us op = true -> (forall x, x <> [] -> ~ In (cname op x) keys) -> ~ In op keys -> dget a op = None) /\
  (forall op x y, no_us op = true -> In (cname op y) keys -> length x = length y -> x <> [] ->
     exists r, dget a op = Some r /\ n_rank r = length x /\ n_ent r x = full keys c op x).
Proof.
  intros L. pose proof (lo_nodup _ L) as N.
  assert (dkeys (fill keys c) = keys) as DK by (apply dkeys_fill; auto).
  destruct (scalar2array_rep (fill keys c) [] []) as (da & E & R); [simpl; rewrite DK; auto|apply rep_nil|].
  simpl in R. unfold JMS_to_array, scalar2array. rewrite E. cbn [bind].
  destruct R as [RW RV RN RK].
  assert (forall op a, dget da op = Some a -> In op sym_ops -> n_rank a = 4) as R4.
  { intros op a G I. destruct (RK op a G) as [(_ & B)|(_ & P & x & B & D)]; rewrite DK in B.
    - elim (lo_sym _ L op I B).
    - rewrite <- D. apply (lo_four _ L op x); auto. }
  destruct (mapM_dget complete1 da) as (e & M & G).
  { intros k a I. apply (In_dget _ _ _ RW) in I. destruct (complete1_ok k a) as (b & F & _); eauto. }
  exists e. split; [exact M|]. split.
  - intros op P NC NP. specialize (G op). destruct (dget da op) as [a|] eqn:F; auto.
    destruct (RK op a F) as [(_ & B)|(A & _ & x & B & D)]; rewrite DK in B; exfalso; [auto|].
    apply (NC x); auto. destruct x; simpl in D; congruence.
  - intros op x y P I Lx X. assert (y <> []) as Y by (destruct y; destruct x; simpl in Lx; congruence).
    assert (dget (fill keys c) (cname op y) = Some (jval c (cname op y))) as V.
    { rewrite dget_fill by auto. rewrite (proj2 (mem_In _ _ _)) by auto. reflexivity. }
    destruct (RV op y _ P Y V) as (a & F & RA & _).
    assert (forall z, length z = length y -> n_ent a z = raw keys c op z) as Q.
    { intros z Lz. unfold raw. destruct (mem (cname op z) keys) eqn:Mz.
      - destruct (RV op z (jval c (cname op z))) as (a' & F' & _ & W); auto; [destruct z, y; simpl in Lz; congruence|rewrite dget_fill, Mz; auto|].
        congruence.
      - apply (RN op a z); auto; [congruence|destruct z, y; simpl in Lz; congruence|rewrite dget_fill, Mz; auto]. }
    specialize (G op). rewrite F in G. destruct G as (b & CB & GB). exists b. split; auto.
    destruct (complete1_ok op a) as (b' & CB' & RB & EB); [eauto|]. assert (b' = b) as -> by congruence.
    split; [congruence|]. rewrite EB. unfold full.
    assert (forall i, In i sym_ops -> op = i -> length y = 4) as L4.
    { intros i Ii ->. apply (lo_four _ L i y); auto. }
    assert (mem op herm_ops || mem op cur_ops || mem op both_ops = true -> length y = 4) as L4'.
    { rewrite !orb_true_iff. intros H. apply (L4 op); auto. unfold sym_ops. rewrite !in_app_iff.
      destruct H as [[H|H]|H]; apply mem_In in H; auto. }
    destruct (mem op herm_ops) eqn:H1; [|destruct (mem op cur_ops) eqn:H2; [|destruct (mem op both_ops) eqn:H3]].
    1,2,3: specialize (L4' eq_refl); rewrite L4' in Lx; destruct (four_len x Lx) as (i & j & k & l & ->); rewrite L4' in Q; simpl;
      rewrite !Q by reflexivity; reflexivity.
    apply Q; auto.
Qed.
