(** Coefficient names and arrays: facts about wcxf2arrays and arrays2wcxf. *)
From Coq Require Import String Ascii List Bool Arith Reals Lia.
From Verif Require Import PyBase PyDict Cplx Tensor SmeftSyntax SmeftTab SmeftSymm Smeft.
Import ListNotations.
Open Scope string_scope.
Open Scope list_scope.
Open Scope nat_scope.

(** ** Strings *)
Fixpoint no_us (s : string) : bool :=
  match s with EmptyString => true | String a t => negb (Ascii.eqb a "_"%char) && no_us t end.
Lemma split_us_plain s : no_us s = true -> split_us s = [s].
Proof.
  induction s as [|a t IH]; simpl; auto. rewrite andb_true_iff, negb_true_iff. intros [-> H].
  rewrite IH; auto.
Qed.
Lemma split_us_app s t : no_us s = true -> split_us (s ++ "_" ++ t)%string = s :: split_us t.
Proof.
  induction s as [|a r IH]; simpl; auto. rewrite andb_true_iff, negb_true_iff. intros [-> H].
  simpl in IH. rewrite IH; auto.
Qed.
Lemma digits_no_us x : no_us (digits x) = true.
Proof. induction x as [|[] t IH]; simpl; auto. Qed.
Lemma dig_inj i j : dig i = dig j -> i = j.
Proof. destruct i, j; simpl; congruence. Qed.
Lemma digits_inj x y : digits x = digits y -> x = y.
Proof.
  revert y; induction x as [|i t IH]; destruct y as [|j u]; simpl; try congruence.
  intros E. injection E as E1 E2. apply dig_inj in E1. subst. f_equal; auto.
Qed.
Lemma parse_digits n x : length x <= n -> parse_index n (digits x) = Ok x.
Proof.
  unfold parse_index. intros L.
  assert (mapM int_char (chars (digits x)) = Ok (map (fun i => match i with F1 => 1 | F2 => 2 | F3 => 3 end) x)) as ->.
  { clear L. induction x as [|[] t IH]; simpl; auto; unfold mapM in *; simpl; rewrite IH; reflexivity. }
  simpl. rewrite map_length. assert (Nat.ltb n (length x) = false) as -> by (apply Nat.ltb_ge; auto).
  clear L. induction x as [|[] t IH]; simpl; auto; unfold mapM in *; simpl; rewrite IH; reflexivity.
Qed.

(** ** Shapes, entries *)
Definition idxs (s : shape) : list idx := match s with Sh0 => [[]] | Sh2 => idx2 | Sh4 => idx4 end.
Definition op_shape (op : string) : option shape := dget C_keys_shape op.
(** The name of the coefficient with indices [x]. *)
Definition sname (op : string) (x : idx) : string := match x with [] => op | _ => cname op x end.
Definition entry (v : arr) : idx -> C :=
  match v with A0 z => fun x => match x with [] => z | _ => C0 end | A2 m => of_mat m | A4 t => of_ten t end.
Definition arr_of (s : shape) (f : idx -> C) : arr :=
  match s with Sh0 => A0 (f []) | Sh2 => A2 (to_mat f) | Sh4 => A4 (to_ten f) end.
Definition fits (s : shape) (v : arr) : Prop :=
  match s, v with Sh0, A0 _ | Sh2, A2 _ | Sh4, A4 _ => True | _, _ => False end.
Lemma idxs_length s x : In x (idxs s) -> length x = match s with Sh0 => 0 | Sh2 => 2 | Sh4 => 4 end.
Proof.
  destruct s; simpl idxs; intros I.
  - destruct I as [<-|[]]; reflexivity.
  - apply idx2_shape in I. destruct I as (? & ? & ->); reflexivity.
  - apply idx4_shape in I. destruct I as (? & ? & ? & ? & ->); reflexivity.
Qed.
Lemma length_idxs s x : length x = match s with Sh0 => 0 | Sh2 => 2 | Sh4 => 4 end -> In x (idxs s).
Proof.
  destruct s; intros L.
  - destruct x; [left; auto|discriminate].
  - destruct x as [|a [|b [|]]]; try discriminate. apply idx2_in.
  - destruct x as [|a [|b [|c [|d [|]]]]]; try discriminate. apply idx4_in.
Qed.
Lemma idxs_NoDup s : NoDup (idxs s).
Proof.
  assert (forall l : list idx, (fix nd l := match l with [] => true | x :: t => negb (existsb (idx_eqb x) t) && nd t end) l = true -> NoDup l) as G.
  { induction l as [|x t IH]; intros H; constructor; apply andb_true_iff in H; destruct H as [H1 H2]; auto.
    intros I. apply negb_true_iff in H1. assert (existsb (idx_eqb x) t = true); [|congruence].
    apply existsb_exists. exists x; split; auto. apply idx_eqb_eq; auto. }
  destruct s; apply G; vm_compute; reflexivity.
Qed.
Lemma entry_arr_of s f x : In x (idxs s) -> entry (arr_of s f) x = f x.
Proof.
  destruct s; simpl idxs; intros I.
  - destruct I as [<-|[]]; reflexivity.
  - apply idx2_shape in I. destruct I as (? & ? & ->); reflexivity.
  - apply idx4_shape in I. destruct I as (? & ? & ? & ? & ->); reflexivity.
Qed.
Lemma arr_of_entry s v : fits s v -> arr_of s (entry v) = v.
Proof. destruct s, v; simpl; intros F; try tauto; reflexivity. Qed.
Lemma arr_of_ext s f g : (forall x, In x (idxs s) -> f x = g x) -> arr_of s f = arr_of s g.
Proof.
  destruct s; simpl; intros E.
  - rewrite E; simpl; auto.
  - f_equal. apply mat_ext; intros. apply E, idx2_in.
  - f_equal. apply ten_ext; intros. apply E, idx4_in.
Qed.
Lemma fits_arr_of s f : fits s (arr_of s f).
Proof. destruct s; exact I. Qed.
Lemma fits_fun s s' v : fits s v -> fits s' v -> s = s'.
Proof. destruct s, s', v; simpl; tauto. Qed.
Lemma zeros_arr_of s : zeros s = arr_of s (fun _ => C0).
Proof. destruct s; reflexivity. Qed.
Lemma entries_map op s v : fits s v ->
  entries op v = map (fun x => (sname op x, entry v x)) (idxs s).
Proof.
  destruct s, v; simpl fits; intros F; try contradiction.
  - reflexivity.
  - unfold entries, idxs. apply map_ext_in. intros x I. apply idx2_shape in I. destruct I as (? & ? & ->); reflexivity.
  - unfold entries, idxs. apply map_ext_in. intros x I. apply idx4_shape in I. destruct I as (? & ? & ? & ? & ->); reflexivity.
Qed.
Lemma prefix_full n p x : length p = n -> length x = n -> is_prefix p x = idx_eqb p x.
Proof.
  revert n x; induction p as [|a p IH]; destruct x as [|b x]; simpl; intros; subst; try discriminate; auto.
  f_equal. apply (IH (length p)); auto.
Qed.
Lemma aset_arr_of s f x v : In x (idxs s) ->
  aset (arr_of s f) x v = arr_of s (fun y => if idx_eqb x y then v else f y).
Proof.
  intros I. pose proof (idxs_length _ _ I) as L. destruct s; simpl.
  - destruct x; [reflexivity|discriminate].
  - f_equal. apply mat_ext; intros i j. unfold to_mat. rewrite (prefix_full 2); auto.
  - f_equal. apply ten_ext; intros i j k l. unfold to_ten. rewrite (prefix_full 4); auto.
Qed.

(** Every operator name is free of underscores. *)
Lemma shape_no_us op s : op_shape op = Some s -> no_us op = true.
Proof.
  intros E. apply dget_In in E.
  assert (forallb (fun kv : string * shape => no_us (fst kv)) C_keys_shape = true) as H by (vm_compute; reflexivity).
  rewrite forallb_forall in H. exact (H _ E).
Qed.
Lemma name_part_sname op x : no_us op = true -> name_part (sname op x) = op.
Proof.
  intros N. unfold name_part, sname. destruct x.
  - rewrite split_us_plain; auto.
  - unfold cname. rewrite split_us_app; auto.
Qed.
Lemma index_part_sname op x : no_us op = true -> x <> [] -> index_part (sname op x) = digits x.
Proof.
  intros N X. unfold index_part, sname. destruct x as [|i t]; [congruence|].
  unfold cname. rewrite split_us_app by auto. rewrite split_us_plain by apply digits_no_us. reflexivity.
Qed.
Lemma sname_inj op op' x x' : no_us op = true -> no_us op' = true ->
  sname op x = sname op' x' -> op = op' /\ x = x'.
Proof.
  intros N N' E.
  assert (op = op') as <- by (rewrite <- (name_part_sname op x), E by auto; apply name_part_sname; auto).
  split; auto.
  assert (forall y, no_us op = true -> op = sname op y -> y = []) as G.
  { intros y _ E'. destruct y; auto. apply (f_equal split_us) in E'.
    unfold sname, cname in E'. rewrite split_us_app in E' by auto.
    rewrite (split_us_plain (digits _)) in E' by apply digits_no_us.
    rewrite split_us_plain in E' by auto. discriminate. }
  destruct x as [|i t]; [symmetry; apply G; auto|].
  destruct x' as [|i' t']; [apply G; auto|].
  apply (f_equal index_part) in E. rewrite !index_part_sname in E by (auto; discriminate).
  apply digits_inj; auto.
Qed.

(** ** Well-formed names and typed array dictionaries *)
Definition good_name (k : string) : Prop :=
  exists op s x, op_shape op = Some s /\ In x (idxs s) /\ k = sname op x.
Definition typed (c : arrays) : Prop :=
  wf c /\ forall op v, In (op, v) c -> exists s, op_shape op = Some s /\ fits s v.
Definition good_dict (d : dict string C) : Prop := wf d /\ forall k, In k (dkeys d) -> good_name k.

(** ** wcxf2arrays *)
Definition dval (d : dict string C) (k : string) : C := match dget d k with Some z => z | None => C0 end.
Definition touched (d : dict string C) (op : string) : bool :=
  existsb (fun k => String.eqb (name_part k) op) (dkeys d).
Definition array_in (d : dict string C) (op : string) (s : shape) : arr :=
  arr_of s (fun x => dval d (sname op x)).

Lemma w2a_from_app c d e :
  wcxf2arrays_from c (d ++ e) = let! c' := wcxf2arrays_from c d in wcxf2arrays_from c' e.
Proof.
  revert c; induction d as [|[k v] t IH]; simpl; intros c; auto.
  destruct (w2a_step c k v); simpl; auto.
Qed.
Lemma w2a_step_good c op s x v : op_shape op = Some s -> In x (idxs s) ->
  w2a_step c (sname op x) v =
  Ok (dset c op (aset (match s with Sh0 => A0 C0 | _ => match dget c op with Some a => a | None => zeros s end end) x v)).
Proof.
  intros E I. pose proof (shape_no_us _ _ E) as N. unfold w2a_step.
  rewrite name_part_sname by auto. unfold dlookup. unfold op_shape in E. rewrite E. simpl.
  pose proof (idxs_length _ _ I) as L.
  destruct s.
  - destruct x; [reflexivity|discriminate].
  - rewrite index_part_sname by (auto; intros ->; discriminate). rewrite parse_digits by (simpl; lia). reflexivity.
  - rewrite index_part_sname by (auto; intros ->; discriminate). rewrite parse_digits by (simpl; lia). reflexivity.
Qed.
Lemma wf_app_l (d e : dict string C) : wf (d ++ e) -> wf d.
Proof.
  unfold wf, dkeys. rewrite map_app. revert e; induction d as [|kv t IH]; simpl; intros e W; constructor;
    inversion W; subst; eauto. rewrite in_app_iff in *; tauto.
Qed.
Lemma dget_snoc (d : dict string C) k v k' : ~ In k (dkeys d) ->
  dget (d ++ [(k, v)]) k' = if keqb k' k then Some v else dget d k'.
Proof.
  induction d as [|[k2 v2] t IH]; simpl; intros N; auto.
  destruct (keqb k' k2) eqn:E.
  - apply keqb_eq in E. subst. destruct (keqb k2 k) eqn:F; auto. apply keqb_eq in F. subst. tauto.
  - apply IH. tauto.
Qed.
Definition represents (c : arrays) (d : dict string C) : Prop :=
  wf c /\ forall op, dget c op = match op_shape op with
                                 | Some s => if touched d op then Some (array_in d op s) else None
                                 | None => None end.
Lemma touched_snoc d k v op : touched (d ++ [(k, v)]) op = touched d op || String.eqb (name_part k) op.
Proof. unfold touched, dkeys. rewrite map_app, existsb_app. simpl. rewrite orb_false_r; reflexivity. Qed.
Lemma good_snoc d k v : good_dict (d ++ [(k, v)]) -> good_dict d /\ good_name k /\ ~ In k (dkeys d).
Proof.
  intros [W G]. split; [split|split].
  - eapply wf_app_l; eauto.
  - intros k' I. apply G. unfold dkeys in *. rewrite map_app, in_app_iff; auto.
  - apply G. unfold dkeys. rewrite map_app, in_app_iff; simpl; auto.
  - intros I. unfold wf, dkeys in *. rewrite map_app in W. simpl in W.
    apply NoDup_remove_2 in W. rewrite app_nil_r in W. tauto.
Qed.
Lemma untouched_dval d op x : no_us op = true -> touched d op = false -> dget d (sname op x) = None.
Proof.
  intros N T. apply dget_None. intros I. unfold touched in T.
  assert (existsb (fun k => String.eqb (name_part k) op) (dkeys d) = true); [|congruence].
  apply existsb_exists. exists (sname op x). split; auto. rewrite name_part_sname by auto. apply String.eqb_refl.
Qed.
Lemma wcxf2arrays_good d : good_dict d -> exists c, wcxf2arrays d = Ok c /\ represents c d.
Proof.
  induction d as [|[k v] d IH] using rev_ind; intros G.
  - exists []. split; [reflexivity|]. split; [constructor|]. intros op. simpl.
    destruct (op_shape op); reflexivity.
  - apply good_snoc in G. destruct G as (G & (op & s & x & E & I & ->) & N).
    destruct (IH G) as (c & Hc & W & R). unfold wcxf2arrays in *. rewrite w2a_from_app, Hc. simpl.
    rewrite (w2a_step_good _ _ s) by auto. simpl. eexists; split; [reflexivity|]. split; [apply wf_dset; auto|].
    pose proof (shape_no_us _ _ E) as U.
    intros op'. rewrite dget_dset. destruct (keqb op op') eqn:K.
    + apply keqb_eq in K. subst op'. rewrite E, touched_snoc, name_part_sname, String.eqb_refl, orb_true_r by auto.
      f_equal. unfold array_in.
      assert (forall f, (forall y, In y (idxs s) -> f y = dval d (sname op y)) ->
         aset (arr_of s f) x v = arr_of s (fun y => dval (d ++ [(sname op x, v)]) (sname op y))) as A.
      { intros f F. rewrite aset_arr_of by auto. apply arr_of_ext. intros y Iy. unfold dval at 1.
        rewrite dget_snoc by auto. destruct (idx_eqb x y) eqn:Q.
        - apply idx_eqb_eq in Q. subst. rewrite keqb_refl; reflexivity.
        - assert (keqb (sname op y) (sname op x) = false) as ->.
          { apply keqb_neq. intros Z. apply sname_inj in Z; auto. destruct Z as [_ ->].
            assert (idx_eqb x x = true) by (apply idx_eqb_eq; auto). congruence. }
          apply F; auto. }
      specialize (R op). rewrite E in R. destruct (touched d op) eqn:T.
      * rewrite R. destruct s.
        -- destruct I as [<-|[]]. rewrite <- (A (fun _ => dval d (sname op []))); [reflexivity|].
           intros y [<-|[]]; reflexivity.
        -- apply A. auto.
        -- apply A. auto.
      * rewrite R.
        assert (forall y, dval d (sname op y) = C0) as Z by (intros y; unfold dval; rewrite untouched_dval; auto).
        destruct s.
        -- destruct I as [<-|[]]. rewrite <- (A (fun _ => C0)); [reflexivity|]. intros; rewrite Z; auto.
        -- rewrite zeros_arr_of. apply A. intros; rewrite Z; auto.
        -- rewrite zeros_arr_of. apply A. intros; rewrite Z; auto.
    + assert (op <> op') as NE by (intros ->; rewrite keqb_refl in K; discriminate).
      rewrite R. destruct (op_shape op') as [s'|] eqn:E'; auto.
      rewrite touched_snoc, name_part_sname by auto.
      assert (String.eqb op op' = false) as -> by (apply String.eqb_neq; auto). rewrite orb_false_r.
      destruct (touched d op'); auto. f_equal. unfold array_in. apply arr_of_ext. intros y _.
      unfold dval. rewrite dget_snoc by auto.
      assert (keqb (sname op' y) (sname op x) = false) as ->; auto.
      apply keqb_neq. intros Z. apply sname_inj in Z; eauto using shape_no_us. destruct Z; congruence.
Qed.
Lemma represents_typed c d : represents c d -> typed c.
Proof.
  intros [W R]. split; auto. intros op v I. apply In_dget in I; auto. rewrite R in I.
  destruct (op_shape op) as [s|] eqn:E; try discriminate. destruct (touched d op); try discriminate.
  injection I as <-. exists s. split; auto. apply fits_arr_of.
Qed.

(** ** arrays2wcxf *)
Lemma NoDup_app_intro A (l m : list A) : NoDup l -> NoDup m -> (forall x, In x l -> ~ In x m) -> NoDup (l ++ m).
Proof.
  induction l as [|a t IH]; simpl; intros Nl Nm D; auto. inversion Nl; subst. constructor.
  - rewrite in_app_iff. intros [|]; [tauto|]. apply (D a); auto.
  - apply IH; auto.
Qed.
Lemma NoDup_map_inj A B (f : A -> B) l : (forall x y, In x l -> In y l -> f x = f y -> x = y) ->
  NoDup l -> NoDup (map f l).
Proof.
  induction l as [|a t IH]; simpl; intros Inj N; constructor; inversion N; subst.
  - intros I. apply in_map_iff in I. destruct I as (y & E & I). apply Inj in E; auto. subst; tauto.
  - apply IH; auto.
Qed.
Lemma flat_in c k z : typed c ->
  (In (k, z) (flat_map (fun kv => entries (fst kv) (snd kv)) c) <->
   exists op s v x, In (op, v) c /\ op_shape op = Some s /\ fits s v /\ In x (idxs s) /\ k = sname op x /\ z = entry v x).
Proof.
  intros [W T]. rewrite in_flat_map. split.
  - intros ([op v] & I & J). simpl in J. destruct (T op v I) as (s & E & F).
    rewrite (entries_map op s v F) in J. apply in_map_iff in J. destruct J as (x & K & Ix).
    injection K as <- <-. exists op, s, v, x. auto 6.
  - intros (op & s & v & x & I & E & F & Ix & -> & ->). exists (op, v). split; auto. simpl.
    rewrite (entries_map op s v F). apply in_map_iff. exists x; auto.
Qed.
Lemma flat_keys_NoDup c : typed c -> NoDup (map fst (flat_map (fun kv => entries (fst kv) (snd kv)) c)).
Proof.
  induction c as [|[op v] t IH]; simpl; intros [W T]; [constructor|].
  inversion W as [|? ? Hn W']; subst.
  assert (typed t) as Tt by (split; auto; intros; apply T; right; auto).
  destruct (T op v) as (s & E & F); [left; auto|].
  pose proof (shape_no_us _ _ E) as U.
  rewrite map_app. apply NoDup_app_intro; auto.
  - rewrite (entries_map op s v F), map_map. simpl. apply NoDup_map_inj; [|apply idxs_NoDup].
    intros x y _ _ Q. apply sname_inj in Q; tauto.
  - intros k I J. apply in_map_iff in J. destruct J as ([k' z] & <- & J). apply flat_in in J; auto.
    destruct J as (op' & s' & v' & x' & I' & E' & F' & Ix' & -> & ->).
    rewrite (entries_map op s v F), map_map in I. apply in_map_iff in I. destruct I as (x & Q & Ix).
    simpl in Q. apply sname_inj in Q; eauto using shape_no_us. destruct Q as [<- _].
    apply Hn. apply (in_map fst) in I'. exact I'.
Qed.
Lemma arrays2wcxf_wf c : wf (arrays2wcxf c).
Proof. apply wf_dict_of. Qed.
Lemma arrays2wcxf_eq c : typed c -> arrays2wcxf c = flat_map (fun kv => entries (fst kv) (snd kv)) c.
Proof. intros T. apply dict_of_wf. apply flat_keys_NoDup; auto. Qed.
Lemma arrays2wcxf_get c op s x : typed c -> op_shape op = Some s -> In x (idxs s) ->
  dget (arrays2wcxf c) (sname op x) = option_map (fun v => entry v x) (dget c op).
Proof.
  intros T E I. pose proof (proj1 T) as W. pose proof (arrays2wcxf_wf c) as W2.
  destruct (dget c op) as [v|] eqn:D; simpl.
  - apply In_dget; auto. rewrite arrays2wcxf_eq by auto. apply flat_in; auto.
    apply dget_In in D. destruct (proj2 T _ _ D) as (s' & E' & F). assert (s' = s) as -> by congruence.
    exists op, s, v, x. auto 6.
  - apply dget_None. intros J. unfold dkeys in J. apply in_map_iff in J. destruct J as ([k z] & Q & J).
    simpl in Q. subst k. rewrite arrays2wcxf_eq in J by auto. apply flat_in in J; auto.
    destruct J as (op' & s' & v' & x' & I' & E' & F' & Ix' & Q & ->).
    apply sname_inj in Q; eauto using shape_no_us. destruct Q as [<- <-].
    apply (in_map fst) in I'. simpl in I'. apply dget_None in D. tauto.
Qed.
Lemma arrays2wcxf_good c : typed c -> good_dict (arrays2wcxf c).
Proof.
  intros T. split; [apply arrays2wcxf_wf|]. intros k J. unfold dkeys in J. apply in_map_iff in J.
  destruct J as ([k' z] & <- & J). rewrite arrays2wcxf_eq in J by auto. apply flat_in in J; auto.
  destruct J as (op & s & v & x & I & E & F & Ix & -> & ->). exists op, s, x; auto.
Qed.

(** ** Round trips *)
Lemma idxs_nonempty s : exists x, In x (idxs s).
Proof. destruct s; eexists; simpl; left; reflexivity. Qed.
Lemma array_of_flat c op s v : typed c -> dget c op = Some v -> op_shape op = Some s ->
  touched (arrays2wcxf c) op = true /\ array_in (arrays2wcxf c) op s = v.
Proof.
  intros T D E. pose proof (dget_In _ _ _ D) as I. destruct (proj2 T _ _ I) as (s' & E' & F).
  assert (s' = s) as -> by congruence. split.
  - destruct (idxs_nonempty s) as (x & Ix). unfold touched. apply existsb_exists. exists (sname op x).
    split; [|rewrite name_part_sname by eauto using shape_no_us; apply String.eqb_refl].
    eapply dget_Some_key. rewrite (arrays2wcxf_get c op s x) by auto. rewrite D. reflexivity.
  - unfold array_in. transitivity (arr_of s (entry v)); [|apply arr_of_entry; auto]. apply arr_of_ext. intros x Ix. unfold dval.
    rewrite (arrays2wcxf_get c op s x) by auto. rewrite D. reflexivity.
Qed.
Lemma untouched_flat c op s : typed c -> dget c op = None -> op_shape op = Some s ->
  touched (arrays2wcxf c) op = false.
Proof.
  intros T D E. destruct (touched (arrays2wcxf c) op) eqn:Q; auto. exfalso.
  unfold touched in Q. apply existsb_exists in Q. destruct Q as (k & I & Q). apply String.eqb_eq in Q.
  destruct (arrays2wcxf_good c T) as [_ G]. destruct (G k I) as (op' & s' & x & E' & Ix & ->).
  rewrite name_part_sname in Q by eauto using shape_no_us. subst op'.
  apply key_dget in I. destruct I as (z & I). rewrite (arrays2wcxf_get c op s') in I by auto.
  rewrite D in I. discriminate.
Qed.
Lemma arrays_roundtrip c : typed c ->
  exists c', wcxf2arrays (arrays2wcxf c) = Ok c' /\ wf c' /\ forall op, dget c' op = dget c op.
Proof.
  intros T. destruct (wcxf2arrays_good _ (arrays2wcxf_good c T)) as (c' & H & W & R).
  exists c'. split; auto. split; auto. intros op. rewrite R.
  destruct (op_shape op) as [s|] eqn:E.
  - destruct (dget c op) as [v|] eqn:D.
    + destruct (array_of_flat c op s v T D E) as [-> ->]. reflexivity.
    + rewrite (untouched_flat c op s); auto.
  - destruct (dget c op) as [v|] eqn:D; auto. apply dget_In in D. destruct (proj2 T _ _ D) as (s & E' & _).
    congruence.
Qed.
Lemma dict_roundtrip d : good_dict d -> exists c, wcxf2arrays d = Ok c /\
  forall op s x, op_shape op = Some s -> In x (idxs s) ->
    dget (arrays2wcxf c) (sname op x) =
      match dget d (sname op x) with
      | Some z => Some z
      | None => if touched d op then Some C0 else None
      end.
Proof.
  intros G. destruct (wcxf2arrays_good d G) as (c & H & Rc). exists c. split; auto.
  intros op s x E I. rewrite (arrays2wcxf_get c op s x) by (eauto using represents_typed).
  destruct Rc as [W R]. rewrite R, E. destruct (touched d op) eqn:T; simpl.
  - unfold array_in. rewrite entry_arr_of by auto. unfold dval. destruct (dget d (sname op x)); reflexivity.
  - rewrite untouched_dval by eauto using shape_no_us. reflexivity.
Qed.
