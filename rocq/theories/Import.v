(** Importing the package: [wcxf/__init__.py] loads every EFT and basis file that
    [glob] finds, in whatever order the file system lists them. *)
From Coq Require Import String List Bool Arith Lia Permutation.
From Verif Require Import PyBase PyDict Bases BasesFacts.
Import ListNotations.
Open Scope string_scope.
Open Scope list_scope.
Open Scope nat_scope.

(** A basis file, as far as Basis.__init__ reads it (classes.py 215-231): the entries [eft],
    [basis], [sectors] and, if there is one, [parent].
    Simplified: what the entries may look like and when the constructor refuses them is the subject
    of Dump.v and DumpInit.v. *)
Record bfile := BFile { f_eft : string; f_basis : string; f_parent : option string; f_sectors : sectors }.
(** An EFT file: its name and the names of its sectors (classes.py 195-201). *)
Definition efile : Type := string * list string.

(** The two loops, wcxf/__init__.py 16-22; an exception ends the import. *)
Definition load_efts (fs : list efile) (w : world) : world := fold_left (fun w f => new_eft w (fst f) (snd f)) fs w.
Fixpoint load_bases (fs : list bfile) (w : world) : res world :=
  match fs with
  | [] => Ok w
  | f :: t => match new_basis w (f_eft f) (f_basis f) (f_parent f) (f_sectors f) with
              | (Ok _, w') => load_bases t w'
              | (Err x, _) => Err x
              end
  end.
(** [import wcxf], wcxf/__init__.py 1-22: [efts] = bases/*.eft.json, [mains] = bases/*.basis.json,
    [children] = bases/child/*.basis.json, each in the order in which [glob] returns them.
    Simplified: every file can be opened and parsed. *)
Definition import_package (efts : list efile) (mains children : list bfile) : res world :=
  load_bases (mains ++ children) (load_efts efts winit).

(** ** Vocabulary of the theorems *)
Definition fname (f : bfile) : string * string := (f_eft f, f_basis f).
Definition named (f : bfile) (n : string * string) : bool := keqb (fname f) n.
(** [f] is [g] itself, or names [g] as its parent. *)
Definition belongs (g f : bfile) : bool :=
  keqb (fname f) (fname g) ||
  match f_parent f with Some p => keqb (f_eft f, p) (fname g) | None => false end.
(** The file that [f] inherits from is [g]: no parent and [g] = [f], or [g] is the named parent. *)
Definition base_of (f g : bfile) : Prop :=
  match f_parent f with None => g = f | Some p => fname g = (f_eft f, p) /\ f_parent g = None end.
(** The last file of the list to define sector [k]. *)
Fixpoint last_def (l : list bfile) (k : string) : option sector :=
  match l with
  | [] => None
  | f :: t => match last_def t k with Some v => Some v | None => dget (f_sectors f) k end
  end.
(** Files with different names, whose sector mappings have no key twice. *)
Definition distinct_names (fs : list bfile) : Prop := NoDup (map fname fs).
Definition plain_files (fs : list bfile) : Prop := Forall (fun f => wf (f_sectors f)) fs.
(** The layout of the bases directory: files in it have no parent; a file in child/ that has one
    names a file of the directory above. *)
Definition layout (mains children : list bfile) : Prop :=
  (forall f, In f mains -> f_parent f = None) /\
  (forall f p, In f children -> f_parent f = Some p -> exists g, In g mains /\ fname g = (f_eft f, p)).
(** No two children of one basis disagree on a sector. *)
Definition compatible (children : list bfile) : Prop :=
  forall f f' p k v v', In f children -> In f' children -> f_eft f = f_eft f' ->
    f_parent f = Some p -> f_parent f' = Some p ->
    dget (f_sectors f) k = Some v -> dget (f_sectors f') k = Some v' -> v = v'.
(** Two states of the package with the same EFTs, the same bases, and the same sectors in them up to order. *)
Definition same_library (w w' : world) : Prop :=
  (forall e, lookup_reg (w_efts w) e = lookup_reg (w_efts w') e) /\
  (forall e b, match basis_get w e b, basis_get w' e b with
               | Ok i, Ok j => exists S S', sectors_of w i = Some S /\ sectors_of w' j = Some S' /\
                                            Permutation S S' /\ forall k, dget S k = dget S' k
               | Err x, Err y => x = y
               | _, _ => False
               end).

(** ** Histories *)
Definition op_of (f : bfile) : wop := NewBasis (f_eft f) (f_basis f) (f_parent f) (f_sectors f).
Definition hist (efts : list efile) (fs : list bfile) : list wop :=
  map (fun f => NewEFT (fst f) (snd f)) efts ++ map op_of fs.
Lemma wrun_app h h' : wrun (h ++ h') = fold_left wstep h' (wrun h).
Proof. apply fold_left_app. Qed.
Lemma load_efts_run efts : load_efts efts winit = wrun (map (fun f => NewEFT (fst f) (snd f)) efts).
Proof.
  unfold load_efts, wrun. generalize winit. induction efts as [|f t IH]; intros w; simpl; auto.
Qed.
Lemma hist_snoc efts fs f : hist efts (fs ++ [f]) = hist efts fs ++ [op_of f].
Proof. unfold hist. rewrite map_app, app_assoc. reflexivity. Qed.
Lemma load_bases_app fs1 : forall fs2 w,
  load_bases (fs1 ++ fs2) w = let! w' := load_bases fs1 w in load_bases fs2 w'.
Proof.
  induction fs1 as [|f t IH]; intros fs2 w; simpl; auto.
  destruct (new_basis w (f_eft f) (f_basis f) (f_parent f) (f_sectors f)) as [[i|x] w']; auto.
Qed.
Lemma load_run efts fs w : load_bases fs (load_efts efts winit) = Ok w -> w = wrun (hist efts fs).
Proof.
  revert w. induction fs as [|f fs IH] using rev_ind; intros w.
  - simpl. unfold hist. simpl. rewrite app_nil_r, load_efts_run. congruence.
  - rewrite load_bases_app. destruct (load_bases fs (load_efts efts winit)) as [w1|x] eqn:E; [|discriminate].
    rewrite (IH w1 eq_refl) in *. cbn [bind load_bases]. rewrite hist_snoc, wrun_snoc. unfold op_of. cbn [wstep].
    destruct (new_basis (wrun (hist efts fs)) (f_eft f) (f_basis f) (f_parent f) (f_sectors f)) as [[i|x] w']; simpl; congruence.
Qed.

(** ** The abstract state after loading an ordered list of files *)
Definition ordered (fs : list bfile) : Prop :=
  forall pre f post p, fs = pre ++ f :: post -> f_parent f = Some p ->
    exists g, In g pre /\ fname g = (f_eft f, p) /\ f_parent g = None.
Lemma ordered_init fs f : ordered (fs ++ [f]) -> ordered fs.
Proof. intros O pre g post p -> P. apply (O pre g (post ++ [f]) p); auto. rewrite <- app_assoc. reflexivity. Qed.
Lemma layout_ordered mains children : layout mains children -> ordered (mains ++ children).
Proof.
  intros [M C] pre f post p E P.
  assert (In f mains -> False) as NM by (intros I; rewrite (M f I) in P; discriminate).
  assert (In f children) as IC.
  { assert (In f (mains ++ children)) as I by (rewrite E; apply in_or_app; simpl; auto).
    apply in_app_or in I. tauto. }
  destruct (C f p IC P) as (g & Ig & Eg). exists g. repeat split; auto.
  clear -E NM Ig. revert mains E NM Ig. induction pre as [|x pre IH]; intros mains E NM Ig.
  - destruct mains as [|m t]; [destruct Ig|]. simpl in E. injection E as -> _. exfalso. apply NM. left; auto.
  - destruct mains as [|m t]; [destruct Ig|]. simpl in E. injection E as -> E. destruct Ig as [->|Ig].
    + left; auto.
    + right. apply (IH t); auto. intros I. apply NM. right; auto.
Qed.

Record astate (fs : list bfile) (a : aworld) : Prop := {
  as_len : length (a_root a) = length fs;
  as_reg : forall n id, dget (reg_or_empty (a_bases a)) n = Some id <->
                        exists f, nth_error fs id = Some f /\ fname f = n;
  as_none : a_bases a = None <-> fs = [];
  as_root : forall id f, nth_error fs id = Some f ->
     match f_parent f with
     | None => nth_error (a_root a) id = Some (Some id)
     | Some p => exists r g, nth_error fs r = Some g /\ fname g = (f_eft f, p) /\ f_parent g = None /\
                             nth_error (a_root a) id = Some (Some r)
     end;
  as_log : forall r g, nth_error fs r = Some g -> f_parent g = None ->
     a_log a r = map f_sectors (filter (belongs g) fs);
  as_nolog : forall r, length fs <= r -> a_log a r = [] }.

Lemma nth_name_inj fs i j f g : distinct_names fs -> nth_error fs i = Some f -> nth_error fs j = Some g ->
  fname f = fname g -> i = j.
Proof.
  intros N Hi Hj E. unfold distinct_names in N. rewrite NoDup_nth_error in N. apply N.
  - rewrite map_length. apply nth_error_Some. congruence.
  - rewrite !nth_error_map, Hi, Hj. simpl. congruence.
Qed.
Lemma distinct_init fs f : distinct_names (fs ++ [f]) -> distinct_names fs /\ ~ In (fname f) (map fname fs).
Proof.
  unfold distinct_names. rewrite map_app. simpl. intros N. apply NoDup_remove in N. rewrite app_nil_r in N. exact N.
Qed.
Lemma lookup_dget {B} (r : option (dict (string * string) B)) n v :
  dget (reg_or_empty r) n = Some v -> lookup_reg r n = Ok v.
Proof. destruct r as [d|]; simpl; [unfold dlookup; intros ->; auto|discriminate]. Qed.

Lemma astate_step fs f a : distinct_names (fs ++ [f]) -> ordered (fs ++ [f]) -> astate fs a ->
  astate (fs ++ [f]) (astep a (op_of f)) /\
  (forall p, f_parent f = Some p -> exists r, parent_root a (f_eft f) (f_basis f) p = Some r).
Proof.
  intros N O A. destruct (distinct_init fs f N) as [N0 NI]. destruct A as [L R NN RT LG NL].
  assert (forall g, In g fs -> fname g <> fname f) as Fresh.
  { intros g I E. apply NI. rewrite <- E. apply in_map. exact I. }
  assert (forall i g, nth_error (fs ++ [f]) i = Some g -> i < length fs /\ nth_error fs i = Some g \/ i = length fs /\ g = f) as Split.
  { intros i g. rewrite nth_snoc. destruct (Nat.eqb i (length fs)) eqn:E.
    - apply Nat.eqb_eq in E. intros [= ->]. auto.
    - intros H. left. split; auto. apply nth_error_Some. congruence. }
  assert (forall i g, nth_error fs i = Some g -> i < length fs) as Small by (intros i g H; apply nth_error_Some; congruence).
  (* the registry does not depend on the parent *)
  assert (forall rt lg, let a' := AWorld (Some (dset (reg_or_empty (a_bases a)) (f_eft f, f_basis f) (length (a_root a)))) rt lg in
            (forall n id, dget (reg_or_empty (a_bases a')) n = Some id <->
                          exists g, nth_error (fs ++ [f]) id = Some g /\ fname g = n) /\
            (a_bases a' = None <-> fs ++ [f] = [])) as Reg.
  { intros rt lg a'. simpl. split.
    - intros n id. rewrite dget_dset. destruct (keqb (f_eft f, f_basis f) n) eqn:E.
      + apply keqb_eq in E. subst n. split.
        * intros [= <-]. exists f. rewrite nth_snoc, L, Nat.eqb_refl. auto.
        * intros (g & H & Eg). apply Split in H. destruct H as [[_ H]|[-> ->]]; [|rewrite L; auto].
          exfalso. apply nth_error_In in H. apply (Fresh g H). exact Eg.
      + apply keqb_neq in E. rewrite R. split.
        * intros (g & H & Eg). exists g. rewrite nth_snoc.
          destruct (Nat.eqb id (length fs)) eqn:Ei; auto. apply Nat.eqb_eq in Ei. apply Small in H. lia.
        * intros (g & H & Eg). apply Split in H. destruct H as [[_ H]|[-> ->]]; eauto. exfalso. apply E. exact Eg.
    - split; [discriminate|]. intros H. apply (f_equal (@length _)) in H. rewrite app_length in H. simpl in H. lia. }
  unfold op_of. cbn [astep]. destruct (f_parent f) as [p|] eqn:P.
  - destruct (O fs f [] p eq_refl P) as (g0 & I0 & E0 & P0).
    destruct (In_nth_error _ _ I0) as [r0 H0].
    assert (p <> f_basis f) as NP.
    { intros ->. apply (Fresh g0 I0). exact E0. }
    assert (parent_root a (f_eft f) (f_basis f) p = Some r0) as PR.
    { unfold parent_root. rewrite (proj2 (keqb_neq _ _ _) NP).
      assert (dget (reg_or_empty (a_bases a)) (f_eft f, p) = Some r0) as D by (apply R; eauto).
      rewrite (lookup_dget _ _ _ D). pose proof (RT r0 g0 H0) as Q. rewrite P0 in Q. rewrite Q. reflexivity. }
    rewrite anew_child, PR. split; [|intros p' [= <-]; eauto].
    destruct (Reg (a_root a ++ [Some r0]) (log_add (a_log a) r0 (f_sectors f))) as [Rg Rn].
    constructor; auto.
    + cbn [a_root]. rewrite !app_length. simpl. lia.
    + intros id g H. cbn [a_root]. apply Split in H. destruct H as [[Hl H]|[-> ->]].
      * pose proof (RT id g H) as Q. rewrite nth_new by (rewrite L; auto). destruct (f_parent g) as [q|]; auto.
        destruct Q as (r & g' & H' & Q). exists r, g'. split; auto. rewrite nth_new by (eapply Small; eauto). exact H'.
      * rewrite P. exists r0, g0. repeat split; auto.
        -- rewrite nth_new by (eapply Small; eauto). exact H0.
        -- rewrite nth_snoc, L, Nat.eqb_refl. reflexivity.
    + intros r g H G. cbn [a_log]. unfold log_add. rewrite filter_app, map_app. apply Split in H. destruct H as [[Hl H]|[-> ->]]; [|congruence].
      cbn [filter]. unfold belongs at 2. rewrite P.
      assert (keqb (fname f) (fname g) = false) as ->.
      { apply keqb_neq. intros E. apply (Fresh g (nth_error_In _ _ H)). auto. }
      cbn [orb]. destruct (keqb (f_eft f, p) (fname g)) eqn:E.
      * apply keqb_eq in E. assert (r0 = r) as -> by (eapply nth_name_inj; eauto; congruence).
        rewrite Nat.eqb_refl, (LG r g H G). reflexivity.
      * apply keqb_neq in E. destruct (Nat.eqb r0 r) eqn:Er.
        -- apply Nat.eqb_eq in Er. subst r. exfalso. apply E. rewrite <- E0. congruence.
        -- simpl. rewrite app_nil_r. apply LG; auto.
    + intros r Hl. cbn [a_log]. unfold log_add. rewrite app_length in Hl. simpl in Hl.
      destruct (Nat.eqb r0 r) eqn:Er; [|apply NL; lia]. apply Nat.eqb_eq in Er. apply Small in H0. lia.
  - cbn [anew]. split; [|discriminate].
    destruct (Reg (a_root a ++ [Some (length (a_root a))]) (log_add (a_log a) (length (a_root a)) (f_sectors f))) as [Rg Rn].
    constructor; auto.
    + cbn [a_root]. rewrite !app_length. simpl. lia.
    + intros id g H. cbn [a_root]. apply Split in H. destruct H as [[Hl H]|[-> ->]].
      * pose proof (RT id g H) as Q. rewrite nth_new by (rewrite L; auto). destruct (f_parent g) as [q|]; auto.
        destruct Q as (r & g' & H' & Q). exists r, g'. split; auto. rewrite nth_new by (eapply Small; eauto). exact H'.
      * rewrite P, nth_snoc, L, Nat.eqb_refl. reflexivity.
    + intros r g H G. cbn [a_log]. unfold log_add. rewrite L, filter_app, map_app. apply Split in H. destruct H as [[Hl H]|[-> ->]].
      * assert (Nat.eqb (length fs) r = false) as -> by (apply Nat.eqb_neq; lia).
        cbn [filter]. unfold belongs at 2. rewrite P, orb_false_r.
        assert (keqb (fname f) (fname g) = false) as ->.
        { apply keqb_neq. intros E. apply (Fresh g (nth_error_In _ _ H)). auto. }
        simpl. rewrite app_nil_r. apply LG; auto.
      * rewrite Nat.eqb_refl, (NL (length fs)) by lia. cbn [filter]. unfold belongs at 2. rewrite keqb_refl. cbn [orb map app].
        assert (filter (belongs f) fs = []) as ->; [|reflexivity].
        assert (forall l, incl l fs -> filter (belongs f) l = []) as K; [|apply K; intros x I; auto].
        { induction l as [|x l IH]; intros I; auto. cbn [filter].
          assert (belongs f x = false) as ->; [|apply IH; intros y J; apply I; right; auto].
          assert (In x fs) as Ix by (apply I; left; auto).
          unfold belongs. rewrite (proj2 (keqb_neq _ _ _) (Fresh x Ix)). simpl.
          destruct (f_parent x) as [q|] eqn:Q; auto. apply keqb_neq. intros E.
          destruct (in_split _ _ Ix) as (pre & post & S).
          destruct (O pre x (post ++ [f]) q) as (g & Ig & Eg & _); auto.
          { rewrite S, <- app_assoc. reflexivity. }
          apply (Fresh g); [rewrite S; apply in_or_app; auto|]. congruence. }
    + intros r Hl. cbn [a_log]. unfold log_add. rewrite app_length in Hl. simpl in Hl. rewrite L.
      assert (Nat.eqb (length fs) r = false) as -> by (apply Nat.eqb_neq; lia). apply NL; lia.
Qed.

Lemma arun_efts efts : arun (map (fun f : efile => NewEFT (fst f) (snd f)) efts) = ainit.
Proof. unfold arun. induction efts as [|f t IH]; simpl; auto. Qed.
Lemma astate_nil efts : astate [] (arun (hist efts [])).
Proof.
  unfold hist. simpl. rewrite app_nil_r, arun_efts. constructor; simpl; auto.
  - intros n id. split; [discriminate|]. intros (f & H & _). destruct id; discriminate.
  - tauto.
  - intros [|id] f H; discriminate.
Qed.
Lemma load_ok efts fs : distinct_names fs -> ordered fs ->
  load_bases fs (load_efts efts winit) = Ok (wrun (hist efts fs)) /\ astate fs (arun (hist efts fs)).
Proof.
  induction fs as [|f fs IH] using rev_ind; intros N O.
  - split; [|apply astate_nil]. simpl. unfold hist. simpl. rewrite app_nil_r, load_efts_run. reflexivity.
  - destruct (distinct_init fs f N) as [N0 _]. destruct (IH N0 (ordered_init _ _ O)) as [E A].
    destruct (astate_step fs f _ N O A) as [A' PR]. rewrite hist_snoc, arun_snoc. split; auto.
    rewrite load_bases_app, E. cbn [bind load_bases]. rewrite wrun_snoc. unfold op_of. cbn [wstep].
    destruct (ainv_run (hist efts fs)) as [rf V].
    pose proof (new_basis_spec _ _ _ (f_eft f) (f_basis f) (f_parent f) (f_sectors f) V) as G.
    destruct (new_basis (wrun (hist efts fs)) (f_eft f) (f_basis f) (f_parent f) (f_sectors f)) as [r w']. destruct G as [_ ->].
    destruct (f_parent f) as [p|]; auto. destruct (PR p eq_refl) as [r0 ->]. reflexivity.
Qed.

(** ** Sector lookups *)
Lemma dget_merge_log l : forall k, Forall (fun f => wf (f_sectors f)) l -> dget (merge_log (map f_sectors l)) k = last_def l k.
Proof.
  intros k. destruct l as [|x t]; [reflexivity|]. intros W. inversion W as [|? ? Wx Wt]; subst. cbn [map merge_log].
  clear W. revert Wt. induction t as [|y t IH] using rev_ind; intros Wt.
  - simpl. reflexivity.
  - rewrite map_app. cbn [map]. rewrite fold_left_app. cbn [fold_left]. apply Forall_app in Wt. destruct Wt as [Wt Wy]. inversion Wy; subst.
    rewrite dget_dupdate, dget_last_wf by auto.
    assert (forall l, last_def (l ++ [y]) k = match dget (f_sectors y) k with Some v => Some v | None => last_def l k end) as Sn.
    { clear. induction l as [|z l IH]; simpl; [destruct (dget (f_sectors y) k); reflexivity|]. rewrite IH.
      destruct (dget (f_sectors y) k); auto. }
    change (x :: t ++ [y]) with ((x :: t) ++ [y]). rewrite Sn. destruct (dget (f_sectors y) k); [reflexivity|exact (IH Wt)].
Qed.
Lemma plain_filter fs p : plain_files fs -> Forall (fun f => wf (f_sectors f)) (filter p fs).
Proof. unfold plain_files. rewrite !Forall_forall. intros W x I. apply filter_In in I. apply W. tauto. Qed.

(** What is registered, and the sectors of every basis. *)
Lemma loaded efts fs f g : distinct_names fs -> ordered fs -> plain_files fs -> In f fs -> In g fs -> base_of f g ->
  exists id S, basis_get (wrun (hist efts fs)) (f_eft f) (f_basis f) = Ok id /\
    sectors_of (wrun (hist efts fs)) id = Some S /\ wf S /\ forall k, dget S k = last_def (filter (belongs g) fs) k.
Proof.
  intros N O W If Ig B. destruct (load_ok efts fs N O) as [_ A].
  destruct (refinement (hist efts fs) 0) as (_ & Rg & _).
  destruct (In_nth_error _ _ If) as [id Hid]. destruct (In_nth_error _ _ Ig) as [r Hr].
  exists id, (merge_log (map f_sectors (filter (belongs g) fs))). split; [|split; [|split]].
  - unfold basis_get. rewrite Rg. apply lookup_dget. apply (as_reg _ _ A). eauto.
  - destruct (refinement (hist efts fs) id) as (-> & _ & _). unfold base_of in B.
    pose proof (as_root _ _ A id f Hid) as Q. destruct (f_parent f) as [p|] eqn:P.
    + destruct B as [Eg Pg]. destruct Q as (r' & g' & Hr' & Eg' & Pg' & Q).
      assert (r' = r) as -> by (eapply nth_name_inj; eauto; congruence).
      rewrite Q, (as_log _ _ A r g Hr Pg). reflexivity.
    + subst g. rewrite Q. rewrite (as_log _ _ A id f Hid P). reflexivity.
  - assert (Forall (fun f => wf (f_sectors f)) (filter (belongs g) fs)) as Wl by (apply plain_filter; auto).
    destruct (filter (belongs g) fs) as [|x t]; [apply NoDup_nil|]. cbn [map merge_log]. inversion Wl; subst.
    clear -H1. revert H1. generalize (f_sectors x). induction t as [|y t IH]; intros s Ws; simpl; auto.
    apply IH. apply wf_dupdate. exact Ws.
  - intros k. apply dget_merge_log. apply plain_filter. exact W.
Qed.
Lemma not_loaded efts fs e b : distinct_names fs -> ordered fs -> (forall f, In f fs -> fname f <> (e, b)) ->
  basis_get (wrun (hist efts fs)) e b = Err (match fs with [] => AttributeError | _ => KeyError end).
Proof.
  intros N O Z. destruct (load_ok efts fs N O) as [_ A].
  destruct (refinement (hist efts fs) 0) as (_ & Rg & _). unfold basis_get. rewrite Rg.
  assert (dget (reg_or_empty (a_bases (arun (hist efts fs)))) (e, b) = None) as D.
  { destruct (dget (reg_or_empty (a_bases (arun (hist efts fs)))) (e, b)) as [id|] eqn:D; auto.
    apply (as_reg _ _ A) in D. destruct D as (f & H & E). apply nth_error_In in H. exfalso. apply (Z f H E). }
  pose proof (as_none _ _ A) as NN. destruct (a_bases (arun (hist efts fs))) as [d|].
  - simpl in *. unfold dlookup. rewrite D. destruct fs; auto. destruct NN as [_ NN]. discriminate (NN eq_refl).
  - rewrite (proj1 NN eq_refl). reflexivity.
Qed.

(** EFTs. *)
Lemma efts_run efts fs : w_efts (wrun (hist efts fs)) = w_efts (load_efts efts winit).
Proof.
  rewrite load_efts_run. unfold hist. rewrite wrun_app. generalize (wrun (map (fun f : string * list string => NewEFT (fst f) (snd f)) efts)) as w0.
  induction fs as [|f fs IH]; intros w; simpl; auto. rewrite IH. unfold new_basis.
  destruct (f_parent f) as [p|]; auto. destruct (bind _ _); auto.
Qed.
Lemma efts_lookup efts : forall w e, NoDup (map fst efts) ->
  dget (reg_or_empty (w_efts (load_efts efts w))) e =
  match dget efts e with Some s => Some s | None => dget (reg_or_empty (w_efts w)) e end.
Proof.
  induction efts as [|[e' s'] t IH]; intros w e N; auto. simpl in N. inversion N as [|? ? Ni N']; subst.
  unfold load_efts in *. cbn [fold_left]. rewrite IH by auto. cbn [dget]. unfold new_eft at 1. cbn [w_efts reg_or_empty fst snd].
  rewrite dget_dset. destruct (keqb e e') eqn:E.
  - apply keqb_eq in E. subst e'. rewrite keqb_refl. destruct (dget t e) as [v|] eqn:D; auto.
    apply dget_Some_key in D. tauto.
  - assert (keqb e' e = false) as -> by (apply keqb_neq; apply keqb_neq in E; auto). reflexivity.
Qed.
Lemma efts_none efts : w_efts (load_efts efts winit) = None <-> efts = [].
Proof.
  split; [|intros ->; reflexivity]. destruct efts as [|f t] using rev_ind; auto. unfold load_efts.
  rewrite fold_left_app. discriminate.
Qed.
Lemma efts_perm efts efts' e : NoDup (map fst efts) -> Permutation efts efts' ->
  lookup_reg (w_efts (load_efts efts winit)) e = lookup_reg (w_efts (load_efts efts' winit)) e.
Proof.
  intros N P. assert (NoDup (map fst efts')) as N' by (eapply Permutation_NoDup; [apply Permutation_map; eauto|auto]).
  pose proof (efts_lookup efts winit e N) as L. pose proof (efts_lookup efts' winit e N') as L'.
  assert (dget efts e = dget efts' e) as D.
  { destruct (dget efts e) as [v|] eqn:D.
    - symmetry. apply In_dget; auto. eapply Permutation_in; eauto. apply dget_In; auto.
    - symmetry. apply dget_None. apply dget_None in D. intros I. apply D. unfold dkeys in *.
      eapply Permutation_in; [apply Permutation_map, Permutation_sym; eauto|auto]. }
  rewrite D in L. rewrite <- L' in L. clear L' D.
  pose proof (efts_none efts) as Z. pose proof (efts_none efts') as Z'.
  destruct (w_efts (load_efts efts winit)) as [d|], (w_efts (load_efts efts' winit)) as [d'|]; simpl in *; auto.
  - unfold dlookup. rewrite L. reflexivity.
  - rewrite (proj1 Z' eq_refl) in P. apply Permutation_sym, Permutation_nil in P. apply Z in P. discriminate.
  - rewrite (proj1 Z eq_refl) in P. apply Permutation_nil in P. apply Z' in P. discriminate.
Qed.

(** ** Order of loading *)
Lemma last_def_In l k v : last_def l k = Some v -> exists f, In f l /\ dget (f_sectors f) k = Some v.
Proof.
  induction l as [|x t IH]; simpl; [discriminate|]. destruct (last_def t k) as [u|].
  - intros E. destruct (IH E) as (f & I & D). eauto.
  - eauto.
Qed.
Lemma last_def_None l k : last_def l k = None <-> forall f, In f l -> dget (f_sectors f) k = None.
Proof.
  induction l as [|x t IH]; simpl; [split; [intros _ f []|auto]|]. destruct (last_def t k) as [u|] eqn:E.
  - split; [discriminate|]. intros H. destruct (last_def_In _ _ _ E) as (f & I & D).
    rewrite (H f (or_intror I)) in D. discriminate.
  - split.
    + intros D f [->|I]; auto. apply IH; auto.
    + auto.
Qed.
Lemma last_def_app l1 l2 k : last_def (l1 ++ l2) k = match last_def l2 k with Some v => Some v | None => last_def l1 k end.
Proof.
  induction l1 as [|x t IH]; simpl; [destruct (last_def l2 k); auto|]. rewrite IH. destruct (last_def l2 k); auto.
Qed.
Lemma last_def_perm l l' k : Permutation l l' ->
  (forall f f' v v', In f l -> In f' l -> dget (f_sectors f) k = Some v -> dget (f_sectors f') k = Some v' -> v = v') ->
  last_def l k = last_def l' k.
Proof.
  intros P C. destruct (last_def l k) as [v|] eqn:E; destruct (last_def l' k) as [v'|] eqn:E'; auto.
  - apply last_def_In in E, E'. destruct E as (f & I & D), E' as (f' & I' & D'). f_equal.
    apply (C f f' v v'); auto. eapply Permutation_in; [apply Permutation_sym; eauto|auto].
  - apply last_def_In in E. destruct E as (f & I & D). rewrite last_def_None in E'.
    rewrite E' in D; [discriminate|]. eapply Permutation_in; eauto.
  - apply last_def_In in E'. destruct E' as (f & I & D). rewrite last_def_None in E.
    rewrite E in D; [discriminate|]. eapply Permutation_in; [apply Permutation_sym; eauto|auto].
Qed.
Lemma Permutation_filter' A (p : A -> bool) l l' : Permutation l l' -> Permutation (filter p l) (filter p l').
Proof.
  induction 1; simpl; auto.
  - destruct (p x); auto.
  - destruct (p x), (p y); auto. apply perm_swap.
  - eapply perm_trans; eauto.
Qed.
Lemma NoDup_front A (l l' : list A) : NoDup (l ++ l') -> NoDup l.
Proof.
  induction l as [|x t IH]; intros N; [apply NoDup_nil|]. simpl in N. inversion N as [|? ? Ni N']; subst.
  constructor; [intros I; apply Ni; apply in_or_app; auto|auto].
Qed.
(** Among the files without parent, only [g] itself belongs to [g]. *)
Lemma family_mains mains children g : distinct_names (mains ++ children) -> (forall f, In f mains -> f_parent f = None) ->
  In g mains -> filter (belongs g) mains = [g].
Proof.
  intros N M I. unfold distinct_names in N. rewrite map_app in N. apply NoDup_front in N.
  revert M I. induction mains as [|x t IH]; intros M I; [destruct I|]. simpl in N. inversion N as [|? ? Ni N']; subst.
  cbn [filter]. destruct I as [->|I].
  - unfold belongs at 1. rewrite keqb_refl. cbn [orb]. f_equal.
    assert (forall l, incl l t -> filter (belongs g) l = []) as K; [|apply K; intros y J; auto].
    induction l as [|y l IHl]; intros J; auto. cbn [filter].
    assert (belongs g y = false) as ->; [|apply IHl; intros z Z; apply J; right; auto].
    assert (In y t) as Iy by (apply J; left; auto). unfold belongs. rewrite (M y) by (right; auto). rewrite orb_false_r.
    apply keqb_neq. intros E. apply Ni. rewrite <- E. apply in_map. exact Iy.
  - assert (belongs g x = false) as ->.
    { unfold belongs. rewrite (M x) by (left; auto). rewrite orb_false_r. apply keqb_neq. intros E.
      apply Ni. rewrite E. apply in_map. exact I. }
    apply IH; auto. intros f J. apply M. right; auto.
Qed.
Lemma belongs_child mains children g f : distinct_names (mains ++ children) -> In g mains -> In f children -> belongs g f = true ->
  f_eft f = f_eft g /\ f_parent f = Some (f_basis g).
Proof.
  intros N Ig If. unfold belongs. destruct (keqb (fname f) (fname g)) eqn:E.
  - apply keqb_eq in E. exfalso. unfold distinct_names in N. rewrite map_app in N.
    apply in_split in Ig. destruct Ig as (a & b & ->). rewrite map_app in N. simpl in N. rewrite <- app_assoc in N. simpl in N.
    apply NoDup_remove_2 in N. apply N. apply in_or_app. right. apply in_or_app. right. rewrite <- E. apply in_map. exact If.
  - simpl. destruct (f_parent f) as [p|]; [|discriminate]. intros Q. apply keqb_eq in Q. unfold fname in Q. injection Q as -> ->. auto.
Qed.
(** A parentless file of child/ has no family: nothing may name it as its parent. *)
Lemma family_single mains children g : distinct_names (mains ++ children) -> layout mains children ->
  In g children -> f_parent g = None -> filter (belongs g) (mains ++ children) = [g].
Proof.
  intros N [M C] I P.
  assert (forall f, In f (mains ++ children) -> belongs g f = true -> fname f = fname g) as K.
  { intros f If. unfold belongs. destruct (keqb (fname f) (fname g)) eqn:E; [apply keqb_eq in E; auto|]. simpl.
    destruct (f_parent f) as [p|] eqn:Q; [|discriminate]. intros E'. apply keqb_eq in E'. exfalso.
    apply in_app_or in If. destruct If as [If|If]; [rewrite (M f If) in Q; discriminate|].
    destruct (C f p If Q) as (g' & Ig' & Eg'). unfold distinct_names in N. rewrite map_app in N.
    apply in_split in Ig'. destruct Ig' as (a & b & ->). rewrite map_app in N. simpl in N. rewrite <- app_assoc in N. simpl in N.
    apply NoDup_remove_2 in N. apply N. apply in_or_app. right. apply in_or_app. right. rewrite Eg', E'. apply in_map. exact I. }
  assert (In g (mains ++ children)) as Ig by (apply in_or_app; auto).
  revert N Ig K. generalize (mains ++ children). clear -P. intros l. induction l as [|x t IH]; intros N Ig K; [destruct Ig|].
  unfold distinct_names in N. simpl in N. inversion N as [|? ? Ni N']; subst. cbn [filter]. destruct Ig as [->|Ig].
  - unfold belongs at 1. rewrite keqb_refl. cbn [orb]. f_equal.
    assert (forall l, incl l t -> filter (belongs g) l = []) as Z; [|apply Z; intros y J; auto].
    induction l as [|y l IHl]; intros J; auto. cbn [filter].
    destruct (belongs g y) eqn:B; [|apply IHl; intros z Z; apply J; right; auto].
    exfalso. apply Ni. rewrite <- (K y); auto; [apply in_map|right]; apply J; left; auto.
  - destruct (belongs g x) eqn:B.
    + exfalso. apply Ni. rewrite (K x); auto; [apply in_map; auto|left; auto].
    + apply IH; auto. intros f If. apply K. right; auto.
Qed.

Lemma permuted_layout mains children mains' children' : layout mains children ->
  Permutation mains mains' -> Permutation children children' -> layout mains' children'.
Proof.
  intros [M C] PM PC. split.
  - intros f I. apply M. eapply Permutation_in; [apply Permutation_sym; eauto|auto].
  - intros f p I P. destruct (C f p) as (g & Ig & E); auto.
    + eapply Permutation_in; [apply Permutation_sym; eauto|auto].
    + exists g. split; auto. eapply Permutation_in; eauto.
Qed.
Lemma permuted_names fs fs' : distinct_names fs -> Permutation fs fs' -> distinct_names fs'.
Proof. intros N P. eapply Permutation_NoDup; [apply Permutation_map; eauto|auto]. Qed.
Lemma permuted_plain fs fs' : plain_files fs -> Permutation fs fs' -> plain_files fs'.
Proof. unfold plain_files. rewrite !Forall_forall. intros W P x I. apply W. eapply Permutation_in; [apply Permutation_sym; eauto|auto]. Qed.

Lemma find_base mains children f : layout mains children -> In f (mains ++ children) ->
  exists g, In g (mains ++ children) /\ base_of f g /\ f_parent g = None /\
            (In g mains \/ g = f /\ In g children).
Proof.
  intros [M C] I. unfold base_of. destruct (f_parent f) as [p|] eqn:P.
  - apply in_app_or in I. destruct I as [I|I]; [rewrite (M f I) in P; discriminate|].
    destruct (C f p I P) as (g & Ig & E). exists g. repeat split; auto. apply in_or_app; auto.
  - exists f. repeat split; auto. apply in_app_or in I. tauto.
Qed.

(** The package state after a successful import. *)
Lemma import_ok efts mains children : distinct_names (mains ++ children) -> layout mains children ->
  import_package efts mains children = Ok (wrun (hist efts (mains ++ children))).
Proof. intros N L. apply load_ok; auto. apply layout_ordered. exact L. Qed.

Lemma same_lookups (S S' : sectors) : wf S -> wf S' -> (forall k, dget S k = dget S' k) -> Permutation S S'.
Proof.
  intros W W' D. apply NoDup_Permutation.
  - eapply NoDup_map_inv; exact W.
  - eapply NoDup_map_inv; exact W'.
  - intros [k v]. rewrite <- !dget_iff by auto. rewrite D. tauto.
Qed.
Lemma library_order_free efts mains children efts' mains' children' :
  NoDup (map fst efts) -> distinct_names (mains ++ children) -> layout mains children ->
  plain_files (mains ++ children) -> compatible children ->
  Permutation efts efts' -> Permutation mains mains' -> Permutation children children' ->
  exists w w', import_package efts mains children = Ok w /\ import_package efts' mains' children' = Ok w' /\ same_library w w'.
Proof.
  intros NE N L W C PE PM PC.
  assert (Permutation (mains ++ children) (mains' ++ children')) as PP by (apply Permutation_app; auto).
  pose proof (permuted_names _ _ N PP) as N'. pose proof (permuted_layout _ _ _ _ L PM PC) as L'.
  pose proof (permuted_plain _ _ W PP) as W'.
  exists (wrun (hist efts (mains ++ children))), (wrun (hist efts' (mains' ++ children'))).
  split; [apply import_ok; auto|]. split; [apply import_ok; auto|]. split.
  - intros e. rewrite !efts_run. apply efts_perm; auto.
  - intros e b.
    destruct (in_dec (fun x y : string * string => match bool_dec (keqb x y) true with left E => left (proj1 (keqb_eq x y) E) | right E => right (fun Q => E (proj2 (keqb_eq x y) Q)) end) (e, b) (map fname (mains ++ children))) as [I|I].
    + apply in_map_iff in I. destruct I as (f & E & I). unfold fname in E. injection E as <- <-.
      destruct (find_base _ _ f L I) as (g & Ig & B & Pg & Cg).
      destruct (loaded efts _ f g N (layout_ordered _ _ L) W I Ig B) as (id & S & -> & ES & WS & DS).
      destruct (loaded efts' (mains' ++ children') f g N' (layout_ordered _ _ L') W') as (id' & S' & -> & ES' & WS' & DS');
        [eapply Permutation_in; eauto|eapply Permutation_in; eauto|exact B|].
      exists S, S'. split; auto. split; auto.
      assert (forall k, dget S k = dget S' k) as DD; [|split; [apply same_lookups; auto|auto]].
      intros k. rewrite DS, DS'. destruct Cg as [Im|[-> Ic]].
      * rewrite !filter_app, !last_def_app.
        rewrite (family_mains mains children g) by (try apply L; auto).
        rewrite (family_mains mains' children' g) by (try apply L'; auto; eapply Permutation_in; eauto).
        assert (last_def (filter (belongs g) children) k = last_def (filter (belongs g) children') k) as ->; [|reflexivity].
        apply last_def_perm; [apply Permutation_filter'; auto|].
        intros x y v v' Ix Iy. apply filter_In in Ix, Iy. destruct Ix as [Ix Bx], Iy as [Iy By].
        destruct (belongs_child _ _ g x N Im Ix Bx) as [Ex Px]. destruct (belongs_child _ _ g y N Im Iy By) as [Ey Py].
        apply (C x y (f_basis g) k v v'); auto. congruence.
      * rewrite (family_single mains children f) by auto.
        rewrite (family_single mains' children' f); auto. eapply Permutation_in; eauto.
    + assert (forall fs, Permutation (mains ++ children) fs -> forall f, In f fs -> fname f <> (e, b)) as Z.
      { intros fs P f If E. apply I. rewrite <- E. apply in_map. eapply Permutation_in; [apply Permutation_sym; eauto|auto]. }
      rewrite (not_loaded efts _ e b N (layout_ordered _ _ L)) by (apply Z; auto).
      rewrite (not_loaded efts' _ e b N' (layout_ordered _ _ L')) by (apply Z; auto).
      destruct (mains ++ children) as [|x t], (mains' ++ children') as [|x' t']; auto.
      * apply Permutation_nil in PP. discriminate.
      * apply Permutation_sym, Permutation_nil in PP. discriminate.
Qed.

(** ** Names, validation *)
Lemma names_perm (S S' : sectors) : Permutation S S' ->
  match names_of S, names_of S' with
  | Ok l, Ok l' => Permutation l l'
  | Err x, Err y => x = y
  | _, _ => False
  end.
Proof.
  induction 1 as [|[k [d|]] l l' P IH|[k [d|]] [k' [d'|]] l|l l' l'' P1 IH1 P2 IH2]; simpl; auto.
  - destruct (names_of l) as [r|x], (names_of l') as [r'|y]; simpl; auto. apply Permutation_app_head. exact IH.
  - destruct (names_of l) as [r|x]; simpl; auto. rewrite !app_assoc. apply Permutation_app_tail, Permutation_app_comm.
  - destruct (names_of l) as [r|x], (names_of l') as [r'|x'], (names_of l'') as [r''|x'']; try tauto.
    + eapply perm_trans; eauto.
    + congruence.
Qed.
Lemma no_read_hist efts fs id : Forall (no_read id) (hist efts fs).
Proof.
  apply Forall_app. split; apply Forall_forall; intros o I; apply in_map_iff in I; destruct I as (f & <- & _); exact Logic.I.
Qed.
Lemma hist_names efts fs id S : sectors_of (wrun (hist efts fs)) id = Some S ->
  fst (all_wcs (wrun (hist efts fs)) id) = names_of S.
Proof. intros E. rewrite first_read by apply no_read_hist. unfold current_names. rewrite E. reflexivity. Qed.
Lemma mem_perm (l l' : list string) k : Permutation l l' -> mem k l = mem k l'.
Proof.
  intros P. destruct (mem k l) eqn:E; symmetry.
  - apply mem_In. apply mem_In in E. eapply Permutation_in; eauto.
  - apply mem_notIn. apply mem_notIn in E. intros I. apply E. eapply Permutation_in; [apply Permutation_sym; eauto|auto].
Qed.
Lemma forallb_ext' A (p q : A -> bool) l : (forall x, p x = q x) -> forallb p l = forallb q l.
Proof. intros E. induction l as [|x t IH]; simpl; auto. rewrite E, IH. reflexivity. Qed.
(** The outcome of WC.validate only depends on the library. *)
Lemma validate_library efts fs efts' fs' e b keys :
  same_library (wrun (hist efts fs)) (wrun (hist efts' fs')) ->
  fst (wc_validate (wrun (hist efts fs)) e b keys) = fst (wc_validate (wrun (hist efts' fs')) e b keys).
Proof.
  intros [E B]. unfold wc_validate. rewrite (E e). destruct (lookup_reg (w_efts (wrun (hist efts' fs'))) e); auto.
  specialize (B e b). unfold basis_get in B.
  destruct (lookup_reg (w_bases (wrun (hist efts fs))) (e, b)) as [i|x], (lookup_reg (w_bases (wrun (hist efts' fs'))) (e, b)) as [j|y]; try tauto.
  - destruct B as (S & S' & ES & ES' & P & _). pose proof (hist_names _ _ _ _ ES) as H. pose proof (hist_names _ _ _ _ ES') as H'.
    destruct (all_wcs (wrun (hist efts fs)) i) as [r w1], (all_wcs (wrun (hist efts' fs')) j) as [r' w1']. simpl in H, H'. subst r r'.
    pose proof (names_perm _ _ P) as Q. simpl. destruct (names_of S) as [l|x], (names_of S') as [l'|y]; simpl; try tauto; [|congruence].
    rewrite (forallb_ext' _ (fun k => mem k l) (fun k => mem k l')); auto. intros k. apply mem_perm. exact Q.
Qed.
Lemma validation_order_free efts mains children efts' mains' children' w w' e b keys :
  NoDup (map fst efts) -> distinct_names (mains ++ children) -> layout mains children ->
  plain_files (mains ++ children) -> compatible children ->
  Permutation efts efts' -> Permutation mains mains' -> Permutation children children' ->
  import_package efts mains children = Ok w -> import_package efts' mains' children' = Ok w' ->
  fst (wc_validate w e b keys) = fst (wc_validate w' e b keys).
Proof.
  intros NE N L W C PE PM PC E E'.
  destruct (library_order_free _ _ _ _ _ _ NE N L W C PE PM PC) as (v & v' & F & F' & SL).
  rewrite F in E. injection E as <-. rewrite F' in E'. injection E' as <-.
  apply load_run in F, F'. subst v v'. apply validate_library. exact SL.
Qed.

(** ** What an import contains *)
Lemma import_sectors efts mains children w f g : distinct_names (mains ++ children) -> layout mains children ->
  plain_files (mains ++ children) -> import_package efts mains children = Ok w ->
  In f (mains ++ children) -> In g (mains ++ children) -> base_of f g ->
  exists id S, basis_get w (f_eft f) (f_basis f) = Ok id /\ sectors_of w id = Some S /\
    forall k, dget S k = last_def (filter (belongs g) (mains ++ children)) k.
Proof.
  intros N L W E If Ig B. rewrite import_ok in E by auto. injection E as <-.
  destruct (loaded efts _ f g N (layout_ordered _ _ L) W If Ig B) as (id & S & A1 & A2 & _ & A3). eauto.
Qed.

(** ** The conditions are needed *)
Lemma conflict efts mains children f f' p k v v' :
  distinct_names (mains ++ children) -> layout mains children -> plain_files (mains ++ children) ->
  In f children -> In f' children -> f_eft f = f_eft f' -> f_parent f = Some p -> f_parent f' = Some p ->
  dget (f_sectors f) k = Some v -> dget (f_sectors f') k = Some v' -> v <> v' ->
  exists c1 c2 w1 w2 i1 i2 S1 S2, Permutation children c1 /\ Permutation children c2 /\
    import_package efts mains c1 = Ok w1 /\ import_package efts mains c2 = Ok w2 /\
    basis_get w1 (f_eft f) p = Ok i1 /\ basis_get w2 (f_eft f) p = Ok i2 /\
    sectors_of w1 i1 = Some S1 /\ sectors_of w2 i2 = Some S2 /\ dget S1 k = Some v /\ dget S2 k = Some v'.
Proof.
  intros N L W If If' Ee P P' D D' NV.
  assert (f <> f') as NF by (intros ->; congruence).
  assert (exists rest, Permutation children (rest ++ [f; f'])) as [rest PR].
  { apply in_split in If. destruct If as (a & b & ->).
    assert (In f' (a ++ b)) as I'.
    { apply in_app_or in If'. apply in_or_app. destruct If' as [I|[I|I]]; auto. congruence. }
    apply in_split in I'. destruct I' as (a' & b' & E).
    exists (a' ++ b'). apply perm_trans with (f :: a ++ b); [apply Permutation_sym, Permutation_middle|]. rewrite E.
    apply perm_trans with (f :: f' :: a' ++ b'); [apply perm_skip, Permutation_sym, Permutation_middle|].
    change (f :: f' :: a' ++ b') with ([f; f'] ++ (a' ++ b')). apply Permutation_app_comm. }
  assert (Permutation children (rest ++ [f'; f])) as PR'.
  { eapply perm_trans; [exact PR|]. apply Permutation_app_head. apply perm_swap. }
  destruct L as [M C]. destruct (C f p If P) as (g & Ig & Eg). pose proof (conj M C : layout mains children) as L.
  assert (forall c x u, Permutation children c -> (exists a, c = a ++ [x]) -> In x children -> f_eft x = f_eft f ->
            f_parent x = Some p -> dget (f_sectors x) k = Some u ->
            exists w i S, import_package efts mains c = Ok w /\ basis_get w (f_eft f) p = Ok i /\
              sectors_of w i = Some S /\ dget S k = Some u) as K.
  { intros c x u PC [a ->] Ix Ex Px Dx.
    assert (Permutation (mains ++ children) (mains ++ a ++ [x])) as PP by (apply Permutation_app_head; auto).
    pose proof (permuted_names _ _ N PP) as N'. pose proof (permuted_layout _ _ _ _ L (Permutation_refl _) PC) as L'.
    pose proof (permuted_plain _ _ W PP) as W'. pose proof (import_ok efts _ _ N' L') as E.
    destruct (import_sectors efts mains (a ++ [x]) _ g g N' L' W' E) as (i & S & B1 & B2 & B3).
    - apply in_or_app; auto.
    - apply in_or_app; auto.
    - unfold base_of. rewrite (M g Ig). reflexivity.
    - exists (wrun (hist efts (mains ++ a ++ [x]))), i, S. unfold fname in Eg. injection Eg as Eg1 Eg2. rewrite <- Eg1, <- Eg2.
      repeat split; auto. rewrite B3, app_assoc, filter_app, last_def_app. cbn [filter].
      assert (belongs g x = true) as ->.
      { unfold belongs. rewrite Px, Ex. unfold fname. rewrite Eg1, Eg2, keqb_refl. apply orb_true_r. }
      simpl. rewrite Dx. reflexivity. }
  destruct (K (rest ++ [f'; f]) f v PR') as (w1 & i1 & S1 & A1 & A2 & A3 & A4); auto.
  { exists (rest ++ [f']). rewrite <- app_assoc. reflexivity. }
  destruct (K (rest ++ [f; f']) f' v' PR) as (w2 & i2 & S2 & B1 & B2 & B3 & B4); auto.
  { exists (rest ++ [f]). rewrite <- app_assoc. reflexivity. }
  exists (rest ++ [f'; f]), (rest ++ [f; f']), w1, w2, i1, i2, S1, S2. repeat split; auto.
Qed.

Lemma load_value_error efts : forall fs0 fs x,
  load_bases fs (wrun (hist efts fs0)) = Err x -> x = ValueError.
Proof.
  intros fs0 fs. revert fs0. induction fs as [|f t IH]; intros fs0 x; simpl; [discriminate|].
  pose proof (new_basis_result (hist efts fs0) (f_eft f) (f_basis f) (f_parent f) (f_sectors f)) as R.
  specialize (IH (fs0 ++ [f])). rewrite hist_snoc, wrun_snoc in IH. unfold op_of in IH. cbn [wstep] in IH.
  destruct (new_basis (wrun (hist efts fs0)) (f_eft f) (f_basis f) (f_parent f) (f_sectors f)) as [[i|y] w']; simpl in *.
  - apply IH.
  - intros [= <-]. destruct R as [[R _]|[R _]]; congruence.
Qed.
Lemma import_value_error efts mains children x : import_package efts mains children = Err x -> x = ValueError.
Proof.
  unfold import_package. intros E. apply (load_value_error efts [] (mains ++ children)).
  unfold hist. simpl. rewrite app_nil_r, <- load_efts_run. exact E.
Qed.
Lemma import_always efts mains children : distinct_names (mains ++ children) -> (forall f, In f mains -> f_parent f = None) ->
  ((forall c, Permutation children c -> exists w, import_package efts mains c = Ok w) <->
   (forall f p, In f children -> f_parent f = Some p -> exists g, In g mains /\ fname g = (f_eft f, p))).
Proof.
  intros N M. split.
  - intros H f p I P. apply in_split in I. destruct I as (a & b & ->).
    destruct (H (f :: a ++ b)) as [w E]; [apply Permutation_sym, Permutation_middle|].
    assert (distinct_names mains) as NM by (unfold distinct_names in *; rewrite map_app in N; eapply NoDup_front; eauto).
    assert (ordered mains) as OM.
    { intros pre x post q -> Q. rewrite M in Q; [discriminate|]. apply in_or_app. right. left. reflexivity. }
    destruct (load_ok efts mains NM OM) as [EM A]. unfold import_package in E. rewrite load_bases_app, EM in E. cbn [bind load_bases] in E.
    pose proof (new_basis_result (hist efts mains) (f_eft f) (f_basis f) (f_parent f) (f_sectors f)) as R.
    destruct (new_basis (wrun (hist efts mains)) (f_eft f) (f_basis f) (f_parent f) (f_sectors f)) as [[i|y] w']; [|discriminate].
    simpl in R. destruct R as [[_ R]|[R _]]; [|discriminate]. destruct (R p P) as (_ & pid & s & B & _).
    destruct (refinement (hist efts mains) 0) as (_ & Rg & _). unfold basis_get in B. rewrite Rg in B.
    assert (dget (reg_or_empty (a_bases (arun (hist efts mains)))) (f_eft f, p) = Some pid) as D.
    { destruct (a_bases (arun (hist efts mains))) as [d|]; [|discriminate]. simpl in *. unfold dlookup in B.
      destruct (dget d (f_eft f, p)); congruence. }
    apply (as_reg _ _ A) in D. destruct D as (g & Hg & Eg). exists g. split; auto. eapply nth_error_In; eauto.
  - intros C c PC. exists (wrun (hist efts (mains ++ c))).
    assert (layout mains children) as L by (split; auto).
    apply import_ok.
    + eapply permuted_names; [exact N|]. apply Permutation_app_head. exact PC.
    + eapply permuted_layout; [exact L|apply Permutation_refl|exact PC].
Qed.
