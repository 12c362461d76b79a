(** Consequences of the basis model for reachable worlds (C03-C07). *)
From Coq Require Import String List Bool Arith Lia.
From Verif Require Import PyBase PyDict Bases.
Import ListNotations.
Open Scope string_scope.
Open Scope list_scope.
Open Scope nat_scope.

Arguments new_basis : simpl never.
Arguments all_wcs : simpl never.
Arguments wc_validate : simpl never.

(** [Basis[e, b]] *)
Definition basis_get (w : world) (e b : string) : res nat := lookup_reg (w_bases w) (e, b).

(** The parent named [p] can be used: registered, not the new basis itself,
    and fully constructed. *)
Definition usable_parent (w : world) (e b p : string) : Prop :=
  p <> b /\ exists pid s, basis_get w e p = Ok pid /\ sectors_of w pid = Some s.

Lemma parent_root_usable w a f e b p : ainv w a f ->
  (exists r, parent_root a e b p = Some r) <-> usable_parent w e b p.
Proof.
  intros V. unfold parent_root, usable_parent, basis_get. rewrite (ai_reg _ _ _ V).
  destruct (keqb p b) eqn:E.
  - apply keqb_eq in E; subst. split; [intros [r Hr]; discriminate|]. tauto.
  - apply keqb_neq in E. destruct (lookup_reg (a_bases a) (e, p)) as [pid|] eqn:G.
    + split.
      * intros [r Hr]. split; auto. exists pid. rewrite (sectors_abs _ _ _ _ V).
        destruct (nth_error (a_root a) pid) as [[r'|]|]; try discriminate. eauto.
      * intros (_ & pid' & s & E1 & E2). injection E1 as <-.
        rewrite (sectors_abs _ _ _ _ V) in E2.
        destruct (nth_error (a_root a) pid) as [[r'|]|]; try discriminate. eauto.
    + split; [intros [r Hr]; discriminate|]. intros (_ & pid' & s & E1 & _); discriminate.
Qed.
Lemma parent_root_pid w a f e b p r : ainv w a f -> parent_root a e b p = Some r ->
  exists pid, basis_get w e p = Ok pid /\ nth_error (a_root a) pid = Some (Some r).
Proof.
  intros V. unfold parent_root, basis_get. rewrite (ai_reg _ _ _ V).
  destruct (keqb p b); try discriminate.
  destruct (lookup_reg (a_bases a) (e, p)) as [pid|]; try discriminate.
  destruct (nth_error (a_root a) pid) as [[r'|]|] eqn:E; try discriminate.
  intros [= ->]. eauto.
Qed.

Lemma new_basis_result h e b parent s :
  fst (new_basis (wrun h) e b parent s) = Ok (length (w_objs (wrun h))) /\
    (forall p, parent = Some p -> usable_parent (wrun h) e b p) \/
  fst (new_basis (wrun h) e b parent s) = Err ValueError /\
    (exists p, parent = Some p /\ ~ usable_parent (wrun h) e b p).
Proof.
  destruct (ainv_run h) as [f V].
  pose proof (new_basis_spec _ _ _ e b parent s V) as G.
  destruct (new_basis (wrun h) e b parent s) as [r w']. destruct G as [_ ->]. simpl.
  destruct parent as [p|].
  - pose proof (parent_root_usable _ _ _ e b p V) as U.
    destruct (parent_root (arun h) e b p) as [r|].
    + left. split; auto. intros p' [= <-]. apply U; eauto.
    + right. split; auto. exists p. split; auto. intros Hu. apply U in Hu.
      destruct Hu; discriminate.
  - left. split; auto. discriminate.
Qed.

Lemma new_basis_registered w e b parent s :
  basis_get (snd (new_basis w e b parent s)) e b = Ok (length (w_objs w)) /\
  (forall e' b', (e', b') <> (e, b) -> w_bases w <> None ->
     basis_get (snd (new_basis w e b parent s)) e' b' = basis_get w e' b').
Proof.
  assert (w_bases (snd (new_basis w e b parent s)) =
          Some (dset (reg_or_empty (w_bases w)) (e, b) (length (w_objs w)))) as E.
  { unfold new_basis. destruct parent as [p|]; auto.
    destruct (bind _ _); auto. }
  unfold basis_get. rewrite E. simpl. unfold dlookup. split.
  - rewrite dget_dset_eq; reflexivity.
  - intros e' b' N NN. rewrite dget_dset_neq by auto.
    destruct (w_bases w); simpl; auto. congruence.
Qed.

(** Exact state after a failed construction. *)
Lemma failed_construction h e b p s :
  ~ usable_parent (wrun h) e b p ->
  let w := wrun h in
  let w' := snd (new_basis w e b (Some p) s) in
  let id := length (w_objs w) in
  fst (new_basis w e b (Some p) s) = Err ValueError /\
  basis_get w' e b = Ok id /\ sectors_of w' id = None /\ fst (all_wcs w' id) = Err AttributeError /\
  (forall e' b', (e', b') <> (e, b) -> w_bases w <> None -> basis_get w' e' b' = basis_get w e' b') /\
  (forall j, j <> id -> sectors_of w' j = sectors_of w j) /\ w_efts w' = w_efts w.
Proof.
  intros U w w' id.
  destruct (new_basis_result h e b (Some p) s) as [[_ G]|[G _]].
  { exfalso; apply U. apply G; reflexivity. }
  assert (w' = World (w_efts w) (Some (dset (reg_or_empty (w_bases w)) (e, b) id))
                  (w_objs w ++ [BObj e b None None]) (w_secs w)) as E.
  { unfold w', w, id. unfold new_basis in *. destruct (bind _ _) eqn:EE; auto.
    simpl in G; discriminate. }
  split; [exact G|]. destruct (new_basis_registered w e b (Some p) s) as [A B].
  fold w' in A, B. repeat (split; auto).
  - rewrite E. unfold sectors_of, obj_sectors_ref; simpl. rewrite nth_snoc. unfold id.
    rewrite Nat.eqb_refl; reflexivity.
  - rewrite E. unfold all_wcs; simpl. rewrite nth_snoc. unfold id.
    rewrite Nat.eqb_refl; reflexivity.
  - intros j N. rewrite E. unfold sectors_of, obj_sectors_ref; simpl. rewrite nth_snoc.
    fold id. assert (Nat.eqb j id = false) as -> by (apply Nat.eqb_neq; auto). reflexivity.
  - rewrite E; reflexivity.
Qed.

(** Objects [i] and [j] belong to one family (abstract specification). *)
Definition same_family (h : list wop) (i j : nat) : Prop :=
  exists r, nth_error (a_root (arun h)) i = Some (Some r) /\
            nth_error (a_root (arun h)) j = Some (Some r).
Lemma family_shares h i j : same_family h i j -> sectors_of (wrun h) i = sectors_of (wrun h) j.
Proof.
  intros (r & A & B). destruct (refinement h i) as [-> _]. destruct (refinement h j) as [-> _].
  rewrite A, B; reflexivity.
Qed.

Lemma child_effect h e b p s pid S : p <> b -> wf s ->
  basis_get (wrun h) e p = Ok pid -> sectors_of (wrun h) pid = Some S ->
  let w' := wrun (h ++ [NewBasis e b (Some p) s]) in
  let id := length (w_objs (wrun h)) in
  fst (new_basis (wrun h) e b (Some p) s) = Ok id /\
  basis_get w' e b = Ok id /\
  exists M, sectors_of w' id = Some M /\ sectors_of w' pid = Some M /\
    (forall k, dget M k = match dget s k with Some v => Some v | None => dget S k end) /\
    (forall j, j <> id -> same_family h j pid -> sectors_of w' j = Some M) /\
    (forall j, j <> id -> ~ same_family h j pid -> sectors_of w' j = sectors_of (wrun h) j).
Proof.
  intros N W Gp Sp w' id.
  destruct (ainv_run h) as [f V].
  assert (usable_parent (wrun h) e b p) as U by (split; eauto).
  pose proof (proj2 (parent_root_usable _ _ _ e b p V) U) as [r Hr].
  destruct (parent_root_pid _ _ _ _ _ _ _ V Hr) as (pid' & Gp' & Rp).
  assert (pid' = pid) by congruence. subst pid'.
  destruct (new_basis_result h e b (Some p) s) as [[G _]|[_ (p' & [= <-] & NU)]]; [|tauto].
  split; [exact G|]. split.
  { unfold w'. rewrite wrun_snoc. simpl. apply new_basis_registered. }
  assert (S = merge_log (a_log (arun h) r)) as ES.
  { rewrite (sectors_abs _ _ _ _ V), Rp in Sp. congruence. }
  assert (nth_error (a_root (arun h)) r = Some (Some r)) as Rr by (eapply ai_root; eauto).
  assert (a_log (arun h) r <> []) as Lr by (apply (ai_sec _ _ _ V r Rr)).
  assert (arun (h ++ [NewBasis e b (Some p) s]) =
          AWorld (Some (dset (reg_or_empty (a_bases (arun h))) (e, b) (length (a_root (arun h)))))
            (a_root (arun h) ++ [Some r]) (log_add (a_log (arun h)) r s)) as EA.
  { rewrite arun_snoc. cbn [astep]. rewrite anew_child, Hr. reflexivity. }
  assert (pid < length (a_root (arun h))) as Hpid by (apply nth_error_Some; congruence).
  assert (length (a_root (arun h)) = id) as Eid by (unfold id; symmetry; apply (ai_len _ _ _ V)).
  assert (forall j, sectors_of w' j = match nth_error (a_root (arun h) ++ [Some r]) j with
            | Some (Some r') => Some (merge_log (log_add (a_log (arun h)) r s r')) | _ => None end) as Sj.
  { intros j. unfold w'. destruct (refinement (h ++ [NewBasis e b (Some p) s]) j) as [E _].
    rewrite E, EA. reflexivity. }
  assert (log_add (a_log (arun h)) r s r = a_log (arun h) r ++ [s]) as LA.
  { unfold log_add. rewrite Nat.eqb_refl; reflexivity. }
  exists (dupdate S s). rewrite !Sj, nth_snoc, Eid, Nat.eqb_refl, LA, merge_log_snoc, <- ES by auto.
  split; [reflexivity|]. split; [|split; [|split]].
  - rewrite nth_new by auto. rewrite Rp. rewrite LA, merge_log_snoc, <- ES by auto. reflexivity.
  - intros k. rewrite dget_dupdate, dget_last_wf by auto. reflexivity.
  - intros j Nj (r' & A & B). rewrite Sj. rewrite nth_new by (apply nth_error_Some; congruence).
    assert (r' = r) by congruence. subst r'. rewrite A, LA, merge_log_snoc, <- ES by auto. reflexivity.
  - intros j Nj NF. rewrite Sj, nth_snoc, Eid.
    assert (Nat.eqb j id = false) as -> by (apply Nat.eqb_neq; auto).
    rewrite (sectors_abs _ _ _ _ V).
    destruct (nth_error (a_root (arun h)) j) as [[r'|]|] eqn:Ej; auto.
    unfold log_add. destruct (Nat.eqb r r') eqn:Er; auto.
    apply Nat.eqb_eq in Er; subst r'. exfalso; apply NF. exists r; auto.
Qed.

Lemma dupdate_same_iff (S s : sectors) : wf S -> wf s ->
  ((forall k, dget (dupdate S s) k = dget S k) <-> (forall k v, dget s k = Some v -> dget S k = Some v)).
Proof.
  intros WS W. split.
  - intros E k v G. specialize (E k). rewrite dget_dupdate, dget_last_wf in E by auto.
    rewrite G in E. auto.
  - intros E k. rewrite dget_dupdate, dget_last_wf by auto.
    destruct (dget s k) eqn:G; auto. symmetry; auto.
Qed.

(** ** all_wcs *)
Lemma objs_grow w o id x : nth_error (w_objs w) id = Some x ->
  exists y, nth_error (w_objs (wstep w o)) id = Some y /\
    (forall l, bo_cache x = Some (Some l) -> bo_cache y = Some (Some l)).
Proof.
  intros E. assert (id < length (w_objs w)) as L by (apply nth_error_Some; congruence).
  assert (forall i, exists y, nth_error (w_objs (snd (all_wcs w i))) id = Some y /\
    (forall l, bo_cache x = Some (Some l) -> bo_cache y = Some (Some l))) as G.
  { intros i. unfold all_wcs.
    destruct (nth_error (w_objs w) i) as [o'|] eqn:Eo; [|simpl; eauto].
    destruct (bo_cache o') as [[l|]|] eqn:Ec; [simpl; eauto| |simpl; eauto].
    destruct (sectors_of w i) as [s|]; [|simpl; eauto].
    destruct (names_of s) as [l|]; [|simpl; eauto]. simpl.
    rewrite nth_list_set. destruct (Nat.eqb i id) eqn:Ei; [|eauto].
    apply Nat.eqb_eq in Ei; subst. apply Nat.ltb_lt in L; rewrite L.
    eexists; split; [reflexivity|]. simpl. intros l' C. congruence. }
  destruct o as [e s|e b p s|e b| |e|i|e b k]; simpl; eauto.
  - unfold new_basis. assert (Nat.eqb (length (w_objs w)) id = false) as NE by (apply Nat.eqb_neq; lia).
    destruct p as [p|]; [destruct (bind _ _)|]; simpl;
      rewrite ?nth_list_set, ?nth_snoc, ?NE, (Nat.eqb_sym id), ?NE; eauto.
  - unfold del_basis. destruct (w_bases w); [destruct (dmem _ _)|]; simpl; eauto.
  - unfold del_eft. destruct (w_efts w); [destruct (dmem _ _)|]; simpl; eauto.
  - unfold wc_validate. destruct (lookup_reg (w_efts w) e); [|simpl; eauto].
    destruct (lookup_reg (w_bases w) (e, b)) as [i|]; [|simpl; eauto].
    specialize (G i). destruct (all_wcs w i); simpl in *; auto.
Qed.
Definition cached (w : world) (id : nat) (l : list string) : Prop :=
  exists o, nth_error (w_objs w) id = Some o /\ bo_cache o = Some (Some l).
Lemma cached_step w o id l : cached w id l -> cached (wstep w o) id l.
Proof.
  intros (x & A & B). destruct (objs_grow w o id x A) as (y & Y & C). exists y; auto.
Qed.
Lemma cached_fold h w id l : cached w id l -> cached (fold_left wstep h w) id l.
Proof. revert w; induction h; simpl; auto using cached_step. Qed.
Lemma cached_read w id l : cached w id l -> all_wcs w id = (Ok l, w).
Proof. intros (x & A & B). unfold all_wcs. rewrite A, B; reflexivity. Qed.
Lemma read_caches w id l : fst (all_wcs w id) = Ok l -> cached (snd (all_wcs w id)) id l.
Proof.
  unfold all_wcs. destruct (nth_error (w_objs w) id) as [o|] eqn:E; [|discriminate].
  destruct (bo_cache o) as [[l'|]|] eqn:C; simpl; try discriminate.
  - intros [= <-]. exists o; auto.
  - destruct (sectors_of w id) as [s|]; [|discriminate].
    destruct (names_of s) as [l'|]; [|discriminate]. simpl. intros [= <-].
    eexists; split; simpl.
    + rewrite nth_list_set, Nat.eqb_refl.
      assert (id < length (w_objs w)) as L by (apply nth_error_Some; congruence).
      apply Nat.ltb_lt in L. rewrite L; reflexivity.
    + reflexivity.
Qed.
Lemma read_stable h1 h2 id l :
  fst (all_wcs (wrun h1) id) = Ok l ->
  fst (all_wcs (wrun (h1 ++ ReadAll id :: h2)) id) = Ok l.
Proof.
  intros R. apply read_caches in R.
  assert (wrun (h1 ++ ReadAll id :: h2) = fold_left wstep h2 (snd (all_wcs (wrun h1) id))) as ->.
  { unfold wrun. rewrite fold_left_app. reflexivity. }
  rewrite (cached_read _ _ l); auto. apply cached_fold; auto.
Qed.

(** Names listed by the current sectors of an object. *)
Definition current_names (w : world) (id : nat) : res (list string) :=
  match sectors_of w id with Some s => names_of s | None => Err AttributeError end.

(** The operation does not read [all_wcs] of object [id], directly or through
    WC.validate (conservatively: no WC.validate at all). *)
Definition no_read (id : nat) (o : wop) : Prop :=
  match o with ReadAll i => i <> id | Validate _ _ _ => False | _ => True end.
Definition uncached (w : world) (id : nat) : Prop :=
  forall o, nth_error (w_objs w) id = Some o -> bo_cache o = None \/ bo_cache o = Some None.
Lemma uncached_step w o id : no_read id o -> uncached w id -> uncached (wstep w o) id.
Proof.
  intros NR U. destruct o as [e s|e b p s|e b| |e|i|e b k]; simpl in *; auto; try tauto.
  - unfold new_basis, uncached.
    destruct p as [p|]; [destruct (bind _ _)|]; simpl; intros o;
      rewrite ?nth_list_set, ?nth_snoc, ?app_length; simpl;
      rewrite ?(Nat.eqb_sym id);
      destruct (Nat.eqb (length (w_objs w)) id) eqn:E; auto;
      try (destruct (id <? length (w_objs w) + 1); try discriminate);
      intros [= <-]; simpl; auto.
  - unfold del_basis. destruct (w_bases w); [destruct (dmem _ _)|]; simpl; auto.
  - unfold del_eft. destruct (w_efts w); [destruct (dmem _ _)|]; simpl; auto.
  - unfold all_wcs. destruct (nth_error (w_objs w) i) as [o|] eqn:E; auto.
    destruct (bo_cache o) as [[l'|]|] eqn:C; auto.
    destruct (sectors_of w i) as [s|]; auto. destruct (names_of s); auto. simpl.
    intros o'. simpl. rewrite nth_list_set.
    assert (Nat.eqb i id = false) as -> by (apply Nat.eqb_neq; auto). apply U.
Qed.
Lemma uncached_run h id : Forall (no_read id) h -> uncached (wrun h) id.
Proof.
  induction h as [|o h IH] using rev_ind; intros F.
  - intros o. destruct id; discriminate.
  - rewrite wrun_snoc. apply Forall_app in F. destruct F as [F Fo]. inversion Fo; subst.
    apply uncached_step; auto.
Qed.
Lemma cache_none_sectors h id o :
  nth_error (w_objs (wrun h)) id = Some o -> (bo_cache o = None <-> sectors_of (wrun h) id = None).
Proof.
  intros E. destruct (ainv_run h) as [f V]. pose proof (ai_obj _ _ _ V _ _ E) as O.
  rewrite (sectors_abs _ _ _ _ V).
  destruct (nth_error (a_root (arun h)) id) as [[r|]|]; intuition congruence.
Qed.
Lemma first_read h id : Forall (no_read id) h ->
  fst (all_wcs (wrun h) id) = current_names (wrun h) id.
Proof.
  intros F. pose proof (uncached_run h id F) as U. unfold all_wcs, current_names.
  destruct (nth_error (w_objs (wrun h)) id) as [o|] eqn:E.
  - pose proof (cache_none_sectors h id o E) as CN.
    destruct (bo_cache o) as [[l|]|] eqn:C.
    + destruct (U o E); congruence.
    + destruct (sectors_of (wrun h) id) as [s|]; auto. destruct (names_of s); auto.
    + destruct CN as [CN _]. rewrite CN; auto.
  - assert (sectors_of (wrun h) id = None) as ->; auto.
    unfold sectors_of, obj_sectors_ref. rewrite E; reflexivity.
Qed.

(** ** validate *)
Lemma nub_In l a : In a (nub l) <-> In a l.
Proof.
  induction l as [|x t IH]; simpl; [tauto|].
  destruct (mem x t) eqn:E; simpl; rewrite IH; [|tauto].
  apply mem_In in E. split; auto. intros [->|]; auto.
Qed.
Lemma nub_length l : length (nub l) <= length l.
Proof. induction l as [|x t IH]; simpl; auto. destruct (mem x t); simpl; lia. Qed.
Lemma has_dupes_iff l : has_dupes l = false <-> NoDup l.
Proof.
  unfold has_dupes. rewrite negb_false_iff, Nat.eqb_eq.
  induction l as [|x t IH]; simpl; [split; constructor|].
  pose proof (nub_length t). destruct (mem x t) eqn:E; simpl.
  - apply mem_In in E. split; [lia|]. intros N; inversion N; tauto.
  - apply mem_notIn in E. rewrite NoDup_cons_iff, <- IH. intuition lia.
Qed.
Lemma all_keys_names s l : all_keys s = Ok l <-> names_of s = Ok l.
Proof.
  revert l; induction s as [|[k [d|]] t IH]; intros l; simpl; try tauto.
  - rewrite !bind_ok. split; intros (r & A & B); exists r; split; auto; apply IH; auto.
  - split; discriminate.
Qed.
Lemma all_keys_err s x : all_keys s = Err x -> x = AttributeError.
Proof.
  induction s as [|[k [d|]] t IH]; simpl; try discriminate.
  - destruct (all_keys t); simpl; try discriminate. intros [= <-]; auto.
  - congruence.
Qed.
(** Well-formedness of a basis in file-level terms. *)
Definition sectors_known (known : list string) (s : sectors) : Prop := incl (dkeys s) known.
Definition no_null_sector (s : sectors) : Prop := forall k v, In (k, v) s -> v <> None.
Lemma names_ok s : no_null_sector s <-> exists l, names_of s = Ok l.
Proof.
  induction s as [|[k [d|]] t IH]; simpl.
  - split; [eauto|]. intros _ k v [].
  - split.
    + intros N. assert (exists l, names_of t = Ok l) as [l ->].
      { apply IH. intros k' v' I'. apply (N k' v'); simpl; auto. }
      simpl. eexists; reflexivity.
    + intros [l Hl]. apply bind_ok in Hl. destruct Hl as (r & A & _).
      destruct IH as [_ IH]. intros k' v' [E|I']; [congruence|]. eapply IH; eauto.
  - split.
    + intros N. exfalso. apply (N k None); [left|]; reflexivity.
    + intros [l Hl]; discriminate.
Qed.
Lemma forallb_mem (l known : list string) :
  forallb (fun k => mem k known) l = true <-> incl l known.
Proof.
  rewrite forallb_forall. unfold incl. split; intros G a I'.
  - apply (mem_In string). auto.
  - apply (mem_In string). auto.
Qed.
Lemma basis_validate_iff tex h id :
  basis_validate tex (wrun h) id = Ok tt <->
  exists o known s l, nth_error (w_objs (wrun h)) id = Some o /\
    lookup_reg (w_efts (wrun h)) (bo_eft o) = Ok known /\
    sectors_of (wrun h) id = Some s /\ incl (dkeys s) known /\
    names_of s = Ok l /\ NoDup l /\ tex (alltex s) = Ok true.
Proof.
  unfold basis_validate. split.
  - destruct (nth_error (w_objs (wrun h)) id) as [o|]; try discriminate.
    destruct (lookup_reg (w_efts (wrun h)) (bo_eft o)) as [known|] eqn:E; try discriminate.
    destruct (sectors_of (wrun h) id) as [s|]; try discriminate.
    destruct (forallb _ _) eqn:F; simpl; try discriminate. apply forallb_mem in F.
    destruct (all_keys s) as [l|] eqn:K; simpl; try discriminate.
    destruct (has_dupes l) eqn:D; try discriminate. apply has_dupes_iff in D.
    destruct (tex (alltex s)) as [[|]|] eqn:T; simpl; try discriminate.
    intros _. exists o, known, s, l. apply all_keys_names in K. auto 10.
  - intros (o & known & s & l & A & B & D & F & K & N & T). rewrite A, B, D.
    apply forallb_mem in F. rewrite F. simpl. apply all_keys_names in K. rewrite K. simpl.
    apply has_dupes_iff in N. rewrite N, T. reflexivity.
Qed.
Lemma wc_validate_iff w e b keys :
  fst (wc_validate w e b keys) = Ok tt <->
  exists known id l, lookup_reg (w_efts w) e = Ok known /\ basis_get w e b = Ok id /\
    fst (all_wcs w id) = Ok l /\ incl keys l.
Proof.
  unfold wc_validate, basis_get. destruct (lookup_reg (w_efts w) e) as [known|].
  2:{ split; [discriminate|]. intros (k & i & l & A & _); discriminate. }
  destruct (lookup_reg (w_bases w) (e, b)) as [id|].
  2:{ split; [discriminate|]. intros (k & i & l & _ & A & _); discriminate. }
  destruct (all_wcs w id) as [r w'] eqn:E. simpl.
  destruct r as [l|x]; simpl.
  - destruct (forallb _ _) eqn:F.
    + split; auto. intros _. apply forallb_mem in F. exists known, id, l. rewrite E. auto.
    + split; [discriminate|]. intros (k & i & l' & _ & [= <-] & B & I').
      rewrite E in B. injection B as <-. apply forallb_mem in I'. congruence.
  - split; [discriminate|]. intros (k & i & l' & _ & [= <-] & B & _). rewrite E in B; discriminate.
Qed.

Lemma step_sectors h o id : id < length (w_objs (wrun h)) ->
  sectors_of (wrun (h ++ [o])) id = sectors_of (wrun h) id \/
  exists e b p s pid, o = NewBasis e b (Some p) s /\ p <> b /\
    basis_get (wrun h) e p = Ok pid /\ same_family h id pid.
Proof.
  intros L. destruct (ainv_run h) as [f V].
  assert (forall o', (forall e b p s, o' <> NewBasis e b p s) ->
            sectors_of (wrun (h ++ [o'])) id = sectors_of (wrun h) id) as G.
  { intros o' N. destruct (refinement (h ++ [o']) id) as [-> _].
    destruct (refinement h id) as [-> _]. rewrite arun_snoc.
    destruct o'; simpl; auto. exfalso. eapply N; reflexivity. }
  destruct o as [e s|e b [p|] s|e b| |e|i|e b k]; try (left; apply G; discriminate).
  - pose proof (parent_root_usable _ _ _ e b p V) as U.
    destruct (parent_root (arun h) e b p) as [r|] eqn:Epr.
    + destruct U as [U _]. destruct U as (N & pid & s' & A & B); [eauto|].
      destruct (parent_root_pid _ _ _ _ _ _ _ V Epr) as (pid' & Gp' & Rp).
      assert (pid' = pid) by congruence; subst pid'.
      assert (same_family h id pid \/ ~ same_family h id pid) as [SF|SF].
      { unfold same_family. rewrite Rp.
        destruct (nth_error (a_root (arun h)) id) as [[r'|]|].
        - destruct (Nat.eq_dec r r') as [->|Ne]; [left; eauto|].
          right. intros (x & X & Y). congruence.
        - right. intros (x & X & Y). congruence.
        - right. intros (x & X & Y). congruence. }
      * right. exists e, b, p, s, pid. auto.
      * left. destruct (refinement (h ++ [NewBasis e b (Some p) s]) id) as [-> _].
        destruct (refinement h id) as [-> _]. rewrite arun_snoc. cbn [astep].
        rewrite anew_child, Epr. simpl. rewrite (ai_len _ _ _ V) in L. rewrite nth_new by auto.
        destruct (nth_error (a_root (arun h)) id) as [[r'|]|] eqn:Ei; auto.
        unfold log_add. destruct (Nat.eqb r r') eqn:Er; auto.
        apply Nat.eqb_eq in Er; subst r'. exfalso; apply SF. exists r; auto.
    + left. rewrite wrun_snoc. cbn [wstep].
      apply (failed_construction h e b p s); [|lia].
      intros Hu. apply U in Hu. destruct Hu; discriminate.
  - left. destruct (refinement (h ++ [NewBasis e b None s]) id) as [-> _].
    destruct (refinement h id) as [-> _]. rewrite arun_snoc. cbn [astep]. simpl.
    rewrite (ai_len _ _ _ V) in L. rewrite nth_new by auto.
    destruct (nth_error (a_root (arun h)) id) as [[r'|]|] eqn:Ei; auto.
    apply (ai_root _ _ _ V) in Ei. unfold log_add.
    destruct (Nat.eqb (length (a_root (arun h))) r') eqn:Er; auto.
    apply Nat.eqb_eq in Er; subst r'.
    assert (nth_error (a_root (arun h)) (length (a_root (arun h))) = None)
      by (apply nth_error_None; lia). congruence.
Qed.

(** A member never leaves its family and a load history only appends. *)
Lemma arun_grows h o id : id < length (a_root (arun h)) ->
  nth_error (a_root (arun (h ++ [o]))) id = nth_error (a_root (arun h)) id.
Proof.
  intros L. rewrite arun_snoc. destruct o as [e s|e b p s|e b| |e|i|e b k]; simpl; auto.
  destruct p as [p|].
  - rewrite anew_child. destruct (parent_root (arun h) e b p); simpl; apply nth_new; auto.
  - simpl; apply nth_new; auto.
Qed.

Lemma objs_mono w o : length (w_objs w) <= length (w_objs (wstep w o)).
Proof.
  destruct (le_lt_dec (length (w_objs w)) 0) as [Z|P]; [lia|].
  destruct (nth_error (w_objs w) (length (w_objs w) - 1)) as [x|] eqn:E.
  - destruct (objs_grow w o _ x E) as (y & Y & _).
    assert (length (w_objs w) - 1 < length (w_objs (wstep w o))) by (apply nth_error_Some; congruence).
    lia.
  - apply nth_error_None in E; lia.
Qed.
Lemma objs_mono_run h h2 : length (w_objs (wrun h)) <= length (w_objs (wrun (h ++ h2))).
Proof.
  induction h2 as [|o h2 IH] using rev_ind; [rewrite app_nil_r; lia|].
  rewrite app_assoc, wrun_snoc. pose proof (objs_mono (wrun (h ++ h2)) o). lia.
Qed.

(** No operation of the history loads a child basis. *)
Definition no_child (o : wop) : Prop :=
  match o with NewBasis _ _ (Some _) _ => False | _ => True end.
Lemma no_child_sectors h h2 id : id < length (w_objs (wrun h)) -> Forall no_child h2 ->
  sectors_of (wrun (h ++ h2)) id = sectors_of (wrun h) id.
Proof.
  intros L. induction h2 as [|o h2 IH] using rev_ind; intros F.
  - rewrite app_nil_r; auto.
  - apply Forall_app in F. destruct F as [F Fo]. inversion Fo as [|? ? Nc _]; subst.
    rewrite app_assoc. destruct (step_sectors (h ++ h2) o id) as [->|(e & b & p & s & pid & -> & _)].
    + pose proof (objs_mono_run h h2). lia.
    + auto.
    + destruct Nc.
Qed.

Lemma read_agrees h1 h2 id l : Forall (no_read id) h1 -> Forall no_child h2 ->
  fst (all_wcs (wrun h1) id) = Ok l ->
  let w := wrun (h1 ++ ReadAll id :: h2) in
  fst (all_wcs w id) = Ok l /\ current_names w id = Ok l.
Proof.
  intros F1 F2 R w. split; [apply read_stable; auto|].
  rewrite (first_read h1 id F1) in R. unfold current_names in *.
  assert (id < length (w_objs (wrun h1))) as L.
  { destruct (sectors_of (wrun h1) id) as [s|] eqn:E; try discriminate.
    unfold sectors_of, obj_sectors_ref in E.
    destruct (nth_error (w_objs (wrun h1)) id) eqn:E2; try discriminate.
    apply nth_error_Some; congruence. }
  unfold w. change (h1 ++ ReadAll id :: h2) with (h1 ++ ([ReadAll id] ++ h2)).
  rewrite no_child_sectors; auto. constructor; simpl; auto.
Qed.

Lemma basis_validate_cases tex h id o :
  nth_error (w_objs (wrun h)) id = Some o ->
  (* EFT not registered *)
  (forall x, lookup_reg (w_efts (wrun h)) (bo_eft o) = Err x -> basis_validate tex (wrun h) id = Err ValueError) /\
  (forall known, lookup_reg (w_efts (wrun h)) (bo_eft o) = Ok known ->
     (* half-built basis *)
     (sectors_of (wrun h) id = None -> basis_validate tex (wrun h) id = Err AttributeError) /\
     (forall s, sectors_of (wrun h) id = Some s ->
        (~ incl (dkeys s) known -> basis_validate tex (wrun h) id = Err ValueError) /\
        (incl (dkeys s) known ->
           (~ no_null_sector s -> basis_validate tex (wrun h) id = Err AttributeError) /\
           (forall l, names_of s = Ok l ->
              (~ NoDup l -> basis_validate tex (wrun h) id = Err ValueError) /\
              (NoDup l -> basis_validate tex (wrun h) id =
                 match tex (alltex s) with
                 | Ok true => Ok tt | Ok false => Err ValueError | Err x => Err x end))))).
Proof.
  intros E. unfold basis_validate. rewrite E. split.
  { intros x ->; reflexivity. }
  intros known ->. split; [intros ->; reflexivity|]. intros s ->. split.
  { intros NI. destruct (forallb _ _) eqn:F; auto. apply forallb_mem in F. tauto. }
  intros I'. apply forallb_mem in I'. rewrite I'. cbn [negb]. split.
  - intros NN. destruct (all_keys s) as [l|x] eqn:K.
    + exfalso. apply NN. apply names_ok. exists l. apply all_keys_names; auto.
    + apply all_keys_err in K. subst; reflexivity.
  - intros l Hl. apply all_keys_names in Hl. rewrite Hl. cbn [bind]. split.
    + intros ND. destruct (has_dupes l) eqn:D; auto. apply has_dupes_iff in D; tauto.
    + intros ND. apply has_dupes_iff in ND. rewrite ND.
      destruct (tex (alltex s)) as [[|]|]; reflexivity.
Qed.

Lemma wc_validate_errors w e b keys :
  (forall x, lookup_reg (w_efts w) e = Err x -> fst (wc_validate w e b keys) = Err ValueError) /\
  (forall k x, lookup_reg (w_efts w) e = Ok k -> basis_get w e b = Err x ->
     fst (wc_validate w e b keys) = Err ValueError) /\
  (forall k id l, lookup_reg (w_efts w) e = Ok k -> basis_get w e b = Ok id ->
     fst (all_wcs w id) = Ok l -> ~ incl keys l -> fst (wc_validate w e b keys) = Err AssertionError).
Proof.
  unfold wc_validate, basis_get. repeat split.
  - intros x ->; reflexivity.
  - intros k x -> ->; reflexivity.
  - intros k id l -> ->. destruct (all_wcs w id) as [r w']. cbn [fst]. intros ->. cbn [bind].
    destruct (forallb _ _) eqn:F; auto. apply forallb_mem in F; tauto.
Qed.
