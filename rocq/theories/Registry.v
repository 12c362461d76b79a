(** Model of NamedInstanceClass (classes.py 118-153) as a state machine. *)
From Coq Require Import String List Bool Arith Lia Sorted.
From Verif Require Import PyBase PyDict.
Import ListNotations.

(** classes.py 118: the base class [NamedInstanceClass] itself and its direct
    subclasses ([EFT], [Basis], [Translator], [Matcher], ... numbered).
    Simplified: no subclasses of subclasses. *)
Inductive pycls := CBase | CSub (n : nat).
Definition pycls_eqb (a b : pycls) : bool :=
  match a, b with
  | CBase, CBase => true
  | CSub n, CSub m => Nat.eqb n m
  | _, _ => false
  end.
Lemma pycls_eqb_eq a b : pycls_eqb a b = true <-> a = b.
Proof.
  destruct a, b; simpl; try (split; intros; (reflexivity || discriminate)).
  rewrite Nat.eqb_eq. split; congruence.
Qed.
#[export] Instance Key_pycls : Key pycls :=
  {| keqb := pycls_eqb; keqb_eq := pycls_eqb_eq |}.

Section Registry.
Context {K I : Type} `{Key K}.

(** Class attributes named [instances] are references to OrderedDict objects:
    [own c] is the attribute in the class' own namespace (if set), [heap] the
    dictionary objects, [next] the next unused reference. *)
Record rstate := RState {
  own : pycls -> option nat;
  heap : nat -> dict K I;
  next : nat }.
Definition rinit : rstate := RState (fun _ => None) (fun _ => []) 0.

(** Attribute lookup [cls.instances] along the method resolution order:
    own namespace, then the base class (classes.py 136, 142, 146). *)
Definition resolve (s : rstate) (c : pycls) : option nat :=
  match own s c with
  | Some r => Some r
  | None => match c with CSub _ => own s CBase | CBase => None end
  end.
Definition upd_own (s : rstate) (c : pycls) (r : nat) : rstate :=
  RState (fun c' => if keqb c c' then Some r else own s c') (heap s) (next s).
Definition upd_heap (s : rstate) (r : nat) (d : dict K I) : rstate :=
  RState (own s) (fun r' => if Nat.eqb r r' then d else heap s r') (next s).
(** [cls.instances = OrderedDict()] (classes.py 137, 153) *)
Definition alloc (s : rstate) (c : pycls) : rstate :=
  upd_own (upd_heap (RState (own s) (heap s) (S (next s))) (next s) []) c (next s).

(** [__init__], classes.py 135-139: create the attribute if [hasattr] fails,
    then [instances[_name] = self]. *)
Definition r_create (s : rstate) (c : pycls) (k : K) (i : I) : rstate :=
  let s1 := match resolve s c with Some _ => s | None => alloc s c end in
  match resolve s1 c with
  | Some r => upd_heap s1 r (dset (heap s1 r) k i)
  | None => s1
  end.
(** [get_instance], classes.py 141-143 *)
Definition r_get (s : rstate) (c : pycls) (k : K) : res I :=
  match resolve s c with
  | None => Err AttributeError
  | Some r => dlookup (heap s r) k
  end.
(** [del_instance], classes.py 145-147 *)
Definition r_del (s : rstate) (c : pycls) (k : K) : res unit * rstate :=
  match resolve s c with
  | None => (Err AttributeError, s)
  | Some r => if dmem (heap s r) k
              then (Ok tt, upd_heap s r (ddel (heap s r) k))
              else (Err KeyError, s)
  end.
(** [clear_all], classes.py 149-152 *)
Definition r_clear (s : rstate) (c : pycls) : rstate := alloc s c.
(** [list(cls.instances)] *)
Definition r_names (s : rstate) (c : pycls) : res (list K) :=
  match resolve s c with
  | None => Err AttributeError
  | Some r => Ok (dkeys (heap s r))
  end.

(** A user-level operation on the registries. *)
Inductive rop :=
| Create (c : pycls) (k : K) (i : I)
| Get (c : pycls) (k : K)
| Del (c : pycls) (k : K)
| Clear (c : pycls).
Definition rstep (s : rstate) (o : rop) : rstate :=
  match o with
  | Create c k i => r_create s c k i
  | Get c k => s
  | Del c k => snd (r_del s c k)
  | Clear c => r_clear s c
  end.
Definition rrun (h : list rop) : rstate := fold_left rstep h rinit.

(** ** Specification, on the history alone (latest operation first). *)
Fixpoint live (rh : list rop) (c : pycls) (k : K) : option I :=
  match rh with
  | [] => None
  | Create c' k' i :: t =>
      if keqb c c' && keqb k k' then Some i else live t c k
  | Del c' k' :: t => if keqb c c' && keqb k k' then None else live t c k
  | Clear c' :: t => if keqb c c' then None else live t c k
  | Get _ _ :: t => live t c k
  end.
(** Position in the history at which the present life of name [k] began. *)
Fixpoint birth (rh : list rop) (c : pycls) (k : K) : option nat :=
  match rh with
  | [] => None
  | Create c' k' _ :: t =>
      if keqb c c' && keqb k k'
      then match birth t c k with Some b => Some b | None => Some (length t) end
      else birth t c k
  | Del c' k' :: t => if keqb c c' && keqb k k' then None else birth t c k
  | Clear c' :: t => if keqb c c' then None else birth t c k
  | Get _ _ :: t => birth t c k
  end.
(** Class [c] has been instantiated or cleared at least once. *)
Definition touched (h : list rop) (c : pycls) : bool :=
  existsb (fun o => match o with
                    | Create c' _ _ => keqb c c'
                    | Clear c' => keqb c c'
                    | _ => false end) h.

(** The shape invariant that makes the registries of different classes
    independent of each other. *)
Record rinv (s : rstate) : Prop := {
  inv_base : own s CBase = None;
  inv_lt : forall c r, own s c = Some r -> r < next s;
  inv_inj : forall c c' r, own s c = Some r -> own s c' = Some r -> c = c' }.

Definition no_base (o : rop) : Prop :=
  match o with
  | Create CBase _ _ | Clear CBase => False
  | _ => True
  end.

Lemma own_alloc s c c' :
  own (alloc s c) c' = if keqb c c' then Some (next s) else own s c'.
Proof. reflexivity. Qed.
Lemma rinv_alloc s n : rinv s -> rinv (alloc s (CSub n)).
Proof.
  intros [B L J]. constructor.
  - exact B.
  - intros c r. rewrite own_alloc. change (next (alloc s (CSub n))) with (S (next s)).
    destruct (keqb (CSub n) c).
    + intros [= <-]; lia.
    + intros E; apply L in E; lia.
  - intros c c' r. rewrite !own_alloc.
    destruct (keqb (CSub n) c) eqn:E; destruct (keqb (CSub n) c') eqn:E'.
    + apply keqb_eq in E, E'; congruence.
    + intros [= <-] Q; apply L in Q; lia.
    + intros Q [= <-]; apply L in Q; lia.
    + apply J.
Qed.
Lemma rinv_heap s r d : rinv s -> rinv (upd_heap s r d).
Proof. intros [B L J]; constructor; simpl; auto. Qed.
Lemma rinv_step s o : no_base o -> rinv s -> rinv (rstep s o).
Proof.
  intros NB V. destruct o as [[|n] k i|c k|c k|[|n]]; simpl in *; try tauto.
  - unfold r_create. destruct (resolve s (CSub n)) eqn:E.
    + rewrite E. apply rinv_heap; auto.
    + destruct (resolve (alloc s (CSub n)) (CSub n)); auto using rinv_heap, rinv_alloc.
  - unfold r_del. destruct (resolve s c); simpl; auto.
    destruct (dmem (heap s n) k); simpl; auto using rinv_heap.
  - apply rinv_alloc; auto.
Qed.

(** What the registry of class [c] holds: [None] while unset. *)
Definition view (s : rstate) (c : pycls) : option (dict K I) :=
  option_map (heap s) (own s c).

Definition vstep (v : option (dict K I)) (c : pycls) (o : rop) : option (dict K I) :=
  match o with
  | Create c' k i =>
      if keqb c c' then Some (dset (match v with Some d => d | None => [] end) k i) else v
  | Del c' k =>
      if keqb c c' then option_map (fun d => if dmem d k then ddel d k else d) v else v
  | Clear c' => if keqb c c' then Some [] else v
  | Get _ _ => v
  end.

Lemma resolve_own s c : rinv s -> resolve s c = own s c.
Proof.
  intros V. unfold resolve. destruct (own s c) eqn:E; auto.
  destruct c; auto. apply (inv_base _ V).
Qed.

Lemma view_alloc s n c : rinv s ->
  view (alloc s (CSub n)) c = if keqb c (CSub n) then Some [] else view s c.
Proof.
  intros V. unfold view. rewrite own_alloc, (keqb_sym _ c).
  destruct (keqb (CSub n) c) eqn:E; cbn [option_map alloc upd_own upd_heap heap].
  - rewrite Nat.eqb_refl. reflexivity.
  - destruct (own s c) eqn:E'; cbn [option_map]; auto.
    apply (inv_lt _ V) in E'.
    assert (Nat.eqb (next s) n0 = false) as -> by (apply Nat.eqb_neq; lia). reflexivity.
Qed.
Lemma view_upd s c0 r d c : rinv s -> own s c0 = Some r ->
  view (upd_heap s r d) c = if keqb c c0 then Some d else view s c.
Proof.
  intros V E0. unfold view; simpl. destruct (keqb c c0) eqn:E.
  - apply keqb_eq in E; subst. rewrite E0; simpl. rewrite Nat.eqb_refl; reflexivity.
  - destruct (own s c) as [r'|] eqn:E'; simpl; auto.
    assert (Nat.eqb r r' = false) as ->.
    { apply Nat.eqb_neq. intros ->. apply keqb_neq in E. apply E.
      eapply inv_inj; eauto. }
    reflexivity.
Qed.
Lemma view_step s o c : no_base o -> rinv s ->
  view (rstep s o) c = vstep (view s c) c o.
Proof.
  intros NB V. destruct o as [c' k i|c' k|c' k|c']; cbn [rstep vstep]; auto.
  - destruct c' as [|n]; [destruct NB|].
    assert (forall s1 r, rinv s1 -> own s1 (CSub n) = Some r ->
              view (upd_heap s1 r (dset (heap s1 r) k i)) c =
              if keqb c (CSub n) then Some (dset (heap s1 r) k i) else view s1 c) as Hs
      by (intros; apply view_upd; auto).
    unfold r_create. destruct (resolve s (CSub n)) as [r|] eqn:E.
    + rewrite E. rewrite resolve_own in E by auto. rewrite Hs by auto.
      destruct (keqb c (CSub n)) eqn:Ec; auto.
      apply keqb_eq in Ec; subst. unfold view; rewrite E; reflexivity.
    + assert (rinv (alloc s (CSub n))) as V' by (apply rinv_alloc; auto).
      rewrite (resolve_own _ _ V').
      assert (own (alloc s (CSub n)) (CSub n) = Some (next s)) as Eo.
      { rewrite own_alloc, keqb_refl. reflexivity. }
      rewrite Eo. rewrite Hs by auto. rewrite view_alloc by auto.
      destruct (keqb c (CSub n)) eqn:Ec; auto.
      apply keqb_eq in Ec; subst. rewrite resolve_own in E by auto.
      unfold view; rewrite E. cbn [alloc upd_own upd_heap heap]. rewrite Nat.eqb_refl. reflexivity.
  - unfold r_del. rewrite resolve_own by auto.
    destruct (own s c') as [r|] eqn:E; simpl.
    + destruct (dmem (heap s r) k) eqn:Ed; simpl.
      * rewrite (view_upd s c' r) by auto. destruct (keqb c c') eqn:Ec; auto.
        apply keqb_eq in Ec; subst. unfold view; rewrite E; simpl. rewrite Ed. reflexivity.
      * destruct (keqb c c') eqn:Ec; auto.
        apply keqb_eq in Ec; subst. unfold view; rewrite E; simpl. rewrite Ed. reflexivity.
    + destruct (keqb c c') eqn:Ec; auto.
      apply keqb_eq in Ec; subst. unfold view; rewrite E; reflexivity.
  - destruct c' as [|n]; [destruct NB|]. unfold r_clear.
    rewrite view_alloc by auto. reflexivity.
Qed.

Lemma rinv_init : rinv rinit.
Proof. constructor; simpl; intros; try reflexivity; discriminate. Qed.

(** The per-class abstract history semantics. *)
Definition vrun (h : list rop) (c : pycls) : option (dict K I) :=
  fold_left (fun v o => vstep v c o) h None.

Lemma rrun_snoc h o : rrun (h ++ [o]) = rstep (rrun h) o.
Proof. unfold rrun. rewrite fold_left_app. reflexivity. Qed.
Lemma vrun_snoc h o c : vrun (h ++ [o]) c = vstep (vrun h c) c o.
Proof. unfold vrun. rewrite fold_left_app. reflexivity. Qed.

Lemma view_run h c : Forall no_base h -> rinv (rrun h) /\ view (rrun h) c = vrun h c.
Proof.
  revert c. induction h as [|o h IH] using rev_ind; intros c F.
  - split; [apply rinv_init | reflexivity].
  - apply Forall_app in F. destruct F as [F Fo]. inversion Fo; subst.
    rewrite rrun_snoc, vrun_snoc. split.
    + apply rinv_step; auto. apply (IH c); auto.
    + rewrite view_step; auto; [f_equal|]; apply IH; auto.
Qed.

Definition contents (v : option (dict K I)) : dict K I :=
  match v with Some d => d | None => [] end.

Lemma touched_snoc h o c : touched (h ++ [o]) c = touched h c || touched [o] c.
Proof. unfold touched. apply existsb_app. Qed.

Lemma vrun_touched h c : (if touched h c then true else false) =
  match vrun h c with Some _ => true | None => false end.
Proof.
  induction h as [|o h IH] using rev_ind; auto.
  rewrite touched_snoc, vrun_snoc. unfold touched at 2. simpl.
  destruct o as [c' k i|c' k|c' k|c']; simpl;
  try (destruct (keqb c c')); simpl; rewrite ?orb_true_r, ?orb_false_r; auto.
  rewrite IH. destruct (vrun h c); reflexivity.
Qed.

Lemma wf_vrun h c : wf (contents (vrun h c)).
Proof.
  induction h as [|o h IH] using rev_ind; [constructor|].
  rewrite vrun_snoc. destruct o as [c' k i|c' k|c' k|c']; simpl; auto;
  destruct (keqb c c'); auto.
  - apply wf_dset; exact IH.
  - destruct (vrun h c); simpl in *; auto. destruct (dmem d k); auto.
    apply wf_ddel; auto.
  - constructor.
Qed.

Lemma live_vrun h c k : dget (contents (vrun h c)) k = live (rev h) c k.
Proof.
  induction h as [|o h IH] using rev_ind; auto.
  rewrite vrun_snoc, rev_app_distr. simpl.
  pose proof (wf_vrun h c) as W.
  destruct o as [c' k' i|c' k'|c' k'|c']; simpl; auto;
  destruct (keqb c c') eqn:E; simpl; auto.
  - rewrite dget_dset, keqb_sym. change (match vrun h c with Some d => d | None => [] end) with (contents (vrun h c)).
    rewrite IH. reflexivity.
  - destruct (vrun h c) as [d|] eqn:Ev; simpl in *.
    + destruct (dmem d k') eqn:Ed.
      * rewrite dget_ddel by auto. rewrite IH, keqb_sym. reflexivity.
      * destruct (keqb k k') eqn:Ek; auto.
        apply keqb_eq in Ek; subst. unfold dmem in Ed. destruct (dget d k'); congruence.
    + rewrite <- IH. destruct (keqb k k'); reflexivity.
Qed.

Lemma birth_lt rh c k b : birth rh c k = Some b -> b < length rh.
Proof.
  revert b; induction rh as [|o t IH]; simpl; try discriminate.
  intros b. destruct o as [c' k' i|c' k'|c' k'|c']; simpl.
  - destruct (keqb c c' && keqb k k').
    + destruct (birth t c k) eqn:E; intros [= <-]; try lia.
      specialize (IH _ eq_refl); lia.
    + intros E; apply IH in E; lia.
  - intros E; apply IH in E; lia.
  - destruct (keqb c c' && keqb k k'); try discriminate.
    intros E; apply IH in E; lia.
  - destruct (keqb c c'); try discriminate.
    intros E; apply IH in E; lia.
Qed.

Lemma birth_live rh c k : (birth rh c k = None <-> live rh c k = None).
Proof.
  induction rh as [|o t IH]; simpl; [tauto|].
  destruct o as [c' k' i|c' k'|c' k'|c']; simpl; auto.
  - destruct (keqb c c' && keqb k k'); auto.
    destruct (birth t c k); split; discriminate.
  - destruct (keqb c c' && keqb k k'); tauto.
  - destruct (keqb c c'); tauto.
Qed.

Definition born_before (rh : list rop) (c : pycls) (a b : K) : Prop :=
  exists m n, birth rh c a = Some m /\ birth rh c b = Some n /\ m < n.

Lemma sorted_ext (P Q : K -> K -> Prop) l :
  (forall a b, In a l -> In b l -> P a b -> Q a b) ->
  StronglySorted P l -> StronglySorted Q l.
Proof.
  intros E S. induction S as [|a l S IH F].
  - constructor.
  - constructor.
    + apply IH. intros; apply E; simpl; auto.
    + rewrite Forall_forall in *. intros b I'. apply E; simpl; auto.
Qed.
Lemma sorted_snoc (P : K -> K -> Prop) l x :
  StronglySorted P l -> Forall (fun a => P a x) l -> StronglySorted P (l ++ [x]).
Proof.
  intros S F. induction S as [|a l S IH Fa]; simpl.
  - repeat constructor.
  - inversion F; subst. constructor; auto.
    rewrite Forall_app; split; auto.
Qed.
Lemma sorted_filter (P : K -> K -> Prop) f l :
  StronglySorted P l -> StronglySorted P (filter f l).
Proof.
  intros S. induction S as [|a l S IH Fa]; simpl; [constructor|].
  destruct (f a); auto. constructor; auto.
  rewrite Forall_forall in *. intros b I'. apply filter_In in I'. apply Fa; tauto.
Qed.

Lemma names_vrun h c k :
  In k (dkeys (contents (vrun h c))) <-> birth (rev h) c k <> None.
Proof.
  rewrite birth_live, <- live_vrun, dget_None.
  split; [tauto|]. destruct (in_dec (key_dec K) k (dkeys (contents (vrun h c)))); tauto.
Qed.

Lemma order_vrun h c : StronglySorted (born_before (rev h) c) (dkeys (contents (vrun h c))).
Proof.
  induction h as [|o h IH] using rev_ind; [constructor|].
  pose proof (names_vrun h c) as N. pose proof (wf_vrun h c) as W.
  rewrite vrun_snoc, rev_app_distr.
  change (rev [o] ++ rev h) with (o :: rev h).
  destruct o as [c' k' i|c' k'|c' k'|c'].
  - cbn [vstep]. destruct (keqb c c') eqn:E.
    2:{ eapply sorted_ext; [|exact IH]. intros a b _ _ (m & n & A & B & L).
        exists m, n. cbn [birth]. rewrite E. auto. }
    change (match vrun h c with Some d => d | None => [] end) with (contents (vrun h c)).
    cbn [contents]. rewrite dkeys_dset.
    assert (StronglySorted (born_before (Create c' k' i :: rev h) c)
              (dkeys (contents (vrun h c)))) as S1.
    { eapply sorted_ext; [|exact IH]. intros a b _ _ (m & n & A & B & L).
      exists m, n. cbn [birth]. rewrite E, A, B. cbn [andb].
      destruct (keqb a k'), (keqb b k'); auto. }
    destruct (dmem (contents (vrun h c)) k') eqn:Ed; auto.
    apply sorted_snoc; auto. rewrite Forall_forall. intros a Ia.
    destruct (birth (rev h) c a) as [m|] eqn:A; [|apply N in Ia; congruence].
    exists m, (length (rev h)). cbn [birth]. rewrite E, A, keqb_refl. cbn [andb].
    assert (birth (rev h) c k' = None) as ->.
    { destruct (birth (rev h) c k') eqn:B; auto.
      assert (In k' (dkeys (contents (vrun h c)))) as Ik by (apply N; congruence).
      apply dmem_In in Ik. congruence. }
    split; [|split; auto].
    + destruct (keqb a k'); auto.
    + eapply birth_lt; eauto.
  - cbn [vstep]. exact IH.
  - cbn [vstep]. destruct (keqb c c') eqn:E.
    2:{ eapply sorted_ext; [|exact IH]. intros a b _ _ (m & n & A & B & L).
        exists m, n. cbn [birth]. rewrite E. auto. }
    destruct (vrun h c) as [d|] eqn:Ev; cbn [option_map contents] in *; [|constructor].
    assert (StronglySorted (born_before (rev h) c) (filter (fun x => negb (keqb k' x)) (dkeys d))) as S1
      by (apply sorted_filter; auto).
    assert (dkeys (if dmem d k' then ddel d k' else d) = filter (fun x => negb (keqb k' x)) (dkeys d)) as ->.
    { destruct (dmem d k') eqn:Ed.
      - apply dkeys_ddel; auto.
      - symmetry. assert (~ In k' (dkeys d)) as Hn by (rewrite <- dmem_In; congruence).
        clear -Hn. induction (dkeys d) as [|a l IHl]; simpl in *; auto.
        assert (keqb k' a = false) as -> by (apply keqb_neq; intuition).
        simpl. f_equal. apply IHl; tauto. }
    eapply sorted_ext; [|exact S1]. intros a b Ia Ib (m & n & A & B & L).
    apply filter_In in Ia, Ib. exists m, n. cbn [birth]. rewrite E. cbn [andb].
    rewrite (keqb_sym _ a), (keqb_sym _ b).
    destruct Ia as [_ Ia], Ib as [_ Ib].
    destruct (keqb k' a), (keqb k' b); try discriminate. auto.
  - cbn [vstep]. destruct (keqb c c') eqn:E; [constructor|].
    eapply sorted_ext; [|exact IH]. intros a b _ _ (m & n & A & B & L).
    exists m, n. cbn [birth]. rewrite E. auto.
Qed.

(** ** Main facts about reachable states *)
Lemma get_spec h c k : Forall no_base h ->
  r_get (rrun h) c k =
    match live (rev h) c k with
    | Some i => Ok i
    | None => if touched h c then Err KeyError else Err AttributeError
    end.
Proof.
  intros F. destruct (view_run h c F) as [V E].
  unfold r_get. rewrite resolve_own by auto. rewrite <- live_vrun.
  pose proof (vrun_touched h c) as T. unfold view in E.
  destruct (own (rrun h) c) as [r|]; simpl in *; rewrite <- E in T |- *; simpl.
  - unfold dlookup. destruct (touched h c); try discriminate.
    destruct (dget (heap (rrun h) r) k); reflexivity.
  - destruct (touched h c); try discriminate; reflexivity.
Qed.
Lemma names_spec h c : Forall no_base h ->
  (touched h c = false -> r_names (rrun h) c = Err AttributeError) /\
  (touched h c = true -> exists l, r_names (rrun h) c = Ok l /\ NoDup l /\
      (forall k, In k l <-> live (rev h) c k <> None) /\
      StronglySorted (born_before (rev h) c) l).
Proof.
  intros F. destruct (view_run h c F) as [V E].
  unfold r_names. rewrite resolve_own by auto.
  pose proof (vrun_touched h c) as T. pose proof (wf_vrun h c) as W.
  pose proof (order_vrun h c) as O. pose proof (names_vrun h c) as N. unfold view in E.
  destruct (own (rrun h) c) as [r|]; simpl in *; rewrite <- E in *; simpl in *.
  - destruct (touched h c); try discriminate. split; [discriminate|].
    intros _. eexists; split; [reflexivity|]. repeat split; auto.
    + intros I1. rewrite <- birth_live. apply N; auto.
    + intros I1. apply N. rewrite birth_live; auto.
  - destruct (touched h c); try discriminate. split; [reflexivity|discriminate].
Qed.
Lemma del_spec h c k : Forall no_base h ->
  fst (r_del (rrun h) c k) =
    match live (rev h) c k with
    | Some i => Ok tt
    | None => if touched h c then Err KeyError else Err AttributeError
    end.
Proof.
  intros F. pose proof (get_spec h c k F) as G. unfold r_get, r_del, dlookup, dmem in *.
  destruct (resolve (rrun h) c) as [r|].
  - destruct (dget (heap (rrun h) r) k); destruct (live (rev h) c k); cbn [fst];
      try reflexivity; destruct (touched h c); congruence.
  - cbn [fst]. destruct (live (rev h) c k); [discriminate|].
    destruct (touched h c); congruence.
Qed.
(** Re-creating a live name keeps its birth, so its place. *)
Lemma birth_recreate rh c k i b : birth rh c k = Some b ->
  forall k', birth (Create c k i :: rh) c k' = birth rh c k'.
Proof.
  intros B k'. cbn [birth]. rewrite keqb_refl. cbn [andb].
  destruct (keqb k' k) eqn:E; auto. apply keqb_eq in E; subst. rewrite B; auto.
Qed.
Lemma live_other h c c' k i k' : c <> c' ->
  live (Create c k i :: h) c' k' = live h c' k' /\
  live (Del c k :: h) c' k' = live h c' k' /\ live (Clear c :: h) c' k' = live h c' k'.
Proof.
  intros N. assert (keqb c' c = false) as E by (apply keqb_neq; auto).
  cbn [live]. rewrite E. auto.
Qed.
Lemma classes_independent h c c' k i k' :
  Forall no_base h -> no_base (Create c k i) -> c <> c' ->
  r_get (rrun (h ++ [Create c k i])) c' k' = r_get (rrun h) c' k' /\
  r_get (rrun (h ++ [Del c k])) c' k' = r_get (rrun h) c' k' /\
  r_get (rrun (h ++ [Clear c])) c' k' = r_get (rrun h) c' k'.
Proof.
  intros F NB N. assert (no_base (Clear c) /\ no_base (Del c k)) as [NB1 NB2]
    by (destruct c; simpl in *; auto).
  rewrite !get_spec by (auto; apply Forall_app; auto).
  rewrite !rev_app_distr. cbn [rev app]. rewrite !touched_snoc.
  destruct (live_other (rev h) c c' k i k' N) as (-> & -> & ->).
  assert (keqb c' c = false) as E by (apply keqb_neq; auto).
  assert (touched [Create c k i] c' = false /\ touched [Del c k] c' = false /\
          touched [Clear c] c' = false) as (-> & -> & ->).
  { unfold touched; cbn [existsb]. rewrite E. auto. }
  rewrite orb_false_r. auto.
Qed.
End Registry.
Arguments rop : clear implicits.
Arguments rstate : clear implicits.

Lemma base_class_leak :
  exists (h : list (rop string nat)) k i,
    r_get (rrun (h ++ [Create (CSub 0) k i])) (CSub 1) k = Ok i /\
    r_get (rrun h) (CSub 1) k = Err KeyError.
Proof.
  exists [Clear CBase], "x"%string, 7. split; reflexivity.
Qed.
