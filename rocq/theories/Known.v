(** Model of [EFT.known_bases], [EFT.known_translators] and
    [Basis.known_translators] (classes.py 203-211, 236-244) on top of the
    registry state machine. *)
From Coq Require Import String List Bool Arith Lia Sorted.
From Verif Require Import PyBase PyDict Registry.
Import ListNotations.
Open Scope string_scope.
Open Scope list_scope.

(** Instance names: a string (EFT, classes.py 199) or a tuple of strings
    (Basis 220, Translator 420, Matcher 439). *)
Inductive pyname := NStr (s : string) | NTup (l : list string).
Definition list_eqb (l m : list string) : bool :=
  if list_eq_dec string_dec l m then true else false.
Definition pyname_eqb (a b : pyname) : bool :=
  match a, b with
  | NStr s, NStr t => String.eqb s t
  | NTup l, NTup m => list_eqb l m
  | _, _ => false
  end.
Lemma pyname_eqb_eq a b : pyname_eqb a b = true <-> a = b.
Proof.
  destruct a, b; simpl; try (split; discriminate).
  - rewrite String.eqb_eq. split; congruence.
  - unfold list_eqb. destruct (list_eq_dec string_dec l l0); split; congruence.
Qed.
#[export] Instance Key_pyname : Key pyname :=
  {| keqb := pyname_eqb; keqb_eq := pyname_eqb_eq |}.

(** The four registered classes. *)
Definition cEFT := CSub 0.
Definition cBasis := CSub 1.
Definition cTranslator := CSub 2.
Definition cMatcher := CSub 3.

(** [t[i]] for a tuple or string name; only used on tuples of the right length
    by well-shaped histories.  Simplified: [t[i]] of a string name or an index
    beyond the tuple gives [None] (such names are not creatable through the
    constructors). *)
Definition nth_name (n : pyname) (i : nat) : option string :=
  match n with NTup l => nth_error l i | NStr _ => None end.
Definition name_is (n : pyname) (i : nat) (s : string) : bool :=
  match nth_name n i with Some t => String.eqb t s | None => false end.

Section Known.
Context {I : Type}.
Notation state := (rstate pyname I).

(** classes.py 203-206 *)
Definition known_bases (s : state) (eft : string) : res (list string) :=
  let! l := r_names s cBasis in
  mapM (fun n => match nth_name n 1 with Some b => Ok b | None => Err IndexError end)
       (filter (fun n => name_is n 0 eft) l).
(** classes.py 208-211 *)
Definition known_translators_eft (s : state) (eft : string) : res (list pyname) :=
  let! l := r_names s cTranslator in
  Ok (filter (fun n => name_is n 0 eft) l).
(** classes.py 236-244, the 'from' and 'to' entries *)
Definition known_translators_from (s : state) (eft basis : string) : res (list pyname) :=
  let! l := r_names s cTranslator in
  Ok (filter (fun n => name_is n 0 eft && name_is n 1 basis) l).
Definition known_translators_to (s : state) (eft basis : string) : res (list pyname) :=
  let! l := r_names s cTranslator in
  Ok (filter (fun n => name_is n 0 eft && name_is n 2 basis) l).

(** The names the four constructors create (classes.py 199, 220, 420, 439). *)
Definition well_shaped (o : rop pyname I) : Prop :=
  match o with
  | Create (CSub 0) n _ => exists e, n = NStr e
  | Create (CSub 1) n _ => exists e b, n = NTup [e; b]
  | Create (CSub 2) n _ => exists e f t, n = NTup [e; f; t]
  | Create (CSub 3) n _ => exists e f g t, n = NTup [e; f; g; t]
  | Create _ _ _ | Clear CBase => False
  | _ => True
  end.

Lemma well_shaped_no_base o : well_shaped o -> no_base o.
Proof. destruct o as [[|[|[|[|[|n]]]]] ? ?|? ?|? ?|[|?]]; simpl; auto. Qed.
Lemma shaped_no_base h : Forall well_shaped h -> Forall no_base h.
Proof. intros F; eapply Forall_impl; [|exact F]. apply well_shaped_no_base. Qed.

Lemma live_created (rh : list (rop pyname I)) c k :
  live rh c k <> None -> exists i, In (Create c k i) rh.
Proof.
  induction rh as [|o t IH]; simpl; [congruence|].
  destruct o as [c' k' i|c' k'|c' k'|c']; simpl.
  - destruct (keqb c c' && keqb k k') eqn:E.
    + apply andb_true_iff in E. destruct E as [E1 E2]. apply keqb_eq in E1, E2; subst.
      exists i; auto.
    + intros L; apply IH in L. destruct L as [j Hj]; eauto.
  - intros L; apply IH in L. destruct L as [j Hj]; eauto.
  - destruct (keqb c c' && keqb k k'); [congruence|].
    intros L; apply IH in L. destruct L as [j Hj]; eauto.
  - destruct (keqb c c'); [congruence|].
    intros L; apply IH in L. destruct L as [j Hj]; eauto.
Qed.

Lemma shaped_basis h k : Forall well_shaped h -> live (rev h) cBasis k <> None ->
  exists e b, k = NTup [e; b].
Proof.
  intros F L. apply live_created in L. destruct L as [i Hi].
  apply in_rev in Hi. rewrite Forall_forall in F. apply F in Hi. exact Hi.
Qed.
Lemma shaped_translator h k : Forall well_shaped h -> live (rev h) cTranslator k <> None ->
  exists e f t, k = NTup [e; f; t].
Proof.
  intros F L. apply live_created in L. destruct L as [i Hi].
  apply in_rev in Hi. rewrite Forall_forall in F. apply F in Hi. exact Hi.
Qed.

Lemma known_bases_spec h eft : Forall well_shaped h -> touched h cBasis = true ->
  exists l, known_bases (rrun h) eft = Ok l /\ NoDup l /\
    (forall b, In b l <-> live (rev h) cBasis (NTup [eft; b]) <> None) /\
    StronglySorted (fun a b => born_before (rev h) cBasis (NTup [eft; a]) (NTup [eft; b])) l.
Proof.
  intros F T. destruct (names_spec h cBasis (shaped_no_base _ F)) as [_ N].
  destruct (N T) as (l & El & ND & Hin & Hs). clear N.
  unfold known_bases. rewrite El. cbn [bind].
  assert (forall k, In k l -> exists e b, k = NTup [e; b]) as Sh.
  { intros k Hk. apply (shaped_basis h); auto. apply Hin; auto. }
  assert (forall l0 : list pyname, (forall k, In k l0 -> exists e b, k = NTup [e; b]) ->
     exists m, mapM (fun n => match nth_name n 1 with Some b => Ok b | None => Err IndexError end)
       (filter (fun n => name_is n 0 eft) l0) = Ok m /\
       filter (fun n => name_is n 0 eft) l0 = map (fun b => NTup [eft; b]) m) as G.
  { induction l0 as [|k t IH]; intros Sh0.
    - exists []; auto.
    - destruct IH as (m & E1 & E2); [intros; apply Sh0; simpl; auto|].
      destruct (Sh0 k (or_introl eq_refl)) as (e & b & ->).
      cbn [filter].
      assert (name_is (NTup [e; b]) 0 eft = String.eqb e eft) as -> by reflexivity.
      destruct (String.eqb e eft) eqn:Ee.
      + apply String.eqb_eq in Ee; subst. exists (b :: m). split.
        * unfold mapM in *. cbn [map sequence nth_name nth_error bind]. rewrite E1. reflexivity.
        * cbn [map]. f_equal; exact E2.
      + exists m; auto. }
  destruct (G l Sh) as (m & E1 & E2). exists m. split; auto.
  assert (NoDup (map (fun b => NTup [eft; b]) m)) as ND'.
  { rewrite <- E2. apply NoDup_filter; auto. }
  split; [eapply NoDup_map_inv; eauto|]. split.
  - intros b. rewrite <- Hin.
    assert (In b m <-> In (NTup [eft; b]) (map (fun b => NTup [eft; b]) m)) as ->.
    { rewrite in_map_iff. split; [eauto|]. intros (x & Ex & Ix). congruence. }
    rewrite <- E2, filter_In. unfold name_is; simpl. rewrite String.eqb_refl. tauto.
  - assert (StronglySorted (born_before (rev h) cBasis) (map (fun b => NTup [eft; b]) m)) as S
      by (rewrite <- E2; apply sorted_filter; auto).
    clear -S. induction m as [|b m IH]; simpl in *; [constructor|].
    inversion S as [|? ? S' Fa]; subst. constructor; auto.
    rewrite Forall_map in Fa. exact Fa.
Qed.

Lemma known_filter_spec h (f : pyname -> bool) : Forall well_shaped h -> touched h cTranslator = true ->
  exists l, (let! l := r_names (rrun h) cTranslator in Ok (filter f l)) = Ok l /\ NoDup l /\
    (forall t, In t l <-> live (rev h) cTranslator t <> None /\ f t = true) /\
    StronglySorted (born_before (rev h) cTranslator) l.
Proof.
  intros F T. destruct (names_spec h cTranslator (shaped_no_base _ F)) as [_ N].
  destruct (N T) as (l & El & ND & Hin & Hs). rewrite El. cbn [bind].
  eexists; split; [reflexivity|]. split; [apply NoDup_filter; auto|].
  split; [|apply sorted_filter; auto].
  intros t. rewrite filter_In, Hin. tauto.
Qed.
Lemma live_triple_split h t : Forall well_shaped h -> live (rev h) cTranslator t <> None ->
  forall eft i b, (name_is t i eft = true /\ name_is t i b = true -> eft = b).
Proof.
  intros _ _ eft i b [A B]. unfold name_is in *. destruct (nth_name t i); try discriminate.
  apply String.eqb_eq in A, B; congruence.
Qed.
Lemma known_tr_eft_spec h eft : Forall well_shaped h -> touched h cTranslator = true ->
  exists l, known_translators_eft (rrun h) eft = Ok l /\ NoDup l /\
    (forall t, In t l <-> live (rev h) cTranslator t <> None /\ exists f g, t = NTup [eft; f; g]) /\
    StronglySorted (born_before (rev h) cTranslator) l.
Proof.
  intros F T. destruct (known_filter_spec h (fun n => name_is n 0 eft) F T) as (l & A & B & D & E).
  exists l. repeat (split; auto).
  - apply D; auto.
  - apply D in H. destruct H as [L N]. destruct (shaped_translator _ _ F L) as (e & f & g & ->).
    unfold name_is in N; simpl in N. apply String.eqb_eq in N; subst. eauto.
  - intros (L & f & g & ->). apply D. split; auto. unfold name_is; simpl. apply String.eqb_refl.
Qed.
Lemma known_tr_from_spec h eft b : Forall well_shaped h -> touched h cTranslator = true ->
  exists l, known_translators_from (rrun h) eft b = Ok l /\ NoDup l /\
    (forall t, In t l <-> live (rev h) cTranslator t <> None /\ exists g, t = NTup [eft; b; g]) /\
    StronglySorted (born_before (rev h) cTranslator) l.
Proof.
  intros F T. destruct (known_filter_spec h (fun n => name_is n 0 eft && name_is n 1 b) F T) as (l & A & B & D & E).
  exists l. repeat (split; auto).
  - apply D; auto.
  - apply D in H. destruct H as [L N]. destruct (shaped_translator _ _ F L) as (e & f & g & ->).
    unfold name_is in N; simpl in N. apply andb_true_iff in N. destruct N as [N1 N2].
    apply String.eqb_eq in N1, N2; subst. eauto.
  - intros (L & g & ->). apply D. split; auto. unfold name_is; simpl. rewrite !String.eqb_refl; auto.
Qed.
Lemma known_tr_to_spec h eft b : Forall well_shaped h -> touched h cTranslator = true ->
  exists l, known_translators_to (rrun h) eft b = Ok l /\ NoDup l /\
    (forall t, In t l <-> live (rev h) cTranslator t <> None /\ exists f, t = NTup [eft; f; b]) /\
    StronglySorted (born_before (rev h) cTranslator) l.
Proof.
  intros F T. destruct (known_filter_spec h (fun n => name_is n 0 eft && name_is n 2 b) F T) as (l & A & B & D & E).
  exists l. repeat (split; auto).
  - apply D; auto.
  - apply D in H. destruct H as [L N]. destruct (shaped_translator _ _ F L) as (e & f & g & ->).
    unfold name_is in N; simpl in N. apply andb_true_iff in N. destruct N as [N1 N2].
    apply String.eqb_eq in N1, N2; subst. eauto.
  - intros (L & g & ->). apply D. split; auto. unfold name_is; simpl. rewrite !String.eqb_refl; auto.
Qed.
Lemma known_untouched h eft : Forall well_shaped h ->
  (touched h cBasis = false -> known_bases (rrun h) eft = Err AttributeError) /\
  (touched h cTranslator = false -> known_translators_eft (rrun h) eft = Err AttributeError).
Proof.
  intros F. unfold known_bases, known_translators_eft. split; intros T.
  - destruct (names_spec h cBasis (shaped_no_base _ F)) as [N _]. rewrite N; auto.
  - destruct (names_spec h cTranslator (shaped_no_base _ F)) as [N _]. rewrite N; auto.
Qed.
End Known.
