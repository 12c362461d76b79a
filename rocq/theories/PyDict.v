(** Python dictionaries (also [collections.OrderedDict]) as insertion-ordered
    association lists with pairwise distinct keys. *)
From Coq Require Import String List Bool Arith Lia.
From Verif Require Import PyBase.
Import ListNotations.

Section Dict.
Context {K V : Type} `{Key K}.

Definition dict := list (K * V).

(** [d[k]]: [None] stands for a raised KeyError. *)
Fixpoint dget (d : dict) (k : K) : option V :=
  match d with
  | [] => None
  | (k', v) :: t => if keqb k k' then Some v else dget t k
  end.
(** [d[k] = v]: replaces in place, or appends a new key at the end. *)
Fixpoint dset (d : dict) (k : K) (v : V) : dict :=
  match d with
  | [] => [(k, v)]
  | (k', v') :: t => if keqb k k' then (k', v) :: t else (k', v') :: dset t k v
  end.
(** [del d[k]] when the key is present. *)
Fixpoint ddel (d : dict) (k : K) : dict :=
  match d with
  | [] => []
  | (k', v) :: t => if keqb k k' then t else (k', v) :: ddel t k
  end.
Definition dkeys (d : dict) : list K := map fst d.
Definition dvals (d : dict) : list V := map snd d.
Definition dmem (d : dict) (k : K) : bool :=
  match dget d k with Some _ => true | None => false end.
(** [d1.update(d2)] *)
Definition dupdate (d1 d2 : dict) : dict :=
  fold_left (fun d kv => dset d (fst kv) (snd kv)) d2 d1.
(** [dict(pairs)] / a dict comprehension with computed keys. *)
Definition dict_of (l : list (K * V)) : dict := dupdate [] l.
(** Subscription raising KeyError. *)
Definition dlookup (d : dict) (k : K) : res V :=
  match dget d k with Some v => Ok v | None => Err KeyError end.

Definition wf (d : dict) : Prop := NoDup (dkeys d).

Lemma dget_dset_eq d k v : dget (dset d k v) k = Some v.
Proof.
  induction d as [|[k' v'] t IH]; simpl.
  - rewrite keqb_refl; reflexivity.
  - destruct (keqb k k') eqn:E; simpl; rewrite E; auto.
Qed.
Lemma dget_dset_neq d k k' v : k <> k' -> dget (dset d k v) k' = dget d k'.
Proof.
  intros N. induction d as [|[k2 v2] t IH]; simpl.
  - assert (keqb k' k = false) as -> by (apply keqb_neq; auto). reflexivity.
  - destruct (keqb k k2) eqn:E; simpl.
    + apply keqb_eq in E; subst.
      assert (keqb k' k2 = false) as -> by (apply keqb_neq; auto). reflexivity.
    + destruct (keqb k' k2); auto.
Qed.
Lemma dget_dset d k k' v :
  dget (dset d k v) k' = if keqb k k' then Some v else dget d k'.
Proof.
  destruct (keqb k k') eqn:E.
  - apply keqb_eq in E; subst. apply dget_dset_eq.
  - apply keqb_neq in E. apply dget_dset_neq; auto.
Qed.

Lemma dget_In d k v : dget d k = Some v -> In (k, v) d.
Proof.
  induction d as [|[k' v'] t IH]; simpl; try discriminate.
  destruct (keqb k k') eqn:E.
  - apply keqb_eq in E; subst. intros E; inversion E; auto.
  - auto.
Qed.
Lemma In_dget d k v : wf d -> In (k, v) d -> dget d k = Some v.
Proof.
  unfold wf. induction d as [|[k' v'] t IH]; simpl; [tauto|].
  intros W. inversion W as [|x l Hn W']; subst.
  intros [E|Hin].
  - inversion E; subst. rewrite keqb_refl; reflexivity.
  - destruct (keqb k k') eqn:E; auto.
    apply keqb_eq in E; subst. exfalso; apply Hn.
    apply (in_map fst) in Hin; exact Hin.
Qed.
Lemma dget_iff d k v : wf d -> (dget d k = Some v <-> In (k, v) d).
Proof. split; [apply dget_In | apply In_dget; auto]. Qed.
Lemma dget_None d k : dget d k = None <-> ~ In k (dkeys d).
Proof.
  induction d as [|[k' v'] t IH]; simpl; [tauto|].
  destruct (keqb k k') eqn:E.
  - apply keqb_eq in E; subst. split; [discriminate|tauto].
  - apply keqb_neq in E. rewrite IH. split; intros A B; apply A.
    + destruct B; congruence.
    + tauto.
Qed.
Lemma dget_Some_key d k v : dget d k = Some v -> In k (dkeys d).
Proof. intros E. apply dget_In in E. apply (in_map fst) in E; exact E. Qed.
Lemma key_dget d k : In k (dkeys d) -> exists v, dget d k = Some v.
Proof.
  intros I. destruct (dget d k) eqn:E; eauto.
  apply dget_None in E; tauto.
Qed.
Lemma dmem_In d k : dmem d k = true <-> In k (dkeys d).
Proof.
  unfold dmem. destruct (dget d k) eqn:E; split; try discriminate; try tauto.
  - intros _; eapply dget_Some_key; eauto.
  - apply dget_None in E; tauto.
Qed.

Lemma dkeys_dset d k v :
  dkeys (dset d k v) = if dmem d k then dkeys d else dkeys d ++ [k].
Proof.
  induction d as [|[k' v'] t IH]; simpl; auto.
  unfold dmem in *; simpl. destruct (keqb k k') eqn:E; simpl; auto.
  rewrite IH. destruct (dget t k); reflexivity.
Qed.
Lemma NoDup_snoc A (l : list A) x : NoDup l -> ~ In x l -> NoDup (l ++ [x]).
Proof.
  induction l as [|a t IH]; simpl; intros N I.
  - constructor; auto.
  - inversion N; subst. constructor.
    + rewrite in_app_iff; simpl. intuition.
    + apply IH; auto.
Qed.
Lemma wf_dset d k v : wf d -> wf (dset d k v).
Proof.
  unfold wf; intros W. rewrite dkeys_dset.
  destruct (dmem d k) eqn:E; auto.
  apply NoDup_snoc; auto. rewrite <- dmem_In, E; discriminate.
Qed.
Lemma In_dkeys_dset d k k' v : In k' (dkeys (dset d k v)) <-> k' = k \/ In k' (dkeys d).
Proof.
  rewrite dkeys_dset. destruct (dmem d k) eqn:E.
  - apply dmem_In in E. split; auto. intros [->|]; auto.
  - rewrite in_app_iff; simpl. intuition.
Qed.
Lemma dset_id d k v : dget d k = Some v -> dset d k v = d.
Proof.
  induction d as [|[k' v'] t IH]; simpl; try discriminate.
  destruct (keqb k k') eqn:E.
  - intros [= ->]. reflexivity.
  - intros G. rewrite IH; auto.
Qed.
Lemma dset_fresh d k v : ~ In k (dkeys d) -> dset d k v = d ++ [(k, v)].
Proof.
  induction d as [|[k' v'] t IH]; simpl; auto.
  intros N. destruct (keqb k k') eqn:E.
  - apply keqb_eq in E; subst; tauto.
  - rewrite IH; auto.
Qed.

Lemma dkeys_ddel_incl d k : incl (dkeys (ddel d k)) (dkeys d).
Proof.
  induction d as [|[k' v'] t IH]; simpl; intros x I; auto.
  destruct (keqb k k'); simpl in *; auto. destruct I; auto.
Qed.
Lemma wf_ddel d k : wf d -> wf (ddel d k).
Proof.
  unfold wf. induction d as [|[k' v'] t IH]; simpl; auto.
  intros W; inversion W; subst. destruct (keqb k k'); auto.
  simpl. constructor; auto. intros I. apply dkeys_ddel_incl in I; auto.
Qed.
Lemma dget_ddel d k k' : wf d ->
  dget (ddel d k) k' = if keqb k k' then None else dget d k'.
Proof.
  unfold wf. induction d as [|[k2 v2] t IH]; simpl; intros W.
  - destruct (keqb k k'); reflexivity.
  - inversion W as [|x l Hn W']; subst.
    destruct (keqb k k2) eqn:E.
    + apply keqb_eq in E; subst. destruct (keqb k2 k') eqn:E'.
      * apply keqb_eq in E'; subst. apply dget_None; auto.
      * assert (keqb k' k2 = false) as -> by (rewrite keqb_sym; auto). reflexivity.
    + simpl. destruct (keqb k' k2) eqn:E'; auto.
      apply keqb_eq in E'; subst. rewrite E. reflexivity.
Qed.
Lemma dkeys_ddel d k : wf d -> dkeys (ddel d k) = filter (fun x => negb (keqb k x)) (dkeys d).
Proof.
  unfold wf. induction d as [|[k' v'] t IH]; simpl; intros W; auto.
  inversion W as [|x l Hn W']; subst. destruct (keqb k k') eqn:E; simpl.
  - apply keqb_eq in E; subst. symmetry. rewrite <- (map_id (map fst t)) at 2.
    clear -Hn H. unfold dkeys in *. induction (map fst t) as [|a l IHl]; simpl; auto.
    simpl in Hn. assert (keqb k' a = false) as -> by (apply keqb_neq; intuition).
    simpl. rewrite IHl; [reflexivity | intuition].
  - rewrite IH; auto.
Qed.

Lemma dupdate_cons d k v l : dupdate d ((k, v) :: l) = dupdate (dset d k v) l.
Proof. reflexivity. Qed.
Lemma dupdate_app d l1 l2 : dupdate d (l1 ++ l2) = dupdate (dupdate d l1) l2.
Proof. unfold dupdate. apply fold_left_app. Qed.
Lemma wf_dupdate l d : wf d -> wf (dupdate d l).
Proof.
  revert d; induction l as [|[k v] t IH]; auto.
  intros d W. rewrite dupdate_cons. apply IH. apply wf_dset; auto.
Qed.
Lemma wf_dict_of l : wf (dict_of l).
Proof. apply wf_dupdate. constructor. Qed.
(** last binding wins *)
Fixpoint dget_last (l : list (K * V)) (k : K) : option V :=
  match l with
  | [] => None
  | (k', v) :: t => match dget_last t k with
                    | Some w => Some w
                    | None => if keqb k k' then Some v else None
                    end
  end.
Lemma dget_dupdate l d k :
  dget (dupdate d l) k = match dget_last l k with Some v => Some v | None => dget d k end.
Proof.
  revert d; induction l as [|[k' v'] t IH]; auto.
  intros d. rewrite dupdate_cons, IH, dget_dset. simpl.
  destruct (dget_last t k); auto. rewrite keqb_sym.
  destruct (keqb k k'); reflexivity.
Qed.
Lemma dget_last_wf l k : wf l -> dget_last l k = dget l k.
Proof.
  unfold wf; induction l as [|[k' v'] t IH]; simpl; auto.
  intros W; inversion W as [|x y Hn W']; subst. rewrite IH; auto.
  destruct (keqb k k') eqn:E.
  - apply keqb_eq in E; subst.
    assert (dget t k' = None) as -> by (apply dget_None; auto). reflexivity.
  - destruct (dget t k); reflexivity.
Qed.
Lemma In_dkeys_dupdate l d k :
  In k (dkeys (dupdate d l)) <-> In k (dkeys d) \/ In k (map fst l).
Proof.
  revert d; induction l as [|[k' v'] t IH]; intros d; [simpl; unfold dupdate; simpl; tauto|].
  rewrite dupdate_cons, IH, In_dkeys_dset. simpl. intuition.
Qed.
Lemma dict_of_wf l : NoDup (map fst l) -> dict_of l = l.
Proof.
  unfold dict_of. assert (forall d : dict, NoDup (map fst (d ++ l)) -> dupdate d l = d ++ l) as G.
  { revert l. induction l as [|[k v] t IH]; intros d N.
    - rewrite app_nil_r; reflexivity.
    - rewrite dupdate_cons, dset_fresh.
      + rewrite IH.
        * rewrite <- app_assoc; reflexivity.
        * rewrite <- app_assoc; exact N.
      + rewrite map_app in N; simpl in N. apply NoDup_remove_2 in N.
        intros I; apply N; rewrite in_app_iff; auto. }
  intros N; apply (G []); exact N.
Qed.

(** Filtering by key or value keeps order and distinctness. *)
Lemma wf_filter (f : K * V -> bool) d : wf d -> wf (filter f d).
Proof.
  unfold wf. induction d as [|[k v] t IH]; simpl; auto.
  intros W; inversion W as [|x l Hn W']; subst. destruct (f (k, v)); auto.
  simpl. constructor; auto. intros I. apply Hn.
  clear -I. induction t as [|[k' v'] t IH]; simpl in *; auto.
  destruct (f (k', v')); simpl in *; intuition.
Qed.
Lemma dget_filter (f : K * V -> bool) d k : wf d ->
  dget (filter f d) k = match dget d k with
                        | Some v => if f (k, v) then Some v else None
                        | None => None end.
Proof.
  unfold wf. induction d as [|[k' v'] t IH]; simpl; auto.
  intros W; inversion W as [|x l Hn W']; subst.
  destruct (keqb k k') eqn:E.
  - apply keqb_eq in E; subst. destruct (f (k', v')) eqn:F; simpl.
    + rewrite keqb_refl; reflexivity.
    + rewrite IH; auto. assert (dget t k' = None) as -> by (apply dget_None; auto). reflexivity.
  - destruct (f (k', v')); simpl; auto. rewrite E; auto.
Qed.

(** Two dictionaries with the same keys in the same order and the same lookups
    are the same list. *)
Lemma dict_ext d1 d2 : wf d1 -> dkeys d1 = dkeys d2 ->
  (forall k, In k (dkeys d1) -> dget d1 k = dget d2 k) -> d1 = d2.
Proof.
  revert d2; induction d1 as [|[k v] t IH]; intros [|[k2 v2] t2]; simpl; intros W E G;
    try discriminate; auto.
  injection E as E1 E2; subst. unfold wf in W; simpl in W.
  inversion W as [|x l Hn W']; subst. f_equal.
  - specialize (G k2 (or_introl eq_refl)). rewrite keqb_refl in G. congruence.
  - apply IH; auto. intros k' I. specialize (G k' (or_intror I)).
    assert (keqb k' k2 = false) as E3 by (apply keqb_neq; intros ->; auto).
    rewrite E3 in G; exact G.
Qed.
End Dict.
Arguments dict : clear implicits.
Arguments wf {K V} d.

(** Value-wise map [{k: f(v) for k, v in d.items()}]. *)
Definition dmap {K V W} (f : V -> W) (d : dict K V) : dict K W :=
  map (fun kv => (fst kv, f (snd kv))) d.
Lemma dkeys_dmap K V W (f : V -> W) (d : dict K V) : dkeys (dmap f d) = dkeys d.
Proof. unfold dkeys, dmap. rewrite map_map; reflexivity. Qed.
Lemma wf_dmap K V W (f : V -> W) (d : dict K V) : wf d -> wf (dmap f d).
Proof. unfold wf; rewrite dkeys_dmap; auto. Qed.
Lemma dget_dmap K V W `{Key K} (f : V -> W) (d : dict K V) k :
  dget (dmap f d) k = option_map f (dget d k).
Proof.
  induction d as [|[k' v'] t IH]; simpl; auto.
  destruct (keqb k k'); auto.
Qed.
Lemma dmap_dmap K V W X (f : V -> W) (g : W -> X) (d : dict K V) :
  dmap g (dmap f d) = dmap (fun v => g (f v)) d.
Proof. unfold dmap. rewrite map_map; reflexivity. Qed.
Lemma dmap_ext K V W (f g : V -> W) (d : dict K V) :
  (forall k v, In (k, v) d -> f v = g v) -> dmap f d = dmap g d.
Proof.
  intros E; unfold dmap; apply map_ext_in. intros [k v] I; simpl. f_equal; eauto.
Qed.
Lemma dmap_id K V (d : dict K V) : dmap (fun v => v) d = d.
Proof. unfold dmap. rewrite <- (map_id d) at 2. apply map_ext. intros [k v]; reflexivity. Qed.
