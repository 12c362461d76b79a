(** The matchers between WET, WET-4, WET-3 and WET-2 (matchers/__init__.py
    37-76): all seven have the same body, with the target basis as parameter. *)
From Coq Require Import String List Bool Arith.
From Verif Require Import PyBase PyDict Cplx Wc Bases BasesFacts.
Import ListNotations.
Open Scope string_scope.
Open Scope list_scope.

(** The (source EFT, target EFT, basis) triples registered there. *)
Definition wetn_matchers : list (string * string * string) :=
  [("WET", "WET-4", "flavio"); ("WET-4", "WET-3", "flavio"); ("WET", "WET-4", "Bern");
   ("WET-4", "WET-3", "Bern"); ("WET", "WET-4", "JMS"); ("WET-4", "WET-3", "JMS");
   ("WET-3", "WET-2", "JMS")].

(** [keys = Basis[e, b].all_wcs; {k: v for k, v in C.items() if k in keys}] *)
Definition wetn_match (w : world) (e b : string) (d : dict string C) : res (dict string C) * world :=
  match basis_get w e b with
  | Err x => (Err x, w)
  | Ok id => let (r, w') := all_wcs w id in (rmap (fun l => key_filter l d) r, w')
  end.

Lemma key_filter_spec keys d : wf d ->
  wf (key_filter keys d) /\
  (forall k, dget (key_filter keys d) k = if mem k keys then dget d k else None) /\
  dkeys (key_filter keys d) = filter (fun k => mem k keys) (dkeys d).
Proof.
  intros W. split; [apply wf_filter; auto|]. split.
  - intros k. unfold key_filter. rewrite dget_filter by auto. simpl.
    destruct (dget d k); destruct (mem k keys); reflexivity.
  - unfold key_filter, dkeys. clear W. induction d as [|[k v] t IH]; simpl; auto.
    destruct (mem k keys); simpl; rewrite IH; reflexivity.
Qed.
Lemma key_filter_chain k1 k2 d :
  key_filter k2 (key_filter k1 d) = key_filter (filter (fun k => mem k k2) k1) d.
Proof.
  unfold key_filter. induction d as [|[k v] t IH]; simpl; auto.
  assert (mem k (filter (fun k => mem k k2) k1) = mem k k1 && mem k k2) as ->.
  { destruct (mem k k1) eqn:A; destruct (mem k k2) eqn:B; simpl.
    - apply mem_In. apply filter_In. split; [exact (proj1 (mem_In _ _ _) A)|exact B].
    - apply mem_notIn. rewrite filter_In. rewrite B. intuition discriminate.
    - apply mem_notIn. rewrite filter_In. rewrite mem_notIn in A. tauto.
    - apply mem_notIn. rewrite filter_In. rewrite mem_notIn in A. tauto. }
  destruct (mem k k1); simpl; [destruct (mem k k2); simpl|]; rewrite IH; reflexivity.
Qed.
Lemma key_filter_idem keys d : key_filter keys (key_filter keys d) = key_filter keys d.
Proof.
  unfold key_filter. induction d as [|[k v] t IH]; simpl; auto.
  destruct (mem k keys) eqn:E; simpl; [rewrite E|]; rewrite IH; reflexivity.
Qed.
Lemma wetn_ok w e b d id l : basis_get w e b = Ok id -> fst (all_wcs w id) = Ok l ->
  fst (wetn_match w e b d) = Ok (key_filter l d).
Proof.
  intros G A. unfold wetn_match. rewrite G. destruct (all_wcs w id); simpl in *. subst; reflexivity.
Qed.
Lemma wetn_err w e b d x : basis_get w e b = Err x -> wetn_match w e b d = (Err x, w).
Proof. intros G. unfold wetn_match. rewrite G. reflexivity. Qed.
(** Chaining across worlds: the first match may fill a cache. *)
Lemma wetn_chain w e1 e2 b d id1 id2 l1 l2 :
  basis_get w e1 b = Ok id1 -> fst (all_wcs w id1) = Ok l1 ->
  let w1 := snd (wetn_match w e1 b d) in
  basis_get w1 e2 b = Ok id2 -> fst (all_wcs w1 id2) = Ok l2 ->
  exists d1 d2, fst (wetn_match w e1 b d) = Ok d1 /\ fst (wetn_match w1 e2 b d1) = Ok d2 /\
    (forall k v, In (k, v) d2 <-> In (k, v) d /\ In k l1 /\ In k l2).
Proof.
  intros G1 A1 w1 G2 A2. exists (key_filter l1 d), (key_filter l2 (key_filter l1 d)).
  split; [eapply wetn_ok; eauto|]. split; [eapply wetn_ok; eauto|].
  intros k v. unfold key_filter. rewrite !filter_In. simpl. rewrite !mem_In. tauto.
Qed.
Lemma wetn_exact w e b d id l : wf d -> basis_get w e b = Ok id -> fst (all_wcs w id) = Ok l ->
  exists d', fst (wetn_match w e b d) = Ok d' /\ wf d' /\
    (forall k, dget d' k = if mem k l then dget d k else None) /\
    dkeys d' = filter (fun k => mem k l) (dkeys d).
Proof.
  intros W G A. exists (key_filter l d). split; [eapply wetn_ok; eauto|].
  apply key_filter_spec; auto.
Qed.
(** Matching a second time to the same EFT and basis changes nothing. *)
Lemma wetn_again w e b d d1 : fst (wetn_match w e b d) = Ok d1 ->
  fst (wetn_match (snd (wetn_match w e b d)) e b d1) = Ok d1.
Proof.
  unfold wetn_match at 1 3. destruct (basis_get w e b) as [id|] eqn:G; [|discriminate].
  destruct (all_wcs w id) as [[l|x] w'] eqn:A; simpl; [|discriminate]. intros [= <-].
  assert (cached w' id l) as C by (pose proof (read_caches w id l) as C; rewrite A in C; apply C; reflexivity).
  assert (w_bases w' = w_bases w) as B.
  { revert A. unfold all_wcs. destruct (nth_error (w_objs w) id); [|congruence]. destruct (bo_cache b0) as [[l0|]|]; try congruence.
    destruct (sectors_of w id); [|congruence]. destruct (names_of s); [|congruence]. intros [= <- <-]. reflexivity. }
  unfold wetn_match. unfold basis_get in *. rewrite B, G, (cached_read w' id l C). simpl. rewrite key_filter_idem. reflexivity.
Qed.
