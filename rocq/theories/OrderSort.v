(** A printer that sorts the keys meets the laws that are assumed of the YAML texts. *)
From Coq Require Import String Ascii List Bool Arith ZArith Reals Permutation.
From Verif Require Import PyBase PyDict Wc Dump DumpInit JsonText JsonFacts JsonMore JsonSpec Order.
Import ListNotations.
Open Scope string_scope.
Open Scope list_scope.
Open Scope nat_scope.

Fixpoint put_in (k : string) (v : doc) (m : list (string * doc)) : list (string * doc) :=
  match m with [] => [(k, v)] | (k', v') :: r => if String.ltb k k' then (k, v) :: m else (k', v') :: put_in k v r end.
(** The keys of all mappings are sorted. *)
Fixpoint sorted (d : doc) : doc :=
  match d with
  | DList l => DList (map sorted l)
  | DMap m => DMap ((fix go m := match m with [] => [] | (k, v) :: r => put_in k (sorted v) (go r) end) m)
  | _ => d
  end.
Fixpoint sort_map (m : list (string * doc)) : list (string * doc) := match m with [] => [] | (k, v) :: r => put_in k (sorted v) (sort_map r) end.
Lemma sorted_map m : sorted (DMap m) = DMap (sort_map m).
Proof. cbn [sorted]. f_equal; induction m as [|[k v] r IH]; cbn; congruence. Qed.
Lemma put_in_perm k v m : Permutation (put_in k v m) ((k, v) :: m).
Proof.
  induction m as [|[k' v'] r IH]; cbn [put_in]; [apply Permutation_refl|]. destruct (String.ltb k k'); [apply Permutation_refl|].
  apply (Permutation_trans (perm_skip _ IH)). apply perm_swap.
Qed.
Lemma sort_perm m : Permutation (sort_map m) (map (fun kv => (fst kv, sorted (snd kv))) m).
Proof. induction m as [|[k v] r IH]; cbn; [constructor|]. exact (Permutation_trans (put_in_perm _ _ _) (perm_skip _ IH)). Qed.
Lemma sort_get (m : dict string doc) : wf m -> wf (sort_map m) /\ forall k, dget (sort_map m) k = option_map sorted (dget m k).
Proof.
  intros W. pose proof (sort_perm m) as P. assert (map fst (map (fun kv : string * doc => (fst kv, sorted (snd kv))) m) = map fst m) as Q by (rewrite map_map; reflexivity).
  assert (wf (sort_map m)) as W1. { unfold wf, dkeys. eapply Permutation_NoDup; [apply Permutation_sym, Permutation_map, P|]. rewrite Q. exact W. }
  split; [exact W1|]. intros k. destruct (dget m k) as [v|] eqn:E; cbn [option_map].
  - apply In_dget; [exact W1|]. apply (Permutation_in _ (Permutation_sym P)). apply dget_In in E. exact (in_map (fun kv : string * doc => (fst kv, sorted (snd kv))) _ _ E).
  - apply dget_None. intros I. apply dget_None in E. apply E. unfold dkeys in *. rewrite <- Q. exact (Permutation_in _ (Permutation_map fst P) I).
Qed.
Section Texts.
Variable num_value : string -> R.
Variable wide : nat -> string.
Variable num_text : R -> string.
Notation written := (JsonSpec.written num_text num_value).
Notation loads := (json_loads num_value wide).
Notation dumps := (json_dumps num_text None).
Lemma written_distinct d : written d -> distinct d.
Proof.
  induction d as [| b | x | s | l IH | m IH] using doc_rec'; intros W; try constructor.
  - inversion W as [| | | |? H|]; subst. rewrite Forall_forall in *. auto.
  - inversion W; subst; assumption.
  - inversion W as [| | | | |? N H]; subst. intros k v E. rewrite Forall_forall in IH. apply dget_In in E. apply (IH (k, v) E). exact (H k v E).
Qed.
Lemma written_same d : forall d', written d -> same_doc d d' -> written d'.
Proof.
  induction d as [| b | x | s | l IH | m IH] using doc_rec'; intros d' W S; inversion S as [| | | |? l' F|? m' W1 W2 N V]; subst; auto.
  - constructor. inversion W as [| | | |? H|]; subst. clear S W. intros d I. induction F as [|x y l l' Q F IHF]; [contradiction|]. inversion IH; subst. destruct I as [<-|I].
    + apply (H2 y); [apply H; left; reflexivity|exact Q].
    + apply IHF; auto. intros z Iz. apply H. right. exact Iz.
  - inversion W as [| | | | |? N' H]; subst. constructor; [exact W2|]. intros k v' I. apply (In_dget m' k v' W2) in I. destruct (dget m k) as [v|] eqn:E; [|apply N in E; congruence].
    rewrite Forall_forall in IH. pose proof (dget_In _ _ _ E) as Im. exact (IH (k, v) Im v' (H k v Im) (V k v v' E I)).
Qed.
Lemma sorted_same d : distinct d -> same_doc d (sorted d).
Proof.
  induction d as [| b | x | s | l IH | m IH] using doc_rec'; intros D; try (constructor; fail).
  - inversion D as [| | | |? F|]; subst. cbn. constructor. clear D. induction l as [|x l IHl]; constructor; inversion IH; inversion F; subst; auto.
  - inversion D as [| | | | |? Wm F]; subst. rewrite sorted_map. destruct (sort_get m Wm) as [W1 G]. constructor; auto.
    + intros k. rewrite G. destruct (dget m k); cbn; split; congruence.
    + intros k v v' E E'. rewrite G, E in E'. cbn in E'. injection E' as <-. rewrite Forall_forall in IH. apply (IH (k, v) (dget_In _ _ _ E)). exact (F k v E).
Qed.
(** The texts: the sorted document as JSON, marked so that it is not JSON *)
Definition sort_dump (d : doc) : string := String "%" (dumps (sorted d)).
Definition sort_load (s : string) : res doc := match s with String _ t => loads t | EmptyString => Ok DNull end.
Theorem sort_laws : (forall d, written d -> exists d', loads (dumps d) = Ok d' /\ same_doc d d') /\
  (forall d, written d -> exists d', sort_load (sort_dump d) = Ok d' /\ same_doc d d') /\
  (forall m, m <> [] -> written (DMap m) -> exists x, loads (sort_dump (DMap m)) = Err x /\ (x = ValueError \/ x = JSONDecodeError)) /\
  (forall d d', written d -> same_doc d d' -> written d') /\ loads "" = Err JSONDecodeError /\ sort_load "" = Ok DNull.
Proof.
  split; [|split; [|split; [|split; [|split]]]].
  - intros d W. exists d. split; [apply loads_dumps, written_doc, W|]. apply same_refl, written_distinct, W.
  - intros d W. exists (sorted d). pose proof (sorted_same d (written_distinct d W)) as S. split; [|exact S]. cbn. apply loads_dumps, written_doc. exact (written_same d _ W S).
  - intros m _ _. exists JSONDecodeError. split; [reflexivity|auto].
  - exact written_same.
  - reflexivity.
  - reflexivity.
Qed.
End Texts.
