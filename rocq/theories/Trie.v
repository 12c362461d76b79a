(** Sets of strings as binary tries, to make the finite checks fast. *)
From Coq Require Import String Ascii List Bool.
From Verif Require Import PyBase.
Import ListNotations.

Inductive trie := Empty | Node (here : bool) (zero one : trie).
Fixpoint bmem (k : list bool) (t : trie) : bool :=
  match t with
  | Empty => false
  | Node h z o => match k with [] => h | b :: k' => bmem k' (if b then o else z) end
  end.
Fixpoint badd (k : list bool) (t : trie) : trie :=
  let '(h, z, o) := match t with Empty => (false, Empty, Empty) | Node h z o => (h, z, o) end in
  match k with
  | [] => Node true z o
  | b :: k' => if b then Node h z (badd k' o) else Node h (badd k' z) o
  end.
Fixpoint leqb (a b : list bool) : bool :=
  match a, b with [], [] => true | x :: a', y :: b' => Bool.eqb x y && leqb a' b' | _, _ => false end.
Lemma bmem_add k : forall t k', bmem k' (badd k t) = leqb k k' || bmem k' t.
Proof.
  induction k as [|b k IH]; intros t k'.
  - destruct t as [|h z o], k' as [|b' k']; cbn; auto. destruct b'; destruct k'; reflexivity.
  - destruct t as [|h z o], k' as [|b' k']; destruct b; cbn; auto; destruct b'; cbn; rewrite ?IH; auto.
    all: destruct k'; cbn; rewrite ?orb_false_r; auto.
Qed.
Lemma leqb_eq a : forall b, leqb a b = true <-> a = b.
Proof.
  induction a as [|x a IH]; intros [|y b]; cbn; split; intros H; try discriminate; auto.
  - apply andb_true_iff in H as [H K]. apply Bool.eqb_prop in H. apply IH in K. congruence.
  - injection H as -> ->. rewrite Bool.eqb_reflx. apply IH. reflexivity.
Qed.
Fixpoint bits (s : string) : list bool :=
  match s with
  | EmptyString => []
  | String (Ascii a0 a1 a2 a3 a4 a5 a6 a7) s' => a0 :: a1 :: a2 :: a3 :: a4 :: a5 :: a6 :: a7 :: bits s'
  end.
Lemma bits_inj s : forall s', bits s = bits s' -> s = s'.
Proof.
  induction s as [|[] s IH]; intros [|[] s'] H; cbn in H; try discriminate; auto. injection H as <- <- <- <- <- <- <- <- H. f_equal. auto.
Qed.
Definition tmem (s : string) (t : trie) : bool := bmem (bits s) t.
Definition tadd (s : string) (t : trie) : trie := badd (bits s) t.
Fixpoint build (l : list string) : trie := match l with [] => Empty | s :: l' => tadd s (build l') end.
Lemma tmem_add s s' t : tmem s' (tadd s t) = String.eqb s s' || tmem s' t.
Proof.
  unfold tmem, tadd. rewrite bmem_add. f_equal. destruct (String.eqb_spec s s') as [->|N].
  - apply leqb_eq. reflexivity.
  - destruct (leqb (bits s) (bits s')) eqn:E; auto. apply leqb_eq, bits_inj in E. congruence.
Qed.
Lemma build_mem l s : tmem s (build l) = existsb (String.eqb s) l.
Proof. induction l as [|x l IH]; [unfold tmem; destruct (bits s); reflexivity|]. cbn [build existsb]. rewrite tmem_add, IH, String.eqb_sym. reflexivity. Qed.
Lemma build_In l s : tmem s (build l) = true <-> In s l.
Proof.
  rewrite build_mem, existsb_exists. split.
  - intros (x & I & E). apply String.eqb_eq in E. subst. exact I.
  - intros I. exists s. split; auto. apply String.eqb_refl.
Qed.
(** No string twice. *)
Fixpoint distinct (l : list string) (t : trie) : bool :=
  match l with [] => true | s :: l' => negb (tmem s t) && distinct l' (tadd s t) end.
Lemma distinct_gen l : forall t, distinct l t = true -> NoDup l /\ forall s, In s l -> tmem s t = false.
Proof.
  induction l as [|x l IH]; intros t H; cbn [distinct] in H.
  - split; [constructor|intros s []].
  - apply andb_true_iff in H as [M H]. apply negb_true_iff in M. apply IH in H as [N H]. split.
    + constructor; auto. intros I. apply H in I. rewrite tmem_add, String.eqb_refl in I. discriminate.
    + intros s [<-|I]; auto. apply H in I. rewrite tmem_add in I. apply orb_false_iff in I. tauto.
Qed.
Lemma distinct_ok l : distinct l Empty = true -> NoDup l.
Proof. intros H. apply (distinct_gen _ _ H). Qed.
