(** Python primitives shared by all models: exceptions as values and
    decidable keys.  Not tied to a particular file of /repo. *)
From Coq Require Import String Ascii List Bool Arith ZArith.
Import ListNotations.
Open Scope string_scope.
Open Scope list_scope.

(** The Python exception classes that the modelled code raises or catches. *)
Inductive exn : Type :=
| KeyError | AttributeError | ValueError | AssertionError | IndexError
| TypeError | ZeroDivisionError | UnboundLocalError | FileNotFoundError
| YAMLError | JSONDecodeError | SystemExit
| UserError (msg : string)  (* any other exception class, by name *).

Definition exn_eq_dec (a b : exn) : {a = b} + {a <> b}.
Proof. decide equality; apply string_dec. Defined.

(** Outcome of a Python call: a value or a raised exception. *)
Inductive res (A : Type) : Type :=
| Ok (a : A)
| Err (e : exn).
Arguments Ok {A} _.
Arguments Err {A} _.

Definition bind {A B} (r : res A) (f : A -> res B) : res B :=
  match r with Ok a => f a | Err e => Err e end.
Definition rmap {A B} (f : A -> B) (r : res A) : res B :=
  match r with Ok a => Ok (f a) | Err e => Err e end.
Notation "'let!' x ':=' r 'in' f" := (bind r (fun x => f))
  (at level 200, x pattern, r at level 100, f at level 200, right associativity).

Definition is_ok {A} (r : res A) : bool :=
  match r with Ok _ => true | Err _ => false end.

(** Evaluate a list of computations from left to right, stopping at the first
    exception (as a Python display or comprehension does). *)
Fixpoint sequence {A} (l : list (res A)) : res (list A) :=
  match l with
  | [] => Ok []
  | r :: t => let! a := r in let! u := sequence t in Ok (a :: u)
  end.
Definition mapM {A B} (f : A -> res B) (l : list A) : res (list B) :=
  sequence (map f l).

Lemma bind_ok A B (r : res A) (f : A -> res B) b :
  bind r f = Ok b <-> exists a, r = Ok a /\ f a = Ok b.
Proof.
  destruct r as [a|e]; simpl; split.
  - intros H; exists a; auto.
  - intros (a' & H1 & H2). inversion H1; subst; auto.
  - discriminate.
  - intros (a & H & _); discriminate.
Qed.

Lemma bind_assoc A B C (r : res A) (f : A -> res B) (g : B -> res C) :
  bind (bind r f) g = bind r (fun a => bind (f a) g).
Proof. destruct r; reflexivity. Qed.

Lemma mapM_ok_iff A B (f : A -> res B) (l : list A) (v : list B) :
  mapM f l = Ok v <-> Forall2 (fun a b => f a = Ok b) l v.
Proof.
  revert v; induction l as [|a t IH]; intros v; unfold mapM in *; simpl.
  - split.
    + intros H; inversion H; constructor.
    + intros H; inversion H; reflexivity.
  - rewrite bind_ok. split.
    + intros (b & Hb & H). apply bind_ok in H. destruct H as (u & Hu & H).
      inversion H; subst. constructor; auto. apply IH; auto.
    + intros H. inversion H; subst. exists y; split; auto.
      apply bind_ok. exists l'; split; auto. apply IH; auto.
Qed.

Lemma mapM_ext A B (f g : A -> res B) (l : list A) :
  (forall a, In a l -> f a = g a) -> mapM f l = mapM g l.
Proof.
  intros H; unfold mapM; f_equal. apply map_ext_in; auto.
Qed.

Lemma mapM_total A B (f : A -> B) (l : list A) :
  mapM (fun a => Ok (f a)) l = Ok (map f l).
Proof.
  unfold mapM; induction l as [|a t IH]; simpl; auto.
  simpl in IH. rewrite IH. reflexivity.
Qed.

Lemma mapM_app A B (f : A -> res B) l1 l2 :
  mapM f (l1 ++ l2) = (let! a := mapM f l1 in let! b := mapM f l2 in Ok (a ++ b)).
Proof.
  unfold mapM. induction l1 as [|a t IH]; simpl.
  - destruct (sequence (map f l2)); reflexivity.
  - destruct (f a); simpl; auto. rewrite IH.
    destruct (sequence (map f t)); simpl; auto.
    destruct (sequence (map f l2)); reflexivity.
Qed.

(** Keys of Python dictionaries: types with decidable equality. *)
Class Key (K : Type) := { keqb : K -> K -> bool;
                          keqb_eq : forall a b, keqb a b = true <-> a = b }.

Arguments keqb {K} {_} a b : simpl never.
#[export] Instance Key_string : Key string :=
  {| keqb := String.eqb; keqb_eq := String.eqb_eq |}.
#[export] Instance Key_nat : Key nat :=
  {| keqb := Nat.eqb; keqb_eq := Nat.eqb_eq |}.
#[export] Instance Key_N : Key N :=
  {| keqb := N.eqb; keqb_eq := N.eqb_eq |}.
Lemma prod_keqb_eq A B `{Key A} `{Key B} (x y : A * B) :
  keqb (fst x) (fst y) && keqb (snd x) (snd y) = true <-> x = y.
Proof.
  destruct x as [x1 x2], y as [y1 y2]; simpl.
  rewrite andb_true_iff, !keqb_eq. split.
  - intros [-> ->]; reflexivity.
  - intros E; inversion E; auto.
Qed.
#[export] Instance Key_prod A B `{Key A} `{Key B} : Key (A * B) :=
  {| keqb := fun x y => keqb (fst x) (fst y) && keqb (snd x) (snd y);
     keqb_eq := prod_keqb_eq A B |}.

Lemma keqb_refl K `{Key K} (a : K) : keqb a a = true.
Proof. apply keqb_eq; reflexivity. Qed.
Lemma keqb_neq K `{Key K} (a b : K) : keqb a b = false <-> a <> b.
Proof.
  rewrite <- not_true_iff_false, keqb_eq. reflexivity.
Qed.
Lemma keqb_sym K `{Key K} (a b : K) : keqb a b = keqb b a.
Proof.
  destruct (keqb a b) eqn:E.
  - apply keqb_eq in E; subst. symmetry; apply keqb_refl.
  - apply keqb_neq in E. symmetry; apply keqb_neq; auto.
Qed.
Definition key_dec K `{Key K} (a b : K) : {a = b} + {a <> b}.
Proof.
  destruct (keqb a b) eqn:E.
  - left; apply (proj1 (keqb_eq a b)); exact E.
  - right; apply (proj1 (keqb_neq _ a b)); exact E.
Defined.

(** [k in l] for a Python list of hashable items. *)
Definition mem {K} `{Key K} (k : K) (l : list K) : bool := existsb (keqb k) l.
Lemma mem_In K `{Key K} (k : K) l : mem k l = true <-> In k l.
Proof.
  unfold mem. rewrite existsb_exists. split.
  - intros (x & Hx & E). apply keqb_eq in E; subst; auto.
  - intros Hk. exists k; split; auto. apply keqb_refl.
Qed.
Lemma mem_notIn K `{Key K} (k : K) l : mem k l = false <-> ~ In k l.
Proof. rewrite <- mem_In, not_true_iff_false; reflexivity. Qed.
