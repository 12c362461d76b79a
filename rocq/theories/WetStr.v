(** Python strings and flavour dictionaries used by wcxf/translators/wet.py. *)
From Coq Require Import String Ascii List Bool Arith ZArith Lia.
From Verif Require Import PyBase PyDict Tensor WetExpr.
Import ListNotations.
Open Scope string_scope.
Open Scope list_scope.
Open Scope nat_scope.

(** [s[n]]; only used where [s[n]] has been looked up before, so that it exists *)
Definition ch (n : nat) (s : string) : string :=
  match String.get n s with Some a => String a "" | None => "" end.
Fixpoint starts_with (p s : string) : bool :=
  match p, s with
  | EmptyString, _ => true
  | String a p', String b s' => Ascii.eqb a b && starts_with p' s'
  | _, _ => false
  end.
(** [s.find(p, i)] *)
Fixpoint find_from (p s : string) (pos i : nat) : Z :=
  if (i <=? pos) && starts_with p s then Z.of_nat pos
  else match s with EmptyString => (-1)%Z | String _ t => find_from p t (S pos) i end.
Definition find (p s : string) (i : nat) : Z := find_from p s 0 i.
(** [s[lo:up]] *)
Definition clip (n : Z) (s : string) : nat :=
  let l := Z.of_nat (String.length s) in
  Z.to_nat (Z.max 0 (Z.min l (if Z.ltb n 0 then n + l else n))).
Definition slice (lo up : option Z) (s : string) : string :=
  let a := match lo with Some n => clip n s | None => 0 end in
  let b := match up with Some n => clip n s | None => String.length s end in
  String.substring a (b - a) s.
(** [s[::-1]] *)
Fixpoint rev_str_acc (s acc : string) : string :=
  match s with EmptyString => acc | String a t => rev_str_acc t (String a acc) end.
Definition rev_str (s : string) : string := rev_str_acc s "".

(** wet.py 19-22 *)
Definition dflav : dict string fl := [("d", F1); ("s", F2); ("b", F3)].
Definition uflav : dict string fl := [("u", F1); ("c", F2)].
Definition lflav : dict string fl := [("e", F1); ("mu", F2); ("tau", F3)].
Definition llflav : dict string fl := [("e", F1); ("m", F2); ("t", F3)].
(** A missing character is reported as KeyError instead of IndexError. *)
Definition flav (d : dict string fl) (k : string) : res fl := dlookup d k.
(** index minus one; Python reads -1 as the last position *)
Definition fl_pred (i : fl) : fl := match i with F1 => F3 | F2 => F1 | F3 => F2 end.
(** [{k: prefactor * v for k, v in dic.items()}] and [{k: v / prefactor ...}] *)
Definition mul_all (c : ex) (t : tmpl) : tmpl := map (fun kx => (fst kx, XMul c (snd kx))) t.
Definition div_all (t : tmpl) (c : ex) : tmpl := map (fun kx => (fst kx, XDiv (snd kx) c)) t.
