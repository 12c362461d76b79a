(** C69: what the comparison of numbers in the fixed text of the SMEFTsim cards means. *)
From Coq Require Import String Ascii List Bool Arith ZArith Reals Lia Lra.
From Verif Require Import SmeftSimText.
Import ListNotations.
Open Scope string_scope.
Open Scope list_scope.

(** Digits as text, and their value *)
Fixpoint numeral (l : list nat) : string := match l with [] => "" | d :: t => String (ascii_of_nat (48 + d)) (numeral t) end.
Definition value (l : list nat) : Z := fold_left (fun z d => (10 * z + Z.of_nat d)%Z) l 0%Z.
Definition digits (l : list nat) : Prop := Forall (fun d => d < 10) l.

Lemma digit_cases (P : nat -> Prop) : P 0 -> P 1 -> P 2 -> P 3 -> P 4 -> P 5 -> P 6 -> P 7 -> P 8 -> P 9 -> forall d, d < 10 -> P d.
Proof. intros. do 10 (destruct d as [|d]; [assumption|]). lia. Qed.
Lemma int_digits l : digits l -> forall k, int_f k (numeral l) = Some (fold_left (fun z d => (10 * z + Z.of_nat d)%Z) l k).
Proof.
  induction 1 as [|d l D _ IH]; intros k; [reflexivity|]. cbn [numeral int_f fold_left]. rewrite <- IH. revert d D. apply digit_cases; reflexivity.
Qed.
Lemma dec_digits l : digits l -> forall m e frac s, dec_f m e frac (numeral l ++ s) =
  dec_f (fold_left (fun z d => (10 * z + Z.of_nat d)%Z) l m) (if frac then e - Z.of_nat (length l) else e)%Z frac s.
Proof.
  induction 1 as [|d l D _ IH]; intros m e frac s.
  - cbn [numeral append fold_left length]. f_equal. destruct frac; lia.
  - assert (dec_f m e frac (numeral (d :: l) ++ s) = dec_f (10 * m + Z.of_nat d) (if frac then e - 1 else e)%Z frac (numeral l ++ s)) as ->.
    { cbn [numeral append]. revert d D. apply digit_cases; reflexivity. }
    rewrite IH. cbn [fold_left]. f_equal. destruct frac; [|reflexivity]. change (length (d :: l)) with (S (length l)). lia.
Qed.
(** The three forms in which the cards write numbers *)
Theorem C69_reading : forall a b c, digits a -> digits b -> digits c ->
  dec (numeral a) = Some (value a, 0%Z) /\
  dec (numeral a ++ "." ++ numeral b) = Some (value (a ++ b), - Z.of_nat (length b))%Z /\
  dec (numeral a ++ "." ++ numeral b ++ "e+" ++ numeral c) = Some (value (a ++ b), - Z.of_nat (length b) + value c)%Z /\
  dec (numeral a ++ "." ++ numeral b ++ "e-" ++ numeral c) = Some (value (a ++ b), - Z.of_nat (length b) - value c)%Z.
Proof.
  intros a b c A B C. unfold dec, value. rewrite fold_left_app.
  assert (forall s, s ++ "" = s)%string as E by (induction s as [|x s IH]; [reflexivity|cbn; rewrite IH; reflexivity]).
  split; [rewrite <- (E (numeral a)), (dec_digits a A); reflexivity|].
  assert (forall s, dec_f 0 0 false (numeral a ++ "." ++ numeral b ++ s) =
    dec_f (fold_left (fun z d => (10 * z + Z.of_nat d)%Z) b (fold_left (fun z d => (10 * z + Z.of_nat d)%Z) a 0%Z)) (- Z.of_nat (length b)) true s) as Q.
  { intros s. rewrite (dec_digits a A). cbn [append]. change (dec_f ?m 0 false (String "." ?t)) with (dec_f m 0 true t). rewrite (dec_digits b B). reflexivity. }
  split; [rewrite <- (E (numeral b)), Q; reflexivity|]. split; rewrite Q; cbn [append dec_f]; rewrite (int_digits c C); reflexivity.
Qed.

(** The number that a mantissa and an exponent stand for *)
Definition real (x : Z * Z) : R := (IZR (fst x) * powerRZ 10 (snd x))%R.
Lemma real_shift m e k : (k <= e)%Z -> real (m, e) = (IZR (m * 10 ^ (e - k)) * powerRZ 10 k)%R.
Proof.
  intros L. unfold real. cbn [fst snd]. rewrite mult_IZR, Rmult_assoc. f_equal.
  replace e with ((e - k) + k)%Z at 1 by lia. rewrite powerRZ_add by lra. f_equal.
  rewrite <- (Z2Nat.id (e - k)) by lia. generalize (Z.to_nat (e - k)). intros n. rewrite <- pow_powerRZ, pow_IZR. reflexivity.
Qed.
(** Two texts are held equal iff both are numbers and these are equal. *)
Theorem C69_equal_numbers : forall s t, same_number s t = true <-> exists x y, dec s = Some x /\ dec t = Some y /\ real x = real y.
Proof.
  intros s t. unfold same_number. destruct (dec s) as [[m e]|]; [|split; [discriminate|intros (x & y & Q & _); discriminate]].
  destruct (dec t) as [[m' e']|]; [|split; [discriminate|intros (x & y & _ & Q & _); discriminate]].
  assert (real (m, e) = real (m', e') <-> (m * 10 ^ (e - Z.min e e') = m' * 10 ^ (e' - Z.min e e'))%Z) as Q.
  { rewrite (real_shift m e (Z.min e e')), (real_shift m' e' (Z.min e e')) by lia. split.
    - intros H. apply eq_IZR. eapply Rmult_eq_reg_r; [exact H|]. apply powerRZ_NOR. lra.
    - intros ->. reflexivity. }
  rewrite Z.eqb_eq, <- Q. split; [intros H; exists (m, e), (m', e'); auto|]. intros (x & y & [= <-] & [= <-] & H). exact H.
Qed.
Example C69_numbers_case : dec "7.815553e-03" = Some (7815553%Z, (-9)%Z) /\ same_number "9.118760e+01" "91.1876" = true /\ same_number "4.70e-03" "0.0047" = true /\
  same_number "4.70e-03" "4700" = false /\ "7.815553e-03" = (numeral [7] ++ "." ++ numeral [8; 1; 5; 5; 5; 3] ++ "e-" ++ numeral [0; 3])%string.
Proof. repeat split; vm_compute; reflexivity. Qed.
Print Assumptions C69_reading.
Print Assumptions C69_equal_numbers.
