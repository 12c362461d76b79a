(** The number format '.6e' of Python (used throughout converters/smeftsim.py) on
    real and complex numbers, and a reader of decimal floating point texts.
    Simplified: no signed zeros, infinities or nan. *)
From Coq Require Import String Ascii List Bool Arith ZArith Reals Lra Lia.
Import ListNotations.
Open Scope string_scope.
Open Scope list_scope.
Open Scope Z_scope.

Definition ten (e : Z) : R := powerRZ 10 e.
(** The power of ten just below |x| *)
Definition expo (x : R) : Z := Int_part (ln (Rabs x) / ln 10).
(** The nearest integer; halves go to the even one. *)
Definition half_even (x : R) : Z :=
  let n := Int_part x in
  if Rlt_dec (x - IZR n) (1 / 2) then n else if Rlt_dec (1 / 2) (x - IZR n) then n + 1 else if Z.even n then n else n + 1.
(** The seven digits and the exponent printed for x *)
Definition sci (x : R) : Z * Z :=
  if Req_EM_T x 0 then (0, 0) else
  let e := expo x in let m := half_even (Rabs x / ten (e - 6)) in
  if m =? 10000000 then (1000000, e + 1) else (m, e).
Definition digit (d : Z) : ascii := ascii_of_nat (48 + Z.to_nat d).
Definition mantissa (m : Z) (t : string) : string :=
  String (digit (m / 1000000)) (String "." (String (digit (m / 100000 mod 10)) (String (digit (m / 10000 mod 10))
  (String (digit (m / 1000 mod 10)) (String (digit (m / 100 mod 10)) (String (digit (m / 10 mod 10)) (String (digit (m mod 10)) t))))))).
(** A natural number in decimal, in front of [t] *)
Fixpoint show_aux (fuel : nat) (n : Z) (t : string) : string :=
  let u := String (digit (n mod 10)) t in
  match fuel with O => u | S f => if n <? 10 then u else show_aux f (n / 10) u end.
Definition show (n : Z) (t : string) : string := show_aux (Z.to_nat n) n t.
(** At least two digits *)
Definition exponent (e : Z) (t : string) : string :=
  String (if (e <? 0)%Z then "-" else "+") (if Z.abs e <? 10 then String "0" (show (Z.abs e) t) else show (Z.abs e) t).
Definition body (x : R) (t : string) : string := mantissa (fst (sci x)) (String "e" (exponent (snd (sci x)) t)).
(** format(x, '.6e') in front of [t] *)
Definition fmt_app (x : R) (t : string) : string := if Rlt_dec x 0 then String "-" (body x t) else body x t.
Definition fmt (x : R) : string := fmt_app x "".
(** format(x + 1j*y, '.6e') *)
Definition fmt_complex (x y : R) : string :=
  fmt_app x (if Rlt_dec y 0 then fmt_app y "j" else String "+" (fmt_app y "j")).

(** ** Reading: [sign] digits [. digits] [e [sign] digits] *)
Definition digit_val (c : ascii) : option Z :=
  let n := nat_of_ascii c in if Nat.leb 48 n && Nat.leb n 57 then Some (Z.of_nat n - 48) else None.
(** Value, number of digits, rest *)
Fixpoint digits (s : string) (acc k : Z) : Z * Z * string :=
  match s with
  | String c t => match digit_val c with Some d => digits t (10 * acc + d) (k + 1) | None => (acc, k, s) end
  | EmptyString => (acc, k, s)
  end.
Definition sign (s : string) : bool * string :=
  match s with
  | String c t => if Ascii.eqb c "-" then (true, t) else if Ascii.eqb c "+" then (false, t) else (false, s)
  | EmptyString => (false, s)
  end.
Definition read_number (s : string) : option R :=
  let (neg, s) := sign s in
  let '(i, k, s) := digits s 0 0 in
  let '(m, l, s) := match s with
                    | String c t => if Ascii.eqb c "." then digits t i 0 else (i, 0, s)
                    | EmptyString => (i, 0, s) end in
  if k + l =? 0 then None else
  let value e := Some ((if neg then -1 else 1) * IZR m * ten (e - l))%R in
  match s with
  | EmptyString => value 0
  | String c t =>
      if Ascii.eqb c "e" || Ascii.eqb c "E" then
        let (n, t) := sign t in
        let '(x, j, r) := digits t 0 0 in
        if j =? 0 then None else match r with EmptyString => value (if n then - x else x) | _ => None end
      else None
  end.

(** * Facts *)
Lemma Rabs_between a b : (Rabs a <= b -> - b <= a <= b)%R.
Proof. unfold Rabs. destruct (Rcase_abs a); lra. Qed.
Lemma ten_pos e : (0 < ten e)%R.
Proof. apply powerRZ_lt. lra. Qed.
Lemma ten_add a b : ten (a + b) = (ten a * ten b)%R.
Proof. apply powerRZ_add. lra. Qed.
Lemma ln10_pos : (0 < ln 10)%R.
Proof. rewrite <- ln_1. apply ln_increasing; lra. Qed.
Lemma ten_exp e : ten e = exp (IZR e * ln 10).
Proof. unfold ten. rewrite powerRZ_Rpower by lra. reflexivity. Qed.
Lemma Int_part_spec x : (IZR (Int_part x) <= x < IZR (Int_part x) + 1)%R.
Proof. pose proof (base_Int_part x). lra. Qed.
Lemma Int_part_unique x n : (IZR n <= x < IZR n + 1)%R -> Int_part x = n.
Proof.
  intros H. pose proof (Int_part_spec x) as S.
  assert (IZR (Int_part x) < IZR (n + 1))%R as A by (rewrite plus_IZR; lra).
  assert (IZR n < IZR (Int_part x + 1))%R as B by (rewrite plus_IZR; lra).
  apply lt_IZR in A. apply lt_IZR in B. lia.
Qed.
Lemma expo_spec x : (x <> 0 -> ten (expo x) <= Rabs x < ten (expo x + 1))%R.
Proof.
  intros N. assert (0 < Rabs x)%R as P by (apply Rabs_pos_lt; auto).
  pose proof ln10_pos as T. pose proof (Int_part_spec (ln (Rabs x) / ln 10)) as [A B]. fold (expo x) in A, B.
  assert (ln (Rabs x) = ln (Rabs x) / ln 10 * ln 10)%R as E by (field; lra).
  rewrite !ten_exp, plus_IZR. rewrite <- (exp_ln (Rabs x)) by auto. split.
  - assert (IZR (expo x) * ln 10 <= ln (Rabs x))%R as H by (rewrite E; apply Rmult_le_compat_r; lra).
    destruct H as [H|H]; [left; apply exp_increasing, H|right; rewrite H; reflexivity].
  - apply exp_increasing. rewrite E. apply Rmult_lt_compat_r; lra.
Qed.
Lemma expo_unique x e : (ten e <= Rabs x < ten (e + 1))%R -> expo x = e.
Proof.
  intros [A B]. pose proof ln10_pos as T. pose proof (ten_pos e) as P. apply Int_part_unique.
  assert (forall k, ln (ten k) = IZR k * ln 10)%R as L by (intros k; rewrite ten_exp; apply ln_exp).
  split.
  - apply (Rmult_le_reg_r (ln 10)); auto. replace (ln (Rabs x) / ln 10 * ln 10)%R with (ln (Rabs x)) by (field; lra).
    rewrite <- L. destruct A as [A|A]; [left; apply ln_increasing; auto|right; rewrite A; auto].
  - apply (Rmult_lt_reg_r (ln 10)); auto. replace (ln (Rabs x) / ln 10 * ln 10)%R with (ln (Rabs x)) by (field; lra).
    replace 1%R with (IZR 1) by reflexivity. rewrite <- plus_IZR, <- L. apply ln_increasing; lra.
Qed.
Lemma half_even_spec x : (Rabs (IZR (half_even x) - x) <= 1 / 2)%R.
Proof.
  unfold half_even. pose proof (Int_part_spec x) as S. set (n := Int_part x) in *.
  destruct (Rlt_dec (x - IZR n) (1/2)); [|destruct (Rlt_dec (1/2) (x - IZR n)); [|destruct (Z.even n)]]; rewrite ?plus_IZR; apply Rabs_le; lra.
Qed.
Lemma half_even_int n : half_even (IZR n) = n.
Proof.
  unfold half_even. rewrite (Int_part_unique (IZR n) n) by lra. destruct (Rlt_dec (IZR n - IZR n) (1/2)) as [|N]; [reflexivity|lra].
Qed.
Lemma half_even_le a b (x : R) : (IZR a <= x <= IZR b)%R -> a <= half_even x <= b.
Proof.
  intros [A B]. pose proof (Int_part_spec x) as S. unfold half_even. set (n := Int_part x) in *.
  assert (a <= n) as L1. { assert (IZR a < IZR (n + 1))%R as Q by (rewrite plus_IZR; lra). apply lt_IZR in Q. lia. }
  assert (n <= b) as L2. { apply le_IZR. lra. }
  assert ((x - IZR n < 1/2)%R \/ n + 1 <= b) as L3.
  { destruct (Rlt_dec (x - IZR n) (1/2)); [left; auto|right]. assert (IZR n < IZR b)%R as Q by lra. apply lt_IZR in Q. lia. }
  destruct (Rlt_dec (x - IZR n) (1/2)); [lia|]. destruct L3 as [|L3]; [tauto|].
  destruct (Rlt_dec (1/2) (x - IZR n)); [lia|]. destruct (Z.even n); lia.
Qed.
Lemma ten6 e : (ten e = 1000000 * ten (e - 6))%R.
Proof. replace e with (6 + (e - 6)) at 1 by lia. rewrite ten_add. f_equal. unfold ten. simpl. ring. Qed.
Lemma ten7 e : (ten (e + 1) = 10000000 * ten (e - 6))%R.
Proof. replace (e + 1) with (7 + (e - 6)) by lia. rewrite ten_add. f_equal. unfold ten. simpl. ring. Qed.
Lemma scaled x : x <> 0%R -> (1000000 <= Rabs x / ten (expo x - 6) <= 10000000)%R.
Proof.
  intros N. pose proof (expo_spec x N) as [A B]. pose proof (ten_pos (expo x - 6)) as P.
  rewrite ten6 in A. rewrite ten7 in B. split; apply (Rmult_le_reg_r (ten (expo x - 6))); auto;
    replace (Rabs x / ten (expo x - 6) * ten (expo x - 6))%R with (Rabs x) by (field; lra); lra.
Qed.
Definition value (m e : Z) : R := (IZR m * ten (e - 6))%R.
(** The digits printed: seven, the first not 0 (unless x = 0), at relative distance at most half a unit. *)
Lemma sci_spec x : let (m, e) := sci x in
  (x = 0%R /\ m = 0 /\ e = 0 \/ x <> 0%R /\ 1000000 <= m <= 9999999) /\ (Rabs (value m e - Rabs x) <= 5 / 10000000 * Rabs x)%R.
Proof.
  unfold sci. destruct (Req_EM_T x 0) as [->|N].
  { split; [left; auto|]. unfold value. rewrite Rmult_0_l, Rabs_R0, Rminus_0_r, Rabs_R0. lra. }
  pose proof (scaled x N) as S. pose proof (half_even_le 1000000 10000000 _ S) as H.
  pose proof (half_even_spec (Rabs x / ten (expo x - 6))) as D. set (m := half_even _) in *.
  pose proof (expo_spec x N) as [A _]. pose proof (ten_pos (expo x - 6)) as P. rewrite ten6 in A.
  assert (Rabs (value m (expo x) - Rabs x) <= 5 / 10000000 * Rabs x)%R as E.
  { unfold value. replace (IZR m * ten (expo x - 6) - Rabs x)%R with ((IZR m - Rabs x / ten (expo x - 6)) * ten (expo x - 6))%R by (field; lra).
    rewrite Rabs_mult, (Rabs_pos_eq (ten _)) by lra.
    apply Rle_trans with (1 / 2 * ten (expo x - 6))%R; [apply Rmult_le_compat_r; lra|lra]. }
  destruct (Z.eqb_spec m 10000000) as [->|M].
  - split; [right; split; [auto|lia]|]. replace (value 1000000 (expo x + 1)) with (value 10000000 (expo x)); auto.
    unfold value. replace (expo x + 1 - 6) with (1 + (expo x - 6)) by lia. rewrite ten_add. unfold ten at 2. simpl. ring.
  - split; [right; split; [auto|lia]|]. exact E.
Qed.

(** ** Digits *)
Lemma digit_read d : 0 <= d <= 9 -> digit_val (digit d) = Some d.
Proof.
  intros H. assert (forallb (fun n => match digit_val (digit (Z.of_nat n)) with Some z => z =? Z.of_nat n | None => false end) (seq 0 10) = true) as F by reflexivity.
  rewrite forallb_forall in F. specialize (F (Z.to_nat d)). rewrite Z2Nat.id in F by lia.
  assert (In (Z.to_nat d) (seq 0 10)) as I by (apply in_seq; lia). apply F in I.
  destruct (digit_val (digit d)) as [z|]; [|discriminate]. apply Z.eqb_eq in I. congruence.
Qed.
Definition stops (t : string) : Prop := match t with EmptyString => True | String c _ => digit_val c = None end.
Lemma digits_stop t acc k : stops t -> digits t acc k = (acc, k, t).
Proof. destruct t as [|c t]; [reflexivity|]. simpl. intros ->. reflexivity. Qed.
Lemma digits_digit d t acc k : 0 <= d <= 9 -> digits (String (digit d) t) acc k = digits t (10 * acc + d) (k + 1).
Proof. intros H. cbn [digits]. rewrite digit_read by auto. reflexivity. Qed.
Lemma show_aux_read fuel : forall n t acc k, 0 <= n -> (Z.to_nat n <= fuel)%nat ->
  exists j, 0 < j /\ digits (show_aux fuel n t) acc k = digits t (acc * 10 ^ j + n) (k + j).
Proof.
  induction fuel as [|f IH]; intros n t acc k N F.
  - assert (n = 0) as -> by lia. exists 1. split; [lia|]. simpl show_aux. change (0 mod 10) with 0. rewrite digits_digit by lia. f_equal; lia.
  - cbn [show_aux]. pose proof (Z.mod_pos_bound n 10 ltac:(lia)) as B. destruct (Z.ltb_spec n 10) as [L|L].
    + exists 1. split; [lia|]. rewrite digits_digit by lia. rewrite Z.mod_small by lia. f_equal; lia.
    + destruct (IH (n / 10) (String (digit (n mod 10)) t) acc k) as (j & J & E).
      { apply Z.div_pos; lia. }
      { pose proof (Z.div_lt n 10 ltac:(lia) ltac:(lia)). lia. }
      exists (j + 1). split; [lia|]. rewrite E, digits_digit by lia. pose proof (Z.div_mod n 10 ltac:(lia)) as D.
      rewrite Z.pow_add_r, Z.pow_1_r by lia. f_equal; lia.
Qed.
Lemma show_read n t k : 0 <= n -> stops t -> exists j, 0 < j /\ digits (show n t) 0 k = (n, k + j, t).
Proof.
  intros N S. destruct (show_aux_read (Z.to_nat n) n t 0 k N (le_n _)) as (j & J & E). exists j. split; auto.
  unfold show. rewrite E, digits_stop by auto. reflexivity.
Qed.
Lemma exponent_read e t : stops t -> exists n s x j, sign (exponent e t) = (n, s) /\ digits s 0 0 = (x, j, t) /\ 0 < j /\ (if n then - x else x) = e.
Proof.
  intros S. unfold exponent.
  assert (exists j, 0 < j /\ digits (if Z.abs e <? 10 then String "0" (show (Z.abs e) t) else show (Z.abs e) t) 0 0 = (Z.abs e, j, t)) as (j & J & D).
  { destruct (Z.abs e <? 10).
    - change "0"%char with (digit 0). rewrite digits_digit by lia. destruct (show_read (Z.abs e) t (0 + 1) ltac:(lia) S) as (j & J & D).
      change (10 * 0 + 0) with 0. rewrite D. exists (0 + 1 + j). split; [lia|]. reflexivity.
    - destruct (show_read (Z.abs e) t 0 ltac:(lia) S) as (j & J & D). rewrite D. exists (0 + j). split; [lia|]. reflexivity. }
  destruct (Z.ltb_spec e 0) as [L|L].
  - exists true, (if Z.abs e <? 10 then String "0" (show (Z.abs e) t) else show (Z.abs e) t), (Z.abs e), j. repeat split; auto. lia.
  - exists false, (if Z.abs e <? 10 then String "0" (show (Z.abs e) t) else show (Z.abs e) t), (Z.abs e), j. repeat split; auto. lia.
Qed.
Lemma mantissa_split m : 0 <= m <= 9999999 ->
  10 * (10 * (10 * (10 * (10 * (10 * (m / 1000000) + m / 100000 mod 10) + m / 10000 mod 10) + m / 1000 mod 10) + m / 100 mod 10) + m / 10 mod 10) + m mod 10 = m.
Proof.
  intros H.
  replace (m / 1000000) with (m / 100000 / 10) by (rewrite Z.div_div by lia; reflexivity).
  rewrite <- (Z.div_mod (m / 100000) 10) by lia. replace (m / 100000) with (m / 10000 / 10) by (rewrite Z.div_div by lia; reflexivity).
  rewrite <- (Z.div_mod (m / 10000) 10) by lia. replace (m / 10000) with (m / 1000 / 10) by (rewrite Z.div_div by lia; reflexivity).
  rewrite <- (Z.div_mod (m / 1000) 10) by lia. replace (m / 1000) with (m / 100 / 10) by (rewrite Z.div_div by lia; reflexivity).
  rewrite <- (Z.div_mod (m / 100) 10) by lia. replace (m / 100) with (m / 10 / 10) by (rewrite Z.div_div by lia; reflexivity).
  rewrite <- (Z.div_mod (m / 10) 10) by lia. rewrite <- (Z.div_mod m 10) by lia. reflexivity.
Qed.
(** What the reader makes of a formatted number followed by [t] *)
Definition read_body (neg : bool) (s : string) : option R :=
  let '(i, k, s) := digits s 0 0 in
  let '(m, l, s) := match s with
                    | String c t => if Ascii.eqb c "." then digits t i 0 else (i, 0, s)
                    | EmptyString => (i, 0, s) end in
  if k + l =? 0 then None else
  let value e := Some ((if neg then -1 else 1) * IZR m * ten (e - l))%R in
  match s with
  | EmptyString => value 0
  | String c t =>
      if Ascii.eqb c "e" || Ascii.eqb c "E" then
        let (n, t) := sign t in
        let '(x, j, r) := digits t 0 0 in
        if j =? 0 then None else match r with EmptyString => value (if n then - x else x) | _ => None end
      else None
  end.
Lemma read_mantissa neg m t e : 0 <= m <= 9999999 -> stops t ->
  read_body neg (mantissa m (String "e" (exponent e t))) =
  match t with EmptyString => Some ((if neg then -1 else 1) * IZR m * ten (e - 6))%R | _ => None end.
Proof.
  intros H S. pose proof (mantissa_split m H) as M. pose proof (exponent_read e t S) as (n & s & x & j & E1 & E2 & J & X).
  revert M. assert (0 <= m / 1000000 <= 9) as B0 by (split; [apply Z.div_pos; lia|apply Z.lt_succ_r, Z.div_lt_upper_bound; lia]).
  assert (forall k, 0 <= k mod 10 <= 9) as B by (intros k; pose proof (Z.mod_pos_bound k 10); lia).
  unfold read_body, mantissa. set (d0 := m / 1000000) in *.
  pose proof (B (m / 100000)) as B1. set (d1 := (m / 100000) mod 10) in *.
  pose proof (B (m / 10000)) as B2. set (d2 := (m / 10000) mod 10) in *. pose proof (B (m / 1000)) as B3. set (d3 := (m / 1000) mod 10) in *.
  pose proof (B (m / 100)) as B4. set (d4 := (m / 100) mod 10) in *. pose proof (B (m / 10)) as B5. set (d5 := (m / 10) mod 10) in *.
  pose proof (B m) as B6. set (d6 := m mod 10) in *. clearbody d0 d1 d2 d3 d4 d5 d6. intros M.
  rewrite digits_digit by auto. rewrite (digits_stop (String "." _)) by reflexivity. cbv beta iota.
  change (Ascii.eqb "." ".") with true. cbv beta iota.
  rewrite !digits_digit by auto. rewrite (digits_stop (String "e" _)) by reflexivity. cbv beta iota.
  replace (10 * (10 * (10 * (10 * (10 * (10 * (10 * 0 + d0) + d1) + d2) + d3) + d4) + d5) + d6) with m by lia.
  change (0 + 1 + (0 + 1 + 1 + 1 + 1 + 1 + 1) =? 0) with false. cbv iota. change (Ascii.eqb "e" "e" || Ascii.eqb "e" "E") with true. cbv beta iota.
  rewrite E1, E2. destruct (Z.eqb_spec j 0); [lia|]. rewrite X. destruct t; reflexivity.
Qed.
Lemma sign_body x t : sign (body x t) = (false, body x t).
Proof.
  unfold body, mantissa. pose proof (sci_spec x) as S. destruct (sci x) as [m e]. cbn [fst snd].
  assert (0 <= m / 1000000 <= 9) as B.
  { split; [apply Z.div_pos; lia|apply Z.lt_succ_r, Z.div_lt_upper_bound; lia]. }
  pose proof (digit_read _ B) as D. unfold sign. set (d := m / 1000000) in *.
  destruct (Ascii.eqb_spec (digit d) "-") as [Q|_]; [rewrite Q in D; discriminate|].
  destruct (Ascii.eqb_spec (digit d) "+") as [Q|_]; [rewrite Q in D; discriminate|]. reflexivity.
Qed.
Definition signed (x : R) : R := ((if Rlt_dec x 0 then -1 else 1) * value (fst (sci x)) (snd (sci x)))%R.
Lemma read_fmt_app x t : stops t -> read_number (fmt_app x t) = match t with EmptyString => Some (signed x) | _ => None end.
Proof.
  intros S. pose proof (sci_spec x) as P. unfold fmt_app, signed.
  assert (0 <= fst (sci x) <= 9999999) as B by (destruct (sci x); cbn [fst]; lia).
  destruct (Rlt_dec x 0) as [L|L].
  - change (read_number (String "-" (body x t))) with (read_body true (body x t)). unfold body. rewrite read_mantissa by auto.
    destruct t; [|reflexivity]. f_equal. unfold value. ring.
  - transitivity (read_body false (body x t)).
    { unfold read_number. rewrite sign_body. reflexivity. }
    unfold body. rewrite read_mantissa by auto. destruct t; [|reflexivity]. f_equal. unfold value. ring.
Qed.
(** ** The printed number reads back with a relative error of at most 5e-7 *)
Lemma signed_near x : (Rabs (signed x - x) <= 5 / 10000000 * Rabs x)%R.
Proof.
  pose proof (sci_spec x) as S. unfold signed. destruct (sci x) as [m e]. destruct S as [_ S]. cbn [fst snd].
  destruct (Rlt_dec x 0) as [L|L].
  - rewrite (Rabs_left x L) in *. replace (-1 * value m e - x)%R with (- (value m e - - x))%R by ring. rewrite Rabs_Ropp. exact S.
  - rewrite (Rabs_pos_eq x) in * by lra. rewrite Rmult_1_l. exact S.
Qed.
Lemma read_fmt x : read_number (fmt x) = Some (signed x).
Proof. apply (read_fmt_app x ""). exact I. Qed.
Lemma read_complex x y : read_number (fmt_complex x y) = None.
Proof.
  unfold fmt_complex. set (t := if Rlt_dec y 0 then _ else _).
  assert (stops t /\ t <> "") as [S N].
  { unfold t. destruct (Rlt_dec y 0) as [L|L]; [unfold fmt_app; destruct (Rlt_dec y 0); [|tauto]|]; (split; [reflexivity|discriminate]). }
  rewrite read_fmt_app by auto. destruct t; [congruence|reflexivity].
Qed.
Lemma value_expo x : x <> 0%R -> expo (signed x) = snd (sci x).
Proof.
  intros N. pose proof (sci_spec x) as S. unfold signed. destruct (sci x) as [m e]. cbn [fst snd].
  destruct S as [[(X & _)|(_ & B)] _]; [tauto|]. apply expo_unique. pose proof (ten_pos (e - 6)) as P.
  assert (Rabs ((if Rlt_dec x 0 then -1 else 1) * value m e) = value m e)%R as ->.
  { rewrite Rabs_mult. assert (Rabs (if Rlt_dec x 0 then -1 else 1) = 1)%R as -> by (destruct (Rlt_dec x 0); [rewrite Rabs_left|rewrite Rabs_pos_eq]; lra).
    rewrite Rmult_1_l. apply Rabs_pos_eq. unfold value. apply Rmult_le_pos; [apply IZR_le; lia|lra]. }
  unfold value. rewrite ten6, ten7. destruct B as [B1 B2]. apply IZR_le in B1. apply IZR_le in B2. split; nra.
Qed.
Lemma signed_sign x : ((signed x < 0 <-> x < 0) /\ (signed x = 0 <-> x = 0))%R.
Proof.
  pose proof (signed_near x) as D. assert (x < 0 -> signed x < 0)%R as A by (intros L; rewrite (Rabs_left x L) in D; apply Rabs_between in D; lra).
  assert (0 < x -> 0 < signed x)%R as B by (intros L; rewrite (Rabs_pos_eq x) in D by lra; apply Rabs_between in D; lra).
  assert (x = 0 -> signed x = 0)%R as Z by (intros ->; rewrite Rabs_R0 in D; apply Rabs_between in D; lra).
  split; split; auto; intros H; destruct (Rtotal_order x 0) as [L|[L|L]]; auto; try (apply A in L; lra); try (apply B in L; lra); apply Z in L; lra.
Qed.
(** Printing the number read gives the same text. *)
Lemma fmt_signed x : fmt (signed x) = fmt x.
Proof.
  destruct (Req_EM_T x 0) as [->|N].
  { rewrite (proj2 (proj2 (signed_sign 0)) eq_refl). reflexivity. }
  assert (sci (signed x) = sci x) as E.
  { pose proof (value_expo x N) as V. pose proof (sci_spec x) as S. unfold sci at 1.
    destruct (Req_EM_T (signed x) 0) as [Q|_]; [apply (proj1 (proj2 (signed_sign x))) in Q; tauto|]. rewrite V.
    assert (Rabs (signed x) = value (fst (sci x)) (snd (sci x))) as A.
    { unfold signed. rewrite Rabs_mult. assert (Rabs (if Rlt_dec x 0 then -1 else 1) = 1)%R as -> by (destruct (Rlt_dec x 0); [rewrite Rabs_left|rewrite Rabs_pos_eq]; lra).
      rewrite Rmult_1_l. apply Rabs_pos_eq. unfold value. pose proof (ten_pos (snd (sci x) - 6)). destruct (sci x) as [m e]. cbn [fst snd] in *.
      apply Rmult_le_pos; [apply IZR_le; lia|lra]. }
    rewrite A. destruct (sci x) as [m e]. cbn [fst snd] in *. pose proof (ten_pos (e - 6)) as P.
    assert (value m e / ten (e - 6) = IZR m)%R as -> by (unfold value; field; lra). rewrite half_even_int.
    destruct (Z.eqb_spec m 10000000); [lia|reflexivity]. }
  unfold fmt, fmt_app, body. rewrite E. destruct (Rlt_dec (signed x) 0) as [L|L], (Rlt_dec x 0) as [L'|L']; auto; exfalso;
    [apply L', (proj1 (signed_sign x)), L|apply L, (proj1 (signed_sign x)), L'].
Qed.
(** Numbers with at most seven digits are printed exactly. *)
Lemma sci_exact x m e : 1000000 <= m <= 9999999 -> Rabs x = value m e -> sci x = (m, e).
Proof.
  intros [B1 B2] E. pose proof (ten_pos (e - 6)) as P. pose proof (IZR_le _ _ B1) as R1. pose proof (IZR_le _ _ B2) as R2.
  assert (expo x = e) as X by (apply expo_unique; rewrite E; unfold value; rewrite ten6, ten7; split; nra).
  unfold sci. destruct (Req_EM_T x 0) as [->|N].
  { rewrite Rabs_R0 in E. unfold value in E. exfalso. nra. }
  rewrite X, E. assert (value m e / ten (e - 6) = IZR m)%R as -> by (unfold value; field; lra). rewrite half_even_int.
  destruct (Z.eqb_spec m 10000000); [lia|reflexivity].
Qed.
Lemma fmt_exact x m e : 1000000 <= m <= 9999999 -> (0 <= x)%R -> x = value m e ->
  fmt x = mantissa m (String "e" (exponent e "")).
Proof.
  intros B P E. unfold fmt, fmt_app, body. rewrite (sci_exact x m e B) by (rewrite Rabs_pos_eq; auto).
  destruct (Rlt_dec x 0); [lra|]. reflexivity.
Qed.
Lemma fmt_0 : fmt 0 = "0.000000e+00".
Proof.
  unfold fmt, fmt_app, body, sci. destruct (Req_EM_T 0 0) as [_|N]; [|congruence]. destruct (Rlt_dec 0 0); [lra|]. reflexivity.
Qed.
