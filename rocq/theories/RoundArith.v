(** Arithmetic of Python's complex numbers from a rounding of the reals: addition and subtraction by components, multiplication by the four
    products, division as in CPython's [_Py_c_quot] (Smith's method).  Simplified: no overflow, no underflow, no infinities. *)
From Coq Require Import Reals Lra Lia ZArith.
From Verif Require Import Cplx Round.
Open Scope R_scope.

Section Float.
Variables (rnd : R -> R) (u : R).
Definition cadd (x y : C) : C := (rnd (Re x + Re y), rnd (Im x + Im y)).
Definition csub (x y : C) : C := (rnd (Re x - Re y), rnd (Im x - Im y)).
Definition cmul (x y : C) : C := (rnd (rnd (Re x * Re y) - rnd (Im x * Im y)), rnd (rnd (Re x * Im y) + rnd (Im x * Re y))).
(** Dividing (a, b) by (c, d) where |d| <= |c|. *)
Definition smith (a b c d : R) : C :=
  let r := rnd (d / c) in
  let den := rnd (c + rnd (d * r)) in
  (rnd (rnd (a + rnd (b * r)) / den), rnd (rnd (b - rnd (a * r)) / den)).
(** The other case of [_Py_c_quot]. *)
Definition smith' (a b c d : R) : C :=
  let r := rnd (c / d) in
  let den := rnd (rnd (c * r) + d) in
  (rnd (rnd (rnd (a * r) + b) / den), rnd (rnd (rnd (b * r) - a) / den)).
Definition cdiv (x y : C) : C :=
  if Rle_dec (Rabs (Im y)) (Rabs (Re y)) then smith (Re x) (Im x) (Re y) (Im y) else smith' (Re x) (Im x) (Re y) (Im y).
Definition floatA : arith :=
  Arith (fun n d => RtoC (rnd (IZR n / IZR (Zpos d)))) (RtoC (rnd PI)) (fun x => rnd (sqrt x)) cadd csub cmul cdiv.

Hypothesis u_small : 0 <= u <= 1 / 100.
Hypothesis rnd_near : forall x, Rabs (rnd x - x) <= u * Rabs x.

Lemma rnd_0 : rnd 0 = 0.
Proof. pose proof (rnd_near 0) as H. rewrite Rabs_R0, Rmult_0_r in H. pose proof (Rabs_pos (rnd 0 - 0)). destruct (Req_dec (rnd 0 - 0) 0) as [E|E]; [lra|]. apply Rabs_no_R0 in E. lra. Qed.
Lemma sq_abs a : Rabs a * Rabs a = a * a.
Proof. rewrite <- Rabs_mult. apply Rabs_right, Rle_ge. nra. Qed.
Lemma near_parts k x z s t : 0 <= k -> 0 <= s -> 0 <= t -> Rabs (Re x - Re z) <= k * s -> Rabs (Im x - Im z) <= k * t -> s * s + t * t <= 2 * (Cabs z * Cabs z) ->
  2 * (k * k) <= 11 * u * (11 * u) -> near (11 * u) x z.
Proof.
  intros K S T A B Q L. unfold near. destruct x as [a b], z as [c d]. unfold Csub. cbn [fst snd Re Im] in *.
  assert (Cabs (c, d) * Cabs (c, d) = c * c + d * d) as Z by (unfold Cabs; cbn; apply sqrt_sqrt; nra). rewrite Z in Q.
  unfold Cabs at 1. cbn [fst snd]. rewrite <- (sqrt_square (11 * u * Cabs (c, d))) by (pose proof (Cabs_ge0 (c, d)); nra). apply sqrt_le_1_alt.
  replace (11 * u * Cabs (c, d) * (11 * u * Cabs (c, d))) with (11 * u * (11 * u) * (Cabs (c, d) * Cabs (c, d))) by ring. rewrite Z.
  rewrite <- (sq_abs (a - c)), <- (sq_abs (b - d)). pose proof (Rabs_pos (a - c)). pose proof (Rabs_pos (b - d)).
  assert (Rabs (a - c) * Rabs (a - c) <= k * s * (k * s)) by (apply Rmult_le_compat; assumption). assert (Rabs (b - d) * Rabs (b - d) <= k * t * (k * t)) by (apply Rmult_le_compat; assumption).
  assert (k * k * (s * s + t * t) <= k * k * (2 * (c * c + d * d))) by (apply Rmult_le_compat_l; nra). nra.
Qed.
Lemma quad A B E F : 0 <= A -> 0 <= B -> (A * E + B * F) * (A * E + B * F) + (A * F + B * E) * (A * F + B * E) <= 2 * ((A * A + B * B) * (E * E + F * F)).
Proof.
  intros HA HB. assert (0 <= (A - B) * (A - B) * (E * E + F * F)) by (apply Rmult_le_pos; [apply (Rle_0_sqr (A - B))|pose proof (Rle_0_sqr E); pose proof (Rle_0_sqr F); unfold Rsqr in *; lra]). assert (0 <= 2 * (A * B) * ((E - F) * (E - F))) by (apply Rmult_le_pos; [|apply (Rle_0_sqr (E - F))]; pose proof (Rmult_le_pos _ _ HA HB); lra). lra.
Qed.
Lemma near_plain x z : Rabs (Re x - Re z) <= u * Rabs (Re z) -> Rabs (Im x - Im z) <= u * Rabs (Im z) -> near (11 * u) x z.
Proof.
  intros A B. apply (near_parts u x z (Rabs (Re z)) (Rabs (Im z))); auto using Rabs_pos; [lra| |nra]. rewrite !sq_abs. unfold Cabs. rewrite sqrt_sqrt by nra. unfold Re, Im. nra.
Qed.
Lemma near_add x y : near (11 * u) (cadd x y) (Cadd x y).
Proof. apply near_plain; apply rnd_near. Qed.
Lemma near_sub x y : near (11 * u) (csub x y) (Csub x y).
Proof. apply near_plain; apply rnd_near. Qed.
(** A rounded sum with a term that has an error already. *)
Lemma sum_near x s y e : 0 <= e -> Rabs (s - y) <= e * Rabs y -> Rabs (rnd (x + s) - (x + y)) <= (u + e + u * e) * (Rabs x + Rabs y).
Proof.
  intros E H. pose proof (rnd_near (x + s)) as N. replace (rnd (x + s) - (x + y)) with ((rnd (x + s) - (x + s)) + (s - y)) by ring. eapply Rle_trans; [apply Rabs_triang|].
  pose proof (Rabs_triang x s). assert (Rabs s <= Rabs y + e * Rabs y) by (replace s with (y + (s - y)) at 1 by ring; eapply Rle_trans; [apply Rabs_triang|lra]).
  pose proof (Rabs_pos x). pose proof (Rabs_pos y).
  assert (u * Rabs (x + s) <= u * (Rabs x + (Rabs y + e * Rabs y))) by (apply Rmult_le_compat_l; lra). assert (0 <= u * e) by (apply Rmult_le_pos; lra). assert (0 <= (e + u * e) * Rabs x) by (apply Rmult_le_pos; lra). lra.
Qed.
Lemma near_mul x y : near (11 * u) (cmul x y) (Cmul x y).
Proof.
  assert (forall p q, Rabs (rnd (rnd p + rnd q) - (p + q)) <= (2 * u + u * u) * (Rabs p + Rabs q)) as H.
  { intros p q. pose proof (rnd_near p) as P. pose proof (rnd_near q) as Q. pose proof (rnd_near (rnd p + rnd q)) as N. replace (rnd (rnd p + rnd q) - (p + q)) with ((rnd (rnd p + rnd q) - (rnd p + rnd q)) + ((rnd p - p) + (rnd q - q))) by ring.
    eapply Rle_trans; [apply Rabs_triang|]. pose proof (Rabs_triang (rnd p - p) (rnd q - q)). pose proof (Rabs_triang (rnd p) (rnd q)).
    assert (Rabs (rnd p) <= Rabs p + u * Rabs p) by (replace (rnd p) with (p + (rnd p - p)) by ring; eapply Rle_trans; [apply Rabs_triang|lra]).
    assert (Rabs (rnd q) <= Rabs q + u * Rabs q) by (replace (rnd q) with (q + (rnd q - q)) by ring; eapply Rle_trans; [apply Rabs_triang|lra]).
    pose proof (Rabs_pos p). pose proof (Rabs_pos q). assert (u * Rabs (rnd p + rnd q) <= u * ((Rabs p + u * Rabs p) + (Rabs q + u * Rabs q))) by (apply Rmult_le_compat_l; lra). lra. }
  assert (forall p q, Rabs (rnd (rnd p - rnd q) - (p - q)) <= (2 * u + u * u) * (Rabs p + Rabs q)) as H'.
  { intros p q. pose proof (rnd_near p) as P. pose proof (rnd_near q) as Q. pose proof (rnd_near (rnd p - rnd q)) as N. replace (rnd (rnd p - rnd q) - (p - q)) with ((rnd (rnd p - rnd q) - (rnd p - rnd q)) + ((rnd p - p) + - (rnd q - q))) by ring.
    eapply Rle_trans; [apply Rabs_triang|]. pose proof (Rabs_triang (rnd p - p) (- (rnd q - q))). rewrite (Rabs_Ropp (rnd q - q)) in H0. pose proof (Rabs_triang (rnd p) (- rnd q)) as T. rewrite (Rabs_Ropp (rnd q)) in T. fold (rnd p - rnd q) in T.
    assert (Rabs (rnd p) <= Rabs p + u * Rabs p) by (replace (rnd p) with (p + (rnd p - p)) by ring; eapply Rle_trans; [apply Rabs_triang|lra]).
    assert (Rabs (rnd q) <= Rabs q + u * Rabs q) by (replace (rnd q) with (q + (rnd q - q)) by ring; eapply Rle_trans; [apply Rabs_triang|lra]).
    pose proof (Rabs_pos p). pose proof (Rabs_pos q). assert (u * Rabs (rnd p - rnd q) <= u * ((Rabs p + u * Rabs p) + (Rabs q + u * Rabs q))) by (apply Rmult_le_compat_l; lra). lra. }
  destruct x as [a b], y as [c d].
  apply (near_parts (2 * u + u * u) _ _ (Rabs (a * c) + Rabs (b * d)) (Rabs (a * d) + Rabs (b * c))).
  - nra.
  - pose proof (Rabs_pos (a * c)). pose proof (Rabs_pos (b * d)). lra.
  - pose proof (Rabs_pos (a * d)). pose proof (Rabs_pos (b * c)). lra.
  - apply H'.
  - apply H.
  - rewrite Cabs_mul. replace (Cabs (a, b) * Cabs (c, d) * (Cabs (a, b) * Cabs (c, d))) with ((Cabs (a, b) * Cabs (a, b)) * (Cabs (c, d) * Cabs (c, d))) by ring.
    unfold Cabs. cbn [fst snd]. rewrite !sqrt_sqrt by nra. rewrite !Rabs_mult. rewrite <- (sq_abs a), <- (sq_abs b), <- (sq_abs c), <- (sq_abs d).
    apply quad; apply Rabs_pos.
  - nra.
Qed.
(** Smith's method *)
Definition e2 := 2 * u + u * u.
Definition e3 := u + e2 + u * e2.
Lemma e3_small : 0 <= e2 /\ 0 <= e3 <= 31 / 10 * u /\ e3 <= 1 / 30.
Proof. unfold e3, e2. nra. Qed.
Lemma prod_near y r : Rabs (rnd (y * rnd r) - y * r) <= e2 * Rabs (y * r).
Proof.
  pose proof (rnd_near r) as P. pose proof (rnd_near (y * rnd r)) as N. replace (rnd (y * rnd r) - y * r) with ((rnd (y * rnd r) - y * rnd r) + y * (rnd r - r)) by ring.
  eapply Rle_trans; [apply Rabs_triang|]. rewrite (Rabs_mult y (rnd r - r)). rewrite (Rabs_mult y (rnd r)) in N. rewrite (Rabs_mult y r).
  assert (Rabs (rnd r) <= Rabs r + u * Rabs r) by (replace (rnd r) with (r + (rnd r - r)) by ring; eapply Rle_trans; [apply Rabs_triang|lra]).
  pose proof (Rabs_pos y). pose proof (Rabs_pos r). unfold e2. assert (u * (Rabs y * Rabs (rnd r)) <= u * (Rabs y * (Rabs r + u * Rabs r))) by (apply Rmult_le_compat_l; [lra|apply Rmult_le_compat_l; lra]). assert (Rabs y * Rabs (rnd r - r) <= Rabs y * (u * Rabs r)) by (apply Rmult_le_compat_l; lra). lra.
Qed.
Lemma quot_near N N' D D' S : D <> 0 -> Rabs N <= S -> Rabs (N' - N) <= e3 * S -> Rabs (D' - D) <= e3 * Rabs D -> Rabs (rnd (N' / D') - N / D) <= 15 / 2 * u * (S / Rabs D).
Proof.
  intros Dn HN HN' HD. destruct e3_small as (_ & E & E'). assert (0 < Rabs D) as Dp by (apply Rabs_pos_lt; exact Dn).
  assert ((1 - e3) * Rabs D <= Rabs D') as Low by (pose proof (Rabs_triang D' (- (D' - D))) as T; replace (D' + - (D' - D)) with D in T by ring; rewrite Rabs_Ropp in T; lra).
  assert (0 < Rabs D') as Dp' by nra. assert (D' <> 0) as Dn' by (intros ->; rewrite Rabs_R0 in Dp'; lra).
  pose proof (Rabs_pos N). pose proof (Rabs_pos (N' - N)).
  assert (0 <= S) as HS by lra. set (w := S / Rabs D). assert (0 <= w) as Hw by (unfold w, Rdiv; apply Rmult_le_pos; [exact HS|left; apply Rinv_0_lt_compat, Dp]). assert (S = w * Rabs D) as Ew by (unfold w; field; lra).
  assert (Rabs N' <= (1 + e3) * S) by (replace N' with (N + (N' - N)) by ring; eapply Rle_trans; [apply Rabs_triang|lra]).
  assert (Rabs (N' / D') <= (1 + e3) / (1 - e3) * w) as Q1.
  { unfold Rdiv at 1. rewrite Rabs_mult, Rabs_inv. apply Rmult_le_reg_r with (Rabs D'); [exact Dp'|]. replace (Rabs N' * / Rabs D' * Rabs D') with (Rabs N') by (field; lra).
    apply Rle_trans with ((1 + e3) / (1 - e3) * w * ((1 - e3) * Rabs D)); [|apply Rmult_le_compat_l; [|exact Low]; apply Rmult_le_pos; [|exact Hw]; unfold Rdiv; apply Rmult_le_pos; [lra|left; apply Rinv_0_lt_compat; lra]].
    replace ((1 + e3) / (1 - e3) * w * ((1 - e3) * Rabs D)) with ((1 + e3) * (w * Rabs D)) by (field; lra). rewrite <- Ew. assumption. }
  assert (Rabs (N' / D' - N / D) <= 2 * e3 / (1 - e3) * w) as Q2.
  { replace (N' / D' - N / D) with (((N' - N) * D + - (N * (D' - D))) / (D' * D)) by (field; auto). unfold Rdiv at 1. rewrite Rabs_mult, Rabs_inv, Rabs_mult. apply Rmult_le_reg_r with (Rabs D' * Rabs D); [nra|].
    replace (Rabs ((N' - N) * D + - (N * (D' - D))) * / (Rabs D' * Rabs D) * (Rabs D' * Rabs D)) with (Rabs ((N' - N) * D + - (N * (D' - D)))) by (field; lra).
    eapply Rle_trans; [apply Rabs_triang|]. rewrite Rabs_Ropp, !Rabs_mult.
    apply Rle_trans with (2 * e3 / (1 - e3) * w * ((1 - e3) * Rabs D * Rabs D)).
    - replace (2 * e3 / (1 - e3) * w * ((1 - e3) * Rabs D * Rabs D)) with (2 * e3 * (w * Rabs D) * Rabs D) by (field; lra). rewrite <- Ew.
      assert (Rabs (N' - N) * Rabs D <= e3 * S * Rabs D) by (apply Rmult_le_compat_r; lra). assert (Rabs N * Rabs (D' - D) <= S * (e3 * Rabs D)) by (apply Rmult_le_compat; try assumption; apply Rabs_pos). lra.
    - apply Rmult_le_compat_l; [|apply Rmult_le_compat_r; lra]. apply Rmult_le_pos; [|exact Hw]. unfold Rdiv. apply Rmult_le_pos; [lra|left; apply Rinv_0_lt_compat; lra]. }
  pose proof (rnd_near (N' / D')) as Rn. replace (rnd (N' / D') - N / D) with ((rnd (N' / D') - N' / D') + (N' / D' - N / D)) by ring. eapply Rle_trans; [apply Rabs_triang|].
  apply Rle_trans with ((u * (1 + e3) + 2 * e3) / (1 - e3) * w).
  { replace ((u * (1 + e3) + 2 * e3) / (1 - e3) * w) with (u * ((1 + e3) / (1 - e3) * w) + 2 * e3 / (1 - e3) * w) by (field; lra). assert (u * Rabs (N' / D') <= u * ((1 + e3) / (1 - e3) * w)) by (apply Rmult_le_compat_l; lra). lra. }
  apply Rmult_le_compat_r; [exact Hw|]. apply Rmult_le_reg_r with (1 - e3); [lra|]. replace ((u * (1 + e3) + 2 * e3) / (1 - e3) * (1 - e3)) with (u * (1 + e3) + 2 * e3) by (field; lra). nra.
Qed.
Lemma same_sign c d : c <> 0 -> Rabs c + Rabs (d * (d / c)) = Rabs (c + d * (d / c)) /\ Rabs (c + d * (d / c)) = (c * c + d * d) / Rabs c /\ 0 < c * c + d * d.
Proof.
  intros N. assert (0 < Rabs c) as P by (apply Rabs_pos_lt, N). pose proof (sq_abs c) as Sc. pose proof (Rle_0_sqr d) as Sd. unfold Rsqr in Sd.
  assert (0 < c * c) by nra. assert (Rabs (c + d * (d / c)) = (c * c + d * d) / Rabs c) as E.
  { replace (c + d * (d / c)) with ((c * c + d * d) / c) by (field; exact N). unfold Rdiv. rewrite Rabs_mult, Rabs_inv, (Rabs_right (c * c + d * d)) by lra. reflexivity. }
  split; [|split; [exact E|lra]]. rewrite E. unfold Rdiv. rewrite !Rabs_mult, Rabs_inv, <- Rmult_assoc, (sq_abs d). rewrite <- Sc. field. lra.
Qed.
(** [Rp] is the part of the result with numerator [x + y r], [Ip] the other with [x' + y' r]. *)
Lemma smith_near x y x' y' c d N1 N2 D1 z : c <> 0 ->
  Rabs (N1 - (x + y * (d / c))) <= e3 * (Rabs x + Rabs (y * (d / c))) -> Rabs (N2 - (x' + y' * (d / c))) <= e3 * (Rabs x' + Rabs (y' * (d / c))) ->
  Rabs (D1 - (c + d * (d / c))) <= e3 * (Rabs c + Rabs (d * (d / c))) -> Rabs x = Rabs y' -> Rabs y = Rabs x' -> x * y + x' * y' = 0 ->
  z = ((x + y * (d / c)) / (c + d * (d / c)), (x' + y' * (d / c)) / (c + d * (d / c))) -> near (11 * u) (rnd (N1 / D1), rnd (N2 / D1)) z.
Proof.
  intros N H1 H2 HD E1 E2 E0 ->. destruct (same_sign c d N) as (Q1 & Q2 & Q3). rewrite Q1 in HD. assert (0 < Rabs c) as P by (apply Rabs_pos_lt, N).
  assert (0 < Rabs (c + d * (d / c))) as DP by (rewrite Q2; apply Rdiv_lt_0_compat; assumption). assert (c + d * (d / c) <> 0) as DN by (intros X; rewrite X, Rabs_R0 in DP; lra).
  pose proof (Rabs_triang x (y * (d / c))) as T1. pose proof (Rabs_triang x' (y' * (d / c))) as T2.
  pose proof (quot_near _ _ _ _ _ DN T1 H1 HD) as G1. pose proof (quot_near _ _ _ _ _ DN T2 H2 HD) as G2.
  assert (forall a b, 0 <= (Rabs a + Rabs (b * (d / c))) / Rabs (c + d * (d / c))) as Pos by (intros a b; unfold Rdiv at 1; apply Rmult_le_pos; [pose proof (Rabs_pos a); pose proof (Rabs_pos (b * (d / c))); lra|left; apply Rinv_0_lt_compat, DP]).
  eapply (near_parts (15 / 2 * u) _ _ _ _ ltac:(lra) (Pos x y) (Pos x' y')); [exact G1|exact G2| |nra].
  unfold Cabs. cbn [fst snd]. rewrite sqrt_sqrt by (apply Rplus_le_le_0_compat; apply Rle_0_sqr).
  set (D := c + d * (d / c)) in *. set (r := d / c) in *.
  replace ((x + y * r) / D * ((x + y * r) / D) + (x' + y' * r) / D * ((x' + y' * r) / D)) with (((x + y * r) * (x + y * r) + (x' + y' * r) * (x' + y' * r)) / (D * D)) by (field; exact DN).
  replace ((Rabs x + Rabs (y * r)) / Rabs D * ((Rabs x + Rabs (y * r)) / Rabs D) + (Rabs x' + Rabs (y' * r)) / Rabs D * ((Rabs x' + Rabs (y' * r)) / Rabs D))
    with (((Rabs x + Rabs (y * r)) * (Rabs x + Rabs (y * r)) + (Rabs x' + Rabs (y' * r)) * (Rabs x' + Rabs (y' * r))) / (Rabs D * Rabs D)) by (field; lra).
  rewrite (sq_abs D). unfold Rdiv. rewrite <- Rmult_assoc. apply Rmult_le_compat_r; [left; apply Rinv_0_lt_compat; rewrite <- sq_abs; nra|].
  rewrite !Rabs_mult, <- E1, <- E2. replace ((x + y * r) * (x + y * r) + (x' + y' * r) * (x' + y' * r)) with ((x * x + y' * y') * 1 + (y * y + x' * x') - (y * y + x' * x') + (x' * x' + (y * y) * (r * r) + (y' * y') * (r * r)) + 2 * r * (x * y + x' * y') - y' * y') by ring. rewrite E0.
  pose proof (quad (Rabs x) (Rabs y) 1 (Rabs r) (Rabs_pos x) (Rabs_pos y)) as Q. pose proof (sq_abs x) as Ex. pose proof (sq_abs y) as Ey. pose proof (sq_abs r) as Er. pose proof (sq_abs x') as Ex'. pose proof (sq_abs y') as Ey'. rewrite <- E1 in Ey'. rewrite <- E2 in Ex'.
  rewrite <- Ex, <- Ey, <- Ex', <- Ey', <- Er. lra.
Qed.
Lemma near_div x y : y <> C0 -> near (11 * u) (cdiv x y) (Cdiv x y).
Proof.
  destruct e3_small as (E2 & _). destruct x as [a b], y as [c d]. intros Y. unfold cdiv. cbn [Re Im fst snd].
  assert (forall p q s, Rabs (rnd (q + rnd (p * rnd s)) - (q + p * s)) <= e3 * (Rabs q + Rabs (p * s))) as Sp by (intros p q s; apply (sum_near q _ (p * s) e2 E2), prod_near).
  assert (forall p q s, Rabs (rnd (q - rnd (p * rnd s)) - (q + - p * s)) <= e3 * (Rabs q + Rabs (- p * s))) as Sm.
  { intros p q s. apply (sum_near q _ (- p * s) e2 E2). replace (- rnd (p * rnd s) - - p * s) with (- (rnd (p * rnd s) - p * s)) by ring. replace (- p * s) with (- (p * s)) by ring. rewrite !Rabs_Ropp. apply prod_near. }
  destruct (Rle_dec (Rabs d) (Rabs c)) as [L|L].
  - assert (c <> 0) as Nc by (intros ->; rewrite Rabs_R0 in L; pose proof (Rabs_pos d); assert (d = 0) as -> by (destruct (Req_dec d 0) as [?|Z]; [assumption|apply Rabs_pos_lt in Z; lra]); apply Y; reflexivity).
    destruct (same_sign c d Nc) as (_ & _ & Pn). unfold smith. apply (smith_near a b b (- a) c d); auto; [rewrite Rabs_Ropp; reflexivity|ring|].
    unfold Cdiv, Cmul, Cinv, Re, Im. cbn [fst snd]. f_equal; field; lra.
  - assert (d <> 0) as Nd by (intros ->; rewrite Rabs_R0 in L; pose proof (Rabs_pos c); lra).
    destruct (same_sign d c Nd) as (_ & _ & Pn). unfold smith'. apply (smith_near b a (- a) b d c); auto.
    + rewrite (Rplus_comm _ b). apply Sp.
    + replace (rnd (b * rnd (c / d)) - a) with (- a + rnd (b * rnd (c / d))) by ring. apply Sp.
    + rewrite (Rplus_comm _ d). apply Sp.
    + rewrite Rabs_Ropp. reflexivity.
    + ring.
    + unfold Cdiv, Cmul, Cinv, Re, Im. cbn [fst snd]. f_equal; field; lra.
Qed.
Theorem float_rounding : rounding floatA (11 * u).
Proof.
  assert (forall x, near (11 * u) (RtoC (rnd x)) (RtoC x)) as NR by (intros x; apply near_plain; cbn; [apply rnd_near|rewrite Rminus_0_r, Rabs_R0; lra]).
  constructor; cbn [f_q f_pi f_rt f_add f_sub f_mul f_div floatA].
  - lra.
  - intros n d. split; [apply NR|reflexivity].
  - split; [apply NR|reflexivity].
  - intros x X. pose proof (rnd_near (sqrt x)) as H. pose proof (sqrt_pos x). rewrite (Rabs_right (sqrt x)) in H by lra. nra.
  - exact near_add.
  - exact near_sub.
  - intros x y. split; [apply near_mul|]. intros X Y. unfold cmul. cbn [Im snd]. rewrite X, Y, Rmult_0_r, Rmult_0_l, !rnd_0, Rplus_0_r. apply rnd_0.
  - intros x y Y. split; [apply near_div, Y|]. intros Xi Yi. unfold cdiv. rewrite Yi, Xi, Rabs_R0. destruct (Rle_dec 0 (Rabs (Re y))) as [_|L]; [|exfalso; apply L, Rabs_pos].
    unfold smith. cbn [Im snd]. unfold Rdiv at 1 2. rewrite !Rmult_0_l, !rnd_0, !Rmult_0_r, !rnd_0, Rminus_0_r, !rnd_0, Rmult_0_l. apply rnd_0.
Qed.
End Float.
