(** What the amplitudes of b -> s q q-bar say about the EOS coefficients c1 to c6. *)
From Coq Require Import String Ascii List Bool Arith ZArith QArith Qreals Reals Lra Lia.
From Verif Require Import PyBase PyDict Cplx Tensor Wc Params Smeft SmeftNames WetExpr Wet WetJms WetNf WetSpec WetChk WetThm WetVals WetList
  Dirac LagrBases LagrRefl LagrJms LagrSym LagrChk LagrThm EosOps.
Import ListNotations.
Open Scope string_scope.
Open Scope list_scope.
Open Scope nat_scope.
#[local] Opaque Ceq_dec.

(** ** Probes: legs that see one of the twenty structures *)
Record probe := Probe { pr_quad : quad; pr_ix : nat }.
Definition quads4 : list quad := map (fun q => (D F2, D F3, q, q)) five.
Definition probe_legs (b : probe) : leg * leg * leg * leg :=
  match pr_quad b with (f1, f2, f3, f4) =>
    let crossed := Nat.leb 10 (pr_ix b) in
    let h2 := if crossed then Green else Red in let h4 := if crossed then Red else Green in
    let right := Nat.eqb (pr_ix b mod 10) 2 in
    (Leg f1 Sp3 Red, Leg f2 Sp1 h2, Leg f3 (if right then Sp1 else Sp4) Green, Leg f4 (if right then Sp3 else Sp2) h4) end.
Definition pt (b : probe) : list gi :=
  match probe_legs b with (x, y, z, w) => map (fun dr => dent dr (l_s x) (l_s y) (l_s z) (l_s w)) basis10 end.
Definition unit_gi (i : nat) : list gi := map (fun j => if Nat.eqb i j then (2, 0)%Z else (0, 0)%Z) (seq 0 10).
Definition probed : list nat := [0; 2; 10; 12].
Definition gi_eqb (a b : list gi) : bool := Nat.eqb (length a) (length b) && forallb (fun t => geqb (fst t) (snd t)) (combine a b).
Definition sharp (b : probe) : bool :=
  match probe_legs b with (x, y, z, w) =>
    quad_eqb (lq x y z w) (pr_quad b) && gi_eqb (pt b) (unit_gi (pr_ix b mod 10)) && existsb (Nat.eqb (pr_ix b)) probed && quark (l_f x) && quark (l_f z) end.
Lemma gi_eqb_eq a : forall b, gi_eqb a b = true -> a = b.
Proof.
  unfold gi_eqb. induction a as [|[p q] a IH]; destruct b as [|[p' q'] b]; cbn [length combine forallb fst snd]; try discriminate; auto.
  rewrite !andb_true_iff. intros (L & G & H). f_equal.
  - unfold geqb in G. cbn [fst snd] in G. apply andb_true_iff in G. destruct G as [A B]. apply Z.eqb_eq in A, B. congruence.
  - apply IH. rewrite andb_true_iff. split; auto.
Qed.
Lemma list10 {A} (l : list A) : length l = 20 -> exists a0 a1 a2 a3 a4 a5 a6 a7 a8 a9 b0 b1 b2 b3 b4 b5 b6 b7 b8 b9,
  l = [a0; a1; a2; a3; a4; a5; a6; a7; a8; a9; b0; b1; b2; b3; b4; b5; b6; b7; b8; b9].
Proof. intros L. do 20 (destruct l as [|? l]; [discriminate|]). destruct l; [|discriminate]. repeat eexists. Qed.
Lemma sharp_val v s b x y z w : length s = 20 -> sharp b = true -> probe_legs b = (x, y, z, w) ->
  lq x y z w = pr_quad b /\ fval v s (bas20 x y z w) = Cmul (RtoC 2) (lval v (nth (pr_ix b) s [])).
Proof.
  intros L S P. unfold sharp in S. rewrite P in S. rewrite !andb_true_iff in S. destruct S as ((((S1 & S2) & S3) & S4) & S5).
  apply quad_eqb_eq in S1. split; auto. apply gi_eqb_eq in S2. unfold pt in S2. rewrite P in S2.
  assert (tenv (l_s x) (l_s y) (l_s z) (l_s w) = map gC (unit_gi (pr_ix b mod 10))) as T by (unfold tenv; rewrite <- S2, map_map; reflexivity).
  unfold bas20. rewrite T. clear T S2.
  assert (forall n, In n probed -> pr_ix b = n -> colS x y z w = (if Nat.leb 10 n then C0 else C1) /\ colX x y z w = (if Nat.leb 10 n then C1 else C0)) as CC.
  { intros n In1 En. unfold colS, colX, delta. rewrite S4, S5. unfold probe_legs in P. rewrite En in P. destruct (pr_quad b) as [[[f1 f2] f3] f4].
    destruct In1 as [<-|[<-|[<-|[<-|[]]]]]; injection P as <- <- <- <-; cbv [l_h hue_eqb hn Nat.eqb Nat.leb]; split; ring. }
  destruct (list10 s L) as (a0 & a1 & a2 & a3 & a4 & a5 & a6 & a7 & a8 & a9 & b0 & b1 & b2 & b3 & b4 & b5 & b6 & b7 & b8 & b9 & ->).
  assert (gC (0, 0)%Z = C0) as G0 by reflexivity. assert (gC (2, 0)%Z = RtoC 2) as G2 by reflexivity.
  unfold probed in S3. cbn [existsb] in S3. rewrite !orb_true_iff in S3.
  destruct S3 as [S3|[S3|[S3|[S3|S3]]]]; [apply Nat.eqb_eq in S3; match type of S3 with _ = ?n => destruct (CC n ltac:(unfold probed; simpl; auto 6) S3) as [-> ->] end; rewrite S3.. |discriminate];
    cbn [Nat.modulo Nat.divmod fst snd Nat.sub unit_gi seq map app fval nth Nat.leb Nat.eqb]; rewrite ?G0, ?G2; ring.
Qed.

(** ** Reading amplitudes *)
Definition comp (a : asm) (S : slagr) (b : probe) : lform := match samp a S (pr_quad b) with Some r => nth (pr_ix b) r [] | None => [] end.
Definition defd (a : asm) (S : slagr) (b : probe) : bool := match samp a S (pr_quad b) with Some r => true | None => false end.
Definition lcomb (a : asm) (l : list (coef * lform)) : lform := fold_right (fun t s => ladd a (lscale a (fst t) (snd t)) s) [] l.
Definition wsum (v : env) (l : list (coef * lform)) : C := fold_right (fun t s => Cadd (Cmul (cfval v (fst t)) (lval v (snd t))) s) C0 l.
Lemma lcomb_val a v l : env_ok a v -> lval v (lcomb a l) = wsum v l.
Proof. intros OK. unfold lcomb, wsum. induction l as [|t l IH]; [reflexivity|]. cbn [fold_right]. rewrite (ladd_val a v OK), (lscale_val a v OK), IH. reflexivity. Qed.
Lemma comp_val a v S b x y z w : env_ok a v -> defd a S b = true -> sharp b = true -> probe_legs b = (x, y, z, w) ->
  amplitude (den v S) x y z w = Cmul (RtoC 2) (lval v (comp a S b)).
Proof.
  intros OK Df Sh P. unfold defd in Df. unfold comp. destruct (samp a S (pr_quad b)) as [r|] eqn:E; [|discriminate].
  assert (lq x y z w = pr_quad b) as Q by (apply (sharp_val v (repeat [] 20) b x y z w); auto). rewrite <- Q in E.
  destruct (samp_val a v OK x y z w S r E) as [L ->]. apply (sharp_val v r b x y z w); auto.
Qed.
Lemma two_inj a b : Cmul (RtoC 2) a = Cmul (RtoC 2) b -> a = b.
Proof.
  intros E. assert (RtoC 2 <> C0) as N by (apply RtoC_neq0; lra). replace a with (Cmul (Cinv (RtoC 2)) (Cmul (RtoC 2) a)) by (field; auto). rewrite E. field. auto.
Qed.
(** Two Lagrangians with equal amplitudes, and combinations of their components. *)
Definition weights := list (coef * probe).
Definition usable_w (a : asm) (S T : slagr) (w : weights) : bool := forallb (fun t => sharp (snd t) && defd a S (snd t) && defd a T (snd t)) w.
Definition combine_w (a : asm) (S : slagr) (w : weights) : lform := lcomb a (map (fun t => (fst t, comp a S (snd t))) w).
Lemma read_off a v S T w f g : env_ok a v -> usable_w a S T w = true ->
  (forall x y z u, In (lq x y z u) (map (fun t => pr_quad (snd t)) w) -> amplitude (den v S) x y z u = amplitude (den v T) x y z u) ->
  leqb a (combine_w a S w) f = true -> leqb a (combine_w a T w) g = true -> lval v f = lval v g.
Proof.
  intros OK U H A B. rewrite <- (leqb_val a v _ _ OK A), <- (leqb_val a v _ _ OK B). unfold combine_w. rewrite !(lcomb_val a v _ OK). clear A B f g.
  unfold usable_w in U. induction w as [|[q b] w IH]; [reflexivity|]. cbn [map fst snd forallb] in *. rewrite !andb_true_iff in U. destruct U as [[[U1 U2] U3] U4].
  unfold wsum in *. cbn [fold_right fst snd]. rewrite IH; auto.
  2: { intros x y z u I. apply H. right. exact I. }
  do 2 f_equal. destruct (probe_legs b) as [[[x y] z] u] eqn:P. apply two_inj. rewrite <- (comp_val a v S b x y z u OK U2 U1 P), <- (comp_val a v T b x y z u OK U3 U1 P).
  apply H. left. symmetry. apply (sharp_val v (repeat [] 20) b x y z u eq_refl U1 P).
Qed.

(** ** The check *)
Definition pre (q : Q) : coef := (Qred (q * (1 # 4)), ([rt2], [APar "GF"; AV F3 F3 false; AV F3 F2 true])).
Definition wt (q : Q) (f : fermion) (i : nat) : coef * probe := (pre q, Probe (D F2, D F3, f, f) i).
Definition combos : list (string * weights) :=
  [("b->s::c1", [wt (- (2 # 5)) (D F3) 0; wt (1 # 1) (U F2) 0; wt (- (6 # 5)) (D F1) 0; wt (4 # 5) (D F1) 10; wt (- (2 # 5)) (D F2) 0; wt (1 # 1) (U F1) 0]);
   ("b->s::c2", [wt (- (4 # 15)) (D F3) 0; wt (1 # 6) (U F2) 0; wt (1 # 2) (U F2) 10; wt (1 # 5) (D F1) 0; wt (- (7 # 15)) (D F1) 10; wt (- (4 # 15)) (D F2) 0; wt (1 # 6) (U F1) 0; wt (1 # 2) (U F1) 10]);
   ("b->s::c3", [wt (- (4 # 45)) (D F3) 0; wt (4 # 15) (D F3) 2; wt (4 # 45) (D F3) 12; wt (4 # 15) (U F2) 2; wt (4 # 45) (U F2) 12; wt (- (7 # 45)) (D F1) 0; wt (1 # 15) (D F1) 10; wt (4 # 15) (D F1) 2; wt (4 # 45) (D F1) 12; wt (- (4 # 45)) (D F2) 0; wt (4 # 15) (D F2) 2; wt (4 # 45) (D F2) 12; wt (4 # 15) (U F1) 2; wt (4 # 45) (U F1) 12]);
   ("b->s::c4", [wt (- (2 # 15)) (D F3) 0; wt (8 # 15) (D F3) 12; wt (8 # 15) (U F2) 12; wt (4 # 15) (D F1) 0; wt (- (2 # 5)) (D F1) 10; wt (8 # 15) (D F1) 12; wt (- (2 # 15)) (D F2) 0; wt (8 # 15) (D F2) 12; wt (8 # 15) (U F1) 12]);
   ("b->s::c5", [wt (1 # 45) (D F3) 0; wt (- (1 # 60)) (D F3) 2; wt (- (1 # 180)) (D F3) 12; wt (- (1 # 60)) (U F2) 2; wt (- (1 # 180)) (U F2) 12; wt (7 # 180) (D F1) 0; wt (- (1 # 60)) (D F1) 10; wt (- (1 # 60)) (D F1) 2; wt (- (1 # 180)) (D F1) 12; wt (1 # 45) (D F2) 0; wt (- (1 # 60)) (D F2) 2; wt (- (1 # 180)) (D F2) 12; wt (- (1 # 60)) (U F1) 2; wt (- (1 # 180)) (U F1) 12]);
   ("b->s::c6", [wt (1 # 30) (D F3) 0; wt (- (1 # 30)) (D F3) 12; wt (- (1 # 30)) (U F2) 12; wt (- (1 # 15)) (D F1) 0; wt (1 # 10) (D F1) 10; wt (- (1 # 30)) (D F1) 12; wt (1 # 30) (D F2) 0; wt (- (1 # 30)) (D F2) 12; wt (- (1 # 30)) (U F1) 12])].
Definition eos4_f : coef := (4%Q, ([APar "GF"; AV F3 F3 false; AV F3 F2 true], [rt2])).
Definition sE4 (a : asm) : slagr := sL_of a eos4_f (idf eos4) eos4.
Definition mean (k1 k2 : string) : lform := [(DGet k1 false, ((1 # 2)%Q, mone)); (DGet k2 false, ((1 # 2)%Q, mone))].
Definition meaning : list (string * lform) :=
  [("b->s::c1", mean "c1u" "c1c"); ("b->s::c2", mean "c2u" "c2c"); ("b->s::c3", var "c3"); ("b->s::c4", var "c4"); ("b->s::c5", var "c5"); ("b->s::c6", var "c6")].
Definition only_arr (f : lform) : bool := forallb (fun t => match fst t with DArr _ _ _ => true | DGet _ _ => false end) f.
Notation pen_quads := (quads penguins).
Definition chk1 (S T : slagr) (kw : string * weights) : bool :=
  usable_w amJ S T (snd kw) && forallb (fun t => existsb (quad_eqb (pr_quad (snd t))) pen_quads) (snd kw) &&
  only_arr (lcanon amJ (getf nJE (fst kw))) &&
  leqb amJ (combine_w amJ S (snd kw)) (lcanon amJ (getf nJE (fst kw))) && leqb amJ (combine_w amJ T (snd kw)) (getf meaning (fst kw)).
Lemma eos4_chk : (let S := sJ jms_ops in let T := sE4 amJ in dead pen_quads && forallb (chk1 S T) combos) = true.
Proof. vm_cast_no_check (eq_refl true). Qed.

(** ** Values *)
Lemma only_arr_val v v' f : e_arr v = e_arr v' -> e_par v = e_par v' -> e_ckm v = e_ckm v' -> only_arr f = true -> lval v f = lval v' f.
Proof.
  intros A B D. induction f as [|[t c] f IH]; [reflexivity|]. cbn [only_arr forallb fst]. rewrite andb_true_iff. intros [T O]. cbn [lval fst snd].
  unfold only_arr in IH. rewrite IH by exact O. rewrite (cf_env v v') by auto. destruct t as [|op x b]; [discriminate|]. cbn [dtval]. unfold arr0. rewrite A. reflexivity.
Qed.
Lemma sJ_arr ops t : In t (sJ ops) -> only_arr (fst t) = true.
Proof.
  unfold sJ. rewrite in_flat_map. intros ([n o] & _ & I). rewrite in_flat_map in I. destruct I as (x & _ & I). cbn [fst snd] in I. unfold sJ_terms in I.
  assert (forall c, only_arr (if c : bool then lconj (datf n x) else datf n x) = true) as K.
  { intros c. unfold datf. cbn [canon3]. destruct (jms_ix n x && Nat.eqb (length x) 4); cbv zeta; [destruct (jms_ix n (fst (rep_of n x)))|]; destruct c; reflexivity. }
  destruct (jms_ix n x && _); [|destruct I]. destruct (j_herm o).
  - destruct I as [<-|[]]. exact (K false).
  - destruct I as [<-|[<-|[]]]; [exact (K false)|exact (K true)].
Qed.
Definition ix_ok (f : lform) : bool := forallb (fun t => match fst t with DArr op x _ => jms_ix op x | DGet _ _ => false end) f.
Lemma sJ_ix ops t : In t (sJ ops) -> ix_ok (fst t) = true.
Proof.
  unfold sJ. rewrite in_flat_map. intros ([n o] & _ & I). rewrite in_flat_map in I. destruct I as (x & _ & I). cbn [fst snd] in I. unfold sJ_terms in I.
  destruct (jms_ix n x) eqn:X; [|destruct I].
  assert (forall c, ix_ok (if c : bool then lconj (datf n x) else datf n x) = true) as K.
  { intros c. unfold datf. cbn [canon3]. rewrite X. cbn [andb]. destruct (Nat.eqb (length x) 4); cbv zeta; [destruct (jms_ix n (fst (rep_of n x))) eqn:Y|];
      destruct c; cbn [lconj map fst snd conjd ix_ok forallb]; rewrite ?X, ?Y; reflexivity. }
  destruct (_ || _); [|destruct I]. destruct (j_herm o).
  - destruct I as [<-|[]]. exact (K false).
  - destruct I as [<-|[<-|[]]]; [exact (K false)|exact (K true)].
Qed.
Lemma sJ_den v v' ops : e_arr v = e_arr v' -> e_par v = e_par v' -> e_ckm v = e_ckm v' -> den v (sJ ops) = den v' (sJ ops).
Proof. intros A B D. unfold den. apply map_ext_in. intros t I. rewrite (only_arr_val v v' (fst t)) by (auto; exact (sJ_arr ops t I)). reflexivity. Qed.
Lemma nub_sub l : forall q, In q (nub l) -> In q l.
Proof. induction l as [|p l IH]; simpl; auto. intros q. destruct (existsb _ _); simpl; intuition. Qed.
Lemma quads_covered (t : table) x y z w : In (lq x y z w) (quads t) -> covered t x y z w.
Proof.
  intros I. apply nub_sub in I. apply in_flat_map in I. destruct I as ([k o] & I & E). exists k, o. split; [exact I|]. cbn [snd] in E.
  destruct E as [E|[E|[]]]; left; [left|right]; symmetry; exact E.
Qed.
Lemma pen_covered (P : leg -> leg -> leg -> leg -> Prop) :
  (forall x y z w, covered penguins x y z w -> P x y z w) -> forall x y z w, In (lq x y z w) pen_quads -> P x y z w.
Proof. intros H x y z w I. exact (H x y z w (quads_covered _ x y z w I)). Qed.
Definition leg_s := Leg (D F2) Sp3 Red.
Definition leg_b := Leg (D F3) Sp1 Red.
Definition leg_u := Leg (U F1) Sp4 Green.
Definition leg_u' := Leg (U F1) Sp2 Green.
Lemma uu_covered : bsqq leg_s leg_b leg_u leg_u'.
Proof.
  exists "c3", (Oper (D F2) (D F3) (U F1) (U F1) (Dir Vec PL PV) Singlet). split; [|left; left; reflexivity].
  unfold penguins. apply in_flat_map. exists (U F1). split; left; reflexivity.
Qed.
#[local] Opaque nJE jms_ops lcanon penguins quads dead sJ.
Definition g_names : list string := dkeys meaning ++ ["c1u"; "c1c"; "c2u"; "c2c"; "c3"; "c4"; "c5"; "c6"].
Lemma g_nodup : NoDup g_names.
Proof. apply nodupb_ok. vm_compute. reflexivity. Qed.
Lemma eos4_names : forallb (fun k => mem k g_names) (map fst eos4) = true.
Proof. vm_compute. reflexivity. Qed.
Lemma eos4_den_gen (ckm_tree : R -> R -> R -> R -> mat) a v p g : env_ok a v -> e_par v = p -> e_ckm v = ckm_of ckm_tree p ->
  (forall k, In k g_names -> get0 (e_get v) k = num_of g k) -> den v (sE4 a) = L_EOS4 p (ckm_of ckm_tree p) g.
Proof.
  intros OK Ep Ev G. unfold sE4. rewrite (sL_of_den a v OK). unfold L_EOS4.
  assert (cfval v eos4_f = Cmul (RtoC (G4 p)) (Cmul (ckm_of ckm_tree p F3 F3) (Cconj (ckm_of ckm_tree p F3 F2)))) as ->.
  { rewrite (cf_env v (jenv ckm_tree [] [] p)) by assumption. pose proof rt2_nz as N. unfold cfval, eos4_f, mval. cbn [fst snd prod]. rewrite rt2_val.
    cbn [aval cj WetNf.jenv e_par]. change (e_par _) with p. change (e_ckm _) with (ckm_of ckm_tree p). unfold G4, Q2R. cbn [Qnum Qden].
    replace (4 * / 1)%R with 4%R by field. rewrite RtoC_div, RtoC_mul by apply sqrt2_nz. field. exact N. }
  apply L_of_ext_in. intros k K. rewrite dget_dmap_lval, idf_get by exact K. unfold var. cbn [lval dtval cj fst snd]. rewrite G.
  - unfold cfval. cbn [fst snd]. rewrite mone_val. rewrite q2r1. change (RtoC 1) with C1. ring.
  - pose proof eos4_names as Q. rewrite forallb_forall in Q. specialize (Q k K). apply (proj1 (mem_In _ k g_names)). exact Q.
Qed.
Section Eos.
Variable ckm_tree : R -> R -> R -> R -> mat.
Variable qcd_mb qcd_ms : R -> R -> R -> res R.
Variable qcd_as : R -> R -> res R.
Notation okp := (okp ckm_tree qcd_mb qcd_ms qcd_as).
Notation jenv := (jenv ckm_tree).
Notation outJ := (outJ ckm_tree).
Variables (J : list string) (scale : R) (input : option params) (p : params).
Hypothesis (GJ : good J) (NR : nonredundant J) (GP : okp scale input p).
Notation V := (ckm_of ckm_tree p).
(** Both sets of coefficients in one environment. *)
Definition venv (c g : dict string C) : env := Env (fill g_names (nums g)) (e_arr (jenv J c p)) p V.
Lemma venv_ok c g : env_ok amJ (venv c g).
Proof.
  destruct GJ as [L Hc]. destruct GP as [G U]. destruct (jms_entries J c L Hc) as (a & E & F). unfold venv, WetNf.jenv. rewrite E. cbn [e_arr].
  apply (env_ok_am qcd_mb qcd_ms qcd_as [] jms_ix scale input); auto.
  intros op x H. destruct (F op x H) as (r & z & A & B & D & _). eauto.
Qed.
Lemma g_val c g k : In k g_names -> get0 (e_get (venv c g)) k = num_of g k.
Proof.
  intros I. unfold venv, get0. cbn [e_get]. rewrite get0_fill; auto. exact g_nodup.
Qed.
Lemma eos4_den c g : den (venv c g) (sE4 amJ) = L_EOS4 p V g.
Proof. apply (eos4_den_gen ckm_tree); auto; [apply venv_ok|apply g_val]. Qed.
Definition expected (g : dict string C) : list (string * C) :=
  [("b->s::c1", half (num_of g "c1u") (num_of g "c1c")); ("b->s::c2", half (num_of g "c2u") (num_of g "c2c"));
   ("b->s::c3", num_of g "c3"); ("b->s::c4", num_of g "c4"); ("b->s::c5", num_of g "c5"); ("b->s::c6", num_of g "c6")].
Lemma meaning_val c g k z : In (k, z) (expected g) -> lval (venv c g) (getf meaning k) = z.
Proof.
  assert (forall q, cfval (venv c g) (q, mone) = RtoC (Q2R q)) as Q by (intros q; unfold cfval; cbn [fst snd]; rewrite mone_val; ring).
  assert (Q2R (1 # 2) = / 2)%R as H by (unfold Q2R; simpl; field).
  assert (forall k, getf meaning k = match dget meaning k with Some f => f | None => [] end) as Gf by reflexivity.
  assert (forall k, In k g_names -> lval (venv c g) (var k) = num_of g k) as Vr.
  { intros k' I. unfold var. cbn [lval dtval cj fst snd]. rewrite Q, g_val, q2r1 by exact I. change (RtoC 1) with C1. ring. }
  assert (forall k1 k2, In k1 g_names -> In k2 g_names -> lval (venv c g) (mean k1 k2) = half (num_of g k1) (num_of g k2)) as Mn.
  { intros k1 k2 I1 I2. unfold mean, half. cbn [lval dtval cj fst snd]. rewrite !Q, !g_val, H by assumption. ring. }
  intros I. unfold expected in I. destruct I as [I|[I|[I|[I|[I|[I|[]]]]]]]; injection I as <- <-.
  - exact (Mn "c1u" "c1c" ltac:(unfold g_names; simpl; auto 20) ltac:(unfold g_names; simpl; auto 20)).
  - exact (Mn "c2u" "c2c" ltac:(unfold g_names; simpl; auto 20) ltac:(unfold g_names; simpl; auto 20)).
  - exact (Vr "c3" ltac:(unfold g_names; simpl; auto 20)).
  - exact (Vr "c4" ltac:(unfold g_names; simpl; auto 20)).
  - exact (Vr "c5" ltac:(unfold g_names; simpl; auto 20)).
  - exact (Vr "c6" ltac:(unfold g_names; simpl; auto 20)).
Qed.
Theorem eos4_read c g : (forall x y z w, bsqq x y z w -> amplitude (L_JMS J c) x y z w = amplitude (L_EOS4 p V g) x y z w) ->
  forall k z, In (k, z) (expected g) -> num_of (outJ nJE J c p) k = z.
Proof.
  intros H k z I. pose proof eos4_chk as K. cbv zeta in K. apply andb_true_iff in K. destruct K as [Dd K]. rewrite forallb_forall in K.
  assert (exists w, In (k, w) combos) as (w & Iw).
  { assert (In k (map fst combos)) as M by (unfold expected in I; cbn [In] in I; repeat (destruct I as [I|I]; [injection I as <- <-; simpl; auto 10|]); destruct I).
    apply in_map_iff in M. destruct M as ([k' w] & <- & M). exists w. exact M. }
  specialize (K _ Iw). unfold chk1 in K. cbn [fst snd] in K. rewrite !andb_true_iff in K. destruct K as ((((U & Q) & O) & A) & B).
  rewrite <- (meaning_val c g k z I).
  transitivity (lval (venv c g) (lcanon amJ (getf nJE k))); [|refine (read_off amJ (venv c g) _ _ w _ _ (venv_ok c g) U _ A B)].
  - unfold WetThm.outJ. rewrite dget_dmap_lval. rewrite <- (lcanon_val ckm_tree J p GJ NR amJ c).
    + apply only_arr_val; auto.
    + exact (amJ_ok ckm_tree qcd_mb qcd_ms qcd_as J scale input p GJ GP c).
  - intros x y z' u Iq. assert (In (lq x y z' u) pen_quads) as Ip.
    { apply in_map_iff in Iq. destruct Iq as (t & <- & It). rewrite forallb_forall in Q. specialize (Q t It). apply existsb_exists in Q.
      destruct Q as (q & Q1 & Q2). apply quad_eqb_eq in Q2. rewrite Q2. exact Q1. }
    rewrite eos4_den. rewrite <- (pen_covered _ H x y z' u Ip). unfold L_JMS.
    rewrite (sJ_val ckm_tree J p GJ NR jms_ops c pen_quads x y z' u (incl_refl _) Dd Ip). rewrite (sJ_den (venv c g) (jenv J c p)) by reflexivity. reflexivity.
Qed.
End Eos.

(** ** JMS coefficients for given EOS coefficients *)
Definition qf (l : list (Q * string)) : lform := map (fun t => (DGet (snd t) false, (fst t, mone))) l.
Definition nrm (a : asm) (l : list (Q * string)) : lform := lscale a eos4_f (qf l).
Definition f_A : list (Q * string) := [(1, "c3"); (- (1 # 6), "c4"); (16, "c5"); (- (8 # 3), "c6")]%Q.
Definition f_B : list (Q * string) := [(1 # 2, "c4"); (8, "c6")]%Q.
Definition f_P3 : list (Q * string) := [(1, "c3"); (- (1 # 6), "c4"); (4, "c5"); (- (2 # 3), "c6")]%Q.
Definition f_P4 : list (Q * string) := [(1 # 2, "c4"); (2, "c6")]%Q.
Definition times (q : Q) (l : list (Q * string)) : list (Q * string) := map (fun t => (Qred (q * fst t), snd t)) l.
(** the singlet and the octet coefficient of a colour singlet [s] and a crossed structure [x] *)
Definition v1 (s x : list (Q * string)) := s ++ times (1 # 3) x.
Definition v8 (x : list (Q * string)) := times 2 x.
Definition cforms (a : asm) : dict string lform :=
  [("V1udLL_1123", nrm a (v1 (f_A ++ [((1 # 2)%Q, "c1u")]) (f_B ++ [((- (1 # 6))%Q, "c1u"); (1%Q, "c2u")])));
   ("V8udLL_1123", nrm a (v8 (f_B ++ [((- (1 # 6))%Q, "c1u"); (1%Q, "c2u")])));
   ("V1udLL_2223", nrm a (v1 (f_A ++ [((1 # 2)%Q, "c1c")]) (f_B ++ [((- (1 # 6))%Q, "c1c"); (1%Q, "c2c")])));
   ("V8udLL_2223", nrm a (v8 (f_B ++ [((- (1 # 6))%Q, "c1c"); (1%Q, "c2c")])));
   ("VddLL_1123", nrm a f_A); ("VddLL_1231", lconj (nrm a f_B)); ("VddLL_2223", nrm a (f_A ++ f_B)); ("VddLL_2333", nrm a (f_A ++ f_B));
   ("V1duLR_2311", nrm a (v1 f_P3 f_P4)); ("V8duLR_2311", nrm a (v8 f_P4)); ("V1duLR_2322", nrm a (v1 f_P3 f_P4)); ("V8duLR_2322", nrm a (v8 f_P4));
   ("V1ddLR_2311", nrm a (v1 f_P3 f_P4)); ("V8ddLR_2311", nrm a (v8 f_P4)); ("V1ddLR_2322", nrm a (v1 f_P3 f_P4)); ("V8ddLR_2322", nrm a (v8 f_P4));
   ("V1ddLR_2333", nrm a (v1 f_P3 f_P4)); ("V8ddLR_2333", nrm a (v8 f_P4))].
(** The JMS entries as forms in the EOS coefficients, for the listing [J0]. *)
Definition cjf (b : bool) (f : lform) : lform := if b then lconj f else f.
Definition entry_f (a : asm) (op : string) (x : idx) : lform :=
  match pick0 op x with Some (y, s) => cjf s (getf (cforms a) (cname op y)) | None => [] end.
Definition sub_f (a : asm) (f : lform) : lform :=
  fold_right (fun t s => match fst t with DArr op x b => ladd a (lscale a (snd t) (cjf b (entry_f a op x))) s | DGet _ _ => s end) [] f.
Definition sK (a : asm) (ops : dict string jms_op) : slagr := map (fun t => (sub_f a (fst t), snd t)) (sJ ops).
Lemma from_eos_chk : agree am0 (sK am0 jms_ops) (sE4 am0) pen_quads = true.
Proof. vm_cast_no_check (eq_refl true). Qed.
Lemma jms_ix_plain op x : jms_ix op x = true -> no_us op = true.
Proof.
  unfold jms_ix. destruct (dget jms_fields op) as [fs|] eqn:F; [|discriminate]. intros _.
  pose proof jms_ops_plain as Q. rewrite forallb_forall in Q. apply Q. exact (dget_Some_key _ _ _ F).
Qed.
#[local] Opaque J0 cforms T0.
Section From.
Variable ckm_tree : R -> R -> R -> R -> mat.
Variable qcd_mb qcd_ms : R -> R -> R -> res R.
Variable qcd_as : R -> R -> res R.
Notation okp := (okp ckm_tree qcd_mb qcd_ms qcd_as).
Notation jenv := (jenv ckm_tree).
Variables (scale : R) (input : option params) (p : params).
Hypothesis GP : okp scale input p.
Notation V := (ckm_of ckm_tree p).
Definition genv (g : dict string C) : env := fenv ckm_tree g_names g p.
Definition jms_of (g : dict string C) : dict string C := dmap (lval (genv g)) (cforms am0).
Lemma genv_ok g : env_ok am0 (genv g).
Proof. exact (fenv_ok ckm_tree qcd_mb qcd_ms qcd_as g_names g scale input p GP). Qed.
Lemma cjf_val v b f : lval v (cjf b f) = cj b (lval v f).
Proof. destruct b; [apply lconj_val|reflexivity]. Qed.
Lemma arr_form g op x : jms_ix op x = true -> arr0 (jenv J0 (jms_of g) p) op x = lval (genv g) (entry_f am0 op x).
Proof.
  intros X. rewrite (value_arr ckm_tree J0 p J0_good) by exact X. unfold value, entry_of. rewrite (pick0_eq op x (jms_ix_plain op x X)). unfold entry_f.
  destruct (pick0 op x) as [[y s]|]; [|reflexivity]. cbn [option_map fst snd]. rewrite cjf_val. unfold jms_of. exact (f_equal (cj s) (dget_dmap_lval (genv g) (cforms am0) (cname op y))).
Qed.
Lemma sub_val g f : ix_ok f = true -> lval (genv g) (sub_f am0 f) = lval (jenv J0 (jms_of g) p) f.
Proof.
  unfold sub_f, ix_ok. induction f as [|[t c] f IH]; [intros _; cbn [fold_right lval]; exact eq_refl|]. cbn [forallb fold_right fst snd]. rewrite andb_true_iff. intros [X F].
  destruct t as [|op x b]; [discriminate|]. rewrite (ladd_val am0 _ (genv_ok g)), (lscale_val am0 _ (genv_ok g)), cjf_val, IH by exact F.
  cbn [lval fst snd dtval]. rewrite (arr_form g op x X). rewrite <- (cf_fill ckm_tree g_names J0 g (jms_of g) p c). exact eq_refl.
Qed.
Lemma sK_den g ops : den (genv g) (sK am0 ops) = den (jenv J0 (jms_of g) p) (sJ ops).
Proof.
  unfold sK, den. rewrite map_map. apply map_ext_in. intros t I. cbn [fst snd]. rewrite (sub_val g (fst t) (sJ_ix ops t I)). reflexivity.
Qed.
Lemma g_val' g k : In k g_names -> get0 (e_get (genv g)) k = num_of g k.
Proof. intros I. unfold genv, fenv, get0. cbn [e_get]. rewrite get0_fill; auto. exact g_nodup. Qed.
Theorem jms_of_same g x y z w : bsqq x y z w -> amplitude (L_JMS J0 (jms_of g)) x y z w = amplitude (L_EOS4 p V g) x y z w.
Proof.
  intros (k & o & I & Lg). revert Lg. apply by_order. clear x y z w. intros x y z w Or. pose proof (quads_in _ _ _ _ _ _ _ I Or) as Iq.
  pose proof eos4_chk as K. cbv zeta in K. apply andb_true_iff in K. destruct K as [Dd _].
  unfold L_JMS. rewrite (sJ_val ckm_tree J0 p J0_good J0_nonredundant jms_ops (jms_of g) pen_quads x y z w (incl_refl _) Dd Iq).
  rewrite <- sK_den. rewrite (agree_val am0 _ (genv_ok g) _ _ _ x y z w from_eos_chk Iq).
  rewrite (eos4_den_gen ckm_tree am0 (genv g) p g (genv_ok g) eq_refl eq_refl (g_val' g)). reflexivity.
Qed.
End From.

(** ** One amplitude *)
Definition b_uu : probe := Probe (D F2, D F3, U F1, U F1) 0.
Lemma uu_chk : defd am0 (sE4 am0) b_uu && sharp b_uu && leqb am0 (comp am0 (sE4 am0) b_uu) (nrm am0 (f_A ++ [((1 # 2)%Q, "c1u")])) = true.
Proof. vm_cast_no_check (eq_refl true). Qed.
Section Off.
Variable ckm_tree : R -> R -> R -> R -> mat.
Variable qcd_mb qcd_ms : R -> R -> R -> res R.
Variable qcd_as : R -> R -> res R.
Variables (scale : R) (input : option params) (p : params).
Hypothesis GP : okp ckm_tree qcd_mb qcd_ms qcd_as scale input p.
Notation V := (ckm_of ckm_tree p).
Notation N := (Cmul (RtoC (G4 p)) (Cmul (V F3 F3) (Cconj (V F3 F2)))).
Lemma uu_amp g : amplitude (L_EOS4 p V g) leg_s leg_b leg_u leg_u' =
  Cmul (RtoC 2) (Cmul N (Cadd (Cmul (RtoC (/ 2)) (num_of g "c1u"))
    (Cadd (num_of g "c3") (Cadd (Cmul (RtoC (- / 6)) (num_of g "c4")) (Cadd (Cmul (RtoC 16) (num_of g "c5")) (Cmul (RtoC (- (8 / 3))) (num_of g "c6"))))))).
Proof.
  pose proof uu_chk as K. rewrite !andb_true_iff in K. destruct K as ((K1 & K2) & K3).
  pose proof (genv_ok ckm_tree qcd_mb qcd_ms qcd_as scale input p GP g) as OK.
  rewrite <- (eos4_den_gen ckm_tree am0 (genv ckm_tree p g) p g OK eq_refl eq_refl (g_val' ckm_tree p g)).
  rewrite (comp_val am0 _ _ b_uu leg_s leg_b leg_u leg_u' OK K1 K2 eq_refl). f_equal. rewrite (leqb_val am0 _ _ _ OK K3). unfold nrm. rewrite (lscale_val am0 _ OK).
  assert (cfval (genv ckm_tree p g) eos4_f = N) as ->.
  { rewrite (cf_env _ (jenv ckm_tree [] [] p)) by reflexivity. pose proof rt2_nz as Nz. unfold cfval, eos4_f, mval. cbn [fst snd prod]. rewrite rt2_val.
    cbn [aval cj WetNf.jenv e_par]. change (e_par _) with p. change (e_ckm _) with V. unfold G4, Q2R. cbn [Qnum Qden].
    replace (4 * / 1)%R with 4%R by field. rewrite RtoC_div, RtoC_mul by apply sqrt2_nz. field. exact Nz. }
  f_equal. unfold qf, f_A. cbn [app map fst snd lval dtval cj].
  assert (forall q, cfval (genv ckm_tree p g) (q, mone) = RtoC (Q2R q)) as Q by (intros q; unfold cfval; cbn [fst snd]; rewrite mone_val; ring).
  rewrite !Q, !(g_val' ckm_tree p g) by (unfold g_names; simpl; auto 20).
  replace (Q2R 1) with 1%R by (unfold Q2R; simpl; field). replace (Q2R (- (1 # 6))) with (- / 6)%R by (unfold Q2R; simpl; field).
  replace (Q2R 16) with 16%R by (unfold Q2R; simpl; field). replace (Q2R (- (8 # 3))) with (- (8 / 3))%R by (unfold Q2R; simpl; field).
  replace (Q2R (1 # 2)) with (/ 2)%R by (unfold Q2R; simpl; field). change (RtoC 1) with C1. ring.
Qed.
Lemma N_nz : N <> C0.
Proof.
  destruct GP as [_ (U1 & _ & _ & _ & U5)].
  assert (RtoC (G4 p) <> C0) as Ng.
  { apply RtoC_neq0. unfold G4. intros G. apply U1. pose proof sqrt2_nz as S2. apply (Rmult_eq_reg_l (4 / sqrt 2)).
    - rewrite Rmult_0_r, <- G. field. exact S2.
    - intros W. apply S2. apply (Rmult_eq_compat_r (sqrt 2)) in W. replace (4 / sqrt 2 * sqrt 2)%R with 4%R in W by (field; exact S2). lra. }
  apply Cmul_neq0; [exact Ng|apply Cmul_neq0; [apply U5|apply Cconj_neq0, U5]].
Qed.
End Off.
Lemma eos4_off ckm_tree qcd_mb qcd_ms qcd_as J scale input p : good J -> nonredundant J -> okp ckm_tree qcd_mb qcd_ms qcd_as scale input p ->
  forall c u1 u2 c1 c2 g3 g4 g5 g6, u1 <> c1 ->
  (forall x y z w, bsqq x y z w -> amplitude (L_JMS J c) x y z w = amplitude (L_EOS4 p (ckm_of ckm_tree p) (eos_set u1 u2 c1 c2 g3 g4 g5 g6)) x y z w) ->
  amplitude (L_JMS J c) leg_s leg_b leg_u leg_u' <>
  amplitude (L_EOS4 p (ckm_of ckm_tree p) (returned (outJ ckm_tree nJE J c p))) leg_s leg_b leg_u leg_u'.
Proof.
  intros GJ NR GP c u1 u2 c1 c2 g3 g4 g5 g6 Ne H. rewrite (H _ _ _ _ uu_covered).
  pose proof (eos4_read ckm_tree qcd_mb qcd_ms qcd_as J scale input p GJ NR GP c _ H) as R.
  set (o := outJ ckm_tree nJE J c p) in *.
  pose proof (R "b->s::c1" _ ltac:(left; reflexivity)) as R1. pose proof (R "b->s::c3" _ ltac:(right; right; left; reflexivity)) as R3.
  pose proof (R "b->s::c4" _ ltac:(right; right; right; left; reflexivity)) as R4.
  pose proof (R "b->s::c5" _ ltac:(right; right; right; right; left; reflexivity)) as R5.
  pose proof (R "b->s::c6" _ ltac:(right; right; right; right; right; left; reflexivity)) as R6. clear R. clearbody o.
  rewrite !(uu_amp ckm_tree qcd_mb qcd_ms qcd_as scale input p GP).
  change (num_of (returned o) "c1u") with (num_of o "b->s::c1"). change (num_of (returned o) "c3") with (num_of o "b->s::c3").
  change (num_of (returned o) "c4") with (num_of o "b->s::c4"). change (num_of (returned o) "c5") with (num_of o "b->s::c5").
  change (num_of (returned o) "c6") with (num_of o "b->s::c6"). rewrite R1, R3, R4, R5, R6.
  change (num_of (eos_set u1 u2 c1 c2 g3 g4 g5 g6) "c1u") with u1. change (num_of (eos_set u1 u2 c1 c2 g3 g4 g5 g6) "c1c") with c1.
  unfold half. generalize (num_of (eos_set u1 u2 c1 c2 g3 g4 g5 g6) "c3"), (num_of (eos_set u1 u2 c1 c2 g3 g4 g5 g6) "c4"),
    (num_of (eos_set u1 u2 c1 c2 g3 g4 g5 g6) "c5"), (num_of (eos_set u1 u2 c1 c2 g3 g4 g5 g6) "c6"). intros a b d e E. apply Ne.
  pose proof (N_nz ckm_tree qcd_mb qcd_ms qcd_as scale input p GP) as Nz. revert E Nz.
  generalize (Cmul (RtoC (G4 p)) (Cmul (ckm_of ckm_tree p F3 F3) (Cconj (ckm_of ckm_tree p F3 F2)))). intros N E Nz.
  pose proof (RtoC_neq0 2 ltac:(lra)) as N2. assert (RtoC (/ 2) = Cinv (RtoC 2)) as Hi by (apply RtoC_inv; lra). rewrite Hi in E.
  assert (RtoC 2 = Cadd C1 C1) as T by (unfold RtoC, Cadd, C1; cbn [fst snd]; f_equal; lra).
  match type of E with Cmul _ (Cmul _ (Cadd ?A ?X)) = Cmul _ (Cmul _ (Cadd ?B _)) => assert (A = B) as AB by
    (transitivity (Cmul (Cinv (RtoC 2)) (Cmul (Cinv N) (Csub (Cmul (RtoC 2) (Cmul N (Cadd A X))) (Cmul (RtoC 2) (Cmul N X)))));
     [field; auto|rewrite E; field; auto]) end.
  transitivity (Csub (Cmul (RtoC 2) (Cmul (RtoC 2) (Cmul (Cinv (RtoC 2)) u1))) u1); [rewrite T in *; field; auto|].
  rewrite AB. rewrite T in *. field. auto.
Qed.
(** Equal coefficients for u and c: the result gives the amplitudes back. *)
Lemma means_same ckm_tree qcd_mb qcd_ms qcd_as J scale input p : good J -> nonredundant J -> okp ckm_tree qcd_mb qcd_ms qcd_as scale input p ->
  forall c u1 u2 c1 c2 g3 g4 g5 g6,
  (forall x y z w, bsqq x y z w -> amplitude (L_JMS J c) x y z w = amplitude (L_EOS4 p (ckm_of ckm_tree p) (eos_set u1 u2 c1 c2 g3 g4 g5 g6)) x y z w) ->
  returned (outJ ckm_tree nJE J c p) = eos_set (half u1 c1) (half u2 c2) (half u1 c1) (half u2 c2) g3 g4 g5 g6.
Proof.
  intros GJ NR GP c u1 u2 c1 c2 g3 g4 g5 g6 H. pose proof (eos4_read ckm_tree qcd_mb qcd_ms qcd_as J scale input p GJ NR GP c _ H) as R.
  set (o := outJ ckm_tree nJE J c p) in *.
  pose proof (R "b->s::c1" _ ltac:(left; reflexivity)) as R1. pose proof (R "b->s::c2" _ ltac:(right; left; reflexivity)) as R2.
  pose proof (R "b->s::c3" _ ltac:(right; right; left; reflexivity)) as R3.
  pose proof (R "b->s::c4" _ ltac:(right; right; right; left; reflexivity)) as R4.
  pose proof (R "b->s::c5" _ ltac:(right; right; right; right; left; reflexivity)) as R5.
  pose proof (R "b->s::c6" _ ltac:(right; right; right; right; right; left; reflexivity)) as R6. clear R. clearbody o.
  unfold returned. cbv zeta. cbn [String.append]. rewrite R1, R2, R3, R4, R5, R6. reflexivity.
Qed.
Lemma half_same a : half a a = a.
Proof.
  unfold half. rewrite RtoC_inv by lra. pose proof (RtoC_neq0 2 ltac:(lra)) as N2.
  assert (RtoC 2 = Cadd C1 C1) as T by (unfold RtoC, Cadd, C1; cbn [fst snd]; f_equal; lra). rewrite T in *. field. exact N2.
Qed.
Lemma eos4_case : amplitude (L_EOS4 p1 (ckm_of ckm1 p1) (eos_set C1 C0 C1 C0 C0 C0 C0 C0)) leg_s leg_b leg_u leg_u' = RtoC (G4 p1).
Proof.
  rewrite (uu_amp ckm1 mb4 ms1 as1 5 None p1 p1_ok). change (num_of (eos_set C1 C0 C1 C0 C0 C0 C0 C0) "c1u") with C1.
  change (num_of (eos_set C1 C0 C1 C0 C0 C0 C0 C0) "c3") with C0. change (num_of (eos_set C1 C0 C1 C0 C0 C0 C0 C0) "c4") with C0.
  change (num_of (eos_set C1 C0 C1 C0 C0 C0 C0 C0) "c5") with C0. change (num_of (eos_set C1 C0 C1 C0 C0 C0 C0 C0) "c6") with C0.
  change (ckm_of ckm1 p1 F3 F3) with C1. change (ckm_of ckm1 p1 F3 F2) with C1. generalize (RtoC (G4 p1)). intros g.
  assert (Cconj C1 = C1) as -> by (unfold Cconj, C1; cbn [fst snd]; f_equal; lra).
  rewrite RtoC_inv by lra. pose proof (RtoC_neq0 2 ltac:(lra)) as N2. field. exact N2.
Qed.
Lemma half_zero a : half C0 a = Cmul (RtoC (/ 2)) a.
Proof. unfold half. ring. Qed.
Lemma half_weights ckm_tree qcd_mb qcd_ms qcd_as scale input p : okp ckm_tree qcd_mb qcd_ms qcd_as scale input p -> unitary (ckm_of ckm_tree p) ->
  forall g, half (Cmul (ckm_weight (ckm_of ckm_tree p) F1) g) (Cmul (ckm_weight (ckm_of ckm_tree p) F2) g) = Cmul (RtoC (/ 2)) g.
Proof.
  intros [_ (_ & _ & _ & _ & U5)] Un g. set (V := ckm_of ckm_tree p) in *.
  assert (mmul (mdag V) V F2 F3 = C0) as Z by (rewrite Un; reflexivity).
  unfold mmul, mdag, mT, Tensor.mconj, S3 in Z. unfold half, ckm_weight. f_equal.
  assert (Cmul (V F3 F3) (Cconj (V F3 F2)) <> C0) as Nz by (apply Cmul_neq0; [apply U5|apply Cconj_neq0, U5]).
  revert Z Nz. generalize (V F1 F3), (V F2 F3), (V F3 F3), (Cconj (V F1 F2)), (Cconj (V F2 F2)), (Cconj (V F3 F2)). intros a b c a' b' c' Z Nz.
  transitivity (Cmul (Cmul (Csub (Cmul c c') (Cadd (Cadd (Cmul a' a) (Cmul b' b)) (Cmul c' c))) (Cinv (Cmul c c'))) g); [ring|rewrite Z; field].
  split; intros E; apply Nz; rewrite E; ring.
Qed.
(** A unitary matrix without zeros. *)
Definition third (z : Z) : C := RtoC (IZR z / 3).
Definition ckm2 : R -> R -> R -> R -> mat := fun _ _ _ _ i j =>
  match i, j with F1, F2 | F2, F3 | F3, F1 => third (-1) | _, _ => third 2 end.
Lemma pair_eq (a b a' b' : R) : a = a' -> b = b' -> (a, b) = (a', b').
Proof. intros -> ->. reflexivity. Qed.
Lemma third_nz z : z <> 0%Z -> third z <> C0.
Proof. intros N. apply RtoC_neq0. intros E. apply N. apply eq_IZR. lra. Qed.
Lemma ckm2_unitary : unitary (ckm_of ckm2 p1).
Proof.
  apply mat_ext. intros i j. unfold mmul, mdag, mT, Tensor.mconj, S3, ckm_of, ckm2, third, meye, Tensor.delta.
  destruct i, j; cbn [fl_eqb]; unfold RtoC, Cconj, Cmul, Cadd, C0, C1; cbn [fst snd]; apply pair_eq; field.
Qed.
Lemma ckm2_ok : okp ckm2 mb4 ms1 as1 5 None p1.
Proof.
  destruct p1_ok as [_ (U1 & U2 & U3 & U4 & _)]. split; [reflexivity|]. split; [exact U1|]. split; [exact U2|]. split; [exact U3|]. split; [exact U4|].
  intros i j. unfold ckm_of, ckm2. destruct i, j; apply third_nz; discriminate.
Qed.
