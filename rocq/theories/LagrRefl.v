(** Amplitudes by computation: every Dirac and colour structure is expanded in twenty
    structures, so that two Lagrangians can be compared flavour by flavour. *)
From Coq Require Import String Ascii List Bool Arith ZArith QArith Qreals Reals Lra Lia.
From Verif Require Import PyBase PyDict Cplx Tensor Wc Params WetExpr WetNf Dirac LagrBases.
Import ListNotations.
Open Scope string_scope.
Open Scope list_scope.
Open Scope nat_scope.

(** ** The ten Dirac structures *)
Definition qv := list Q.
Definition basis10 : list dirac :=
  [Dir Vec PL PL; Dir Vec PR PR; Dir Vec PL PR; Dir Vec PR PL; Dir Sca PL PL; Dir Sca PR PR; Dir Sca PL PR; Dir Sca PR PL;
   Dir Ten PL PL; Dir Ten PR PR].
Definition zero10 : qv := repeat 0%Q 10.
Definition unit10 (i : nat) (q : Q) : qv := map (fun j => if Nat.eqb i j then q else 0%Q) (seq 0 10).
Definition vadd (a b : qv) : qv := map (fun t => Qred (fst t + snd t)) (combine a b).
Definition vscale (q : Q) (a : qv) : qv := map (fun x => Qred (q * x)) a.
Definition vsum (l : list qv) : qv := fold_right vadd zero10 l.
Definition lin10 (m : list qv) (a : qv) : qv := vsum (map (fun t => vscale (fst t) (snd t)) (combine a m)).
(** chirality: true for right-handed *)
Definition chir (x : proj) : list (Q * bool) :=
  match x with PL => [(1, false)] | PR => [(1, true)] | PV => [(1, false); (1, true)] | P5 => [((-1), false); (1, true)] end%Q.
Definition vix (x y : bool) : nat := match x, y with false, false => 0 | true, true => 1 | false, true => 2 | true, false => 3 end.
Definition expand1 (k : lorentz) (x y : bool) : option qv :=
  match k with
  | Gam 0 => Some (unit10 (4 + vix x y) 1)
  | Gam 1 => Some (unit10 (vix x y) 1)
  | Gam 3 => Some (unit10 (vix x y) (if Bool.eqb x y then 16 else 4))
  | Gam 4 => Some (if Bool.eqb x y then vadd (unit10 (4 + vix x y) 64) (unit10 (8 + vix x y) (-16)) else unit10 (4 + vix x y) 16)
  | Sig => Some (if Bool.eqb x y then unit10 (8 + vix x y) 1 else zero10)
  | _ => None
  end.
Definition osum (l : list (option qv)) : option qv :=
  fold_right (fun o s => match o, s with Some a, Some b => Some (vadd a b) | _, _ => None end) (Some zero10) l.
(** the conjugated structures; the structures after the exchange of the two bilinears; after
    the exchange of the barred fields *)
Definition bar10 : list qv := map (fun i => unit10 i 1) [0; 1; 2; 3; 5; 4; 7; 6; 9; 8].
Definition swap10 : list qv := map (fun i => unit10 i 1) [0; 1; 3; 2; 4; 5; 7; 6; 8; 9].
Definition fierz10 : list qv :=
  [unit10 0 (-1); unit10 1 (-1); unit10 6 2; unit10 7 2;
   vadd (unit10 4 (1 # 2)) (unit10 8 (1 # 8)); vadd (unit10 5 (1 # 2)) (unit10 9 (1 # 8));
   unit10 2 (1 # 2); unit10 3 (1 # 2);
   vadd (unit10 4 6) (unit10 8 (-(1 # 2))); vadd (unit10 5 6) (unit10 9 (-(1 # 2)))].
Fixpoint expand0 (d : dirac) : option qv :=
  match d with
  | Dir k x y => osum (flat_map (fun a => map (fun b =>
      match expand1 k (snd a) (snd b) with Some v => Some (vscale (fst a * fst b) v) | None => None end) (chir y)) (chir x))
  | Bar d' => match expand0 d' with Some v => Some (lin10 bar10 v) | None => None end
  end.
Definition expand (d : dirac) : qv := match expand0 d with Some v => v | None => zero10 end.

(** ** The check, for all spins *)
Definition spins : list spin := [Sp1; Sp2; Sp3; Sp4].
Definition cfg := (spin * spin * spin * spin)%type.
Definition cfgs : list cfg :=
  flat_map (fun a => flat_map (fun b => flat_map (fun c => map (fun e => (a, b, c, e)) spins) spins) spins) spins.
Definition dsum (t : pairs) (a b c e : spin) : gi :=
  gsum (map (fun t => match t with (s, m, n) => gscale s (gmul (gent m (sn a) (sn b)) (gent n (sn c) (sn e))) end) t).
Definition qg := (Q * Q)%type.
Fixpoint comb (v : qv) (l : list gi) : qg :=
  match v, l with
  | q :: v', g :: l' => let s := comb v' l' in ((q * inject_Z (fst g) + fst s)%Q, (q * inject_Z (snd g) + snd s)%Q)
  | _, _ => (0%Q, 0%Q)
  end.
Definition qg_eqb (g : gi) (q : qg) : bool := Qeq_bool (inject_Z (fst g)) (fst q) && Qeq_bool (inject_Z (snd g)) (snd q).
Definition chirals : list proj := [PL; PR].
Definition plain_dirs : list dirac :=
  flat_map (fun k => flat_map (fun x => map (Dir k x) [PL; PR; PV; P5]) chirals) [Gam 0; Gam 1] ++
  flat_map (fun k => map (fun x => Dir k x PV) chirals) [Gam 3; Gam 4; Sig] ++
  [Dir Sig PL PL; Dir Sig PR PR; Dir Sig PV PV; Dir Sig PV P5].
Definition checked : list dirac := plain_dirs ++ map Bar plain_dirs.
Definition etab : list (cfg * list gi) :=
  let bs := map dterms basis10 in
  map (fun k => match k with (a, b, c, e) => (k, map (fun t => dsum t a b c e) bs) end) cfgs.
Definition expands (tab : list (cfg * list gi)) (d : dirac) : bool :=
  let t := dterms d in
  let v1 := expand d in let v2 := lin10 fierz10 v1 in let v3 := lin10 swap10 v2 in let v4 := lin10 swap10 v1 in
  forallb (fun v : qv => Nat.eqb (length v) 10) [v1; v2; v3; v4] &&
  forallb (fun ke => match fst ke with (a, b, c, e) =>
    qg_eqb (dsum t a b c e) (comb v1 (snd ke)) && qg_eqb (dsum t c b a e) (comb v2 (snd ke)) &&
    qg_eqb (dsum t a e c b) (comb v3 (snd ke)) && qg_eqb (dsum t c e a b) (comb v4 (snd ke)) end) tab.
Lemma all_expand : (let tab := etab in forallb (expands tab) checked) = true.
Proof. vm_cast_no_check (eq_refl true). Qed.

(** ** Values *)
Fixpoint vval (v : qv) (l : list C) : C :=
  match v, l with q :: v', z :: l' => Cadd (Cmul (RtoC (Q2R q)) z) (vval v' l') | _, _ => C0 end.
Lemma comb_val v : forall l, gC (0, 0)%Z = C0 ->
  vval v (map gC l) = (Q2R (fst (comb v l)), Q2R (snd (comb v l))).
Proof.
  intros l _. revert l. induction v as [|q v IH]; intros l; cbn [vval comb].
  - unfold C0. cbn [fst snd]. f_equal; unfold Q2R; simpl; lra.
  - destruct l as [|g l]; cbn [map comb fst snd]; [unfold C0; f_equal; unfold Q2R; simpl; lra|].
    rewrite IH. unfold Cadd, Cmul, RtoC, gC. cbn [fst snd]. rewrite !Q2R_plus, !Q2R_mult.
    replace (Q2R (inject_Z (fst g))) with (IZR (fst g)) by (unfold Q2R; simpl; field).
    replace (Q2R (inject_Z (snd g))) with (IZR (snd g)) by (unfold Q2R; simpl; field). f_equal; ring.
Qed.
Lemma qg_eqb_val g v l : qg_eqb g (comb v l) = true -> gC g = vval v (map gC l).
Proof.
  unfold qg_eqb. rewrite andb_true_iff. intros [A B]. apply Qeq_bool_iff in A. apply Qeq_bool_iff in B.
  apply Qeq_eqR in A. apply Qeq_eqR in B. rewrite comb_val by reflexivity. rewrite <- A, <- B. unfold gC.
  f_equal; unfold Q2R; simpl; field.
Qed.
Lemma cfgs_all a b c e : In (a, b, c, e) cfgs.
Proof.
  unfold cfgs. rewrite in_flat_map. exists a. split; [destruct a; simpl; auto|].
  rewrite in_flat_map. exists b. split; [destruct b; simpl; auto|].
  rewrite in_flat_map. exists c. split; [destruct c; simpl; auto|].
  apply in_map_iff. exists e. split; [auto|destruct e; simpl; auto].
Qed.
(** The ten structures at given spins. *)
Definition tenv (a b c e : spin) : list C := map (fun d => gC (dent d a b c e)) basis10.
Lemma expand_val d a b c e : In d checked ->
  let v1 := expand d in let v2 := lin10 fierz10 v1 in let v3 := lin10 swap10 v2 in let v4 := lin10 swap10 v1 in
  (length v1 = 10 /\ length v2 = 10 /\ length v3 = 10 /\ length v4 = 10) /\
  gC (dent d a b c e) = vval v1 (tenv a b c e) /\ gC (dent d c b a e) = vval v2 (tenv a b c e) /\
  gC (dent d a e c b) = vval v3 (tenv a b c e) /\ gC (dent d c e a b) = vval v4 (tenv a b c e).
Proof.
  intros I v1 v2 v3 v4. pose proof all_expand as H. cbv zeta in H. rewrite forallb_forall in H. specialize (H d I).
  unfold expands in H. fold v1 in H. cbv zeta in H. fold v2 in H. fold v4 in H. fold v3 in H. apply andb_true_iff in H. destruct H as [L H].
  cbn [forallb] in L. rewrite !andb_true_iff in L. destruct L as (L1 & L2 & L3 & L4 & _). apply Nat.eqb_eq in L1, L2, L3, L4.
  split; [auto|]. rewrite forallb_forall in H.
  assert (In ((a, b, c, e), map (fun t => dsum t a b c e) (map dterms basis10)) etab) as M.
  { unfold etab. apply in_map_iff. exists (a, b, c, e). split; [reflexivity|apply cfgs_all]. }
  specialize (H _ M). cbn [fst snd] in H. rewrite !andb_true_iff in H. destruct H as (((H1 & H2) & H3) & H4).
  apply qg_eqb_val in H1, H2, H3, H4.
  assert (map gC (map (fun t => dsum t a b c e) (map dterms basis10)) = tenv a b c e) as E by reflexivity. rewrite E in *.
  auto.
Qed.
Lemma q2r_qred q : Q2R (Qred q) = Q2R q.
Proof. apply Qeq_eqR, Qred_correct. Qed.
Lemma vval_add a : forall b l, length a = length b -> vval (vadd a b) l = Cadd (vval a l) (vval b l).
Proof.
  induction a as [|x a IH]; destruct b as [|y b]; try discriminate; intros l L; [cbn; ring|].
  destruct l as [|z l]; [cbn; ring|]. change (vadd (x :: a) (y :: b)) with (Qred (x + y) :: vadd a b). cbn [vval].
  rewrite IH by (cbn [length] in L; lia). rewrite q2r_qred, Q2R_plus, RtoC_add. ring.
Qed.
Lemma vval_scale q a : forall l, vval (vscale q a) l = Cmul (RtoC (Q2R q)) (vval a l).
Proof.
  induction a as [|x a IH]; intros l; [cbn; ring|]. destruct l as [|z l]; [cbn; ring|].
  change (vscale q (x :: a)) with (Qred (q * x) :: vscale q a). cbn [vval]. rewrite IH, q2r_qred, Q2R_mult, RtoC_mul. ring.
Qed.
Lemma vval_app a : forall b l m, length a = length l -> vval (a ++ b) (l ++ m) = Cadd (vval a l) (vval b m).
Proof.
  induction a as [|x a IH]; destruct l as [|z l]; simpl; try discriminate; intros m L; [ring|]. rewrite IH by lia. ring.
Qed.
Lemma vval_mul a : forall l k, vval a (map (fun z => Cmul z k) l) = Cmul (vval a l) k.
Proof. induction a as [|x a IH]; simpl; intros l k; [ring|]. destruct l as [|z l]; simpl; [ring|]. rewrite IH. ring. Qed.
Lemma vval_zero n : forall l, vval (repeat 0%Q n) l = C0.
Proof.
  induction n as [|n IH]; simpl; intros l; auto. destruct l as [|z l]; auto. rewrite IH.
  replace (Q2R 0) with 0%R by (unfold Q2R; simpl; lra). change (RtoC 0) with C0. ring.
Qed.
Lemma vscale_len q a : length (vscale q a) = length a.
Proof. apply map_length. Qed.
Lemma vadd_len a b : length a = length b -> length (vadd a b) = length b.
Proof. intros L. unfold vadd. rewrite map_length, combine_length, L, Nat.min_id. reflexivity. Qed.

(** ** Colour *)
Definition hues : list hue := [Red; Green; Blue].
Definition kron (a b : hue) : Z := if hue_eqb a b then 1%Z else 0%Z.
Lemma octet_check : forallb (fun a => forallb (fun b => forallb (fun c => forallb (fun e =>
  geqb (octet12 a b c e) ((6 * kron a e * kron c b - 2 * kron a b * kron c e)%Z, 0%Z)) hues) hues) hues) hues = true.
Proof. vm_compute. reflexivity. Qed.
Lemma octet_val a b c e : octet12 a b c e = ((6 * kron a e * kron c b - 2 * kron a b * kron c e)%Z, 0%Z).
Proof.
  pose proof octet_check as H.
  rewrite forallb_forall in H. specialize (H a ltac:(destruct a; simpl; auto)).
  rewrite forallb_forall in H. specialize (H b ltac:(destruct b; simpl; auto)).
  rewrite forallb_forall in H. specialize (H c ltac:(destruct c; simpl; auto)).
  rewrite forallb_forall in H. specialize (H e ltac:(destruct e; simpl; auto)).
  unfold geqb in H. apply andb_true_iff in H. destruct H as [A B]. apply Z.eqb_eq in A. apply Z.eqb_eq in B.
  rewrite (surjective_pairing (octet12 a b c e)), A, B. reflexivity.
Qed.
Definition colours (c : colour) : Q * Q := match c with Singlet => (1, 0) | Crossed => (0, 1) | Octet => (-(1 # 6), 1 # 2) end%Q.
Definition flipc (c : Q * Q) : Q * Q := (snd c, fst c).
Definition colv (k : Q * Q) (s x : C) : C := Cadd (Cmul (RtoC (Q2R (fst k))) s) (Cmul (RtoC (Q2R (snd k))) x).
Lemma q2r0 : Q2R 0 = 0%R. Proof. unfold Q2R; simpl; lra. Qed.
Lemma q2r1 : Q2R 1 = 1%R. Proof. unfold Q2R; simpl; lra. Qed.
Lemma delta_kron f a b : quark f = true -> delta f a b = RtoC (IZR (kron a b)).
Proof. intros Q. unfold delta, kron. rewrite Q. destruct (hue_eqb a b); reflexivity. Qed.
Lemma colour_val o a b c e : (o_colour o = Singlet \/ quark (o1 o) = true /\ quark (o3 o) = true) ->
  colour_factor o a b c e =
  colv (colours (o_colour o)) (Cmul (delta (o1 o) a b) (delta (o3 o) c e)) (Cmul (delta (o1 o) a e) (delta (o3 o) c b)).
Proof.
  unfold colour_factor, colv. intros H. destruct (o_colour o); cbn [colours fst snd].
  - rewrite q2r0, q2r1. change (RtoC 0) with C0. change (RtoC 1) with C1. ring.
  - rewrite q2r0, q2r1. change (RtoC 0) with C0. change (RtoC 1) with C1. ring.
  - destruct H as [H|[Q1 Q3]]; [discriminate|]. rewrite octet_val, !delta_kron by auto. unfold gC. cbn [fst snd].
    change (IZR 0) with 0%R. rewrite minus_IZR, !mult_IZR. replace (Q2R (-(1 # 6))) with (- / 6)%R by (unfold Q2R; simpl; field). replace (Q2R (1 # 2)) with (/ 2)%R by (unfold Q2R; simpl; field).
    unfold Cmul, Cadd, RtoC. cbn [fst snd]. f_equal; field.
Qed.

(** ** Operators *)
Definition fits4 (o : oper) (a b c e : fermion) : bool :=
  if fermion_eqb (o1 o) a then if fermion_eqb (o3 o) c then fermion_eqb (o2 o) b && fermion_eqb (o4 o) e else false else false.
Lemma fits4_eq o a b c e : fits4 o a b c e = fermion_eqb (o1 o) a && fermion_eqb (o2 o) b && fermion_eqb (o3 o) c && fermion_eqb (o4 o) e.
Proof.
  unfold fits4. destruct (fermion_eqb (o1 o) a), (fermion_eqb (o2 o) b), (fermion_eqb (o3 o) c), (fermion_eqb (o4 o) e); reflexivity.
Qed.
Definition by_colour (v : qv) (c : Q * Q) : qv := vscale (fst c) v ++ vscale (snd c) v.
Definition zero20 : qv := repeat 0%Q 20.
Definition lorentz_eqb (a b : lorentz) : bool := match a, b with Gam n, Gam m => Nat.eqb n m | Sig, Sig => true | _, _ => false end.
Definition proj_eqb (a b : proj) : bool := match a, b with PL, PL | PR, PR | PV, PV | P5, P5 => true | _, _ => false end.
Fixpoint dirac_eqb (a b : dirac) : bool :=
  match a, b with
  | Dir k x y, Dir k' x' y' => lorentz_eqb k k' && proj_eqb x x' && proj_eqb y y'
  | Bar a', Bar b' => dirac_eqb a' b'
  | _, _ => false
  end.
Lemma dirac_eqb_eq a : forall b, dirac_eqb a b = true -> a = b.
Proof.
  induction a as [k x y|a IH]; destruct b as [k' x' y'|b]; simpl; try discriminate.
  - rewrite !andb_true_iff. intros [[A B] D]. f_equal.
    + destruct k, k'; simpl in A; try discriminate; auto. apply Nat.eqb_eq in A. subst; auto.
    + destruct x, x'; try discriminate; auto.
    + destruct y, y'; try discriminate; auto.
  - intros H. f_equal; auto.
Qed.
Definition is_singlet (c : colour) : bool := match c with Singlet => true | _ => false end.
Definition quarks4 (o : oper) : bool := quark (o1 o) && quark (o2 o) && quark (o3 o) && quark (o4 o).
Definition plus_if (b : bool) (w : unit -> qv) (s : qv) : qv := if b then vadd (w tt) s else s.
(** The amplitude of an operator for legs of the flavours [q], in the twenty structures. *)
Definition vec4 (o : oper) (q : quad) : option qv :=
  match q with (a, b, c, e) =>
    let p1 := fits4 o a b c e in let p2 := fits4 o c b a e in let p3 := fits4 o a e c b in let p4 := fits4 o c e a b in
    if negb (p1 || p2 || p3 || p4) then Some zero20
    else if existsb (dirac_eqb (o_dirac o)) checked && (quarks4 o || is_singlet (o_colour o) && negb p2 && negb p3) then
      let v := expand (o_dirac o) in
      let k := colours (o_colour o) in
      Some (plus_if p1 (fun _ => by_colour v k) (plus_if p2 (fun _ => vscale (-1) (by_colour (lin10 fierz10 v) (flipc k)))
        (plus_if p3 (fun _ => vscale (-1) (by_colour (lin10 swap10 (lin10 fierz10 v)) (flipc k)))
        (plus_if p4 (fun _ => by_colour (lin10 swap10 v) k) zero20))))
    else None
  end.
Definition colS (x y z w : leg) : C := Cmul (delta (l_f x) (l_h x) (l_h y)) (delta (l_f z) (l_h z) (l_h w)).
Definition colX (x y z w : leg) : C := Cmul (delta (l_f x) (l_h x) (l_h w)) (delta (l_f z) (l_h z) (l_h y)).
Definition bas20 (x y z w : leg) : list C :=
  let t := tenv (l_s x) (l_s y) (l_s z) (l_s w) in map (fun v => Cmul v (colS x y z w)) t ++ map (fun v => Cmul v (colX x y z w)) t.
Lemma fermion_eqb_eq a b : fermion_eqb a b = true -> a = b.
Proof.
  destruct a as [f i], b as [g j]. unfold fermion_eqb. cbn [fst snd]. rewrite andb_true_iff. intros [A B]. apply fl_eqb_eq in B. subst.
  destruct f, g; try discriminate; reflexivity.
Qed.
Lemma by_colour_val v k x y z w : length v = 10 ->
  vval (by_colour v k) (bas20 x y z w) = Cmul (vval v (tenv (l_s x) (l_s y) (l_s z) (l_s w))) (colv k (colS x y z w) (colX x y z w)).
Proof.
  intros L. unfold by_colour, bas20. rewrite vval_app by (rewrite vscale_len, map_length, L; reflexivity).
  rewrite !vval_scale, !vval_mul. unfold colv. ring.
Qed.
Lemma by_colour_len v k : length v = 10 -> length (by_colour v k) = 20.
Proof. intros L. unfold by_colour. rewrite app_length, !vscale_len, L. reflexivity. Qed.
Lemma plus_if_val b w s l : length w = 20 -> length s = 20 ->
  length (plus_if b (fun _ => w) s) = 20 /\ vval (plus_if b (fun _ => w) s) l = Cadd (if b then vval w l else C0) (vval s l).
Proof.
  intros A B. unfold plus_if. destruct b.
  - split; [rewrite vadd_len; congruence|apply vval_add; congruence].
  - split; auto. ring.
Qed.
Lemma vec4_len o q v : vec4 o q = Some v -> length v = 20.
Proof.
  unfold vec4. destruct q as [[[a b] c] e]. destruct (negb _); [intros E; injection E as <-; reflexivity|].
  destruct (existsb _ checked) eqn:X; [|discriminate]. destruct (quarks4 o || _); [|discriminate]. cbn [andb].
  apply existsb_exists in X. destruct X as (d & I & E). apply dirac_eqb_eq in E. subst d.
  destruct (expand_val _ Sp1 Sp1 Sp1 Sp1 I) as ((L1 & L2 & L3 & L4) & _). intros E; injection E as <-.
  repeat (apply (fun w s A B => proj1 (plus_if_val _ w s [] A B)); [rewrite ?vscale_len; apply by_colour_len; assumption|]). reflexivity.
Qed.
Lemma vec4_val o x y z w v : vec4 o (lq x y z w) = Some v -> amp1 o x y z w = vval v (bas20 x y z w).
Proof.
  unfold vec4, lq. unfold amp1, vertex.
  rewrite <- !fits4_eq.
  set (p1 := fits4 o (l_f x) (l_f y) (l_f z) (l_f w)). set (p2 := fits4 o (l_f z) (l_f y) (l_f x) (l_f w)).
  set (p3 := fits4 o (l_f x) (l_f w) (l_f z) (l_f y)). set (p4 := fits4 o (l_f z) (l_f w) (l_f x) (l_f y)).
  destruct (p1 || p2 || p3 || p4) eqn:P; cbn [negb].
  2: { rewrite !orb_false_iff in P. destruct P as (((-> & ->) & ->) & ->). intros E; injection E as <-. unfold zero20. rewrite vval_zero. ring. }
  destruct (existsb _ checked) eqn:X; [|discriminate]. destruct (quarks4 o || _) eqn:K; [|discriminate]. cbn [andb].
  apply existsb_exists in X. destruct X as (d & I & E). apply dirac_eqb_eq in E. subst d.
  destruct (expand_val _ (l_s x) (l_s y) (l_s z) (l_s w) I) as ((L1 & L2 & L3 & L4) & V1 & V2 & V3 & V4).
  intros E; injection E as <-.
  set (c := colours (o_colour o)) in *.
  assert (length (by_colour (expand (o_dirac o)) c) = 20) as M1 by (apply by_colour_len; auto).
  assert (length (vscale (-1) (by_colour (lin10 fierz10 (expand (o_dirac o))) (flipc c))) = 20) as M2 by (rewrite vscale_len; apply by_colour_len; auto).
  assert (length (vscale (-1) (by_colour (lin10 swap10 (lin10 fierz10 (expand (o_dirac o)))) (flipc c))) = 20) as M3 by (rewrite vscale_len; apply by_colour_len; auto).
  assert (length (by_colour (lin10 swap10 (expand (o_dirac o))) c) = 20) as M4 by (apply by_colour_len; auto).
  assert (length zero20 = 20) as M5 by reflexivity.
  destruct (plus_if_val p4 _ _ (bas20 x y z w) M4 M5) as [N4 W4].
  destruct (plus_if_val p3 _ _ (bas20 x y z w) M3 N4) as [N3 W3].
  destruct (plus_if_val p2 _ _ (bas20 x y z w) M2 N3) as [N2 W2].
  destruct (plus_if_val p1 _ _ (bas20 x y z w) M1 N2) as [N1 W1].
  rewrite W1, W2, W3, W4. unfold zero20. rewrite vval_zero, !vval_scale, !by_colour_val by auto.
  rewrite <- V1, <- V2, <- V3, <- V4.
  assert (forall a b e f, fits4 o a b e f = true -> o1 o = a /\ o2 o = b /\ o3 o = e /\ o4 o = f) as FF.
  { intros a b e f H. rewrite fits4_eq, !andb_true_iff in H. destruct H as (((H1 & H2) & H3) & H4).
    repeat split; apply fermion_eqb_eq; assumption. }
  assert (o_colour o = Singlet \/ quark (o1 o) = true /\ quark (o3 o) = true) as CK.
  { apply orb_true_iff in K. destruct K as [K|K].
    - right. unfold quarks4 in K. rewrite !andb_true_iff in K. tauto.
    - left. rewrite !andb_true_iff in K. destruct K as ((K & _) & _). destruct (o_colour o); try discriminate; auto. }
  assert (p2 = true \/ p3 = true -> quark (l_f x) = true /\ quark (l_f z) = true) as KQ.
  { intros H. apply orb_true_iff in K. destruct K as [K|K].
    - unfold quarks4 in K. rewrite !andb_true_iff in K. destruct K as (((K1 & K2) & K3) & K4).
      destruct H as [H|H]; apply FF in H; destruct H as (<- & ? & <- & ?); auto.
    - rewrite !andb_true_iff in K. destruct K as ((_ & K2) & K3). destruct H as [H|H]; rewrite H in *; discriminate. }
  assert (RtoC (Q2R (-1)) = Cneg C1) as MI.
  { unfold Q2R, RtoC, Cneg, C1. cbn [Qnum Qden fst snd]. f_equal; field. }
  rewrite MI.
  assert (p1 = true -> colour_factor o (l_h x) (l_h y) (l_h z) (l_h w) = colv c (colS x y z w) (colX x y z w)) as C1'.
  { intros H. rewrite colour_val by auto. apply FF in H. destruct H as (E1 & _ & E3 & _). rewrite E1, E3. reflexivity. }
  assert (p4 = true -> colour_factor o (l_h z) (l_h w) (l_h x) (l_h y) = colv c (colS x y z w) (colX x y z w)) as C4'.
  { intros H. rewrite colour_val by auto. apply FF in H. destruct H as (E1 & _ & E3 & _). rewrite E1, E3. unfold colS, colX. fold c. unfold colv. ring. }
  assert (p2 = true -> colour_factor o (l_h z) (l_h y) (l_h x) (l_h w) = colv (flipc c) (colS x y z w) (colX x y z w)) as C2'.
  { intros H. rewrite colour_val by auto. destruct (KQ (or_introl H)) as [Q1 Q3]. apply FF in H. destruct H as (E1 & _ & E3 & _). rewrite E1, E3.
    unfold colS, colX. fold c. unfold colv, flipc. cbn [fst snd]. unfold delta. rewrite Q1, Q3. ring. }
  assert (p3 = true -> colour_factor o (l_h x) (l_h w) (l_h z) (l_h y) = colv (flipc c) (colS x y z w) (colX x y z w)) as C3'.
  { intros H. rewrite colour_val by auto. destruct (KQ (or_intror H)) as [Q1 Q3]. apply FF in H. destruct H as (E1 & _ & E3 & _). rewrite E1, E3.
    unfold colS, colX. fold c. unfold colv, flipc. cbn [fst snd]. ring. }
  destruct p1, p2, p3, p4; try (rewrite C1' by auto); try (rewrite C2' by auto); try (rewrite C3' by auto); try (rewrite C4' by auto); ring.
Qed.
