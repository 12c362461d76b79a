(** The translators of wcxf/translators/wet.py with rounded arithmetic, and bounds on their errors in terms of the largest coefficient. *)
From Coq Require Import String List Bool Arith ZArith Reals Lra Lia.
From Verif Require Import PyBase PyDict Cplx Tensor Wc Params Smeft WetExpr WetStr Wet WetJms WetNf Round RoundErr.
Import ListNotations.
Open Scope string_scope.
Open Scope list_scope.
Open Scope R_scope.
#[local] Opaque Ceq_dec.

(** ** Sizes grow with the coefficients *)
(** Formulas in which every term has exactly one coefficient or the factor 0. *)
Fixpoint lin (e : ex) : bool :=
  match e with
  | XGet _ | XArr _ _ | XQ 0 _ => true
  | XNeg a | XConj a => lin a
  | XAdd a b | XSub a b => lin a && lin b
  | XMul a b => (lin a && mulonly b) || (mulonly a && lin b)
  | XDiv a b => lin a && mulonly b
  | _ => false
  end.
(** Dictionaries and arrays related entry by entry. *)
Section Rel.
Variable lev : cval -> cval -> Prop.
Hypothesis lev_none : forall x y, lev x y -> (x = None <-> y = None).
Hypothesis lev_nn : lev None None.
Hypothesis lev_conj : forall x y, lev x y -> lev (conjv x) (conjv y).
Inductive le_dict : dict string cval -> dict string cval -> Prop :=
| ld_nil : le_dict [] []
| ld_cons k x y d e : lev x y -> le_dict d e -> le_dict ((k, x) :: d) ((k, y) :: e).
Definition le_arr (a b : narr) : Prop := n_rank a = n_rank b /\ forall x, lev (n_ent a x) (n_ent b x).
Inductive le_arrs : dict string narr -> dict string narr -> Prop :=
| la_nil : le_arrs [] []
| la_cons k x y d e : le_arr x y -> le_arrs d e -> le_arrs ((k, x) :: d) ((k, y) :: e).
Lemma ld_get d e k : le_dict d e -> match dget d k, dget e k with Some x, Some y => lev x y | None, None => True | _, _ => False end.
Proof. induction 1 as [|k' x y d e L D IH]; cbn; [exact I|]. destruct (keqb k k'); auto. Qed.
Lemma la_get d e k : le_arrs d e -> match dget d k, dget e k with Some x, Some y => le_arr x y | None, None => True | _, _ => False end.
Proof. induction 1 as [|k' x y d e L D IH]; cbn; [exact I|]. destruct (keqb k k'); auto. Qed.
Lemma ld_dset d e k x y : le_dict d e -> lev x y -> le_dict (dset d k x) (dset e k y).
Proof. intros H L. induction H as [|k' x' y' d e L' D IH]; cbn; [repeat constructor; exact L|]. destruct (keqb k k'); constructor; auto. Qed.
Lemma la_dset d e k x y : le_arrs d e -> le_arr x y -> le_arrs (dset d k x) (dset e k y).
Proof. intros H L. induction H as [|k' x' y' d e L' D IH]; cbn; [constructor; [exact L|constructor]|]. destruct (keqb k k'); constructor; auto. Qed.
Lemma ld_dupdate d' e' : le_dict d' e' -> forall d e, le_dict d e -> le_dict (dupdate d d') (dupdate e e').
Proof. induction 1 as [|k x y d' e' L D IH]; intros d e H; [exact H|]. rewrite !dupdate_cons. apply IH, ld_dset; assumption. Qed.
Lemma ld_keys d e : le_dict d e -> dkeys d = dkeys e.
Proof. induction 1 as [|k x y d e L D IH]; [reflexivity|]. unfold dkeys in *. cbn. rewrite IH. reflexivity. Qed.

Lemma s2a_le d e k x y : le_arrs d e -> lev x y ->
  match s2a_step d k x, s2a_step e k y with Ok a, Ok b => le_arrs a b | Err i, Err j => i = j | _, _ => False end.
Proof.
  intros H L. unfold s2a_step. destruct (negb (has_us k)); [apply la_dset; [exact H|split; [reflexivity|intros; exact L]]|].
  set (nm := fold_right append "" (removelast (split_us k))). pose proof (la_get d e nm H) as G. destruct (dget d nm) as [a|], (dget e nm) as [b|]; try contradiction.
  - destruct G as [Rk En]. rewrite Rk. destruct (Nat.eqb (n_rank b) 0); cbn [bind]; [reflexivity|]. rewrite Rk. destruct (parse_index (n_rank b) (index_part k)) as [pre|]; cbn [bind]; [|reflexivity].
    apply la_dset; [exact H|]. split; [exact Rk|]. intros z. cbn. destruct (is_prefix pre z); auto.
  - destruct (Nat.eqb (String.length (index_part k)) 0); cbn [bind]; [reflexivity|]. destruct (parse_index _ (index_part k)) as [pre|]; cbn [bind]; [|reflexivity].
    apply la_dset; [exact H|]. split; [reflexivity|]. intros z. cbn. destruct (is_prefix pre z); [exact L|exact lev_nn].
Qed.
Lemma s2as_le c c1 : le_dict c c1 -> forall d e, le_arrs d e ->
  match scalar2array_from d c, scalar2array_from e c1 with Ok a, Ok b => le_arrs a b | Err i, Err j => i = j | _, _ => False end.
Proof.
  induction 1 as [|k x y c c1 L D IH]; intros d e H; cbn [scalar2array_from]; [exact H|]. pose proof (s2a_le d e k x y H L) as S.
  destruct (s2a_step d k x), (s2a_step e k y); cbn [bind]; try contradiction; [apply IH; exact S|exact S].
Qed.
Lemma complete_le k a b : le_arr a b ->
  match complete1 k a, complete1 k b with Ok a, Ok b => le_arr a b | Err i, Err j => i = j | _, _ => False end.
Proof.
  assert (forall a b, le_arr a b -> match symm_herm a, symm_herm b with Ok a, Ok b => le_arr a b | Err i, Err j => i = j | _, _ => False end) as H1.
  { intros a' b' [R' E']. unfold symm_herm. rewrite R'. destruct (Nat.eqb (n_rank b') 4); [|reflexivity]. split; [reflexivity|]. intros x. cbn. pose proof (E' x) as Q. pose proof (lev_conj _ _ (E' (herm_ix x))). pose proof (lev_none _ _ Q) as [N1 N2]. destruct (n_ent a' x), (n_ent b' x); auto; [discriminate (N2 eq_refl)|discriminate (N1 eq_refl)]. }
  assert (forall a b, le_arr a b -> match symm_current a, symm_current b with Ok a, Ok b => le_arr a b | Err i, Err j => i = j | _, _ => False end) as H2.
  { intros a' b' [R' E']. unfold symm_current. rewrite R'. destruct (Nat.eqb (n_rank b') 4); [|reflexivity]. split; [reflexivity|]. intros x. cbn. pose proof (E' x) as Q. pose proof (E' (cur_ix x)). pose proof (lev_none _ _ Q) as [N1 N2]. destruct (n_ent a' x), (n_ent b' x); auto; [discriminate (N2 eq_refl)|discriminate (N1 eq_refl)]. }
  intros L. unfold complete1.
  assert (match (if mem k herm_ops then symm_herm a else Ok a), (if mem k herm_ops then symm_herm b else Ok b) with Ok a, Ok b => le_arr a b | Err i, Err j => i = j | _, _ => False end) as S1 by (destruct (mem k herm_ops); [apply H1; exact L|exact L]).
  destruct (if mem k herm_ops then symm_herm a else Ok a) as [a1|], (if mem k herm_ops then symm_herm b else Ok b) as [b1|]; cbn [bind]; try contradiction; auto.
  assert (match (if mem k cur_ops then symm_current a1 else Ok a1), (if mem k cur_ops then symm_current b1 else Ok b1) with Ok a, Ok b => le_arr a b | Err i, Err j => i = j | _, _ => False end) as S2 by (destruct (mem k cur_ops); [apply H2; exact S1|exact S1]).
  destruct (if mem k cur_ops then symm_current a1 else Ok a1) as [a2|], (if mem k cur_ops then symm_current b1 else Ok b1) as [b2|]; cbn [bind]; try contradiction; auto.
  destruct (mem k both_ops); [|exact S2]. pose proof (H2 _ _ S2) as S3. destruct (symm_current a2), (symm_current b2); cbn [bind]; try contradiction; [apply H1; exact S3|exact S3].
Qed.
Lemma arrays_le keys c c1 : le_dict (fill keys c) (fill keys c1) ->
  match JMS_to_array keys c, JMS_to_array keys c1 with Ok a, Ok b => le_arrs a b | Err i, Err j => i = j | _, _ => False end.
Proof.
  intros H. unfold JMS_to_array, scalar2array. pose proof (s2as_le _ _ H [] [] la_nil) as S. destruct (scalar2array_from [] (fill keys c)) as [d|], (scalar2array_from [] (fill keys c1)) as [d1|]; cbn [bind]; try contradiction; [|exact S].
  clear H. unfold mapM. induction S as [|k x y d e L D IH]; cbn [map sequence fst snd]; [constructor|]. pose proof (complete_le k x y L) as Q. destruct (complete1 k x), (complete1 k y); cbn [bind]; try contradiction; auto.
  destruct (sequence (map (fun kv => let! a := complete1 (fst kv) (snd kv) in Ok (fst kv, a)) d)), (sequence (map (fun kv => let! a := complete1 (fst kv) (snd kv) in Ok (fst kv, a)) e)); cbn [bind]; try contradiction; auto. constructor; assumption.
Qed.

Lemma le_fill keys c c1 : (forall k, In k keys -> lev (match dget c k with Some v => v | None => Some C0 end) (match dget c1 k with Some v => v | None => Some C0 end)) ->
  le_dict (fill keys c) (fill keys c1).
Proof. intros H. unfold fill, dict_of. apply ld_dupdate; [|constructor]. induction keys as [|k keys IH]; cbn [map]; constructor; [apply H; left; reflexivity|apply IH; intros k' I; apply H; right; exact I]. Qed.
End Rel.

Section Mono.
Variable M : R.
Hypothesis M0 : 0 <= M.
Definition lev (x y : cval) : Prop :=
  match x, y with Some a, Some b => Cabs a <= M * Cabs b | None, None => True | _, _ => False end.
Lemma lev_conj x y : lev x y -> lev (conjv x) (conjv y).
Proof. destruct x, y; cbn; auto. rewrite !Cabs_conj. auto. Qed.
Lemma lev_none x y : lev x y -> (x = None <-> y = None).
Proof. destruct x, y; cbn; try tauto; split; discriminate. Qed.
Notation le_dict := (le_dict lev).
Notation le_arrs := (le_arrs lev).
Definition le_env (v w : env) : Prop := le_dict (e_get v) (e_get w) /\ le_arrs (e_arr v) (e_arr w) /\ e_par v = e_par w /\ e_ckm v = e_ckm w.
Lemma size_const v w e : le_env v w -> mulonly e = true -> evalA sizeA v e = evalA sizeA w e.
Proof.
  intros (_ & _ & P & K). induction e; cbn [mulonly evalA]; intros F; try discriminate; rewrite ?P, ?K; try reflexivity; try (rewrite IHe by exact F; reflexivity).
  - assert (forall a, realmul a = true -> mulonly a = true) as R0 by (clear; induction a; cbn; intros; try discriminate; auto; apply andb_true_iff in H; apply andb_true_iff; tauto). rewrite IHe by (apply R0; exact F). reflexivity.
  - apply andb_true_iff in F. rewrite IHe1, IHe2 by tauto. reflexivity.
  - apply andb_true_iff in F. rewrite IHe1, IHe2 by tauto. reflexivity.
Qed.
Lemma abs_R x : 0 <= x -> Cabs (RtoC x) = x.
Proof. intros H. rewrite Cabs_R, Rabs_right; lra. Qed.
Lemma size_le v w e : le_env v w -> lin e = true ->
  match evalA sizeA v e, evalA sizeA w e with Ok x, Ok y => lev x y | Err i, Err j => i = j | _, _ => False end.
Proof.
  intros V. induction e as [n d| |e1 IH1|s|i j|k|op x|e1 IH1|e1 IH1 e2 IH2|e1 IH1 e2 IH2|e1 IH1 e2 IH2|e1 IH1 e2 IH2|e1 IH1]; cbn [lin]; intros F; try discriminate.
  - destruct n; try discriminate. cbn. unfold qc. rewrite (Rmult_0_l (/ _) : 0 / _ = 0). rewrite !Cabs_R, !Rabs_R0. lra.
  - cbn [evalA]. unfold dlookup. pose proof (ld_get lev _ _ k (proj1 V)) as G. destruct (dget (e_get v) k), (dget (e_get w) k); try contradiction; auto.
  - cbn [evalA]. unfold dlookup. pose proof (la_get lev _ _ op (proj1 (proj2 V))) as G. destruct (dget (e_arr v) op), (dget (e_arr w) op); cbn [bind]; try contradiction; auto. destruct G as [-> G]. destruct (Nat.eqb (length x) (n_rank n0)); auto.
  - specialize (IH1 F). cbn [evalA]. destruct (evalA sizeA v e1) as [x|], (evalA sizeA w e1) as [y|]; cbn [bind]; try contradiction; auto. destruct x, y; cbn in *; auto. rewrite !Cabs_neg. exact IH1.
  - apply andb_true_iff in F. destruct F as [F1 F2]. specialize (IH1 F1). specialize (IH2 F2). cbn [evalA].
    destruct (evalA sizeA v e1) as [x|], (evalA sizeA w e1) as [y|]; cbn [bind]; try contradiction; auto. destruct (evalA sizeA v e2) as [x'|], (evalA sizeA w e2) as [y'|]; cbn [bind]; try contradiction; auto.
    destruct x as [x|], y as [y|]; try contradiction IH1; destruct x' as [x'|], y' as [y'|]; try contradiction IH2; try exact I. cbn in *. pose proof (Cabs_ge0 x). pose proof (Cabs_ge0 x'). pose proof (Cabs_ge0 y). pose proof (Cabs_ge0 y'). rewrite !abs_R by lra. lra.
  - apply andb_true_iff in F. destruct F as [F1 F2]. specialize (IH1 F1). specialize (IH2 F2). cbn [evalA].
    destruct (evalA sizeA v e1) as [x|], (evalA sizeA w e1) as [y|]; cbn [bind]; try contradiction; auto. destruct (evalA sizeA v e2) as [x'|], (evalA sizeA w e2) as [y'|]; cbn [bind]; try contradiction; auto.
    destruct x as [x|], y as [y|]; try contradiction IH1; destruct x' as [x'|], y' as [y'|]; try contradiction IH2; try exact I. cbn in *. pose proof (Cabs_ge0 x). pose proof (Cabs_ge0 x'). pose proof (Cabs_ge0 y). pose proof (Cabs_ge0 y'). rewrite !abs_R by lra. lra.
  - assert (forall a b c : R, 0 <= c -> a <= M * b -> a * c <= M * (b * c)) as Q by (intros; nra).
    apply orb_true_iff in F. destruct F as [F|F]; apply andb_true_iff in F; destruct F as [F1 F2].
    + specialize (IH1 F1). cbn [evalA]. rewrite (size_const v w e2 V F2). destruct (evalA sizeA v e1) as [x|], (evalA sizeA w e1) as [y|]; cbn [bind]; try contradiction; auto.
      destruct (evalA sizeA w e2) as [[z|]|]; cbn [bind]; auto; destruct x as [x|], y as [y|]; try contradiction IH1; try exact I. cbn in *. pose proof (Cabs_ge0 x). pose proof (Cabs_ge0 y). pose proof (Cabs_ge0 z). rewrite !abs_R by (apply Rmult_le_pos; lra). auto.
    + specialize (IH2 F2). cbn [evalA]. rewrite (size_const v w e1 V F1). destruct (evalA sizeA w e1) as [z|]; cbn [bind]; auto. destruct (evalA sizeA v e2) as [x|], (evalA sizeA w e2) as [y|]; cbn [bind]; try contradiction; auto.
      destruct z as [z|]; destruct x as [x|], y as [y|]; try contradiction IH2; try exact I. cbn in *. pose proof (Cabs_ge0 x). pose proof (Cabs_ge0 y). pose proof (Cabs_ge0 z). rewrite !abs_R by (apply Rmult_le_pos; lra). rewrite (Rmult_comm (Cabs z)), (Rmult_comm (Cabs z)). auto.
  - apply andb_true_iff in F. destruct F as [F1 F2]. specialize (IH1 F1). cbn [evalA]. rewrite (size_const v w e2 V F2). destruct (evalA sizeA v e1) as [x|], (evalA sizeA w e1) as [y|]; cbn [bind]; try contradiction; auto.
    destruct (evalA sizeA w e2) as [[z|]|]; cbn [bind]; auto; [|exact I]. destruct (Ceq_dec z C0) as [|N]; [reflexivity|]. destruct x as [x|], y as [y|]; try contradiction IH1; try exact I. cbn in *.
    pose proof (Cabs_ge0 x). pose proof (Cabs_ge0 y). pose proof (Cabs_pos0 z N). pose proof (Rinv_0_lt_compat _ H1). unfold Rdiv. rewrite !abs_R by (apply Rmult_le_pos; lra). nra.
  - specialize (IH1 F). cbn [evalA]. destruct (evalA sizeA v e1) as [x|], (evalA sizeA w e1) as [y|]; cbn [bind]; try contradiction; auto. apply lev_conj, IH1.
Qed.
Definition lin_t (t : tmpl) : bool := forallb (fun kx => lin (snd kx)) t.
Definition both (a b : res (dict string cval)) : Prop := match a, b with Ok x, Ok y => le_dict x y | Err i, Err j => i = j | _, _ => False end.
Lemma size_t_le v w t : le_env v w -> lin_t t = true -> both (eval_tA sizeA v t) (eval_tA sizeA w t).
Proof.
  intros V F. unfold eval_tA, mapM.
  assert (both (sequence (map (fun kx => let! x := evalA sizeA v (snd kx) in Ok (fst kx, x)) t)) (sequence (map (fun kx => let! x := evalA sizeA w (snd kx) in Ok (fst kx, x)) t))) as K.
  { induction t as [|[k e] t IH]; cbn [map sequence fst snd]; [constructor|]. cbn in F. apply andb_true_iff in F. destruct F as [Fe Ft]. specialize (IH Ft). pose proof (size_le v w e V Fe) as Q.
    destruct (evalA sizeA v e), (evalA sizeA w e); cbn [bind]; try contradiction; auto. destruct (sequence (map (fun kx => let! x := evalA sizeA v (snd kx) in Ok (fst kx, x)) t)), (sequence (map (fun kx => let! x := evalA sizeA w (snd kx) in Ok (fst kx, x)) t)); cbn [bind]; try contradiction; auto. constructor; assumption. }
  destruct (sequence (map (fun kx => let! x := evalA sizeA v (snd kx) in Ok (fst kx, x)) t)), (sequence (map (fun kx => let! x := evalA sizeA w (snd kx) in Ok (fst kx, x)) t)); cbn [rmap bind]; try contradiction; auto.
  cbn in *. unfold dict_of. apply ld_dupdate; [exact K|constructor].
Qed.
Lemma le_with v w d e : le_env v w -> le_dict d e -> le_env (with_get v d) (with_get w e).
Proof. intros (_ & H) D. split; [exact D|exact H]. Qed.
Lemma size_chain_le ts : forall v w, le_env v w -> forallb lin_t ts = true -> both (run_chainA sizeA v ts) (run_chainA sizeA w ts).
Proof.
  induction ts as [|t r IH]; intros v w V F; cbn [run_chainA]; [apply V|]. cbn in F. apply andb_true_iff in F. destruct F as [Ft Fr]. pose proof (size_t_le v w t V Ft) as Q.
  destruct (eval_tA sizeA v t), (eval_tA sizeA w t); cbn [bind]; try contradiction; auto. apply IH; [|exact Fr]. apply le_with; assumption.
Qed.
Lemma size_steps_le l : forall v w d e, le_env v w -> forallb (forallb lin_t) l = true -> le_dict d e -> both (run_stepsA sizeA v d l) (run_stepsA sizeA w e l).
Proof.
  induction l as [|t r IH]; intros v w d e V F D; cbn [run_stepsA]; [exact D|]. cbn in F. apply andb_true_iff in F. destruct F as [Ft Fr]. pose proof (size_chain_le t v w V Ft) as Q.
  destruct (run_chainA sizeA v t), (run_chainA sizeA w t); cbn [bind]; try contradiction; auto. apply IH; auto. apply ld_dupdate; assumption.
Qed.
Lemma size_prog_le q v w : le_env v w -> forallb (forallb lin_t) (pr_steps q) = true -> match pr_post q with None => True | Some f => forall k, lin (f (XGet k)) = true end ->
  both (run_progA sizeA v q) (run_progA sizeA w q).
Proof.
  intros V F Po. unfold run_progA. pose proof (size_steps_le (pr_steps q) v w [] [] V F (ld_nil lev)) as Q. destruct (run_stepsA sizeA v [] (pr_steps q)) as [d|x], (run_stepsA sizeA w [] (pr_steps q)) as [d1|x1]; cbn [bind]; try contradiction; auto.
  destruct (pr_post q) as [f|]; [|exact Q]. cbn in Q. rewrite (ld_keys lev _ _ Q). apply size_t_le; [apply le_with; assumption|].
  unfold lin_t, post_t. apply forallb_forall. intros [k e'] I. apply in_map_iff in I. destruct I as (k' & [= <- <-] & _). apply Po.
Qed.
End Mono.

(** ** The translators *)
Section Wet.
Variable ckm_tree : R -> R -> R -> R -> mat.
Variable qcd_mb qcd_ms : R -> R -> R -> res R.
Variable qcd_as : R -> R -> res R.
Notation get_parameters := (get_parameters qcd_mb qcd_ms qcd_as).
(** [Wet.from_JMS] and [Wet.from_flat] with the operations of [A].  The parameters at the scale and the CKM matrix are those of the exact translators:
    their own errors are not counted.  The arrays hold copies of the coefficients, up to conjugation. *)
Definition from_JMSA (A : arith) (q : res prog) (keys : list string) (c : dict string cval) (scale : R) (input : option params) : res (dict string cval) :=
  let! p := get_parameters scale input in
  let! a := JMS_to_array keys c in
  let! q := q in
  run_progA A (Env [] a p (ckm_of ckm_tree p)) q.
Definition from_flatA (A : arith) (q : res prog) (keys : list string) (c : dict string cval) (scale : R) (input : option params) : res (dict string cval) :=
  let! p := get_parameters scale input in
  let! q := q in
  run_progA A (Env (fill keys c) [] p (ckm_of ckm_tree p)) q.
Lemma from_JMS_exact q keys c scale input : from_JMSA exactA q keys c scale input = from_JMS ckm_tree qcd_mb qcd_ms qcd_as q keys c scale input.
Proof. unfold from_JMSA, from_JMS. destruct (get_parameters scale input); cbn [bind]; [|reflexivity]. destruct (JMS_to_array keys c); cbn [bind]; [|reflexivity]. destruct q; cbn [bind]; [|reflexivity]. apply exact_prog. Qed.
Lemma from_flat_exact q keys c scale input : from_flatA exactA q keys c scale input = from_flat ckm_tree qcd_mb qcd_ms qcd_as q keys c scale input.
Proof. unfold from_flatA, from_flat. destruct (get_parameters scale input); cbn [bind]; [|reflexivity]. destruct q; cbn [bind]; [|reflexivity]. apply exact_prog. Qed.

(** Conditions on a program: [n] operations before, [P] after. *)
Definition fits (o cp cv ca n P : nat) (q : res prog) : Prop :=
  forallb (forallb fine_t) (pr_steps (prog0 q)) = true /\ post_ok o cp cv ca (ops_s o cp cv ca n (pr_steps (prog0 q))) P (pr_post (prog0 q)).
Definition linear (q : res prog) : Prop :=
  forallb (forallb lin_t) (pr_steps (prog0 q)) = true /\ match pr_post (prog0 q) with None => True | Some f => forall k, lin (f (XGet k)) = true end.

Definition agrees (eps : R) (P : nat) (r ra rm : res (dict string cval)) : Prop :=
  match r with
  | Ok d => exists da dm, ra = Ok da /\ rm = Ok dm /\ close_dict eps P d da dm
  | Err k => ra = Err k
  end.
Section Round.
Variables (eps : R) (A : arith) (o cp cv ca : nat).
Hypothesis eps_lt : 0 <= eps < 1.
Hypothesis Rd : errs eps A o.
Lemma run_close n P q v va vm : fits o cp cv ca n P q -> close_env eps cp cv ca n v va vm ->
  agrees eps P (let! q := q in run_prog v q) (let! q := q in run_progA A va q) (let! q := q in run_progA sizeA vm q).
Proof. intros [F Po] E. destruct q as [q|k]; cbn [bind]; [|reflexivity]. cbn [prog0] in *. apply (prog_close eps eps_lt A o Rd cp cv ca _ P q n v va vm E F (le_n _) Po). Qed.
(** Coefficients with [ca] errors. *)
Definition near_by (x xa : cval) : Prop := close eps ca x xa x.
Lemma nb_none x y : near_by x y -> (x = None <-> y = None).
Proof. unfold near_by. destruct x, y; cbn; try tauto; split; discriminate. Qed.
Lemma nb_conj x y : near_by x y -> near_by (conjv x) (conjv y).
Proof. apply close_conj. Qed.
Lemma nb_refl x : near_by x x.
Proof. unfold near_by. apply (close_up eps eps_lt 0); [lia|]. destruct x; [apply close_exact|exact I]. Qed.
Lemma arrs_close d e : le_arrs near_by d e -> close_arr eps ca d e.
Proof.
  intros H k. pose proof (la_get near_by d e k H) as G. destruct (dget d k) as [x|], (dget e k) as [y|]; try contradiction; auto.
  destruct G as [Rk G]. exists y. split; [reflexivity|]. split; [auto|exact G].
Qed.
(** The same translator with other parameters and coefficients. *)
Variables (ckm_tree' : R -> R -> R -> R -> mat) (qcd_mb' qcd_ms' : R -> R -> R -> res R) (qcd_as' : R -> R -> res R).
Lemma JMS_close2 P q keys c c' scale input scale' input' p p' :
  get_parameters scale input = Ok p -> Verif.Wet.get_parameters qcd_mb' qcd_ms' qcd_as' scale' input' = Ok p' ->
  close_par eps cp p p' -> close_ckm eps cv (ckm_of ckm_tree p) (ckm_of ckm_tree' p') -> le_dict near_by (fill keys c) (fill keys c') -> fits o cp cv ca 0 P q ->
  agrees eps P (from_JMS ckm_tree qcd_mb qcd_ms qcd_as q keys c scale input)
    (let! p := Verif.Wet.get_parameters qcd_mb' qcd_ms' qcd_as' scale' input' in let! a := JMS_to_array keys c' in let! q := q in run_progA A (Env [] a p (ckm_of ckm_tree' p)) q)
    (from_JMSA sizeA q keys c scale input).
Proof.
  intros E E' Cp Cv Cc F. unfold from_JMS, from_JMSA. rewrite E, E'. cbn [bind].
  pose proof (arrays_le near_by nb_none I nb_conj keys c c' Cc) as Q. destruct (JMS_to_array keys c) as [a|x], (JMS_to_array keys c') as [a'|y]; cbn [bind]; try contradiction; [|cbn; f_equal; auto].
  apply (run_close 0); [exact F|]. split; [constructor|]. split; [apply arrs_close, Q|]. auto.
Qed.
Lemma fill_close n keys c c1 cm : close_dict eps n c c1 cm -> close_dict eps n (fill keys c) (fill keys c1) (fill keys cm).
Proof.
  intros C. unfold fill, dict_of. apply close_dupdate; [|constructor]. induction keys as [|k keys IH]; cbn [map]; constructor; [|exact IH].
  pose proof (close_get eps n c c1 cm k C) as G. destruct (dget c k) as [x|].
  - destruct G as (xa & m & -> & -> & G). exact G.
  - destruct G as [-> ->]. apply (close_up eps eps_lt 0); [lia|]. apply (close_exact eps).
Qed.
Lemma flat_close2 n P q keys c c' cm scale input scale' input' p p' :
  get_parameters scale input = Ok p -> Verif.Wet.get_parameters qcd_mb' qcd_ms' qcd_as' scale' input' = Ok p' ->
  close_par eps cp p p' -> close_ckm eps cv (ckm_of ckm_tree p) (ckm_of ckm_tree' p') -> close_dict eps n (fill keys c) (fill keys c') (fill keys cm) -> fits o cp cv ca n P q ->
  agrees eps P (from_flat ckm_tree qcd_mb qcd_ms qcd_as q keys c scale input)
    (let! p := Verif.Wet.get_parameters qcd_mb' qcd_ms' qcd_as' scale' input' in let! q := q in run_progA A (Env (fill keys c') [] p (ckm_of ckm_tree' p)) q)
    (from_flatA sizeA q keys cm scale input).
Proof.
  intros E E' Cp Cv Cc F. unfold from_flat, from_flatA. rewrite E, E'. cbn [bind]. apply (run_close n); [exact F|]. split; [exact Cc|]. split; [intros k; reflexivity|]. auto.
Qed.
End Round.
Lemma par_refl eps p : close_par eps 0 p p.
Proof. intros k. destruct (dget p k) as [r|]; [|reflexivity]. exists 1. rewrite Rmult_1_r. split; [constructor|reflexivity]. Qed.
Lemma ckm_refl eps V : close_ckm eps 0 V V.
Proof. intros i j. exists C1. split; [constructor|ring]. Qed.
Lemma le_refl (Q : cval -> cval -> Prop) : (forall x, Q x x) -> forall d, le_dict Q d d.
Proof. intros H. induction d as [|[k x] d IH]; constructor; auto. Qed.
(** Rounding only. *)
Section Round.
Variables (A : arith) (eps : R).
Hypothesis Rd : rounding A eps.
Lemma JMS_close P q keys c scale input : fits 1 0 0 0 0 P q ->
  agrees eps P (from_JMS ckm_tree qcd_mb qcd_ms qcd_as q keys c scale input) (from_JMSA A q keys c scale input) (from_JMSA sizeA q keys c scale input).
Proof.
  intros F. destruct (get_parameters scale input) as [p|] eqn:E; [|unfold from_JMS, from_JMSA; rewrite E; reflexivity].
  exact (JMS_close2 eps A 1 0 0 0 (r_eps A eps Rd) (or_introl (conj eq_refl Rd)) ckm_tree qcd_mb qcd_ms qcd_as P q keys c c scale input scale input p p E E (par_refl eps p) (ckm_refl eps _) (le_refl _ (nb_refl eps 0 (r_eps A eps Rd)) _) F).
Qed.
Lemma close_refl n d : close_dict eps n d d d.
Proof.
  induction d as [|[k x] d IH]; constructor; [|exact IH]. exact (nb_refl eps n (r_eps A eps Rd) x).
Qed.
Lemma flat_close n P q keys c c1 cm scale input : fits 1 0 0 0 n P q -> close_dict eps n c c1 cm ->
  agrees eps P (from_flat ckm_tree qcd_mb qcd_ms qcd_as q keys c scale input) (from_flatA A q keys c1 scale input) (from_flatA sizeA q keys cm scale input).
Proof.
  intros F C. destruct (get_parameters scale input) as [p|] eqn:E; [|unfold from_flat, from_flatA; rewrite E; reflexivity].
  exact (flat_close2 eps A 1 0 0 0 (r_eps A eps Rd) (or_introl (conj eq_refl Rd)) ckm_tree qcd_mb qcd_ms qcd_as n P q keys c c1 cm scale input scale input p p E E (par_refl eps p) (ckm_refl eps _) (fill_close eps (r_eps A eps Rd) n keys c c1 cm C) F).
Qed.
End Round.
Lemma close_nums eps n d da dm : close_dict eps n (nums d) da dm -> exists oa om, da = nums oa /\ dm = nums om /\ dkeys oa = dkeys d /\ dkeys om = dkeys d /\
  forall k, Cabs (Csub (num_of oa k) (num_of d k)) <= ((/ (1 - eps)) ^ n - 1) * Cabs (num_of om k).
Proof.
  revert da dm. induction d as [|[k z] d IH]; intros da dm H; inversion H as [|k' x xa m d' da' dm' C D]; subst.
  - exists [], []. repeat split. intros k. cbn. replace (Csub C0 C0) with C0 by ring. rewrite Cabs_0. lra.
  - destruct (IH _ _ D) as (oa & om & -> & -> & K & K' & Hk). destruct xa as [za|], m as [s|]; try contradiction C. exists ((k, za) :: oa), ((k, s) :: om). split; [reflexivity|]. split; [reflexivity|].
    split; [unfold dkeys in *; cbn; rewrite K; reflexivity|]. split; [unfold dkeys in *; cbn; rewrite K'; reflexivity|]. intros k0. unfold num_of. cbn. destruct (keqb k0 k); [apply C|apply Hk].
Qed.

(** *** Sizes *)
Lemma le_fill' M keys c c1 : 0 <= M -> le_dict (lev M) c c1 -> le_dict (lev M) (fill keys c) (fill keys c1).
Proof. intros M0 H. apply le_fill. intros k _. pose proof (ld_get (lev M) c c1 k H). destruct (dget c k), (dget c1 k); try contradiction; auto. cbn. rewrite Cabs_0. lra. Qed.
Lemma JMS_size M q keys c c1 scale input : 0 <= M -> linear q -> le_dict (lev M) (fill keys c) (fill keys c1) ->
  both M (from_JMSA sizeA q keys c scale input) (from_JMSA sizeA q keys c1 scale input).
Proof.
  intros M0 [F Po] L. unfold from_JMSA. destruct (get_parameters scale input) as [p|]; cbn [bind]; [|reflexivity]. pose proof (arrays_le (lev M) (lev_none M) I (lev_conj M) keys c c1 L) as Q.
  destruct (JMS_to_array keys c), (JMS_to_array keys c1); cbn [bind]; try contradiction; [|exact Q]. destruct q as [q|]; cbn [bind]; [|reflexivity]. apply size_prog_le; auto. repeat split; [constructor|exact Q].
Qed.
Lemma flat_size M q keys c c1 scale input : 0 <= M -> linear q -> le_dict (lev M) (fill keys c) (fill keys c1) ->
  both M (from_flatA sizeA q keys c scale input) (from_flatA sizeA q keys c1 scale input).
Proof.
  intros M0 [F Po] L. unfold from_flatA. destruct (get_parameters scale input) as [p|]; cbn [bind]; [|reflexivity].
  destruct q as [q|]; cbn [bind]; [|reflexivity]. apply size_prog_le; auto. repeat split; [exact L|constructor].
Qed.
(** All coefficients 1. *)
Definition ones (keys : list string) : dict string C := map (fun k => (k, C1)) keys.
Lemma num_ones keys k : In k keys -> num_of (ones keys) k = C1.
Proof. intros I. unfold num_of, ones. induction keys as [|k' keys IH]; [contradiction|]. cbn. destruct (keqb k k') eqn:E; [reflexivity|]. destruct I as [->|I]; [rewrite keqb_refl in E; discriminate|auto]. Qed.
Lemma ones_le M keys c : (forall k, Cabs (num_of c k) <= M) -> le_dict (lev M) (fill keys (nums c)) (fill keys (nums (ones keys))).
Proof.
  intros H. apply le_fill. intros k I. change (lev M (jval (nums c) k) (jval (nums (ones keys)) k)). rewrite !jval_nums, num_ones by exact I. cbn. rewrite Cabs_1. specialize (H k). lra.
Qed.
Fixpoint total (d : dict string C) : R := match d with [] => 0 | (_, z) :: t => Cabs z + total t end.
Lemma total_ge d : 0 <= total d.
Proof. induction d as [|[k z] d IH]; cbn; [lra|]. pose proof (Cabs_ge0 z). lra. Qed.
Lemma total_num d k : Cabs (num_of d k) <= total d.
Proof.
  unfold num_of. induction d as [|[k' z] d IH]; cbn; [rewrite Cabs_0; lra|]. pose proof (total_ge d). pose proof (Cabs_ge0 z). destruct (keqb k k'); lra.
Qed.
Lemma ld_num M d e : 0 <= M -> le_dict (lev M) (nums d) (nums e) -> forall k, Cabs (num_of d k) <= M * Cabs (num_of e k).
Proof.
  intros M0 H k. pose proof (ld_get (lev M) _ _ k H) as G. unfold num_of. unfold nums in G. rewrite !dget_dmap in G. destruct (dget d k), (dget e k); try contradiction; auto. rewrite Cabs_0. nra.
Qed.
End Wet.

(** ** Leaving out some of the results *)
Section Drop.
Variable bad : list string.
Definition drop (t : tmpl) : tmpl := filter (fun kx => negb (mem (fst kx) bad)) t.
Fixpoint drop_c (ts : list tmpl) : list tmpl := match ts with [] => [] | [t] => [drop t] | t :: r => t :: drop_c r end.
Definition drop_p (q : prog) : prog := Prog (map drop_c (pr_steps q)) (pr_post q).
Definition same_but (d d' : dict string cval) : Prop := forall k, mem k bad = false -> dget d' k = dget d k.
Lemma drop_t A v t d : eval_tA A v t = Ok d -> exists d', eval_tA A v (drop t) = Ok d' /\ same_but d d'.
Proof.
  unfold eval_tA, mapM. destruct (sequence (map (fun kx => let! x := evalA A v (snd kx) in Ok (fst kx, x)) t)) as [l|] eqn:E; cbn [rmap bind]; [|discriminate]. intros H. injection H as <-.
  assert (exists l', sequence (map (fun kx => let! x := evalA A v (snd kx) in Ok (fst kx, x)) (drop t)) = Ok l' /\ forall k, mem k bad = false -> dget_last l' k = dget_last l k) as (l' & E' & H).
  { revert l E. induction t as [|[k e] t IH]; cbn [map sequence drop filter fst snd]; intros l E; [injection E as <-; exists []; auto|]. destruct (evalA A v e) as [x|] eqn:Ee; cbn [bind] in E; [|discriminate].
    destruct (sequence (map (fun kx => let! x0 := evalA A v (snd kx) in Ok (fst kx, x0)) t)) as [r|]; cbn [bind] in E; [|discriminate]. injection E as <-. destruct (IH r eq_refl) as (l' & E' & H).
    destruct (mem k bad) eqn:M; cbn [negb].
    - exists l'. split; [exact E'|]. intros k0 M0. rewrite (H k0 M0). cbn. destruct (dget_last r k0); [reflexivity|]. destruct (keqb k0 k) eqn:Q; [apply keqb_eq in Q; subst; congruence|reflexivity].
    - cbn [map sequence fst snd]. rewrite Ee. cbn [bind]. unfold drop in E'. rewrite E'. cbn [bind]. exists ((k, x) :: l'). split; [reflexivity|]. intros k0 M0. cbn. rewrite (H k0 M0). reflexivity. }
  rewrite E'. cbn [rmap bind]. eexists. split; [reflexivity|]. intros k M. unfold dict_of. rewrite !dget_dupdate, (H k M). reflexivity.
Qed.
Lemma drop_chain A ts : forall v d, ts <> [] -> run_chainA A v ts = Ok d -> exists d', run_chainA A v (drop_c ts) = Ok d' /\ same_but d d'.
Proof.
  induction ts as [|t r IH]; intros v d N H; [contradiction|]. cbn [run_chainA] in H. destruct (eval_tA A v t) as [x|] eqn:E; cbn [bind] in H; [|discriminate]. destruct r as [|t2 r].
  - cbn in H. injection H as <-. destruct (drop_t A v t x E) as (d' & E' & S). exists d'. cbn [drop_c run_chainA]. rewrite E'. cbn [bind]. split; [reflexivity|exact S].
  - destruct (IH (with_get v x) d ltac:(discriminate) H) as (d' & E' & S). exists d'. change (drop_c (t :: t2 :: r)) with (t :: drop_c (t2 :: r)). cbn [run_chainA]. rewrite E. cbn [bind]. split; [exact E'|exact S].
Qed.
Lemma eval_t_wf A v t d : eval_tA A v t = Ok d -> wf d.
Proof. unfold eval_tA. destruct (mapM _ t); cbn [rmap bind]; [|discriminate]. intros H. injection H as <-. apply wf_dict_of. Qed.
Lemma chain_wf A ts : forall v d, ts <> [] -> run_chainA A v ts = Ok d -> wf d.
Proof.
  induction ts as [|t r IH]; intros v d N H; [contradiction|]. cbn [run_chainA] in H. destruct (eval_tA A v t) as [x|] eqn:E; cbn [bind] in H; [|discriminate]. destruct r as [|t2 r].
  - cbn in H. injection H as <-. exact (eval_t_wf _ _ _ _ E).
  - exact (IH _ _ ltac:(discriminate) H).
Qed.
Lemma drop_steps A l : forall v acc acc' d, Forall (fun ts => ts <> []) l -> same_but acc acc' -> run_stepsA A v acc l = Ok d ->
  exists d', run_stepsA A v acc' (map drop_c l) = Ok d' /\ same_but d d'.
Proof.
  induction l as [|ts r IH]; intros v acc acc' d F S H; cbn [run_stepsA map] in *; [injection H as <-; eauto|]. inversion F as [|? ? N Fr]; subst. destruct (run_chainA A v ts) as [x|] eqn:E; cbn [bind] in H; [|discriminate].
  destruct (drop_chain A ts v x N E) as (x' & E' & Sx). rewrite E'. cbn [bind]. apply (IH _ (dupdate acc x)); [exact Fr| |exact H].
  intros k M. rewrite !dget_dupdate. assert (drop_c ts <> []) as N' by (destruct ts as [|t [|t2 q]]; [contradiction|discriminate|discriminate]).
  rewrite (dget_last_wf x k (chain_wf A ts v x N E)), (dget_last_wf x' k (chain_wf A _ v x' N' E')), (Sx k M), (S k M). reflexivity.
Qed.
End Drop.
