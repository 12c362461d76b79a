(** Lagrangians whose coefficients are linear forms, and their amplitudes. *)
From Coq Require Import String Ascii List Bool Arith ZArith QArith Qreals Reals Lra Lia.
From Verif Require Import PyBase PyDict Cplx Tensor Wc Params Smeft SmeftNames WetExpr Wet WetJms WetNf WetSpec WetChk WetThm WetVals Dirac LagrBases LagrRefl LagrJms.
Import ListNotations.
Open Scope string_scope.
Open Scope list_scope.
Open Scope nat_scope.
#[local] Opaque Ceq_dec.

Definition slagr := list (lform * oper).
Definition lf20 := list lform.
Definition acc (a : asm) (f : lform) (v : qv) (s : lf20) : lf20 :=
  map (fun t => if Z.eqb (Qnum (fst t)) 0 then snd t else ladd a (lscale a (fst t, mone) f) (snd t)) (combine v s).
Definition samp (a : asm) (l : slagr) (q : quad) : option lf20 :=
  fold_right (fun t s => match vec4 (snd t) q, s with
    | Some v, Some r => Some (if forallb (fun x => Z.eqb (Qnum x) 0) v then r else acc a (fst t) v r)
    | _, _ => None end) (Some (repeat [] 20)) l.
Definition splus_hc (f : lform) (o : oper) : slagr := [(f, o); (lconj f, dag o)].
Definition sL_of (a : asm) (factor : coef) (n : dict string lform) (t : table) : slagr :=
  flat_map (fun ko => splus_hc (lscale a factor (getf n (fst ko))) (snd ko)) t.
Definition same20 (a : asm) (p q : option lf20) : bool :=
  match p, q with
  | Some x, Some y => Nat.eqb (length x) (length y) && forallb (fun t => leqb a (fst t) (snd t)) (combine x y)
  | _, _ => false
  end.
Definition agree (a : asm) (S L : slagr) (qs : list quad) : bool := forallb (fun q => same20 a (samp a S q) (samp a L q)) qs.
Definition den (v : env) (l : slagr) : lagrangian := map (fun t => (lval v (fst t), snd t)) l.

Section Sound.
Variables (a : asm) (v : env).
Hypothesis OK : env_ok a v.
Fixpoint fval (s : lf20) (b : list C) : C :=
  match s, b with f :: s', z :: b' => Cadd (Cmul (lval v f) z) (fval s' b') | _, _ => C0 end.
Lemma acc_val f : forall q s b, length q = length s -> fval (acc a f q s) b = Cadd (Cmul (lval v f) (vval q b)) (fval s b).
Proof.
  induction q as [|x q IH]; destruct s as [|g s]; try discriminate; intros b L; [cbn; ring|].
  destruct b as [|z b]; [cbn; ring|].
  change (acc a f (x :: q) (g :: s)) with ((if Z.eqb (Qnum x) 0 then g else ladd a (lscale a (x, mone) f) g) :: acc a f q s).
  cbn [fval vval]. rewrite IH by (cbn [length] in L; lia). destruct (Z.eqb (Qnum x) 0) eqn:Z.
  - apply qz in Z. rewrite Z. change (RtoC 0) with C0. ring.
  - rewrite (ladd_val a v OK), (lscale_val a v OK). unfold cfval. cbn [fst snd]. rewrite mone_val. ring.
Qed.
Lemma zero_val q : forallb (fun x => Z.eqb (Qnum x) 0) q = true -> forall b, vval q b = C0.
Proof.
  induction q as [|x q IH]; cbn [forallb vval]; auto. rewrite andb_true_iff. intros [Z H] b. destruct b; auto.
  apply qz in Z. rewrite Z, IH by auto. change (RtoC 0) with C0. ring.
Qed.
Lemma acc_len f q s : length q = length s -> length (acc a f q s) = length s.
Proof. intros L. unfold acc. rewrite map_length, combine_length, L. apply Nat.min_id. Qed.
Lemma fval_nil n : forall b, fval (repeat [] n) b = C0.
Proof. induction n as [|n IH]; simpl; auto. intros [|z b]; auto. rewrite IH. ring. Qed.
Lemma samp_val x y z w : forall l r, samp a l (lq x y z w) = Some r ->
  length r = 20 /\ amplitude (den v l) x y z w = fval r (bas20 x y z w).
Proof.
  induction l as [|t l IH]; intros r H.
  - injection H as <-. split; [reflexivity|]. unfold fval. symmetry. apply (fval_nil 20).
  - cbn [samp fold_right] in H. fold (samp a l (lq x y z w)) in H.
    destruct (vec4 (snd t) (lq x y z w)) as [q|] eqn:V; [|discriminate].
    destruct (samp a l (lq x y z w)) as [r'|]; [|discriminate]. destruct (IH r' eq_refl) as [L E].
    pose proof (vec4_len _ _ _ V) as VL. apply vec4_val in V.
    cbn [den map amplitude fold_right fst snd]. unfold amplitude, den in E. rewrite E, V.
    destruct (forallb _ q) eqn:Z; injection H as <-.
    + split; auto. rewrite (zero_val q Z). ring.
    + split; [rewrite acc_len; congruence|]. rewrite acc_val by congruence. reflexivity.
Qed.
Lemma same_val p q b : same20 a (Some p) (Some q) = true -> fval p b = fval q b.
Proof.
  unfold same20. rewrite andb_true_iff. intros [L H]. apply Nat.eqb_eq in L. revert q L H b.
  induction p as [|f p IH]; destruct q as [|g q]; try discriminate; auto. cbn [combine forallb fst snd length]. rewrite andb_true_iff.
  intros L [A B] [|z b]; auto. cbn [fval]. rewrite (leqb_val a v f g OK A), (IH q) by (auto; lia). reflexivity.
Qed.
Lemma agree_val S L qs x y z w : agree a S L qs = true -> In (lq x y z w) qs ->
  amplitude (den v S) x y z w = amplitude (den v L) x y z w.
Proof.
  unfold agree. rewrite forallb_forall. intros H I. specialize (H _ I).
  destruct (samp a S (lq x y z w)) as [p|] eqn:A; [|discriminate]. destruct (samp a L (lq x y z w)) as [q|] eqn:B; [|discriminate].
  apply samp_val in A. apply samp_val in B. destruct A as [_ ->]. destruct B as [_ ->]. apply same_val; auto.
Qed.
Lemma sL_of_den factor n t : den v (sL_of a factor n t) = L_of (cfval v factor) t (dmap (lval v) n).
Proof.
  unfold den, sL_of, L_of. induction t as [|[k o] t IH]; auto. cbn [flat_map]. rewrite map_app, IH. f_equal.
  cbn [fst snd splus_hc map plus_hc]. rewrite lconj_val, (lscale_val a v OK), dget_dmap_lval. reflexivity.
Qed.
Lemma den_app l m : den v (l ++ m) = den v l ++ den v m.
Proof. apply map_app. Qed.
Lemma den_flat {A} (f : A -> slagr) l : den v (flat_map f l) = flat_map (fun x => den v (f x)) l.
Proof. induction l as [|x l IH]; auto. cbn [flat_map]. rewrite den_app, IH. reflexivity. Qed.
End Sound.

(** ** Exchanging legs *)
Lemma amp1_xz o x y z w : amp1 o z y x w = Cneg (amp1 o x y z w).
Proof. unfold amp1. ring. Qed.
Lemma amp1_yw o x y z w : amp1 o x w z y = Cneg (amp1 o x y z w).
Proof. unfold amp1. ring. Qed.
Lemma amplitude_xz l x y z w : amplitude l z y x w = Cneg (amplitude l x y z w).
Proof. unfold amplitude. induction l as [|t l IH]; cbn [fold_right]; [ring|]. rewrite IH, amp1_xz. ring. Qed.
Lemma amplitude_yw l x y z w : amplitude l x w z y = Cneg (amplitude l x y z w).
Proof. unfold amplitude. induction l as [|t l IH]; cbn [fold_right]; [ring|]. rewrite IH, amp1_yw. ring. Qed.
(** The legs carry the flavours of the operator or of its hermitian conjugate, in some order. *)
Lemma cneg_inj p q : Cneg p = Cneg q -> p = q.
Proof. intros E. replace p with (Cneg (Cneg p)) by ring. rewrite E. ring. Qed.
Lemma by_order o (l m : lagrangian) x y z w :
  (forall x y z w, ordered o x y z w -> amplitude l x y z w = amplitude m x y z w) -> legs_of o x y z w -> amplitude l x y z w = amplitude m x y z w.
Proof.
  intros H [A|[A|[A|A]]]; apply H in A; auto.
  - rewrite !(amplitude_xz _ x y z w) in A. apply cneg_inj; auto.
  - rewrite !(amplitude_yw _ x y z w) in A. apply cneg_inj; auto.
  - rewrite !(amplitude_xz _ x w z y), !(amplitude_yw _ x y z w) in A. apply cneg_inj, cneg_inj; auto.
Qed.
Definition quad_eqb (p q : quad) : bool :=
  match p, q with (a, b, c, e), (a', b', c', e') => fermion_eqb a a' && fermion_eqb b b' && fermion_eqb c c' && fermion_eqb e e' end.
Lemma quad_eqb_eq p q : quad_eqb p q = true -> p = q.
Proof.
  destruct p as [[[a b] c] e], q as [[[a' b'] c'] e']. unfold quad_eqb. rewrite !andb_true_iff. intros (((A & B) & D) & E).
  apply fermion_eqb_eq in A, B, D, E. subst. reflexivity.
Qed.
Fixpoint nub (l : list quad) : list quad :=
  match l with [] => [] | q :: t => if existsb (quad_eqb q) t then nub t else q :: nub t end.
Lemma nub_in l q : In q l -> In q (nub l).
Proof.
  induction l as [|p l IH]; simpl; auto. intros [->|I].
  - destruct (existsb (quad_eqb q) l) eqn:E; [|simpl; auto]. apply IH. apply existsb_exists in E. destruct E as (r & R & E). apply quad_eqb_eq in E. subst; auto.
  - destruct (existsb _ _); simpl; auto.
Qed.
Definition quads (t : table) : list quad := nub (flat_map (fun ko => [oquad (snd ko); oquad (dag (snd ko))]) t).
Lemma quads_in t k o x y z w : In (k, o) t -> ordered o x y z w -> In (lq x y z w) (quads t).
Proof.
  intros I H. apply nub_in. apply in_flat_map. exists (k, o). split; auto. cbn [snd In]. destruct H as [-> | ->]; auto.
Qed.

(** ** The JMS Lagrangian with canonical entries *)
Definition canon3 (t : datum) : datum :=
  match t with
  | DArr op x b => if jms_ix op x && Nat.eqb (length x) 4 then let r := rep_of op x in if jms_ix op (fst r) then DArr op (fst r) (xorb b (snd r)) else t else t
  | DGet _ _ => t
  end.
Definition lcanon (a : asm) (f : lform) : lform := fold_right (ladd1 a) [] (lmap canon3 f).
Definition datf (op : string) (x : idx) : lform := [(canon3 (DArr op x false), (1%Q, mone))].
Definition sJ_terms (name : string) (o : jms_op) (x : idx) : slagr :=
  if jms_ix name x && (negb (alike o) || lower x) then
    if j_herm o then [(datf name x, jms_oper o x)] else splus_hc (datf name x) (jms_oper o x)
  else [].
Definition sJ (ops : dict string jms_op) : slagr := flat_map (fun no => flat_map (sJ_terms (fst no) (snd no)) idx4) ops.
Definition nofit (o : oper) (q : quad) : bool :=
  match q with (a, b, c, e) => if fits4 o a b c e then false else if fits4 o c b a e then false else if fits4 o a e c b then false else negb (fits4 o c e a b) end.
Definition rest_ops : list oper :=
  flat_map (fun no => flat_map (fun x => if jms_ix (fst no) x then [] else [jms_oper (snd no) x; dag (jms_oper (snd no) x)]) idx4) jms_ops.
Definition dead (qs : list quad) : bool := let R := rest_ops in forallb (fun q => forallb (fun o => nofit o q) R) qs.
Lemma nofit_zero o x y z w : nofit o (lq x y z w) = true -> amp1 o x y z w = C0.
Proof.
  unfold nofit, lq. unfold amp1, vertex. rewrite <- !fits4_eq.
  destruct (fits4 _ _ _ _ _); [discriminate|]. destruct (fits4 _ _ _ _ _); [discriminate|]. destruct (fits4 _ _ _ _ _); [discriminate|].
  destruct (fits4 _ _ _ _ _); [discriminate|]. intros _. ring.
Qed.
Definition matches (ops : dict string jms_op) (a : asm) (L : slagr) (t : table) : bool :=
  let qs := quads t in dead qs && agree a (sJ ops) L qs.
Section Jms.
Variable ckm_tree : R -> R -> R -> R -> mat.
Variable qcd_mb qcd_ms : R -> R -> R -> res R.
Variable qcd_as : R -> R -> res R.
Notation okp := (okp ckm_tree qcd_mb qcd_ms qcd_as).
Notation jenv := (jenv ckm_tree).
Variables (J : list string) (scale : R) (input : option params) (p : params).
Hypothesis (GJ : good J) (NR : nonredundant J) (GP : okp scale input p).
Lemma canon3_val c t : dtval (jenv J c p) (canon3 t) = dtval (jenv J c p) t.
Proof.
  destruct t as [|op x b]; [reflexivity|]. cbn [canon3]. destruct (jms_ix op x) eqn:X; [|reflexivity].
  destruct (Nat.eqb (length x) 4) eqn:L; [|reflexivity]. cbn [andb]. cbv zeta. destruct (jms_ix op (fst (rep_of op x))) eqn:Y; [|reflexivity].
  cbn [dtval]. rewrite !(value_arr ckm_tree J p GJ) by auto. apply Nat.eqb_eq in L. destruct (four_len x L) as (i & j & k & m & ->).
  rewrite (rep_value J c op [i; j; k; m] NR (idx4_in i j k m)), cj_cj. reflexivity.
Qed.
Lemma lcanon_val a c f : env_ok a (jenv J c p) -> lval (jenv J c p) (lcanon a f) = lval (jenv J c p) f.
Proof.
  intros OK. unfold lcanon. induction f as [|t f IH]; auto. cbn [lmap map fold_right fst snd]. rewrite (ladd1_val a _ OK). unfold lmap in IH. rewrite IH.
  cbn [lval fst snd]. rewrite canon3_val. reflexivity.
Qed.
Lemma datf_val c op x : jms_ix op x = true -> lval (jenv J c p) (datf op x) = value J c op x.
Proof.
  intros X. unfold datf. cbn [lval fst snd]. rewrite canon3_val. cbn [dtval cj]. rewrite (value_arr ckm_tree J p GJ) by auto.
  unfold cfval. cbn [fst snd]. rewrite mone_val. replace (Q2R 1) with 1%R by (unfold Q2R; simpl; field). change (RtoC 1) with C1. ring.
Qed.
Lemma sJ_val ops c qs x y z w : incl ops jms_ops -> dead qs = true -> In (lq x y z w) qs ->
  amplitude (L_on ops J c) x y z w = amplitude (den (jenv J c p) (sJ ops)) x y z w.
Proof.
  intros IN Dd I. rewrite (jms_entries_amp ops J c x y z w IN NR). unfold sJ. rewrite den_flat, amplitude_flat. apply lsum_ext. intros [name o] M. cbn [fst snd].
  rewrite den_flat, amplitude_flat. apply lsum_ext. intros i Ii. unfold sJ_terms, entry_terms.
  destruct (jms_ix name i) eqn:X; cbn [andb].
  - destruct (negb (alike o) || lower i); [|reflexivity]. destruct (j_herm o); cbn [den map fst snd splus_hc plus_hc]; rewrite ?lconj_val, datf_val by auto; reflexivity.
  - unfold dead in Dd. cbv zeta in Dd. rewrite forallb_forall in Dd. specialize (Dd _ I). rewrite forallb_forall in Dd.
    assert (forall b : bool, amp1 (if b then dag (jms_oper o i) else jms_oper o i) x y z w = C0) as Z.
    { intros b. apply nofit_zero, Dd. unfold rest_ops. apply in_flat_map. exists (name, o). split; auto. cbn [fst snd]. apply in_flat_map. exists i. split; auto.
      rewrite X. destruct b; simpl; auto. }
    destruct (negb (alike o) || lower i); [|reflexivity].
    destruct (j_herm o); cbn [den map amplitude plus_hc fold_right fst snd]; rewrite ?(Z true), ?(Z false); ring.
Qed.
(** The general comparison. *)
Theorem jms_same ops a c (L : slagr) (t : table) x y z w : incl ops jms_ops -> env_ok a (jenv J c p) ->
  matches ops a L t = true -> covered t x y z w ->
  amplitude (L_on ops J c) x y z w = amplitude (den (jenv J c p) L) x y z w.
Proof.
  intros IN OK H (k & o & I & Lg). unfold matches in H. cbv zeta in H. apply andb_true_iff in H. destruct H as [Dd Ag]. revert Lg. apply by_order.
  clear x y z w. intros x y z w Or. pose proof (quads_in _ _ _ _ _ _ _ I Or) as Iq.
  rewrite (sJ_val ops c (quads t)) by auto. eapply agree_val; eauto.
Qed.
(** The values of the output read through the canonical form. *)
Lemma canon_out a c n : env_ok a (jenv J c p) ->
  forall k, num_of (dmap (lval (jenv J c p)) (dmap (lcanon a) n)) k = num_of (dmap (lval (jenv J c p)) n) k.
Proof.
  intros OK k. rewrite !dget_dmap_lval. unfold getf. rewrite dget_dmap. destruct (dget n k); [|reflexivity]. apply lcanon_val; auto.
Qed.
End Jms.
Lemma L_of_ext f t c c' : (forall k, num_of c k = num_of c' k) -> L_of f t c = L_of f t c'.
Proof. intros H. unfold L_of. apply flat_map_ext. intros [k o]. cbn [fst snd]. rewrite H. reflexivity. Qed.
(** Groups with symbolic factors. *)
Definition sgroups (a : asm) (g : list (coef * table)) (n : dict string lform) : slagr := flat_map (fun ct => sL_of a (fst ct) n (snd ct)) g.
Lemma sgroups_den a v g n : env_ok a v ->
  den v (sgroups a g n) = L_groups (map (fun ct => (cfval v (fst ct), snd ct)) g) (dmap (lval v) n).
Proof.
  intros OK. unfold sgroups, L_groups. rewrite den_flat. induction g as [|ct g IH]; auto. cbn [flat_map map]. rewrite IH. f_equal. apply sL_of_den; auto.
Qed.
Lemma L_groups_ext g c c' : (forall k, num_of c k = num_of c' k) -> L_groups g c = L_groups g c'.
Proof. intros H. unfold L_groups. apply flat_map_ext. intros [f t]. apply L_of_ext; auto. Qed.
