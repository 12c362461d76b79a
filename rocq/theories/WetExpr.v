(** The arithmetic of the formulas in wcxf/translators/wet.py: expressions, their
    evaluation with Python's exceptions, and linear normal forms.  Every dictionary
    display of wet.py is a [tmpl], a list of names and expressions. *)
From Coq Require Import String Ascii List Bool Arith ZArith QArith Qreals Reals Lra.
From Verif Require Import PyBase PyDict Cplx Tensor Wc Params.
Import ListNotations.
Open Scope string_scope.
Open Scope list_scope.
Open Scope nat_scope.
#[local] Opaque Ceq_dec.

(** A complex number or NaN.  Simplified: infinities do not occur. *)
Definition cval := option C.
(** A numpy array of axes of length 3 (rank 0: the scalars that _scalar2array keeps). *)
Record narr := NArr { n_rank : nat; n_ent : idx -> cval }.

(** Expressions.  [XQ n d] is a number written in the source (such as 1 / 2 or Nc), [XPar s]
    is parameters[s], [XV i j] the CKM element V[i, j], [XGet k] the item k of the dictionary
    handed over, [XArr op x] the entry x of the array op, [XRt] math.sqrt. *)
Inductive ex :=
| XQ (n : Z) (d : positive) | XPi | XRt (e : ex) | XPar (s : string) | XV (i j : fl)
| XGet (k : string) | XArr (op : string) (x : idx)
| XNeg (a : ex) | XAdd (a b : ex) | XSub (a b : ex) | XMul (a b : ex) | XDiv (a b : ex) | XConj (a : ex).
Definition tmpl := list (string * ex).

Record env := Env { e_get : dict string cval; e_arr : dict string narr; e_par : params; e_ckm : mat }.
Definition with_get (v : env) (d : dict string cval) : env := Env d (e_arr v) (e_par v) (e_ckm v).

Definition lift2 (f : C -> C -> C) (a b : cval) : cval :=
  match a, b with Some x, Some y => Some (f x y) | _, _ => None end.
Definition conjv (a : cval) : cval := match a with Some x => Some (Cconj x) | None => None end.
Definition qc (n : Z) (d : positive) : C := RtoC (IZR n / IZR (Zpos d)).
(** Simplified: a zero divisor raises ZeroDivisionError also where numpy would give a
    warning and an infinity; an array of another rank than expected raises IndexError. *)
Fixpoint eval (v : env) (e : ex) : res cval :=
  match e with
  | XQ n d => Ok (Some (qc n d))
  | XPi => Ok (Some (RtoC PI))
  | XRt a => let! x := eval v a in
             match x with
             | None => Ok None
             | Some z => if Req_EM_T (Im z) 0 then if Rlt_dec (Re z) 0 then Err ValueError else Ok (Some (RtoC (sqrt (Re z))))
                         else Err TypeError
             end
  | XPar s => match dget (e_par v) s with Some r => Ok (Some (RtoC r)) | None => Err KeyError end
  | XV i j => Ok (Some (e_ckm v i j))
  | XGet k => dlookup (e_get v) k
  | XArr op x => let! a := dlookup (e_arr v) op in
                 if Nat.eqb (length x) (n_rank a) then Ok (n_ent a x) else Err IndexError
  | XNeg a => let! x := eval v a in Ok (match x with Some z => Some (Cneg z) | None => None end)
  | XAdd a b => let! x := eval v a in let! y := eval v b in Ok (lift2 Cadd x y)
  | XSub a b => let! x := eval v a in let! y := eval v b in Ok (lift2 Csub x y)
  | XMul a b => let! x := eval v a in let! y := eval v b in Ok (lift2 Cmul x y)
  | XDiv a b => let! x := eval v a in let! y := eval v b in
                match y with
                | None => Ok None
                | Some w => if Ceq_dec w C0 then Err ZeroDivisionError else Ok (lift2 Cdiv x y)
                end
  | XConj a => let! x := eval v a in Ok (conjv x)
  end.
(** A dictionary display. *)
Definition eval_t (v : env) (t : tmpl) : res (dict string cval) :=
  rmap dict_of (mapM (fun kx => let! x := eval v (snd kx) in Ok (fst kx, x)) t).
(** Functions applied one to the result of the other. *)
Fixpoint run_chain (v : env) (ts : list tmpl) : res (dict string cval) :=
  match ts with
  | [] => Ok (e_get v)
  | t :: r => let! d := eval_t v t in run_chain (with_get v d) r
  end.
(** [d.update(...)] for each step *)
Fixpoint run_steps (v : env) (acc : dict string cval) (l : list (list tmpl)) : res (dict string cval) :=
  match l with
  | [] => Ok acc
  | s :: r => let! d := run_chain v s in run_steps v (dupdate acc d) r
  end.
(** A translator: steps, then [{k: post(v) for k, v in d.items()}]. *)
Record prog := Prog { pr_steps : list (list tmpl); pr_post : option (ex -> ex) }.
Definition post_t (f : ex -> ex) (ks : list string) : tmpl := map (fun k => (k, f (XGet k))) ks.
Definition run_prog (v : env) (q : prog) : res (dict string cval) :=
  let! d := run_steps v [] (pr_steps q) in
  match pr_post q with
  | None => Ok d
  | Some f => eval_t (with_get v d) (post_t f (dkeys d))
  end.

(** ** Boolean equality *)
Fixpoint ex_eqb (a b : ex) : bool :=
  match a, b with
  | XQ n d, XQ n' d' => Z.eqb n n' && Pos.eqb d d'
  | XPi, XPi => true
  | XRt x, XRt y => ex_eqb x y
  | XPar s, XPar t => String.eqb s t
  | XV i j, XV i' j' => fl_eqb i i' && fl_eqb j j'
  | XGet s, XGet t => String.eqb s t
  | XArr s x, XArr t y => String.eqb s t && idx_eqb x y
  | XNeg x, XNeg y => ex_eqb x y
  | XAdd x y, XAdd x' y' | XSub x y, XSub x' y' | XMul x y, XMul x' y' | XDiv x y, XDiv x' y' =>
      ex_eqb x x' && ex_eqb y y'
  | XConj x, XConj y => ex_eqb x y
  | _, _ => false
  end.
Lemma ex_eqb_eq a b : ex_eqb a b = true -> a = b.
Proof.
  revert b; induction a; destruct b; simpl; try discriminate; auto; rewrite ?andb_true_iff; intros H; f_equal; auto;
    try (apply Z.eqb_eq; tauto); try (apply Pos.eqb_eq; tauto); try (apply String.eqb_eq; tauto);
    try (apply fl_eqb_eq; tauto); try (apply idx_eqb_eq; tauto); try (apply IHa1; tauto); apply IHa2; tauto.
Qed.

(** ** Scalars: products and quotients of atoms *)
Inductive atom := APi | APar (s : string) | ART (e : ex) | AV (i j : fl) (c : bool) | AOp (e : ex).
Definition atom_eqb (a b : atom) : bool :=
  match a, b with
  | APi, APi => true
  | APar s, APar t => String.eqb s t
  | ART e, ART f => ex_eqb e f
  | AV i j c, AV i' j' c' => fl_eqb i i' && fl_eqb j j' && Bool.eqb c c'
  | AOp e, AOp f => ex_eqb e f
  | _, _ => false
  end.
Lemma atom_eqb_eq a b : atom_eqb a b = true -> a = b.
Proof.
  destruct a, b; simpl; try discriminate; auto; rewrite ?andb_true_iff; intros H; f_equal.
  - apply String.eqb_eq; auto.
  - apply ex_eqb_eq; auto.
  - apply fl_eqb_eq; tauto.
  - apply fl_eqb_eq; tauto.
  - apply eqb_prop; tauto.
  - apply ex_eqb_eq; auto.
Qed.
Definition mono := (list atom * list atom)%type.
Definition coef := (Q * mono)%type.
Fixpoint remove1 (a : atom) (l : list atom) : option (list atom) :=
  match l with
  | [] => None
  | b :: t => if atom_eqb a b then Some t else match remove1 a t with Some t' => Some (b :: t') | None => None end
  end.

(** What is assumed about the environment: parameters that are positive, expressions of
    parameters that are not zero, and coefficients that can be read. *)
Record asm := Asm { a_pars : list string; a_pos : list string; a_nz : list ex; a_ok : string -> idx -> bool }.

Section Norm.
Variable am : asm.
(** positive real expressions *)
Fixpoint posb (e : ex) : bool :=
  match e with
  | XQ n _ => Z.ltb 0 n
  | XPi => true
  | XPar s => mem s (a_pos am) && mem s (a_pars am)
  | XMul a b | XDiv a b => posb a && posb b
  | XRt a => posb a
  | _ => false
  end.
(** real expressions of parameters without division *)
Fixpoint polyb (e : ex) : bool :=
  match e with
  | XQ _ _ | XPi => true
  | XPar s => mem s (a_pars am)
  | XMul a b | XAdd a b | XSub a b => polyb a && polyb b
  | XNeg a => polyb a
  | _ => false
  end.
Definition inl (e : ex) (l : list ex) : bool := existsb (ex_eqb e) l.
Definition nza (a : atom) : bool :=
  match a with
  | APi => true
  | APar s => inl (XPar s) (a_nz am) || mem s (a_pos am) && mem s (a_pars am)
  | ART e => posb e
  | AV i j _ => inl (XV i j) (a_nz am)
  | AOp e => inl e (a_nz am) && polyb e
  end.
Fixpoint cancel (n d : list atom) : mono :=
  match n with
  | [] => ([], d)
  | a :: t => match (if nza a then remove1 a d else None) with
              | Some d' => cancel t d'
              | None => let (n', d') := cancel t d in (a :: n', d')
              end
  end.
Definition mmulm (x y : mono) : mono := cancel (fst x ++ fst y) (snd x ++ snd y).
Definition minv (x : mono) : mono := (snd x, fst x).
Definition mone : mono := ([], []).
Definition is_one (x : mono) : bool := match x with ([], []) => true | _ => false end.
Definition meqb (x y : mono) : bool :=
  forallb nza (fst y) && forallb nza (snd y) && is_one (mmulm x (minv y)).
Definition cmulc (x y : coef) : coef := (Qred (fst x * fst y), mmulm (snd x) (snd y)).
Definition conja (a : atom) : atom := match a with AV i j c => AV i j (negb c) | _ => a end.
Definition mconj (x : mono) : mono := (map conja (fst x), map conja (snd x)).

Fixpoint scal (e : ex) : option coef :=
  match e with
  | XQ n d => Some (Qred (n # d), mone)
  | XPi => Some (1%Q, ([APi], []))
  | XRt a => if posb a then Some (1%Q, ([ART a], [])) else None
  | XPar s => if mem s (a_pars am) then Some (1%Q, ([APar s], [])) else None
  | XV i j => Some (1%Q, ([AV i j false], []))
  | XNeg a => match scal a with Some (q, m) => Some (Qopp q, m) | None => None end
  | XMul a b => match scal a, scal b with Some x, Some y => Some (cmulc x y) | _, _ => None end
  | XDiv a b => match scal a, scal b with
                | Some x, Some (q, m) =>
                    if negb (Z.eqb (Qnum q) 0) && forallb nza (fst m) && forallb nza (snd m)
                    then Some (cmulc x (Qinv q, minv m)) else None
                | _, _ => None
                end
  | XConj a => match scal a with Some (q, m) => Some (q, mconj m) | None => None end
  | XAdd _ _ | XSub _ _ => if polyb e && inl e (a_nz am) then Some (1%Q, ([AOp e], [])) else None
  | XGet _ | XArr _ _ => None
  end.

(** ** Linear forms in the coefficients *)
Inductive datum := DGet (k : string) (c : bool) | DArr (op : string) (x : idx) (c : bool).
Definition datum_eqb (a b : datum) : bool :=
  match a, b with
  | DGet s c, DGet t d => Bool.eqb c d && String.eqb s t
  | DArr s x c, DArr t y d => Bool.eqb c d && idx_eqb x y && String.eqb s t
  | _, _ => false
  end.
Lemma datum_eqb_eq a b : datum_eqb a b = true -> a = b.
Proof.
  destruct a, b; simpl; try discriminate; rewrite ?andb_true_iff; intros H; f_equal; try (apply eqb_prop; tauto);
    try (apply String.eqb_eq; tauto); apply idx_eqb_eq; tauto.
Qed.
Definition conjd (a : datum) : datum :=
  match a with DGet k c => DGet k (negb c) | DArr op x c => DArr op x (negb c) end.
Definition lform := list (datum * coef).
Fixpoint ladd1 (t : datum * coef) (f : lform) : lform :=
  match f with
  | [] => if Z.eqb (Qnum (fst (snd t))) 0 then [] else [t]
  | u :: r => if datum_eqb (fst t) (fst u) && meqb (snd (snd t)) (snd (snd u))
              then let q := Qred (fst (snd t) + fst (snd u)) in
                   if Z.eqb (Qnum q) 0 then r else (fst u, (q, snd (snd u))) :: r
              else u :: ladd1 t r
  end.
Definition ladd (f g : lform) : lform := fold_right ladd1 g f.
Definition lscale (c : coef) (f : lform) : lform := map (fun t => (fst t, cmulc c (snd t))) f.
Definition lneg (f : lform) : lform := map (fun t => (fst t, (Qopp (fst (snd t)), snd (snd t)))) f.
Definition lconj (f : lform) : lform := map (fun t => (conjd (fst t), (fst (snd t), mconj (snd (snd t))))) f.
Definition linv (c : coef) : option coef :=
  if negb (Z.eqb (Qnum (fst c)) 0) && forallb nza (fst (snd c)) && forallb nza (snd (snd c))
  then Some (Qinv (fst c), minv (snd c)) else None.

Fixpoint lin (g : string -> option lform) (e : ex) : option lform :=
  match e with
  | XQ n _ => if Z.eqb n 0 then Some [] else None
  | XGet k => g k
  | XArr op x => if a_ok am op x then Some [(DArr op x false, (1%Q, mone))] else None
  | XNeg a => match lin g a with Some f => Some (lneg f) | None => None end
  | XAdd a b => match lin g a, lin g b with Some x, Some y => Some (ladd x y) | _, _ => None end
  | XSub a b => match lin g a, lin g b with Some x, Some y => Some (ladd x (lneg y)) | _, _ => None end
  | XMul a b => match scal a with
                | Some c => match lin g b with Some f => Some (lscale c f) | None => None end
                | None => match lin g a, scal b with Some f, Some c => Some (lscale c f) | _, _ => None end
                end
  | XDiv a b => match lin g a, scal b with
                | Some f, Some c => match linv c with Some c' => Some (lscale c' f) | None => None end
                | _, _ => None
                end
  | XConj a => match lin g a with Some f => Some (lconj f) | None => None end
  | XPi | XRt _ | XPar _ | XV _ _ => None
  end.

Fixpoint omap {A B} (f : A -> option B) (l : list A) : option (list B) :=
  match l with
  | [] => Some []
  | a :: t => match f a with
              | Some b => match omap f t with Some u => Some (b :: u) | None => None end
              | None => None
              end
  end.
Definition nf_t (g : string -> option lform) (t : tmpl) : option (dict string lform) :=
  match omap (fun kx => match lin g (snd kx) with Some f => Some (fst kx, f) | None => None end) t with
  | Some l => Some (dict_of l)
  | None => None
  end.
Fixpoint nf_chain (g : string -> option lform) (d : dict string lform) (ts : list tmpl) : option (dict string lform) :=
  match ts with
  | [] => Some d
  | t :: r => match nf_t g t with Some d' => nf_chain (dget d') d' r | None => None end
  end.
Fixpoint nf_steps (g : string -> option lform) (acc : dict string lform) (l : list (list tmpl)) : option (dict string lform) :=
  match l with
  | [] => Some acc
  | [] :: _ => None
  | s :: r => match nf_chain g [] s with Some d => nf_steps g (dupdate acc d) r | None => None end
  end.
Definition nf_prog (g : string -> option lform) (q : prog) : option (dict string lform) :=
  match nf_steps g [] (pr_steps q) with
  | None => None
  | Some d => match pr_post q with None => Some d | Some f => nf_t (dget d) (post_t f (dkeys d)) end
  end.

(** ** Meaning of normal forms *)
Variable v : env.
Definition strip : env := Env [] [] (e_par v) (e_ckm v).
Definition sval (e : ex) : C := match eval strip e with Ok (Some z) => z | _ => C0 end.
Definition cj (c : bool) (z : C) : C := if c then Cconj z else z.
Definition aval (a : atom) : C :=
  match a with
  | APi => RtoC PI
  | APar s => RtoC (param (e_par v) s)
  | ART e => RtoC (Re (sval (XRt e)))
  | AV i j c => cj c (e_ckm v i j)
  | AOp e => RtoC (Re (sval e))
  end.
Fixpoint prod (l : list atom) : C := match l with [] => C1 | a :: t => Cmul (aval a) (prod t) end.
Definition mval (m : mono) : C := Cdiv (prod (fst m)) (prod (snd m)).
Definition cfval (c : coef) : C := Cmul (RtoC (Q2R (fst c))) (mval (snd c)).
Definition get0 (d : dict string cval) (k : string) : C := match dget d k with Some (Some z) => z | _ => C0 end.
Definition arr0 (op : string) (x : idx) : C :=
  match dget (e_arr v) op with Some a => match n_ent a x with Some z => z | None => C0 end | None => C0 end.
Definition dtval (d : datum) : C :=
  match d with DGet k c => cj c (get0 (e_get v) k) | DArr op x c => cj c (arr0 op x) end.
Fixpoint lval (f : lform) : C :=
  match f with [] => C0 | t :: r => Cadd (Cmul (cfval (snd t)) (dtval (fst t))) (lval r) end.

(** The assumptions hold in [v]. *)
Definition env_ok : Prop :=
  (forall s, In s (a_pars am) -> exists r, dget (e_par v) s = Some r) /\
  (forall s, In s (a_pos am) -> (0 < param (e_par v) s)%R) /\
  (forall e, In e (a_nz am) -> sval e <> C0) /\
  (forall op x, a_ok am op x = true -> exists a z, dget (e_arr v) op = Some a /\ n_rank a = length x /\ n_ent a x = Some z).
Hypothesis OK : env_ok.

Lemma inl_In e l : inl e l = true -> In e l.
Proof. unfold inl. rewrite existsb_exists. intros (x & I & E). apply ex_eqb_eq in E. subst; auto. Qed.
Lemma par_eval s : mem s (a_pars am) = true -> eval v (XPar s) = Ok (Some (RtoC (param (e_par v) s))).
Proof.
  intros M. apply mem_In in M. destruct OK as (A & _). destruct (A s M) as (r & E). simpl. unfold param. rewrite E. reflexivity.
Qed.
Lemma pos_eval e : posb e = true -> exists r, eval v e = Ok (Some (RtoC r)) /\ (0 < r)%R.
Proof.
  induction e; simpl; try discriminate; intros P.
  - exists (IZR n / IZR (Zpos d))%R. split; [reflexivity|]. apply Rdiv_lt_0_compat; apply IZR_lt; auto.
    + apply Z.ltb_lt; auto.
    + reflexivity.
  - exists PI. split; auto. apply PI_RGT_0.
  - destruct (IHe P) as (r & E & Q). rewrite E. simpl. exists (sqrt r).
    destruct (Req_EM_T 0 0) as [_|N]; [|exfalso; apply N; reflexivity].
    destruct (Rlt_dec r 0); [exfalso; lra|]. split; auto. apply sqrt_lt_R0; auto.
  - apply andb_true_iff in P. destruct P as [P Q]. exists (param (e_par v) s). split; [apply (par_eval s Q)|].
    apply mem_In in P. destruct OK as (_ & A & _). auto.
  - apply andb_true_iff in P. destruct P as [P Q]. destruct (IHe1 P) as (r & E & A). destruct (IHe2 Q) as (r' & E' & A').
    rewrite E, E'. simpl. exists (r * r')%R. rewrite RtoC_mul. split; auto. apply Rmult_lt_0_compat; auto.
  - apply andb_true_iff in P. destruct P as [P Q]. destruct (IHe1 P) as (r & E & A). destruct (IHe2 Q) as (r' & E' & A').
    rewrite E, E'. simpl. exists (r / r')%R.
    destruct (Ceq_dec (RtoC r') C0) as [Z|_]; [exfalso; injection Z; lra|].
    rewrite RtoC_div by lra. split; auto. apply Rdiv_lt_0_compat; auto.
Qed.
Lemma poly_eval e : polyb e = true -> exists r, eval v e = Ok (Some (RtoC r)).
Proof.
  induction e; simpl; try discriminate; intros P; try (apply andb_true_iff in P; destruct P as [P Q]);
    try (destruct (IHe1 P) as (r & E); destruct (IHe2 Q) as (r' & E'); rewrite E, E'; simpl).
  - exists (IZR n / IZR (Zpos d))%R. reflexivity.
  - exists PI; reflexivity.
  - exists (param (e_par v) s). apply (par_eval s P).
  - destruct (IHe P) as (r & E). rewrite E. simpl. exists (- r)%R. rewrite RtoC_opp. reflexivity.
  - exists (r + r')%R. rewrite RtoC_add. reflexivity.
  - exists (r - r')%R. rewrite RtoC_sub. reflexivity.
  - exists (r * r')%R. rewrite RtoC_mul. reflexivity.
Qed.
(** Scalars do not depend on the coefficients. *)
Lemma pos_indep w e : e_par w = e_par v -> e_ckm w = e_ckm v -> posb e = true -> eval w e = eval v e.
Proof.
  intros A B. induction e; simpl; try discriminate; intros P; auto; try (apply andb_true_iff in P; destruct P as [P Q]);
    try (rewrite IHe1, IHe2 by auto); try rewrite IHe by auto; rewrite ?A; reflexivity.
Qed.
Lemma poly_indep w e : e_par w = e_par v -> e_ckm w = e_ckm v -> polyb e = true -> eval w e = eval v e.
Proof.
  intros A B. induction e; simpl; try discriminate; intros P; auto; try (apply andb_true_iff in P; destruct P as [P Q]);
    try (rewrite IHe1, IHe2 by auto); try rewrite IHe by auto; rewrite ?A; reflexivity.
Qed.
Lemma pos_sval e r : posb e = true -> eval v e = Ok (Some (RtoC r)) -> sval e = RtoC r.
Proof. intros P E. unfold sval. rewrite (pos_indep strip e) by auto. rewrite E. reflexivity. Qed.
Lemma poly_sval e r : polyb e = true -> eval v e = Ok (Some (RtoC r)) -> sval e = RtoC r.
Proof. intros P E. unfold sval. rewrite (poly_indep strip e) by auto. rewrite E. reflexivity. Qed.
Lemma nza_val a : nza a = true -> aval a <> C0.
Proof.
  destruct OK as (A & B & D & _). destruct a; simpl; intros H.
  - apply RtoC_neq0. apply PI_neq0.
  - apply orb_true_iff in H. destruct H as [H|H].
    + apply inl_In in H. specialize (D _ H). unfold sval in D. simpl in D. unfold param.
      destruct (dget (e_par v) s) as [r|]; [exact D|congruence].
    + apply andb_true_iff in H. destruct H as [H _]. apply mem_In in H. specialize (B s H). intros E. apply RtoC_inj in E. lra.
  - destruct (pos_eval (XRt e)) as (r & E & P); auto. rewrite (pos_sval (XRt e) r) by auto. apply RtoC_neq0. simpl. lra.
  - apply inl_In in H. specialize (D _ H). unfold sval in D. simpl in D. destruct c; simpl; [apply Cconj_neq0|]; auto.
  - apply andb_true_iff in H. destruct H as [H P]. apply inl_In in H. specialize (D _ H).
    destruct (poly_eval e P) as (r & E). rewrite (poly_sval e r) in * by auto. exact D.
Qed.
Lemma Cmul_assoc_aux a b c : Cmul a (Cmul b c) = Cmul (Cmul a b) c.
Proof. ring. Qed.
Lemma prod_app l m : prod (l ++ m) = Cmul (prod l) (prod m).
Proof. induction l as [|a t IH]; simpl; [|rewrite IH]; ring. Qed.
Lemma remove1_prod a l l' : remove1 a l = Some l' -> prod l = Cmul (aval a) (prod l').
Proof.
  revert l'; induction l as [|b t IH]; simpl; intros l' E; [discriminate|].
  destruct (atom_eqb a b) eqn:Q.
  - apply atom_eqb_eq in Q. inversion E; subst. reflexivity.
  - destruct (remove1 a t) as [t'|]; [|discriminate]. inversion E; subst. simpl. rewrite (IH t') by reflexivity. ring.
Qed.
Lemma prod_nz l : forallb nza l = true -> prod l <> C0.
Proof.
  induction l as [|a t IH]; simpl; intros H; [apply C1_neq_0|].
  apply andb_true_iff in H. apply Cmul_neq0; [apply nza_val|apply IH]; tauto.
Qed.
Lemma Cinv_0 : Cinv C0 = C0.
Proof. apply C_ext; unfold Cinv, C0, Re, Im; simpl; unfold Rdiv; ring. Qed.
Lemma Cinv_mul a b : Cinv (Cmul a b) = Cmul (Cinv a) (Cinv b).
Proof.
  destruct (Ceq_dec a C0) as [->|A]; [replace (Cmul C0 b) with C0 by ring; rewrite Cinv_0; ring|].
  destruct (Ceq_dec b C0) as [->|B]; [replace (Cmul a C0) with C0 by ring; rewrite Cinv_0; ring|].
  field; auto.
Qed.
Lemma cancel_val n : forall d, mval (cancel n d) = Cdiv (prod n) (prod d).
Proof.
  induction n as [|a t IH]; intros d; simpl; [reflexivity|].
  destruct (nza a) eqn:Z.
  - destruct (remove1 a d) as [d'|] eqn:E.
    + rewrite IH. rewrite (remove1_prod _ _ _ E). apply nza_val in Z. unfold Cdiv. rewrite Cinv_mul.
      transitivity (Cmul (Cmul (Cinv (aval a)) (aval a)) (Cmul (prod t) (Cinv (prod d')))); [rewrite Cinv_l by auto; ring|ring].
    + specialize (IH d). destruct (cancel t d) as [n' d']. unfold mval in *. simpl in *. unfold Cdiv in *.
      rewrite <- (Cmul_assoc_aux (aval a)), <- (Cmul_assoc_aux (aval a) (prod t)), IH. reflexivity.
  - specialize (IH d). destruct (cancel t d) as [n' d']. unfold mval in *. simpl in *. unfold Cdiv in *.
      rewrite <- (Cmul_assoc_aux (aval a)), <- (Cmul_assoc_aux (aval a) (prod t)), IH. reflexivity.
Qed.
Lemma mmulm_val x y : mval (mmulm x y) = Cmul (mval x) (mval y).
Proof.
  unfold mmulm. rewrite cancel_val, !prod_app. unfold mval, Cdiv. rewrite Cinv_mul. ring.
Qed.
Lemma Cinv_inv a : Cinv (Cinv a) = a.
Proof. destruct (Ceq_dec a C0) as [->|N]; [rewrite !Cinv_0; reflexivity|]. field. split; auto. apply C1_neq_0. Qed.
Lemma minv_val x : mval (minv x) = Cinv (mval x).
Proof. unfold mval, minv, Cdiv. simpl. rewrite Cinv_mul, Cinv_inv. ring. Qed.
Lemma mone_val : mval mone = C1.
Proof. unfold mval, Cdiv. simpl. field. apply C1_neq_0. Qed.
Lemma mval_nz m : forallb nza (fst m) = true -> forallb nza (snd m) = true -> mval m <> C0.
Proof. intros A B. apply Cdiv_neq0; apply prod_nz; auto. Qed.
Lemma meqb_val x y : meqb x y = true -> mval x = mval y.
Proof.
  unfold meqb. rewrite !andb_true_iff. intros [[A B] H].
  assert (mval (mmulm x (minv y)) = C1) as E.
  { destruct (mmulm x (minv y)) as [[|] [|]]; try discriminate. apply mone_val. }
  rewrite mmulm_val, minv_val in E. pose proof (mval_nz y A B) as N.
  transitivity (Cmul (Cmul (mval x) (Cinv (mval y))) (mval y)); [|rewrite E; ring].
  transitivity (Cmul (mval x) (Cmul (Cinv (mval y)) (mval y))); [rewrite Cinv_l by auto; ring|ring].
Qed.
Lemma conja_val a : aval (conja a) = Cconj (aval a).
Proof. destruct a as [| | |i j c|]; simpl; rewrite ?Cconj_R; auto. destruct c; simpl; rewrite ?Cconj_conj; auto. Qed.
Lemma prod_conj l : prod (map conja l) = Cconj (prod l).
Proof. induction l as [|a t IH]; simpl; [symmetry; apply Cconj_1|]. rewrite IH, conja_val, Cconj_mul. reflexivity. Qed.
Lemma mconj_val m : mval (mconj m) = Cconj (mval m).
Proof. unfold mval, mconj. simpl. rewrite !prod_conj, Cconj_div. reflexivity. Qed.
Lemma Q2R_red q : Q2R (Qred q) = Q2R q.
Proof. apply Qeq_eqR. apply Qred_correct. Qed.
Lemma cmulc_val x y : cfval (cmulc x y) = Cmul (cfval x) (cfval y).
Proof. unfold cfval, cmulc. cbn [fst snd]. rewrite mmulm_val, Q2R_red, Q2R_mult, RtoC_mul. ring. Qed.
Lemma qnz q : Z.eqb (Qnum q) 0 = false -> ~ (q == 0)%Q.
Proof. intros H E. unfold Qeq in E. simpl in E. apply Z.eqb_neq in H. apply H. rewrite Z.mul_1_r in E. exact E. Qed.
Lemma qz q : Z.eqb (Qnum q) 0 = true -> Q2R q = 0%R.
Proof. intros H. apply Z.eqb_eq in H. unfold Q2R. rewrite H. ring. Qed.
Lemma q2r_nz q : Z.eqb (Qnum q) 0 = false -> Q2R q <> 0%R.
Proof.
  intros H E. apply qnz in H. apply H. apply eqR_Qeq. rewrite E. unfold Q2R. simpl. ring.
Qed.
Lemma linv_val c c' : linv c = Some c' -> cfval c <> C0 /\ cfval c' = Cinv (cfval c).
Proof.
  unfold linv. destruct (negb (Qnum (fst c) =? 0)%Z && forallb nza (fst (snd c)) && forallb nza (snd (snd c))) eqn:E; [|discriminate].
  rewrite !andb_true_iff, negb_true_iff in E. destruct E as [[E1 E2] E3]. intros H; inversion H; subst; clear H.
  assert (cfval c <> C0) as N.
  { apply Cmul_neq0; [apply RtoC_neq0, q2r_nz; auto|apply mval_nz; auto]. }
  split; auto. unfold cfval. simpl. rewrite minv_val, Q2R_inv, RtoC_inv, Cinv_mul by (try apply qnz; try apply q2r_nz; auto). reflexivity.
Qed.
Lemma q2r_frac n d : Q2R (n # d) = (IZR n / IZR (Zpos d))%R.
Proof. reflexivity. Qed.
Lemma one_val a : cfval (1%Q, ([a], [])) = aval a.
Proof.
  unfold cfval, mval, Cdiv. simpl. replace (Q2R 1) with 1%R by (unfold Q2R; simpl; field). change (RtoC 1) with C1. field. apply C1_neq_0.
Qed.
Lemma scal_sound e : forall c, scal e = Some c -> eval v e = Ok (Some (cfval c)).
Proof.
  induction e; cbn [scal]; intros r S; try discriminate.
  - assert (r = (Qred (n # d), mone)) as -> by congruence. clear S. simpl eval. unfold cfval. cbn [fst snd]. rewrite mone_val. rewrite Q2R_red, q2r_frac. unfold qc. do 2 f_equal. ring.
  - inversion S; subst. rewrite one_val. reflexivity.
  - destruct (posb e) eqn:P; [|discriminate]. inversion S; subst. rewrite one_val. cbn [aval].
    destruct (pos_eval (XRt e) P) as (x & E & _). rewrite (pos_sval (XRt e) x) by auto. exact E.
  - destruct (mem s (a_pars am)) eqn:P; [|discriminate]. inversion S; subst. rewrite one_val. apply par_eval; auto.
  - inversion S; subst. rewrite one_val. reflexivity.
  - destruct (scal e) as [[q m]|]; [|discriminate]. inversion S; subst. simpl. rewrite (IHe _ eq_refl). simpl. do 2 f_equal.
    unfold cfval. simpl. rewrite Q2R_opp, RtoC_opp. ring.
  - destruct (polyb (XAdd e1 e2) && inl (XAdd e1 e2) (a_nz am)) eqn:P; [|discriminate]. inversion S; subst. rewrite one_val.
    apply andb_true_iff in P. destruct (poly_eval _ (proj1 P)) as (x & E). cbn [aval]. rewrite (poly_sval _ x) by tauto. exact E.
  - destruct (polyb (XSub e1 e2) && inl (XSub e1 e2) (a_nz am)) eqn:P; [|discriminate]. inversion S; subst. rewrite one_val.
    apply andb_true_iff in P. destruct (poly_eval _ (proj1 P)) as (x & E). cbn [aval]. rewrite (poly_sval _ x) by tauto. exact E.
  - destruct (scal e1) as [x|]; [|discriminate]. destruct (scal e2) as [y|]; [|discriminate]. inversion S; subst.
    simpl. rewrite (IHe1 _ eq_refl), (IHe2 _ eq_refl). simpl. rewrite cmulc_val. reflexivity.
  - destruct (scal e1) as [x|]; [|discriminate]. destruct (scal e2) as [y|]; [|discriminate].
    assert (match linv y with Some y' => Some (cmulc x y') | None => None end = Some r) as S'.
    { rewrite <- S. unfold linv. destruct y as [q m]. cbn [fst snd]. destruct (_ && _); reflexivity. }
    clear S. destruct (linv y) as [y'|] eqn:L; [|discriminate]. inversion S'; subst.
    apply linv_val in L. destruct L as [N L]. simpl. rewrite (IHe1 _ eq_refl), (IHe2 _ eq_refl). simpl.
    destruct (Ceq_dec (cfval y) C0); [contradiction|]. rewrite cmulc_val, L. reflexivity.
  - destruct (scal e) as [[q m]|]; [|discriminate]. inversion S; subst. simpl. rewrite (IHe _ eq_refl). simpl. do 2 f_equal.
    unfold cfval. simpl. rewrite Cconj_mul, Cconj_R, mconj_val. reflexivity.
Qed.
Lemma scal_indep d e : forall c, scal e = Some c -> eval (with_get v d) e = eval v e.
Proof.
  induction e; cbn [scal]; intros r S; try discriminate; try reflexivity.
  - destruct (posb e) eqn:P; [|discriminate]. apply (pos_indep (with_get v d) (XRt e)); auto.
  - destruct (scal e) as [x|]; [|discriminate]. simpl. rewrite (IHe _ eq_refl). reflexivity.
  - destruct (polyb (XAdd e1 e2) && inl (XAdd e1 e2) (a_nz am)) eqn:P; [|discriminate]. apply andb_true_iff in P. apply (poly_indep (with_get v d)); [reflexivity|reflexivity|tauto].
  - destruct (polyb (XSub e1 e2) && inl (XSub e1 e2) (a_nz am)) eqn:P; [|discriminate]. apply andb_true_iff in P. apply (poly_indep (with_get v d)); [reflexivity|reflexivity|tauto].
  - destruct (scal e1) as [x|]; [|discriminate]. destruct (scal e2) as [y|]; [|discriminate]. simpl.
    rewrite (IHe1 _ eq_refl), (IHe2 _ eq_refl). reflexivity.
  - destruct (scal e1) as [x|]; [|discriminate]. destruct (scal e2) as [y|]; [|discriminate]. simpl.
    rewrite (IHe1 _ eq_refl), (IHe2 _ eq_refl). reflexivity.
  - destruct (scal e) as [x|]; [|discriminate]. simpl. rewrite (IHe _ eq_refl). reflexivity.
Qed.

(** ** Linear forms *)
Lemma conjd_val d : dtval (conjd d) = Cconj (dtval d).
Proof. destruct d as [k [|]|op x [|]]; simpl; rewrite ?Cconj_conj; reflexivity. Qed.
Lemma lscale_val c f : lval (lscale c f) = Cmul (cfval c) (lval f).
Proof. induction f as [|t r IH]; simpl; [ring|]. rewrite IH, cmulc_val. ring. Qed.
Lemma lneg_val f : lval (lneg f) = Cneg (lval f).
Proof. induction f as [|[d [q m]] r IH]; unfold lneg in *; cbn [map lval fst snd]; [ring|]. rewrite IH. unfold cfval; cbn [fst snd]. rewrite Q2R_opp, RtoC_opp. ring. Qed.
Lemma lconj_val f : lval (lconj f) = Cconj (lval f).
Proof.
  induction f as [|[d [q m]] r IH]; unfold lconj in *; cbn [map lval fst snd]; [symmetry; apply Cconj_0|]. rewrite IH, conjd_val, Cconj_add, Cconj_mul.
  unfold cfval; cbn [fst snd]. rewrite mconj_val, Cconj_mul, Cconj_R. reflexivity.
Qed.
Lemma ladd1_val t f : lval (ladd1 t f) = Cadd (Cmul (cfval (snd t)) (dtval (fst t))) (lval f).
Proof.
  destruct t as [d [q m]]. induction f as [|[d' [q' m']] r IH]; cbn [ladd1 fst snd].
  - destruct (Qnum q =? 0)%Z eqn:Z; [|reflexivity]. simpl. unfold cfval. cbn [fst snd]. rewrite (qz _ Z), RtoC_0. ring.
  - destruct (datum_eqb d d' && meqb m m') eqn:E.
    + apply andb_true_iff in E. destruct E as [E1 E2]. apply datum_eqb_eq in E1. apply meqb_val in E2. subst d'.
      assert (Q2R (Qred (q + q')) = Q2R q + Q2R q')%R as S by (rewrite Q2R_red; apply Q2R_plus).
      destruct (Qnum (Qred (q + q')) =? 0)%Z eqn:Z; cbn [lval fst snd].
      * apply qz in Z. unfold cfval. cbn [fst snd]. rewrite E2. replace (Q2R q) with (- Q2R q')%R by lra. rewrite RtoC_opp. ring.
      * unfold cfval. cbn [fst snd]. rewrite S, RtoC_add, E2. ring.
    + cbn [lval fst snd]. rewrite IH. cbn [fst snd]. ring.
Qed.
Lemma ladd_val f g : lval (ladd f g) = Cadd (lval f) (lval g).
Proof. induction f as [|t r IH]; simpl; [ring|]. rewrite ladd1_val, IH. ring. Qed.

(** The dictionary [d] holds the values of the linear forms [g]. *)
Definition holds (g : string -> option lform) (d : dict string cval) : Prop :=
  forall k f, g k = Some f -> dget d k = Some (Some (lval f)).
Lemma lin_sound g d : holds g d -> forall e f, lin g e = Some f -> eval (with_get v d) e = Ok (Some (lval f)).
Proof.
  intros H. induction e; cbn [lin]; intros f S; try discriminate.
  - destruct (Z.eqb n 0) eqn:Z; [|discriminate]. inversion S; subst. apply Z.eqb_eq in Z. subst. simpl. unfold qc.
    do 2 f_equal. apply C_ext; unfold RtoC, Re, Im; simpl; unfold Rdiv; ring.
  - simpl. unfold dlookup. rewrite (H _ _ S). reflexivity.
  - destruct (a_ok am op x) eqn:A; [|discriminate]. inversion S; subst. destruct OK as (_ & _ & _ & D).
    destruct (D _ _ A) as (a & z & E1 & E2 & E3). simpl. unfold dlookup. rewrite E1. simpl. rewrite E2, Nat.eqb_refl, E3.
    unfold arr0. rewrite E1, E3. do 2 f_equal. unfold cfval. cbn [fst snd]. rewrite mone_val.
    replace (Q2R 1) with 1%R by (unfold Q2R; simpl; field). change (RtoC 1) with C1. ring.
  - destruct (lin g e) as [x|]; [|discriminate]. inversion S; subst. simpl. rewrite (IHe _ eq_refl). simpl. rewrite lneg_val. reflexivity.
  - destruct (lin g e1) as [x|]; [|discriminate]. destruct (lin g e2) as [y|]; [|discriminate]. inversion S; subst.
    simpl. rewrite (IHe1 _ eq_refl), (IHe2 _ eq_refl). simpl. rewrite ladd_val. reflexivity.
  - destruct (lin g e1) as [x|]; [|discriminate]. destruct (lin g e2) as [y|]; [|discriminate]. inversion S; subst.
    simpl. rewrite (IHe1 _ eq_refl), (IHe2 _ eq_refl). simpl. rewrite ladd_val, lneg_val. apply f_equal, f_equal. ring.
  - destruct (scal e1) as [c|] eqn:C.
    + destruct (lin g e2) as [y|]; [|discriminate]. inversion S; subst. simpl. rewrite (scal_indep _ _ _ C), (scal_sound _ _ C), (IHe2 _ eq_refl).
      simpl. rewrite lscale_val. reflexivity.
    + destruct (lin g e1) as [y|]; [|discriminate]. destruct (scal e2) as [c|] eqn:D; [|discriminate]. inversion S; subst.
      simpl. rewrite (scal_indep _ _ _ D), (scal_sound _ _ D), (IHe1 _ eq_refl). simpl. rewrite lscale_val. apply f_equal, f_equal. ring.
  - destruct (lin g e1) as [y|]; [|discriminate]. destruct (scal e2) as [c|] eqn:D; [|discriminate].
    destruct (linv c) as [c'|] eqn:L; [|discriminate]. inversion S; subst. apply linv_val in L. destruct L as [N L].
    simpl. rewrite (IHe1 _ eq_refl), (scal_indep _ _ _ D), (scal_sound _ _ D). simpl.
    destruct (Ceq_dec (cfval c) C0); [contradiction|]. rewrite lscale_val, L. unfold Cdiv. apply f_equal, f_equal. ring.
  - destruct (lin g e) as [x|]; [|discriminate]. inversion S; subst. simpl. rewrite (IHe _ eq_refl). simpl. rewrite lconj_val. reflexivity.
Qed.

(** ** Dictionaries *)
Definition vals (d : dict string lform) : dict string cval := dmap (fun f => Some (lval f)) d.
Lemma vals_dset d k f : vals (dset d k f) = dset (vals d) k (Some (lval f)).
Proof.
  unfold vals, dmap in *. induction d as [|[k' f'] t IH]; simpl; auto. destruct (keqb k k'); simpl; auto. rewrite IH. reflexivity.
Qed.
Lemma vals_dupdate l : forall d, vals (dupdate d l) = dupdate (vals d) (vals l).
Proof.
  induction l as [|[k f] t IH]; intros d; auto. simpl vals at 3. rewrite !dupdate_cons, <- vals_dset. apply IH.
Qed.
Lemma holds_vals d : holds (dget d) (vals d).
Proof. intros k f E. unfold vals. rewrite dget_dmap, E. reflexivity. Qed.
Lemma nf_t_sound g d t r : holds g d -> nf_t g t = Some r -> eval_t (with_get v d) t = Ok (vals r).
Proof.
  intros H. unfold nf_t, eval_t.
  destruct (omap _ t) as [l|] eqn:E; [|discriminate]. intros S; inversion S; subst; clear S.
  assert (mapM (fun kx => let! x := eval (with_get v d) (snd kx) in Ok (fst kx, x)) t = Ok (vals l)) as M.
  { revert l E. induction t as [|[k x] t IH]; cbn [omap]; intros l E.
    - inversion E; subst. reflexivity.
    - cbn [fst snd] in E. destruct (lin g x) as [f|] eqn:L; [|discriminate].
      destruct (omap _ t) as [u|] eqn:U; [|discriminate]. inversion E; subst.
      unfold mapM in *. cbn [map sequence fst snd]. rewrite (lin_sound g d H _ _ L). cbn [bind].
      rewrite (IH u eq_refl). reflexivity. }
  rewrite M. simpl. f_equal. unfold dict_of. rewrite vals_dupdate. reflexivity.
Qed.
Lemma nf_chain_sound ts : forall g d0 d r, holds g d -> vals d0 = d -> nf_chain g d0 ts = Some r ->
  run_chain (with_get v d) ts = Ok (vals r).
Proof.
  induction ts as [|t ts IH]; intros g d0 d r H V; simpl; intros S.
  - inversion S; subst. reflexivity.
  - destruct (nf_t g t) as [d'|] eqn:E; [|discriminate]. rewrite (nf_t_sound _ _ _ _ H E). simpl.
    apply (IH (dget d') d' (vals d') r); auto. apply holds_vals.
Qed.
Lemma nf_steps_sound l : forall g acc d r, holds g d -> nf_steps g acc l = Some r ->
  run_steps (with_get v d) (vals acc) l = Ok (vals r).
Proof.
  induction l as [|s l IH]; intros g acc d r H; simpl; intros S.
  - inversion S; subst. reflexivity.
  - destruct s as [|t ts]; [discriminate|].
    destruct (nf_chain g [] (t :: ts)) as [x|] eqn:E; [|discriminate].
    assert (run_chain (with_get v d) (t :: ts) = Ok (vals x)) as R.
    { simpl in E |- *. destruct (nf_t g t) as [d'|] eqn:F; [|discriminate]. rewrite (nf_t_sound _ _ _ _ H F). simpl.
      apply (nf_chain_sound ts (dget d') d' (vals d') x); auto. apply holds_vals. }
    rewrite R. cbn [bind]. rewrite <- vals_dupdate. apply (IH g); auto.
Qed.
Lemma dkeys_vals d : dkeys (vals d) = dkeys d.
Proof. apply dkeys_dmap. Qed.
Theorem nf_prog_sound g d q r : holds g d -> nf_prog g q = Some r -> run_prog (with_get v d) q = Ok (vals r).
Proof.
  intros H. unfold nf_prog, run_prog.
  destruct (nf_steps g [] (pr_steps q)) as [x|] eqn:E; [|discriminate].
  change (@nil (string * cval)) with (vals []). rewrite (nf_steps_sound _ _ _ _ _ H E). cbn [bind].
  destruct (pr_post q) as [f|].
  - intros S. rewrite dkeys_vals. apply (nf_t_sound (dget x) (vals x)); auto. apply holds_vals.
  - intros S; inversion S; reflexivity.
Qed.
End Norm.

(** ** Linear forms as functions of the coefficients *)
Lemma cfval_same v w c : e_par w = e_par v -> e_ckm w = e_ckm v -> cfval w c = cfval v c.
Proof.
  intros A B. assert (forall a, aval w a = aval v a) as E.
  { intros a. destruct a; simpl; unfold sval, strip; rewrite ?A, ?B; reflexivity. }
  assert (forall l, prod w l = prod v l) as P by (induction l as [|a t IH]; simpl; [|rewrite IH, E]; auto).
  unfold cfval, mval. rewrite !P. reflexivity.
Qed.
Lemma lval_ext v w f : e_par w = e_par v -> e_ckm w = e_ckm v ->
  (forall d, In d (map fst f) -> dtval w d = dtval v d) -> lval w f = lval v f.
Proof.
  intros A B. induction f as [|t r IH]; simpl; intros H; auto.
  rewrite (cfval_same v w) by auto. rewrite H by auto. rewrite IH; auto.
Qed.
Lemma lval_add v1 v2 v3 f : e_par v3 = e_par v1 -> e_ckm v3 = e_ckm v1 -> e_par v2 = e_par v1 -> e_ckm v2 = e_ckm v1 ->
  (forall d, In d (map fst f) -> dtval v3 d = Cadd (dtval v1 d) (dtval v2 d)) ->
  lval v3 f = Cadd (lval v1 f) (lval v2 f).
Proof.
  intros A B A' B'. induction f as [|t r IH]; simpl; intros H; [ring|].
  rewrite (cfval_same v1 v3), (cfval_same v1 v2) by auto. rewrite H by auto. rewrite IH; auto. ring.
Qed.
Lemma lval_scale v1 v2 z f : e_par v2 = e_par v1 -> e_ckm v2 = e_ckm v1 ->
  (forall d, In d (map fst f) -> dtval v2 d = Cmul z (dtval v1 d)) -> lval v2 f = Cmul z (lval v1 f).
Proof.
  intros A B. induction f as [|t r IH]; simpl; intros H; [ring|].
  rewrite (cfval_same v1 v2) by auto. rewrite H by auto. rewrite IH; auto. ring.
Qed.
Definition plain_datum (d : datum) : bool := match d with DGet _ c | DArr _ _ c => negb c end.
Definition lsubst (am : asm) (r : string -> option lform) (f : lform) : lform :=
  fold_right (fun t acc =>
    match fst t with
    | DGet k c => let h := match r k with Some h => h | None => [] end in
                  ladd am (lscale am (snd t) (if c then lconj h else h)) acc
    | DArr _ _ _ => acc
    end) [] f.
Definition no_arr (f : lform) : bool := forallb (fun t => match fst t with DGet _ _ => true | DArr _ _ _ => false end) f.
Lemma lsubst_val am v w r f : env_ok am v -> e_par w = e_par v -> e_ckm w = e_ckm v -> no_arr f = true ->
  (forall k c, In (DGet k c) (map fst f) -> get0 (e_get w) k = match r k with Some h => lval v h | None => C0 end) ->
  lval w f = lval v (lsubst am r f).
Proof.
  intros OK A B. induction f as [|[d q] t IH]; simpl; [reflexivity|]. rewrite andb_true_iff. intros [N1 N2] H.
  destruct d as [k c|]; [|discriminate]. rewrite (ladd_val am v OK), (lscale_val am v OK), (cfval_same v w) by auto.
  rewrite <- IH; auto; [|intros; eapply H; eauto]. cbn [dtval]. rewrite (H k c) by auto.
  destruct (r k) as [h|]; destruct c; simpl; rewrite ?lconj_val, ?Cconj_0; reflexivity.
Qed.
Definition leqb (am : asm) (f g : lform) : bool := match ladd am f (ladd am (lneg g) []) with [] => true | _ => false end.
Lemma leqb_val am v f g : env_ok am v -> leqb am f g = true -> lval v f = lval v g.
Proof.
  intros OK H. unfold leqb in H. destruct (ladd am f (ladd am (lneg g) [])) eqn:E; [|discriminate].
  assert (lval v (ladd am f (ladd am (lneg g) [])) = C0) as Z by (rewrite E; reflexivity).
  rewrite !(ladd_val am v OK), lneg_val in Z. simpl in Z.
  transitivity (Cadd (Cadd (lval v f) (Cadd (Cneg (lval v g)) C0)) (lval v g)); [ring|rewrite Z; ring].
Qed.
Fixpoint deqb (am : asm) (d e : dict string lform) : bool :=
  match d, e with
  | [], [] => true
  | x :: d', y :: e' => String.eqb (fst x) (fst y) && leqb am (snd x) (snd y) && deqb am d' e'
  | _, _ => false
  end.
Lemma deqb_vals am v d e : env_ok am v -> deqb am d e = true -> dmap (lval v) d = dmap (lval v) e.
Proof.
  intros OK. revert e; induction d as [|[k f] d IH]; destruct e as [|[k' f'] e]; simpl; try discriminate; auto.
  rewrite !andb_true_iff. intros [[A B] D]. apply String.eqb_eq in A. apply (leqb_val _ _ _ _ OK) in B. unfold dmap in *. simpl.
  rewrite A, B, (IH e D). reflexivity.
Qed.
