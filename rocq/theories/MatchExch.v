(** Exchange of W and Z in the matching: for every operator the sum of the four-fermion part
    [tree] and what the exchange of one W or Z between its two currents gives. *)
From Coq Require Import String List Bool Arith Reals Lra Psatz.
From Verif Require Import PyBase PyDict Cplx Tensor SmeftSyntax SmeftTab Wc Params Smeft SmeftSpec SmeftNames SmeftRot SmeftWarsaw SmeftIll
  MatchOps MatchTab Match MatchSpec MatchFacts MatchRot MatchThm MatchSm MatchLin MatchGf.
Import ListNotations.
Open Scope string_scope.
Open Scope list_scope.
Open Scope R_scope.
#[local] Opaque WC_keys C_keys_shape.

(** ** Specification: quantum numbers, currents, exchange *)
Definition isospin (f : fermion) : R := match f with Nu | Up => 1 / 2 | El | Dn => - (1 / 2) end.
Definition electric (f : fermion) : R := match f with Nu => 0 | El => -1 | Up => 2 / 3 | Dn => - (1 / 3) end.
Definition coloured (f : fermion) : bool := match f with Up | Dn => true | _ => false end.
Definition fermion_eqb (f g : fermion) : bool :=
  match f, g with Nu, Nu | El, El | Up, Up | Dn, Dn => true | _, _ => false end.
Definition chirality_eqb (x y : chirality) : bool := match x, y with LH, LH | RH, RH => true | _, _ => false end.

(** Squared vacuum expectation value, squared sine of the weak angle as seen by the Z, strengths
    g^2/(2 m_W^2) and g_Z^2/m_Z^2 of the exchange of W and Z *)
Record ew := EW { e_v2 : R; e_s2 : R; e_W : R; e_Z : R }.

Section Exchange.
Local Open Scope C_scope.
Variable x : ew.
(** The coefficients of the operators (φ† i D φ)(f̄ γ f) *)
Variable a : string -> mat.
(** Z couples to f̄ γ f with T3 - Q s² and the shift -v²/2 (C1 - 2 T3 C3). *)
Definition z_shift (f : fermion) (h : chirality) (i j : fl) : C :=
  match h with
  | LH => if coloured f then a "phiq1" i j - RtoC (2 * isospin f) * a "phiq3" i j
          else a "phil1" i j - RtoC (2 * isospin f) * a "phil3" i j
  | RH => match f with Nu => C0 | El => a "phie" i j | Up => a "phiu" i j | Dn => a "phid" i j end
  end.
Definition z_cur (f : fermion) (h : chirality) (i j : fl) : C :=
  match f, h with
  | Nu, RH => C0
  | _, _ => RtoC (match h with LH => isospin f | RH => 0 end - electric f * e_s2 x) * delta i j
            - RtoC (e_v2 x / 2) * z_shift f h i j
  end.
(** W couples to ν̄ γ e and ū γ d, and to ē γ ν and d̄ γ u with the adjoint. *)
Definition w_up (h : chirality) (quark : bool) (i j : fl) : C :=
  match h, quark with
  | LH, false => delta i j + RtoC (e_v2 x) * a "phil3" i j
  | LH, true => delta i j + RtoC (e_v2 x) * a "phiq3" i j
  | RH, false => C0
  | RH, true => RtoC (e_v2 x / 2) * a "phiud" i j
  end.
Definition w_cur (f g : fermion) (h : chirality) (i j : fl) : C :=
  match f, g with
  | Nu, El => w_up h false i j
  | El, Nu => Cconj (w_up h false j i)
  | Up, Dn => w_up h true i j
  | Dn, Up => Cconj (w_up h true j i)
  | _, _ => C0
  end.
(** One Z between the two currents of an operator, one W between them, and one W between the
    currents of the Fierz-transformed operator (p t)(s r), for which the colour structure is
    expressed in those of the operator: 1 for leptons, 1/3 and 2 T T for quarks.
    Exchange of Z between identical currents has a factor 1/2; for leptons the operator is
    symmetric under the exchange of r and t and so is the coefficient. *)
Definition z_exchange (f g : fermion) (h h' : chirality) (p r s t : fl) : C :=
  if fermion_eqb f g && chirality_eqb h h' then
    if coloured f then RtoC (1 / 2) * (z_cur f h p r * z_cur g h' s t)
    else RtoC (1 / 4) * (z_cur f h p r * z_cur g h' s t + z_cur f h p t * z_cur g h' s r)
  else z_cur f h p r * z_cur g h' s t.
Definition w_exchange (octet : bool) (f g f' g' : fermion) (h h' : chirality) (p r s t : fl) : C :=
  (if octet then C0 else w_cur f g h p r * w_cur f' g' h' s t) +
  (if chirality_eqb h h' then
     RtoC (if coloured f then (if octet then 2 else 1 / 3) else 1) * (w_cur f g' h p t * w_cur f' g h s r)
   else C0).
Definition exchange (octet : bool) (sl : list slot) (p r s t : fl) : C :=
  match sl with
  | [(f, true, h); (g, false, h1); (f', true, h'); (g', false, h2)] =>
      if chirality_eqb h h1 && chirality_eqb h' h2 then
        (if negb octet && fermion_eqb f g && fermion_eqb f' g'
         then - (RtoC (e_Z x) * z_exchange f f' h h' p r s t) else C0)
        - RtoC (e_W x) * w_exchange octet f g f' g' h h' p r s t
      else C0
  | _ => C0
  end.
End Exchange.
Definition octets : list string := ["V8udLL"; "V8udRR"; "V8uuLR"; "V8udLR"; "V8duLR"; "V8ddLR"; "V8udduLR"].
(** What the exchange contributes to an operator; nothing if it is not made of two currents *)
Definition exch (x : ew) (A : arrays) (op : string) (sh : shape) : arr :=
  match sh with
  | Sh0 => A0 C0
  | Sh2 => A2 mzero
  | Sh4 => A4 (exchange x (g2 A) (mem op octets) (look [] (dget jms_slots op)))
  end.
Definition arr_add (v w : arr) : arr :=
  match v, w with A0 a, A0 b => A0 (Cadd a b) | A2 a, A2 b => A2 (madd a b) | A4 a, A4 b => A4 (tadd a b) | _, _ => v end.

Definition ew_of (k : coup) (p : params) : ew := EW (c_v k ^ 2) (c_s k ^ 2) (c_g2 k ^ 2 / (2 * param p "m_W" ^ 2)) (c_gz k ^ 2 / param p "m_Z" ^ 2).

Section Table.
Variables (A : arrays) (k : coup) (p : params).
Let x := ew_of k p.
Ltac cur := unfold znu, zel, zer, zul, zur, zdl, zdr, wl, wq, wr, z_cur, w_up, z_shift, isospin, electric, coloured, madd, msub, mscale, meye;
  cbn [e_v2 e_s2 x ew_of]; apply C_ext; unfold Cadd, Csub, Cmul, RtoC, Re, Im; cbn [fst snd]; field.
Lemma x_znu i j : znu k A i j = z_cur x (g2 A) Nu LH i j. Proof. cur. Qed.
Lemma x_zel i j : zel k A i j = z_cur x (g2 A) El LH i j. Proof. cur. Qed.
Lemma x_zer i j : zer k A i j = z_cur x (g2 A) El RH i j. Proof. cur. Qed.
Lemma x_zul i j : zul k A i j = z_cur x (g2 A) Up LH i j. Proof. cur. Qed.
Lemma x_zur i j : zur k A i j = z_cur x (g2 A) Up RH i j. Proof. cur. Qed.
Lemma x_zdl i j : zdl k A i j = z_cur x (g2 A) Dn LH i j. Proof. cur. Qed.
Lemma x_zdr i j : zdr k A i j = z_cur x (g2 A) Dn RH i j. Proof. cur. Qed.
Lemma x_wl i j : wl k A i j = w_up x (g2 A) LH false i j. Proof. cur. Qed.
Lemma x_wq i j : wq k A i j = w_up x (g2 A) LH true i j. Proof. cur. Qed.
Lemma x_wr i j : wr k A i j = w_up x (g2 A) RH true i j. Proof. cur. Qed.
Lemma div4 a b : a / (4 * b) = 1 / 4 * (a / b). Proof. unfold Rdiv. rewrite Rinv_mult. ring. Qed.
Lemma div2 a b : a / (2 * b) = 1 / 2 * (a / b). Proof. unfold Rdiv. rewrite Rinv_mult. ring. Qed.
Lemma divn a b : - a / b = - (a / b). Proof. unfold Rdiv. ring. Qed.
(** Every entry of the table is the contact terms plus the exchange. *)
Lemma table_exch : forall op f, In (op, f) match_tab ->
  f k p A = arr_add (tree (c_v k) (c_s k) (c_c k) A op (a_shape (f k p A))) (exch x A op (a_shape (f k p A))).
Proof.
  intros op f I. unfold match_tab in I. cbn [In] in I. pose proof sqrt2_pos as S2.
  repeat (destruct I as [I|I]; [injection I as <- <-|]); [..|contradiction];
  match goal with |- ?m k p A = _ => unfold m end; cbn [a_shape]; unfold tree, exch;
  cbv beta iota zeta delta [jms_slots tree4 tree2 look dget keqb Key_string String.eqb Ascii.eqb Bool.eqb];
  unfold vec, sca, dip, bnv; cbn [arr_add];
  (apply f_equal; try first [apply ten_ext; intros|apply mat_ext; intros]).
  all: unfold tsub, tadd, tneg, tscale, tzero, e_stpr, e_ptsr, e_srpt, e_rpst, e_pr_st, e_pt_sr, e_pt_rs, e_pr_ts, mconj, msub, madd, mneg, mscale, mzero.
  all: rewrite ?x_wl, ?x_wq, ?x_wr, ?x_znu, ?x_zel, ?x_zer, ?x_zul, ?x_zur, ?x_zdl, ?x_zdr.
  all: try match goal with |- context [mem ?o octets] => let b := eval vm_compute in (mem o octets) in change (mem o octets) with b end.
  all: unfold exchange; cbn [flip chirality_eqb andb negb fermion_eqb].
  all: try (unfold z_exchange, w_exchange, w_cur; cbn [flip chirality_eqb andb negb fermion_eqb coloured]).
  all: change (e_Z x) with (c_gz k ^ 2 / param p "m_Z" ^ 2); change (e_W x) with (c_g2 k ^ 2 / (2 * param p "m_W" ^ 2)).
  all: rewrite ?div4, ?divn, ?div2.
  all: repeat match goal with |- context [?a / param p ?b ^ 2] => generalize (a / param p b ^ 2); intros end.
  all: repeat match goal with |- context [z_cur x ?a ?f ?h ?i ?j] => generalize (z_cur x a f h i j); intros end.
  all: repeat match goal with |- context [w_up x ?a ?f ?h ?i ?j] => generalize (w_up x a f h i j); intros end.
  all: try ring.
  all: apply C_ext; unfold Cadd, Csub, Cneg, Cmul, Cconj, RtoC, C0, Re, Im; cbn [fst snd].
  all: try field; lra.
Qed.
End Table.
