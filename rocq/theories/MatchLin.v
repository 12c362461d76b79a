(** Matching of inputs that do not modify the couplings of W and Z: four-fermion operators,
    dipoles, Majorana mass term and three-gluon operators. *)
From Coq Require Import String List Bool Arith Reals Lra.
From Verif Require Import PyBase PyDict Cplx Tensor SmeftSyntax SmeftTab Wc Params Smeft SmeftSpec SmeftNames SmeftRot SmeftWarsaw SmeftIll
  MatchOps MatchTab Match MatchSpec MatchFacts MatchRot MatchThm MatchSm.
Import ListNotations.
Open Scope string_scope.
Open Scope list_scope.
Open Scope R_scope.
#[local] Opaque WC_keys C_keys_shape.

Definition current_ops : list string := ["phil1"; "phil3"; "phie"; "phiq1"; "phiq3"; "phiu"; "phid"; "phiud"].
(** No operators that shift the couplings of W and Z, and no New Physics in muon decay *)
Definition quiet (A : arrays) : Prop :=
  (forall op, In op current_ops -> g2 A op = mzero) /\ phiWB A = 0 /\ (g4 A "ll" F2 F1 F1 F2 + g4 A "ll" F1 F2 F2 F1 = 0)%C.
Lemma quiet_like A p : quiet A -> sm_like A p.
Proof.
  intros (H & W & L). split; auto. unfold gfx. rewrite (H "phil3") by (simpl; tauto). unfold mzero.
  assert (g4 A "ll" F2 F1 F1 F2 = - g4 A "ll" F1 F2 F2 F1)%C as -> by (transitivity (g4 A "ll" F2 F1 F1 F2 + g4 A "ll" F1 F2 F2 F1 - g4 A "ll" F1 F2 F2 F1)%C; [ring|rewrite L; ring]).
  ring.
Qed.

(** What the tree-level matching is then: Jenkins, Manohar, Stoffer (arXiv:1709.04486), without
    the exchange of W and Z.  [a] gives the SMEFT coefficients; every other operator is 0. *)
Section Tree.
Local Open Scope C_scope.
Definition two : C := RtoC 2.
Definition tree4 : list (string * ((string -> ten) -> ten)) :=
  [("VnunuLL", fun a => a "ll"); ("VeeLL", fun a => a "ll"); ("VnueLL", fun a p r s t => a "ll" p r s t + a "ll" s t p r);
   ("VnuuLL", fun a p r s t => a "lq1" p r s t + a "lq3" p r s t); ("VnudLL", fun a p r s t => a "lq1" p r s t - a "lq3" p r s t);
   ("VeuLL", fun a p r s t => a "lq1" p r s t - a "lq3" p r s t); ("VedLL", fun a p r s t => a "lq1" p r s t + a "lq3" p r s t);
   ("VnueduLL", fun a p r s t => RtoC 2 * a "lq3" p r s t);
   ("VuuLL", fun a p r s t => a "qq1" p r s t + a "qq3" p r s t); ("VddLL", fun a p r s t => a "qq1" p r s t + a "qq3" p r s t);
   ("V1udLL", fun a p r s t => a "qq1" p r s t + a "qq1" s t p r - a "qq3" p r s t - a "qq3" s t p r
      + RtoC (2 / 3) * (a "qq3" p t s r + a "qq3" s r p t));
   ("V8udLL", fun a p r s t => RtoC 4 * (a "qq3" p t s r + a "qq3" s r p t));
   ("VeeRR", fun a => a "ee"); ("VeuRR", fun a => a "eu"); ("VedRR", fun a => a "ed"); ("VuuRR", fun a => a "uu"); ("VddRR", fun a => a "dd");
   ("V1udRR", fun a => a "ud1"); ("V8udRR", fun a => a "ud8");
   ("VnueLR", fun a => a "le"); ("VeeLR", fun a => a "le"); ("VnuuLR", fun a => a "lu"); ("VnudLR", fun a => a "ld");
   ("VeuLR", fun a => a "lu"); ("VedLR", fun a => a "ld"); ("VueLR", fun a => a "qe"); ("VdeLR", fun a => a "qe");
   ("V1uuLR", fun a => a "qu1"); ("V8uuLR", fun a => a "qu8"); ("V1udLR", fun a => a "qd1"); ("V8udLR", fun a => a "qd8");
   ("V1duLR", fun a => a "qu1"); ("V8duLR", fun a => a "qu8"); ("V1ddLR", fun a => a "qd1"); ("V8ddLR", fun a => a "qd8");
   ("SedRL", fun a => a "ledq"); ("SnueduRL", fun a => a "ledq");
   ("SeuRR", fun a p r s t => - a "lequ1" p r s t); ("TeuRR", fun a p r s t => - a "lequ3" p r s t);
   ("SnueduRR", fun a => a "lequ1"); ("TnueduRR", fun a => a "lequ3");
   ("S1udRR", fun a => a "quqd1"); ("S8udRR", fun a => a "quqd8");
   ("S1udduRR", fun a p r s t => - a "quqd1" s t p r); ("S8udduRR", fun a p r s t => - a "quqd8" s t p r);
   ("SuddLL", fun a p r s t => - (a "qqql" p r s t + a "qqql" r p s t)); ("SduuLL", fun a p r s t => - (a "qqql" p r s t + a "qqql" r p s t));
   ("SduuLR", fun a p r s t => - (a "qque" p r s t + a "qque" r p s t));
   ("SduuRL", fun a => a "duql"); ("SdudRL", fun a p r s t => - a "duql" p r s t); ("SduuRR", fun a => a "duue")].
(** [v]: vacuum expectation value; [s], [c]: weak angle *)
Definition tree2 (v s c : R) : list (string * ((string -> mat) -> mat)) :=
  [("nu", fun a i j => RtoC (v ^ 2 / 2) * a "llphiphi" i j);
   ("egamma", fun a i j => RtoC (v / sqrt 2) * (RtoC c * a "eB" i j - RtoC s * a "eW" i j));
   ("ugamma", fun a i j => RtoC (v / sqrt 2) * (RtoC c * a "uB" i j + RtoC s * a "uW" i j));
   ("dgamma", fun a i j => RtoC (v / sqrt 2) * (RtoC c * a "dB" i j - RtoC s * a "dW" i j));
   ("uG", fun a i j => RtoC (v / sqrt 2) * a "uG" i j); ("dG", fun a i j => RtoC (v / sqrt 2) * a "dG" i j)].
Definition look {T} (zero : T) (o : option T) : T := match o with Some t => t | None => zero end.
Definition tree (v s c : R) (A : arrays) (op : string) (sh : shape) : arr :=
  match sh with
  | Sh0 => A0 (g0 A op)
  | Sh2 => A2 (look (fun _ => mzero) (dget (tree2 v s c) op) (g2 A))
  | Sh4 => A4 (look (fun _ => tzero) (dget tree4 op) (g4 A))
  end.
End Tree.
Definition a_shape (v : arr) : shape := match v with A0 _ => Sh0 | A2 _ => Sh2 | A4 _ => Sh4 end.

Section Quiet.
Variables (A : arrays) (k : coup) (p : params).
Hypothesis Q : quiet A.
Let Z := dmap azero A.
Lemma q2 op : In op current_ops -> g2 A op = g2 Z op.
Proof. intros I. rewrite (proj1 Q op I). symmetry. apply g2_blank, azero_blank. Qed.
Lemma q_wl : wl k A = wl k Z. Proof. unfold wl. rewrite !q2 by (simpl; tauto). reflexivity. Qed.
Lemma q_wq : wq k A = wq k Z. Proof. unfold wq. rewrite !q2 by (simpl; tauto). reflexivity. Qed.
Lemma q_wr : wr k A = wr k Z. Proof. unfold wr. rewrite !q2 by (simpl; tauto). reflexivity. Qed.
Lemma q_znu : znu k A = znu k Z. Proof. unfold znu. rewrite !q2 by (simpl; tauto). reflexivity. Qed.
Lemma q_zel : zel k A = zel k Z. Proof. unfold zel. rewrite !q2 by (simpl; tauto). reflexivity. Qed.
Lemma q_zer : zer k A = zer k Z. Proof. unfold zer. rewrite !q2 by (simpl; tauto). reflexivity. Qed.
Lemma q_zul : zul k A = zul k Z. Proof. unfold zul. rewrite !q2 by (simpl; tauto). reflexivity. Qed.
Lemma q_zur : zur k A = zur k Z. Proof. unfold zur. rewrite !q2 by (simpl; tauto). reflexivity. Qed.
Lemma q_zdl : zdl k A = zdl k Z. Proof. unfold zdl. rewrite !q2 by (simpl; tauto). reflexivity. Qed.
Lemma q_zdr : zdr k A = zdr k Z. Proof. unfold zdr. rewrite !q2 by (simpl; tauto). reflexivity. Qed.
Lemma q_0 op : g0 Z op = C0. Proof. apply g0_blank, azero_blank. Qed.
Lemma q_2 op : g2 Z op = mzero. Proof. apply g2_blank, azero_blank. Qed.
Lemma q_4 op : g4 Z op = tzero. Proof. apply g4_blank, azero_blank. Qed.
Lemma mscale_at x a i j : mscale x a i j = (RtoC x * a i j)%C. Proof. reflexivity. Qed.
Lemma scale2 x y z : (RtoC x * (RtoC y * z))%C = (RtoC (x * y) * z)%C. Proof. rewrite RtoC_mul. ring. Qed.
Ltac entries4 := apply f_equal, ten_ext; intros; unfold tsub, tadd, tneg, tscale, tzero, e_stpr, e_ptsr, e_srpt, e_rpst; ring.
Ltac entries2 := apply f_equal, mat_ext; intros; unfold msub, madd, mneg, mscale, mzero; rewrite ?scale2;
  try (replace (c_v k * (1 / sqrt 2)) with (c_v k / sqrt 2) by (unfold Rdiv; ring));
  try (replace (c_v k ^ 2 * (1 / 2)) with (c_v k ^ 2 / 2) by (unfold Rdiv; ring)); ring.
Lemma table_quiet : forall op f, In (op, f) match_tab ->
  asub (f k p A) (f k p Z) = tree (c_v k) (c_s k) (c_c k) A op (a_shape (f k p A)).
Proof.
  intros op f I. unfold match_tab in I. cbn [In] in I.
  repeat (destruct I as [I|I]; [injection I as <- <-|]); [..|contradiction];
  match goal with |- asub (?m k p A) _ = _ => unfold m end; cbn [asub a_shape];
  rewrite ?q_wl, ?q_wq, ?q_wr, ?q_znu, ?q_zel, ?q_zer, ?q_zul, ?q_zur, ?q_zdl, ?q_zdr, ?q_0, ?q_2, ?q_4;
  unfold tree; cbv beta iota zeta delta [tree4 tree2 look dget keqb Key_string String.eqb Ascii.eqb Bool.eqb]; fold Z;
  first [reflexivity|entries4|entries2|apply f_equal; ring].
Qed.
End Quiet.
(** The matched arrays before and after the rotation *)
Lemma match_quiet A p w op v : sm_ok p -> quiet A -> match_all_array A p = Ok w -> dget w op = Some v ->
  exists s, match_shape op = Some s /\ v = tree (vev p) (sm_s p) (sqrt (sm_D p) / sm_g2 p) A op s.
Proof.
  intros S Q E D. destruct (match_array_fits _ _ _ _ _ E D) as (s & M & F). exists s. split; auto.
  rewrite (match_array_like A p S (quiet_like A p Q)) in E. apply Ok_inj in E. subst w. apply dget_In in D.
  apply in_map_iff in D. destruct D as ([o f] & D & I). injection D as <- <-. cbn [fst snd] in *.
  rewrite (table_quiet A (sm_coup p) p Q o f I) in *.
  change (c_v (sm_coup p)) with (vev p) in *. change (c_s (sm_coup p)) with (sm_s p) in *.
  change (c_c (sm_coup p)) with (sqrt (sm_D p) / sm_g2 p) in *.
  assert (a_shape (f (sm_coup p) p A) = s) as ->; [|reflexivity].
  destruct (f (sm_coup p) p A), s; simpl in F |- *; tauto.
Qed.
