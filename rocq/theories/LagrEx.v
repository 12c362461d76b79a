(** A single coefficient; the counterexamples of P_Lagr.v. *)
From Coq Require Import String Ascii List Bool Arith ZArith QArith Qreals Reals Lra Lia.
From Verif Require Import PyBase PyDict Cplx Tensor Wc Params Smeft SmeftNames WetExpr Wet WetJms WetNf WetSpec WetChk WetThm WetVals WetList Dirac LagrBases LagrRefl LagrJms LagrSym LagrChk LagrThm.
Import ListNotations.
Open Scope string_scope.
Open Scope list_scope.
Open Scope nat_scope.

Lemma lsum_one {A} (f : A -> C) (a : A) l : NoDup l -> In a l -> (forall b, In b l -> b <> a -> f b = C0) -> lsum f l = f a.
Proof.
  induction l as [|b l IH]; intros N I H; [destruct I|]. inversion N; subst. cbn [lsum fold_right]. fold (lsum f l). destruct I as [->|I].
  - assert (lsum f l = C0) as ->; [|ring]. transitivity (lsum (fun _ : A => C0) l).
    + apply lsum_ext. intros b I. apply H; [right; auto|]. intros ->. auto.
    + clear. induction l as [|b l IH]; [reflexivity|]. cbn [lsum fold_right]. fold (lsum (fun _ : A => C0) l). rewrite IH. ring.
  - rewrite (H b); [|left; auto|intros ->; auto]. rewrite IH; auto; [ring|]. intros b' I' N'. apply H; auto. right; auto.
Qed.
Lemma jms_names : forallb (fun no => no_us (fst no)) jms_ops = true.
Proof. vm_compute. reflexivity. Qed.
Lemma jms_nodup : nodupb (dkeys jms_ops) = true.
Proof. vm_compute. reflexivity. Qed.
Lemma map_nodup {A B} (f : A -> B) l : NoDup (map f l) -> NoDup l.
Proof. induction l as [|a l IH]; simpl; intros H; constructor; inversion H; subst; auto. intros I. apply H2. apply in_map, I. Qed.
(** Only one coefficient does not vanish. *)
Theorem L_single ops J c op o i z x y u w : incl ops jms_ops -> NoDup (dkeys ops) -> In (op, o) ops -> In i idx4 ->
  (forall k, num_of c k = if String.eqb k (cname op i) then z else C0) ->
  amplitude (L_on ops J c) x y u w = amplitude (jms_terms J c op o i) x y u w.
Proof.
  intros S N I Ii H. assert (forall no, In no ops -> no_us (fst no) = true) as U.
  { intros no In1. pose proof jms_names as Q. rewrite forallb_forall in Q. apply Q, S, In1. }
  assert (forall no j, In no ops -> In j idx4 -> (no, j) <> ((op, o), i) -> amplitude (jms_terms J c (fst no) (snd no) j) x y u w = C0) as Z.
  { intros [op' o'] j In1 Ij D. cbn [fst snd]. assert (num_of c (cname op' j) = C0) as E.
    { rewrite H. destruct (String.eqb_spec (cname op' j) (cname op i)) as [E|]; auto. exfalso. apply D.
      apply cname_inj in E; [|apply (U _ In1)|apply (U _ I)|intros ->; apply idx4_shape in Ij; destruct Ij as (? & ? & ? & ? & K); discriminate K|
        intros ->; apply idx4_shape in Ii; destruct Ii as (? & ? & ? & ? & K); discriminate K].
      destruct E as [-> ->]. f_equal. f_equal. pose proof (In_dget ops _ _ N In1) as A. rewrite (In_dget ops _ _ N I) in A. congruence. }
    unfold jms_terms. destruct (mem (cname op' j) J); [|reflexivity].
    destruct (self_conjugate o' j); cbn [plus_hc amplitude fold_right fst snd]; rewrite E, ?Cconj_0; ring. }
  unfold L_on. rewrite amplitude_flat. rewrite (lsum_one _ (op, o)); [|exact (map_nodup fst ops N)|exact I|].
  - cbn [fst snd]. rewrite amplitude_flat. apply (lsum_one (fun a => amplitude (jms_terms J c op o a) x y u w) i); [apply idx4_nodup|exact Ii|].
    intros j Ij D. apply (Z (op, o) j); auto. congruence.
  - intros no In1 D. rewrite amplitude_flat. transitivity (lsum (fun _ : idx => C0) idx4).
    + apply lsum_ext. intros j Ij. apply Z; auto. congruence.
    + generalize idx4. intros l. induction l as [|b l IH]; [reflexivity|]. cbn [lsum fold_right]. fold (lsum (fun _ : idx => C0) l). rewrite IH. ring.
Qed.

(** ** The tensor operator missing from flavio *)
Definition red (f : fermion) (s : spin) : leg := Leg f s Red.
Definition green (f : fermion) (s : spin) : leg := Leg f s Green.
Definition one_at (k : string) : dict string C := [(k, C1)].
Lemma one_num k k' : num_of (one_at k) k' = if String.eqb k' k then C1 else C0.
Proof. unfold num_of, one_at. cbn [dget]. destruct (keqb k' k) eqn:E.
  - apply keqb_eq in E. subst. rewrite String.eqb_refl. reflexivity.
  - destruct (String.eqb_spec k' k) as [->|]; auto. rewrite keqb_refl in E. discriminate.
Qed.
Ltac dents := repeat match goal with |- context [dent ?d ?a ?b ?c ?e] => let v := eval vm_compute in (dent d a b c e) in change (dent d a b c e) with v end.
Definition ted : jms_op := JmsOp [El; El; Dn; Dn] (Dir Sig PR PR) Singlet false.
Lemma ted_in : In ("TedRR", ted) jms_ops.
Proof. repeat (left; reflexivity) || right. Qed.
Lemma ted_nodup : NoDup (dkeys jms_ops).
Proof. apply nodupb_ok, jms_nodup. Qed.
Lemma ted_listed : mem (cname "TedRR" [F1; F1; F2; F3]) J0 = true.
Proof. rewrite J0_mem by reflexivity. vm_compute. reflexivity. Qed.
Lemma gC_int n : gC (n, 0%Z) = RtoC (IZR n).
Proof. reflexivity. Qed.
Lemma ted_amp : amplitude (L_JMS J0 (one_at "TedRR_1123")) (red (El, F1) Sp3) (red (El, F1) Sp3) (red (Dn, F2) Sp3) (red (Dn, F3) Sp3) = RtoC 4.
Proof.
  unfold L_JMS. rewrite (L_single jms_ops J0 _ "TedRR" ted [F1; F1; F2; F3] C1 _ _ _ _ (incl_refl _) ted_nodup ted_in (idx4_in F1 F1 F2 F3) (one_num _)).
  unfold jms_terms. rewrite ted_listed. change (self_conjugate ted [F1; F1; F2; F3]) with false. cbn [plus_hc amplitude fold_right fst snd].
  rewrite one_num, String.eqb_refl.
  rewrite (nofit_zero (dag (jms_oper ted [F1; F1; F2; F3]))) by (vm_compute; reflexivity).
  assert (amp1 (jms_oper ted [F1; F1; F2; F3]) (red (El, F1) Sp3) (red (El, F1) Sp3) (red (Dn, F2) Sp3) (red (Dn, F3) Sp3) = RtoC 4) as ->; [|rewrite ?Cconj_1; ring].
  unfold amp1, vertex, ted, jms_oper, four. cbn [j_fields j_dirac j_colour o1 o2 o3 o4 red l_f l_s l_h o_dirac].
  cbn [fermion_eqb field_eqb fl_eqb fst snd andb]. dents. rewrite gC_int.
  unfold colour_factor. cbn [o_colour o1 o3 delta quark fst]. cbn. unfold C0, C1, RtoC, Cadd, Csub, Cmul. cbn [fst snd]. f_equal; lra.
Qed.

(** ** The scalar coefficients of FormFlavor *)
Definition s8 : jms_op := JmsOp [Dn; Dn; Dn; Dn] (Dir Sca PR PR) Octet false.
Lemma fix_amp c : amplitude (L_of (RtoC 8) ff_fix c) (red (Dn, F2) Sp3) (red (Dn, F3) Sp3) (green (Dn, F2) Sp4) (green (Dn, F3) Sp4) =
  Cmul (RtoC 16) (num_of c "CTRR_bsbs").
Proof.
  let t := eval vm_compute in ff_fix in change ff_fix with t.
  unfold L_of. cbn [flat_map plus_hc app amplitude fold_right fst snd].
  repeat match goal with |- context [amp1 ?o ?x ?y ?z ?w] =>
    first [ rewrite (nofit_zero o x y z w) by (vm_compute; reflexivity)
          | let E := fresh in assert (amp1 o x y z w = C0) as E by
              (unfold amp1, vertex, red, green; cbn [fermion_eqb field_eqb fl_eqb fst snd andb dag o1 o2 o3 o4 l_f l_s l_h o_dirac]; dents; rewrite ?gC_int; cbn [gC fst snd];
               unfold C0, RtoC, Cadd, Csub, Cmul; cbn [fst snd]; f_equal; ring); rewrite E; clear E
          | let E := fresh in assert (amp1 o x y z w = RtoC 2) as E by
              (unfold amp1, vertex, red, green; cbn [fermion_eqb field_eqb fl_eqb fst snd andb dag o1 o2 o3 o4 l_f l_s l_h o_dirac]; dents; rewrite ?gC_int;
               cbn; unfold C0, C1, RtoC, Cadd, Csub, Cmul; cbn [fst snd]; f_equal; lra); rewrite E; clear E ] end.
  replace (RtoC 16) with (Cmul (RtoC 8) (RtoC 2)) by (rewrite <- RtoC_mul; f_equal; lra). ring.
Qed.
Lemma ctrr : getf nJX "CTRR_bsbs" = [(DArr "S8ddRR" [F2; F3; F2; F3] false, ((- 1 # 16)%Q, mone))].
Proof. vm_compute. reflexivity. Qed.
Definition only_s8 : bool := forallb (fun ko => forallb (fun t => match fst t with
  | DArr op x _ => (String.eqb op "S8ddRR" || String.eqb op "S8uuRR") && jms_ix op x | DGet _ _ => false end) (getf nJX (fst ko))) ff_fix.
Lemma only_s8_ok : only_s8 = true.
Proof. vm_cast_no_check (eq_refl true). Qed.
Lemma value_zero J c op x : (forall y, num_of c (cname op y) = C0) -> value J c op x = C0.
Proof.
  intros H. unfold value, entry_of. destruct (pick J op x) as [[y b]|]; [|reflexivity]. cbn [option_map fst snd]. rewrite H. destruct b; [apply Cconj_0|reflexivity].
Qed.
#[local] Opaque nJB nJF nJX nJE nBF nFB.
Section Fix.
Variable ckm_tree : R -> R -> R -> R -> mat.
Variable qcd_mb qcd_ms : R -> R -> R -> res R.
Variable qcd_as : R -> R -> res R.
Variables (J : list string) (scale : R) (input : option params) (p : params).
Hypothesis (GJ : good J) (NR : nonredundant J) (GP : okp ckm_tree qcd_mb qcd_ms qcd_as scale input p).
Lemma fix_zero c x y z w : (forall op i, In op ["S8ddRR"; "S8uuRR"] -> num_of c (cname op i) = C0) ->
  amplitude (L_of (RtoC 8) ff_fix (outJ ckm_tree nJX J c p)) x y z w = C0.
Proof.
  intros H. pose proof only_s8_ok as Q. unfold only_s8 in Q. rewrite forallb_forall in Q. revert Q. generalize ff_fix. intros t Q.
  unfold L_of. rewrite amplitude_flat. induction t as [|ko t IH]; [reflexivity|]. cbn [lsum fold_right]. unfold lsum in IH. rewrite IH by (intros; apply Q; right; auto).
  assert (num_of (outJ ckm_tree nJX J c p) (fst ko) = C0) as ->; [|cbn [plus_hc amplitude fold_right fst snd]; replace (Cmul (RtoC 8) C0) with C0 by ring; rewrite Cconj_0; ring].
  unfold outJ. rewrite dget_dmap_lval. specialize (Q ko (or_introl eq_refl)). revert Q. generalize (getf nJX (fst ko)). intros f Q.
  induction f as [|s f IHf]; [reflexivity|]. cbn [forallb] in Q. apply andb_true_iff in Q. destruct Q as [Q1 Q2]. cbn [lval]. rewrite IHf by auto.
  destruct (fst s) as [|op i b]; [discriminate|]. apply andb_true_iff in Q1. destruct Q1 as [Q1 Q3]. cbn [dtval]. rewrite (value_arr ckm_tree J p GJ) by auto.
  rewrite value_zero by (intros; apply H; apply orb_true_iff in Q1; destruct Q1 as [Q1|Q1]; apply String.eqb_eq in Q1; subst; simpl; auto).
  destruct b; cbn [cj]; rewrite ?Cconj_0; ring.
Qed.
Lemma ctrr_val c : num_of (outJ ckm_tree nJX J c p) "CTRR_bsbs" = Cmul (RtoC (- / 16)) (value J c "S8ddRR" [F2; F3; F2; F3]).
Proof.
  unfold outJ. rewrite dget_dmap_lval, ctrr. cbn [lval dtval cj fst snd]. rewrite (value_arr ckm_tree J p GJ) by reflexivity. unfold cfval. cbn [fst snd]. rewrite mone_val.
  replace (Q2R (- 1 # 16)) with (- / 16)%R by (unfold Q2R; simpl; field). ring.
Qed.
End Fix.
Lemma s8_pick : value J0 (one_at "S8ddRR_2323") "S8ddRR" [F2; F3; F2; F3] = C1.
Proof. unfold value, entry_of. rewrite pick0_eq by reflexivity. replace (pick0 "S8ddRR" [F2; F3; F2; F3]) with (Some ([F2; F3; F2; F3], false)) by (vm_compute; reflexivity). reflexivity. Qed.
Definition bs_legs : list leg := [red (Dn, F2) Sp3; red (Dn, F3) Sp3; green (Dn, F2) Sp4; green (Dn, F3) Sp4].
Lemma ff_bs : In ("CSLL_bsbs", Oper (Dn, F2) (Dn, F3) (Dn, F2) (Dn, F3) (Dir Sca PL PL) Singlet) ff_df2.
Proof. repeat (left; reflexivity) || right. Qed.
Lemma covered_bs : covered ff_df2 (red (Dn, F2) Sp3) (red (Dn, F3) Sp3) (green (Dn, F2) Sp4) (green (Dn, F3) Sp4).
Proof. eexists _, _. split; [exact ff_bs|]. left. left. reflexivity. Qed.
Lemma flavio_ee p V : covered (ops_of (flavio_groups p V)) (red (El, F1) Sp3) (red (El, F1) Sp3) (red (Dn, F2) Sp3) (red (Dn, F3) Sp3).
Proof.
  exists "C9_bsee", (Oper (Dn, F2) (Dn, F3) (El, F1) (El, F1) (Dir Vec PL PV) Singlet). split.
  - unfold ops_of, flavio_groups. repeat rewrite flat_map_app. rewrite !in_app_iff. right. right. left. repeat (left; reflexivity) || right.
  - right. right. right. left. reflexivity.
Qed.
Lemma half_off (a : C) : Cadd a (Cmul (RtoC 16) (Cmul (RtoC (- / 16)) C1)) <> a.
Proof.
  intros E. apply (f_equal fst) in E. unfold Cadd, Cmul, RtoC, C1 in E. cbn [fst snd] in E. lra.
Qed.
Lemma no_tensor_eq : L_JMS_no_tensor = L_on no_tensor.
Proof. unfold L_JMS_no_tensor, no_tensor. reflexivity. Qed.
Lemma no_tensor_def : no_tensor = filter (fun no => negb (String.eqb (fst no) "TedRR")) jms_ops.
Proof. unfold no_tensor. reflexivity. Qed.
Lemma no_ted no : In no no_tensor -> fst no <> "TedRR".
Proof. intros I E. rewrite no_tensor_def in I. apply filter_In in I. destruct I as [_ I]. rewrite E in I. discriminate. Qed.
#[local] Opaque jms_ops no_tensor L_JMS_no_tensor J0.
Lemma no_ted_amp : amplitude (L_JMS_no_tensor J0 (one_at "TedRR_1123")) (red (El, F1) Sp3) (red (El, F1) Sp3) (red (Dn, F2) Sp3) (red (Dn, F3) Sp3) = C0.
Proof.
  rewrite no_tensor_eq. unfold L_on. rewrite amplitude_flat.
  pose proof no_ted as NT. pose proof no_tensor_incl as Ic. revert NT Ic. generalize no_tensor. intros l NT Ic.
  induction l as [|no l IH]; [reflexivity|]. cbn [lsum fold_right]. unfold lsum in IH. rewrite IH; [|intros; apply NT; right; auto|intros q Iq; apply Ic; right; exact Iq].
  rewrite amplitude_flat. transitivity (Cadd C0 C0); [f_equal|ring]. transitivity (lsum (fun _ : idx => C0) idx4).
  - apply lsum_ext. intros i Ii. unfold jms_terms. destruct (mem _ J0); [|reflexivity].
    assert (num_of (one_at "TedRR_1123") (cname (fst no) i) = C0) as E.
    { rewrite one_num. destruct (String.eqb_spec (cname (fst no) i) "TedRR_1123") as [E|]; auto. exfalso.
      change "TedRR_1123" with (cname "TedRR" [F1; F1; F2; F3]) in E. apply cname_inj in E; [| |reflexivity| |discriminate].
      - apply (NT no (or_introl eq_refl)). apply E.
      - pose proof jms_names as Q. rewrite forallb_forall in Q. apply Q, Ic. left. reflexivity.
      - intros ->. apply idx4_shape in Ii. destruct Ii as (? & ? & ? & ? & K). discriminate K. }
    destruct (self_conjugate (snd no) i); cbn [plus_hc amplitude fold_right fst snd]; rewrite E, ?Cconj_0; ring.
  - generalize idx4. intros q. induction q as [|b q IHq]; [reflexivity|]. cbn [lsum fold_right]. fold (lsum (fun _ : idx => C0) q). rewrite IHq. ring.
Qed.
Lemma bern_listed : incl (map fst bern_ops) (names bern).
Proof.
  intros k I. assert (forallb (fun k => mem k (names bern)) (map fst bern_ops) = true) as Q by (vm_cast_no_check (eq_refl true)).
  rewrite forallb_forall in Q. apply (proj1 (mem_In _ k (names bern))). apply Q, I.
Qed.
Lemma flavio_listed p V : incl (map fst (ops_of (flavio_groups p V))) (names flavio).
Proof.
  assert (forallb (fun k => mem k (names flavio)) (map fst (tables flavio_s)) = true) as Q by (vm_cast_no_check (eq_refl true)).
  intros k I. rewrite forallb_forall in Q. apply (proj1 (mem_In _ k (names flavio))). apply Q. revert I. assert (ops_of (flavio_groups p V) = tables flavio_s) as ->; auto.
Qed.
Lemma bern_1sbee : existsb (fun ko => String.eqb (fst ko) "1sbee" && quad_eqb (oquad (snd ko)) ((Dn, F2), (Dn, F3), (El, F1), (El, F1))) bern_ops = true.
Proof. vm_compute. reflexivity. Qed.
Lemma bern_ee : covered bern_ops (red (El, F1) Sp3) (red (El, F1) Sp3) (red (Dn, F2) Sp3) (red (Dn, F3) Sp3).
Proof.
  pose proof bern_1sbee as Q. apply existsb_exists in Q. destruct Q as ([k o] & I & H). exists k, o. split; auto. apply andb_true_iff in H. destruct H as [_ H].
  right. right. right. left. cbn [snd] in H. apply quad_eqb_eq in H. rewrite H. reflexivity.
Qed.
Lemma eos_ee p V : covered (ops_of (eos_groups p V)) (red (El, F1) Sp3) (red (El, F1) Sp3) (red (Dn, F2) Sp3) (red (Dn, F3) Sp3).
Proof.
  unfold eos_groups, ops_of. cbn [flat_map snd app]. set (t := eo_lep F1). 
  assert (exists k o, In (k, o) t /\ oquad o = ((Dn, F2), (Dn, F3), (El, F1), (El, F1))) as (k & o & I & H) by (eexists _, _; split; [left; reflexivity|reflexivity]).
  exists k, o. split; [rewrite !in_app_iff; tauto|]. right. right. right. left. rewrite H. reflexivity.
Qed.

(** ** Bern's operators without the exchange in [bern_odd] *)
Definition s1dd : jms_op := JmsOp [Dn; Dn; Dn; Dn] (Dir Sca PR PR) Singlet false.
Lemma s1dd_in : In ("S1ddRR", s1dd) jms_ops.
Proof. repeat (left; reflexivity) || right. Qed.
Lemma s1dd_listed : mem (cname "S1ddRR" [F2; F2; F2; F3]) J0 = true.
Proof. rewrite J0_mem by reflexivity. vm_compute. reflexivity. Qed.
Definition xs : leg := red (Dn, F2) Sp3.
Definition xb : leg := red (Dn, F3) Sp3.
Definition xz : leg := green (Dn, F2) Sp4.
Lemma s1dd_amp : amplitude (L_JMS J0 (one_at "S1ddRR_2223")) xs xb xz xz <> C0.
Proof.
  unfold L_JMS. rewrite (L_single jms_ops J0 _ "S1ddRR" s1dd [F2; F2; F2; F3] C1 _ _ _ _ (incl_refl _) ted_nodup s1dd_in (idx4_in F2 F2 F2 F3) (one_num _)).
  unfold jms_terms. rewrite s1dd_listed. change (self_conjugate s1dd [F2; F2; F2; F3]) with false. cbn [plus_hc amplitude fold_right fst snd].
  rewrite one_num, String.eqb_refl.
  rewrite (nofit_zero (dag (jms_oper s1dd [F2; F2; F2; F3]))) by (vm_compute; reflexivity).
  unfold amp1, vertex, s1dd, jms_oper, four, xs, xb, xz. cbn [j_fields j_dirac j_colour o1 o2 o3 o4 red green l_f l_s l_h o_dirac].
  cbn [fermion_eqb field_eqb fl_eqb fst snd andb]. dents. rewrite ?gC_int.
  unfold colour_factor. cbn [o_colour o1 o3 delta quark fst]. cbn. unfold C0, C1, RtoC, Cadd, Csub, Cmul. cbn [fst snd]. intros E. apply (f_equal fst) in E. cbn [fst] in E. lra.
Qed.
Definition dead_for (o : oper) (q : quad) : bool := nofit o q && nofit (dag o) q.
Lemma live_only f t c x y z w : amplitude (L_of f t c) x y z w = amplitude (L_of f (filter (fun ko => negb (dead_for (snd ko) (lq x y z w))) t) c) x y z w.
Proof.
  unfold L_of. rewrite !amplitude_flat. induction t as [|ko t IH]; [reflexivity|]. cbn [filter]. destruct (dead_for (snd ko) (lq x y z w)) eqn:K; cbn [negb].
  - rewrite <- IH. cbn [lsum fold_right]. apply andb_true_iff in K. destruct K as [A B]. cbn [plus_hc amplitude fold_right fst snd].
    rewrite (nofit_zero _ _ _ _ _ A), (nofit_zero _ _ _ _ _ B). unfold lsum. ring.
  - cbn [lsum fold_right]. unfold lsum in IH. rewrite IH. reflexivity.
Qed.
Lemma uniform_live : filter (fun ko => negb (dead_for (snd ko) (lq xs xb xz xz))) bern_uniform = bo_dd (bern_odd false) sb (F2, F2).
Proof. vm_compute. reflexivity. Qed.
(** The form vanishes if only the coefficient [op']_[y] does not. *)
Definition without (op' : string) (y : idx) (f : lform) : bool :=
  forallb (fun t => match fst t with
    | DArr op x _ => jms_ix op x && no_us op && negb (match pick0 op x with Some (m, _) => String.eqb (cname op m) (cname op' y) | None => false end)
    | DGet _ _ => false end) f.
Lemma without_zero ckm_tree p op' y f : without op' y f = true -> lval (jenv ckm_tree J0 (one_at (cname op' y)) p) f = C0.
Proof.
  intros H. induction f as [|t f IH]; [reflexivity|]. cbn [without forallb] in H. apply andb_true_iff in H as [A H]. cbn [lval]. rewrite IH by exact H.
  destruct (fst t) as [|op x b]; [discriminate|]. apply andb_true_iff in A as [A P]. apply andb_true_iff in A as [A U].
  cbn [dtval]. rewrite (value_arr ckm_tree J0 p J0_good) by exact A. unfold value, entry_of. rewrite pick0_eq by exact U.
  destruct (pick0 op x) as [[m b']|]; cbn [option_map fst snd].
  - rewrite one_num. apply negb_true_iff in P. rewrite P. destruct b', b; cbn [cj]; rewrite ?Cconj_0; ring.
  - destruct b; cbn [cj]; rewrite ?Cconj_0; ring.
Qed.
Transparent nJB.
Lemma uniform_forms : forallb (fun k => without "S1ddRR" [F2; F2; F2; F3] (getf nJB k)) ["5sbss"; "7sbss"; "9sbss"] = true.
Proof. vm_cast_no_check (eq_refl true). Qed.
#[local] Opaque nJB.
Lemma uniform_amp f o : (forall k, In k ["5sbss"; "7sbss"; "9sbss"] -> num_of o k = C0) -> amplitude (L_of f bern_uniform o) xs xb xz xz = C0.
Proof.
  intros H. rewrite live_only, uniform_live. unfold bo_dd, ops4, bern_odd, L_of, sb, D. cbn [map flat_map plus_hc app amplitude fold_right fst snd].
  repeat match goal with |- context [num_of o ?k] => let k' := eval vm_compute in k in progress change k with k' end.
  rewrite (H "5sbss"), (H "7sbss"), (H "9sbss") by (simpl; auto).
  repeat match goal with |- context [amp1 ?o ?x ?y ?z ?w] =>
    first [ rewrite (nofit_zero o x y z w) by (vm_compute; reflexivity)
          | let E := fresh in assert (amp1 o x y z w = C0) as E by
              (unfold amp1, vertex, xs, xb, xz, red, green; cbn [fermion_eqb field_eqb fl_eqb fst snd andb dag o1 o2 o3 o4 l_f l_s l_h o_dirac]; dents; rewrite ?gC_int; cbn [gC fst snd];
               unfold C0, RtoC, Cadd, Csub, Cmul; cbn [fst snd]; f_equal; ring); rewrite E; clear E
          | generalize (amp1 o x y z w); intros ? ] end.
  ring.
Qed.
Lemma uniform_zero ckm_tree p : amplitude (L_of (RtoC (G4 p)) bern_uniform (outJ ckm_tree nJB J0 (one_at "S1ddRR_2223") p)) xs xb xz xz = C0.
Proof.
  apply uniform_amp. intros k I. unfold outJ. rewrite dget_dmap_lval. apply (without_zero ckm_tree p "S1ddRR" [F2; F2; F2; F3]). pose proof uniform_forms as Q. rewrite forallb_forall in Q. apply Q, I.
Qed.
Lemma sbss_listed : existsb (fun ko => quad_eqb (oquad (snd ko)) (lq xs xb xz xz)) bern_uniform = true.
Proof. vm_compute. reflexivity. Qed.
Lemma sbss_covered : covered bern_uniform xs xb xz xz.
Proof.
  pose proof sbss_listed as Q. apply existsb_exists in Q. destruct Q as ([k o] & I & H). exists k, o. split; auto.
  left. left. apply quad_eqb_eq in H. exact (eq_sym H).
Qed.
