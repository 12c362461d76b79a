(** C41-C43, C47, C48: running QCD parameters, EOS converter, command line, LaTeX
    check. *)
From Coq Require Import String Ascii List Bool Arith ZArith Reals Lra Lia.
From Verif Require Import PyBase PyDict Cplx Wc Dump Tex Qcd QcdRg Eos Cli.
Import ListNotations.
Open Scope string_scope.
Open Scope list_scope.
Open Scope nat_scope.

(** C41 *)
Section C41.
Variable AlphasExact : fval -> fval -> fval -> fval -> fval.
Variable AlL2AlH AlH2AlL : fval -> fval -> thr -> fval -> fval.
Variable mMS2mMS : fval -> fval -> fval -> fval -> fval.
Variable mH2mL mL2mH : fval -> fval -> fval -> thr -> fval -> fval.
Let eval := eval AlphasExact AlL2AlH AlH2AlL mMS2mMS mH2mL mL2mH.
Let call_cached := call_cached AlphasExact AlL2AlH AlH2AlL mMS2mMS mH2mL mL2mH.
Let after := after AlphasExact AlL2AlH AlH2AlL mMS2mMS mH2mL mL2mH.

Theorem C41_bad_scale : forall c, ~ at_input c -> scale_ok (c_scale c) = false -> eval c = Err ValueError.
Proof. exact (eval_bad_scale _ _ _ _ _ _). Qed.
Theorem C41_bad_flavours : forall c, ~ at_input c -> ~ f_ok c -> eval c = Err ValueError.
Proof. exact (eval_bad_f _ _ _ _ _ _). Qed.
Theorem C41_good : forall c, scale_ok (c_scale c) = true -> start_ok c = true -> f_ok c -> exists r, eval c = Ok r.
Proof. exact (eval_good _ _ _ _ _ _). Qed.
Theorem C41_at_input : forall c, at_input c -> eval c = Ok (input c).
Proof. exact (eval_at_input _ _ _ _ _ _). Qed.
Theorem C41_only_value_error : forall c, (exists r, eval c = Ok r) \/ eval c = Err ValueError.
Proof. exact (eval_errors _ _ _ _ _ _). Qed.
(** Findings: inputs that the sanity check was meant to reject. *)
Theorem C41_negative_scale_refuted : exists c, scale_ok (c_scale c) = false /\ eval c = Ok (flt (-4)).
Proof.
  exists (CMb (flt (-4)) (flt (-4)) (int 5) AsDefault). split.
  - unfold scale_ok. cbn. unfold Rle_b. destruct (Rle_dec (-4) 0); [reflexivity|lra].
  - apply (C41_at_input (CMb (flt (-4)) (flt (-4)) (int 5) AsDefault)). cbn. unfold is_f, feq, Req_b. cbn.
    destruct (Req_EM_T (-4) (-4)), (Req_EM_T 5 5); auto; lra.
Qed.
Theorem C41_any_flavours_refuted : forall f, eval (CMc (flt 1) (flt 1) f AsDefault) = Ok (flt 1).
Proof.
  intros f. apply (C41_at_input (CMc (flt 1) (flt 1) f AsDefault)). cbn. unfold Req_b. destruct (Req_EM_T 1 1); auto; lra.
Qed.
Theorem C41_nan_scale_refuted : forall z, In z [3; 4; 5; 6]%Z -> exists r, eval (CAlpha (Num KFloat NaN) (int z) AsDefault) = Ok r.
Proof.
  intros z I. apply (C41_good (CAlpha (Num KFloat NaN) (int z) AsDefault)); auto. split; auto. exists z. auto.
Qed.
Example C41_case :
  let c := CAlpha (flt (-100)) (int 5) AsDefault in let d := CAlpha (flt 100) (int 7) AsDefault in
  ~ at_input c /\ scale_ok (c_scale c) = false /\ ~ at_input d /\ ~ f_ok d /\
  scale_ok (flt 100) = true /\ f_ok (CAlpha (flt 100) (int 4) AsDefault).
Proof.
  cbv zeta. assert (forall x f, x <> 91.1876%R -> ~ at_input (CAlpha (flt x) f AsDefault)) as N.
  { intros x f X [E _]. rewrite val_MZ in E. cbn in E. unfold Req_b in E. destruct (Req_EM_T x 91.1876); [lra|discriminate]. }
  repeat split.
  - apply N. lra.
  - unfold scale_ok. cbn. unfold Rle_b. destruct (Rle_dec (-100) 0); [reflexivity|lra].
  - apply N. lra.
  - intros (_ & z & I & E). cbn in E. injection E as E. apply eq_IZR in E. subst z. cbn in I. intuition discriminate.
  - unfold scale_ok. cbn. unfold Rle_b. destruct (Rle_dec 100 0); [lra|reflexivity].
  - exists 4%Z. cbn. auto.
Qed.

(** C42 *)
Theorem C42_transparent : forall h c, typed c -> agree (fst (call_cached (after h) c)) (eval c).
Proof. exact (cache_transparent _ _ _ _ _ _). Qed.
(** Whatever the types, a cached number is the one of some well-typed call. *)
Theorem C42_no_wrong_number : forall h c v, fst (call_cached (after h) c) = Ok v ->
  exists w, eval (retype c) = Ok w /\ val v = val w.
Proof. exact (cache_value _ _ _ _ _ _). Qed.
Theorem C42_size : forall h, small (after h).
Proof. exact (after_small _ _ _ _ _ _). Qed.
Theorem C42_float_flavours_refuted : exists h c v, eval c = Err ValueError /\ fst (call_cached (after h) c) = Ok v.
Proof.
  exists [CAlpha (flt 100) (int 5) AsDefault], (CAlpha (flt 100) (flt 5) AsDefault).
  assert (feq (Fin 100) (val MZ) = false) as M.
  { rewrite val_MZ. cbn. unfold Req_b. destruct (Req_EM_T 100 91.1876); [lra|reflexivity]. }
  assert (Req_b 5 5 = true) as F5 by (unfold Req_b; destruct (Req_EM_T 5 5); [reflexivity|lra]).
  assert (Req_b 100 100 = true) as F100 by (unfold Req_b; destruct (Req_EM_T 100 100); [reflexivity|lra]).
  assert (Rle_b 100 0 = false) as P by (unfold Rle_b; destruct (Rle_dec 100 0); [lra|reflexivity]).
  eexists. split.
  - apply (C41_bad_flavours (CAlpha (flt 100) (flt 5) AsDefault)).
    + intros [E _]. cbn in E. change (feq (Fin 100) (val MZ) = true) in E. congruence.
    + intros [E _]. discriminate.
  - unfold after, Qcd.after, call_cached, Qcd.call_cached, alpha_cached, cached. cbn [fold_left].
    cbn [no_caches c_alpha lookup]. unfold alpha_s. cbn [val flt int]. rewrite M. cbn [andb]. unfold sane. cbn [is_real kd flt negb orb is_int int].
    cbn [fle val flt]. rewrite P. cbn [andb bind]. unfold is_f. cbn [feq val int]. rewrite F5. cbn [out].
    cbn [snd fst put_alpha c_alpha]. unfold insert. cbn [firstn maxsize lookup].
    unfold key_eq, nums_eq. cbn [fst snd feq val flt int as_eq]. rewrite F100, F5. cbn. reflexivity.
Qed.
Example C42_case : typed (CMb (flt 4) (flt 10) (int 5) AsDefault) /\ typed (CMs (flt 1) (int 2) (int 4) (AsPos (flt 1))).
Proof. repeat split. Qed.

(** C59 *)
Theorem C59_trajectory : forall al m c r,
  runs_alpha AlphasExact AlL2AlH AlH2AlL al -> runs_mass mMS2mMS mH2mL mL2mH al m \/ (exists s f a, c = CAlpha s f a) ->
  start al m c -> val (as_val (as_arg c)) = al (val MZ) 5%Z -> ~ charm_short_cut c -> eval c = Ok r ->
  exists z, val (c_f c) = Fin (IZR z) /\ val r = m (val (c_scale c)) z.
Proof. exact (fun al m c r RA => eval_traj _ _ _ _ _ _ al RA m c r). Qed.
End C41.
(** The short cut of m_c leaves the trajectory unless f = 4. *)
Theorem C59_charm_refuted : exists E U D M ML MU al m c r,
  runs_alpha E U D al /\ runs_mass M ML MU al m /\ start al m c /\ val (as_val (as_arg c)) = al (val MZ) 5%Z /\
  f_ok c /\ scale_ok (c_scale c) = true /\ eval E U D M ML MU c = Ok r /\
  forall z, val (c_f c) = Fin (IZR z) -> val r <> m (val (c_scale c)) z.
Proof.
  exists ex_exact, ex_up, ex_down, ex_ms, ex_mdown, ex_mup, ex_al, ex_m.
  exists (CMc (flt 1.3) (flt 1.3) (int 3) (AsPos (flt (91.1876 + 5)))), (flt 1.3).
  split; [exact ex_runs|]. split; [exact ex_runs_m|]. split; [cbn; f_equal; lra|].
  split; [rewrite val_MZ; reflexivity|]. split; [split; [reflexivity|]; exists 3%Z; cbn; auto|].
  split; [unfold scale_ok; cbn; unfold Rle_b; destruct (Rle_dec 1.3 0); [lra|reflexivity]|].
  split; [apply (C41_at_input ex_exact ex_up ex_down ex_ms ex_mdown ex_mup (CMc _ _ _ _)); cbn; unfold Req_b; destruct (Req_EM_T 1.3 1.3); [reflexivity|lra]|].
  intros z E. cbn in E. injection E as E. apply eq_IZR in E. subst z. cbn. intros H. injection H. lra.
Qed.
Example C59_case : runs_alpha ex_exact ex_up ex_down ex_al /\ runs_mass ex_ms ex_mdown ex_mup ex_al ex_m /\
  start ex_al ex_m (CMc (flt 1.3) (flt 10) (int 3) (AsPos (flt (91.1876 + 5)))) /\
  ~ charm_short_cut (CMc (flt 1.3) (flt 10) (int 3) (AsPos (flt (91.1876 + 5)))) /\
  ex_m (Fin 10) 3 = Fin 9 /\ ex_m (Fin 10) 4 = Fin 10.
Proof.
  split; [exact ex_runs|]. split; [exact ex_runs_m|]. split; [cbn; f_equal; lra|].
  split; [intros [E _]; cbn in E; unfold Req_b in E; destruct (Req_EM_T 10 1.3); [lra|discriminate]|].
  split; cbn; f_equal; lra.
Qed.

(** C43.  The coefficient an EOS name refers to: the name itself, or for
    pre Re{body} post the coefficient pre body post. *)
Theorem C43_plain : forall k d z, dget d k = Some z -> eos_np k d = Ok (Re z).
Proof. exact np_direct. Qed.
Theorem C43_real_part : forall pre body post d z, plain_parts pre body post -> dget d (braced "Re" pre body post) = None ->
  dget d (pre ++ body ++ post)%string = Some z -> eos_np (braced "Re" pre body post) d = Ok (Re z).
Proof. intros pre body post d z H E G. rewrite np_re by auto. unfold np_branch. rewrite G. reflexivity. Qed.
Theorem C43_imaginary_part : forall pre body post d z, plain_parts pre body post -> dget d (braced "Im" pre body post) = None ->
  dget d (pre ++ body ++ post)%string = Some z -> eos_np (braced "Im" pre body post) d = Ok (Im z).
Proof. intros pre body post d z H E G. rewrite np_im by auto. unfold np_branch. rewrite G. reflexivity. Qed.
(** Charged currents: a parameter of unspecified lepton. *)
Theorem C43_charged_current : forall pre body post d (part : string) (p : C -> R),
  (part = "Re" /\ p = Re) \/ (part = "Im" /\ p = Im) ->
  plain_parts pre body post -> dget d (braced part pre body post) = None ->
  let k := (pre ++ body ++ post)%string in dget d k = None ->
  let e := getd d (replace k "lnu" "enue") in let m := getd d (replace k "lnu" "munumu") in
  (e = m -> eos_np (braced part pre body post) d = Ok (p e)) /\
  (e <> m -> eos_np (braced part pre body post) d = Err ValueError).
Proof.
  intros pre body post d part p Q H E k K e m.
  assert (eos_np (braced part pre body post) d = np_branch p k d) as ->.
  { destruct Q as [[-> ->]|[-> ->]]; [apply np_re|apply np_im]; auto. }
  unfold np_branch. rewrite K. fold e m. destruct (dmem d (replace k "lnu" "enue") || dmem d (replace k "lnu" "munumu")) eqn:D.
  - destruct (Ceq_dec e m); split; intros; congruence.
  - assert (forall n, dmem d n = false -> getd d n = C0) as Z.
    { intros n N. unfold getd, dmem in *. destruct (dget d n); [discriminate|reflexivity]. }
    apply orb_false_iff in D as [D1 D2]. subst e m. rewrite (Z _ D1), (Z _ D2). split; [|congruence].
    intros _. destruct Q as [[-> ->]|[-> ->]]; reflexivity.
Qed.
Theorem C43_no_coefficient : forall k d, dget d k = None -> has "{" k = false -> eos_np k d = Ok 0%R.
Proof. exact np_plain. Qed.
(** The number in a parameter file: True counts as 1, False as 0. *)
Definition counts_as (v : doc) (y : R) : Prop := v = DNum y \/ (v = DBool true /\ y = 1%R) \/ (v = DBool false /\ y = 0%R).
Lemma plus_iff c np x : plus c np = Ok x <-> exists y, counts_as c y /\ x = (y + np)%R.
Proof.
  unfold counts_as. destruct c as [|b|y| | |]; cbn [plus]; (split; [try discriminate; intros [= <-]|intros (y' & H & ->); repeat destruct H as [H|H]; try discriminate H; try (destruct H as [H _]; discriminate H)]).
  - destruct b; eexists; eauto 6.
  - destruct H as [[= ->] ->]. reflexivity.
  - destruct H as [[= ->] ->]. reflexivity.
  - eauto.
  - injection H as ->. reflexivity.
Qed.
Theorem C43_output : forall fs o sm out, wcxf2eos fs o sm = Ok out ->
  dkeys out = dkeys sm /\
  Forall2 (fun kv ke => fst ke = fst kv /\ exists m c y np, snd kv = DMap m /\ dget m "central" = Some c /\ counts_as c y /\ get_eos_np fs (fst kv) o = Ok np /\
     snd ke = [("central", y + np); ("min", y + np); ("max", y + np)]%R) sm out.
Proof.
  intros fs o sm out H. destruct (wcxf2eos_ok fs o sm out H) as [K F]. split; [exact K|]. clear H K. induction F as [|kv ke l r (E & c & np & x & Ce & Np & Pl & En) F IH]; constructor; [|exact IH]. split; [exact E|].
  apply plus_iff in Pl. destruct Pl as (y & Cy & ->). destruct (snd kv) as [| | | | |m]; try discriminate Ce. cbn in Ce. unfold dlookup in Ce. destruct (dget m "central") as [c'|] eqn:G; [|discriminate]. injection Ce as ->. exists m, c, y, np. repeat (split; [first [reflexivity|assumption]|]). exact En.
Qed.
(** Every parameter of the output is the SM value plus the new-physics part. *)
Theorem C43_value : forall fs o sm out k m v y np, wcxf2eos fs o sm = Ok out ->
  dget sm k = Some (DMap m) -> dget m "central" = Some v -> counts_as v y -> get_eos_np fs k o = Ok np ->
  exists e, dget out k = Some e /\ forall q, In q ["central"; "min"; "max"] -> dget e q = Some (y + np)%R.
Proof.
  intros fs o sm out k m v y np H G C Cy N. destruct (C43_output fs o sm out H) as [_ F]. clear H. induction F as [|[k1 v1] [k2 e2] l r (E & m' & c & y' & np' & Ev & Gc & Cc & Np & En) F IH]; cbn [dget fst snd] in *; [discriminate|]. subst k2.
  destruct (keqb k k1) eqn:B; [|apply IH; exact G]. apply keqb_eq in B. subst k1. injection G as ->. injection Ev as <-. rewrite C in Gc. injection Gc as <-. rewrite N in Np. injection Np as <-.
  assert (y' = y) as -> by (destruct Cy as [->|[[-> ->]|[-> ->]]], Cc as [E|[[E ->]|[E ->]]]; try discriminate E; congruence). exists e2. split; [reflexivity|]. subst e2. intros q [<-|[<-|[<-|[]]]]; reflexivity.
Qed.
(** What goes wrong first: an entry that is no mapping or whose central value is no number is a TypeError, one
    without a central value a KeyError; every entry before it was fine. *)
Theorem C43_errors : forall fs o pre k v post done np, wcxf2eos fs o pre = Ok done -> get_eos_np fs k o = Ok np ->
  ((forall m, v <> DMap m) -> wcxf2eos fs o (pre ++ (k, v) :: post) = Err TypeError) /\
  (forall m, v = DMap m -> dget m "central" = None -> wcxf2eos fs o (pre ++ (k, v) :: post) = Err KeyError) /\
  (forall m c, v = DMap m -> dget m "central" = Some c -> (forall y, ~ counts_as c y) -> wcxf2eos fs o (pre ++ (k, v) :: post) = Err TypeError).
Proof.
  intros fs o pre k v post done np H N. unfold wcxf2eos in *.
  set (f := fun kv : string * doc => let! c := central (snd kv) in let! np := get_eos_np fs (fst kv) o in let! x := plus c np in Ok (fst kv, eos_entry x)) in *.
  assert (forall x, f (k, v) = Err x -> mapM f (pre ++ (k, v) :: post) = Err x) as L.
  { intros x E. apply mapM_ok_iff in H. induction H as [|a b l r Hab F IH]; unfold mapM in *; cbn [app map sequence].
    - rewrite E. reflexivity.
    - rewrite Hab. cbn [bind]. rewrite IH. reflexivity. }
  split; [|split].
  - intros M. apply L. unfold f. cbn [fst snd]. destruct v as [| | | | |m]; try reflexivity. exfalso. exact (M m eq_refl).
  - intros m -> G. apply L. unfold f. cbn [fst snd central]. unfold dlookup. rewrite G. reflexivity.
  - intros m c -> G C. apply L. unfold f. cbn [fst snd central]. unfold dlookup. rewrite G. cbn [bind]. rewrite N. cbn [bind].
    destruct c as [|b|y| | |]; try reflexivity; exfalso; unfold counts_as in C; [destruct b; [apply (C 1%R)|apply (C 0%R)]; tauto|apply (C y); tauto].
Qed.
(** The files with SM values: the entry wcxf-relevant is there and neither null, False, 0 nor empty. *)
Theorem C43_relevant : forall f, is_relevant f <-> exists wcs m v, f = DMap wcs /\ dget wcs "@metadata@" = Some (DMap m) /\ dget m "wcxf-relevant" = Some v /\
  ~ In v [DNull; DBool false; DNum 0; DStr ""; DList []; DMap []].
Proof.
  assert (forall v, truthy v = true <-> ~ In v [DNull; DBool false; DNum 0; DStr ""; DList []; DMap []]) as T.
  { intros v. cbn [In]. split.
    - intros H N. repeat destruct N as [<-|N]; try discriminate H; [|exact N]. cbn in H. destruct (Req_EM_T 0 0); [discriminate|congruence].
    - intros N. destruct v as [|b|x|t|l|d]; cbn [truthy].
      + exfalso. apply N. auto.
      + destruct b; [reflexivity|]. exfalso. apply N. auto.
      + destruct (Req_EM_T x 0) as [->|]; [|reflexivity]. exfalso. apply N. auto.
      + destruct (String.eqb t "") eqn:Q; [|reflexivity]. apply String.eqb_eq in Q. subst. exfalso. apply N. auto 6.
      + destruct l; [|reflexivity]. exfalso. apply N. auto 8.
      + destruct d; [|reflexivity]. exfalso. apply N. auto 8. }
  intros f. split; intros (wcs & m & v & E & G & H & X); exists wcs, m, v; (split; [exact E|]; split; [exact G|]; split; [exact H|]; apply T; exact X).
Qed.
Theorem C43_sm_files : forall fs r k v, Forall (fun f => match f with DMap m => wf m | _ => True end) fs ->
  k <> "@metadata@" -> get_sm_wcs fs = Ok r -> (dget r k = Some v <-> last_defines fs k v).
Proof. exact get_sm_wcs_spec. Qed.
Lemma starts_iff w x : starts w x = true <-> exists b, x = (w ++ b)%string.
Proof.
  revert x. induction w as [|c w IH]; intros x; cbn [starts].
  - split; [|destruct x; reflexivity]. intros _. exists x. reflexivity.
  - destruct x as [|d x]; [split; [discriminate|intros [b E]; discriminate]|]. rewrite andb_true_iff, Ascii.eqb_eq, IH. split.
    + intros [-> [b ->]]. exists b. reflexivity.
    + intros [b E]. cbn in E. injection E as -> ->. eauto.
Qed.
Lemma contains_iff w x : contains w x = true <-> exists a b, x = (a ++ w ++ b)%string.
Proof.
  split; [|intros (a & b & ->); apply contains_app]. induction x as [|c x IH]; cbn [contains]; rewrite orb_true_iff, starts_iff; (intros [[b E]|H]; [exists ""%string, b; exact E|]).
  - discriminate.
  - destruct (IH H) as (a & b & ->). exists (String c a), b. reflexivity.
Qed.
(** Which parameter files can be read: mappings whose metadata, if any, are a mapping, or a string or list without the word. *)
Definition readable (f : doc) : Prop := exists wcs, f = DMap wcs /\
  match dget wcs "@metadata@" with
  | None => True
  | Some (DMap _) => True
  | Some (DStr s) => ~ exists a b, s = (a ++ "wcxf-relevant" ++ b)%string
  | Some (DList l) => ~ In (DStr "wcxf-relevant") l
  | Some _ => False
  end.
Theorem C43_sm_fails : forall fs, (exists r, get_sm_wcs fs = Ok r) <-> forall f, In f fs -> readable f.
Proof.
  assert (forall all f, (exists r, sm_step all f = Ok r) <-> readable f) as S.
  { intros all f. destruct f as [| | | | |wcs]; cbn [sm_step]; try (split; [intros [r E]; discriminate E|intros (w & E & _); discriminate E]).
    set (Q := match dget wcs "@metadata@" with None => True | Some (DMap _) => True | Some (DStr s) => ~ exists a b, s = (a ++ "wcxf-relevant" ++ b)%string | Some (DList l) => ~ In (DStr "wcxf-relevant") l | Some _ => False end).
    assert (readable (DMap wcs) <-> Q) as -> by (unfold readable, Q; split; [intros (w & [= <-] & H); exact H|intros H; exists wcs; auto]). subst Q.
    destruct (dget wcs "@metadata@") as [[|b|x|s|l|m]|]; cbn [relevant bind]; try (split; [intros [r E]; discriminate E|intros []]).
    - pose proof (contains_iff "wcxf-relevant" s) as C. destruct (contains "wcxf-relevant" s); cbn [bind].
      + split; [intros [r E]; discriminate E|]. intros N. exfalso. apply N, C. reflexivity.
      + split; [|eauto]. intros _ H. apply C in H. discriminate.
    - destruct (existsb (is_str "wcxf-relevant") l) eqn:Q; cbn [bind].
      + split; [intros [r E]; discriminate E|]. intros N. exfalso. apply N. apply existsb_exists in Q. destruct Q as (v & I & E). destruct v as [| | |t| |]; try discriminate. cbn [is_str] in E. apply String.eqb_eq in E. subst. exact I.
      + split; [|eauto]. intros _ I. assert (existsb (is_str "wcxf-relevant") l = true) as T by (apply existsb_exists; exists (DStr "wcxf-relevant"); split; [exact I|reflexivity]). congruence.
    - split; [auto|]. intros _. destruct (dget m "wcxf-relevant"); cbn [bind]; eauto.
    - split; [auto|]. intros _. cbn. eauto. }
  intros fs. unfold get_sm_wcs. generalize (@nil (string * doc)). induction fs as [|f t IH]; intros all; cbn [sm_fold].
  - split; [intros _ f []|eauto].
  - split.
    + intros [r E] g [<-|I].
      * apply (S all). destruct (sm_step all f); [eauto|discriminate].
      * destruct (sm_step all f) as [a|]; cbn [bind] in E; [|discriminate]. apply (proj1 (IH a)); [eauto|exact I].
    + intros H. destruct (proj2 (S all f) (H f (or_introl eq_refl))) as [a ->]. cbn [bind]. apply IH. intros g I. apply H. right. exact I.
Qed.
Theorem C43_sm_no_metadata : forall fs r, Forall (fun f => match f with DMap m => wf m | _ => True end) fs ->
  get_sm_wcs fs = Ok r -> ~ In "@metadata@" (dkeys r).
Proof. exact get_sm_wcs_meta. Qed.
(** Finding: the universality test does not look at the tau coefficient. *)
Theorem C43_tau_refuted :
  eos_np "b->ulnu::Re{cVL}" [("b->utaunutau::cVL", C1)] = Ok 0%R.
Proof. reflexivity. Qed.
Example C43_case : braced "Re" "b->ulnu::" "cVL" "" = "b->ulnu::Re{cVL}" /\ plain_parts "b->ulnu::" "cVL" "" /\
  replace "b->ulnu::cVL" "lnu" "enue" = "b->uenue::cVL" /\
  eos_np "b->ulnu::Re{cVL}" [("b->uenue::cVL", C1); ("b->umunumu::cVL", C1)] = Ok 1%R.
Proof.
  repeat split; try reflexivity; try discriminate.
  change ((if Ceq_dec C1 C1 then Ok 1%R else Err ValueError) = Ok 1%R). destruct (Ceq_dec C1 C1) as [|N]; [reflexivity|]. exfalso. apply N. reflexivity.
Qed.

(** C47 *)
Section C47.
Variable wcobj basis_ : Type.
Variable WC_load : string -> res wcobj.
Variable wc_translate : wcobj -> string -> res wcobj.
Variable wc_match : wcobj -> string -> string -> res wcobj.
Variable wc_dump : wcobj -> string -> res string.
Variable wc_validate : wcobj -> res unit.
Variable EFT_load : string -> res unit.
Variable Basis_load : string -> res basis_.
Variable basis_validate : basis_ -> res unit.
Variable yaml_to_json json_to_yaml : string -> res string.
Let result := result wcobj basis_ WC_load wc_translate wc_match wc_dump wc_validate EFT_load Basis_load basis_validate yaml_to_json json_to_yaml.
Let wcxf_main := wcxf_main wcobj basis_ WC_load wc_translate wc_match wc_dump wc_validate EFT_load Basis_load basis_validate yaml_to_json json_to_yaml.

Theorem C47_dispatch : forall c s u, result c (input_text c s) = Ok (Some u) -> wcxf_main (PCmd c) s = (0%Z, put (cmd_out c) u s).
Proof. exact (main_ok _ _ _ _ _ _ _ _ _ _ _ _). Qed.
Theorem C47_status : forall c s,
  fst (wcxf_main (PCmd c) s) = match result c (input_text c s) with Ok _ => 0%Z | Err e => if shows c e then 1%Z else 0%Z end.
Proof. exact (main_status _ _ _ _ _ _ _ _ _ _ _ _). Qed.
Theorem C47_help : forall a s, ~ In Help (seen s) ->
  (In Help (seen (snd (wcxf_main a s))) <->
   a = PNone \/ exists c, a = PCmd c /\ result c (input_text c s) = Err AttributeError).
Proof. exact (help_iff _ _ _ _ _ _ _ _ _ _ _ _ (fun _ => true)). Qed.
Theorem C47_other_files : forall a s p, (forall c, a = PCmd c -> cmd_out c <> DFile p) ->
  dget (files (snd (wcxf_main a s))) p = dget (files s) p.
Proof. exact (main_frame _ _ _ _ _ _ _ _ _ _ _ _). Qed.
Theorem C47_failure_empties_output : forall c s e, result c (input_text c s) = Err e ->
  files (snd (wcxf_main (PCmd c) s)) = files (truncate (cmd_out c) s).
Proof. exact (main_failure_files _ _ _ _ _ _ _ _ _ _ _ _). Qed.
(** Findings: failures that end with status 0. *)
Theorem C47_attribute_error_refuted : forall c s, result c (input_text c s) = Err AttributeError -> fst (wcxf_main (PCmd c) s) = 0%Z.
Proof. intros c s H. rewrite C47_status, H. reflexivity. Qed.
(** The names of the formats: any of the letters may be a capital. *)
Definition spellings (l : list (list ascii)) : list string := fold_right (fun c r => flat_map (fun s => map (fun a => String a s) c) r) [""%string] l.
Lemma lower_letters l : Forall (fun c => In c [["j"; "J"]; ["s"; "S"]; ["o"; "O"]; ["n"; "N"]; ["y"; "Y"]; ["a"; "A"]; ["m"; "M"]; ["l"; "L"]]%char) l -> forall s,
  lower s = fold_right (fun c t => String (hd "0"%char c) t) ""%string l <-> In s (spellings l).
Proof.
  assert (forall c, In c [["j"; "J"]; ["s"; "S"]; ["o"; "O"]; ["n"; "N"]; ["y"; "Y"]; ["a"; "A"]; ["m"; "M"]; ["l"; "L"]]%char -> forall x, lower_ascii x = hd "0"%char c <-> In x c) as L.
  { intros c I x. cbn [In] in I. repeat (destruct I as [<-|I]; [destruct x as [[] [] [] [] [] [] [] []]; vm_compute; intuition discriminate|]). contradiction. }
  induction 1 as [|c l Hc Hl IH]; intros s; cbn [fold_right spellings].
  - destruct s; cbn; intuition discriminate.
  - rewrite in_flat_map. split.
    + destruct s as [|a s]; cbn [lower]; [discriminate|]. intros E. injection E as E1 E2. exists s. split; [apply IH, E2|]. apply in_map_iff. exists a. split; [reflexivity|]. apply L; assumption.
    + intros (u & U & I). apply in_map_iff in I. destruct I as (a & <- & I). cbn [lower]. f_equal; [apply L; assumption|apply IH, U].
Qed.
Theorem C47_formats : forall fmt,
  (lower fmt = "json" <-> In fmt (spellings [["j"; "J"]; ["s"; "S"]; ["o"; "O"]; ["n"; "N"]]%char)) /\
  (lower fmt = "yaml" <-> In fmt (spellings [["y"; "Y"]; ["a"; "A"]; ["m"; "M"]; ["l"; "L"]]%char)).
Proof.
  intros fmt. split; [apply (lower_letters [["j"; "J"]; ["s"; "S"]; ["o"; "O"]; ["n"; "N"]]%char)|apply (lower_letters [["y"; "Y"]; ["a"; "A"]; ["m"; "M"]; ["l"; "L"]]%char)]; repeat (constructor; [cbn; tauto|]); constructor.
Qed.
Theorem C47_unknown_format_refuted : forall fmt f o s, lower fmt <> "json" -> lower fmt <> "yaml" ->
  wcxf_main (PCmd (Convert fmt f o)) s = (0%Z, truncate o s).
Proof.
  intros fmt f o s A B. unfold wcxf_main, Cli.wcxf_main. rewrite run_spec. cbn [Cli.result].
  apply String.eqb_neq in A, B. rewrite A, B. reflexivity.
Qed.
Theorem C47_unparsable_refuted : forall f o s, yaml_to_json (input_text (Convert "json" f o) s) = Err YAMLError ->
  fst (wcxf_main (PCmd (Convert "json" f o)) s) = 0%Z.
Proof.
  intros f o s H. rewrite C47_status. unfold result. cbn [Cli.result]. change (String.eqb (lower "json") "json") with true.
  cbv iota. rewrite H. reflexivity.
Qed.
Theorem C47_validate_type_refuted : forall ty f s, ty <> "eft" -> ty <> "basis" -> ty <> "wc" ->
  wcxf_main (PCmd (Validate ty f)) s = (0%Z, St (files s) (seen s ++ [Logged "TYPE should be 'eft', 'basis', or 'wc'"])).
Proof.
  intros ty f s A B D. unfold wcxf_main, Cli.wcxf_main. rewrite run_spec. cbn [Cli.result].
  apply String.eqb_neq in A, B, D. rewrite A, B, D. reflexivity.
Qed.

(** wcxf2eos and wcxf2smeftsim *)
Variable to_eos : wcobj -> string -> dict string string -> res string.
Variable isdir : string -> bool.
Variable basis_of : wcobj -> string.
Variable card_text : wcobj -> res string.
Let eos_main := eos_main wcobj WC_load wc_validate to_eos isdir.
Let smeftsim_main := smeftsim_main wcobj WC_load wc_validate basis_of card_text.
Theorem C47_eos : forall f prefix o eoshome s, eos_args_ok isdir o eoshome ->
  let d := eos_target o eoshome in
  let t := match f with SStdin t => t | SFile p => content (truncate d s) p end in
  match eos_result wcobj WC_load wc_validate to_eos t prefix (files (truncate d s)) with
  | Ok u => eos_main f prefix o eoshome s = (0%Z, put d u s)
  | Err SystemExit => True
  | Err e => eos_main f prefix o eoshome s = (1%Z, snd (say (Trace e) (truncate d s)))
  end.
Proof. exact (eos_spec _ _ _ _ _). Qed.
Theorem C47_eos_conflict : forall f prefix o h s, o <> DStdout ->
  eos_main f prefix o (Some h) s = (1%Z, St (files (truncate o s)) (seen s ++ [Logged "Cannot use --output and --eoshome arguments simultaneously"])).
Proof. exact (eos_both _ _ _ _ _). Qed.
Theorem C47_eos_no_directory : forall f prefix h s, isdir (join h "parameters") = false ->
  fst (eos_main f prefix DStdout (Some h) s) = 1%Z /\ files (snd (eos_main f prefix DStdout (Some h) s)) = files s.
Proof. exact (eos_nodir _ _ _ _ _). Qed.
Theorem C47_smeftsim_written : forall f o key s, files (snd (smeftsim_main f o key s)) <> files s ->
  exists w, (let! w := WC_load (match f with SStdin t => t | SFile p => content s p end) in
             let! _ := wc_validate w in Ok w) = Ok w /\ allowed wcobj basis_of w key.
Proof. exact (smeftsim_written _ _ _ _ _). Qed.
Theorem C47_smeftsim : forall f o key s w u,
  WC_load (match f with SStdin t => t | SFile p => content s p end) = Ok w -> wc_validate w = Ok tt ->
  basis_of w = "Warsaw mass" -> card_text w = Ok u ->
  smeftsim_main f o key s = (0%Z, put (DFile o) u s).
Proof. exact (smeftsim_ok _ _ _ _ _). Qed.
(** Another basis: the answer i or I goes on after the warning, the end of the input stops with a traceback and no card. *)
Theorem C47_smeftsim_confirmed : forall f o k s w u,
  WC_load (match f with SStdin t => t | SFile p => content s p end) = Ok w -> wc_validate w = Ok tt ->
  basis_of w <> "Warsaw mass" -> k = "i" \/ k = "I" -> card_text w = Ok u ->
  smeftsim_main f o (Some k) s = (0%Z, put (DFile o) u (St (files s) (seen s ++ [Printed "WARNING"]))).
Proof.
  intros f o k s w u A B D K E. unfold smeftsim_main, Cli.smeftsim_main, smeftsim_cmd, mbind, mret. rewrite read_spec, A, B.
  apply String.eqb_neq in D. rewrite D. cbn [say]. assert ((String.eqb k "i" || String.eqb k "I")%bool = true) as -> by (destruct K as [->| ->]; reflexivity). rewrite E.
  pose proof (write_truncate (DFile o) u (St (files s) (seen s ++ [Printed "WARNING"]))) as W. cbn [truncate files seen] in *. rewrite W. reflexivity.
Qed.
Theorem C47_smeftsim_no_answer : forall f o s w,
  WC_load (match f with SStdin t => t | SFile p => content s p end) = Ok w -> wc_validate w = Ok tt ->
  basis_of w <> "Warsaw mass" ->
  smeftsim_main f o None s = (1%Z, St (files s) ((seen s ++ [Printed "WARNING"]) ++ [Trace (UserError "EOFError")])).
Proof.
  intros f o s w A B D. unfold smeftsim_main, Cli.smeftsim_main, smeftsim_cmd, mbind, mret. rewrite read_spec, A, B.
  apply String.eqb_neq in D. rewrite D. reflexivity.
Qed.
Theorem C47_smeftsim_declined_refuted : forall f o k s w,
  WC_load (match f with SStdin t => t | SFile p => content s p end) = Ok w -> wc_validate w = Ok tt ->
  basis_of w <> "Warsaw mass" -> k <> "i" -> k <> "I" ->
  smeftsim_main f o (Some k) s = (0%Z, St (files s) (seen s ++ [Printed "WARNING"])).
Proof. exact (smeftsim_declined _ _ _ _ _). Qed.
End C47.
Example C47_case :
  let s := St [("in.yaml", "G: 1")] [] in
  let main := wcxf_main string unit Ok (fun w _ => Ok w) (fun w _ _ => Ok w) (fun w _ => Ok w) (fun _ => Ok tt) (fun _ => Ok tt) (fun _ => Ok tt) (fun _ => Ok tt)
                (fun t => Ok ("json of " ++ t)%string) (fun _ => Err JSONDecodeError) in
  main (PCmd (Convert "JSON" (SFile "in.yaml") (DFile "out"))) s = (0%Z, St [("in.yaml", "G: 1"); ("out", "json of G: 1")] []) /\
  fst (main (PCmd (Convert "yaml" (SFile "in.yaml") DStdout)) s) = 0%Z.
Proof. split; reflexivity. Qed.

(** C48 *)
Theorem C48_success : forall run s del r, fst (testtex run s del) = Ok r ->
  (success r = true <-> run (tex_doc s) = NotFound \/ exists lg, run (tex_doc s) = Ran 0 lg).
Proof. exact testtex_success. Qed.
Theorem C48_log : forall run s del rc text, run (tex_doc s) = Ran rc (Some text) ->
  testtex run s del = (Ok (TexRes (Z.eqb rc 0) (Some (concat_lines (first_error_block (readlines text))))), negb del).
Proof. exact testtex_log. Qed.
(** A line that tells of an error, and a line of white space (the ASCII characters that [str.strip] removes). *)
Definition error_line (x : string) : Prop := exists a b, x = (a ++ "Undefined control sequence" ++ b)%string \/ x = (a ++ "Emergency stop" ++ b)%string.
Definition blank (x : string) : Prop := forall a b ch, x = (a ++ String ch b)%string -> In (nat_of_ascii ch) [9; 10; 11; 12; 13; 28; 29; 30; 31; 32].
Lemma is_space_iff ch : is_space ch = true <-> In (nat_of_ascii ch) [9; 10; 11; 12; 13; 28; 29; 30; 31; 32].
Proof.
  unfold is_space. generalize (nat_of_ascii ch). intros n. rewrite orb_true_iff, !andb_true_iff, !Nat.leb_le. cbn [In]. split; [lia|]. intros H. repeat destruct H as [<-|H]; lia.
Qed.
Lemma blank_iff x : nonblank x = false <-> blank x.
Proof.
  unfold blank. induction x as [|c x IH]; cbn [nonblank].
  - split; [|reflexivity]. intros _ a b ch E. destruct a; discriminate.
  - rewrite orb_false_iff, negb_false_iff, is_space_iff, IH. split.
    + intros [H1 H2] a b ch E. destruct a as [|a0 a]; cbn in E; injection E as -> E; [exact H1|]. exact (H2 a b ch E).
    + intros H. split; [exact (H ""%string x c eq_refl)|]. intros a b ch E. apply (H (String c a) b ch). rewrite E. reflexivity.
Qed.
Lemma error_iff x : is_error x = true <-> error_line x.
Proof.
  unfold is_error, error_line. rewrite orb_true_iff, !contains_iff. split.
  - intros [(a & b & E)|(a & b & E)]; exists a, b; auto.
  - intros (a & b & [E|E]); [left|right]; eauto.
Qed.
(** The lines from the first error line to the first blank line after it. *)
Definition block_of (l blk : list string) : Prop :=
  (blk = [] /\ forall x, In x l -> ~ error_line x) \/
  exists pre x rest post, l = pre ++ blk ++ post /\ blk = x :: rest /\ error_line x /\ (forall y, In y pre -> ~ error_line y) /\ (forall y, In y blk -> ~ blank y) /\
    (post = [] \/ exists y t, post = y :: t /\ blank y).
Theorem C48_block : forall l, block_of l (first_error_block l).
Proof.
  intros l. destruct (block_is_sublist l) as (pre & post & E & P & Q & N). assert (forall l, forallb (fun x => negb (is_error x)) l = true -> forall y, In y l -> ~ error_line y) as F.
  { intros m H y I Er. rewrite forallb_forall in H. specialize (H y I). apply error_iff in Er. rewrite Er in H. discriminate. }
  destruct (first_error_block l) as [|x rest] eqn:B.
  - left. split; [reflexivity|]. apply F, block_empty, B.
  - right. exists pre, x, rest, post. split; [exact E|]. split; [reflexivity|]. split; [|split; [exact (F pre P)|split]].
    + unfold first_error_block in B. destruct (drop_until is_error l) as [|z t] eqn:D; [discriminate|]. pose proof (drop_until_head _ _ _ _ _ D) as H. cbn in B. destruct (nonblank z); [|discriminate]. injection B as -> _. apply error_iff, H.
    + intros y I Bl. rewrite forallb_forall in N. specialize (N y I). apply blank_iff in Bl. congruence.
    + specialize (Q ltac:(discriminate)). destruct post as [|y t]; [auto|]. right. exists y, t. split; [reflexivity|apply blank_iff, Q].
Qed.
(** There is only one such block. *)
Theorem C48_block_unique : forall l b1 b2, block_of l b1 -> block_of l b2 -> b1 = b2.
Proof.
  assert (forall p1 p2 (x1 x2 : string) r1 r2, error_line x1 -> error_line x2 -> (forall y, In y p1 -> ~ error_line y) -> (forall y, In y p2 -> ~ error_line y) -> p1 ++ x1 :: r1 = p2 ++ x2 :: r2 -> x1 = x2 /\ r1 = r2) as H1.
  { induction p1 as [|a p1 IH]; intros p2 x1 x2 r1 r2 E1 E2 N1 N2 E; destruct p2 as [|b p2]; cbn in E; injection E as -> E.
    - auto.
    - exfalso. exact (N2 b (or_introl eq_refl) E1).
    - exfalso. exact (N1 x2 (or_introl eq_refl) E2).
    - apply (IH p2 x1 x2 r1 r2); auto; intros y I; [apply N1|apply N2]; right; exact I. }
  assert (forall (r1 r2 q1 q2 : list string), (forall y, In y r1 -> ~ blank y) -> (forall y, In y r2 -> ~ blank y) -> (q1 = [] \/ exists y t, q1 = y :: t /\ blank y) -> (q2 = [] \/ exists y t, q2 = y :: t /\ blank y) -> r1 ++ q1 = r2 ++ q2 -> r1 = r2) as H2.
  { induction r1 as [|a r1 IH]; intros r2 q1 q2 N1 N2 Q1 Q2 E; destruct r2 as [|b r2]; cbn in E; [reflexivity| | |].
    - exfalso. destruct Q1 as [->|(y & t & -> & B)]; [discriminate|]. injection E as -> _. exact (N2 b (or_introl eq_refl) B).
    - exfalso. destruct Q2 as [->|(y & t & -> & B)]; [discriminate|]. injection E as -> _. exact (N1 y (or_introl eq_refl) B).
    - injection E as -> E. f_equal. apply (IH r2 q1 q2); auto; intros y I; [apply N1|apply N2]; right; exact I. }
  intros l b1 b2 [[-> N]|(p1 & x1 & r1 & q1 & -> & -> & E1 & N1 & B1 & Q1)] [[-> N']|(p2 & x2 & r2 & q2 & E & -> & E2 & N2 & B2 & Q2)].
  - reflexivity.
  - exfalso. subst l. apply (N x2); [|exact E2]. apply in_or_app. right. left. reflexivity.
  - exfalso. apply (N' x1); [|exact E1]. apply in_or_app. right. left. reflexivity.
  - destruct (H1 p1 p2 x1 x2 (r1 ++ q1) (r2 ++ q2) E1 E2 N1 N2 E) as [-> Er]. f_equal. apply (H2 r1 r2 q1 q2); auto; intros y I; [apply B1|apply B2]; right; exact I.
Qed.
Theorem C48_block_empty : forall l, first_error_block l = [] <-> forall x, In x l -> ~ error_line x.
Proof.
  intros l. rewrite block_empty, forallb_forall. split; intros H x I; specialize (H x I).
  - intros Er. apply error_iff in Er. rewrite Er in H. discriminate.
  - destruct (is_error x) eqn:Q; [|reflexivity]. exfalso. apply H, error_iff, Q.
Qed.
Definition one_line (s : string) : Prop := forall a b, s <> (a ++ nl ++ b)%string.
Lemma one_line_cons c s : one_line (String c s) <-> c <> ascii_of_nat 10 /\ one_line s.
Proof.
  unfold one_line. split.
  - intros H. split; [intros ->; exact (H ""%string s eq_refl)|]. intros a b ->. exact (H (String c a) b eq_refl).
  - intros [N H] a b E. destruct a as [|c' a]; cbn in E; injection E as -> E; [apply N; reflexivity|exact (H a b E)].
Qed.
(** The lines of a text: all but the last one end with a newline, and newlines are nowhere else. *)
Theorem C48_lines : forall s, concat_lines (readlines s) = s /\
  forall pre x post, readlines s = pre ++ x :: post -> exists y, one_line y /\ (x = (y ++ nl)%string \/ (post = [] /\ y <> ""%string /\ x = y)).
Proof.
  intros s. split; [apply readlines_concat|]. induction s as [|c s IH]; intros pre x post; cbn [readlines]; [destruct pre; discriminate|].
  assert (one_line "") as O by (intros a b E; destruct a; discriminate). destruct (Ascii.eqb c (ascii_of_nat 10)) eqn:Q.
  - intros E. destruct pre as [|p pre]; injection E as <- E; [exists ""%string; split; [exact O|left; reflexivity]|exact (IH pre x post E)].
  - apply Ascii.eqb_neq in Q. destruct (readlines s) as [|h r] eqn:R; intros E.
    + destruct pre as [|p pre]; [|destruct pre; discriminate]. injection E as <- <-. exists (String c ""). split; [apply one_line_cons; auto|right; repeat split; discriminate].
    + destruct pre as [|p pre].
      * injection E as <- <-. destruct (IH [] h r eq_refl) as (y & Y & H). exists (String c y). split; [apply one_line_cons; auto|]. destruct H as [->|(-> & N & ->)]; [left; reflexivity|right; repeat split; discriminate].
      * injection E as <- E. apply (IH (h :: pre) x post). rewrite E. reflexivity.
Qed.
(** The document that is compiled. *)
Theorem C48_document : forall s, one_line s ->
  readlines (tex_doc s) = ["\documentclass{article}" ++ nl; "    \usepackage{amsmath,amssymb}" ++ nl; "    \begin{document}" ++ nl; "    " ++ s ++ nl; "    \end{document}"]%string.
Proof.
  assert (forall s t, one_line s -> readlines (s ++ nl ++ t)%string = (s ++ nl)%string :: readlines t) as L.
  { induction s as [|c s IH]; intros t O; [reflexivity|]. apply one_line_cons in O. destruct O as [N O]. cbn [append readlines]. apply Ascii.eqb_neq in N. rewrite N, (IH t O). reflexivity. }
  intros s O. assert (one_line ("    " ++ s)) as O' by (cbn [append]; repeat (apply one_line_cons; split; [discriminate|]); exact O).
  assert (tex_doc s = "\documentclass{article}" ++ nl ++ "    \usepackage{amsmath,amssymb}" ++ nl ++ "    \begin{document}" ++ nl ++ ("    " ++ s) ++ nl ++ "    \end{document}")%string as -> by (unfold tex_doc, preamble, enddoc; cbn [append]; reflexivity).
  assert (one_line "") as O0 by (intros a b E; destruct a; discriminate).
  rewrite (L "\documentclass{article}"%string), (L "    \usepackage{amsmath,amssymb}"%string), (L "    \begin{document}"%string), (L _ _ O') by (repeat (apply one_line_cons; split; [discriminate|]); exact O0). reflexivity.
Qed.
Theorem C48_terminates : forall logl i x fuel, nth_error logl i = Some x -> length logl < fuel + i ->
  log_loop fuel logl i x "" <> None.
Proof. exact log_loop_terminates. Qed.
Theorem C48_no_log_refuted : forall run s del rc, run (tex_doc s) = Ran rc None -> testtex run s del = (Err UnboundLocalError, true).
Proof. exact testtex_no_log. Qed.
Theorem C48_directory_left_refuted : forall run s del, run (tex_doc s) = NotFound -> testtex run s del = (Ok (TexRes true None), true).
Proof. exact testtex_not_found. Qed.
Theorem C48_document_determines_formula : forall s s', tex_doc s = tex_doc s' -> s = s'.
Proof. exact tex_doc_inj. Qed.
Example C48_case :
  let text := ("This is pdfTeX" ++ nl ++ "! Undefined control sequence." ++ nl ++ "l.5 \foo" ++ nl ++ nl ++ "end" ++ nl)%string in
  fst (testtex (fun _ => Ran 1 (Some text)) "\foo" true) =
  Ok (TexRes false (Some ("! Undefined control sequence." ++ nl ++ "l.5 \foo" ++ nl)%string)).
Proof. vm_compute. reflexivity. Qed.

Print Assumptions C41_bad_scale.
Print Assumptions C41_bad_flavours.
Print Assumptions C41_good.
Print Assumptions C41_at_input.
Print Assumptions C41_only_value_error.
Print Assumptions C41_negative_scale_refuted.
Print Assumptions C41_any_flavours_refuted.
Print Assumptions C41_nan_scale_refuted.
Print Assumptions C42_transparent.
Print Assumptions C42_no_wrong_number.
Print Assumptions C42_size.
Print Assumptions C42_float_flavours_refuted.
Print Assumptions C43_plain.
Print Assumptions C43_real_part.
Print Assumptions C43_imaginary_part.
Print Assumptions C43_charged_current.
Print Assumptions C43_no_coefficient.
Print Assumptions C43_output.
Print Assumptions C43_value.
Print Assumptions C43_errors.
Print Assumptions C43_relevant.
Print Assumptions C59_trajectory.
Print Assumptions C59_charm_refuted.
Print Assumptions C43_sm_files.
Print Assumptions C43_sm_no_metadata.
Print Assumptions C43_sm_fails.
Print Assumptions C43_tau_refuted.
Print Assumptions C47_dispatch.
Print Assumptions C47_status.
Print Assumptions C47_help.
Print Assumptions C47_other_files.
Print Assumptions C47_failure_empties_output.
Print Assumptions C47_attribute_error_refuted.
Print Assumptions C47_formats.
Print Assumptions C47_unknown_format_refuted.
Print Assumptions C47_unparsable_refuted.
Print Assumptions C47_validate_type_refuted.
Print Assumptions C47_eos.
Print Assumptions C47_eos_conflict.
Print Assumptions C47_eos_no_directory.
Print Assumptions C47_smeftsim_written.
Print Assumptions C47_smeftsim.
Print Assumptions C47_smeftsim_confirmed.
Print Assumptions C47_smeftsim_no_answer.
Print Assumptions C47_smeftsim_declined_refuted.
Print Assumptions C48_success.
Print Assumptions C48_log.
Print Assumptions C48_block.
Print Assumptions C48_block_unique.
Print Assumptions C48_block_empty.
Print Assumptions C48_lines.
Print Assumptions C48_document.
Print Assumptions C48_terminates.
Print Assumptions C48_no_log_refuted.
Print Assumptions C48_directory_left_refuted.
Print Assumptions C48_document_determines_formula.
