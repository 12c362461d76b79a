(** Kinds of exceptions and values of unusual arguments: additions to C03, C05, C14, C43, C51, C60 and C66 found by editing the
    model (seeded/LOG.jsonl). *)
From Coq Require Import String Ascii List Bool Arith ZArith Reals Lra Lia.
From Verif Require Import PyBase PyDict Cplx Tensor Wc Dump DumpInit Tex Eos Cli Tool P_Tool.
From Verif Require Order Bases BasesFacts P_Bases P_Classes Markdown Smeft SmeftTab Dirac Dipole Qcd.
Import ListNotations.
Open Scope string_scope.
Open Scope list_scope.
Open Scope nat_scope.

(** A scale given as true or false is the number 1 or 0, and so is a coefficient. *)
Theorem C51_truth_scale : forall fs ps m b, wf m -> complete KWC m -> (forall k, dmem m k = true -> ~ In k (properties KWC)) -> dget m "scale" = Some (DBool b) ->
  exists d, construct fs ps KWC m = Ok d /\ dget d "scale" = Some (DNum (if b then 1%R else 0%R)).
Proof.
  intros fs ps m b W C P E. destruct (P_Classes.C51_wc fs ps m (DBool b) (if b then 1%R else 0%R) W C P E) as (d & D & S & _); [destruct b; reflexivity|eauto].
Qed.
Theorem C51_truth_value : forall fs w k b d, wc_cache w = None -> wf (wc_values w) -> dget (wc_values w) k = Some (DBool b) -> fst (wc_dict fs w) = Ok d ->
  dget d k = Some (RtoC (if b then 1%R else 0%R)).
Proof.
  intros fs w k b d N W E. unfold wc_dict. rewrite N. destruct (values2dict fs (wc_values w)) as [d'|] eqn:V; cbn; [|discriminate]. intros [= <-].
  pose proof (Order.values_get fs (wc_values w) d' k V) as G. rewrite E in G. destruct G as (z & -> & Z). cbn in Z. destruct b; injection Z as <-; reflexivity.
Qed.
(** A null sector: [Basis.all_wcs] raises TypeError. *)
Theorem C05_null_sector : forall h id s k, Forall (BasesFacts.no_read id) h -> Bases.sectors_of (Bases.wrun h) id = Some s -> In (k, None) s ->
  fst (Bases.all_wcs (Bases.wrun h) id) = Err TypeError.
Proof.
  intros h id s k F S I. rewrite (P_Bases.C05_first_read h id F). unfold BasesFacts.current_names. rewrite S. clear - I.
  induction s as [|[k' [d|]] t IH]; cbn; [destruct I|destruct I as [Q|I]; [discriminate|rewrite IH by exact I; reflexivity]|reflexivity].
Qed.
(** A basis whose construction failed stays registered (C03_failure_state); printing it raises AttributeError. *)
Theorem C03_failed_str : forall h e b p s descr, ~ BasesFacts.usable_parent (Bases.wrun h) e b p ->
  let w' := snd (Bases.new_basis (Bases.wrun h) e b (Some p) s) in let id := length (Bases.w_objs (Bases.wrun h)) in
  BasesFacts.basis_get w' e b = Ok id /\ Markdown.basis_str w' id descr = Err AttributeError.
Proof.
  intros h e b p s descr U w' id. destruct (P_Bases.C03_failure_state h e b p s U) as (_ & G & S & _). split; [exact G|].
  unfold Markdown.basis_str. fold w' id in S. rewrite S. destruct (nth_error _ _); reflexivity.
Qed.
(** The symmetrisation makes the entries of an array of a real scalar operator real, whatever its shape. *)
Theorem C14_real_any_shape : forall k v r, In k SmeftTab.symm_keys_0 -> Smeft.symmetrize [(k, v)] = Ok r ->
  exists u, dget r k = Some u /\
    match v, u with
    | Smeft.A0 z, Smeft.A0 z' => z' = RtoC (Re z)
    | Smeft.A2 m, Smeft.A2 m' => forall i j, m' i j = RtoC (Re (m i j))
    | Smeft.A4 t, Smeft.A4 t' => forall i j p q, t' i j p q = RtoC (Re (t i j p q))
    | _, _ => False
    end.
Proof.
  intros k v r I. apply (proj2 (mem_In _ k _)) in I. unfold Smeft.symmetrize. cbn [Smeft.symmetrize_from]. unfold Smeft.symm_arr. rewrite I. cbn [bind]. intros E. injection E as <-.
  eexists. split; [cbn [dset dget]; rewrite ?keqb_refl; reflexivity|]. destruct v; auto.
Qed.
(** A file whose EFT or basis is a list or a mapping: the three commands that look it up end with TypeError and status 1. *)
Section C66.
Variable float_of_str : string -> option R.
Variables json_dumps yaml_dump : doc -> string.
Variables json_loads yaml_load : string -> res doc.
Variable translators : treg.
Variable matchers : mreg.
Variable world : Bases.world.
Variable odd : attrs -> list string -> res wc.
Variable basis_ : Type.
Variable EFT_load : string -> res unit.
Variable Basis_load : string -> res basis_.
Variable basis_validate : basis_ -> res unit.
Notation tool := (Tool.tool float_of_str json_dumps yaml_dump json_loads yaml_load translators matchers world odd basis_ EFT_load Basis_load basis_validate).
Notation parses t d := (load_text string json_loads yaml_load t = Ok d).
Definition compound (d : doc) : Prop := (exists l, d = DList l) \/ (exists m, d = DMap m).
Lemma compound_unhashable a k d : dget a k = Some d -> compound d -> unhashable a k = true.
Proof. unfold unhashable. intros ->. intros [[l ->]|[m ->]]; reflexivity. Qed.
Theorem C66_compound_name : forall x f o fmt s m sc z k d, parses (input f o s) (DMap m) -> wf m -> complete KWC m -> dmem m "dict" = false ->
  dget m "scale" = Some sc -> to_float float_of_str sc = Ok z -> k = "eft" \/ k = "basis" -> dget m k = Some d -> compound d ->
  tool (PCmd (cmd_of x f o fmt)) s = (1%Z, St (files (truncate o s)) (seen s ++ [Trace TypeError])).
Proof.
  intros x f o fmt s m sc z k d L W C D S Z K E Cd. rewrite <- (input_eq x f o fmt s) in L.
  assert (forall k, dmem m k = true -> ~ In k (properties KWC)) as P by (intros k' K' [<-|[]]; congruence).
  destruct (wc_ok float_of_str (fun _ _ => None) m sc z W C P S Z) as (a & A & _ & G).
  assert (wload float_of_str json_loads yaml_load (input_text (cmd_of x f o fmt) s) = Ok a) as El by (unfold wload, load; rewrite L; exact A).
  assert (unhashable a "eft" || unhashable a "basis" = true) as U.
  { apply orb_true_iff. destruct K as [-> | ->]; [left|right]; (apply (compound_unhashable _ _ d); [rewrite G; [exact E|discriminate|cbn; intuition discriminate]|exact Cd]). }
  assert (outcome float_of_str json_dumps yaml_dump json_loads yaml_load translators matchers world odd basis_ EFT_load Basis_load basis_validate (cmd_of x f o fmt) (input_text (cmd_of x f o fmt) s) = Err TypeError) as R.
  { destruct x as [t|e' t]; unfold outcome; cbn [cmd_of result] in *; rewrite El; cbn [bind]; unfold tool_translate, tool_match, on_object, registered;
      (destruct (hidden a _); [reflexivity|]); rewrite U; reflexivity. }
  unfold outcome in R. unfold Tool.tool, wcxf_main. rewrite run_spec, R.
  assert (forall d (s : st), seen (truncate d s) = seen s) as Sn by (intros []; reflexivity).
  destruct x; unfold say; cbn [cmd_of snd cmd_out]; rewrite Sn; reflexivity.
Qed.
Theorem C66_compound_eft : forall f s m sc z d, parses (input f DStdout s) (DMap m) -> wf m -> complete KWC m -> dmem m "dict" = false ->
  dget m "scale" = Some sc -> to_float float_of_str sc = Ok z -> dget m "eft" = Some d -> compound d ->
  tool (PCmd (Cli.Validate "wc" f)) s = (1%Z, St (files s) (seen s ++ [Trace TypeError])).
Proof.
  intros f s m sc z d L W C D S Z E Cd.
  assert (forall k, dmem m k = true -> ~ In k (properties KWC)) as P by (intros k' K' [<-|[]]; congruence).
  destruct (wc_ok float_of_str (fun _ _ => None) m sc z W C P S Z) as (a & A & _ & G).
  assert (input_text (Cli.Validate "wc" f) s = input f DStdout s) as I by (destruct f; reflexivity).
  assert (wload float_of_str json_loads yaml_load (input_text (Cli.Validate "wc" f) s) = Ok a) as El by (rewrite I; unfold wload, load; rewrite L; exact A).
  assert (unhashable a "eft" = true) as U by (apply (compound_unhashable _ _ d); [rewrite G; [exact E|discriminate|cbn; intuition discriminate]|exact Cd]).
  unfold Tool.tool, wcxf_main. rewrite run_spec. cbn [result String.eqb Ascii.eqb Bool.eqb]. rewrite El. cbn [bind]. unfold tool_validate. destruct (hidden a _); [reflexivity|]. rewrite U. reflexivity.
Qed.
End C66.
Example C66_compound_case : let m := [("eft", DList [DStr "WET"]); ("basis", DStr "JMS"); ("scale", DNum 5); ("values", DMap [])] in
  wf m /\ complete KWC m /\ dmem m "dict" = false /\ compound (DList [DStr "WET"]).
Proof.
  split; [repeat constructor; simpl; intuition discriminate|]. split; [|split; [reflexivity|left; eauto]].
  split; [reflexivity|]. intros k I. cbn in I. repeat (destruct I as [<-|I]; [reflexivity|]). destruct I.
Qed.

(** The colour matrices in the dipole vertices (C60) are the generators of SU(3): Tr T^A T^B is one half for A = B and zero otherwise. *)
Definition hues : list Dirac.hue := [Dirac.Red; Dirac.Green; Dirac.Blue].
Definition trace_of (m n : Dirac.hue -> Dirac.hue -> C) : C :=
  fold_right Cadd C0 (flat_map (fun a => map (fun b => Cmul (m a b) (n b a)) hues) hues).
Definition trace_g (m n : Dirac.gmat) : Dirac.gi :=
  Dirac.gsum (flat_map (fun a => map (fun b => Dirac.gmul (Dirac.gent m (Dirac.hn a) (Dirac.hn b)) (Dirac.gent n (Dirac.hn b) (Dirac.hn a))) hues) hues).
Lemma trace_scaled x y m n :
  trace_of (fun a b => Cmul (RtoC x) (Dirac.gC (Dirac.gent m (Dirac.hn a) (Dirac.hn b)))) (fun a b => Cmul (RtoC y) (Dirac.gC (Dirac.gent n (Dirac.hn a) (Dirac.hn b)))) =
  Cmul (RtoC (x * y)) (Dirac.gC (trace_g m n)).
Proof.
  unfold trace_of, trace_g, Dirac.gsum.
  assert (forall l : list (Dirac.hue * Dirac.hue),
    fold_right Cadd C0 (map (fun t => Cmul (Cmul (RtoC x) (Dirac.gC (Dirac.gent m (Dirac.hn (fst t)) (Dirac.hn (snd t))))) (Cmul (RtoC y) (Dirac.gC (Dirac.gent n (Dirac.hn (snd t)) (Dirac.hn (fst t)))))) l) =
    Cmul (RtoC (x * y)) (Dirac.gC (fold_right Dirac.gadd Dirac.g0 (map (fun t => Dirac.gmul (Dirac.gent m (Dirac.hn (fst t)) (Dirac.hn (snd t))) (Dirac.gent n (Dirac.hn (snd t)) (Dirac.hn (fst t)))) l)))) as H.
  { induction l as [|t l IH]; cbn [map fold_right].
    - unfold Cmul, C0, RtoC, Dirac.gC, Dirac.g0. cbn [fst snd]. apply injective_projections; cbn [fst snd]; ring.
    - rewrite IH. generalize (fold_right Dirac.gadd Dirac.g0 (map (fun t => Dirac.gmul (Dirac.gent m (Dirac.hn (fst t)) (Dirac.hn (snd t))) (Dirac.gent n (Dirac.hn (snd t)) (Dirac.hn (fst t)))) l)).
      generalize (Dirac.gent m (Dirac.hn (fst t)) (Dirac.hn (snd t))) (Dirac.gent n (Dirac.hn (snd t)) (Dirac.hn (fst t))). intros [a b] [c d] [e f].
      unfold Cmul, Cadd, RtoC, Dirac.gC, Dirac.gadd, Dirac.gmul. cbn [fst snd]. rewrite ?plus_IZR, ?minus_IZR, ?plus_IZR, ?mult_IZR.
      apply injective_projections; cbn [fst snd]; ring. }
  exact (H (flat_map (fun a => map (fun b => (a, b)) hues) hues)).
Qed.
Theorem C60_generators : forall A B, A < 8 -> B < 8 -> trace_of (Dipole.generator A) (Dipole.generator B) = RtoC (if Nat.eqb A B then 1 / 2 else 0)%R.
Proof.
  intros A B HA HB. unfold Dipole.generator.
  assert (forall n, n < 8 -> exists m, nth_error Dirac.gellmann n = Some (if Nat.eqb n 7 then 1%Z else 3%Z, m) /\
    forall k, k < 8 -> exists m', nth_error Dirac.gellmann k = Some (if Nat.eqb k 7 then 1%Z else 3%Z, m') /\
      trace_g m m' = (if Nat.eqb n k then (if Nat.eqb n 7 then 6 else 2)%Z else 0%Z, 0%Z)) as T.
  { assert (forallb (fun n => forallb (fun k => Dirac.geqb (trace_g (snd (nth n Dirac.gellmann (0%Z, []))) (snd (nth k Dirac.gellmann (0%Z, []))))
      (if Nat.eqb n k then (if Nat.eqb n 7 then 6 else 2)%Z else 0%Z, 0%Z)) (seq 0 8)) (seq 0 8) = true) as H by (vm_compute; reflexivity).
    rewrite forallb_forall in H.
    assert (forall n, n < 8 -> nth_error Dirac.gellmann n = Some (if Nat.eqb n 7 then 1%Z else 3%Z, snd (nth n Dirac.gellmann (0%Z, [])))) as N.
    { intros n L. do 8 (destruct n as [|n]; [reflexivity|]). lia. }
    intros n L. eexists. split; [exact (N n L)|]. intros k K. eexists. split; [exact (N k K)|].
    specialize (H n ltac:(apply in_seq; lia)). rewrite forallb_forall in H. specialize (H k ltac:(apply in_seq; lia)).
    unfold Dirac.geqb in H. apply andb_prop in H. destruct H as [H1 H2]. apply Z.eqb_eq in H1, H2. apply injective_projections; assumption. }
  destruct (T A HA) as (m & -> & T'). destruct (T' B HB) as (m' & -> & Q). rewrite trace_scaled, Q.
  destruct (Nat.eqb_spec A B) as [<-|N].
  - destruct (Nat.eqb A 7); rewrite sqrt_sqrt by lra; unfold Cmul, RtoC, Dirac.gC; cbn [fst snd]; apply injective_projections; cbn [fst snd]; lra.
  - unfold Cmul, RtoC, Dirac.gC; cbn [fst snd]; apply injective_projections; cbn [fst snd]; ring.
Qed.

Example C51_truth_case : let m := [("eft", DStr "WET"); ("basis", DStr "JMS"); ("scale", DBool true); ("values", DMap [("G", DBool false)])] in
  wf m /\ complete KWC m /\ (forall k, dmem m k = true -> ~ In k (properties KWC)) /\
  forall fs, exists d, fst (wc_dict fs (new_wc "WET" "JMS" 1 [("G", DBool false)])) = Ok d /\ dget d "G" = Some C0.
Proof.
  intros m. split; [repeat constructor; simpl; intuition discriminate|]. split; [split; [reflexivity|]; intros k I; cbn in I; repeat (destruct I as [<-|I]; [reflexivity|]); destruct I|].
  split; [intros k E [<-|[]]; discriminate|]. intros fs. eexists. split; reflexivity.
Qed.
Example C05_null_case : let h := [Bases.NewBasis "WET" "b" None [("sb", Some [("C1", None)]); ("db", None)]] in
  Forall (BasesFacts.no_read 0) h /\ Bases.sectors_of (Bases.wrun h) 0 = Some [("sb", Some [("C1", None)]); ("db", None)] /\
  ~ BasesFacts.usable_parent (Bases.wrun h) "WET" "c" "nope".
Proof.
  split; [repeat constructor|]. split; [reflexivity|]. intros (_ & pid & s & E & _). discriminate.
Qed.
Example C14_real_case : In "phi" SmeftTab.symm_keys_0 /\ exists r, Smeft.symmetrize [("phi", Smeft.A2 (fun _ _ => Ci))] = Ok r.
Proof. split; [apply (proj1 (mem_In _ _ _)); reflexivity|]. eexists. reflexivity. Qed.

(** Among the parameter files that get_sm_wcs reads, one that is not a mapping ends it with AttributeError, unless an earlier one has failed. *)
Theorem C43_not_mapping : forall pre f post all, get_sm_wcs pre = Ok all -> (forall m, f <> DMap m) -> get_sm_wcs (pre ++ f :: post) = Err AttributeError.
Proof.
  intros pre f post all. unfold get_sm_wcs. generalize (@nil (string * doc)) as a0. induction pre as [|g t IH]; intros a0; cbn.
  - intros _ N. destruct f; try reflexivity. exfalso. eapply N. reflexivity.
  - destruct (sm_step a0 g) as [a|]; cbn; [apply IH|discriminate].
Qed.
(** The conditions of C41 in plain words: two numbers are equal if they are the same real number or the same infinity, and a
    scale is accepted if it is an int or a float, and not a number below or equal to zero, nor minus infinity. *)
Theorem C41_meaning : forall c,
  (Qcd.at_input c <-> match c with
    | Qcd.CAlpha s f _ => Qcd.val s = Qcd.Fin 91.1876 /\ Qcd.val f = Qcd.Fin 5
    | Qcd.CMb m s f _ => Qcd.val s = Qcd.val m /\ Qcd.val m <> Qcd.NaN /\ Qcd.val f = Qcd.Fin 5
    | Qcd.CMc m s _ _ => Qcd.val s = Qcd.val m /\ Qcd.val m <> Qcd.NaN
    | Qcd.CMs _ s f _ => Qcd.val s = Qcd.Fin 2 /\ Qcd.val f = Qcd.Fin 3
    end) /\
  (Qcd.scale_ok (Qcd.c_scale c) = true <-> Qcd.kd (Qcd.c_scale c) <> Qcd.KOther /\ Qcd.val (Qcd.c_scale c) <> Qcd.NInf /\
    forall x, Qcd.val (Qcd.c_scale c) = Qcd.Fin x -> (0 < x)%R).
Proof.
  assert (forall a b, Qcd.feq a b = true <-> a = b /\ b <> Qcd.NaN) as F.
  { intros [x| | |] [y| | |]; cbn; unfold Qcd.Req_b; try (split; [discriminate|intros [E N]; congruence]); try (split; [split; [reflexivity|discriminate]|reflexivity]).
    destruct (Req_EM_T x y) as [->|N]; split; try discriminate; try (intros [[= E] _]; congruence); auto. intros _. split; [reflexivity|discriminate]. }
  intros c. split.
  - destruct c as [s f a|m s f a|m s f a|m s f a]; cbn [Qcd.at_input]; unfold Qcd.is_f; rewrite ?F, ?Qcd.val_MZ; intuition discriminate.
  - destruct (Qcd.c_scale c) as [k v]. unfold Qcd.scale_ok, Qcd.is_real. cbn [Qcd.kd Qcd.val]. rewrite andb_true_iff, negb_true_iff.
    assert (Qcd.fle v (Qcd.Fin 0) = false <-> v <> Qcd.NInf /\ forall x, v = Qcd.Fin x -> (0 < x)%R) as ->.
    { destruct v as [x| | |]; cbn; try (split; [intros _; split; [discriminate|intros x [=]]|reflexivity]); [|split; [discriminate|intros [N _]; congruence]].
      unfold Qcd.Rle_b. destruct (Rle_dec x 0) as [L|L]; split; try discriminate; auto.
      - intros [_ H]. specialize (H x eq_refl). lra.
      - intros _. split; [discriminate|]. intros y [= <-]. lra. }
    destruct k; intuition congruence.
Qed.
Print Assumptions C51_truth_scale.
Print Assumptions C51_truth_value.
Print Assumptions C05_null_sector.
Print Assumptions C03_failed_str.
Print Assumptions C14_real_any_shape.
Print Assumptions C66_compound_name.
Print Assumptions C66_compound_eft.
Print Assumptions C60_generators.
Print Assumptions C43_not_mapping.
Print Assumptions C41_meaning.
