(** The WET translators in normal form: for complete listings and usable parameters each of
    them is total and given by linear forms. *)
From Coq Require Import String Ascii List Bool Arith ZArith QArith Reals Lra.
From Verif Require Import PyBase PyDict Cplx Tensor Wc Params Smeft SmeftNames WetExpr WetStr WetTab Wet WetJms.
Import ListNotations.
Open Scope string_scope.
Open Scope list_scope.
Open Scope nat_scope.
#[local] Opaque Ceq_dec.

(** ** The JMS operators that the translators read: the fields of an operator *)
Inductive field := Nu | El | Up | Dn.
Definition jms_fields : dict string (list field) :=
  [("VddLL", [Dn; Dn; Dn; Dn]); ("VddRR", [Dn; Dn; Dn; Dn]); ("V1ddLR", [Dn; Dn; Dn; Dn]); ("V8ddLR", [Dn; Dn; Dn; Dn]);
   ("S1ddRR", [Dn; Dn; Dn; Dn]); ("S8ddRR", [Dn; Dn; Dn; Dn]);
   ("VuuLL", [Up; Up; Up; Up]); ("VuuRR", [Up; Up; Up; Up]); ("V1uuLR", [Up; Up; Up; Up]); ("V8uuLR", [Up; Up; Up; Up]);
   ("S1uuRR", [Up; Up; Up; Up]); ("S8uuRR", [Up; Up; Up; Up]);
   ("V1udLL", [Up; Up; Dn; Dn]); ("V8udLL", [Up; Up; Dn; Dn]); ("V1udRR", [Up; Up; Dn; Dn]); ("V8udRR", [Up; Up; Dn; Dn]);
   ("V1udLR", [Up; Up; Dn; Dn]); ("V8udLR", [Up; Up; Dn; Dn]); ("V1duLR", [Dn; Dn; Up; Up]); ("V8duLR", [Dn; Dn; Up; Up]);
   ("V1udduLR", [Up; Dn; Dn; Up]); ("V8udduLR", [Up; Dn; Dn; Up]);
   ("S1udRR", [Up; Up; Dn; Dn]); ("S8udRR", [Up; Up; Dn; Dn]); ("S1udduRR", [Up; Dn; Dn; Up]); ("S8udduRR", [Up; Dn; Dn; Up]);
   ("VnueduLL", [Nu; El; Dn; Up]); ("VnueduLR", [Nu; El; Dn; Up]); ("SnueduRL", [Nu; El; Dn; Up]); ("SnueduRR", [Nu; El; Dn; Up]);
   ("TnueduRR", [Nu; El; Dn; Up]);
   ("VnudLL", [Nu; Nu; Dn; Dn]); ("VnudLR", [Nu; Nu; Dn; Dn]);
   ("VedLL", [El; El; Dn; Dn]); ("VedRR", [El; El; Dn; Dn]); ("VedLR", [El; El; Dn; Dn]); ("VdeLR", [Dn; Dn; El; El]);
   ("SedRR", [El; El; Dn; Dn]); ("SedRL", [El; El; Dn; Dn]); ("TedRR", [El; El; Dn; Dn]);
   ("dG", [Dn; Dn]); ("dgamma", [Dn; Dn]); ("uG", [Up; Up]); ("ugamma", [Up; Up]); ("egamma", [El; El])].
(** There is no top quark in the WET. *)
Fixpoint fits (fs : list field) (x : idx) : bool :=
  match fs, x with
  | [], [] => true
  | f :: fs', i :: x' => (match f with Up => negb (fl_eqb i F3) | _ => true end) && fits fs' x'
  | _, _ => false
  end.
Definition jms_ix (op : string) (x : idx) : bool :=
  match dget jms_fields op with Some fs => fits fs x | None => false end.

(** The coefficients that stand for the entry [x] of [op], and whether they are to be conjugated. *)
Definition members (op : string) (x : idx) : list (idx * bool) :=
  if mem op herm_ops then [(x, false); (herm_ix x, true)]
  else if mem op cur_ops then [(x, false); (cur_ix x, false)]
  else if mem op both_ops then [(x, false); (cur_ix x, false); (herm_ix x, true); (cur_ix (herm_ix x), true)]
  else [(x, false)].
Definition complete (keys : list string) : Prop :=
  forall op x, jms_ix op x = true -> exists m, In m (members op x) /\ In (cname op (fst m)) keys.

(** numbers *)
Definition nums (c : dict string C) : dict string cval := dmap Some c.
Definition num_of (c : dict string C) (k : string) : C := match dget c k with Some z => z | None => C0 end.
Lemma jval_nums c k : jval (nums c) k = Some (num_of c k).
Proof. unfold jval, nums, num_of. rewrite dget_dmap. destruct (dget c k); reflexivity. Qed.
Definition pick (keys : list string) (op : string) (x : idx) : option (idx * bool) :=
  List.find (fun m => mem (cname op (fst m)) keys) (members op x).
Definition entry_of (keys : list string) (c : dict string C) (op : string) (x : idx) : option C :=
  option_map (fun m => cj (snd m) (num_of c (cname op (fst m)))) (pick keys op x).
Lemma first_find keys c op x :
  full keys (nums c) op x = entry_of keys c op x.
Proof.
  unfold full, entry_of, pick, members, raw. rewrite !jval_nums.
  destruct (mem op herm_ops); [|destruct (mem op cur_ops); [|destruct (mem op both_ops)]]; cbn [List.find fst].
  - destruct (mem (cname op x) keys); cbn [first option_map snd fst cj]; auto.
    destruct (mem (cname op (herm_ix x)) keys); reflexivity.
  - destruct (mem (cname op x) keys); cbn [first option_map snd fst cj]; auto.
    destruct (mem (cname op (cur_ix x)) keys); reflexivity.
  - destruct (mem (cname op x) keys); cbn [first option_map snd fst cj]; auto.
    destruct (mem (cname op (cur_ix x)) keys); cbn [first option_map snd fst cj]; auto.
    destruct (mem (cname op (herm_ix x)) keys); cbn [first option_map snd fst cj]; auto.
    destruct (mem (cname op (cur_ix (herm_ix x))) keys); reflexivity.
  - destruct (mem (cname op x) keys); reflexivity.
Qed.
Lemma complete_pick keys op x : complete keys -> jms_ix op x = true ->
  exists m, pick keys op x = Some m /\ In m (members op x) /\ In (cname op (fst m)) keys.
Proof.
  intros Hc H. destruct (Hc op x H) as (m & A & B). unfold pick.
  destruct (List.find _ (members op x)) as [n|] eqn:E.
  - apply find_some in E. destruct E as [E1 E2]. exists n. split; auto. split; auto. apply mem_In in E2; auto.
  - exfalso. apply (find_none _ _ E) in A. rewrite (proj2 (mem_In _ _ keys)) in A by exact B. discriminate.
Qed.
Lemma jms_ops_plain : forallb (fun op => no_us op) (dkeys jms_fields) = true.
Proof. vm_compute. reflexivity. Qed.
Lemma fits_len fs : forall x, fits fs x = true -> length x = length fs.
Proof. induction fs as [|f t IH]; destruct x; simpl; try discriminate; auto. rewrite andb_true_iff. intros [_ H]. f_equal; auto. Qed.
Lemma members_len op x m : In m (members op x) -> length (fst m) = length x.
Proof.
  assert (length (herm_ix x) = length x) as A by (destruct x as [|? [|? [|? [|? [|]]]]]; reflexivity).
  assert (length (cur_ix x) = length x) as B by (destruct x as [|? [|? [|? [|? [|]]]]]; reflexivity).
  assert (length (cur_ix (herm_ix x)) = length x) as D by (destruct x as [|? [|? [|? [|? [|]]]]]; reflexivity).
  unfold members. destruct (mem op herm_ops); [|destruct (mem op cur_ops); [|destruct (mem op both_ops)]]; cbn [In];
    intuition; subst; simpl; auto.
Qed.
(** Every entry that exists is a number. *)
Lemma jms_entries keys c : listing_ok keys -> complete keys -> exists a, JMS_to_array keys (nums c) = Ok a /\
  forall op x, jms_ix op x = true -> exists r z, dget a op = Some r /\ n_rank r = length x /\ n_ent r x = Some z /\ entry_of keys c op x = Some z.
Proof.
  intros L Hc. destruct (jms_array keys (nums c) L) as (a & E & _ & G). exists a. split; auto.
  intros op x H. destruct (complete_pick _ _ _ Hc H) as (m & P & I & K).
  unfold jms_ix in H. destruct (dget jms_fields op) as [fs|] eqn:F; [|discriminate].
  assert (no_us op = true) as U.
  { pose proof jms_ops_plain as J. rewrite forallb_forall in J. apply J. exact (dget_Some_key _ _ _ F). }
  assert (x <> []) as X.
  { intros ->. apply fits_len in H. destruct fs; [|discriminate]. apply dget_In in F.
    cbn [jms_fields In] in F. repeat (destruct F as [F|F]; [discriminate|]). exact F. }
  destruct (G op x (fst m) U K) as (r & R1 & R2 & R3); auto.
  { symmetry. eapply members_len; eauto. }
  rewrite first_find in R3. exists r. unfold entry_of in R3 |- *. rewrite P in R3 |- *. simpl in R3 |- *. eauto 6.
Qed.

(** ** Usable parameters *)
Definition usable (p : params) (V : mat) : Prop :=
  param p "GF" <> 0%R /\ (0 < param p "alpha_e")%R /\ (0 < param p "alpha_s")%R /\ param p "m_b" <> 0%R /\ (forall i j, V i j <> C0).
Definition used : list string := ["m_b"; "m_s"; "GF"; "alpha_e"; "alpha_s"].
Definition msq : ex := XSub (XMul (XPar "m_b") (XPar "m_b")) (XMul (XPar "m_s") (XPar "m_s")).
Definition nonzero : list ex :=
  [XPar "GF"; XPar "m_b"] ++ flat_map (fun i => map (fun j => XV i j) [F1; F2; F3]) [F1; F2; F3].
Definition am (nz : list ex) (ok : string -> idx -> bool) : asm := Asm used ["alpha_e"; "alpha_s"] (nonzero ++ nz) ok.
Definition amJ := am [] jms_ix.
Definition amE := am [msq] jms_ix.
Definition am0 := am [] (fun _ _ => false).

Definition prog0 (q : res prog) : prog := match q with Ok x => x | Err _ => Prog [] None end.
Definition nf (a : asm) (g : string -> option lform) (q : res prog) : dict string lform :=
  match nf_prog a g (prog0 q) with Some d => d | None => [] end.
Definition nf_ok (a : asm) (g : string -> option lform) (q : res prog) : bool :=
  match q with Ok x => match nf_prog a g x with Some _ => true | None => false end | Err _ => false end.
Lemma nf_ok_eq a g q : nf_ok a g q = true -> q = Ok (prog0 q) /\ nf_prog a g (prog0 q) = Some (nf a g q).
Proof. unfold nf_ok, nf. destruct q as [x|]; [|discriminate]. simpl. destruct (nf_prog a g x); [auto|discriminate]. Qed.

Definition none : string -> option lform := fun _ => None.
Definition var (k : string) : lform := [(DGet k false, (1%Q, mone))].
Definition reads (names : list string) (k : string) : option lform := if mem k names then Some (var k) else None.

Section Env.
Variable ckm_tree : R -> R -> R -> R -> mat.
Variable qcd_mb qcd_ms : R -> R -> R -> res R.
Variable qcd_as : R -> R -> res R.
Notation get_parameters := (get_parameters qcd_mb qcd_ms qcd_as).
Notation from_JMS := (from_JMS ckm_tree qcd_mb qcd_ms qcd_as).
Notation from_flat := (from_flat ckm_tree qcd_mb qcd_ms qcd_as).

Lemma get_parameters_used scale input p s : get_parameters scale input = Ok p -> In s used -> exists r, dget p s = Some r.
Proof.
  unfold Wet.get_parameters. destruct (qcd_mb _ _ _) as [mb|]; [|discriminate]. simpl. destruct (qcd_ms _ _ _) as [ms|]; [|discriminate].
  simpl. destruct (qcd_as _ _) as [als|]; [|discriminate]. cbn [bind].
  intros E; injection E as <-. intros I. cbn [In used] in I.
  repeat (destruct I as [<-|I]; [eexists; reflexivity|]). destruct I.
Qed.
Lemma env_ok_am nz ok scale input p V g a :
  get_parameters scale input = Ok p -> usable p V ->
  (forall e, In e nz -> sval (Env g a p V) e <> C0) ->
  (forall op x, ok op x = true -> exists r z, dget a op = Some r /\ n_rank r = length x /\ n_ent r x = Some z) ->
  env_ok (am nz ok) (Env g a p V).
Proof.
  intros G (U1 & U2 & U3 & U4 & U5) NZ K. repeat split.
  - intros s I. eapply get_parameters_used; eauto.
  - intros s I. cbn [am a_pos In] in I. destruct I as [<-|[<-|[]]]; auto.
  - intros e I. cbn [am a_nz] in I. apply in_app_or in I. destruct I as [I|I]; [|apply NZ; auto].
    cbn [nonzero flat_map map app In] in I.
    repeat (destruct I as [<-|I]; [unfold sval; simpl; try apply U5|]); [| |destruct I].
    + destruct (dget p "GF") as [r|] eqn:E; unfold param in U1; rewrite E in U1; [apply RtoC_neq0; auto|congruence].
    + destruct (dget p "m_b") as [r|] eqn:E; unfold param in U4; rewrite E in U4; [apply RtoC_neq0; auto|congruence].
  - intros op x H. cbn [am a_ok] in H. auto.
Qed.

Definition okp (scale : R) (input : option params) (p : params) : Prop :=
  get_parameters scale input = Ok p /\ usable p (ckm_of ckm_tree p).
Definition jenv (keys : list string) (c : dict string C) (p : params) : env :=
  Env [] (match JMS_to_array keys (nums c) with Ok a => a | Err _ => [] end) p (ckm_of ckm_tree p).
Definition fenv (keys : list string) (c : dict string C) (p : params) : env :=
  Env (fill keys (nums c)) [] p (ckm_of ckm_tree p).
Lemma jenv_ok keys c scale input p : listing_ok keys -> complete keys -> okp scale input p -> env_ok amJ (jenv keys c p).
Proof.
  intros L Hc [G U]. destruct (jms_entries keys c L Hc) as (a & E & F). unfold jenv. rewrite E.
  apply (env_ok_am [] jms_ix scale input); auto.
  intros op x H. destruct (F op x H) as (r & z & A & B & D & _). eauto.
Qed.
Lemma jenv_okE keys c scale input p : listing_ok keys -> complete keys -> okp scale input p ->
  (param p "m_b" * param p "m_b" <> param p "m_s" * param p "m_s")%R -> env_ok amE (jenv keys c p).
Proof.
  intros L Hc [G U] M. destruct (jms_entries keys c L Hc) as (a & E & F). unfold jenv. rewrite E.
  apply (env_ok_am [msq] jms_ix scale input); auto.
  - intros e [<-|[]]. unfold sval, msq, strip. cbn [eval e_par].
    destruct (get_parameters_used _ _ _ "m_b" G) as (x & X); [cbn; auto|].
    destruct (get_parameters_used _ _ _ "m_s" G) as (y & Y); [cbn; auto|].
    unfold param in M. rewrite X, Y in *. cbn [bind lift2]. rewrite <- !RtoC_mul, <- RtoC_sub. apply RtoC_neq0. lra.
  - intros op x H. destruct (F op x H) as (r & z & A & B & D & _). eauto.
Qed.
Lemma fenv_ok keys c scale input p : okp scale input p -> env_ok am0 (fenv keys c p).
Proof.
  intros [G U]. apply (env_ok_am [] (fun _ _ => false) scale input); auto. discriminate.
Qed.
Lemma arr_entry keys c p op x : listing_ok keys -> complete keys -> jms_ix op x = true ->
  entry_of keys c op x = Some (arr0 (jenv keys c p) op x).
Proof.
  intros L Hc H. destruct (jms_entries keys c L Hc) as (a & E & F). destruct (F op x H) as (r & z & A & B & D & G).
  unfold arr0, jenv. rewrite E. cbn [e_arr]. rewrite A, D. exact G.
Qed.
Lemma from_JMS_nf q a keys c scale input p : listing_ok keys -> okp scale input p -> complete keys ->
  env_ok a (jenv keys c p) -> nf_ok a none q = true ->
  from_JMS q keys (nums c) scale input = Ok (nums (dmap (lval (jenv keys c p)) (nf a none q))).
Proof.
  intros L [G U] Hc OK N. destruct (nf_ok_eq _ _ _ N) as [E1 E2]. unfold Wet.from_JMS. rewrite G. cbn [bind].
  unfold jenv in *. destruct (jms_entries keys c L Hc) as (arr & E & _). rewrite E in *. cbn [bind]. rewrite E1 at 1. cbn [bind].
  change (Env [] arr p (ckm_of ckm_tree p)) with (with_get (Env [] arr p (ckm_of ckm_tree p)) []) at 1.
  rewrite (nf_prog_sound a _ OK none [] (prog0 q) (nf a none q)); auto.
  - unfold vals, nums, dmap. rewrite map_map. reflexivity.
  - intros k f H. discriminate.
Qed.
Lemma get0_fill keys c k : NoDup keys -> In k keys -> dget (fill keys (nums c)) k = Some (Some (num_of c k)).
Proof. intros N I. rewrite dget_fill by auto. rewrite (proj2 (mem_In _ k keys)) by auto. rewrite jval_nums. reflexivity. Qed.
Lemma from_flat_nf q names keys c scale input p : NoDup keys -> incl names keys -> okp scale input p ->
  nf_ok am0 (reads names) q = true ->
  from_flat q keys (nums c) scale input = Ok (nums (dmap (lval (fenv keys c p)) (nf am0 (reads names) q))).
Proof.
  intros D I GU N. pose proof (fenv_ok keys c scale input p GU) as OK. destruct GU as [G U].
  destruct (nf_ok_eq _ _ _ N) as [E1 E2]. unfold Wet.from_flat. rewrite G. cbn [bind]. rewrite E1 at 1. cbn [bind].
  change (Env (fill keys (nums c)) [] p (ckm_of ckm_tree p)) with (with_get (fenv keys c p) (fill keys (nums c))).
  rewrite (nf_prog_sound am0 _ OK (reads names) (fill keys (nums c)) (prog0 q) (nf am0 (reads names) q)); auto.
  - unfold vals, nums, dmap. rewrite map_map. reflexivity.
  - intros k f H. unfold reads in H. destruct (mem k names) eqn:M; [|discriminate]. injection H as <-.
    apply mem_In in M. rewrite get0_fill by auto. unfold lval, var. cbn [snd fst dtval cj]. unfold get0. cbn [fenv e_get]. rewrite get0_fill by auto.
    apply f_equal, f_equal. unfold cfval. cbn [fst snd]. rewrite mone_val.
    replace (Q2R 1) with 1%R by (unfold Q2R; simpl; field). change (RtoC 1) with C1. ring.
Qed.
End Env.
