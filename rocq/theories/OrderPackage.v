(** The translators and matchers of the package give the same result for the coefficients in any order, if
    the names of the coefficients are those of the basis.  With other names the order may matter. *)
From Coq Require Import String Ascii List Bool Arith ZArith Reals Lra Permutation.
From Verif Require Import PyBase PyDict Cplx Tensor SmeftSyntax SmeftTab Wc WetN Params Smeft SmeftSpec SmeftNames SmeftRot SmeftWarsaw SmeftMass SmeftReg
  Match MatchThm MatchFacts MatchWarsaw MatchUser WetExpr Wet WetNf MatchWet FkTab FlavorKit Package PackMatch Order.
Import ListNotations.
Open Scope string_scope.
Open Scope list_scope.
Open Scope nat_scope.
#[local] Opaque WC_keys C_keys_shape Ceq_dec.
#[local] Opaque JMS_to_Bern_prog JMS_to_flavio_prog JMS_to_FormFlavor_prog JMS_to_EOS_prog Bern_to_flavio_prog flavio_to_Bern_prog.

Lemma coeff_perm (d d1 : dict string C) : wf d -> Permutation d d1 -> forall k, coeff d1 k = coeff d k.
Proof. intros W P k. unfold coeff. rewrite (proj2 (perm_get d d1 W P)). reflexivity. Qed.
Lemma good_perm (d d1 : dict string C) : Permutation d d1 -> good_dict d -> good_dict d1.
Proof.
  intros P [W G]. pose proof (Permutation_map fst P) as Q. split; [exact (Permutation_NoDup Q W)|].
  intros k I. apply G. unfold dkeys in *. exact (Permutation_in _ (Permutation_sym Q) I).
Qed.

(** ** The functions of translators/wet.py *)
Lemma fill_same keys (c c1 : dict string C) : (forall k, coeff c1 k = coeff c k) -> fill keys (nums c1) = fill keys (nums c).
Proof.
  intros H. unfold fill. f_equal. apply map_ext. intros k. f_equal. specialize (H k). unfold coeff in H.
  unfold nums. rewrite !dget_dmap. destruct (dget c k), (dget c1 k); cbn [option_map]; congruence.
Qed.
Lemma eval_t_wf v t d : eval_t v t = Ok d -> wf d.
Proof. unfold eval_t. destruct (mapM _ t) as [l|]; [|discriminate]. intros [= <-]. apply wf_dict_of. Qed.
Lemma run_steps_wf v l : forall acc d, wf acc -> run_steps v acc l = Ok d -> wf d.
Proof.
  induction l as [|s r IH]; intros acc d W; cbn [run_steps]; [congruence|]. destruct (run_chain v s) as [x|]; [|discriminate]. cbn [bind]. apply IH, wf_dupdate, W.
Qed.
Lemma run_prog_wf v q d : run_prog v q = Ok d -> wf d.
Proof.
  unfold run_prog. destruct (run_steps v [] (pr_steps q)) as [x|] eqn:E; [|discriminate]. cbn [bind]. destruct (pr_post q); [apply eval_t_wf|].
  intros [= <-]. refine (run_steps_wf _ _ [] _ _ E). exact (NoDup_nil string).
Qed.

(** ** FlavorKit *)
Lemma mapM_perm {A B} (f : A -> res B) l l1 : Permutation l l1 -> forall o, mapM f l = Ok o -> exists o1, mapM f l1 = Ok o1 /\ Permutation o o1.
Proof.
  unfold mapM. induction 1 as [|x l l1 P IH|x y l|l l1 l2 P IH P2 IH2]; intros o; cbn [map sequence].
  - intros E. exists o. auto.
  - destruct (f x) as [b|]; [|discriminate]. cbn [bind]. destruct (sequence (map f l)) as [t|]; [|discriminate]. intros [= <-].
    destruct (IH t eq_refl) as (t1 & -> & Q). exists (b :: t1). auto.
  - destruct (f y) as [b|]; [|discriminate]. cbn [bind]. destruct (f x) as [c|]; [|discriminate]. cbn [bind]. destruct (sequence (map f l)) as [t|]; [|discriminate].
    intros [= <-]. exists (c :: b :: t). split; [reflexivity|apply perm_swap].
  - intros E. destruct (IH _ E) as (o1 & E1 & Q). destruct (IH2 _ E1) as (o2 & E2 & Q2). exists o2. split; [exact E2|exact (Permutation_trans Q Q2)].
Qed.
Lemma dupdate_cat (acc l : dict string C) : NoDup (map fst l) -> (forall k, In k (map fst l) -> ~ In k (dkeys acc)) -> dupdate acc l = acc ++ l.
Proof.
  revert acc. induction l as [|[k v] r IH]; intros acc N F.
  - unfold dupdate. cbn. rewrite app_nil_r. reflexivity.
  - unfold dupdate in *. cbn [fold_left fst snd]. cbn [map fst] in N, F. inversion N as [|? ? N1 N2]; subst.
    rewrite dset_fresh by (apply F; left; reflexivity). rewrite IH; auto.
    + rewrite <- app_assoc. reflexivity.
    + intros q I. unfold dkeys. rewrite map_app, in_app_iff. cbn. intros [A|[A|[]]]; [exact (F q (or_intror I) A)|]. subst q. exact (N1 I).
Qed.
Section Loop.
(** A loop over the entries that sets one entry or none in each turn and hands a variable to the next turn *)
Variable one : option R -> string -> C -> res (option R * option (string * C)).
Fixpoint loop (m : option R) (acc : dict string C) (l : list (string * C)) : res (dict string C) :=
  match l with
  | [] => Ok acc
  | (k, v) :: r => let! x := one m k v in loop (fst x) (match snd x with Some (k', v') => dset acc k' v' | None => acc end) r
  end.
Definition turn (kv : string * C) : res (option (string * C)) := rmap snd (one None (fst kv) (snd kv)).
(** The variable does not matter for the names [K], and different names give different names. *)
Variable K : string -> Prop.
Variable target : string -> option string.
Hypothesis alone : forall m k v, K k -> rmap snd (one m k v) = rmap snd (one None k v).
Hypothesis named : forall k v x, K k -> turn (k, v) = Ok x -> target k = option_map fst x.
Hypothesis inj : forall k k' t, K k -> K k' -> target k = Some t -> target k' = Some t -> k = k'.
Definition somes (l : list (option (string * C))) : list (string * C) := flat_map (fun x => match x with Some y => [y] | None => [] end) l.
Lemma somes_perm l l1 : Permutation l l1 -> Permutation (somes l) (somes l1).
Proof.
  induction 1 as [|x l l1 P IH|x y l|l l1 l2 P IH P2 IH2]; auto.
  - cbn. apply Permutation_app_head, IH.
  - cbn. rewrite !app_assoc. apply Permutation_app_tail, Permutation_app_comm.
  - exact (Permutation_trans IH IH2).
Qed.
Lemma loop_turns l : (forall k, In k (map fst l) -> K k) -> forall m acc, loop m acc l = rmap (fun o => dupdate acc (somes o)) (mapM turn l).
Proof.
  induction l as [|[k v] r IH]; intros H m acc; [reflexivity|]. cbn [loop]. unfold mapM in *. cbn [map sequence].
  assert (rmap snd (one m k v) = turn (k, v)) as A by (unfold turn; cbn [fst snd]; apply alone; apply H; left; reflexivity).
  destruct (one m k v) as [[m' x]|e]; cbn [rmap snd] in A; rewrite <- A; [|reflexivity]. cbn [bind fst snd].
  rewrite IH by (intros q I; apply H; right; exact I). destruct (sequence (map turn r)) as [o|e]; [|reflexivity]. cbn [bind rmap]. f_equal.
  destruct x as [[k' v']|]; reflexivity.
Qed.
Lemma turns_names l o : (forall k, In k (map fst l) -> K k) -> NoDup (map fst l) -> mapM turn l = Ok o ->
  NoDup (map fst (somes o)) /\ forall t, In t (map fst (somes o)) -> exists k, In k (map fst l) /\ target k = Some t.
Proof.
  unfold mapM. revert o. induction l as [|[k v] r IH]; intros o H N E; cbn [map sequence] in E.
  - injection E as <-. cbn. split; [constructor|contradiction].
  - destruct (turn (k, v)) as [x|] eqn:T; [|discriminate]. cbn [bind] in E. destruct (sequence (map turn r)) as [o'|]; [|discriminate]. injection E as <-.
    cbn [map fst] in N. inversion N as [|? ? N1 N2]; subst. destruct (IH o' (fun q I => H q (or_intror I)) N2 eq_refl) as [A B].
    pose proof (named k v x (H k (or_introl eq_refl)) T) as Q. destruct x as [[t w]|]; cbn [somes flat_map app map fst] in *.
    + split.
      * constructor; [|exact A]. intros I. destruct (B t I) as (k' & I' & Q'). cbn in Q.
        rewrite (inj k k' t (H k (or_introl eq_refl)) (H k' (or_intror I')) Q Q') in N1. exact (N1 I').
      * intros t' [<-|I]; [exists k; split; [left; reflexivity|exact Q]|]. destruct (B t' I) as (k' & I' & Q'). exists k'. split; [right|]; auto.
    + split; [exact A|]. intros t' I. destruct (B t' I) as (k' & I' & Q'). exists k'. split; [right|]; auto.
Qed.
Lemma loop_perm l l1 o : (forall k, In k (map fst l) -> K k) -> NoDup (map fst l) -> Permutation l l1 -> loop None [] l = Ok o ->
  wf o /\ (exists o1, loop None [] l1 = Ok o1 /\ wf o1 /\ forall k, coeff o1 k = coeff o k) /\ forall t, In t (dkeys o) -> exists k, In k (map fst l) /\ target k = Some t.
Proof.
  intros H N P E. pose proof (Permutation_map fst P) as Q. assert (forall k, In k (map fst l1) -> K k) as H1 by (intros k I; apply H; exact (Permutation_in _ (Permutation_sym Q) I)).
  rewrite loop_turns in E by exact H. destruct (mapM turn l) as [x|] eqn:M; [|discriminate]. cbn [rmap bind] in E. injection E as <-.
  destruct (mapM_perm _ _ _ P x M) as (x1 & M1 & Px). destruct (turns_names l x H N M) as [A B].
  destruct (turns_names l1 x1 H1 (Permutation_NoDup Q N) M1) as [A1 _].
  rewrite loop_turns, M1 by exact H1. cbn [rmap bind]. rewrite !dupdate_cat by (auto; intros ? ? []). cbn [app].
  split; [exact A|]. split; [|exact B]. exists (somes x1). split; [reflexivity|]. split; [exact A1|]. apply coeff_perm; [exact A|]. apply somes_perm, Px.
Qed.
End Loop.

(** The names of the FlavorKit basis, and the dipoles with equal flavours, which FlavorKit_to_JMS accepts too *)
Definition pairs : list (fl * fl) := flat_map (fun i => map (fun j => (i, j)) [F1; F2; F3]) [F1; F2; F3].
Definition fk_known : list string := keys_fk ++ ["AVLL_2231"; "AVRR_2231"] ++ map k2r pairs.
(** Where FlavorKit_to_JMS puts the coefficient *)
Definition fk_target (k : string) : option string :=
  match dget fk_jms k with Some t => Some t | None =>
  match dget fk_jms_conj k with Some t => Some t | None =>
  if String.eqb k "AVLL_2231" then Some "VeeLL_1223" else if String.eqb k "AVRR_2231" then Some "VeeRR_1223"
  else Some ("egamma_" ++ rev_str (substring 4 (String.length k - 4) k))%string end end.
Definition digit (c : ascii) : bool := Ascii.eqb c "1" || Ascii.eqb c "2" || Ascii.eqb c "3".
(** The flavour index from which the mass is taken is 1, 2 or 3. *)
Definition fk_index (k : string) : bool :=
  match String.get 1 (rev_str (substring 4 (String.length k - 4) k)) with Some a => digit a | None => false end.
(** In the JMS basis *)
Definition egammas : list string := map ega pairs.
Definition jms_some : list string := vals_fk ++ ["VeeLL_1223"; "VeeRR_1223"] ++ map ega off.
Definition jms_known (k : string) : Prop := hd "" (split_us k) = "egamma" -> In k egammas.
Definition jms_target (k : string) : option string :=
  match dget (revert fk_jms) k with Some t => Some t | None =>
  match dget (revert fk_jms_conj) k with Some t => Some t | None =>
  if String.eqb k "VeeLL_1223" then Some "AVLL_2231" else if String.eqb k "VeeRR_1223" then Some "AVRR_2231"
  else if String.eqb (hd "" (split_us k)) "egamma" then
    match split_us k with
    | _ :: q :: _ => match String.get 0 (rev_str q), String.get 1 (rev_str q) with
                     | Some a, Some b => if Ascii.eqb a b then None else Some ("K2R_" ++ rev_str q)%string
                     | _, _ => None end
    | _ => None end
  else None end end.
Definition jms_index (k : string) : bool :=
  match split_us k with
  | _ :: q :: _ => match String.get 0 (rev_str q), String.get 1 (rev_str q) with Some a, Some b => digit a && digit b | _, _ => false end
  | _ => false end.
Definition small_check : bool :=
  nodups (map ega pairs) && nodups (map k2r pairs) && nodups (map k2r pairs ++ ["AVLL_2231"; "AVRR_2231"]) &&
  forallb (fun ij => match dget fk_jms (k2r ij), dget fk_jms_conj (k2r ij) with None, None => true | _, _ => false end) pairs &&
  forallb fk_index (map k2r pairs) && forallb jms_index egammas &&
  forallb (fun ij => String.eqb ("egamma_" ++ rev_str (substring 4 (String.length (k2r ij) - 4) (k2r ij))) (ega ij) &&
                     String.eqb (substring 0 4 (k2r ij)) "K2R_" && String.eqb (hd "" (split_us (ega ij))) "egamma" &&
                     match split_us (ega ij) with _ :: q :: _ => String.eqb ("K2R_" ++ rev_str q) (k2r ij) | _ => false end) pairs.
Lemma small_checked : small_check = true.
Proof. vm_cast_no_check (eq_refl true). Qed.
#[local] Opaque fk_jms fk_jms_conj revert.
Lemma small : NoDup (map ega pairs) /\ NoDup (map k2r pairs ++ ["AVLL_2231"; "AVRR_2231"]) /\
  (forall ij, In ij pairs -> dget fk_jms (k2r ij) = None /\ dget fk_jms_conj (k2r ij) = None) /\
  (forall ij, In ij pairs -> fk_index (k2r ij) = true) /\ (forall k, In k egammas -> jms_index k = true) /\
  (forall ij, In ij pairs -> ("egamma_" ++ rev_str (substring 4 (String.length (k2r ij) - 4) (k2r ij)))%string = ega ij /\ substring 0 4 (k2r ij) = "K2R_" /\
     hd "" (split_us (ega ij)) = "egamma" /\ exists a q r, split_us (ega ij) = a :: q :: r /\ ("K2R_" ++ rev_str q)%string = k2r ij).
Proof.
  pose proof small_checked as S. unfold small_check in S. rewrite !andb_true_iff in S. destruct S as ((((((A & _) & C) & D) & E) & F) & G).
  split; [apply nodups_ok, A|]. split; [apply nodups_ok, C|]. rewrite forallb_forall in D, E, F, G. split; [|split; [|split; [exact F|]]].
  - intros ij I. specialize (D ij I). destruct (dget fk_jms (k2r ij)); [discriminate|]. destruct (dget fk_jms_conj (k2r ij)); [discriminate|auto].
  - intros ij I. apply E. apply in_map, I.
  - intros ij I. specialize (G ij I). rewrite !andb_true_iff in G. destruct G as (((G1 & G2) & G3) & G4). apply String.eqb_eq in G1, G2, G3.
    split; [exact G1|]. split; [exact G2|]. split; [exact G3|]. destruct (split_us (ega ij)) as [|a [|q r]]; try discriminate. exists a, q, r. split; [reflexivity|apply String.eqb_eq, G4].
Qed.
Lemma k2r_not ij : In ij pairs -> k2r ij <> "AVLL_2231" /\ k2r ij <> "AVRR_2231".
Proof.
  intros I. destruct small as (_ & N & _). split; intros E; apply (nodup_app_d _ _ (k2r ij) N (in_map k2r _ _ I)); rewrite E; cbn; auto.
Qed.
Lemma av_not : (dget fk_jms "AVLL_2231" = None /\ dget fk_jms_conj "AVLL_2231" = None) /\ (dget fk_jms "AVRR_2231" = None /\ dget fk_jms_conj "AVRR_2231" = None).
Proof. split; apply not_key; apply in_or_app; left; cbn; auto. Qed.
Lemma vee_not : (dget (revert fk_jms) "VeeLL_1223" = None /\ dget (revert fk_jms_conj) "VeeLL_1223" = None) /\ (dget (revert fk_jms) "VeeRR_1223" = None /\ dget (revert fk_jms_conj) "VeeRR_1223" = None).
Proof. split; apply not_val; left; cbn; auto. Qed.
(** The cases of FlavorKit_to_JMS *)
Inductive fk_case : string -> string -> Prop :=
| FkPlain k t : dget fk_jms k = Some t -> fk_case k t
| FkConj k t : dget fk_jms k = None -> dget fk_jms_conj k = Some t -> fk_case k t
| FkL : fk_case "AVLL_2231" "VeeLL_1223"
| FkR : fk_case "AVRR_2231" "VeeRR_1223"
| FkD ij : In ij pairs -> fk_case (k2r ij) (ega ij).
Lemma fk_cases k : In k fk_known -> exists t, fk_case k t.
Proof.
  intros I. unfold fk_known, keys_fk in I. rewrite !in_app_iff in I. cbn [In] in I. destruct I as [[I|I]|[I|I]].
  - destruct (dget fk_jms k) as [t|] eqn:E; [exists t; constructor; exact E|]. apply dget_None in E. contradiction.
  - destruct (dget fk_jms k) as [t|] eqn:E; [exists t; constructor; exact E|]. destruct (dget fk_jms_conj k) as [t|] eqn:E'; [exists t; constructor 2; auto|]. apply dget_None in E'. contradiction.
  - destruct I as [<-|[<-|[]]]; eexists; [constructor 3|constructor 4].
  - apply in_map_iff in I. destruct I as (ij & <- & I). exists (ega ij). constructor 5; exact I.
Qed.
Lemma fk_case_target k t : fk_case k t -> fk_target k = Some t.
Proof.
  destruct av_not as [[A1 A2] [B1 B2]]. unfold fk_target. intros [k' t' E|k' t' E E'| | |ij I].
  - rewrite E. reflexivity.
  - rewrite E, E'. reflexivity.
  - rewrite A1, A2. reflexivity.
  - rewrite B1, B2. reflexivity.
  - destruct small as (_ & _ & N & _ & _ & P). destruct (N ij I) as [-> ->]. destruct (k2r_not ij I) as [X Y]. apply String.eqb_neq in X, Y. rewrite X, Y.
    rewrite (proj1 (P ij I)). reflexivity.
Qed.
Lemma ega_inj ij ij' : In ij pairs -> In ij' pairs -> ega ij = ega ij' -> ij = ij'.
Proof. intros I I'. destruct small as (N & _). revert ij ij' I I'. generalize dependent pairs. intros l. induction l as [|x r IH]; [contradiction|].
  cbn [map]. intros N. inversion N as [|? ? N1 N2]; subst. intros a b [<-|I] [<-|J] E; auto; exfalso; apply N1; [rewrite E|rewrite <- E]; apply in_map; assumption. Qed.
Lemma ega_vals ij : In ij pairs -> ~ In (ega ij) (vals_fk ++ ["VeeLL_1223"; "VeeRR_1223"]).
Proof. intros I J. destruct tables3 as (_ & _ & E). apply (E _ J). destruct small as (_ & _ & _ & _ & _ & P). apply (P ij I). Qed.
Lemma fk_case_inj k k' t : fk_case k t -> fk_case k' t -> k = k'.
Proof.
  destruct vals_wf as (V1 & V2 & VD). destruct tables3 as (_ & N & _).
  assert (forall x, In x (map snd fk_jms) -> In x vals_fk) as I1 by (intros x I; apply in_or_app; auto).
  assert (forall x, In x (map snd fk_jms_conj) -> In x vals_fk) as I2 by (intros x I; apply in_or_app; auto).
  assert (forall x, In x vals_fk -> x <> "VeeLL_1223" /\ x <> "VeeRR_1223") as NV by (intros x I; split; intros ->; apply (nodup_app_d _ _ _ N I); cbn; auto).
  assert (forall ij, In ij pairs -> ega ij <> "VeeLL_1223" /\ ega ij <> "VeeRR_1223" /\ ~ In (ega ij) vals_fk) as NE.
  { intros ij I. pose proof (ega_vals ij I) as X. rewrite in_app_iff in X. repeat split; [intros E|intros E|]; try (apply X; right; rewrite E; cbn; auto). tauto. }
  intros [k1 t1 E|k1 t1 E0 E| | |ij I] H; inversion H as [k2 t2 E2|k2 t2 E02 E2| | |ij2 Ij]; subst.
  all: repeat match goal with
    | X : dget fk_jms _ = Some _ |- _ => pose proof (in_vals _ _ X); pose proof (revert_get _ V1 _ _ X); clear X
    | X : dget fk_jms_conj _ = Some _ |- _ => pose proof (in_vals_c _ _ X); pose proof (revert_get _ V2 _ _ X); clear X end.
  all: try congruence; try (exfalso; eauto using VD; fail).
  all: try (exfalso; match goal with X : In ?x (map snd _) |- _ => destruct (NV x); eauto; fail end).
  all: try (exfalso; match goal with X : In ?ij pairs |- _ => destruct (NE ij X) as (? & ? & ?); eauto; try congruence; fail end).
  all: try reflexivity.
  match goal with A : dig (snd _) = _, B : dig (fst _) = _ |- _ => clear - A B end.
  destruct ij as [i j], ij2 as [i2 j2]. cbn [fst snd] in *. destruct i, i2; try discriminate; destruct j, j2; try discriminate; reflexivity.
Qed.
Lemma mass_digit p m c : digit c = true -> mass p m c = mass p None c.
Proof. unfold digit, mass. destruct (Ascii.eqb c "1"), (Ascii.eqb c "2"), (Ascii.eqb c "3"); auto; discriminate. Qed.
Section Fk.
Variable p : params.
Definition fk_step (m : option R) (k : string) (v : C) : res (option R * option (string * C)) := rmap (fun x => (fst x, Some (snd x))) (fk_one p m k v).
Lemma fk_loop l : forall m acc, fk_run p m acc l = loop fk_step m acc l.
Proof.
  induction l as [|[k v] r IH]; intros m acc; [reflexivity|]. cbn [fk_run loop]. unfold fk_step at 1. destruct (fk_one p m k v) as [[m' [k' v']]|e]; cbn [bind rmap fst snd]; auto.
Qed.
Lemma fk_one_case k t : fk_case k t -> forall m v, rmap snd (fk_step m k v) = rmap snd (fk_step None k v) /\ forall x, fk_one p m k v = Ok x -> fst (snd x) = t.
Proof.
  destruct av_not as [[A1 A2] [B1 B2]]. unfold fk_step, fk_one. intros [k' t' E|k' t' E E'| | |ij I] m v.
  - rewrite E. split; [reflexivity|]. intros x [= <-]. reflexivity.
  - rewrite E, E'. split; [reflexivity|]. intros x [= <-]. reflexivity.
  - rewrite A1, A2. cbn [String.eqb Ascii.eqb Bool.eqb]. split; [reflexivity|]. intros x [= <-]. reflexivity.
  - rewrite B1, B2. cbn [String.eqb Ascii.eqb Bool.eqb]. split; [reflexivity|]. intros x [= <-]. reflexivity.
  - destruct small as (_ & _ & N & D & _ & P). destruct (N ij I) as [-> ->]. destruct (k2r_not ij I) as [X Y]. apply String.eqb_neq in X, Y. rewrite X, Y.
    destruct (P ij I) as (P1 & P2 & _). rewrite P2. cbn [String.eqb Ascii.eqb Bool.eqb]. specialize (D ij I). unfold fk_index in D. unfold at_.
    destruct (String.get 1 (rev_str (substring 4 (String.length (k2r ij) - 4) (k2r ij)))) as [c|]; [|discriminate]. destruct (charge_e p) as [e|e]; cbn [bind rmap].
    + rewrite (mass_digit p m c D). destruct (bound (mass p None c)) as [r|r]; cbn [bind rmap fst snd]; (split; [reflexivity|]); [|discriminate]. intros x [= <-]. exact P1.
    + split; [reflexivity|discriminate].
Qed.
Lemma fk_perm (c c1 o : dict string C) : (forall k, In k (dkeys c) -> In k fk_known) -> wf c -> Permutation c c1 -> fk_run p None [] c = Ok o ->
  wf o /\ (exists o1, fk_run p None [] c1 = Ok o1 /\ wf o1 /\ forall k, coeff o1 k = coeff o k) /\ forall t, In t (dkeys o) -> jms_known t.
Proof.
  intros K W P E. rewrite fk_loop in E.
  destruct (loop_perm fk_step (fun k => In k fk_known) fk_target) with (l := c) (l1 := c1) (o := o) as (A & (o1 & B & B1) & D); auto.
  - intros m k v I. destruct (fk_cases k I) as (t & T). exact (proj1 (fk_one_case k t T m v)).
  - intros k v x I. destruct (fk_cases k I) as (t & T). rewrite (fk_case_target k t T). unfold turn, fk_step. cbn [fst snd].
    destruct (fk_one p None k v) as [y|] eqn:Y; [|discriminate]. cbn. intros [= <-]. cbn. rewrite (proj2 (fk_one_case k t T None v) y Y). reflexivity.
  - intros k k' t I I' T T'. destruct (fk_cases k I) as (u & U). destruct (fk_cases k' I') as (u' & U'). rewrite (fk_case_target k u U) in T. rewrite (fk_case_target k' u' U') in T'.
    injection T as ->. injection T' as ->. exact (fk_case_inj k k' t U U').
  - split; [exact A|]. split; [exists o1; rewrite fk_loop; auto|]. intros t I Q. destruct (D t I) as (k & Ik & T). destruct (fk_cases k (K k Ik)) as (u & U).
    rewrite (fk_case_target k u U) in T. injection T as ->. destruct tables3 as (_ & _ & E3). destruct U as [k t X|k t X X'| | |ij X].
    + exfalso. apply (E3 t); [|exact Q]. apply in_or_app. left. apply in_or_app. left. eapply in_vals; exact X.
    + exfalso. apply (E3 t); [|exact Q]. apply in_or_app. left. apply in_or_app. right. eapply in_vals_c; exact X'.
    + discriminate Q.
    + discriminate Q.
    + apply in_map. exact X.
Qed.

(** The cases of JMS_to_FlavorKit *)
Inductive jms_case : string -> option string -> Prop :=
| JPlain k t : dget fk_jms t = Some k -> jms_case k (Some t)
| JConj k t : dget fk_jms_conj t = Some k -> jms_case k (Some t)
| JL : jms_case "VeeLL_1223" (Some "AVLL_2231")
| JR : jms_case "VeeRR_1223" (Some "AVRR_2231")
| JD ij : In ij pairs -> fst ij <> snd ij -> jms_case (ega ij) (Some (k2r ij))
| JDiag ij : In ij pairs -> fst ij = snd ij -> jms_case (ega ij) None
| JNone k : dget (revert fk_jms) k = None -> dget (revert fk_jms_conj) k = None -> k <> "VeeLL_1223" -> k <> "VeeRR_1223" -> hd "" (split_us k) <> "egamma" -> jms_case k None.
Lemma jms_cases k : jms_known k -> exists t, jms_case k t.
Proof.
  destruct vals_wf as (V1 & V2 & _). destruct keys_wf as (W1 & W2 & _). intros K.
  destruct (dget (revert fk_jms) k) as [t|] eqn:E1; [exists (Some t); constructor; apply revert_back; auto|].
  destruct (dget (revert fk_jms_conj) k) as [t|] eqn:E2; [exists (Some t); constructor 2; apply revert_back; auto|].
  destruct (string_dec k "VeeLL_1223") as [->|N1]; [eexists; constructor 3|]. destruct (string_dec k "VeeRR_1223") as [->|N2]; [eexists; constructor 4|].
  destruct (string_dec (hd "" (split_us k)) "egamma") as [Q|Q]; [|exists None; constructor 7; auto].
  specialize (K Q). apply in_map_iff in K. destruct K as (ij & <- & I). destruct (fl_eqb (fst ij) (snd ij)) eqn:Q'; [apply fl_eqb_eq in Q'; exists None; constructor 6; auto|].
  exists (Some (k2r ij)). constructor 5; auto. intros X. apply fl_eqb_eq in X. congruence.
Qed.
Lemma ega_not ij : dget (revert fk_jms) (ega ij) = None /\ dget (revert fk_jms_conj) (ega ij) = None.
Proof. apply not_val. right. destruct ij as [[] []]; reflexivity. Qed.
Lemma jms_one_case k t : jms_case k t -> forall m v, rmap snd (jms_one p m k v) = rmap snd (jms_one p None k v) /\ forall x, jms_one p m k v = Ok x -> option_map fst (snd x) = t.
Proof.
  destruct vals_wf as (V1 & V2 & VD). destruct vee_not as [[A1 A2] [B1 B2]]. unfold jms_one. intros [k' t' E|k' t' E| | |ij I N|ij I N|k' E1 E2 N1 N2 N3] m v.
  - rewrite (revert_get _ V1 _ _ E). split; [reflexivity|]. intros x [= <-]. reflexivity.
  - assert (dget (revert fk_jms) k' = None) as ->. { apply dget_None. intros J. apply (revert_key _ V1) in J. exact (VD _ J (in_vals_c _ _ E)). }
    rewrite (revert_get _ V2 _ _ E). split; [reflexivity|]. intros x [= <-]. reflexivity.
  - rewrite A1, A2. cbn [String.eqb Ascii.eqb Bool.eqb]. split; [reflexivity|]. intros x [= <-]. reflexivity.
  - rewrite B1, B2. cbn [String.eqb Ascii.eqb Bool.eqb]. split; [reflexivity|]. intros x [= <-]. reflexivity.
  - destruct (ega_not ij) as [-> ->]. clear I.
    assert (exists a b q, split_us (ega ij) = ["egamma"; q] /\ at_ (rev_str q) 0 = Ok a /\ at_ (rev_str q) 1 = Ok b /\ Ascii.eqb a b = false /\ digit a = true /\ ("K2R_" ++ rev_str q)%string = k2r ij /\ String.eqb (ega ij) "VeeLL_1223" = false /\ String.eqb (ega ij) "VeeRR_1223" = false) as (a & b & q & -> & G0 & G1 & X & D & Q & -> & ->).
    { destruct ij as [[] []]; cbn [fst snd] in N; try congruence; do 3 eexists; repeat split; reflexivity. }
    cbn [hd]. rewrite String.eqb_refl. cbn [bind]. rewrite G0, G1. cbn [bind]. rewrite X, (mass_digit p m a D). destruct (charge_e p) as [e|]; [|split; [reflexivity|discriminate]]. cbn [bind].
    destruct (bound (mass p None a)) as [r|]; [|split; [reflexivity|discriminate]]. cbn [bind]. destruct (fdiv 2 e) as [y|]; [|split; [reflexivity|discriminate]]. cbn [bind].
    destruct (fdiv y r) as [z|]; [|split; [reflexivity|discriminate]]. cbn [bind rmap snd]. split; [reflexivity|]. intros x [= <-]. cbn. f_equal. exact Q.
  - destruct (ega_not ij) as [-> ->]. clear I.
    assert (exists a q, split_us (ega ij) = ["egamma"; q] /\ at_ (rev_str q) 0 = Ok a /\ at_ (rev_str q) 1 = Ok a /\ String.eqb (ega ij) "VeeLL_1223" = false /\ String.eqb (ega ij) "VeeRR_1223" = false) as (a & q & -> & G0 & G1 & -> & ->).
    { destruct ij as [[] []]; cbn [fst snd] in N; try congruence; do 2 eexists; repeat split; reflexivity. }
    cbn [hd]. rewrite String.eqb_refl. cbn [bind]. rewrite G0, G1. cbn [bind]. rewrite Ascii.eqb_refl. split; [reflexivity|]. intros x [= <-]. reflexivity.
  - rewrite E1, E2. apply String.eqb_neq in N1, N2, N3. rewrite N1, N2, N3. split; [reflexivity|]. intros x [= <-]. reflexivity.
Qed.
Lemma jms_case_known k t : jms_case k (Some t) -> In t fk_known.
Proof.
  intros H. unfold fk_known, keys_fk. rewrite !in_app_iff. inversion H as [k1 t1 E|k1 t1 E| | |ij I N| |]; subst.
  - left. left. eapply dget_Some_key; exact E.
  - left. right. eapply dget_Some_key; exact E.
  - right. left. cbn. auto.
  - right. left. cbn. auto.
  - right. right. apply in_map, I.
Qed.
Lemma jms_case_fk k t : jms_case k (Some t) -> fk_case t k.
Proof.
  destruct keys_wf as (W1 & W2 & KD). intros H. inversion H as [k1 t1 E|k1 t1 E| | |ij I N| |]; subst.
  - constructor 1. exact E.
  - constructor 2; [|exact E]. apply dget_None. intros J. exact (KD t J (dget_Some_key _ _ _ E)).
  - constructor 3.
  - constructor 4.
  - constructor 5. exact I.
Qed.
Lemma jms_case_inj k k' t : jms_case k (Some t) -> jms_case k' (Some t) -> k = k'.
Proof. intros H H'. apply jms_case_fk, fk_case_target in H, H'. rewrite H in H'. injection H' as <-. reflexivity. Qed.
Lemma jms_case_target k t : jms_case k t -> jms_target k = t.
Proof.
  destruct vals_wf as (V1 & V2 & VD). destruct vee_not as [[A1 A2] [B1 B2]]. unfold jms_target. intros [k' t' E|k' t' E| | |ij I N|ij I N|k' E1 E2 N1 N2 N3].
  - rewrite (revert_get _ V1 _ _ E). reflexivity.
  - assert (dget (revert fk_jms) k' = None) as ->. { apply dget_None. intros J. apply (revert_key _ V1) in J. exact (VD _ J (in_vals_c _ _ E)). }
    rewrite (revert_get _ V2 _ _ E). reflexivity.
  - rewrite A1, A2. reflexivity.
  - rewrite B1, B2. reflexivity.
  - destruct (ega_not ij) as [-> ->]. destruct ij as [[] []]; cbn [fst snd] in N; try congruence; reflexivity.
  - destruct (ega_not ij) as [-> ->]. destruct ij as [[] []]; cbn [fst snd] in N; try congruence; reflexivity.
  - rewrite E1, E2. apply String.eqb_neq in N1, N2, N3. rewrite N1, N2, N3. reflexivity.
Qed.
Lemma jms_perm (c c1 o : dict string C) : (forall k, In k (dkeys c) -> jms_known k) -> wf c -> Permutation c c1 -> jms_run p None [] c = Ok o ->
  wf o /\ (exists o1, jms_run p None [] c1 = Ok o1 /\ wf o1 /\ forall k, coeff o1 k = coeff o k) /\ forall t, In t (dkeys o) -> In t fk_known.
Proof.
  intros K W P E. assert (forall l m acc, jms_run p m acc l = loop (jms_one p) m acc l) as L by (induction l as [|[k v] r IH]; intros m acc; cbn [jms_run loop]; [reflexivity|]; destruct (jms_one p m k v); cbn [bind]; auto).
  rewrite L in E.
  destruct (loop_perm (jms_one p) jms_known jms_target) with (l := c) (l1 := c1) (o := o) as (A & (o1 & B & B1) & D); auto.
  - intros m k v I. destruct (jms_cases k I) as (t & T). exact (proj1 (jms_one_case k t T m v)).
  - intros k v x I. destruct (jms_cases k I) as (t & T). rewrite (jms_case_target k t T). unfold turn. cbn [fst snd].
    destruct (jms_one p None k v) as [y|] eqn:Y; [|discriminate]. cbn. intros [= <-]. rewrite (proj2 (jms_one_case k t T None v) y Y). reflexivity.
  - intros k k' t I I' T T'. destruct (jms_cases k I) as (u & U). destruct (jms_cases k' I') as (u' & U'). rewrite (jms_case_target k u U) in T. rewrite (jms_case_target k' u' U') in T'.
    subst u u'. exact (jms_case_inj k k' t U U').
  - split; [exact A|]. split; [exists o1; rewrite L; auto|]. intros t I. destruct (D t I) as (k & Ik & T). destruct (jms_cases k (K k Ik)) as (u & U).
    rewrite (jms_case_target k u U) in T. subst u. exact (jms_case_known k t U).
Qed.
End Fk.
