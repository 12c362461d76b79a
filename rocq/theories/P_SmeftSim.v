(** C44-C46: the SMEFTsim parameter cards (converters/smeftsim.py). *)
From Coq Require Import String List Bool Arith NArith Reals Lra.
From Verif Require Import PyBase PyDict Cplx Tensor SmeftSyntax SmeftTab Smeft SmeftNames SmeftSpec Dump SmeftSimSyntax SmeftSimTab SmeftSim.
Import ListNotations.
Open Scope string_scope.
Open Scope list_scope.

(** The coefficients all equal to 1. *)
Definition ones (set : string) : dict string C := dict_of (map (fun n => (n, C1)) (needed set)).
Lemma ones_complete set : complete set (ones set).
Proof.
  intros n I E. apply dget_None in E. apply E. unfold ones, dict_of. apply In_dkeys_dupdate. right.
  rewrite map_map. apply in_map_iff. exists n. auto.
Qed.

(** C44 *)
Theorem C44_labels : forall d set L scheme c b x, model_set set -> make_card d set L scheme = Ok c -> card_row c b x ->
  row_correct d L b x \/ (set = "A" /\ scheme = "mw" /\ b = "FRBlock" /\ x = mw_row).
Proof. exact card_correct. Qed.
Theorem C44_numbers : forall d set L scheme c b xs, model_set set -> make_card d set L scheme = Ok c -> dget c b = Some xs ->
  numbers b (map row_number xs).
Proof. exact card_numbers. Qed.
Theorem C44_once : forall set, model_set set ->
  NoDup (kinds set false) /\ NoDup (kinds set true) /\ NoDup (map (fun r => lower (r_label r)) (rows set)).
Proof. intros set M. repeat split; [apply kinds_NoDup|apply kinds_NoDup|apply labels_NoDup]; exact M. Qed.
(** Nothing of SMEFTsim's operators is missing: each entry is in the card, itself
    or its complex conjugate. *)
Theorem C44_nothing_missing : forall set op s x, model_set set -> op_shape op = Some s -> mem op WC_keys = true ->
  mem op not_in_smeftsim = false -> In x (idxs s) ->
  exists y, In (sname op y) (needed set) /\
    ((forall a, fits s a -> index_symmetry op a -> entry a y = entry a x) \/
     (forall a, fits s a -> index_symmetry op a -> entry a y = Cconj (entry a x))).
Proof. exact card_covers. Qed.
Theorem C44_phase : forall z, z = ((Cabs z * cos (angle z))%R, (Cabs z * sin (angle z))%R).
Proof. exact polar. Qed.
Example C44_case : exists c, make_card (ones "A") "A" 1000 "mw" = Ok c /\ dkeys c = blocksA.
Proof.
  assert (model_set "A") as M by (left; reflexivity).
  destruct (proj2 (proj2 (make_card_error_iff (ones "A") "A" 1000 "mw" M)) (ones_complete "A")) as [c H].
  exists c. split; auto. exact (make_card_blocks _ "A" _ _ _ M H).
Qed.

(** C45 *)
Theorem C45_determines : forall set d d' L scheme c, model_set set -> L <> 0%R ->
  make_card d set L scheme = Ok c -> make_card d' set L scheme = Ok c ->
  forall n, In n (needed set) -> ~ In n (sign_lost set) -> dget d n = dget d' n.
Proof. exact card_determines. Qed.
Theorem C45_sign_lost : forall set d d' L scheme, model_set set ->
  (forall n, In n (needed set) -> ~ In n (sign_lost set) -> dget d n = dget d' n) ->
  (forall n, In n (sign_lost set) -> match dget d n, dget d' n with Some w, Some w' => Cabs w = Cabs w' | None, None => True | _, _ => False end) ->
  make_card d set L scheme = make_card d' set L scheme.
Proof. exact card_sign_lost. Qed.
Theorem C45_sign_refuted : forall set L scheme, model_set set -> exists d d' c,
  make_card d set L scheme = Ok c /\ make_card d' set L scheme = Ok c /\
  dget d "phil1_11" = Some C1 /\ dget d' "phil1_11" = Some (RtoC (-1)).
Proof.
  intros set L scheme M.
  destruct (proj2 (proj2 (make_card_error_iff (ones set) set L scheme M)) (ones_complete set)) as [c H].
  exists (ones set), (dset (ones set) "phil1_11" (RtoC (-1))), c. split; auto.
  assert (In "phil1_11" (sign_lost set)) as S by (destruct M as [-> | ->]; vm_compute; auto).
  assert (dget (ones set) "phil1_11" = Some C1) as G by (destruct M as [-> | ->]; vm_compute; reflexivity).
  rewrite <- (card_sign_lost set (ones set) (dset (ones set) "phil1_11" (RtoC (-1))) L scheme M).
  - repeat split; auto. rewrite dget_dset_eq. reflexivity.
  - intros n I N. rewrite dget_dset_neq; auto. intros <-. contradiction.
  - intros n I. destruct (string_dec "phil1_11" n) as [<-|N].
    + rewrite G, dget_dset_eq. unfold Cabs, RtoC, C1. cbn. f_equal. ring.
    + rewrite dget_dset_neq by auto. destruct (dget (ones set) n); auto.
Qed.
Example C45_case : forall d c, make_card d "A" 1000 "alpha" = Ok c -> make_card (ones "A") "A" 1000 "alpha" = Ok c ->
  dget d "phil1_12" = Some C1.
Proof.
  intros d c H H1. rewrite (card_determines "A" d (ones "A") 1000 "alpha" c (or_introl eq_refl) ltac:(lra) H H1 "phil1_12").
  - vm_compute. reflexivity.
  - apply (proj1 (mem_In _ _ _)). vm_compute. reflexivity.
  - intros I. assert (mem "phil1_12" (sign_lost "A") = true) by (apply (proj2 (mem_In _ _ _)); exact I). discriminate.
Qed.

(** C46 *)
Theorem C46_key_error : forall d set L scheme, model_set set ->
  (make_card d set L scheme = Err KeyError <-> missing set d) /\
  ((exists c, make_card d set L scheme = Ok c) <-> complete set d).
Proof. exact make_card_error_iff. Qed.
Theorem C46_blocks : forall d set L scheme c, model_set set -> make_card d set L scheme = Ok c ->
  dkeys c = (if String.eqb set "A" then blocksA else blocksB).
Proof. exact make_card_blocks. Qed.
(** A file holding only its non-zero coefficients, as written by translate, gives
    no card as soon as one coefficient of the card vanishes. *)
Theorem C46_zero_dropped : forall d set L scheme n, model_set set -> wf d -> In n (needed set) -> dget d n = Some C0 ->
  make_card (filter (fun kv => if Ceq_dec (snd kv) C0 then false else true) d) set L scheme = Err KeyError.
Proof.
  intros d set L scheme n M W I E. apply (make_card_error_iff _ set L scheme M). exists n. split; auto.
  rewrite dget_filter, E by auto. cbn [snd]. destruct (Ceq_dec C0 C0) as [_|N]; [reflexivity|]. exfalso. apply N. reflexivity.
Qed.
Example C46_case : missing "B" [("G", C1)] /\ ~ missing "B" (ones "B").
Proof.
  split.
  - exists "uphi_11". split; [apply (proj1 (mem_In _ _ _)); vm_compute; reflexivity|reflexivity].
  - intros (n & I & E). exact (ones_complete "B" n I E).
Qed.

Print Assumptions C44_labels.
Print Assumptions C44_numbers.
Print Assumptions C44_once.
Print Assumptions C44_nothing_missing.
Print Assumptions C44_phase.
Print Assumptions C45_determines.
Print Assumptions C45_sign_lost.
Print Assumptions C45_sign_refuted.
Print Assumptions C46_key_error.
Print Assumptions C46_blocks.
Print Assumptions C46_zero_dropped.
