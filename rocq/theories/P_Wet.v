(** C29-C38: the translators between bases of the WET (translators/wet.py).
    [J], [B], [F] are the listings of the JMS, Bern and flavio basis; [ckm_tree], [qcd_mb], [qcd_ms], [qcd_as] the CKM matrix
    and the running parameters, which come from other packages. *)
From Coq Require Import String List Bool Arith ZArith Reals Lra.
From Verif Require Import PyBase PyDict Cplx Tensor Wc Params Smeft SmeftNames WetExpr Wet WetJms WetNf WetSpec WetChk WetThm WetVals WetList WetAux WetNames.
Import ListNotations.
Open Scope string_scope.
Open Scope list_scope.
Open Scope nat_scope.
#[local] Opaque Ceq_dec.
#[local] Opaque JMS_to_Bern_prog JMS_to_flavio_prog JMS_to_FormFlavor_prog JMS_to_EOS_prog Bern_to_flavio_prog flavio_to_Bern_prog.
#[local] Opaque nJB nJF nJX nJE nBF nFB bern_read flavio_read bern flavio eos formflavor J0 mirror_names.

(** C29 *)
Theorem C29_total : forall J c, listing_ok J -> exists a, JMS_to_array J c = Ok a.
Proof. intros J c L. destruct (jms_array J c L) as (a & E & _). eauto. Qed.
Theorem C29_listed : forall J c a op x, listing_ok J -> JMS_to_array J c = Ok a -> no_us op = true -> In (cname op x) J -> x <> [] ->
  forall v, jval c (cname op x) = Some v -> exists r, dget a op = Some r /\ n_rank r = length x /\ n_ent r x = Some v.
Proof. exact array_listed. Qed.
Theorem C29_completed : forall J c a op x y, listing_ok J -> JMS_to_array J (nums c) = Ok a ->
  no_us op = true -> In (cname op y) J -> length x = length y -> x <> [] ->
  exists r, dget a op = Some r /\
  ((exists m, In m (members op x) /\ In (cname op (fst m)) J /\ n_ent r x = Some (cj (snd m) (num_of c (cname op (fst m))))) \/
   (n_ent r x = None /\ forall m, In m (members op x) -> ~ In (cname op (fst m)) J)).
Proof. exact array_completed. Qed.
Theorem C29_ignored : forall J c c', (forall k, In k J -> dget c k = dget c' k) -> JMS_to_array J c = JMS_to_array J c'.
Proof. exact array_ignored. Qed.
(** A basis that lists an operator to be symmetrised with another number of indices, or a name both with and without
    indices, cannot be used. *)
Theorem C29_wrong_rank : forall op x c, In op (herm_ops ++ cur_ops ++ both_ops) -> no_us op = true -> x <> [] -> length x <> 4 ->
  JMS_to_array [cname op x] c = Err ValueError.
Proof. intros op x c I. apply bad_rank. apply mem_In. exact I. Qed.
Theorem C29_scalar_and_indexed : forall op x c, no_us op = true -> x <> [] -> JMS_to_array [op; cname op x] c = Err TypeError.
Proof. exact scalar_indexed. Qed.
Example C29_shape_case : In "VddLL" (herm_ops ++ cur_ops ++ both_ops) /\ no_us "VddLL" = true /\ JMS_to_array ["VddLL_12"] [] = Err ValueError /\
  JMS_to_array ["G"; "G_12"] [] = Err TypeError.
Proof.
  split; [apply (proj1 (mem_In _ "VddLL" (herm_ops ++ cur_ops ++ both_ops))); reflexivity|]. split; [reflexivity|]. split; reflexivity.
Qed.
Example C29_case : listing_ok J0 /\ In "VddLL_1213" J0 /\ ~ In "VddLL_1312" J0 /\
  exists a r, JMS_to_array J0 (nums [("VddLL_1213", Ci)]) = Ok a /\ dget a "VddLL" = Some r /\ n_ent r [F1; F2; F1; F3] = Some Ci /\
              n_ent r [F1; F3; F1; F2] = Some Ci /\ n_ent r [F2; F1; F3; F1] = Some (Cconj Ci).
Proof. exact c29_case. Qed.

(** What it takes for a translator to be additive, homogeneous ... : [T] maps coefficients to coefficients. *)
Definition translator := dict string cval -> res (dict string cval).
Definition additive (T : translator) : Prop := forall c1 c2 c3, sum_of c1 c2 c3 ->
  exists o1 o2 o3, T (nums c1) = Ok (nums o1) /\ T (nums c2) = Ok (nums o2) /\ T (nums c3) = Ok (nums o3) /\ sum_of o1 o2 o3.
Definition homogeneous (Z : C -> Prop) (T : translator) : Prop := forall z c1 c2, Z z -> multiple z c1 c2 ->
  exists o1 o2, T (nums c1) = Ok (nums o1) /\ T (nums c2) = Ok (nums o2) /\ multiple z o1 o2.
Definition zero_to_zero (T : translator) : Prop := forall c, (forall k, num_of c k = C0) ->
  exists o, T (nums c) = Ok (nums o) /\ forall k, num_of o k = C0.
Definition real (z : C) : Prop := exists r, z = RtoC r.
Definition any (z : C) : Prop := True.
(** [T] yields the coefficients [q], in this order. *)
Definition yields (T : translator) (q : coefs) : Prop :=
  (forall c, exists o, T (nums c) = Ok (nums o) /\ dkeys o = names q) /\ NoDup (names q).
(** Output [k] depends only on JMS coefficients of the same flavour change [r]. *)
Definition flavour_kept (T : translator) (k : string) (r : content) : Prop :=
  (forall c1 c2, (forall op x, jms_ix op x = true -> related r (jms_content op x) = true -> num_of c1 (cname op x) = num_of c2 (cname op x)) ->
     exists o1 o2, T (nums c1) = Ok (nums o1) /\ T (nums c2) = Ok (nums o2) /\ num_of o1 k = num_of o2 k) /\
  (forall c, (forall op x, jms_ix op x = true -> related r (jms_content op x) = true -> num_of c (cname op x) = C0) ->
     exists o, T (nums c) = Ok (nums o) /\ num_of o k = C0).

Section Wet.
Variable ckm_tree : R -> R -> R -> R -> mat.
Variable qcd_mb qcd_ms : R -> R -> R -> res R.
Variable qcd_as : R -> R -> res R.
Variables (J B F : list string) (scale : R) (input : option params) (p : params).
(** Of every orbit of the operators in use a member is listed. *)
Hypothesis J_good : good J.
Hypothesis B_ok : NoDup B /\ incl bern_read B.
Hypothesis F_ok : NoDup F /\ incl flavio_read F.
(** The parameters at the scale are [p]: GF and m_b and the CKM elements are not zero, the couplings positive. *)
Hypothesis p_ok : okp ckm_tree qcd_mb qcd_ms qcd_as scale input p.
Definition to_Bern : translator := fun c => JMS_to_Bern ckm_tree qcd_mb qcd_ms qcd_as J c scale input.
Definition to_flavio : translator := fun c => JMS_to_flavio ckm_tree qcd_mb qcd_ms qcd_as J c scale input.
Definition to_EOS : translator := fun c => JMS_to_EOS ckm_tree qcd_mb qcd_ms qcd_as J c scale input.
Definition to_formflavor : translator := fun c => JMS_to_FormFlavor ckm_tree qcd_mb qcd_ms qcd_as J c scale input.
Definition Bern_flavio : translator := fun c => Bern_to_flavio ckm_tree qcd_mb qcd_ms qcd_as B c scale input.
Definition flavio_Bern : translator := fun c => flavio_to_Bern ckm_tree qcd_mb qcd_ms qcd_as F c scale input.

Let jb c := run_JB ckm_tree qcd_mb qcd_ms qcd_as J scale input p J_good p_ok c.
Let jf c := run_JF ckm_tree qcd_mb qcd_ms qcd_as J scale input p J_good p_ok c.
Let jx c := run_JX ckm_tree qcd_mb qcd_ms qcd_as J scale input p J_good p_ok c.
Let je c l := run_JE ckm_tree qcd_mb qcd_ms qcd_as J scale input p J_good p_ok c l.
Let bf c := run_BF ckm_tree qcd_mb qcd_ms qcd_as scale input p p_ok B c (proj1 B_ok) (proj2 B_ok).
Let fb c := run_FB ckm_tree qcd_mb qcd_ms qcd_as scale input p p_ok F c (proj1 F_ok) (proj2 F_ok).

(** C30 *)
Theorem C30_direct_equals_detour : forall c, exists b f,
  to_Bern (nums c) = Ok b /\ to_flavio (nums c) = Ok f /\ Bern_flavio b = Ok f.
Proof.
  intros c. exists (nums (outJ ckm_tree nJB J c p)), (nums (outJ ckm_tree nJF J c p)). split; [apply jb|]. split; [apply jf|].
  rewrite <- (via_bern ckm_tree qcd_mb qcd_ms qcd_as J scale input p J_good p_ok B c (proj1 B_ok) (proj2 B_ok)). apply bf.
Qed.

(** C31 *)
Theorem C31_restored : forall c, exists b f, flavio_Bern (nums c) = Ok b /\ Bern_flavio b = Ok (nums f) /\
  (forall k, In k (names flavio) -> ~ In k (names flavio_sdnu) -> num_of f k = num_of c k) /\
  (forall k, In k (names flavio_sdnu) -> num_of f k = C0).
Proof.
  intros c. exists (nums (outG ckm_tree nFB F c p)), (outG ckm_tree nBF B (outG ckm_tree nFB F c p) p). split; [apply fb|]. split; [apply bf|].
  destruct (flavio_bern_flavio ckm_tree qcd_mb qcd_ms qcd_as scale input p p_ok F B c (proj1 F_ok) (proj1 B_ok) (proj2 F_ok) (proj2 B_ok)) as [X Y].
  split; [|exact Y]. intros k K N. apply X. exact (in_flavio_read k K N).
Qed.
Theorem C31_sd_neutrinos_refuted : exists c k b f, In k (names flavio) /\
  flavio_Bern (nums c) = Ok b /\ Bern_flavio b = Ok (nums f) /\ num_of f k <> num_of c k.
Proof.
  destruct (C31_restored [("CL_sdnuenue", C1)]) as (b & f & A & D & _ & E).
  exists [("CL_sdnuenue", C1)], "CL_sdnuenue", b, f. split; [exact sdnu_flavio|]. split; [exact A|]. split; [exact D|].
  rewrite (E _ sdnu_in). exact (not_eq_sym C1_neq_0).
Qed.

(** C32 *)
Theorem C32_restored : forall c, exists f b, Bern_flavio (nums c) = Ok f /\ flavio_Bern f = Ok (nums b) /\
  dkeys b = names bern_of_flavio /\
  (forall k, In k (names bern_of_flavio) -> ~ In k (map fst tensors) -> num_of b k = num_of c k) /\
  (forall k k', In (k, k') tensors -> num_of b k = Cmul (RtoC 16) (num_of c k')).
Proof.
  intros c. exists (nums (outG ckm_tree nBF B c p)), (outG ckm_tree nFB F (outG ckm_tree nBF B c p) p). split; [apply bf|]. split; [apply fb|].
  split; [apply keys_FB|].
  destruct (bern_flavio_bern ckm_tree qcd_mb qcd_ms qcd_as scale input p p_ok F B c (proj1 F_ok) (proj1 B_ok) (proj2 F_ok) (proj2 B_ok)) as [X Y].
  split; [|exact Y]. intros k K N. apply X. exact (in_bern_kept k K N).
Qed.
Theorem C32_tensor_refuted : exists c k f b, In k (names bern_of_flavio) /\
  Bern_flavio (nums c) = Ok f /\ flavio_Bern f = Ok (nums b) /\ num_of b k <> num_of c k.
Proof.
  destruct (C32_restored [("7sbee", C1)]) as (f & b & A & D & _ & _ & E).
  exists [("7sbee", C1)], "7sbee", f, b. split; [exact tensor_bern|]. split; [exact A|]. split; [exact D|].
  rewrite (E _ _ tensor_in). change (num_of [("7sbee", C1)] "7sbee") with C1. change (num_of [("7sbee", C1)] "9sbee") with C0.
  replace (Cmul (RtoC 16) C0) with C0 by ring. exact (not_eq_sym C1_neq_0).
Qed.

(** C33 *)
Theorem C33_JMS_additive : additive to_Bern /\ additive to_flavio /\ additive to_formflavor /\ (light p -> additive to_EOS).
Proof.
  assert (forall T n, jdata n = true -> (forall c, T (nums c) = Ok (nums (outJ ckm_tree n J c p))) -> additive T) as H.
  { intros T n D E c1 c2 c3 S. exists (outJ ckm_tree n J c1 p), (outJ ckm_tree n J c2 p), (outJ ckm_tree n J c3 p).
    repeat (split; [apply E|]). exact (lin_add ckm_tree J p J_good n c1 c2 c3 D S). }
  exact (conj (H to_Bern nJB nJB_data jb) (conj (H to_flavio nJF nJF_data jf) (conj (H to_formflavor nJX nJX_data jx)
    (fun M => H to_EOS nJE nJE_data (fun c => je c M))))).
Qed.
Theorem C33_JMS_real : homogeneous real to_Bern /\ homogeneous real to_flavio /\ homogeneous real to_formflavor /\
  (light p -> homogeneous real to_EOS).
Proof.
  assert (forall T n, jdata n = true -> (forall c, T (nums c) = Ok (nums (outJ ckm_tree n J c p))) -> homogeneous real T) as H.
  { intros T n D E z c1 c2 [r ->] S. exists (outJ ckm_tree n J c1 p), (outJ ckm_tree n J c2 p).
    repeat (split; [apply E|]). exact (lin_scale ckm_tree J p J_good n r c1 c2 D S). }
  exact (conj (H to_Bern nJB nJB_data jb) (conj (H to_flavio nJF nJF_data jf) (conj (H to_formflavor nJX nJX_data jx)
    (fun M => H to_EOS nJE nJE_data (fun c => je c M))))).
Qed.
Theorem C33_Bern_flavio_complex : additive Bern_flavio /\ additive flavio_Bern /\ homogeneous any Bern_flavio /\ homogeneous any flavio_Bern.
Proof.
  split; [|split; [|split]].
  - intros c1 c2 c3 S. exists (outG ckm_tree nBF B c1 p), (outG ckm_tree nBF B c2 p), (outG ckm_tree nBF B c3 p). do 3 (split; [apply bf|]).
    exact (ling_add ckm_tree p _ _ _ _ _ _ (proj1 B_ok) (proj2 B_ok) nBF_data S).
  - intros c1 c2 c3 S. exists (outG ckm_tree nFB F c1 p), (outG ckm_tree nFB F c2 p), (outG ckm_tree nFB F c3 p). do 3 (split; [apply fb|]).
    exact (ling_add ckm_tree p _ _ _ _ _ _ (proj1 F_ok) (proj2 F_ok) nFB_data S).
  - intros z c1 c2 _ S. exists (outG ckm_tree nBF B c1 p), (outG ckm_tree nBF B c2 p). do 2 (split; [apply bf|]).
    exact (ling_scale ckm_tree p _ _ _ _ _ _ (proj1 B_ok) (proj2 B_ok) nBF_data S).
  - intros z c1 c2 _ S. exists (outG ckm_tree nFB F c1 p), (outG ckm_tree nFB F c2 p). do 2 (split; [apply fb|]).
    exact (ling_scale ckm_tree p _ _ _ _ _ _ (proj1 F_ok) (proj2 F_ok) nFB_data S).
Qed.
Theorem C33_zero : zero_to_zero to_Bern /\ zero_to_zero to_flavio /\ zero_to_zero to_formflavor /\ (light p -> zero_to_zero to_EOS) /\
  zero_to_zero Bern_flavio /\ zero_to_zero flavio_Bern.
Proof.
  assert (forall T, homogeneous real T -> zero_to_zero T) as H.
  { intros T L c Z. destruct (L (RtoC 0) c c) as (o1 & o2 & A & D & M).
    - exists 0%R. reflexivity.
    - intros k. rewrite Z. change (RtoC 0) with C0. ring.
    - exists o2. split; auto. intros k. rewrite M. change (RtoC 0) with C0. ring. }
  destruct C33_JMS_real as (A & D & E & G). destruct C33_Bern_flavio_complex as (_ & _ & I & K).
  split; [exact (H _ A)|]. split; [exact (H _ D)|]. split; [exact (H _ E)|]. split; [exact (fun M => H _ (G M))|].
  split; apply H; intros z c1 c2 _; [exact (I z c1 c2 Logic.I)|exact (K z c1 c2 Logic.I)].
Qed.

(** C34 *)
Theorem C34_JMS_flavour :
  (forall k r, In (k, r) bern -> flavour_kept to_Bern k r) /\
  (forall k r, In (k, r) flavio -> flavour_kept to_flavio k r) /\
  (forall k r, In (k, r) formflavor -> ~ In k (names ff_nu) -> flavour_kept to_formflavor k r) /\
  (light p -> forall k r, In (k, r) eos -> flavour_kept to_EOS k r).
Proof.
  assert (forall q n T, jdata n = true -> NoDup (names q) -> jflav q n = true -> (forall c, T (nums c) = Ok (nums (outJ ckm_tree n J c p))) ->
    forall k r, In (k, r) q -> flavour_kept T k r) as H.
  { intros q n T D N Q E k r I. apply (In_dget _ _ _ N) in I.
    assert (forall c1 c2, (forall op x, jms_ix op x = true -> related r (jms_content op x) = true -> num_of c1 (cname op x) = num_of c2 (cname op x)) ->
       num_of (outJ ckm_tree n J c1 p) k = num_of (outJ ckm_tree n J c2 p) k) as X.
    { intros c1 c2 S. exact (jflav_dep ckm_tree J p J_good q n c1 c2 k r Q I S). }
    split.
    - intros c1 c2 S. do 2 eexists. split; [apply E|]. split; [apply E|]. auto.
    - intros c S. eexists. split; [apply E|]. rewrite (X c []) by (intros; rewrite S by assumption; reflexivity).
      exact (out_nil ckm_tree J p J_good n k D). }
  split; [exact (H bern nJB to_Bern nJB_data bern_nodup nJB_flav jb)|].
  split; [exact (H flavio nJF to_flavio nJF_data flavio_nodup nJF_flav jf)|].
  split; [|exact (fun M => H eos nJE to_EOS nJE_data eos_nodup nJE_flav (fun c => je c M))].
  intros k r I N. split.
  - intros c1 c2 S. exists (outJ ckm_tree nJX J c1 p), (outJ ckm_tree nJX J c2 p). split; [apply jx|]. split; [apply jx|].
    exact (ff_dep ckm_tree J p J_good c1 c2 k r I N S).
  - intros c S. exists (outJ ckm_tree nJX J c p). split; [apply jx|].
    rewrite (ff_dep ckm_tree J p J_good c [] k r I N) by (intros; rewrite S by assumption; reflexivity).
    exact (out_nil ckm_tree J p J_good nJX k nJX_data).
Qed.
Theorem C34_Bern_flavio_flavour :
  (forall k r c1 c2, In (k, r) flavio -> (forall j s, In (j, s) bern -> same_charge r s = true -> num_of c1 j = num_of c2 j) ->
     exists o1 o2, Bern_flavio (nums c1) = Ok (nums o1) /\ Bern_flavio (nums c2) = Ok (nums o2) /\ num_of o1 k = num_of o2 k) /\
  (forall k r c1 c2, In (k, r) bern_of_flavio -> (forall j s, In (j, s) flavio -> same_charge r s = true -> num_of c1 j = num_of c2 j) ->
     exists o1 o2, flavio_Bern (nums c1) = Ok (nums o1) /\ flavio_Bern (nums c2) = Ok (nums o2) /\ num_of o1 k = num_of o2 k).
Proof.
  split; intros k r c1 c2 I S; do 2 eexists.
  - split; [apply bf|]. split; [apply bf|].
    exact (gflav_dep ckm_tree p bern flavio bern_read nBF B c1 c2 k r (proj1 B_ok) (proj2 B_ok) nBF_data nBF_flav (In_dget _ _ _ flavio_nodup I) S).
  - split; [apply fb|]. split; [apply fb|].
    exact (gflav_dep ckm_tree p flavio bern_of_flavio flavio_read nFB F c1 c2 k r (proj1 F_ok) (proj2 F_ok) nFB_data nFB_flav (In_dget _ _ _ bernf_nodup I) S).
Qed.

(** C35 *)
Theorem C35_same_names : yields to_Bern bern /\ yields to_flavio flavio /\ yields to_formflavor formflavor /\ (light p -> yields to_EOS eos) /\
  yields Bern_flavio flavio /\ yields flavio_Bern bern_of_flavio.
Proof.
  split; [split; [|exact bern_nodup]|]; [intros c; exists (outJ ckm_tree nJB J c p); split; [apply jb|apply keys_JB]|].
  split; [split; [|exact flavio_nodup]|]; [intros c; exists (outJ ckm_tree nJF J c p); split; [apply jf|apply keys_JF]|].
  split; [split; [|exact ff_nodup]|]; [intros c; exists (outJ ckm_tree nJX J c p); split; [apply jx|apply keys_JX]|].
  split; [intros M; split; [|exact eos_nodup]; intros c; exists (outJ ckm_tree nJE J c p); split; [apply je; exact M|apply keys_JE]|].
  split; [split; [|exact flavio_nodup]|split; [|exact bernf_nodup]].
  - intros c. exists (outG ckm_tree nBF B c p). split; [apply bf|apply keys_BF].
  - intros c. exists (outG ckm_tree nFB F c p). split; [apply fb|apply keys_FB].
Qed.

(** C36 *)
Theorem C36_dipoles : forall c k op x b a, In (k, (op, x, b), a) ff_dip ->
  exists o, to_formflavor (nums c) = Ok (nums o) /\ num_of o k = Cdiv (cj b (value J c op x)) (RtoC (sqrt (4 * PI * param p a))).
Proof.
  intros c k op x b a I. eexists. split; [apply jx|]. exact (ff_dipole ckm_tree qcd_mb qcd_ms qcd_as J scale input p J_good p_ok c k op x b a I).
Qed.
Theorem C36_neutrinos : forall c k op, In (k, op) [("CVLL_sdnn", "VnudLL"); ("CVRL_sdnn", "VnudLR")] ->
  exists o, to_formflavor (nums c) = Ok (nums o) /\ num_of o k =
  Cdiv (Cadd (Cadd (value J c op [F1; F1; F3; F1]) (value J c op [F2; F2; F3; F1])) (value J c op [F3; F3; F3; F1])) (RtoC 3).
Proof.
  intros c k op I. eexists. split; [apply jx|]. exact (ff_neutrinos ckm_tree qcd_mb qcd_ms qcd_as J scale input p J_good p_ok c k op I).
Qed.

(** C37 *)
Theorem C37_equal : forall c k k', light p -> In (k, k') eos_same -> exists e f,
  to_EOS (nums c) = Ok (nums e) /\ to_flavio (nums c) = Ok (nums f) /\ num_of e k = num_of f k'.
Proof.
  intros c k k' M I. do 2 eexists. split; [apply je; exact M|]. split; [apply jf|].
  exact (eos_equal ckm_tree qcd_mb qcd_ms qcd_as J scale input p J_good p_ok c k k' M I).
Qed.
Theorem C37_scalars : forall c k k', light p -> In (k, k') eos_mb -> exists e f,
  to_EOS (nums c) = Ok (nums e) /\ to_flavio (nums c) = Ok (nums f) /\ num_of e k = Cmul (RtoC (param p "m_b")) (num_of f k').
Proof.
  intros c k k' M I. do 2 eexists. split; [apply je; exact M|]. split; [apply jf|].
  exact (eos_times_mb ckm_tree qcd_mb qcd_ms qcd_as J scale input p J_good p_ok c k k' M I).
Qed.
Theorem C37_dipoles : forall c n prime, light p -> In n ["7"; "8"] -> exists e f,
  to_EOS (nums c) = Ok (nums e) /\ to_flavio (nums c) = Ok (nums f) /\
  Cmul (RtoC (param p "m_b")) (num_of f (flavio_name n prime)) =
  Cadd (Cmul (RtoC (param p "m_b")) (num_of e (eos_name n prime))) (Cmul (RtoC (param p "m_s")) (num_of e (eos_name n (negb prime)))).
Proof.
  intros c n b M I. do 2 eexists. split; [apply je; exact M|]. split; [apply jf|]. destruct (dips_all n b I) as (op & a & D).
  exact (eos_dipoles ckm_tree qcd_mb qcd_ms qcd_as J scale input p J_good p_ok c n op a b M D).
Qed.

(** C38 *)
Theorem C38_parity : forall c1 c2, irredundant J ->
  (forall op x op' x' b, jms_ix op x = true -> mirror op x = Some (op', x', b) -> value J c2 op x = cj b (value J c1 op' x')) ->
  forall k k', In (k, k') mirror_names -> exists o1 o2,
  to_Bern (nums c1) = Ok (nums o1) /\ to_Bern (nums c2) = Ok (nums o2) /\ num_of o2 k = num_of o1 k'.
Proof.
  intros c1 c2 IR H k k' I. do 2 eexists. split; [apply jb|]. split; [apply jb|].
  apply (parity ckm_tree qcd_mb qcd_ms qcd_as J scale input p J_good p_ok c1 c2 IR); [|exact I].
  intros op x op' x' b X M. rewrite !(value_arr ckm_tree J p J_good); auto. exact (mirror_fits op x op' x' b X M).
Qed.
End Wet.

(** The hypotheses can be met: [J0] lists one member of each orbit, the flavio and Bern bases are what the translators yield. *)
Example wet_case : good J0 /\ irredundant J0 /\ okp ckm1 mb4 ms1 as1 5 None p1 /\ light p1 /\
  (NoDup (names bern) /\ incl bern_read (names bern)) /\ (NoDup (names flavio) /\ incl flavio_read (names flavio)).
Proof.
  exact (conj J0_good (conj J0_irredundant (conj p1_ok (conj p1_light (conj (conj bern_nodup bern_read_in) (conj flavio_nodup flavio_read_in)))))).
Qed.
Example C30_case := fun c => C30_direct_equals_detour ckm1 mb4 ms1 as1 J0 (names bern) 5 None p1 J0_good (conj bern_nodup bern_read_in) p1_ok c.
Example C33_case : sum_of [("a", C1)] [("b", C1)] [("b", C1); ("a", C1)] /\ multiple Ci [("a", C1)] [("a", Ci)].
Proof. exact (conj sum_case multiple_case). Qed.
Example C34_case : In ("CVLL_bsbs", [(Qd F2, true); (Qd F3, false); (Qd F2, true); (Qd F3, false)]) flavio /\
  related [(Qd F2, true); (Qd F3, false); (Qd F2, true); (Qd F3, false)] (jms_content "VddLL" [F2; F3; F2; F3]) = true /\
  related [(Qd F2, true); (Qd F3, false); (Qd F2, true); (Qd F3, false)] (jms_content "VddLL" [F2; F3; F1; F3]) = false.
Proof. exact flav_case. Qed.

(** C34 fails for CVLL_sdnn of formflavor: it does not change b, but depends on coefficients that do. *)
Theorem C34_formflavor_refuted : forall ckm_tree qcd_mb qcd_ms qcd_as scale input p, okp ckm_tree qcd_mb qcd_ms qcd_as scale input p ->
  exists c o r, In ("CVLL_sdnn", r) formflavor /\
  (forall op x, jms_ix op x = true -> related r (jms_content op x) = true -> num_of c (cname op x) = C0) /\
  JMS_to_FormFlavor ckm_tree qcd_mb qcd_ms qcd_as J0 (nums c) scale input = Ok (nums o) /\ num_of o "CVLL_sdnn" = C1.
Proof.
  intros V f g h scale input p P. destruct (C36_neutrinos V f g h J0 scale input p J0_good P nu_bd "CVLL_sdnn" "VnudLL") as (o & E & H).
  { left. reflexivity. }
  exists nu_bd, o, (dd ds). split; [exact nn_in|]. split; [exact nu_bd_related|]. split; [exact E|].
  rewrite H, !nu_bd_value. exact three_thirds.
Qed.
(** C36: so CVLL_sdnn is not the average of the s-d coefficients. *)
Theorem C36_average_refuted : forall ckm_tree qcd_mb qcd_ms qcd_as scale input p, okp ckm_tree qcd_mb qcd_ms qcd_as scale input p ->
  exists c o, JMS_to_FormFlavor ckm_tree qcd_mb qcd_ms qcd_as J0 (nums c) scale input = Ok (nums o) /\
  num_of o "CVLL_sdnn" <> Cdiv (Cadd (Cadd (value J0 c "VnudLL" [F1; F1; F1; F2]) (value J0 c "VnudLL" [F2; F2; F1; F2])) (value J0 c "VnudLL" [F3; F3; F1; F2])) (RtoC 3) /\
  num_of o "CVLL_sdnn" <> Cdiv (Cadd (Cadd (value J0 c "VnudLL" [F1; F1; F2; F1]) (value J0 c "VnudLL" [F2; F2; F2; F1])) (value J0 c "VnudLL" [F3; F3; F2; F1])) (RtoC 3).
Proof.
  intros V f g h scale input p P. destruct (C36_neutrinos V f g h J0 scale input p J0_good P nu_bd "CVLL_sdnn" "VnudLL") as (o & E & H).
  { left. reflexivity. }
  exists nu_bd, o. split; [exact E|]. rewrite H, !nu_bd_value, three_thirds, !nu_bd_sd, !nu_bd_ds. split; exact not_third.
Qed.
(** C36: CAL_em is not normalised to the electric charge. *)
Theorem C36_charge_refuted : exists c o, JMS_to_FormFlavor ckm1 mb4 ms1 as1 J0 (nums c) 5 None = Ok (nums o) /\
  num_of o "CAR_em" = C0 /\ num_of o "CAL_em" <> Cdiv (Cconj (value J0 c "egamma" [F2; F1])) (RtoC (sqrt (4 * PI * param p1 "alpha_e"))).
Proof.
  exists [("egamma_21", C1)].
  destruct (C36_dipoles ckm1 mb4 ms1 as1 J0 5 None p1 J0_good p1_ok [("egamma_21", C1)] "CAL_em" "egamma" [F2; F1] true "alpha_s" cal_in) as (o & E & H).
  destruct (C36_dipoles ckm1 mb4 ms1 as1 J0 5 None p1 J0_good p1_ok [("egamma_21", C1)] "CAR_em" "egamma" [F1; F2] false "alpha_e" car_in) as (o' & E' & H').
  assert (o' = o) as -> by (unfold to_formflavor in E, E'; rewrite E in E'; injection E' as E'; apply nums_inj; symmetry; exact E').
  exists o. split; [exact E|]. split.
  - rewrite H', eg_value12. exact (zero_div _).
  - rewrite H, eg_value. exact alpha_differ.
Qed.
Example C37_case : In ("b->smumu::c9", "C9_bsmumu") eos_same /\ In ("b->smumu::cS'", "CSp_bsmumu") eos_mb /\ light p1.
Proof. exact eos_case. Qed.
Example C38_case : forall ckm_tree qcd_mb qcd_ms qcd_as scale input p, okp ckm_tree qcd_mb qcd_ms qcd_as scale input p ->
  exists o1 o2, JMS_to_Bern ckm_tree qcd_mb qcd_ms qcd_as J0 (nums [("VddLL_2323", C1)]) scale input = Ok (nums o1) /\
    JMS_to_Bern ckm_tree qcd_mb qcd_ms qcd_as J0 (nums [("VddRR_2323", C1)]) scale input = Ok (nums o2) /\ num_of o2 "1psbsb" = num_of o1 "1sbsb".
Proof.
  intros V f g h scale input p P. exact (C38_parity V f g h J0 scale input p J0_good P left1 right1 J0_irredundant mirror1 "1psbsb" "1sbsb" mirror1_in).
Qed.
Print Assumptions C29_total.
Print Assumptions C29_listed.
Print Assumptions C29_completed.
Print Assumptions C29_wrong_rank.
Print Assumptions C29_scalar_and_indexed.
Print Assumptions C29_ignored.
Print Assumptions C30_direct_equals_detour.
Print Assumptions C31_restored.
Print Assumptions C31_sd_neutrinos_refuted.
Print Assumptions C32_restored.
Print Assumptions C32_tensor_refuted.
Print Assumptions C33_JMS_additive.
Print Assumptions C33_JMS_real.
Print Assumptions C33_Bern_flavio_complex.
Print Assumptions C33_zero.
Print Assumptions C34_JMS_flavour.
Print Assumptions C34_Bern_flavio_flavour.
Print Assumptions C35_same_names.
Print Assumptions C36_dipoles.
Print Assumptions C36_neutrinos.
Print Assumptions C37_equal.
Print Assumptions C37_scalars.
Print Assumptions C37_dipoles.
Print Assumptions C38_parity.
Print Assumptions C34_formflavor_refuted.
Print Assumptions C36_average_refuted.
Print Assumptions C36_charge_refuted.
