(** Property theorems C03 - C07: bases, inheritance, cache, validation. *)
From Coq Require Import String List Bool Arith.
From Verif Require Import PyBase PyDict Bases BasesFacts.
Import ListNotations.
Open Scope string_scope.
Open Scope list_scope.
Open Scope nat_scope.

Definition sec (l : list string) : sector := Some (map (fun k => (k, None)) l).

(** C03: a basis file is rejected iff it names a parent that cannot be used. *)
Theorem C03_rejected_iff : forall h e b parent s,
  fst (new_basis (wrun h) e b parent s) = Ok (length (w_objs (wrun h))) /\
    (forall p, parent = Some p -> usable_parent (wrun h) e b p) \/
  fst (new_basis (wrun h) e b parent s) = Err ValueError /\
    (exists p, parent = Some p /\ ~ usable_parent (wrun h) e b p).
Proof. exact new_basis_result. Qed.

(** C03: exact state after a rejected file. *)
Theorem C03_failure_state : forall h e b p s,
  ~ usable_parent (wrun h) e b p ->
  let w := wrun h in
  let w' := snd (new_basis w e b (Some p) s) in
  let id := length (w_objs w) in
  fst (new_basis w e b (Some p) s) = Err ValueError /\
  basis_get w' e b = Ok id /\ sectors_of w' id = None /\ fst (all_wcs w' id) = Err AttributeError /\
  (forall e' b', (e', b') <> (e, b) -> w_bases w <> None -> basis_get w' e' b' = basis_get w e' b') /\
  (forall j, j <> id -> sectors_of w' j = sectors_of w j) /\ w_efts w' = w_efts w.
Proof. exact failed_construction. Qed.

(** C03 finding: a rejected file destroys an existing good basis of that name. *)
Theorem C03_no_side_effect_refuted :
  exists h e b p s id S,
    fst (new_basis (wrun h) e b (Some p) s) = Err ValueError /\
    basis_get (wrun h) e b = Ok id /\ sectors_of (wrun h) id = Some S /\
    exists id', basis_get (snd (new_basis (wrun h) e b (Some p) s)) e b = Ok id' /\ id' <> id /\
      sectors_of (snd (new_basis (wrun h) e b (Some p) s)) id' = None.
Proof.
  exists [NewBasis "WET" "JMS" None [("sb", sec ["C1"])]], "WET", "JMS", "Nope", [], 0, [("sb", sec ["C1"])].
  repeat split; try reflexivity. exists 1. repeat split; try reflexivity. discriminate.
Qed.

Example C03_case :
  let h := [NewBasis "WET" "JMS" None [("sb", sec ["C1"])]] in
  ~ usable_parent (wrun h) "WET" "new" "nope" /\ usable_parent (wrun h) "WET" "new" "JMS".
Proof.
  split.
  - intros (_ & pid & s & E & _). discriminate.
  - split; [discriminate|]. exists 0, [("sb", sec ["C1"])]. split; reflexivity.
Qed.

(** C04: the sectors of every basis object after any history are the merge of
    all mappings loaded into its family; objects of one family share them. *)
Theorem C04_sectors_of_family : forall h id,
  sectors_of (wrun h) id =
    match nth_error (a_root (arun h)) id with
    | Some (Some r) => Some (merge_log (a_log (arun h) r)) | _ => None end /\
  w_bases (wrun h) = a_bases (arun h) /\ length (w_objs (wrun h)) = length (a_root (arun h)).
Proof. exact refinement. Qed.

Theorem C04_family_shares_sectors : forall h i j,
  same_family h i j -> sectors_of (wrun h) i = sectors_of (wrun h) j.
Proof. exact family_shares. Qed.

(** C04: effect of loading a child. *)
Theorem C04_child_effect : forall h e b p s pid S, p <> b -> wf s ->
  basis_get (wrun h) e p = Ok pid -> sectors_of (wrun h) pid = Some S ->
  let w' := wrun (h ++ [NewBasis e b (Some p) s]) in
  let id := length (w_objs (wrun h)) in
  fst (new_basis (wrun h) e b (Some p) s) = Ok id /\
  basis_get w' e b = Ok id /\
  exists M, sectors_of w' id = Some M /\ sectors_of w' pid = Some M /\
    (forall k, dget M k = match dget s k with Some v => Some v | None => dget S k end) /\
    (forall j, j <> id -> same_family h j pid -> sectors_of w' j = Some M) /\
    (forall j, j <> id -> ~ same_family h j pid -> sectors_of w' j = sectors_of (wrun h) j).
Proof. exact child_effect. Qed.

(** C04: nothing but loading a child of the same family changes the sectors of
    an existing basis. *)
Theorem C04_only_children_change_sectors : forall h o id, id < length (w_objs (wrun h)) ->
  sectors_of (wrun (h ++ [o])) id = sectors_of (wrun h) id \/
  exists e b p s pid, o = NewBasis e b (Some p) s /\ p <> b /\
    basis_get (wrun h) e p = Ok pid /\ same_family h id pid.
Proof. exact step_sectors. Qed.
Lemma wf_bases h : wf (reg_or_empty (w_bases (wrun h))).
Proof.
  induction h as [|o h IH] using rev_ind; [constructor|]. rewrite wrun_snoc. set (w := wrun h) in *.
  assert (forall i, w_bases (snd (all_wcs w i)) = w_bases w) as A.
  { intros i. unfold all_wcs. destruct (nth_error (w_objs w) i) as [x|]; [|reflexivity]. destruct (bo_cache x) as [[l|]|]; try reflexivity. destruct (sectors_of w i) as [q|]; [|reflexivity]. destruct (names_of q); reflexivity. }
  destruct o as [e s|e b p s|e b| |e|i|e b k]; cbn [wstep].
  - exact IH.
  - unfold new_basis. destruct p as [p|]; [destruct (bind _ _)|]; apply wf_dset, IH.
  - unfold del_basis. destruct (w_bases w) as [d|] eqn:E; [destruct (dmem d (e, b))|]; cbn [snd w_bases]; rewrite ?E; [apply wf_ddel|..]; exact IH.
  - constructor.
  - unfold del_eft. destruct (w_efts w) as [d|]; [destruct (dmem d e)|]; exact IH.
  - rewrite A. exact IH.
  - unfold wc_validate. destruct (lookup_reg (w_efts w) e); [|exact IH]. destruct (lookup_reg (w_bases w) (e, b)) as [i|]; [|exact IH].
    specialize (A i). destruct (all_wcs w i) as [[l|x] w']; cbn [snd] in *; first [rewrite A; exact IH | destruct (forallb _ _); cbn [snd]; rewrite A; exact IH].
Qed.
(** Deleting a basis takes away its name alone; the bases and their sectors stay; without the name nothing changes. *)
Theorem C04_delete : forall h e b, let w := wrun h in let r := del_basis w e b in
  match w_bases w with
  | None => r = (Err AttributeError, w)
  | Some d => (dget d (e, b) = None -> r = (Err KeyError, w)) /\
      (dget d (e, b) <> None -> fst r = Ok tt /\ w_efts (snd r) = w_efts w /\ w_objs (snd r) = w_objs w /\ w_secs (snd r) = w_secs w /\
         exists d', w_bases (snd r) = Some d' /\ forall k, dget d' k = if keqb (e, b) k then None else dget d k)
  end.
Proof.
  intros h e b w r. unfold r, del_basis. pose proof (wf_bases h) as W. fold w in W. destruct (w_bases w) as [d|]; [|reflexivity]. unfold dmem. split; intros G.
  - rewrite G. reflexivity.
  - destruct (dget d (e, b)); [|destruct (G eq_refl)]. repeat (split; [reflexivity|]). eexists; split; [reflexivity|]. intros k. apply dget_ddel, W.
Qed.

(** C04: the merged mapping equals the parent's iff the child adds nothing. *)
Theorem C04_unchanged_iff : forall S s : sectors, wf S -> wf s ->
  ((forall k, dget (dupdate S s) k = dget S k) <-> (forall k v, dget s k = Some v -> dget S k = Some v)).
Proof. exact dupdate_same_iff. Qed.

(** C04 finding: loading a child changes its parent and its sibling. *)
Theorem C04_isolation_refuted :
  exists h e b p s pid sib,
    basis_get (wrun h) e p = Ok pid /\
    sectors_of (wrun (h ++ [NewBasis e b (Some p) s])) pid <> sectors_of (wrun h) pid /\
    sib <> pid /\
    sectors_of (wrun (h ++ [NewBasis e b (Some p) s])) sib <> sectors_of (wrun h) sib.
Proof.
  exists [NewBasis "WET" "JMS" None [("sb", sec ["C1"])]; NewBasis "WET" "A" (Some "JMS") [("db", sec ["C2"])]],
    "WET", "B", "JMS", [("sb", sec ["C9"])], 0, 1.
  repeat split; try reflexivity; discriminate.
Qed.

Example C04_case :
  let h := [NewBasis "WET" "JMS" None [("sb", sec ["C1"]); ("db", sec ["C3"])]] in
  let s := [("sb", sec ["C2"])] in
  basis_get (wrun h) "WET" "JMS" = Ok 0 /\ wf s /\
  sectors_of (wrun h) 0 = Some [("sb", sec ["C1"]); ("db", sec ["C3"])] /\
  same_family (h ++ [NewBasis "WET" "x" (Some "JMS") s]) 1 0 /\
  sectors_of (wrun (h ++ [NewBasis "WET" "x" (Some "JMS") s])) 0 =
    Some [("sb", sec ["C2"]); ("db", sec ["C3"])].
Proof.
  repeat split; try reflexivity.
  - repeat constructor; simpl; tauto.
  - exists 0. split; reflexivity.
Qed.

(** C05 *)
Theorem C05_first_read : forall h id, Forall (no_read id) h ->
  fst (all_wcs (wrun h) id) = current_names (wrun h) id.
Proof. exact first_read. Qed.

Theorem C05_read_is_stable : forall h1 h2 id l,
  fst (all_wcs (wrun h1) id) = Ok l ->
  fst (all_wcs (wrun (h1 ++ ReadAll id :: h2)) id) = Ok l.
Proof. exact read_stable. Qed.

Theorem C05_agrees_without_later_children : forall h1 h2 id l,
  Forall (no_read id) h1 -> Forall no_child h2 ->
  fst (all_wcs (wrun h1) id) = Ok l ->
  let w := wrun (h1 ++ ReadAll id :: h2) in
  fst (all_wcs w id) = Ok l /\ current_names w id = Ok l.
Proof. exact read_agrees. Qed.

(** C05 finding: stale listing after a child was loaded. *)
Theorem C05_agreement_refuted :
  exists h id l l', fst (all_wcs (wrun h) id) = Ok l /\ current_names (wrun h) id = Ok l' /\ l <> l'.
Proof.
  exists [NewBasis "WET" "JMS" None [("sb", sec ["C1"])]; ReadAll 0;
          NewBasis "WET" "x" (Some "JMS") [("db", sec ["C2"])]], 0, ["C1"], ["C1"; "C2"].
  repeat split; try reflexivity. discriminate.
Qed.

Example C05_case :
  let h := [NewBasis "WET" "JMS" None [("sb", sec ["C1"; "C2"]); ("db", sec ["C3"])]] in
  Forall (no_read 0) h /\ fst (all_wcs (wrun h) 0) = Ok ["C1"; "C2"; "C3"].
Proof. repeat split; repeat constructor. Qed.

(** C06: what [Basis.validate] accepts. *)
Theorem C06_accepts_iff : forall tex h id,
  basis_validate tex (wrun h) id = Ok tt <->
  exists o known s l, nth_error (w_objs (wrun h)) id = Some o /\
    lookup_reg (w_efts (wrun h)) (bo_eft o) = Ok known /\
    sectors_of (wrun h) id = Some s /\ incl (dkeys s) known /\
    names_of s = Ok l /\ NoDup l /\ tex (alltex s) = Ok true.
Proof. exact basis_validate_iff. Qed.

(** C06: which exception, in which order of checks.  A null sector and a
    half-built basis give AttributeError instead of ValueError (finding). *)
Theorem C06_rejects : forall tex h id o,
  nth_error (w_objs (wrun h)) id = Some o ->
  (forall x, lookup_reg (w_efts (wrun h)) (bo_eft o) = Err x -> basis_validate tex (wrun h) id = Err ValueError) /\
  (forall known, lookup_reg (w_efts (wrun h)) (bo_eft o) = Ok known ->
     (sectors_of (wrun h) id = None -> basis_validate tex (wrun h) id = Err AttributeError) /\
     (forall s, sectors_of (wrun h) id = Some s ->
        (~ incl (dkeys s) known -> basis_validate tex (wrun h) id = Err ValueError) /\
        (incl (dkeys s) known ->
           (~ no_null_sector s -> basis_validate tex (wrun h) id = Err AttributeError) /\
           (forall l, names_of s = Ok l ->
              (~ NoDup l -> basis_validate tex (wrun h) id = Err ValueError) /\
              (NoDup l -> basis_validate tex (wrun h) id =
                 match tex (alltex s) with
                 | Ok true => Ok tt | Ok false => Err ValueError | Err x => Err x end))))).
Proof. exact basis_validate_cases. Qed.

Example C06_case :
  let w := wrun [NewEFT "WET" ["sb"; "db"]; NewBasis "WET" "JMS" None [("sb", sec ["C1"; "C2"]); ("db", sec ["C3"])];
                 NewBasis "WET" "bad" None [("sb", sec ["C1"]); ("db", sec ["C1"])];
                 NewBasis "WET" "bad2" None [("xx", sec ["C1"])];
                 NewBasis "WET" "bad3" None [("sb", None)]] in
  let tex := fun _ => Ok true in
  basis_validate tex w 0 = Ok tt /\ basis_validate tex w 1 = Err ValueError /\
  basis_validate tex w 2 = Err ValueError /\ basis_validate tex w 3 = Err AttributeError.
Proof. repeat split. Qed.

(** C07 *)
Theorem C07_accepts_iff : forall w e b keys,
  fst (wc_validate w e b keys) = Ok tt <->
  exists known id l, lookup_reg (w_efts w) e = Ok known /\ basis_get w e b = Ok id /\
    fst (all_wcs w id) = Ok l /\ incl keys l.
Proof. exact wc_validate_iff. Qed.

Theorem C07_errors : forall w e b keys,
  (forall x, lookup_reg (w_efts w) e = Err x -> fst (wc_validate w e b keys) = Err ValueError) /\
  (forall k x, lookup_reg (w_efts w) e = Ok k -> basis_get w e b = Err x ->
     fst (wc_validate w e b keys) = Err ValueError) /\
  (forall k id l, lookup_reg (w_efts w) e = Ok k -> basis_get w e b = Ok id ->
     fst (all_wcs w id) = Ok l -> ~ incl keys l -> fst (wc_validate w e b keys) = Err AssertionError).
Proof. exact wc_validate_errors. Qed.

(** C07 finding: because of the stale listing a coefficient that the basis
    does define can be rejected. *)
Theorem C07_defined_coefficient_accepted_refuted :
  exists h e b k id l, basis_get (wrun h) e b = Ok id /\ current_names (wrun h) id = Ok l /\ In k l /\
    fst (wc_validate (wrun h) e b [k]) = Err AssertionError.
Proof.
  exists [NewEFT "WET" ["sb"; "db"]; NewBasis "WET" "JMS" None [("sb", sec ["C1"])];
          Validate "WET" "JMS" ["C1"];
          NewBasis "WET" "x" (Some "JMS") [("db", sec ["C2"])]], "WET", "JMS", "C2", 0, ["C1"; "C2"].
  repeat split; try reflexivity. simpl; auto.
Qed.

Example C07_case :
  let w := wrun [NewEFT "WET" ["sb"]; NewBasis "WET" "JMS" None [("sb", sec ["C1"; "C2"])]] in
  fst (wc_validate w "WET" "JMS" ["C2"]) = Ok tt /\
  fst (wc_validate w "WET" "JMS" ["C2"; "C9"]) = Err AssertionError /\
  fst (wc_validate w "WET" "EOS" []) = Err ValueError /\
  fst (wc_validate winit "WET" "EOS" []) = Err ValueError.
Proof. repeat split. Qed.

Print Assumptions C03_rejected_iff.
Print Assumptions C03_failure_state.
Print Assumptions C03_no_side_effect_refuted.
Print Assumptions C04_sectors_of_family.
Print Assumptions C04_family_shares_sectors.
Print Assumptions C04_child_effect.
Print Assumptions C04_only_children_change_sectors.
Print Assumptions C04_delete.
Print Assumptions C04_unchanged_iff.
Print Assumptions C04_isolation_refuted.
Print Assumptions C05_first_read.
Print Assumptions C05_read_is_stable.
Print Assumptions C05_agrees_without_later_children.
Print Assumptions C05_agreement_refuted.
Print Assumptions C06_accepts_iff.
Print Assumptions C06_rejects.
Print Assumptions C07_accepts_iff.
Print Assumptions C07_errors.
Print Assumptions C07_defined_coefficient_accepted_refuted.
