(** Property theorems C67: importing the package. *)
From Coq Require Import String List Bool Arith Permutation.
From Verif Require Import PyBase PyDict Bases BasesFacts Import.
Import ListNotations.
Open Scope string_scope.
Open Scope list_scope.
Open Scope nat_scope.

(** C67: in whatever order the files are found, the package offers the same EFTs, bases and sectors. *)
Theorem C67_any_order : forall efts mains children efts' mains' children',
  NoDup (map fst efts) -> distinct_names (mains ++ children) -> layout mains children ->
  plain_files (mains ++ children) -> compatible children ->
  Permutation efts efts' -> Permutation mains mains' -> Permutation children children' ->
  exists w w', import_package efts mains children = Ok w /\ import_package efts' mains' children' = Ok w' /\ same_library w w'.
Proof. exact library_order_free. Qed.

(** C67: and WC.validate answers the same. *)
Theorem C67_validation_any_order : forall efts mains children efts' mains' children' w w' e b keys,
  NoDup (map fst efts) -> distinct_names (mains ++ children) -> layout mains children ->
  plain_files (mains ++ children) -> compatible children ->
  Permutation efts efts' -> Permutation mains mains' -> Permutation children children' ->
  import_package efts mains children = Ok w -> import_package efts' mains' children' = Ok w' ->
  fst (wc_validate w e b keys) = fst (wc_validate w' e b keys).
Proof. exact validation_order_free. Qed.

(** C67: what the package then holds. A basis and all its children have the same sectors; each sector
    is the one of the file loaded last. *)
Theorem C67_sectors : forall efts mains children w f g, distinct_names (mains ++ children) -> layout mains children ->
  plain_files (mains ++ children) -> import_package efts mains children = Ok w ->
  In f (mains ++ children) -> In g (mains ++ children) -> base_of f g ->
  exists id S, basis_get w (f_eft f) (f_basis f) = Ok id /\ sectors_of w id = Some S /\
    forall k, dget S k = last_def (filter (belongs g) (mains ++ children)) k.
Proof. exact import_sectors. Qed.

(** C67: the package can be imported, whatever the order in child/, iff every child's parent is in the
    directory above. *)
Theorem C67_always_imports_iff : forall efts mains children,
  distinct_names (mains ++ children) -> (forall f, In f mains -> f_parent f = None) ->
  ((forall c, Permutation children c -> exists w, import_package efts mains c = Ok w) <->
   (forall f p, In f children -> f_parent f = Some p -> exists g, In g mains /\ fname g = (f_eft f, p))).
Proof. exact import_always. Qed.

(** C67: the only exception is ValueError. *)
Theorem C67_only_value_error : forall efts mains children x,
  import_package efts mains children = Err x -> x = ValueError.
Proof. exact import_value_error. Qed.

(** C67: [compatible] is needed: any two children of a basis that disagree on a sector make the
    contents of that basis depend on the order of the files. *)
Theorem C67_conflicting_children : forall efts mains children f f' p k v v',
  distinct_names (mains ++ children) -> layout mains children -> plain_files (mains ++ children) ->
  In f children -> In f' children -> f_eft f = f_eft f' -> f_parent f = Some p -> f_parent f' = Some p ->
  dget (f_sectors f) k = Some v -> dget (f_sectors f') k = Some v' -> v <> v' ->
  exists c1 c2 w1 w2 i1 i2 S1 S2, Permutation children c1 /\ Permutation children c2 /\
    import_package efts mains c1 = Ok w1 /\ import_package efts mains c2 = Ok w2 /\
    basis_get w1 (f_eft f) p = Ok i1 /\ basis_get w2 (f_eft f) p = Ok i2 /\
    sectors_of w1 i1 = Some S1 /\ sectors_of w2 i2 = Some S2 /\ dget S1 k = Some v /\ dget S2 k = Some v'.
Proof. exact conflict. Qed.

Definition file (e b : string) (p : option string) (s : list (string * list string)) : bfile :=
  BFile e b p (map (fun x => (fst x, Some (map (fun k => (k, None)) (snd x)))) s).
Definition jms := file "WET" "JMS" None [("sb", ["C1"; "C2"]); ("db", ["C3"])].
Definition bern := file "WET" "Bern" None [("sb", ["B1"])].
Definition kid := file "WET" "JMS kid" (Some "JMS") [("sb", ["K1"])].
Definition kid' := file "WET" "JMS kid 2" (Some "JMS") [("cu", ["K2"])].
Definition rival := file "WET" "JMS kid 3" (Some "JMS") [("sb", ["K3"])].

(** C67 finding: with one child file installed, the parent basis rejects a coefficient that its own file
    defines, and accepts one that only the child defines. *)
Theorem C67_own_file_refuted : exists efts mains children w f c,
  NoDup (map fst efts) /\ distinct_names (mains ++ children) /\ layout mains children /\
  plain_files (mains ++ children) /\ compatible children /\ import_package efts mains children = Ok w /\
  In f mains /\ names_of (f_sectors f) = Ok c /\ In "C1" c /\ ~ In "K1" c /\
  fst (wc_validate w (f_eft f) (f_basis f) ["C1"]) = Err AssertionError /\
  fst (wc_validate w (f_eft f) (f_basis f) ["K1"]) = Ok tt.
Proof.
  exists [("WET", ["sb"; "db"])], [jms], [kid].
  eexists. exists jms, ["C1"; "C2"; "C3"].
  split; [repeat constructor; simpl; tauto|].
  split; [repeat constructor; simpl; intuition discriminate|].
  split; [split; [intros f [<-|[]]; reflexivity|]; intros f p [<-|[]] [= <-]; exists jms; split; [left|]; reflexivity|].
  split; [repeat constructor; simpl; intuition discriminate|].
  split; [intros f f' p k v v' [<-|[]] [<-|[]] _ _ _; congruence|].
  split; [reflexivity|]. split; [left; reflexivity|]. split; [reflexivity|]. split; [left; reflexivity|].
  split; [simpl; intuition discriminate|]. split; reflexivity.
Qed.

Example C67_case :
  let efts := [("WET", ["sb"; "db"; "cu"]); ("SMEFT", ["dB=dL=0"])] in let mains := [jms; bern] in let children := [kid; kid'] in
  NoDup (map fst efts) /\ distinct_names (mains ++ children) /\ layout mains children /\
  plain_files (mains ++ children) /\ compatible children /\ base_of kid jms /\
  last_def (filter (belongs jms) (mains ++ children)) "sb" = Some (Some [("K1", None)]) /\
  (let! w := import_package efts mains children in let! i := basis_get w "WET" "JMS kid 2" in fst (all_wcs w i)) = Ok ["K1"; "C3"; "K2"] /\
  (let! w := import_package efts (rev mains) (rev children) in let! i := basis_get w "WET" "JMS" in fst (all_wcs w i)) = Ok ["K1"; "C3"; "K2"] /\
  ~ compatible [kid; rival] /\ import_package efts [bern] [kid] = Err ValueError.
Proof.
  cbv zeta.
  split; [repeat constructor; simpl; intuition discriminate|].
  split; [repeat constructor; simpl; intuition discriminate|].
  split.
  { split; [intros f [<-|[<-|[]]]; reflexivity|].
    intros f p [<-|[<-|[]]] [= <-]; exists jms; split; [left| |left|]; reflexivity. }
  split; [repeat constructor; simpl; intuition discriminate|].
  split.
  { intros f f' p k v v' [<-|[<-|[]]] [<-|[<-|[]]] _ _ _ D D'; try congruence;
      apply dget_Some_key in D, D'; simpl in D, D'; destruct D as [<-|[]]; destruct D' as [D'|[]]; discriminate. }
  split; [split; reflexivity|]. split; [reflexivity|].
  split; [vm_compute; reflexivity|]. split; [vm_compute; reflexivity|]. split; [|vm_compute; reflexivity].
  intros C. assert (Some [("K1", None)] = Some [("K3", None)] :> sector) as E; [|discriminate].
  apply (C kid rival "JMS" "sb"); simpl; auto.
Qed.

Print Assumptions C67_any_order.
Print Assumptions C67_validation_any_order.
Print Assumptions C67_sectors.
Print Assumptions C67_always_imports_iff.
Print Assumptions C67_only_value_error.
Print Assumptions C67_conflicting_children.
Print Assumptions C67_own_file_refuted.
