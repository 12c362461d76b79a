(** Property theorems C01 (registry) and C02 (known bases / translators). *)
From Coq Require Import String List Bool Arith Sorted.
From Verif Require Import PyBase PyDict Registry Known.
Import ListNotations.
Open Scope string_scope.
Open Scope list_scope.

(** C01: [Cls[name]] after any history that does not use the base class
    [NamedInstanceClass] itself as a registry.  [live (rev h) c k] scans the
    history backwards for the last operation concerning name [k] of class [c]. *)
Theorem C01_lookup : forall (K I : Type) (HK : Key K) (h : list (rop K I)) c k,
  Forall no_base h ->
  r_get (rrun h) c k =
    match live (rev h) c k with
    | Some i => Ok i
    | None => if touched h c then Err KeyError else Err AttributeError
    end.
Proof. intros K I HK. exact get_spec. Qed.

Theorem C01_delete : forall (K I : Type) (HK : Key K) (h : list (rop K I)) c k,
  Forall no_base h ->
  fst (r_del (rrun h) c k) =
    match live (rev h) c k with
    | Some i => Ok tt
    | None => if touched h c then Err KeyError else Err AttributeError
    end.
Proof. intros K I HK. exact del_spec. Qed.

Theorem C01_enumeration : forall (K I : Type) (HK : Key K) (h : list (rop K I)) c,
  Forall no_base h ->
  (touched h c = false -> r_names (rrun h) c = Err AttributeError) /\
  (touched h c = true -> exists l, r_names (rrun h) c = Ok l /\ NoDup l /\
      (forall k, In k l <-> live (rev h) c k <> None) /\
      StronglySorted (born_before (rev h) c) l).
Proof. intros K I HK. exact names_spec. Qed.

(** Re-creating a live name moves no name. *)
Theorem C01_recreate_keeps_order : forall (K I : Type) (HK : Key K) (rh : list (rop K I)) c k i b,
  birth rh c k = Some b -> forall k', birth (Create c k i :: rh) c k' = birth rh c k'.
Proof. intros K I HK. exact birth_recreate. Qed.

(** Operations on one class are invisible in another one. *)
Theorem C01_classes_independent : forall (K I : Type) (HK : Key K) (h : list (rop K I)) c c' k i k',
  Forall no_base h -> no_base (Create c k i) -> c <> c' ->
  r_get (rrun (h ++ [Create c k i])) c' k' = r_get (rrun h) c' k' /\
  r_get (rrun (h ++ [Del c k])) c' k' = r_get (rrun h) c' k' /\
  r_get (rrun (h ++ [Clear c])) c' k' = r_get (rrun h) c' k'.
Proof. intros K I HK. exact classes_independent. Qed.

(** Finding: using the base class itself makes all subclasses that have no
    registry of their own share one. *)
Theorem C01_base_class_isolation_refuted :
  exists (h : list (rop string nat)) k i,
    r_get (rrun (h ++ [Create (CSub 0) k i])) (CSub 1) k = Ok i /\
    r_get (rrun h) (CSub 1) k = Err KeyError.
Proof. exact base_class_leak. Qed.

Example C01_case :
  let h := [Create (CSub 0) "a" 1; Create (CSub 0) "b" 2; Get (CSub 0) "z"; Create (CSub 0) "a" 3;
            Create (CSub 1) "a" 9; Del (CSub 0) "b"; Create (CSub 0) "b" 4; Create (CSub 0) "c" 5;
            Create (CSub 0) "a" 6] in
  Forall no_base h /\ touched h (CSub 0) = true /\ r_get (rrun h) (CSub 0) "a" = Ok 6 /\
  r_names (rrun h) (CSub 0) = Ok ["a"; "b"; "c"] /\ birth (rev h) (CSub 0) "b" = Some 6.
Proof. repeat split; try reflexivity. repeat constructor. Qed.

(** C02 *)
Theorem C02_known_bases : forall (I : Type) (h : list (rop pyname I)) eft,
  Forall well_shaped h -> touched h cBasis = true ->
  exists l, known_bases (rrun h) eft = Ok l /\ NoDup l /\
    (forall b, In b l <-> live (rev h) cBasis (NTup [eft; b]) <> None) /\
    StronglySorted (fun a b => born_before (rev h) cBasis (NTup [eft; a]) (NTup [eft; b])) l.
Proof. intros I. exact known_bases_spec. Qed.

Theorem C02_known_translators_of_eft : forall (I : Type) (h : list (rop pyname I)) eft,
  Forall well_shaped h -> touched h cTranslator = true ->
  exists l, known_translators_eft (rrun h) eft = Ok l /\ NoDup l /\
    (forall t, In t l <-> live (rev h) cTranslator t <> None /\ exists f g, t = NTup [eft; f; g]) /\
    StronglySorted (born_before (rev h) cTranslator) l.
Proof. intros I. exact known_tr_eft_spec. Qed.

Theorem C02_known_translators_from : forall (I : Type) (h : list (rop pyname I)) eft b,
  Forall well_shaped h -> touched h cTranslator = true ->
  exists l, known_translators_from (rrun h) eft b = Ok l /\ NoDup l /\
    (forall t, In t l <-> live (rev h) cTranslator t <> None /\ exists g, t = NTup [eft; b; g]) /\
    StronglySorted (born_before (rev h) cTranslator) l.
Proof. intros I. exact known_tr_from_spec. Qed.

Theorem C02_known_translators_to : forall (I : Type) (h : list (rop pyname I)) eft b,
  Forall well_shaped h -> touched h cTranslator = true ->
  exists l, known_translators_to (rrun h) eft b = Ok l /\ NoDup l /\
    (forall t, In t l <-> live (rev h) cTranslator t <> None /\ exists f, t = NTup [eft; f; b]) /\
    StronglySorted (born_before (rev h) cTranslator) l.
Proof. intros I. exact known_tr_to_spec. Qed.

(** Before the first basis (translator) exists these properties raise. *)
Theorem C02_untouched : forall (I : Type) (h : list (rop pyname I)) eft,
  Forall well_shaped h ->
  (touched h cBasis = false -> known_bases (rrun h) eft = Err AttributeError) /\
  (touched h cTranslator = false -> known_translators_eft (rrun h) eft = Err AttributeError).
Proof. intros I. exact known_untouched. Qed.

Example C02_case :
  let h := [Create cEFT (NStr "WET") 0; Create cBasis (NTup ["WET"; "flavio"]) 1;
            Create cBasis (NTup ["SMEFT"; "Warsaw"]) 2; Create cBasis (NTup ["WET"; "JMS"]) 3;
            Create cTranslator (NTup ["WET"; "JMS"; "flavio"]) 4;
            Create cTranslator (NTup ["WET"; "flavio"; "Bern"]) 5] in
  Forall well_shaped h /\ touched h cBasis = true /\ touched h cTranslator = true /\
  known_bases (rrun h) "WET" = Ok ["flavio"; "JMS"] /\
  known_translators_from (rrun h) "WET" "JMS" = Ok [NTup ["WET"; "JMS"; "flavio"]] /\
  known_translators_to (rrun h) "WET" "JMS" = Ok [].
Proof. repeat split; try reflexivity. repeat constructor; simpl; eauto 6. Qed.

Print Assumptions C01_lookup.
Print Assumptions C01_delete.
Print Assumptions C01_enumeration.
Print Assumptions C01_recreate_keeps_order.
Print Assumptions C01_classes_independent.
Print Assumptions C01_base_class_isolation_refuted.
Print Assumptions C02_known_bases.
Print Assumptions C02_known_translators_of_eft.
Print Assumptions C02_known_translators_from.
Print Assumptions C02_known_translators_to.
Print Assumptions C02_untouched.
