(** wcxf/parameters.py 1-18: the default parameters, and the merge
    [p = default_parameters.copy(); p.update(parameters)] used throughout. *)
From Coq Require Import String List Reals.
From Verif Require Import PyBase PyDict Cplx Wc.
Import ListNotations.
Open Scope string_scope.
Open Scope list_scope.

Definition default_parameters : params :=
  [("m_W", 80385 / 1000); ("m_Z", 911876 / 10000); ("GF", 11663787 / 1000000000000);
   ("alpha_e", 10 / 1279); ("alpha_s", 1185 / 10000); ("Vus", 2243 / 10000);
   ("Vub", 362 / 100000); ("Vcb", 4221 / 100000); ("gamma", 127 / 100);
   ("m_b", 418 / 100); ("m_s", 95 / 1000); ("m_e", 5109989461 / 10000000000000);
   ("m_mu", 1056583745 / 10000000000); ("m_tau", 177686 / 100000)]%R.
(** translators/smeft.py 80-83 and the same four lines in the other files *)
Definition merge_params (p : option params) : params :=
  match p with None => default_parameters | Some q => dupdate default_parameters q end.
Definition param (p : params) (k : string) : R := match dget p k with Some x => x | None => 0%R end.

Lemma default_wf : wf default_parameters.
Proof. unfold wf, dkeys; simpl. repeat constructor; simpl; intuition discriminate. Qed.
(** Merging never loses a default name, so subscription cannot fail. *)
Lemma merge_params_get p k :
  dget (merge_params p) k =
  match p with None => dget default_parameters k
  | Some q => match dget_last q k with Some v => Some v | None => dget default_parameters k end end.
Proof. destruct p as [q|]; unfold merge_params; [apply dget_dupdate|reflexivity]. Qed.
Lemma merge_params_defined p k : In k (dkeys default_parameters) ->
  exists x, dget (merge_params p) k = Some x.
Proof.
  intros I. apply key_dget in I. destruct I as (v & E). rewrite merge_params_get.
  destruct p as [q|]; eauto. destruct (dget_last q k); eauto.
Qed.
