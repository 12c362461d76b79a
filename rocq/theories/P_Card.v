(** C69: the fixed part of a SMEFTsim card in the four variants. *)
From Coq Require Import String List Bool Arith ZArith Reals.
From Verif Require Import PyBase PyDict Cplx Dump SmeftSimSyntax SmeftSimTab SmeftSim SmeftSimText.
Import ListNotations.
Open Scope string_scope.
Open Scope list_scope.
Open Scope nat_scope.

Theorem C69_defined : forall set scheme,
  (model_set set /\ input_scheme scheme -> exists t, smeftsim_card_text set scheme = Ok t) /\
  (~ (model_set set /\ input_scheme scheme) -> smeftsim_card_text set scheme = Err UnboundLocalError).
Proof. exact defined. Qed.
(** No entry occurs twice ... *)
Theorem C69_entries_once : forall set scheme, model_set set -> input_scheme scheme -> NoDup (keys_of (settings set scheme)).
Proof. exact entries_once. Qed.
(** ... and no block of the complete card, the coefficients included. *)
Theorem C69_blocks_once : forall d set L scheme c, model_set set -> input_scheme scheme -> make_card d set L scheme = Ok c ->
  NoDup (map lower (blocks_of (fst (head_tail set scheme)) ++ dkeys c ++ blocks_of (snd (head_tail set scheme)))).
Proof. exact blocks_once. Qed.
(** The blocks of the fixed part, before and behind the coefficients: all lines that start with "block", in any letters. *)
Definition starts_block (x : string) : bool := String.prefix "block" (lower x).
Theorem C69_blocks : forall set scheme, model_set set -> input_scheme scheme ->
  let h := fst (head_tail set scheme) in let t := snd (head_tail set scheme) in
  blocks_of h = ["SMINPUTS"; "MASS"; "CKMBLOCK"] /\
  blocks_of t = (if String.eqb set "B" then ["NEWCOUPaux"] else []) ++ "YUKAWA" ::
    map (fun n => ("QNUMBERS " ++ n)%string) ["9000001"; "9000002"; "9000003"; "9000004"; "82"; "250"; "251"] /\
  Forall2 (fun x b => String.prefix ("Block " ++ b) x = true) (filter starts_block h) (blocks_of h) /\
  Forall2 (fun x b => String.prefix ("Block " ++ b) x = true) (filter starts_block t) (blocks_of t).
Proof.
  intros set scheme M I. assert (exists b, set = (if b : bool then "A" else "B")%string) as (b & ->) by (destruct M as [->| ->]; [exists true|exists false]; reflexivity).
  assert (exists c, scheme = (if c : bool then "alpha" else "mw")%string) as (c & ->) by (destruct I as [->| ->]; [exists true|exists false]; reflexivity).
  destruct b, c; (split; [vm_compute; reflexivity|split; [vm_compute; reflexivity|split]]); vm_compute; repeat constructor.
Qed.
(** The two schemes set the same parameters, except that the scheme "mw" has no electromagnetic coupling. *)
Theorem C69_same_parameters : forall set b k, model_set set ->
  (setting set "mw" b k <> None <-> setting set "alpha" b k <> None /\ (b, k) <> ("SMINPUTS", "1")).
Proof. exact same_parameters. Qed.
(** In set A they differ in nothing else than the mass of the W, its ghosts and its Goldstone boson; ... *)
Theorem C69_same_values : forall set b k v, model_set set -> setting set "mw" b k = Some v ->
  ~ (b = "MASS" /\ In k ["24"; "9000003"; "9000004"; "251"]) -> (set = "B" -> (b, k) <> ("SMINPUTS", "3")) -> setting set "alpha" b k = Some v.
Proof. exact same_values. Qed.
(** ... in set B the strong coupling changes too. *)
Theorem C69_strong_coupling_refuted :
  setting "B" "alpha" "SMINPUTS" "3" = Some "1.181000e-01" /\ setting "B" "mw" "SMINPUTS" "3" = Some "1.185000e-01".
Proof. exact strong_coupling. Qed.
(** The card is consistent: ghosts and Goldstone bosons have mass and width of their gauge boson ... *)
Theorem C69_partners : forall set scheme b x y, model_set set -> input_scheme scheme -> In b ["MASS"; "DECAY"] ->
  In (x, y) [("9000003", "24"); ("9000004", "24"); ("251", "24"); ("9000002", "23"); ("250", "23"); ("9000001", "22"); ("82", "21")] ->
  agree (setting set scheme b x) (setting set scheme b y).
Proof. exact partners. Qed.
(** ... and the Yukawa couplings belong to the masses of the fermions. *)
Theorem C69_yukawa : forall set scheme k, model_set set -> input_scheme scheme ->
  In k ["1"; "2"; "3"; "4"; "5"; "6"; "11"; "13"; "15"] -> agree (setting set scheme "YUKAWA" k) (setting set scheme "MASS" k).
Proof. exact yukawa. Qed.
(** The W mass of the scheme "mw" is the one of the row which the coefficient part of set A gets. *)
Theorem C69_w_mass : forall d L c, make_card d "A" L "mw" = Ok c ->
  card_row c "FRBlock" ([1475%N], RtoC 80.387, "# MW0") /\ agree (setting "A" "mw" "MASS" "24") (Some "80.387") /\ agree (setting "B" "mw" "MASS" "24") (Some "80.387").
Proof. exact w_mass. Qed.
Example C69_case : setting "B" "mw" "MASS" "24" = Some "8.038700e+01" /\ setting "B" "mw" "MASS" "251" = Some "80.387000" /\
  setting "A" "alpha" "SMINPUTS" "1" = Some "7.815553e-03" /\ setting "A" "mw" "SMINPUTS" "1" = None /\
  setting "A" "alpha" "QNUMBERS 9000003" "1" = Some "3" /\ same_number "80.387000" "80.387001" = false /\ ~ input_scheme "mz".
Proof. repeat split; try (vm_compute; reflexivity). unfold input_scheme. intros [E|E]; discriminate. Qed.

Print Assumptions C69_defined.
Print Assumptions C69_entries_once.
Print Assumptions C69_blocks_once.
Print Assumptions C69_blocks.
Print Assumptions C69_same_parameters.
Print Assumptions C69_same_values.
Print Assumptions C69_strong_coupling_refuted.
Print Assumptions C69_partners.
Print Assumptions C69_yukawa.
Print Assumptions C69_w_mass.
