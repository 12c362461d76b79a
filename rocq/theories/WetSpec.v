(** Names of the WET coefficients, each with the fields of its operator.  This file is
    independent of the translators: it is what a user of the bases knows. *)
From Coq Require Import String Ascii List Bool Arith ZArith.
From Verif Require Import PyBase PyDict Tensor WetNf.
Import ListNotations.
Open Scope string_scope.
Open Scope list_scope.
Open Scope nat_scope.

(** A flavour: a down-type quark, an up-type quark, a lepton family. *)
Inductive flavour := Qd (i : fl) | Qu (i : fl) | Le (i : fl).
(** The fields of an operator: a flavour and whether the field is barred. *)
Definition content := list (flavour * bool).
Definition flavour_eqb (a b : flavour) : bool :=
  match a, b with Qd i, Qd j | Qu i, Qu j | Le i, Le j => fl_eqb i j | _, _ => false end.
(** How much an operator changes each flavour. *)
Definition charge (q : content) (f : flavour) : Z :=
  fold_right (fun (gb : flavour * bool) s => ((if flavour_eqb f (fst gb) then if snd gb then -1 else 1 else 0) + s)%Z) 0%Z q.
Definition flavours : list flavour := [Qd F1; Qd F2; Qd F3; Qu F1; Qu F2; Qu F3; Le F1; Le F2; Le F3].
Definition same_charge (q r : content) : bool := forallb (fun f => Z.eqb (charge q f) (charge r f)) flavours.
(** Equal up to exchanging an operator and its hermitian conjugate. *)
Definition related (q r : content) : bool :=
  same_charge q r || forallb (fun f => Z.eqb (charge q f) (- charge r f)) flavours.

Definition flavour_of (f : field) (i : fl) : flavour :=
  match f with Nu | El => Le i | Up => Qu i | Dn => Qd i end.
Fixpoint contents (bar : bool) (fs : list field) (x : idx) : content :=
  match fs, x with
  | f :: fs', i :: x' => (flavour_of f i, bar) :: contents (negb bar) fs' x'
  | _, _ => []
  end.
(** JMS operators: every odd field is barred. *)
Definition jms_content (op : string) (x : idx) : content :=
  match dget jms_fields op with Some fs => contents true fs x | None => [] end.

Definition d (i : fl) : string := match i with F1 => "d" | F2 => "s" | F3 => "b" end.
Definition u (i : fl) : string := match i with F1 => "u" | F2 => "c" | F3 => "t" end.
Definition l (i : fl) : string := match i with F1 => "e" | F2 => "mu" | F3 => "tau" end.
Definition coefs := list (string * content).
Definition each (ns : list string) (name : string -> string) (q : content) : coefs := map (fun n => (name n, q)) ns.
Definition sb := (F2, F3).
Definition db := (F1, F3).
Definition ds := (F1, F2).
Definition families : list (fl * fl) := flat_map (fun i => map (fun j => (i, j)) [F1; F2; F3]) [F1; F2; F3].
Definition udpairs : list (fl * fl) := [(F2, F3); (F1, F3); (F1, F2); (F2, F2); (F2, F1); (F1, F1)].
Definition current (f g : flavour) : content := [(f, true); (g, false)].
Definition dd (q : fl * fl) : content := current (Qd (fst q)) (Qd (snd q)).

(** ** Bern *)
Section Bern.
Open Scope string_scope.
Definition b_df2 (q : fl * fl) : coefs :=
  each ["1"; "2"; "3"; "4"; "5"; "1p"; "2p"; "3p"] (fun n => n ++ d (fst q) ++ d (snd q) ++ d (fst q) ++ d (snd q)) (app (dd q) (dd q)).
Definition b_cc (ns : list string) (ll ud : fl * fl) : coefs :=
  each ns (fun n => n ++ u (fst ud) ++ d (snd ud) ++ l (fst ll) ++ l (snd ll))
    (app (current (Qu (fst ud)) (Qd (snd ud))) (current (Le (fst ll)) (Le (snd ll)))).
Definition twenty : list string :=
  ["1"; "2"; "3"; "4"; "5"; "6"; "7"; "8"; "9"; "10"; "1p"; "2p"; "3p"; "4p"; "5p"; "6p"; "7p"; "8p"; "9p"; "10p"].
Definition ten : list string := ["1"; "3"; "5"; "7"; "9"; "1p"; "3p"; "5p"; "7p"; "9p"].
Definition b_uu (uu q : fl * fl) : coefs :=
  each twenty (fun n => n ++ d (fst q) ++ d (snd q) ++ u (fst uu) ++ u (snd uu)) (app (dd q) (current (Qu (fst uu)) (Qu (snd uu)))).
Definition b_dd (ns : list string) (q r : fl * fl) : coefs :=
  each ns (fun n => n ++ d (fst q) ++ d (snd q) ++ d (fst r) ++ d (snd r)) (app (dd q) (dd r)).
Definition b_lep (q ll : fl * fl) : coefs :=
  each ten (fun n => n ++ d (fst q) ++ d (snd q) ++ l (fst ll) ++ l (snd ll)) (app (dd q) (current (Le (fst ll)) (Le (snd ll)))).
Definition b_nu (q ll : fl * fl) : coefs :=
  each ["nu1"; "nu1p"] (fun n => n ++ d (fst q) ++ d (snd q) ++ l (fst ll) ++ l (snd ll)) (app (dd q) (current (Le (fst ll)) (Le (snd ll)))).
Definition b_dip (q : fl * fl) : coefs :=
  each ["7gamma"; "8g"; "7pgamma"; "8pg"] (fun n => n ++ d (fst q) ++ d (snd q)) (dd q).
End Bern.
Definition b_df2s : coefs := flat_map b_df2 [sb; db; ds].
Definition b_ccs (ns : list string) : coefs := flat_map (fun ll => flat_map (b_cc ns ll) udpairs) families.
Definition b_4q : coefs :=
  flat_map (fun uu => flat_map (b_uu uu) [sb; db; ds]) [(F1, F1); (F1, F2); (F2, F1); (F2, F2)] ++
  b_dd twenty sb (F1, F1) ++ b_dd ten sb (F2, F2) ++ b_dd ten db (F1, F1) ++ b_dd twenty db (F2, F2) ++ b_dd ten db (F3, F3) ++
  b_dd ten sb (F3, F3) ++ b_dd ten db (F1, F2) ++ b_dd ten sb (F2, F1) ++ b_dd twenty ds (F3, F3) ++ b_dd ten ds (F2, F2) ++
  b_dd ten ds (F1, F1).
Definition b_leps (qs : list (fl * fl)) : coefs := flat_map (fun ll => flat_map (fun q => b_lep q ll ++ b_nu q ll) qs) families.
(** What JMS → Bern provides. *)
Definition bern : coefs :=
  b_df2s ++ b_ccs ["1"; "5"; "1p"; "5p"; "7p"] ++ b_4q ++ b_leps [sb; db; ds] ++ flat_map b_dip [sb; db; ds].
(** What flavio → Bern provides. *)
Definition bern_of_flavio : coefs :=
  b_df2s ++ b_ccs ["1"; "1p"; "5"; "5p"; "7p"] ++ b_leps [sb; db] ++ flat_map b_dip [sb; db].

(** ** flavio *)
Section Flavio.
Open Scope string_scope.
Definition f_df2 (q : fl * fl) : coefs :=
  each ["CVLL_"; "CSLL_"; "CTLL_"; "CVLR_"; "CVRR_"; "CSRR_"; "CTRR_"; "CSLR_"]
    (fun n => n ++ d (snd q) ++ d (fst q) ++ d (snd q) ++ d (fst q)) (app (dd q) (dd q)).
Definition f_cc (ll ud : fl * fl) : coefs :=
  each ["CVL_"; "CVR_"; "CSR_"; "CSL_"; "CT_"] (fun n => n ++ d (snd ud) ++ u (fst ud) ++ l (fst ll) ++ "nu" ++ l (snd ll))
    (app (current (Qu (fst ud)) (Qd (snd ud))) (current (Le (fst ll)) (Le (snd ll)))).
Definition f_nu (q ll : fl * fl) : coefs :=
  each ["CL_"; "CR_"] (fun n => n ++ d (snd q) ++ d (fst q) ++ "nu" ++ l (fst ll) ++ "nu" ++ l (snd ll))
    (app (dd q) (current (Le (fst ll)) (Le (snd ll)))).
Definition f_lep (q ll : fl * fl) : coefs :=
  each ["C9_"; "C9p_"; "C10_"; "C10p_"; "CS_"; "CSp_"; "CP_"; "CPp_"] (fun n => n ++ d (snd q) ++ d (fst q) ++ l (fst ll) ++ l (snd ll))
    (app (dd q) (current (Le (fst ll)) (Le (snd ll)))).
Definition f_dip (q : fl * fl) : coefs := each ["C7_"; "C8_"; "C7p_"; "C8p_"] (fun n => n ++ d (snd q) ++ d (fst q)) (dd q).
End Flavio.
Definition flavio : coefs :=
  flat_map f_df2 [sb; db; ds] ++ flat_map (fun ll => flat_map (f_cc ll) udpairs) families ++
  flat_map (fun ll => f_nu sb ll ++ f_lep sb ll ++ f_nu db ll ++ f_lep db ll ++ f_nu ds ll) families ++
  flat_map f_dip [sb; db].
(** The s → d neutrino coefficients *)
Definition flavio_sdnu : coefs := flat_map (f_nu ds) families.

(** ** EOS *)
Section EOS.
Open Scope string_scope.
Definition e_cc (i : fl) : coefs :=
  each ["::cVL"; "::cVR"; "::cSR"; "::cSL"; "::cT"] (fun n => "b->u" ++ l i ++ "nu" ++ l i ++ n)
    (app (current (Qu F1) (Qd F3)) (current (Le i) (Le i))).
Definition e_lep (i : fl) : coefs :=
  each ["::c9"; "::c9'"; "::c10"; "::c10'"; "::cS"; "::cS'"; "::cP"; "::cP'"; "::cT"; "::cT5"] (fun n => "b->s" ++ l i ++ l i ++ n)
    (app (dd sb) (current (Le i) (Le i))).
Definition eos : coefs :=
  (e_cc F1 ++ e_cc F2 ++ each ["1"; "2"; "3"; "4"; "5"; "6"] (fun n => ("b->s::c" ++ n)%string) (dd sb) ++
   e_lep F1 ++ e_lep F2 ++ each ["7"; "7'"; "8"; "8'"] (fun n => ("b->s::c" ++ n)%string) (dd sb))%list.
End EOS.

(** ** formflavor *)
Section FormFlavor.
Open Scope string_scope.
Definition ff_df2 (up : bool) (q : fl * fl) : coefs :=
  let f := if up then u else d in let Q := if up then Qu else Qd in
  each ["CVLL_"; "CSLL_"; "CTLL_"; "CVLR_"; "CVRR_"; "CSRR_"; "CTRR_"; "CSLR_"]
    (fun n => n ++ f (snd q) ++ f (fst q) ++ f (snd q) ++ f (fst q))
    (app (current (Q (fst q)) (Q (snd q))) (current (Q (fst q)) (Q (snd q)))).
Definition ff_lep (q : fl * fl) : coefs :=
  each ["CVLL_"; "CVRR_"; "CVLR_"; "CVRL_"; "CSLL_"; "CSRR_"; "CSLR_"; "CSRL_"; "CTLL_"; "CTRR_"]
    (fun n => n ++ d (snd q) ++ d (fst q) ++ "mm") (app (dd q) (current (Le F2) (Le F2))).
(** s → d and a pair of neutrinos of one family *)
Definition ff_nu : coefs := each ["CVLL_"; "CVRL_"] (fun n => n ++ "sdnn") (dd ds).
Definition ff_dipq (f : fl -> string) (Q : fl -> flavour) (i j : fl) : coefs :=
  each ["CAR_"; "CGR_"; "CAL_"; "CGL_"] (fun n => n ++ f i ++ f j) (current (Q i) (Q j)).
Definition lc (i : fl) : string := match i with F1 => "e" | F2 => "m" | F3 => "t" end.
Definition ff_dipl (i j : fl) : coefs := each ["CAR_"; "CAL_"] (fun n => n ++ lc i ++ lc j) (current (Le i) (Le j)).
End FormFlavor.
Definition formflavor : coefs :=
  ff_df2 false sb ++ ff_df2 false db ++ ff_df2 false ds ++ ff_df2 true (F1, F2) ++
  ff_lep sb ++ ff_nu ++ ff_lep db ++
  ff_dipq d Qd F2 F3 ++ ff_dipq d Qd F1 F3 ++ ff_dipq u Qu F1 F1 ++ ff_dipq d Qd F1 F1 ++
  ff_dipl F2 F3 ++ ff_dipl F1 F2 ++ ff_dipl F1 F3.
