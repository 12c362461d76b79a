(** Model of wcxf/translators/wet.py: JMS arrays, parameters and the final translators.
    The formula functions are in WetTab. *)
From Coq Require Import String Ascii List Bool Arith ZArith Reals.
From Verif Require Import PyBase PyDict Cplx Tensor Wc Params Smeft WetExpr WetStr WetTab.
Import ListNotations.
Open Scope string_scope.
Open Scope list_scope.
Open Scope nat_scope.

(** ** JMS arrays *)
Definition has_us (k : string) : bool := negb (Nat.eqb (length (split_us k)) 1).
(** [a[tuple] = v]: assigns the whole sub-array *)
Definition nset (a : narr) (pre : idx) (v : cval) : narr :=
  NArr (n_rank a) (fun x => if is_prefix pre x then v else n_ent a x).
Definition nans (n : nat) : narr := NArr n (fun _ => None).
(** One round of the loop of _scalar2array, wet.py 889-900.  A scalar is an array of rank 0.
    Simplified: numpy's limit on the number of axes is ignored. *)
Definition s2a_step (da : dict string narr) (k : string) (v : cval) : res (dict string narr) :=
  if negb (has_us k) then Ok (dset da k (NArr 0 (fun _ => v)))
  else
    let name := fold_right append "" (removelast (split_us k)) in
    let ind := index_part k in
    let dim := String.length ind in
    let! cur := match dget da name with
                | Some a => if Nat.eqb (n_rank a) 0 then Err TypeError else Ok a
                | None => if Nat.eqb dim 0 then Err IndexError else Ok (nans dim)
                end in
    let! pre := parse_index (n_rank cur) ind in
    Ok (dset da name (nset cur pre v)).
Fixpoint scalar2array_from (da : dict string narr) (d : dict string cval) : res (dict string narr) :=
  match d with
  | [] => Ok da
  | (k, v) :: t => let! da' := s2a_step da k v in scalar2array_from da' t
  end.
(** _scalar2array, wet.py 885-901 *)
Definition scalar2array (d : dict string cval) : res (dict string narr) := scalar2array_from [] d.

Definition herm_ix (x : idx) : idx := match x with [i; j; k; l] => [j; i; l; k] | _ => x end.
Definition cur_ix (x : idx) : idx := match x with [i; j; k; l] => [k; l; i; j] | _ => x end.
(** _symm_herm, wet.py 904-909; einsum raises ValueError for another number of axes. *)
Definition symm_herm (a : narr) : res narr :=
  if Nat.eqb (n_rank a) 4 then
    Ok (NArr 4 (fun x => match n_ent a x with Some z => Some z | None => conjv (n_ent a (herm_ix x)) end))
  else Err ValueError.
(** _symm_current, wet.py 912-917 *)
Definition symm_current (a : narr) : res narr :=
  if Nat.eqb (n_rank a) 4 then
    Ok (NArr 4 (fun x => match n_ent a x with Some z => Some z | None => n_ent a (cur_ix x) end))
  else Err ValueError.
(** wet.py 929-938 *)
Definition herm_ops : list string :=
  ["VnueLL"; "VnuuLL"; "VnudLL"; "VeuLL"; "VedLL"; "V1udLL";
   "V8udLL"; "VeuRR"; "VedRR"; "V1udRR"; "V8udRR"; "VnueLR";
   "VeeLR"; "VnuuLR"; "VnudLR"; "VeuLR"; "VedLR"; "VueLR"; "VdeLR";
   "V1uuLR"; "V8uuLR"; "V1udLR"; "V8udLR"; "V1duLR"; "V8duLR";
   "V1ddLR"; "V8ddLR"].
Definition cur_ops : list string := ["S1uuRR"; "S8uuRR"; "S1ddRR"; "S8ddRR"].
Definition both_ops : list string := ["VuuLL"; "VddLL"; "VuuRR"; "VddRR"].
Definition complete1 (k : string) (a : narr) : res narr :=
  let! a := if mem k herm_ops then symm_herm a else Ok a in
  let! a := if mem k cur_ops then symm_current a else Ok a in
  if mem k both_ops then let! a := symm_current a in symm_herm a else Ok a.
(** _JMS_to_array, wet.py 921-939; [keys] is [Basis['WET', 'JMS'].all_wcs]. *)
Definition fill (keys : list string) (c : dict string cval) : dict string cval :=
  dict_of (map (fun k => (k, match dget c k with Some v => v | None => Some C0 end)) keys).
Definition JMS_to_array (keys : list string) (c : dict string cval) : res (dict string narr) :=
  let! ca := scalar2array (fill keys c) in
  mapM (fun kv => let! a := complete1 (fst kv) (snd kv) in Ok (fst kv, a)) ca.

(** ** Steps of the final functions *)
(** [d.update(h(g(C, s), s))] *)
Definition chain (l : list (res tmpl)) : res (list tmpl) := sequence l.
Definition leptons : list string := dkeys lflav.
Definition lpairs : list (string * string) := flat_map (fun l => map (fun lp => (l, lp)) leptons) leptons.
(** [qq+'l_'+l+'nu_'+lp] *)
Definition lname (qq l lp : string) : string := (qq ++ "l_" ++ l ++ "nu_" ++ lp)%string.
Definition ccs : list string := ["cb"; "ub"; "us"; "cs"; "cd"; "ud"].
(** [for l in lflav.keys(): for lp in lflav.keys(): for qq in [...]] *)
Definition cc_steps (f : string -> list (res tmpl)) : list (res (list tmpl)) :=
  flat_map (fun ll => map (fun qq => chain (f (lname qq (fst ll) (snd ll)))) ccs) lpairs.
(** [sqrt(2)/p['GF']/4] *)
Definition pref : ex := XDiv (XDiv (XRt (XQ 2 1)) (XPar "GF")) (XQ 4 1).

(** JMS_to_EOS, wet.py 1014-1041.  The five dictionaries handed to _Fierz_to_EOS_V have
    disjoint keys and are passed as one. *)
Definition EOS_steps : list (res (list tmpl)) :=
  map (fun l => let s := lname "ub" l l in chain [JMS_to_Bern_II s; BernII_to_EOS_II s]) ["e"; "mu"] ++
  [chain [rmap (@concat _) (sequence (map JMS_to_Fierz_III_IV_V ["sbuu"; "sbdd"; "sbcc"; "sbss"; "sbbb"]));
          Fierz_to_EOS_V]] ++
  map (fun s => chain [JMS_to_Fierz_lep s; Fierz_to_EOS_lep s]) ["sbl_enu_e"; "sbl_munu_mu"] ++
  [chain [JMS_to_Fierz_chrom "sb"; Fierz_to_EOS_chrom "sb"]].
Definition JMS_to_EOS_prog : res prog := rmap (fun s => Prog s None) (sequence EOS_steps).

(** JMS_to_flavio, wet.py 1044-1078 *)
Definition lep_steps (f : string -> bool -> list (res tmpl)) : list (res (list tmpl)) :=
  flat_map (fun ll => [chain (f (lname "sb" (fst ll) (snd ll)) true);
                       chain (f (lname "db" (fst ll) (snd ll)) true);
                       chain (f (lname "ds" (fst ll) (snd ll)) false)]) lpairs.
Definition flavio_steps : list (res (list tmpl)) :=
  map (fun qq => chain [JMS_to_Bern_I qq; BernI_to_Flavio_I qq]) ["sb"; "db"; "ds"] ++
  cc_steps (fun s => [JMS_to_Bern_II s; BernII_to_Flavio_II s]) ++
  lep_steps (fun s charged => [JMS_to_Fierz_lep s; Fierz_to_Flavio_lep s charged]) ++
  map (fun dd => chain [JMS_to_Fierz_chrom dd; Fierz_to_Flavio_chrom dd]) ["sb"; "db"].
Definition JMS_to_flavio_prog : res prog := rmap (fun s => Prog s None) (sequence flavio_steps).

(** Bern_to_flavio, wet.py 1081-1116 *)
Definition Bern_flavio_steps : list (res (list tmpl)) :=
  map (fun qq => chain [BernI_to_Flavio_I qq]) ["sb"; "db"; "ds"] ++
  cc_steps (fun s => [BernII_to_Flavio_II s]) ++
  lep_steps (fun s charged => [Bern_to_Fierz_lep s; Fierz_to_Flavio_lep s charged]) ++
  map (fun dd => chain [Bern_to_Fierz_chrom dd; Fierz_to_Flavio_chrom dd]) ["sb"; "db"].
Definition Bern_to_flavio_prog : res prog :=
  rmap (fun s => Prog s (Some (fun v => XDiv v pref))) (sequence Bern_flavio_steps).

(** flavio_to_Bern, wet.py 1120-1151 *)
Definition flavio_Bern_steps : list (res (list tmpl)) :=
  map (fun qq => chain [FlavioI_to_Bern_I qq]) ["bs"; "bd"; "sd"] ++
  cc_steps (fun s => [FlavioII_to_BernII s]) ++
  flat_map (fun ll => map (fun qq => let s := lname qq (fst ll) (snd ll) in
                                     chain [Flavio_to_Fierz_lep s; Fierz_to_Bern_lep s]) ["sb"; "db"]) lpairs ++
  map (fun dd => chain [Flavio_to_Fierz_chrom dd; Fierz_to_Bern_chrom dd]) ["sb"; "db"].
Definition flavio_to_Bern_prog : res prog :=
  rmap (fun s => Prog s (Some (fun v => XMul pref v))) (sequence flavio_Bern_steps).

(** JMS_to_FormFlavor, wet.py 1154-1170 *)
Definition FormFlavor_steps : list (res (list tmpl)) :=
  map (fun qq => chain [JMS_to_Bern_I qq; BernI_to_FormFlavor_I qq]) ["sb"; "db"; "ds"; "uc"] ++
  map (fun dd => chain [JMS_to_FormFlavor_lep dd]) ["bs"; "bd"] ++
  map (fun ind => chain [JMS_to_FormFlavor_chrom ind]) ["sb"; "db"; "uu"; "dd"; "mt"; "em"; "et"].
Definition JMS_to_FormFlavor_prog : res prog := rmap (fun s => Prog s None) (sequence FormFlavor_steps).

(** JMS_to_Bern, wet.py 1173-1221 *)
Definition fierz_step (s : string) : res (list tmpl) := chain [JMS_to_Fierz_III_IV_V s; Fierz_to_Bern_III_IV_V s].
Definition Bern_steps : list (res (list tmpl)) :=
  map (fun qq => chain [JMS_to_Bern_I qq]) ["sb"; "db"; "ds"] ++
  cc_steps (fun s => [JMS_to_Bern_II s]) ++
  flat_map (fun u1 => flat_map (fun u2 => map (fun dd => fierz_step (dd ++ u1 ++ u2)%string) ["sb"; "db"; "ds"]) (dkeys uflav)) (dkeys uflav) ++
  map fierz_step ["sbdd"; "sbss"; "dbdd"; "dbss"; "dbbb"; "sbbb"; "dbds"; "sbsd"; "dsbb"; "dsss"; "dsdd"] ++
  lep_steps (fun s _ => [JMS_to_Fierz_lep s; Fierz_to_Bern_lep s]) ++
  map (fun dd => chain [JMS_to_Fierz_chrom dd; Fierz_to_Bern_chrom dd]) ["sb"; "db"; "ds"].
Definition JMS_to_Bern_prog : res prog :=
  rmap (fun s => Prog s (Some (fun v => XMul pref v))) (sequence Bern_steps).

(** ** Parameters and translators *)
Section Wet.
(** ckmutil.ckm.ckm_tree, and wcxf.util.qcd.m_b, m_s and alpha_s for f = 5 (see WetParams). *)
Variable ckm_tree : R -> R -> R -> R -> mat.
Variable qcd_mb qcd_ms : R -> R -> R -> res R.
Variable qcd_as : R -> R -> res R.
(** get_parameters, wet.py 990-1009.  Subscripting never fails since the defaults are there. *)
Definition copied : list string := ["m_W"; "m_Z"; "GF"; "alpha_e"; "Vus"; "Vub"; "Vcb"; "gamma"; "m_e"; "m_mu"; "m_tau"].
Definition get_parameters (scale : R) (input : option params) : res params :=
  let p := merge_params input in
  let! mb := qcd_mb (param p "m_b") scale (param p "alpha_s") in
  let! ms := qcd_ms (param p "m_s") scale (param p "alpha_s") in
  let! als := qcd_as scale (param p "alpha_s") in
  Ok ([("m_b", mb); ("m_s", ms); ("alpha_s", als)] ++ map (fun k => (k, param p k)) copied).

Definition from_JMS (q : res prog) (keys : list string) (c : dict string cval) (scale : R) (input : option params) : res (dict string cval) :=
  let! p := get_parameters scale input in
  let! a := JMS_to_array keys c in
  let! q := q in
  run_prog (Env [] a p (ckm_of ckm_tree p)) q.
Definition from_flat (q : res prog) (keys : list string) (c : dict string cval) (scale : R) (input : option params) : res (dict string cval) :=
  let! p := get_parameters scale input in
  let! q := q in
  run_prog (Env (fill keys c) [] p (ckm_of ckm_tree p)) q.
Definition JMS_to_EOS := from_JMS JMS_to_EOS_prog.
Definition JMS_to_flavio := from_JMS JMS_to_flavio_prog.
Definition JMS_to_FormFlavor := from_JMS JMS_to_FormFlavor_prog.
Definition JMS_to_Bern := from_JMS JMS_to_Bern_prog.
(** [keys] is the listing of the Bern, respectively flavio basis of WET. *)
Definition Bern_to_flavio := from_flat Bern_to_flavio_prog.
Definition flavio_to_Bern := from_flat flavio_to_Bern_prog.
End Wet.

Definition prog0 (q : res prog) : prog := match q with Ok x => x | Err _ => Prog [] None end.
Definition ok_prog (q : res prog) : bool := match q with Ok _ => true | Err _ => false end.
