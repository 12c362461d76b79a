(** C78: repr() of a basis and of a coefficient file (classes.py 278-279, 375-377). *)
From Coq Require Import String Ascii List Bool Arith Reals Lra Lia.
From Verif Require Import PyBase PyDict Cplx Bases BasesFacts Wc Markdown Repr.
Import ListNotations.
Open Scope string_scope.
Open Scope list_scope.
Open Scope nat_scope.

(** No apostrophe in the text. *)
Definition unquoted (s : string) : Prop := lacks "'"%char s = true.
(** Bases of EFTs without apostrophes in their names: the text tells registered bases apart. *)
Theorem C78_identifies : forall h e b e' b' i j, basis_get (wrun h) e b = Ok i -> basis_get (wrun h) e' b' = Ok j -> unquoted e -> unquoted e' ->
  basis_repr (wrun h) i = basis_repr (wrun h) j -> i = j /\ (e, b) = (e', b').
Proof.
  intros h e b e' b' i j G G' Q Q' E.
  assert (forall e b i, basis_get (wrun h) e b = Ok i -> called (wrun h) i e b) as N.
  { clear. intros e b i G. apply reg_run. unfold basis_get, lookup_reg in G. destruct (w_bases (wrun h)) as [d|]; [|discriminate]. unfold dlookup in G. destruct (dget d (e, b)) as [x|] eqn:D; [|discriminate]. injection G as ->. apply dget_In, D. }
  destruct (N e b i G) as (o & Eo & N1 & N2). destruct (N e' b' j G') as (o' & Eo' & N1' & N2'). unfold basis_repr in E. rewrite Eo, Eo', N1, N2, N1', N2' in E. injection E as E.
  destruct (first_inj quote e e' _ _ Q Q' E) as [<- X]. cbn in X. injection X as X. apply app_inj_r in X. rewrite <- X in G'. rewrite G in G'. injection G' as <-. rewrite X. auto.
Qed.
(** It names the EFT and the basis, is there even if the constructor failed, and never changes. *)
Theorem C78_stable : forall h e b parent s h', let id := length (w_objs (wrun h)) in
  basis_repr (wrun ((h ++ [NewBasis e b parent s]) ++ h')) id = Some ("wcxf.Basis('" ++ e ++ "', '" ++ b ++ "', {...})")%string.
Proof.
  intros h e b parent s h' id. assert (called (wrun (h ++ [NewBasis e b parent s])) id e b) as C.
  { rewrite wrun_snoc. cbn [wstep]. destruct (new_objs (wrun h) e b parent s) as (r & E & N). exists r. rewrite E, nth_error_app2, Nat.sub_diag by (unfold id; lia). split; [reflexivity|exact N]. }
  assert (forall w, called w id e b -> basis_repr w id = Some ("wcxf.Basis('" ++ e ++ "', '" ++ b ++ "', {...})")%string) as R by (intros w (o & E & <- & <-); unfold basis_repr; rewrite E; reflexivity).
  apply R, called_run, C.
Qed.
(** Finding: with apostrophes, two registered bases can have the same text. *)
Theorem C78_identifies_refuted : exists h i j, basis_get (wrun h) "a" "b', 'c" = Ok i /\ basis_get (wrun h) "a', 'b" "c" = Ok j /\ i <> j /\ basis_repr (wrun h) i = basis_repr (wrun h) j.
Proof. exists [NewBasis "a" "b', 'c" None []; NewBasis "a', 'b" "c" None []], 0, 1. repeat split; discriminate. Qed.
(** Coefficient files: the text gives EFT, basis and scale, if the texts of the scales have no apostrophes and tell
    the two scales apart. *)
Theorem C78_values : forall show_scale o o', unquoted (show_scale (wc_scale o)) -> unquoted (show_scale (wc_scale o')) ->
  (show_scale (wc_scale o) = show_scale (wc_scale o') -> wc_scale o = wc_scale o') -> unquoted (wc_eft o) -> unquoted (wc_eft o') ->
  (wc_repr show_scale o = wc_repr show_scale o' <-> wc_eft o = wc_eft o' /\ wc_basis o = wc_basis o' /\ wc_scale o = wc_scale o').
Proof.
  intros sh o o' S S' I Q Q'. unfold wc_repr. split.
  - intros E. apply app_inj_l in E. destruct (first_inj quote _ _ _ _ Q Q' E) as [A X]. split; [exact A|]. cbn in X. injection X as X.
    change ((wc_basis o ++ "', scale='" ++ sh (wc_scale o) ++ "', values={...})")%string = (wc_basis o' ++ "', scale='" ++ sh (wc_scale o') ++ "', values={...})")%string) in X.
    assert (forall b s, (b ++ "', scale='" ++ s ++ "', values={...})")%string = (((b ++ "', scale=") ++ String quote s) ++ "', values={...})")%string) as Sp by (intros b s; rewrite !app_assoc; reflexivity).
    rewrite !Sp in X. apply app_inj_r in X. destruct (last_inj quote _ _ _ _ S S' X) as [Y Z]. split; [exact (app_inj_r _ _ _ Y)|apply I, Z].
  - intros (-> & -> & ->). reflexivity.
Qed.
(** Finding: with apostrophes, two files with other EFTs and bases can have the same text. *)
Theorem C78_values_refuted : exists o o' : wc, wc_repr (fun _ => "5.0") o = wc_repr (fun _ => "5.0") o' /\ wc_eft o <> wc_eft o' /\ wc_basis o <> wc_basis o'.
Proof.
  exists (new_wc "WET" "x', basis='flavio" 5 []), (new_wc "WET', basis='x" "flavio" 5 []). split; [reflexivity|split; discriminate].
Qed.
Definition ex_h : list wop := [NewEFT "WET" ["sb"]; NewBasis "WET" "flavio" None []; NewBasis "WET" "EOS" (Some "missing") []].
Example C78_case : basis_get (wrun ex_h) "WET" "flavio" = Ok 0 /\ basis_get (wrun ex_h) "WET" "EOS" = Ok 1 /\ unquoted "WET" /\
  basis_repr (wrun ex_h) 0 = Some "wcxf.Basis('WET', 'flavio', {...})" /\ basis_repr (wrun ex_h) 1 = Some "wcxf.Basis('WET', 'EOS', {...})" /\ fst (all_wcs (wrun ex_h) 1) = Err AttributeError.
Proof. repeat split. Qed.
Example C78_values_case : let sh := fun z => if Req_EM_T z 5 then "5.0" else "160.0" in let o := new_wc "WET" "flavio" 5 [] in let o' := new_wc "WET" "flavio" 160 [] in
  unquoted (sh (wc_scale o)) /\ unquoted (sh (wc_scale o')) /\ (sh (wc_scale o) = sh (wc_scale o') -> wc_scale o = wc_scale o') /\
  wc_repr sh o = "wcxf.WC(eft='WET', basis='flavio', scale='5.0', values={...})" /\ wc_repr sh o' = "wcxf.WC(eft='WET', basis='flavio', scale='160.0', values={...})".
Proof.
  cbn zeta. unfold wc_repr, new_wc. cbn [wc_eft wc_basis wc_scale]. destruct (Req_EM_T 5 5) as [_|F]; [|elim F; reflexivity]. destruct (Req_EM_T 160 5) as [F|_]; [exfalso; lra|]. repeat split. discriminate.
Qed.
Print Assumptions C78_identifies.
Print Assumptions C78_stable.
Print Assumptions C78_identifies_refuted.
Print Assumptions C78_values.
Print Assumptions C78_values_refuted.
