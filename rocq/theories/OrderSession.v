(** Sessions of typed commands (Session.v) when files are read back up to the order of the keys (Order.v). *)
From Coq Require Import String Ascii List Bool Arith ZArith Reals Lia Permutation.
From Verif Require Import PyBase PyDict Cplx Wc Dump DumpInit Tex Eos Cli Package PackMatch Tool P_Tool SmeftSimSyntax SmeftSimTab SmeftSim SmeftSimText Sci SmeftSimPrint ToolConv P_ToolConv Args ArgsFacts ArgsForms ArgsThm ArgsAny P_Args Session Order.
From Verif Require Bases.
From Verif Require LoadBasis LoadBasisThm P_Validate.
Import ListNotations.
Open Scope string_scope.
Open Scope list_scope.
Open Scope nat_scope.

(** * What the converters and the validation read does not depend on the order *)
Lemma eos_np_ext k (d d1 : dict string C) : (forall k, dget d k = dget d1 k) -> eos_np k d = eos_np k d1.
Proof. intros G. unfold eos_np, np_branch, dmem, getd. rewrite !G. reflexivity. Qed.
Lemma mapM_ext_all {A B} (f g : A -> res B) l : (forall x, f x = g x) -> mapM f l = mapM g l.
Proof. intros H. unfold mapM. f_equal. apply map_ext, H. Qed.
Lemma fill_block_ext (d d1 : dict string C) L b : (forall k, dget d k = dget d1 k) -> fill_block d L b = fill_block d1 L b.
Proof.
  intros G. unfold fill_block. rewrite (mapM_ext_all (fill_row d L) (fill_row d1 L)); [reflexivity|]. intros r. unfold fill_row, row_value, dlookup. rewrite !G. reflexivity.
Qed.
Lemma make_card_ext (d d1 : dict string C) set L scheme : (forall k, dget d k = dget d1 k) -> make_card d set L scheme = make_card d1 set L scheme.
Proof.
  intros G. unfold make_card, card_fill. destruct (init_card set); cbn [bind]; [|reflexivity].
  rewrite !(mapM_ext_all (fill_block d L) (fill_block d1 L)) by (intros b; apply fill_block_ext, G). reflexivity.
Qed.
Lemma complete_ext set (d d1 : dict string C) : (forall k, dget d k = dget d1 k) -> SmeftSim.complete set d -> SmeftSim.complete set d1.
Proof. intros G H n I. rewrite <- G. exact (H n I). Qed.
Lemma missing_ext set (d d1 : dict string C) : (forall k, dget d k = dget d1 k) -> missing set d -> missing set d1.
Proof. intros G (n & I & E). exists n. rewrite <- G. auto. Qed.
Lemma forallb_perm {A} (f : A -> bool) l l' : Permutation l l' -> forallb f l = forallb f l'.
Proof.
  intros P. induction P as [|x l l' P IH|x y l|l m n P1 IH1 P2 IH2]; cbn; [reflexivity|rewrite IH; reflexivity| |congruence].
  destruct (f x), (f y); reflexivity.
Qed.
Lemma wc_validate_perm w e b ks ks' : Permutation ks ks' -> Bases.wc_validate w e b ks = Bases.wc_validate w e b ks'.
Proof.
  intros P. unfold Bases.wc_validate. destruct (Bases.lookup_reg _ e); [|reflexivity]. destruct (Bases.lookup_reg _ (e, b)); [|reflexivity].
  destruct (Bases.all_wcs _ _) as [r w']. destruct r; cbn [bind]; [|reflexivity]. rewrite (forallb_perm _ _ _ P). reflexivity.
Qed.
Lemma same_validate world w w1 : same_wc w w1 ->
  Bases.wc_validate world (wc_eft w) (wc_basis w) (dkeys (wc_values w)) = Bases.wc_validate world (wc_eft w1) (wc_basis w1) (dkeys (wc_values w1)).
Proof. intros (E & B & _ & _ & _ & S). rewrite E, B. apply wc_validate_perm, same_keys, S. Qed.

Lemma dset_twice (d : dict string string) k a b : dset (dset d k a) k b = dset d k b.
Proof.
  induction d as [|[k' v] d IH]; cbn.
  - change (if keqb k k then [(k, b)] else (k, a) :: [(k, b)]) with (dset [(k, a)] k b). cbn. rewrite keqb_refl. reflexivity.
  - destruct (keqb k k') eqn:E; cbn; rewrite E; [reflexivity|]. rewrite IH. reflexivity.
Qed.

Section Session.
Variable stdin : string.
Variable creatable : string -> bool.
Variable float_of_str : string -> option R.
Variables json_dumps yaml_dump : doc -> string.
Variables json_loads yaml_load : string -> res doc.
Variable translators : treg.
Variable matchers : mreg.
Variable world : Bases.world.
Variable odd : attrs -> list string -> res wc.
Variable odd_dict : attrs -> res (dict string num).
Variable order : list string -> list string.
Variable isdir : string -> bool.
Variable latex : string -> texrun.
Variable lha : tcard -> string.
Variable unusual : line -> st -> Z * st.
Notation session := (Session.session stdin creatable float_of_str json_dumps yaml_dump json_loads yaml_load translators matchers world odd odd_dict order isdir latex lha unusual).
Variable printable : doc -> Prop.
Hypothesis json_roundtrip : forall d, printable d -> exists d', json_loads (json_dumps d) = Ok d' /\ same_doc d d'.
Hypothesis yaml_roundtrip : forall d, printable d -> exists d', yaml_load (yaml_dump d) = Ok d' /\ same_doc d d'.
Hypothesis yaml_not_json : forall m, m <> [] -> printable (DMap m) ->
  exists x, json_loads (yaml_dump (DMap m)) = Err x /\ (x = ValueError \/ x = JSONDecodeError).
Hypothesis printable_same : forall d d', printable d -> same_doc d d' -> printable d'.
Notation file_of := (Tool.file_of float_of_str json_loads yaml_load).
Notation call := (Tool.call float_of_str translators matchers).
Notation calls := (Tool.calls float_of_str translators matchers).
Notation all_print := (Tool.all_print float_of_str translators matchers printable).
Notation order_free := (Order.order_free float_of_str translators matchers).
Notation insensitive := (Order.insensitive float_of_str translators matchers).
Notation typable := (Session.typable creatable).
Notation steps l := (map (fun x : step * string * string => fst (fst x)) l).
Notation outputs l := (map (fun x : step * string * string => snd x) l).

(** One line of a chain *)
Lemma line_same x p q fmt s w w1 u : Forall plain (step_words x) -> plain fmt -> file_name p -> file_name q -> creatable q = true -> p <> q -> dmem (files s) p = true ->
  same_wc w w1 -> insensitive x w -> file_of (content s p) w1 -> format_ok fmt -> call x w = Ok u -> printable (DMap (entries u)) ->
  exists t u2, Session.run_line stdin creatable float_of_str json_dumps yaml_dump json_loads yaml_load translators matchers world odd odd_dict order isdir latex lha unusual (step_line x p q fmt) s
    = (0%Z, St (dset (files s) q t) (seen s)) /\ file_of t u2 /\ same_wc u u2.
Proof.
  intros Pw Pf Np Nq Cq N D S I F K C P. rewrite typed_step by auto.
  destruct (step_same float_of_str json_dumps yaml_dump json_loads yaml_load translators matchers printable json_roundtrip yaml_roundtrip yaml_not_json printable_same
    world odd LoadBasis.loaded (LoadBasis.eft_load json_loads yaml_load) (LoadBasis.basis_load json_loads yaml_load world) (LoadBasis.doc_validate world (P_Validate.tex_of latex))
    x (SFile p) (DFile q) fmt (truncate (DFile q) s) w w1 u) as (u1 & u2 & _ & T & G & _ & S2); auto.
  { rewrite input_cmd_of, !content_other by exact N. exact F. }
  exists (P_Tool.text_for json_dumps yaml_dump fmt u1), u2. split; [|auto]. unfold LoadBasisThm.tool. rewrite T. cbn [put truncate files seen].
  rewrite !dset_twice. reflexivity.
Qed.
Lemma chain_same l : forall p s w w1 w', chain_ok l p -> typable l -> file_name p -> dmem (files s) p = true -> same_wc w w1 -> file_of (content s p) w1 ->
  calls (steps l) w = Ok w' -> all_print (steps l) w -> order_free (steps l) w ->
  let r := session (chain_lines l p) s in
  fst r = map (fun _ => 0%Z) l /\ (exists w2, file_of (content (snd r) (last_file l p)) w2 /\ same_wc w' w2) /\ dmem (files (snd r)) (last_file l p) = true /\ seen (snd r) = seen s /\
  (forall f, ~ In f (outputs l) -> dget (files (snd r)) f = dget (files s) f) /\
  (forall dir, (forall g, Permutation (order g) g) -> (forall q, In q (outputs l) -> in_dir dir q = false) -> sm_of yaml_load order dir (files (snd r)) = sm_of yaml_load order dir (files s)).
Proof.
  induction l as [|[[x fmt] q] l IH]; intros p s w w1 w' K T Np D S F C A O r.
  - cbn in C. injection C as <-. cbn. repeat split; eauto.
  - destruct K as (Npq & Fm & K). inversion T as [|y l' (T1 & T2 & T3 & T4) T']; subst. cbn [fst snd] in *. cbn [map Tool.calls fst] in C, A, O. destruct (call x w) as [v|] eqn:E; [|discriminate]. cbn [bind] in C.
    destruct (all_print_cons _ _ _ _ _ _ _ _ A E) as [Pv Av]. destruct (order_free_cons _ _ _ _ _ _ _ O E) as [Ox Or].
    destruct (line_same x p q fmt s w w1 v) as (t & u2 & R & G & S2); auto.
    unfold r. cbn [chain_lines Session.session]. rewrite R.
    set (s1 := St (dset (files s) q t) (seen s)).
    assert (dmem (files s1) q = true) as D1 by (unfold dmem, s1; cbn [files]; rewrite dget_dset, keqb_refl; reflexivity).
    assert (content s1 q = t) as Cq by (unfold content, s1; cbn [files]; rewrite dget_dset, keqb_refl; reflexivity). assert (file_of (content s1 q) u2) as G1 by (rewrite Cq; exact G).
    specialize (IH q s1 v u2 w' K T' T3 D1 S2 G1 C Av Or). cbv zeta in IH. destruct (session (chain_lines l q) s1) as [ns s2]. cbn [fst snd last_file map] in *.
    destruct IH as (-> & I2 & I3 & I4 & I5 & I6). split; [reflexivity|]. split; [exact I2|]. split; [exact I3|]. split; [exact I4|]. split.
    + intros f Nf. rewrite I5 by (intros I; apply Nf; right; exact I). unfold s1. cbn [files]. rewrite dget_dset.
      destruct (keqb q f) eqn:Kq; [apply keqb_eq in Kq; exfalso; apply Nf; left; exact Kq|reflexivity].
    + intros dir Po N. rewrite I6; [apply sm_of_dset; [exact Po|apply N; left; reflexivity]|exact Po|intros g Ig; apply N; right; exact Ig].
Qed.

(** A call that fails for all orders of the coefficients *)
Definition always_fails (x : step) (w : wc) : Prop :=
  forall w1, same_wc w w1 -> exists e, call x w1 = Err e /\ e <> AttributeError /\ e <> SystemExit.
Hypothesis json_empty : json_loads "" = Err JSONDecodeError.
Hypothesis yaml_empty : yaml_load "" = Ok DNull.
Lemma chain_fails_same l1 x fmt q l2 p s w w1 v : chain_ok (l1 ++ (x, fmt, q) :: l2) p -> typable (l1 ++ (x, fmt, q) :: l2) -> file_name p -> dmem (files s) p = true ->
  same_wc w w1 -> file_of (content s p) w1 -> calls (steps l1) w = Ok v -> all_print (steps l1) w -> order_free (steps l1) w -> always_fails x v ->
  fst (session (chain_lines (l1 ++ (x, fmt, q) :: l2) p) s) = map (fun _ => 0%Z) l1 ++ 1%Z :: map (fun _ => 1%Z) l2.
Proof.
  revert p s w w1. induction l1 as [|[[y fy] r] l1 IH]; intros p s w w1 K T Np D S F C A O X.
  - cbn in C. injection C as ->. destruct (X w1 S) as (e & E & N1 & N2).
    assert (file_of (content s p) w1 /\ calls [] w1 = Ok w1) as [F' C'] by (split; [exact F|reflexivity]). cbn [app] in *. destruct K as (Npq & Fm & K).
    inversion T as [|z l' (T1 & T2 & T3 & T4) T']; subst. cbn [fst snd] in *. cbn [chain_lines Session.session]. rewrite typed_step by auto.
    assert (file_of (P_Tool.input (SFile p) (DFile q) (truncate (DFile q) s)) w1) as F2.
    { unfold P_Tool.input. destruct (String.eqb_spec q p); [congruence|]. rewrite content_other by auto. exact F. }
    destruct (C66_command_fails float_of_str json_dumps yaml_dump json_loads yaml_load translators matchers world odd
      LoadBasis.loaded (LoadBasis.eft_load json_loads yaml_load) (LoadBasis.basis_load json_loads yaml_load world) (LoadBasis.doc_validate world (P_Validate.tex_of latex))
      x (SFile p) (DFile q) fmt (truncate (DFile q) s) w1 e F2 E) as [R1 R2]. unfold LoadBasisThm.tool.
    destruct (Tool.tool _ _ _ _ _ _ _ _ _ _ _ _ _ _ (truncate (DFile q) s)) as [n s1]. cbn [fst snd] in R1, R2.
    assert (n = 1%Z) as -> by (destruct e; congruence).
    assert (dget (files s1) q = Some "") as Dq by (rewrite R2; cbn [files truncate]; rewrite dget_dset, keqb_refl; reflexivity).
    pose proof (chain_empty stdin creatable float_of_str json_dumps yaml_dump json_loads yaml_load translators matchers world odd odd_dict order isdir latex lha unusual json_empty yaml_empty l2 q s1 K T' T3) as H.
    destruct (session (chain_lines l2 q) s1). cbn [fst map app] in *. f_equal. apply H.
    + unfold dmem. rewrite Dq. reflexivity.
    + unfold content. rewrite Dq. reflexivity.
  - cbn [app] in K, T. destruct K as (Npr & Fm & K). inversion T as [|z l' (T1 & T2 & T3 & T4) T']; subst. cbn [fst snd] in *.
    cbn [map Tool.calls fst] in C, A, O. destruct (call y w) as [u|] eqn:Ey; [|discriminate]. cbn [bind] in C.
    destruct (all_print_cons _ _ _ _ _ _ _ _ A Ey) as [Pu Au]. destruct (order_free_cons _ _ _ _ _ _ _ O Ey) as [Oy Ou].
    destruct (line_same y p r fy s w w1 u) as (t & u2 & R & G & S2); auto.
    cbn [app chain_lines Session.session]. rewrite R.
    set (s1 := St (dset (files s) r t) (seen s)).
    assert (dmem (files s1) r = true) as D1 by (unfold dmem, s1; cbn [files]; rewrite dget_dset, keqb_refl; reflexivity).
    assert (content s1 r = t) as Cq by (unfold content, s1; cbn [files]; rewrite dget_dset, keqb_refl; reflexivity). assert (file_of (content s1 r) u2) as G1 by (rewrite Cq; exact G).
    specialize (IH r s1 u u2 K T' T3 D1 S2 G1 C Au Ou X). destruct (session (chain_lines (l1 ++ (x, fmt, q) :: l2) r) s1) as [ns s2]. cbn [fst map app] in *. f_equal. exact IH.
Qed.
End Session.
