(** C70: the numbers printed into a SMEFTsim card. *)
From Coq Require Import String Ascii List Bool Arith NArith ZArith Reals Lra Lia.
From Verif Require Import PyBase PyDict Cplx Wc Tensor SmeftSyntax SmeftTab Smeft SmeftNames SmeftSpec Dump DumpInit Cli Tool
  SmeftSimSyntax SmeftSimTab SmeftSim SmeftSimText Sci SmeftSimPrint ToolConv P_SmeftSim.
From Verif Require Bases.
Import ListNotations.
Open Scope string_scope.
Open Scope list_scope.
Open Scope R_scope.

(** A printed number reads back to seven digits; sign and zero are kept; printing the number read gives the same text. *)
Theorem C70_number : forall x, exists v, read_number (fmt x) = Some v /\ Rabs (v - x) <= 5 / 10000000 * Rabs x /\
  (v < 0 <-> x < 0) /\ (v = 0 <-> x = 0) /\ fmt v = fmt x.
Proof.
  intros x. exists (signed x). split; [apply read_fmt|]. split; [apply signed_near|]. destruct (signed_sign x). auto using fmt_signed.
Qed.
Theorem C70_complex_number : forall x y, read_number (fmt_complex x y) = None.
Proof. exact read_complex. Qed.
(** The card of texts is the card of numbers, printed. *)
Theorem C70_printed : forall d set L scheme,
  match make_card (dmap cnum d) set L scheme, make_tcard d set L scheme with
  | Ok c, Ok tc => printed_card c tc
  | Err e, Err e' => e = e'
  | _, _ => False
  end.
Proof. exact make_rel. Qed.
(** The coefficients can be read from the card with a relative error of at most 3e-6: the numbers printed as absolute value and
    phase for all of them, and those that the symmetries force to be real when they are floats. *)
Theorem C70_real : forall set n, model_set set -> In n (needed set) -> decoded_real n = true -> ~ In n (sign_lost set) -> real_entry n.
Proof. exact decoded_real_entry. Qed.
Theorem C70_read_back : forall set n d L scheme tc w, model_set set -> In n (needed set) -> ~ In n (sign_lost set) -> L <> 0 ->
  make_tcard d set L scheme = Ok tc -> dget d n = Some w -> (decoded_real n = true -> exists x, w = Flt x) ->
  exists z, gives set tc n z /\ Cabs (Csub z (cnum w)) <= 3 / 1000000 * Cabs (cnum w).
Proof.
  intros set n d L scheme tc w M I S N H W Y. destruct (read_back set n M I S d L scheme tc H) as (z & G & A).
  { intros R. destruct (Y R) as (x & ->). eauto. }
  exists z. split; [exact G|]. exact (A d L scheme w N H W).
Qed.
(** Equal cards come from equal coefficients, to this precision. *)
Theorem C70_same_card : forall set n d L scheme w d' L' scheme' w' tc, model_set set -> In n (needed set) -> ~ In n (sign_lost set) -> L <> 0 -> L' <> 0 ->
  make_tcard d set L scheme = Ok tc -> make_tcard d' set L' scheme' = Ok tc -> dget d n = Some w -> dget d' n = Some w' ->
  (decoded_real n = true -> exists x, w = Flt x) -> exists z, near z (cnum w) /\ near z (cnum w').
Proof.
  intros set n d L scheme w d' L' scheme' w' tc M I S N N' H H' W W' Y. destruct (read_back set n M I S d L scheme tc H) as (z & _ & A).
  { intros R. destruct (Y R) as (x & ->). eauto. }
  exists z. split; [exact (A d L scheme w N H W)|exact (A d' L' scheme' w' N' H' W')].
Qed.
(** Every text is a number if the coefficients printed with their sign are floats. *)
Theorem C70_readable : forall set d L scheme tc b l x, model_set set -> make_tcard d set L scheme = Ok tc ->
  (forall n z, In n (needed set) -> dget d n = Some (Cpx z) -> decoded_real n = false \/ In n (sign_lost set)) ->
  dget tc b = Some l -> In x l -> exists v, read_number (snd (fst x)) = Some v.
Proof. intros set d L scheme tc b l x M H F G I. apply (floats_readable set d L scheme tc b x M H F). eauto. Qed.
(** Finding: a real coefficient given as a Re/Im pair, even with Im = 0, is printed as a complex number, which no reader of
    the card accepts. *)
Theorem C70_pair_refuted : forall set n d L scheme tc z, model_set set -> In n (needed set) -> decoded_real n = true -> ~ In n (sign_lost set) ->
  make_tcard d set L scheme = Ok tc -> dget d n = Some (Cpx z) ->
  exists b lab t, stands_for n b lab false /\ param tc b lab = Some t /\ read_number t = None.
Proof. intros set n d L scheme tc z M I R S. exact (complex_unreadable set n M I R S d L scheme tc z). Qed.
Theorem C70_pairs : forall float_of_str m x y, to_float float_of_str (get_default m "Re" (DNum 0)) = Ok x -> to_float float_of_str (get_default m "Im" (DNum 0)) = Ok y ->
  to_num float_of_str (DMap m) = Ok (Cpx (x, y)).
Proof. intros fs m x y X Y. cbn [to_num]. rewrite X. cbn [bind]. rewrite Y. reflexivity. Qed.
(** Values written by the package itself are pairs only when the imaginary part is not 0. *)
Theorem C70_written : forall float_of_str z, to_num float_of_str (to_complex_dict z) = Ok (if Req_EM_T (Im z) 0 then Flt (Re z) else Cpx z).
Proof. intros fs z. unfold to_complex_dict. destruct (Req_EM_T (Im z) 0); [reflexivity|]. destruct z; reflexivity. Qed.

Section C70.
Variable float_of_str : string -> option R.
Variables json_loads yaml_load : string -> res doc.
Variable world : Bases.world.
Variable odd_dict : attrs -> res (dict string num).
Variable lha : tcard -> string.
Notation file_of := (Tool.file_of float_of_str json_loads yaml_load).
Notation card_run := (smeftsim_tool float_of_str json_loads yaml_load world odd_dict lha).
(** From file to file: the card written for a valid and complete file gives back every coefficient. *)
Theorem C70_files : forall set scheme L f o key s w d, model_set set -> input_scheme scheme -> L <> 0 ->
  file_of (source_text f s) w -> ToolConv.valid world w -> wc_basis w = "Warsaw mass" -> typed_dict float_of_str (wc_values w) = Ok d ->
  complete set (dmap cnum d) ->
  exists tc a b, card_run set scheme L f o key s = (0%Z, put (DFile o) (a ++ lha tc ++ b)%string s) /\ smeftsim_card_text set scheme = Ok (a, b) /\
    forall n v, In n (needed set) -> ~ In n (sign_lost set) -> dget d n = Some v -> (decoded_real n = true -> exists x, v = Flt x) ->
      exists z, gives set tc n z /\ near z (cnum v).
Proof.
  intros set scheme L f o key s w d M I N F V B D K.
  destruct (proj2 (proj2 (make_card_error_iff (dmap cnum d) set L scheme M)) K) as [c H].
  pose proof (make_rel d set L scheme) as R. rewrite H in R. destruct (make_tcard d set L scheme) as [tc|] eqn:T0; [|destruct R].
  destruct (proj1 (SmeftSimText.defined set scheme) (conj M I)) as ([a b] & T). exists tc, a, b.
  split; [|split; [exact T|]].
  - exact (smeftsim_fine float_of_str json_loads yaml_load world odd_dict lha set scheme L f o key s w d tc (a, b) M F V B D T0 T).
  - intros n v In1 S W Y. exact (C70_read_back set n d L scheme tc v M In1 S N T0 W Y).
Qed.
End C70.

Definition floats (set : string) : dict string num := dmap (fun z => Flt (Re z)) (ones set).
Lemma floats_get set n : dget (floats set) n = option_map (fun z => Flt (Re z)) (dget (ones set) n).
Proof. apply dget_dmap. Qed.
Lemma tcard_total set L scheme d : model_set set -> (forall n, In n (needed set) -> dget d n <> None) -> exists tc, make_tcard d set L scheme = Ok tc.
Proof.
  intros M K. assert (complete set (dmap cnum d)) as C. { intros n I. rewrite dget_values. specialize (K n I). destruct (dget d n); [discriminate|tauto]. }
  destruct (proj2 (proj2 (make_card_error_iff (dmap cnum d) set L scheme M)) C) as [c H].
  pose proof (make_rel d set L scheme) as R. rewrite H in R. destruct (make_tcard d set L scheme) as [tc|]; [eauto|destruct R].
Qed.
(** The texts of some numbers, a card of floats, and the same card with G given as a pair. *)
Example C70_numbers_case : fmt 0 = "0.000000e+00" /\ fmt 1000 = "1.000000e+03" /\ fmt 80.387 = "8.038700e+01" /\
  fmt_complex 1 0 = "1.000000e+00+0.000000e+00j".
Proof.
  split; [apply fmt_0|]. split; [|split].
  - rewrite (fmt_exact 1000 1000000 3); [reflexivity|lia|lra|]. unfold value, ten. simpl. lra.
  - rewrite (fmt_exact 80.387 8038700 1); [reflexivity|lia|lra|]. unfold value, ten. simpl. lra.
  - unfold fmt_complex, fmt_app, body. rewrite (sci_exact 1 1000000 0); [|lia|rewrite Rabs_pos_eq by lra; unfold value, ten; simpl; lra].
    unfold sci. destruct (Req_EM_T 0 0) as [_|?]; [|congruence]. destruct (Rlt_dec 1 0); [lra|]. destruct (Rlt_dec 0 0); [lra|]. reflexivity.
Qed.
Example C70_case : exists tc z, make_tcard (dset (floats "A") "phil1_12" (Cpx (0, 1))) "A" 1000 "alpha" = Ok tc /\ gives "A" tc "phil1_12" z /\ near z (0, 1).
Proof.
  assert (model_set "A") as M by (left; reflexivity).
  destruct (tcard_total "A" 1000 "alpha" (dset (floats "A") "phil1_12" (Cpx (0, 1))) M) as [tc H].
  { intros n I. rewrite dget_dset. destruct (keqb "phil1_12" n); [discriminate|]. rewrite floats_get. pose proof (ones_complete "A" n I). destruct (dget (ones "A") n); [discriminate|tauto]. }
  exists tc. destruct (C70_read_back "A" "phil1_12" (dset (floats "A") "phil1_12" (Cpx (0, 1))) 1000 "alpha" tc (Cpx (0, 1)) M) as (z & G & Z).
  - apply (proj1 (mem_In _ _ _)). vm_compute. reflexivity.
  - intros I. assert (mem "phil1_12" (sign_lost "A") = true) by (apply (proj2 (mem_In _ _ _)); exact I). discriminate.
  - lra.
  - exact H.
  - rewrite dget_dset_eq. reflexivity.
  - discriminate.
  - exists z. auto.
Qed.
Example C70_pair_case : exists tc b lab t, make_tcard (dset (floats "A") "G" (Cpx C1)) "A" 1000 "alpha" = Ok tc /\
  stands_for "G" b lab false /\ param tc b lab = Some t /\ read_number t = None.
Proof.
  assert (model_set "A") as M by (left; reflexivity).
  destruct (tcard_total "A" 1000 "alpha" (dset (floats "A") "G" (Cpx C1)) M) as [tc H].
  { intros n I. rewrite dget_dset. destruct (keqb "G" n); [discriminate|]. rewrite floats_get.
    pose proof (ones_complete "A" n I). destruct (dget (ones "A") n); [discriminate|tauto]. }
  exists tc. destruct (C70_pair_refuted "A" "G" (dset (floats "A") "G" (Cpx C1)) 1000 "alpha" tc C1 M) as (b & lab & t & P).
  - apply (proj1 (mem_In _ _ _)). vm_compute. reflexivity.
  - reflexivity.
  - intros I. assert (mem "G" (sign_lost "A") = true) by (apply (proj2 (mem_In _ _ _)); exact I). discriminate.
  - exact H.
  - rewrite dget_dset_eq. reflexivity.
  - exists b, lab, t. auto.
Qed.

Print Assumptions C70_number.
Print Assumptions C70_complex_number.
Print Assumptions C70_printed.
Print Assumptions C70_real.
Print Assumptions C70_read_back.
Print Assumptions C70_same_card.
Print Assumptions C70_readable.
Print Assumptions C70_pair_refuted.
Print Assumptions C70_pairs.
Print Assumptions C70_written.
Print Assumptions C70_files.
