(** Model of smeftsim_card_text (converters/smeftsim.py 5318-5353): the texts before
    and after the coefficients of a SMEFTsim card. *)
From Coq Require Import String Ascii List Bool Arith NArith ZArith Reals Lia.
From Verif Require Import PyBase PyDict Cplx Dump SmeftSimSyntax SmeftSimTab SmeftSim.
Import ListNotations.
Open Scope string_scope.
Open Scope list_scope.
Open Scope nat_scope.

Definition newline : string := String "010"%char "".
(** ['\n'.join(l)] *)
Fixpoint join_lines (l : list string) : string :=
  match l with [] => "" | [x] => x | x :: t => (x ++ newline ++ join_lines t)%string end.
(** [del l[n]]; IndexError for a missing entry *)
Definition del_at (n : nat) (l : list string) : res (list string) :=
  if n <? length l then Ok (firstn n l ++ skipn (S n) l) else Err IndexError.
(** [l[n] = x] *)
Definition set_at (n : nat) (x : string) (l : list string) : res (list string) :=
  if n <? length l then Ok (firstn n l ++ x :: skipn (S n) l) else Err IndexError.
(** smeftsim.py 5322-5328 *)
Definition mw_lines_A : res (list string) :=
  let! l := del_at 9 preamble_A_lines in
  let! l := set_at 2 "## PARAM_CARD FOR SMEFTSIM SET A v2.0 - FLAVOR_GENERAL MW_INPUTS  ########" l in
  let! l := set_at 32 "24 80.387000 # W+ : MW0" l in
  let! l := set_at 35 "9000003 80.387000 # ghWp : MW0" l in
  let! l := set_at 36 "9000004 80.387000 # ghWm : MW0" l in
  set_at 41 "251 80.387000 # G+ : MW0" l.
(** smeftsim.py 5333-5340; list.insert is [insert_at] *)
Definition mw_lines_B : res (list string) :=
  let! l := del_at 9 preamble_B_lines in
  let! l := del_at 32 l in let! l := del_at 34 l in let! l := del_at 34 l in let! l := del_at 38 l in
  let! l := set_at 2 "## PARAM_CARD FOR SMEFTSIM SET B  - FLAVOR_GENERAL MW_INPUTS  ########" l in
  let! l := set_at 10 "    3 1.185000e-01 # aS" l in
  let l := insert_at 26 "   24 8.038700e+01 # MW" l in
  let l := insert_at 40 "   9000003 80.387000 # ghWp : MW" l in
  let l := insert_at 41 "   9000004 80.387000 # ghWm : MW" l in
  Ok (insert_at 43 "   251 80.387000 # G+ : MW" l).
(** The lines of both texts.  For other arguments the variables are not bound. *)
Definition text_lines (set scheme : string) : res (list string * list string) :=
  if String.eqb scheme "mw" then
    if String.eqb set "A" then let! l := mw_lines_A in Ok (l, postamble_A_lines)
    else if String.eqb set "B" then let! l := mw_lines_B in Ok (l, postamble_B_lines)
    else Err UnboundLocalError
  else if String.eqb scheme "alpha" then
    if String.eqb set "A" then Ok (preamble_A_lines, postamble_A_lines)
    else if String.eqb set "B" then Ok (preamble_B_lines, postamble_B_lines)
    else Err UnboundLocalError
  else Err UnboundLocalError.
Definition smeftsim_card_text (set scheme : string) : res (string * string) :=
  let! l := text_lines set scheme in Ok (join_lines (fst l), join_lines (snd l)).

(** * Reading a card as SLHA *)
(** Words separated by blanks, up to a comment sign. *)
Fixpoint words_f (w s : string) : list string :=
  let close := match w with "" => [] | _ => [w] end in
  match s with
  | EmptyString => close
  | String a t => if Ascii.eqb a "#" then close
                  else if Ascii.eqb a " " then close ++ words_f "" t
                  else words_f (w ++ String a "")%string t
  end.
Definition words (s : string) : list string := words_f "" s.
(** The entries of the blocks: block, key, value; DECAY lines as a block of that name. *)
Definition entry := (string * string * string)%type.
Fixpoint entries_of (b : string) (l : list string) : list entry :=
  match l with
  | [] => []
  | x :: t => match words x with
              | "Block" :: n => entries_of (String.concat " " n) t
              | ["DECAY"; k; v] => ("DECAY", k, v) :: entries_of b t
              | [k; v] => (b, k, v) :: entries_of b t
              | _ => entries_of b t
              end
  end.
Definition slha (l : list string) : list entry := entries_of "" l.
Definition blocks_of (l : list string) : list string :=
  flat_map (fun x => match words x with "Block" :: n => [String.concat " " n] | _ => [] end) l.
Definition keys_of (l : list entry) : list (string * string) := map fst l.
(** A decimal number as mantissa and exponent of ten. *)
Definition digit (a : ascii) : option Z :=
  let n := N_of_ascii a in if ((48 <=? n) && (n <=? 57))%N then Some (Z.of_N n - 48)%Z else None.
Fixpoint int_f (k : Z) (s : string) : option Z :=
  match s with
  | EmptyString => Some k
  | String a t => match digit a with Some d => int_f (10 * k + d)%Z t | None => None end
  end.
Fixpoint dec_f (m e : Z) (frac : bool) (s : string) : option (Z * Z) :=
  match s with
  | EmptyString => Some (m, e)
  | String "." t => if frac then None else dec_f m e true t
  | String "e" (String "+" t) => match int_f 0 t with Some k => Some (m, e + k)%Z | None => None end
  | String "e" (String "-" t) => match int_f 0 t with Some k => Some (m, e - k)%Z | None => None end
  | String a t => match digit a with Some d => dec_f (10 * m + d) (if frac then e - 1 else e) frac t | None => None end
  end%Z.
Definition dec (s : string) : option (Z * Z) := dec_f 0 0 false s.
(** Equal values *)
Definition same_number (s t : string) : bool :=
  match dec s, dec t with
  | Some (m, e), Some (m', e') => let k := Z.min e e' in (m * 10 ^ (e - k) =? m' * 10 ^ (e' - k))%Z
  | _, _ => false
  end.

(** [text.split('\n')] *)
Fixpoint split_f (w s : string) : list string :=
  match s with
  | EmptyString => [w]
  | String a t => if Ascii.eqb a "010" then w :: split_f "" t else split_f (w ++ String a "")%string t
  end.
Definition split_lines (s : string) : list string := split_f "" s.
(** The two texts of a card read as SLHA *)
Definition head_tail (set scheme : string) : list string * list string :=
  match smeftsim_card_text set scheme with Ok (a, b) => (split_lines a, split_lines b) | Err _ => ([], []) end.
Definition settings (set scheme : string) : list entry := slha (fst (head_tail set scheme)) ++ slha (snd (head_tail set scheme)).
Definition key_eqb (a b : string * string) : bool := String.eqb (fst a) (fst b) && String.eqb (snd a) (snd b).
Definition pick (l : list entry) (b k : string) : option string :=
  option_map snd (find (fun x => key_eqb (fst x) (b, k)) l).
Definition setting (set scheme b k : string) : option string := pick (settings set scheme) b k.
(** Equal numbers *)
Definition agree (x y : option string) : Prop := match x, y with Some s, Some t => same_number s t = true | _, _ => False end.
Definition input_scheme (s : string) : Prop := s = "alpha" \/ s = "mw".

Lemma defined set scheme :
  (model_set set /\ input_scheme scheme -> exists t, smeftsim_card_text set scheme = Ok t) /\
  (~ (model_set set /\ input_scheme scheme) -> smeftsim_card_text set scheme = Err UnboundLocalError).
Proof.
  unfold model_set, input_scheme. split.
  - intros [[-> | ->] [-> | ->]]; eexists; vm_compute; reflexivity.
  - intros N. unfold smeftsim_card_text, text_lines.
    destruct (String.eqb_spec scheme "mw") as [->|M]; [|destruct (String.eqb_spec scheme "alpha") as [->|A]; [|reflexivity]];
      (destruct (String.eqb_spec set "A") as [->|SA]; [exfalso; apply N; auto|]);
      (destruct (String.eqb_spec set "B") as [->|SB]; [exfalso; apply N; auto|]); reflexivity.
Qed.
(** The lines come back. *)
Lemma settings_lines set scheme : model_set set -> input_scheme scheme ->
  text_lines set scheme = Ok (head_tail set scheme).
Proof. intros [-> | ->] [-> | ->]; vm_compute; reflexivity. Qed.
(** The four variants, evaluated *)
Record variant := Variant { v_blocks1 : list string; v_blocks2 : list string; v_entries : list entry }.
Definition variant_of (set scheme : string) : variant :=
  let h := head_tail set scheme in Variant (blocks_of (fst h)) (blocks_of (snd h)) (slha (fst h) ++ slha (snd h)).
Definition vA_alpha : variant := Eval vm_compute in variant_of "A" "alpha".
Definition vA_mw : variant := Eval vm_compute in variant_of "A" "mw".
Definition vB_alpha : variant := Eval vm_compute in variant_of "B" "alpha".
Definition vB_mw : variant := Eval vm_compute in variant_of "B" "mw".
Lemma variants_ok : (variant_of "A" "alpha" = vA_alpha /\ variant_of "A" "mw" = vA_mw) /\ (variant_of "B" "alpha" = vB_alpha /\ variant_of "B" "mw" = vB_mw).
Proof.
  split; split; [vm_cast_no_check (eq_refl vA_alpha)|vm_cast_no_check (eq_refl vA_mw)|vm_cast_no_check (eq_refl vB_alpha)|vm_cast_no_check (eq_refl vB_mw)].
Qed.
Definition look (set scheme : string) : variant :=
  if String.eqb set "A" then if String.eqb scheme "mw" then vA_mw else vA_alpha else if String.eqb scheme "mw" then vB_mw else vB_alpha.
Lemma look_ok set scheme : model_set set -> input_scheme scheme -> variant_of set scheme = look set scheme.
Proof. destruct variants_ok as [[A B] [C D]]. intros [-> | ->] [-> | ->]; assumption. Qed.
Lemma settings_look set scheme : model_set set -> input_scheme scheme -> settings set scheme = v_entries (look set scheme).
Proof. intros M I. rewrite <- look_ok by auto. reflexivity. Qed.
Definition variants : list (string * string) := [("A", "alpha"); ("A", "mw"); ("B", "alpha"); ("B", "mw")].
Lemma in_variants set scheme : model_set set -> input_scheme scheme -> In (set, scheme) variants.
Proof. intros [-> | ->] [-> | ->]; simpl; auto. Qed.
Fixpoint knodupb (l : list (string * string)) : bool :=
  match l with [] => true | x :: t => negb (existsb (key_eqb x) t) && knodupb t end.
Lemma key_eqb_eq a b : key_eqb a b = true <-> a = b.
Proof.
  unfold key_eqb. destruct a, b. cbn [fst snd]. rewrite andb_true_iff, !String.eqb_eq. split; [intros [-> ->]; auto|intros [= -> ->]; auto].
Qed.
Lemma knodupb_ok l : knodupb l = true -> NoDup l.
Proof.
  induction l as [|x t IH]; simpl; constructor; apply andb_true_iff in H as [A B]; auto.
  apply negb_true_iff in A. intros I. assert (existsb (key_eqb x) t = true); [|congruence].
  apply existsb_exists. exists x. split; auto. apply key_eqb_eq. reflexivity.
Qed.
Lemma entries_once set scheme : model_set set -> input_scheme scheme -> NoDup (keys_of (settings set scheme)).
Proof.
  intros M I. apply knodupb_ok. pose proof (in_variants _ _ M I) as V.
  rewrite settings_look by auto.
  assert (forallb (fun v => knodupb (keys_of (v_entries (look (fst v) (snd v))))) variants = true) as H by (vm_compute; reflexivity).
  rewrite forallb_forall in H. exact (H _ V).
Qed.
Lemma blocks_once d set L scheme c : model_set set -> input_scheme scheme -> make_card d set L scheme = Ok c ->
  NoDup (map lower (blocks_of (fst (head_tail set scheme)) ++ dkeys c ++ blocks_of (snd (head_tail set scheme)))).
Proof.
  intros M I E. rewrite (make_card_blocks _ _ _ _ _ M E). apply nodupb_ok.
  change (blocks_of (fst (head_tail set scheme))) with (v_blocks1 (variant_of set scheme)).
  change (blocks_of (snd (head_tail set scheme))) with (v_blocks2 (variant_of set scheme)). rewrite look_ok by auto. pose proof (in_variants _ _ M I) as V.
  assert (forallb (fun v => nodupb (map lower (v_blocks1 (look (fst v) (snd v)) ++ (if String.eqb (fst v) "A" then blocksA else blocksB) ++
    v_blocks2 (look (fst v) (snd v))))) variants = true) as H by (vm_compute; reflexivity).
  rewrite forallb_forall in H. exact (H _ V).
Qed.
Lemma setting_key set scheme b k : setting set scheme b k <> None <-> In (b, k) (keys_of (settings set scheme)).
Proof.
  unfold setting, pick, keys_of. rewrite in_map_iff. split.
  - destruct (find _ _) as [x|] eqn:F; [|intros H; elim H; reflexivity]. intros _. apply find_some in F as [I E].
    apply key_eqb_eq in E. exists x. auto.
  - intros (x & E & I). destruct (find _ _) as [y|] eqn:F; [discriminate|]. intros _.
    pose proof (find_none _ _ F x I) as N. cbv beta in N. rewrite E in N. assert (key_eqb (b, k) (b, k) = true) by (apply key_eqb_eq; auto). congruence.
Qed.
Definition incl_b (l r : list (string * string)) : bool := forallb (fun x => existsb (key_eqb x) r) l.
Lemma incl_b_ok l r : incl_b l r = true -> incl l r.
Proof.
  intros H x I. unfold incl_b in H. rewrite forallb_forall in H. specialize (H x I). apply existsb_exists in H as (y & Y & E).
  apply key_eqb_eq in E. subst. exact Y.
Qed.
Lemma same_parameters set b k : model_set set ->
  (setting set "mw" b k <> None <-> setting set "alpha" b k <> None /\ (b, k) <> ("SMINPUTS", "1")).
Proof.
  intros M. rewrite !setting_key, !settings_look by (auto; unfold input_scheme; auto).
  assert (forallb (fun s => incl_b (keys_of (v_entries (look s "mw"))) (keys_of (v_entries (look s "alpha"))) &&
    incl_b (keys_of (v_entries (look s "alpha"))) (("SMINPUTS", "1") :: keys_of (v_entries (look s "mw"))) &&
    negb (existsb (key_eqb ("SMINPUTS", "1")) (keys_of (v_entries (look s "mw"))))) ["A"; "B"] = true) as H by (vm_compute; reflexivity).
  rewrite forallb_forall in H. specialize (H set ltac:(destruct M as [-> | ->]; simpl; auto)).
  apply andb_true_iff in H as [H N]. apply andb_true_iff in H as [H1 H2]. apply incl_b_ok in H1, H2.
  apply negb_true_iff in N. split.
  - intros I. split; [exact (H1 _ I)|]. intros Q. rewrite Q in I. assert (existsb (key_eqb ("SMINPUTS", "1")) (keys_of (v_entries (look set "mw"))) = true); [|congruence].
    apply existsb_exists. exists ("SMINPUTS", "1"). split; auto.
  - intros [I D]. destruct (H2 _ I) as [E|E]; [congruence|exact E].
Qed.
Definition w_keys : list string := ["24"; "9000003"; "9000004"; "251"].
Definition excepted (s : string) (x : string * string) : bool :=
  (String.eqb (fst x) "MASS" && existsb (String.eqb (snd x)) w_keys) || (String.eqb s "B" && key_eqb x ("SMINPUTS", "3")).
Definition opt_eqb (x y : option string) : bool :=
  match x, y with Some s, Some t => String.eqb s t | None, None => true | _, _ => false end.
Lemma opt_eqb_eq x y : opt_eqb x y = true -> x = y.
Proof. destruct x, y; simpl; try discriminate; auto. intros H. apply String.eqb_eq in H. congruence. Qed.
Lemma same_values set b k v : model_set set -> setting set "mw" b k = Some v ->
  ~ (b = "MASS" /\ In k w_keys) -> (set = "B" -> (b, k) <> ("SMINPUTS", "3")) -> setting set "alpha" b k = Some v.
Proof.
  intros M S N B. unfold setting in *. rewrite settings_look in * by (auto; unfold input_scheme; auto).
  assert (forallb (fun s => forallb (fun x => excepted s x || opt_eqb (pick (v_entries (look s "alpha")) (fst x) (snd x)) (pick (v_entries (look s "mw")) (fst x) (snd x)))
    (keys_of (v_entries (look s "mw")))) ["A"; "B"] = true) as H by (vm_compute; reflexivity).
  rewrite forallb_forall in H. specialize (H set ltac:(destruct M as [-> | ->]; simpl; auto)).
  rewrite forallb_forall in H. specialize (H (b, k) ltac:(rewrite <- settings_look by (auto; unfold input_scheme; auto); apply setting_key; unfold setting; rewrite settings_look by (auto; unfold input_scheme; auto); congruence)). cbn [fst snd] in H.
  apply orb_true_iff in H as [H|H].
  - exfalso. unfold excepted in H. apply orb_true_iff in H as [H|H]; apply andb_true_iff in H as [H1 H2]; cbn [fst snd] in H1, H2; apply String.eqb_eq in H1.
    + apply existsb_exists in H2 as (y & Y & E). apply String.eqb_eq in E. subst. apply N. auto.
    + apply key_eqb_eq in H2. apply B; auto.
  - apply opt_eqb_eq in H. congruence.
Qed.
Lemma strong_coupling : setting "B" "alpha" "SMINPUTS" "3" = Some "1.181000e-01" /\ setting "B" "mw" "SMINPUTS" "3" = Some "1.185000e-01".
Proof. unfold setting. rewrite !settings_look by (unfold model_set, input_scheme; auto). split; vm_compute; reflexivity. Qed.
Definition agreeb (x y : option string) : bool := match x, y with Some s, Some t => same_number s t | _, _ => false end.
Lemma agreeb_ok x y : agreeb x y = true -> agree x y.
Proof. destruct x, y; simpl; auto; discriminate. Qed.
Lemma partners set scheme b x y : model_set set -> input_scheme scheme -> In b ["MASS"; "DECAY"] ->
  In (x, y) [("9000003", "24"); ("9000004", "24"); ("251", "24"); ("9000002", "23"); ("250", "23"); ("9000001", "22"); ("82", "21")] ->
  agree (setting set scheme b x) (setting set scheme b y).
Proof.
  intros M I B P. apply agreeb_ok. unfold setting. rewrite settings_look by auto.
  assert (forallb (fun v => forallb (fun b => forallb (fun q => agreeb (pick (v_entries (look (fst v) (snd v))) b (fst q)) (pick (v_entries (look (fst v) (snd v))) b (snd q)))
    [("9000003", "24"); ("9000004", "24"); ("251", "24"); ("9000002", "23"); ("250", "23"); ("9000001", "22"); ("82", "21")]) ["MASS"; "DECAY"]) variants = true) as H by (vm_compute; reflexivity).
  rewrite forallb_forall in H. specialize (H _ (in_variants _ _ M I)). rewrite forallb_forall in H. specialize (H b B).
  rewrite forallb_forall in H. exact (H (x, y) P).
Qed.
Lemma yukawa set scheme k : model_set set -> input_scheme scheme ->
  In k ["1"; "2"; "3"; "4"; "5"; "6"; "11"; "13"; "15"] -> agree (setting set scheme "YUKAWA" k) (setting set scheme "MASS" k).
Proof.
  intros M I K. apply agreeb_ok. unfold setting. rewrite settings_look by auto.
  assert (forallb (fun v => forallb (fun k => agreeb (pick (v_entries (look (fst v) (snd v))) "YUKAWA" k) (pick (v_entries (look (fst v) (snd v))) "MASS" k))
    ["1"; "2"; "3"; "4"; "5"; "6"; "11"; "13"; "15"]) variants = true) as H by (vm_compute; reflexivity).
  rewrite forallb_forall in H. specialize (H _ (in_variants _ _ M I)). rewrite forallb_forall in H. exact (H k K).
Qed.
Lemma w_mass d L c : make_card d "A" L "mw" = Ok c ->
  card_row c "FRBlock" ([1475%N], RtoC 80.387, "# MW0") /\ agree (setting "A" "mw" "MASS" "24") (Some "80.387") /\ agree (setting "B" "mw" "MASS" "24") (Some "80.387").
Proof.
  intros E. split; [|unfold setting; rewrite !settings_look by (unfold model_set, input_scheme; auto); split; vm_compute; reflexivity].
  apply (card_rows d "A" L "mw" c "FRBlock" mw_row (or_introl eq_refl) E). right. auto.
Qed.
