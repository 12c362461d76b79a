(** The command lines that are accepted, and the order of words that is not. *)
From Coq Require Import String Ascii List Bool Arith ZArith Reals Lia.
From Verif Require Import PyBase PyDict Dump Cli Args ArgsFacts.
Import ListNotations.
Open Scope string_scope.
Open Scope list_scope.
Open Scope nat_scope.

(** A word that argparse takes for a value: not starting with "-", or "-" itself, or a negative number (-12, -1.5, -.5), or
    with a space before any "=" and not starting with "-h". *)
Fixpoint digits (t : string) : Prop := match t with EmptyString => True | String c t => In c ["0"; "1"; "2"; "3"; "4"; "5"; "6"; "7"; "8"; "9"]%char /\ digits t end.
Fixpoint without (c : ascii) (t : string) : Prop := match t with EmptyString => True | String d t => d <> c /\ without c t end.
Definition minus (w : string) : Prop :=
  (exists a, w = String "-" a /\ a <> "" /\ digits a) \/ (exists a b, w = String "-" (a ++ String "." b) /\ b <> "" /\ digits a /\ digits b).
Definition spaced_word (w : string) : Prop := (exists a b, w = (a ++ String " " b)%string /\ without "=" a) /\ String.prefix "-h" w = false.
Definition plain (w : string) : Prop := match w with String c (String _ _) => c = "-"%char -> minus w \/ spaced_word w | _ => True end.
(** All options start with "--" and have no space and no "=". *)
Fixpoint name_ok (f : string) : bool := match f with EmptyString => true | String c t => negb (Ascii.eqb c " ") && negb (Ascii.eqb c "=") && name_ok t end.
Definition flag_ok (f : string) : bool := String.prefix "--" f && name_ok f.
Definition usual (p : parser) : Prop := forallb (fun x => flag_ok (fst x)) (flags p) = true.
Lemma usual_none p w : usual p -> String.prefix "--" w = false -> dget (flags p) w = None.
Proof.
  unfold usual. intros U N. destruct (dget (flags p) w) as [a|] eqn:G; [|reflexivity]. apply dget_In in G. rewrite forallb_forall in U. specialize (U _ G). cbn in U.
  unfold flag_ok in U. rewrite N in U. discriminate.
Qed.
Lemma has_space_app a b : has_space (a ++ String " " b) = true.
Proof. induction a as [|c a IH]; cbn; [reflexivity|]. rewrite IH. apply orb_true_r. Qed.
Lemma name_ok_space f : has_space f = true -> name_ok f = false.
Proof. induction f as [|c f IH]; cbn; [discriminate|]. destruct (Ascii.eqb c " "); cbn; [reflexivity|]. intros H. rewrite IH by exact H. apply andb_false_r. Qed.
Lemma usual_space p w : usual p -> has_space w = true -> dget (flags p) w = None.
Proof.
  unfold usual. intros U N. destruct (dget (flags p) w) as [a|] eqn:G; [|reflexivity]. apply dget_In in G. rewrite forallb_forall in U. specialize (U _ G). cbn in U.
  unfold flag_ok in U. rewrite (name_ok_space w N), andb_false_r in U. discriminate.
Qed.
Lemma prefix_space w : forall f, has_space w = true -> String.prefix w f = true -> has_space f = true.
Proof.
  induction w as [|c w IH]; intros [|d f]; cbn; try discriminate. destruct (Ascii.ascii_dec c d) as [->|]; [|discriminate].
  destruct (Ascii.eqb d " "); cbn; [reflexivity|]. apply IH.
Qed.
Lemma is_digit_iff c : is_digit c = true <-> In c ["0"; "1"; "2"; "3"; "4"; "5"; "6"; "7"; "8"; "9"]%char.
Proof.
  split.
  - unfold is_digit. rewrite andb_true_iff, !Nat.leb_le. intros [A B]. assert (exists k, k < 10 /\ nat_of_ascii c = 48 + k) as (k & K & E) by (exists (nat_of_ascii c - 48); lia).
    rewrite <- (ascii_nat_embedding c), E. do 10 (destruct k as [|k]; [cbn; auto 12|]). lia.
  - cbn. intros H. repeat (destruct H as [<-|H]; [reflexivity|]). destruct H.
Qed.
Lemma all_digits_iff t : all_digits t = true <-> digits t.
Proof. induction t as [|c t IH]; cbn [all_digits digits]; [tauto|]. rewrite andb_true_iff, is_digit_iff, IH. tauto. Qed.
Lemma point_digits_iff t : point_digits t = true <-> exists a b, t = (a ++ String "." b)%string /\ b <> "" /\ digits a /\ digits b.
Proof.
  split.
  - induction t as [|c t IH]; cbn [point_digits]; [discriminate|]. destruct (Ascii.eqb_spec c ".") as [->|N].
    + rewrite andb_true_iff, negb_true_iff, all_digits_iff. intros [A B]. apply String.eqb_neq in A. exists "", t. cbn. auto.
    + rewrite andb_true_iff, is_digit_iff. intros [A B]. destruct (IH B) as (a & b & -> & B1 & B2 & B3). exists (String c a), b. split; [reflexivity|]. split; [exact B1|]. split; [split; assumption|exact B3].
  - intros (a & b & -> & B1 & B2 & B3). induction a as [|c a IH].
    + cbn [append point_digits Ascii.eqb Bool.eqb]. apply all_digits_iff in B3. apply String.eqb_neq in B1. rewrite B1, B3. reflexivity.
    + destruct B2 as [B2 B2']. cbn [append point_digits]. destruct (Ascii.eqb_spec c "."); [subst c; cbn in B2; exfalso; repeat (destruct B2 as [B2|B2]; [discriminate B2|]); exact B2|].
      apply is_digit_iff in B2. rewrite B2, (IH B2'). reflexivity.
Qed.
Lemma minus_iff w : negative_number w = true <-> minus w.
Proof.
  unfold minus. destruct w as [|c t]; cbn [negative_number].
  - split; [discriminate|]. intros [(a & H & _)|(a & b & H & _)]; discriminate.
  - rewrite andb_true_iff, orb_true_iff, andb_true_iff, negb_true_iff, all_digits_iff, point_digits_iff, String.eqb_neq, Ascii.eqb_eq. split.
    + intros (-> & [[A B]|(a & b & -> & A)]); [left; exists t|right; exists a, b]; auto.
    + intros [(a & [= -> ->] & A)|(a & b & [= -> ->] & A)]; split; auto. right. exists a, b. auto.
Qed.
Lemma digits_without c t : ~ In c ["0"; "1"; "2"; "3"; "4"; "5"; "6"; "7"; "8"; "9"]%char -> digits t -> without c t.
Proof. intros N. induction t as [|d t IH]; cbn [digits without]; [auto|]. intros [A B]. split; [congruence|apply IH, B]. Qed.
Lemma without_app c a b : without c a -> without c b -> without c (a ++ b).
Proof. induction a as [|d a IH]; cbn; [auto|]. tauto. Qed.
Lemma cut_without t : without "=" t -> cut t = None.
Proof. induction t as [|d t IH]; cbn [without cut]; [reflexivity|]. intros [A B]. destruct (Ascii.eqb_spec d "="); [contradiction|]. rewrite IH by exact B. reflexivity. Qed.
Lemma minus_form w : minus w -> without "=" w /\ exists c t, w = String "-" (String c t) /\ c <> "-"%char /\ c <> "h"%char.
Proof.
  intros H. split.
  - destruct H as [(a & -> & A & D)|(a & b & -> & A & D & E)]; (split; [discriminate|]).
    + apply digits_without; [cbn; intros Q; repeat (destruct Q as [Q|Q]; [discriminate Q|]); exact Q|exact D].
    + apply without_app; [|split; [discriminate|]]; apply digits_without; auto; cbn; intros Q; repeat (destruct Q as [Q|Q]; [discriminate Q|]); exact Q.
  - assert (forall c, In c ["0"; "1"; "2"; "3"; "4"; "5"; "6"; "7"; "8"; "9"]%char -> c <> "-"%char /\ c <> "h"%char) as Q.
    { intros c K. cbn in K. repeat (destruct K as [<-|K]; [split; discriminate|]). destruct K. }
    destruct H as [(a & -> & A & D)|(a & b & -> & A & D & E)].
    + destruct a as [|c a]; [contradiction|]. exists c, a. split; [reflexivity|]. apply Q, D.
    + destruct a as [|c a]; cbn [append]; [exists "."%char, b; split; [reflexivity|split; discriminate]|]. exists c, (a ++ String "." b)%string. split; [reflexivity|]. apply Q, D.
Qed.
Lemma no_abbreviations p c t : c <> "-"%char -> c <> "h"%char -> abbreviations p (String "-" (String c t)) = [].
Proof.
  intros A B. unfold abbreviations. cbn [String.prefix]. destruct (Ascii.ascii_dec "-" "-"); [|congruence]. destruct (Ascii.ascii_dec "-" c); [congruence|].
  destruct c as [[] [] [] [] [] [] [] []]; try reflexivity; contradiction.
Qed.
Lemma no_lookup p c t e : usual p -> c <> "-"%char -> String c t <> "h" -> lookup p (String "-" (String c t)) e = None.
Proof.
  intros U A B. unfold lookup. destruct (String.eqb_spec (String "-" (String c t)) "-h") as [E|_]; [congruence|].
  destruct (String.eqb_spec (String "-" (String c t)) "--help") as [E|_]; [congruence|]. rewrite usual_none; [reflexivity|exact U|].
  cbn [String.prefix]. destruct (Ascii.ascii_dec "-" "-"); [|congruence]. destruct (Ascii.ascii_dec "-" c); [congruence|reflexivity].
Qed.
(** A word that starts with "-", another character than "-" and "h" follows: a value or an unknown option *)
Lemma dashed_classify p c t s : usual p -> c <> "-"%char -> c <> "h"%char ->
  classify p (String "-" (String c t)) s = (Ret (if negative_number (String "-" (String c t)) || has_space (String "-" (String c t)) then CA else CO OUnknown), s).
Proof.
  intros U A B. unfold classify. change (negb (Ascii.eqb "-" "-")) with false. cbv iota. rewrite no_lookup; [|exact U|exact A|congruence]. cbn [String.eqb].
  assert (match cut (String "-" (String c t)) with Some (a, b) => lookup p a (Some b) | None => None end = None) as ->.
  { cbn [cut Ascii.eqb Bool.eqb]. destruct (Ascii.eqb c "="); [|destruct (cut t) as [[a b]|]; [|reflexivity]].
    - unfold lookup. cbn [String.eqb Ascii.eqb Bool.eqb]. rewrite usual_none; [reflexivity|exact U|reflexivity].
    - apply no_lookup; auto. congruence. }
  rewrite no_abbreviations by assumption. destruct (_ || _); reflexivity.
Qed.
Lemma cut_space a b : without "=" a -> match cut (a ++ String " " b) with Some (q, _) => has_space q = true | None => True end.
Proof.
  induction a as [|c a IH]; cbn [append cut without].
  - intros _. cbn [Ascii.eqb Bool.eqb]. destruct (cut b) as [[x y]|]; [reflexivity|exact I].
  - intros [A B]. destruct (Ascii.eqb_spec c "="); [contradiction|]. specialize (IH B). destruct (cut (a ++ String " " b)) as [[x y]|]; [|exact I]. cbn [has_space]. rewrite IH. apply orb_true_r.
Qed.
Lemma lookup_space p q e : usual p -> has_space q = true -> lookup p q e = None.
Proof.
  intros U H. unfold lookup. destruct (String.eqb_spec q "-h") as [->|_]; [discriminate|]. destruct (String.eqb_spec q "--help") as [->|_]; [discriminate|].
  rewrite usual_space by assumption. reflexivity.
Qed.
Lemma no_options p q e : usual p -> has_space q = true ->
  (if String.prefix q "--help" then [OHelp true e] else []) ++ map (fun fa => OOpt (snd fa) e) (filter (fun fa : string * arg => String.prefix q (fst fa)) (flags p)) = [].
Proof.
  intros U H. destruct (String.prefix q "--help") eqn:P; [apply (prefix_space q _ H) in P; discriminate|]. cbn [app].
  unfold usual in U. induction (flags p) as [|[f a] l IH]; cbn [filter map forallb fst] in *; [reflexivity|]. apply andb_true_iff in U. destruct U as [U1 U2].
  destruct (String.prefix q f) eqn:P1; [|apply IH, U2]. apply (prefix_space q _ H) in P1. unfold flag_ok in U1. rewrite (name_ok_space f P1), andb_false_r in U1. discriminate.
Qed.
Lemma spaced_classify p w s : usual p -> spaced_word w -> classify p w s = (Ret CA, s).
Proof.
  intros U [(a & b & E & W) H]. pose proof (has_space_app a b) as Sp. rewrite <- E in Sp. pose proof (cut_space a b W) as Cu. rewrite <- E in Cu.
  assert (abbreviations p w = []) as Ab.
  { unfold abbreviations. destruct (String.prefix "--" w).
    - destruct (cut w) as [[q e]|]; [apply no_options; assumption|apply no_options; assumption].
    - clear E. destruct w as [|c [|d t]]; [reflexivity|destruct c as [[] [] [] [] [] [] [] []]; reflexivity|].
      destruct (Ascii.ascii_dec c "-") as [->|N]; [|destruct c as [[] [] [] [] [] [] [] []]; try reflexivity; contradiction].
      destruct (Ascii.ascii_dec d "h") as [->|N]; [|destruct d as [[] [] [] [] [] [] [] []]; try reflexivity; contradiction]. destruct t; discriminate. }
  destruct w as [|c t]; [reflexivity|]. unfold classify. destruct (negb (Ascii.eqb c "-")); [reflexivity|]. rewrite lookup_space by assumption.
  destruct (String.eqb t ""); [reflexivity|].
  assert (match cut (String c t) with Some (a, b) => lookup p a (Some b) | None => None end = None) as ->.
  { destruct (cut (String c t)) as [[q e]|]; [|reflexivity]. apply lookup_space; assumption. }
  rewrite Ab, Sp, orb_true_r. reflexivity.
Qed.
Lemma plain_classify p w s : usual p -> plain w -> classify p w s = (Ret CA, s).
Proof.
  intros U. destruct w as [|c [|c2 t]]; cbn [plain]; [reflexivity| |].
  - intros _. unfold classify. destruct (Ascii.eqb_spec c "-"); cbn [negb]; [|reflexivity]. subst c.
    unfold lookup. cbn [String.eqb Ascii.eqb Bool.eqb]. rewrite usual_none by (auto; reflexivity). reflexivity.
  - intros N. destruct (Ascii.ascii_dec c "-") as [->|M].
    + destruct (N eq_refl) as [H|H]; [|apply spaced_classify; assumption]. destruct (minus_form _ H) as (_ & d & u & [= -> ->] & A & B).
      rewrite dashed_classify by assumption. apply minus_iff in H. rewrite H. reflexivity.
    + unfold classify. destruct (Ascii.eqb_spec c "-"); [contradiction|]. reflexivity.
Qed.
Lemma plain_two : ~ plain "--".
Proof.
  intros H. destruct (H eq_refl) as [M|[(a & b & E & _) _]].
  - apply minus_iff in M. discriminate.
  - pose proof (has_space_app a b) as Sp. rewrite <- E in Sp. discriminate.
Qed.
Lemma plain_dashes w : plain w -> String.eqb w "--" = false.
Proof. intros H. apply String.eqb_neq. intros ->. exact (plain_two H). Qed.

Section Forms.
Variable stdin : string.
Variable creatable : string -> bool.
Variable float_of_str : string -> option R.
Notation convert := (convert stdin creatable float_of_str).
Notation pos_value := (pos_value stdin creatable float_of_str).
Notation opt_value := (opt_value stdin creatable float_of_str).
Notation take_pos := (take_pos stdin creatable float_of_str).
Notation take_all := (take_all stdin creatable float_of_str).
Notation take_opt := (take_opt stdin creatable float_of_str).
Notation loop := (loop stdin creatable float_of_str).
Notation parse_known := (parse_known stdin creatable float_of_str).
Notation parse_args := (parse_args stdin creatable float_of_str).
Notation run_sub := (run_sub stdin creatable float_of_str).

(** ** Rounds of the loop *)
Lemma cluster_ret A e s (a : A) : fst (cluster e s) <> Ret a.
Proof.
  induction e as [|c t IH]; cbn [cluster]; [discriminate|]. destruct (Ascii.eqb c "h"); [|discriminate].
  destruct (String.eqb t ""); [discriminate|exact IH].
Qed.
Lemma take_opt_length w o l g s x s' : take_opt w o l g s = (Ret x, s') -> length (fst x) <= length l.
Proof.
  unfold Args.take_opt. destruct o as [|[] [e|]|a [e|]]; try discriminate.
  - intros [= <- <-]. cbn. lia.
  - intros H. exfalso. eapply (cluster_ret _ e s). rewrite H. reflexivity.
  - unfold pbind, ret. destruct (opt_value a [e] s) as [[v| |] s1]; try discriminate. intros [= <- <-]. cbn. lia.
  - assert (forall q, length q <= length l -> forall r, (do* y <- opt_value a r; ret (q, put_value a y g)) s = (Ret x, s') -> length (fst x) <= length l) as D.
    { intros q L r. unfold pbind, ret. destruct (opt_value a r s) as [[v| |] s1]; try discriminate. intros [= <- <-]. exact L. }
    destruct l as [|[v [| |o]] t]; try (destruct (many a); [apply D; lia|discriminate]). apply D. cbn. lia.
Qed.
Section Engine.
Variable sub : list string -> got -> P got.
Lemma loop_fuel n : forall m l ps g s, length l < n -> length l < m -> loop sub n l ps g s = loop sub m l ps g s.
Proof.
  induction n as [|n IH]; intros [|m] l ps g s H G; try lia. cbn [Args.loop].
  destruct (existsb is_opt l) eqn:E; [|reflexivity].
  assert (forall (x : list token * got), length (fst x) < length l -> forall s', loop sub n (fst x) ps (snd x) s' = loop sub m (fst x) ps (snd x) s') as D.
  { intros x L s'. apply IH; lia. }
  destruct l as [|[w c] t]; [discriminate|]. destruct c as [| |o].
  3:{ unfold pbind. destruct (take_opt w o t g s) as [[x| |] s'] eqn:T; auto. apply take_opt_length in T. apply D. cbn. lia. }
  all: destruct (consume ps _) as [[x r] ps']; destruct (length r <? length _) eqn:B;
    [apply Nat.ltb_lt in B; unfold pbind; destruct (take_all sub x g s) as [[g'| |] s']; auto; apply IH; lia|].
  all: destruct (span (fun t => negb (is_opt t)) _) as [a b] eqn:W; assert (length b <= length t) as L by
    (cbn [span is_opt snd negb] in W; destruct (span _ t) as [a' b'] eqn:W'; apply span_app in W'; destruct W' as [-> _];
     injection W as <- <-; rewrite app_length; lia).
  all: cbn [length] in *; apply IH; lia.
Qed.
Definition run (l : list token) (ps : list posarg) (g : got) : P (list posarg * got) := loop sub (S (length l)) l ps g.
Lemma loop_opt n w o t ps g : loop sub (S n) ((w, CO o) :: t) ps g = (do* x <- take_opt w o t g; loop sub n (fst x) ps (snd x)).
Proof. reflexivity. Qed.
Lemma loop_word n w t ps g : existsb is_opt t = true -> loop sub (S n) ((w, CA) :: t) ps g =
  let '(x, r, ps') := consume ps ((w, CA) :: t) in
  if length r <? S (length t) then do* g' <- take_all sub x g; loop sub n r ps' g'
  else let '(a, b) := span (fun t => negb (is_opt t)) ((w, CA) :: t) in loop sub n b ps (add_extra (map fst a) g).
Proof. intros E. cbn [Args.loop existsb is_opt snd orb]. rewrite E. reflexivity. Qed.
Lemma loop_end n l ps g : existsb is_opt l = false -> loop sub (S n) l ps g =
  let '(x, r, ps') := consume ps l in do* g' <- take_all sub x g; ret (ps', add_extra (map fst r) g').
Proof. intros E. cbn [Args.loop]. rewrite E. reflexivity. Qed.
Lemma run_opt w o t ps g s : run ((w, CO o) :: t) ps g s = (do* x <- take_opt w o t g; run (fst x) ps (snd x)) s.
Proof.
  unfold run at 1. cbn [length]. rewrite loop_opt. unfold pbind.
  destruct (take_opt w o t g s) as [[x| |] s'] eqn:T; auto. apply take_opt_length in T. unfold run. apply loop_fuel; lia.
Qed.
Lemma run_pos w t ps g s x r : existsb is_opt t = true -> consume ps ((w, CA) :: t) = (x, r, []) -> length r <= length t ->
  run ((w, CA) :: t) ps g s = (do* g' <- take_all sub x g; run r [] g') s.
Proof.
  intros E C L. unfold run at 1. cbn [length]. rewrite loop_word, C by auto.
  replace (length r <? S (length t)) with true by (symmetry; apply Nat.ltb_lt; lia). unfold pbind.
  destruct (take_all sub x g s) as [[g'| |] s']; auto. unfold run. apply loop_fuel; lia.
Qed.
Lemma run_end l ps g s x r ps' : existsb is_opt l = false -> consume ps l = (x, r, ps') ->
  run l ps g s = (do* g' <- take_all sub x g; ret (ps', add_extra (map fst r) g')) s.
Proof. intros E C. unfold run. rewrite loop_end, C by auto. reflexivity. Qed.
Lemma run_extra w t g s : existsb is_opt t = true -> (match t with (_, CO _) :: _ => True | _ => False end) ->
  run ((w, CA) :: t) [] g s = run t [] (add_extra [w] g) s.
Proof.
  intros E H. unfold run. cbn [length]. rewrite loop_word by auto. cbn [consume length]. rewrite Nat.ltb_irrefl.
  destruct t as [|[v [| |o]] t]; try contradiction. reflexivity.
Qed.

(** ** Groups of words that set an option *)
Inductive block := Spaced (f v : string) | Equals (f v : string) | Bare (f : string).
Definition words (b : block) : list string :=
  match b with Spaced f v => [f; v] | Equals f v => [(f ++ "=" ++ v)%string] | Bare f => [f] end.
Definition given (b : block) : list string := match b with Spaced _ v | Equals _ v => [v] | Bare _ => [] end.
Definition toks (x : block * arg) : list token :=
  match fst x with
  | Spaced f v => [(f, CO (OOpt (snd x) None)); (v, CA)]
  | Equals f v => [((f ++ "=" ++ v)%string, CO (OOpt (snd x) (Some v)))]
  | Bare f => [(f, CO (OOpt (snd x) None))]
  end.
(** [f] names the option [a]. *)
Definition names (p : parser) (f : string) (a : arg) : Prop :=
  String.eqb f "--" = false /\ (forall s, classify p f s = (Ret (CO (OOpt a None)), s)) /\
  forall v, String.eqb (f ++ "=" ++ v) "--" = false /\ forall s, classify p (f ++ "=" ++ v)%string s = (Ret (CO (OOpt a (Some v))), s).
Definition is_block (p : parser) (x : block * arg) : Prop :=
  match fst x with
  | Spaced f v => names p f (snd x) /\ plain v
  | Equals f v => names p f (snd x)
  | Bare f => names p f (snd x) /\ many (snd x) = true
  end.
Definition reads (p : parser) (l : list string) (t : list token) : Prop := forall s, tokens p l s = (Ret t, s).
Lemma reads_cons p w c l t : String.eqb w "--" = false -> (forall s, classify p w s = (Ret c, s)) -> reads p l t -> reads p (w :: l) ((w, c) :: t).
Proof. intros E C R s. cbn [tokens]. rewrite E. unfold pbind. rewrite C, R. reflexivity. Qed.
Lemma reads_plain p w l t : usual p -> plain w -> reads p l t -> reads p (w :: l) ((w, CA) :: t).
Proof. intros U H R. apply reads_cons; auto; [apply plain_dashes; auto|]. intros s. apply plain_classify; auto. Qed.
Lemma reads_plains p ws l t : usual p -> Forall plain ws -> reads p l t -> reads p (ws ++ l) (map (fun w => (w, CA)) ws ++ t).
Proof. intros U F R. induction F; simpl; auto. apply reads_plain; auto. Qed.
Lemma reads_blocks p bs l t : usual p -> Forall (is_block p) bs -> reads p l t -> reads p (flat_map words (map fst bs) ++ l) (flat_map toks bs ++ t).
Proof.
  intros U F R. induction F as [|[b a] bs H F IH]; auto. cbn [map flat_map fst]. rewrite <- !app_assoc.
  destruct b as [f v|f v|f]; cbn [is_block words toks fst snd app] in *.
  - destruct H as [(H1 & H2 & H3) H4]. apply reads_cons; auto. apply reads_plain; auto.
  - destruct H as (H1 & H2 & H3). apply reads_cons; auto; apply H3.
  - destruct H as [(H1 & H2 & H3) H4]. apply reads_cons; auto.
Qed.
Fixpoint set_opts (bs : list (block * arg)) (g : got) : P got :=
  match bs with [] => ret g | x :: t => do* v <- opt_value (snd x) (given (fst x)); set_opts t (put_value (snd x) v g) end.
(** The last group has a value. *)
Definition closed (bs : list block) : Prop := match rev bs with Bare _ :: _ => False | _ => True end.
Lemma closed_cons b b' bs : closed (b :: b' :: bs) -> closed (b' :: bs).
Proof. unfold closed. cbn [rev]. destruct (rev bs ++ [b']) eqn:E; [destruct (rev bs); discriminate|]. auto. Qed.
Definition no_word (l : list token) : Prop := match l with (_, CA) :: _ => False | _ => True end.
Lemma toks_no_word p x l : is_block p x -> no_word (toks x ++ l).
Proof. destruct x as [[f v|f v|f] a]; exact (fun _ => I). Qed.
Lemma run_blocks p bs : forall l ps g s, Forall (is_block p) bs -> closed (map fst bs) \/ no_word l ->
  run (flat_map toks bs ++ l) ps g s = (do* g' <- set_opts bs g; run l ps g') s.
Proof.
  induction bs as [|[b a] bs IH]; intros l ps g s F C; [reflexivity|]. inversion F as [|? ? H F']; subst.
  cbn [flat_map set_opts fst snd]. rewrite <- app_assoc.
  assert (closed (map fst bs) \/ no_word l) as C'.
  { destruct C as [C|C]; auto. destruct bs as [|b' bs]; [left; exact I|]. left. cbn [map fst] in *. apply closed_cons in C. exact C. }
  assert (no_word (flat_map toks bs ++ l) \/ closed [b]) as W.
  { destruct bs as [|b' bs]; [|left; cbn [flat_map]; rewrite <- app_assoc; eapply toks_no_word; inversion F'; eauto].
    cbn [flat_map app]. destruct C as [C|C]; auto. }
  assert (forall v (s' : st), (do* g' <- set_opts bs (put_value a v g); run l ps g') s' = run (flat_map toks bs ++ l) ps (put_value a v g) s') as D.
  { intros v s'. symmetry. apply IH; auto. }
  assert (forall r (q : list token), (do* x <- (do* y <- opt_value a r; ret (q, put_value a y g)); run (fst x) ps (snd x)) s =
    (do* y <- opt_value a r; run q ps (put_value a y g)) s) as Q.
  { intros r q. unfold pbind, ret. destruct (opt_value a r s) as [[]]; reflexivity. }
  assert (forall r, (do* g' <- (do* v <- opt_value a r; set_opts bs (put_value a v g)); run l ps g') s =
    (do* v <- opt_value a r; run (flat_map toks bs ++ l) ps (put_value a v g)) s) as Z.
  { intros r. unfold pbind at 2 3. unfold pbind at 1. destruct (opt_value a r s) as [[v| |] s']; auto. apply (D v s'). }
  destruct b as [f v|f v|f]; cbn [toks fst snd app given is_block] in *; rewrite run_opt, Z; cbn [Args.take_opt].
  - apply Q.
  - apply Q.
  - destruct H as [_ M]. destruct W as [W|W]; [|destruct W]. rewrite M.
    destruct (flat_map toks bs ++ l) as [|[w [| |o]] t]; try contradiction; apply Q.
Qed.
Lemma toks_opt p x : is_block p x -> existsb is_opt (toks x) = true /\ (forall l, match toks x ++ l with (_, CO _) :: _ => True | _ => False end).
Proof. destruct x as [[f v|f v|f] a]; intros _; split; try reflexivity; intros l; exact I. Qed.

(** ** Whole command lines *)
Definition takes (ps : list posarg) (ws : list string) (x : list (posarg * list string)) : Prop :=
  forall l, no_word l -> (forall w t, l <> (w, CDash) :: t) -> consume ps (map (fun w => (w, CA)) ws ++ l) = (x, l, []).
Lemma blocks_head p bs : Forall (is_block p) bs -> bs <> [] ->
  existsb is_opt (flat_map toks bs) = true /\ no_word (flat_map toks bs) /\ (forall w t, flat_map toks bs <> (w, CDash) :: t) /\
  (match flat_map toks bs with (_, CO _) :: _ => True | _ => False end).
Proof.
  intros F N. destruct bs as [|b bs]; [congruence|]. inversion F as [|? ? H _]; subst. cbn [flat_map].
  rewrite existsb_app. destruct (toks_opt p b H) as [E K]. rewrite E. specialize (K (flat_map toks bs)).
  destruct b as [[f v|f v|f] a]; cbn; repeat split; auto; discriminate.
Qed.
Lemma existsb_words ws : existsb is_opt (map (fun w => (w, CA)) ws) = false.
Proof. induction ws; auto. Qed.
Definition start (p : parser) : got := Got (defaults p) None [].
Lemma run_tail p bs g s : Forall (is_block p) bs ->
  run (flat_map toks bs) [] g s = (do* g' <- set_opts bs g; ret ([], add_extra [] g')) s.
Proof.
  intros F. rewrite <- (app_nil_r (flat_map toks bs)), (run_blocks p) by (auto; right; exact I). unfold pbind.
  destruct (set_opts bs g s) as [[g'| |] s']; auto.
Qed.
Lemma pbind_assoc A B C (m : P A) (f : A -> P B) (k : B -> P C) s : pbind (pbind m f) k s = pbind m (fun a => pbind (f a) k) s.
Proof. unfold pbind. destruct (m s) as [[]]; reflexivity. Qed.
Lemma pbind_ext A B (m : P A) (f k : A -> P B) s : (forall a s', f a s' = k a s') -> pbind m f s = pbind m k s.
Proof. intros H. unfold pbind. destruct (m s) as [[]]; auto. Qed.
Lemma pbind_eq A B (m m' : P A) (k : A -> P B) s : m s = m' s -> pbind m k s = pbind m' k s.
Proof. intros H. unfold pbind. rewrite H. reflexivity. Qed.
Lemma known_run p l t s : reads p l t ->
  parse_known p sub l s = (do* y <- run t (pos p) (start p); if existsb required (fst y) then fail else ret (snd y)) s.
Proof. intros R. unfold Args.parse_known. unfold pbind at 1. rewrite R. reflexivity. Qed.
(** Options, then the positional arguments, then options. *)
Lemma parse_form p bs1 ws bs2 x s : usual p -> Forall (is_block p) bs1 -> Forall (is_block p) bs2 -> closed (map fst bs1) ->
  ws <> [] -> Forall plain ws -> takes (pos p) ws x ->
  parse_known p sub (flat_map words (map fst bs1) ++ ws ++ flat_map words (map fst bs2)) s =
  (do* g1 <- set_opts bs1 (start p); do* g2 <- take_all sub x g1; do* g3 <- set_opts bs2 g2; ret (add_extra [] g3)) s.
Proof.
  intros U F1 F2 C1 N W T. set (cas := map (fun w => (w, CA)) ws).
  assert (reads p (flat_map words (map fst bs1) ++ ws ++ flat_map words (map fst bs2)) (flat_map toks bs1 ++ cas ++ flat_map toks bs2)) as R.
  { apply reads_blocks; auto. apply reads_plains; auto. rewrite <- (app_nil_r (flat_map words _)), <- (app_nil_r (flat_map toks bs2)).
    apply reads_blocks; auto. intros s'. reflexivity. }
  rewrite (known_run p _ _ s R). erewrite pbind_eq; [|apply (run_blocks p); auto]. rewrite pbind_assoc. apply pbind_ext. intros g1 s1.
  assert (run (cas ++ flat_map toks bs2) (pos p) g1 s1 = (do* g2 <- take_all sub x g1; do* g3 <- set_opts bs2 g2; ret ([], add_extra [] g3)) s1) as Q.
  { destruct bs2 as [|b bs].
    - rewrite app_nil_r. rewrite (run_end cas _ _ _ x [] []).
      + apply pbind_ext. intros g2 s2. reflexivity.
      + apply existsb_words.
      + specialize (T [] I). rewrite app_nil_r in T. apply T. discriminate.
    - destruct (blocks_head p (b :: bs) F2) as (E & NW & ND & _); [discriminate|].
      specialize (T _ NW ND). fold cas in T. assert (exists w t, ws = w :: t) as (w & t & WT) by (destruct ws; [congruence|eauto]).
      assert (cas = (w, CA) :: map (fun w => (w, CA)) t) as CA' by (unfold cas; rewrite WT; reflexivity). rewrite CA' in *. cbn [app] in *.
      rewrite (run_pos _ _ _ _ _ x (flat_map toks (b :: bs))).
      + apply pbind_ext. intros g2 s2. apply (run_tail p); auto.
      + rewrite existsb_app. apply orb_true_intro. right. exact E.
      + exact T.
      + rewrite app_length. exact (Nat.le_add_l _ _). }
  unfold pbind at 1. rewrite Q.
  unfold pbind, ret. destruct (take_all sub x g1 s1) as [[g2| |] s2]; auto. destruct (set_opts bs2 g2 s2) as [[g3| |] s3]; auto.
Qed.
(** Only options. *)
Lemma parse_bare p bs x s : usual p -> Forall (is_block p) bs -> consume (pos p) [] = (x, [], []) ->
  parse_known p sub (flat_map words (map fst bs)) s =
  (do* g1 <- set_opts bs (start p); do* g2 <- take_all sub x g1; ret (add_extra [] g2)) s.
Proof.
  intros U F T. assert (reads p (flat_map words (map fst bs)) (flat_map toks bs ++ [])) as R.
  { rewrite <- (app_nil_r (flat_map words _)). apply reads_blocks; auto. intros s'. reflexivity. }
  rewrite (known_run p _ _ s R). erewrite pbind_eq; [|apply (run_blocks p); (auto; right; exact I)]. rewrite pbind_assoc. apply pbind_ext. intros g1 s1. unfold pbind at 1. rewrite (run_end [] _ _ _ x [] []) by auto.
  unfold pbind, ret. destruct (take_all sub x g1 s1) as [[]]; reflexivity.
Qed.
(** A word after the positional arguments have been taken. *)
Lemma parse_split p bs1 ws bs2 f bs3 x s : usual p -> Forall (is_block p) bs1 -> Forall (is_block p) bs2 -> Forall (is_block p) bs3 ->
  closed (map fst bs1) -> closed (map fst bs2) -> bs2 <> [] -> ws <> [] -> Forall plain ws -> plain f -> takes (pos p) ws x ->
  parse_known p sub (flat_map words (map fst bs1) ++ ws ++ flat_map words (map fst bs2) ++ f :: flat_map words (map fst bs3)) s =
  (do* g1 <- set_opts bs1 (start p); do* g2 <- take_all sub x g1; do* g3 <- set_opts bs2 g2;
   do* g4 <- set_opts bs3 (match bs3 with [] => g3 | _ => add_extra [f] g3 end);
   ret (match bs3 with [] => add_extra [f] g4 | _ => add_extra [] g4 end)) s.
Proof.
  intros U F1 F2 F3 C1 C2 N2 N W Pf T. set (cas := map (fun w => (w, CA)) ws).
  set (tl := flat_map toks bs2 ++ (f, CA) :: flat_map toks bs3).
  assert (reads p (flat_map words (map fst bs1) ++ ws ++ flat_map words (map fst bs2) ++ f :: flat_map words (map fst bs3)) (flat_map toks bs1 ++ cas ++ tl)) as R.
  { apply reads_blocks; auto. apply reads_plains; auto. apply reads_blocks; auto. apply reads_plain; auto.
    rewrite <- (app_nil_r (flat_map words _)), <- (app_nil_r (flat_map toks bs3)).
    apply reads_blocks; auto. intros s'. reflexivity. }
  rewrite (known_run p _ _ s R). erewrite pbind_eq; [|apply (run_blocks p); auto]. rewrite pbind_assoc. apply pbind_ext. intros g1 s1.
  assert (run (cas ++ tl) (pos p) g1 s1 = (do* g2 <- take_all sub x g1; do* g3 <- set_opts bs2 g2;
   do* g4 <- set_opts bs3 (match bs3 with [] => g3 | _ => add_extra [f] g3 end);
   ret ([], match bs3 with [] => add_extra [f] g4 | _ => add_extra [] g4 end)) s1) as Q.
  { destruct (blocks_head p bs2 F2 N2) as (E & NW & ND & HD).
    assert (no_word tl /\ forall w t, tl <> (w, CDash) :: t) as [NW' ND'].
    { unfold tl. destruct (flat_map toks bs2) as [|[w [| |o]] q]; try contradiction. split; [exact I|discriminate]. }
    specialize (T _ NW' ND'). fold cas in T. assert (exists w t, ws = w :: t) as (w & t & WT) by (destruct ws; [congruence|eauto]).
    assert (cas = (w, CA) :: map (fun w => (w, CA)) t) as CA' by (unfold cas; rewrite WT; reflexivity). rewrite CA' in *. cbn [app] in *.
    rewrite (run_pos _ _ _ _ _ x tl).
    - apply pbind_ext. intros g2 s2. unfold tl. rewrite (run_blocks p) by auto. apply pbind_ext. intros g3 s3.
      destruct bs3 as [|b bs].
      + exact (run_end [(f, CA)] [] g3 s3 [] [(f, CA)] [] eq_refl eq_refl).
      + destruct (blocks_head p (b :: bs) F3) as (E3 & _ & _ & H3); [discriminate|].
        rewrite run_extra by auto. apply (run_tail p); auto.
    - unfold tl. rewrite !existsb_app. apply orb_true_intro. right. rewrite E. reflexivity.
    - exact T.
    - rewrite app_length. exact (Nat.le_add_l _ _). }
  unfold pbind at 1. rewrite Q.
  unfold pbind, ret. destruct (take_all sub x g1 s1) as [[g2| |] s2]; auto. destruct (set_opts bs2 g2 s2) as [[g3| |] s3]; auto.
  destruct (set_opts bs3 _ s3) as [[g4| |] s4]; auto.
Qed.
End Engine.
End Forms.
