(** More facts on JSON texts: text added at the end, texts cut off, texts that are no JSON, the characters written. *)
From Coq Require Import String Ascii List Bool Arith Lia Reals.
From Verif Require Import PyBase PyDict Wc JsonText JsonFacts.
Import ListNotations.
Open Scope string_scope.
Open Scope list_scope.
Open Scope nat_scope.

Lemma app_inv_s a b c : (a ++ b = a ++ c)%string -> b = c.
Proof. induction a as [|x a IH]; cbn; [auto|]. intros [= H]. auto. Qed.
Lemma app_nil_inv a b : (a ++ b = "")%string -> a = "" /\ b = "".
Proof. destruct a; [auto|discriminate]. Qed.

(** ** A number in front of more text *)
Lemma digs_digs s a b : digs s = (a, b) -> digs a = (a, "").
Proof.
  revert a b. induction s as [|c t IH]; intros a b; cbn [digs]; [intros [= <- <-]; reflexivity|].
  destruct (is_dig c) eqn:D; [|intros [= <- <-]; reflexivity]. destruct (digs t) as [x y] eqn:E. intros [= <- <-].
  cbn [digs]. rewrite D, (IH x y eq_refl). reflexivity.
Qed.
Lemma skip_stop r c u : skip r = String c u -> goes_on c = false -> r <> "" /\ stop r.
Proof.
  destruct r as [|x r]; [discriminate|]. intros H G. split; [discriminate|]. cbn [skip] in H. destruct (is_ws x) eqn:W.
  - destruct x as [[] [] [] [] [] [] [] []]; try discriminate W; reflexivity.
  - injection H as -> _. exact G.
Qed.

Lemma digs_ext s t a b : digs s = (a, b) -> b <> "" -> digs (s ++ t) = (a, (b ++ t)%string).
Proof.
  revert a b. induction s as [|c s IH]; intros a b; cbn [digs append]; [intros [= <- <-]; congruence|].
  destruct (is_dig c); [|intros [= <- <-] _; reflexivity]. destruct (digs s) as [x y]. intros [= <- <-] N. rewrite (IH x y eq_refl N). reflexivity.
Qed.
Lemma minus_ext s t a b : minus_part s = (a, b) -> b <> "" -> minus_part (s ++ t) = (a, (b ++ t)%string).
Proof. destruct s as [|c s]; cbn; [intros [= <- <-]; congruence|]. destruct (Ascii.eqb c "-"); intros [= <- <-] _; reflexivity. Qed.
Lemma sign_ext s t a b : sign_part s = (a, b) -> b <> "" -> sign_part (s ++ t) = (a, (b ++ t)%string).
Proof. destruct s as [|c s]; cbn [sign_part append]; [intros [= <- <-]; congruence|]. destruct (_ || _); intros [= <- <-] _; reflexivity. Qed.
Lemma int_ext s t a b : int_part s = Some (a, b) -> b <> "" -> int_part (s ++ t) = Some (a, (b ++ t)%string).
Proof.
  destruct s as [|c s]; cbn [int_part append]; [discriminate|]. destruct (Ascii.eqb c "0"); [intros [= <- <-]; reflexivity|].
  destruct (is_dig c); [|discriminate]. intros H N. change (String c (s ++ t)) with (String c s ++ t)%string.
  rewrite (digs_ext (String c s) t a b); [reflexivity|congruence|exact N].
Qed.
(** What follows a fraction or an exponent that was not taken is no "." or "e" in front of the end *)
Lemma frac_ext s t a b : frac_part s = (a, b) -> b <> "" -> stop b \/ (exists c u, b = String c u /\ Ascii.eqb c "." = false) -> frac_part (s ++ t) = (a, (b ++ t)%string).
Proof.
  destruct s as [|c s]; cbn [frac_part append]; [intros [= <- <-]; congruence|].
  destruct (Ascii.eqb c ".") eqn:D; [|intros [= <- <-] _ _; reflexivity].
  destruct (digs s) as [[|x y] z] eqn:E; intros [= <- <-] N G.
  - exfalso. destruct G as [G|(c' & u & [= <- _] & G)]; [|congruence]. cbn in G. apply stop_facts in G. destruct G as (_ & G & _). congruence.
  - rewrite (digs_ext s t _ _ E N). reflexivity.
Qed.
Lemma exp_ext s t a b : exp_part s = (a, b) -> b <> "" -> stop b -> exp_part (s ++ t) = (a, (b ++ t)%string).
Proof.
  destruct s as [|c s]; cbn [exp_part append]; [intros [= <- <-]; congruence|].
  destruct (Ascii.eqb c "e" || Ascii.eqb c "E") eqn:D; [|intros [= <- <-] _ _; reflexivity].
  destruct (sign_part s) as [g u] eqn:G. destruct (digs u) as [[|x y] z] eqn:E; intros [= <- <-] N T.
  - exfalso. cbn in T. apply stop_facts in T. destruct T as (_ & _ & T1 & T2 & _). rewrite T1, T2 in D. discriminate.
  - assert (U : u <> "") by (intros ->; discriminate). rewrite (sign_ext s t g u G U), (digs_ext u t _ _ E N). reflexivity.
Qed.
Lemma number_ext s t w r : number s = Some (w, r) -> r <> "" -> stop r -> number (s ++ t) = Some (w, (r ++ t)%string).
Proof.
  unfold number. destruct (minus_part s) as [m s1] eqn:M. destruct (int_part s1) as [[i s2]|] eqn:I; [|discriminate].
  destruct (frac_part s2) as [f s3] eqn:F. destruct (exp_part s3) as [e s4] eqn:E. intros [= <- <-] N T.
  pose proof (exp_eq _ _ _ E) as E3. pose proof (frac_eq _ _ _ F) as E2. pose proof (int_eq _ _ _ I) as [E1 _].
  assert (N3 : s3 <> "") by (intros ->; symmetry in E3; apply app_nil_inv in E3; tauto).
  assert (N2 : s2 <> "") by (intros ->; symmetry in E2; apply app_nil_inv in E2; tauto).
  assert (N1 : s1 <> "") by (intros ->; discriminate).
  rewrite (minus_ext _ t _ _ M N1), (int_ext _ t _ _ I N2), (frac_ext _ t _ _ F N3).
  - rewrite (exp_ext _ t _ _ E N T). reflexivity.
  - destruct s3 as [|c u]; [congruence|]. right. exists c, u. split; [reflexivity|].
    cbn [exp_part] in E. destruct (Ascii.eqb_spec c "."); [subst c|reflexivity]. exfalso.
    cbn [Ascii.eqb Bool.eqb orb] in E. injection E as _ <-. discriminate T.
Qed.

Section More.
Variable num_value : string -> R.
Variable wide : nat -> string.
Notation value := (value num_value wide).
Notation members := (members num_value wide).
Notation elements := (elements num_value wide).
Notation scan := (scan wide).
Notation constant := (constant num_value).
Notation bad := (Err JSONDecodeError).
Notation len := String.length.
Notation val := (val num_value wide).

Lemma word_ext w s t r : word w s = Some r -> word w (s ++ t) = Some (r ++ t)%string.
Proof.
  revert s. induction w as [|a w IH]; intros s; [intros [= <-]; reflexivity|]. destruct s as [|b s]; [discriminate|]. cbn. destruct (Ascii.eqb a b); [apply IH|discriminate].
Qed.
(** A word of one character that is not there is not there with more text either *)
Lemma word1_none c s t : s <> "" -> word (String c "") s = None -> word (String c "") (s ++ t) = None.
Proof. destruct s as [|b s]; [congruence|]. cbn. destruct (Ascii.eqb c b); [discriminate|reflexivity]. Qed.
Lemma word1_head c s r : word (String c "") s = Some r -> s = String c r.
Proof. destruct s as [|b s]; [discriminate|]. cbn. destruct (Ascii.eqb_spec c b); [|discriminate]. intros [= <-]. subst. reflexivity. Qed.
Lemma skip_ext s t : skip s <> "" -> skip (s ++ t) = (skip s ++ t)%string.
Proof. induction s as [|c s IH]; cbn [skip append]; [congruence|]. destruct (is_ws c); auto. Qed.
Lemma scan_ext n : forall s t x r, len s <= n -> scan s = Some (x, r) -> scan (s ++ t) = Some (x, (r ++ t)%string).
Proof.
  induction n as [|n IH]; intros [|c s] t x r L; cbn [String.length] in L; try lia; try discriminate.
  cbn [JsonText.scan append]. destruct (Ascii.eqb c quote); [intros [= <- <-]; reflexivity|].
  assert (B : forall f u, len u <= n -> before f (scan u) = Some (x, r) -> before f (scan (u ++ t)) = Some (x, (r ++ t)%string)).
  { intros f u Lu H. destruct (scan u) as [[y r']|] eqn:E; [|discriminate]. cbn in H. injection H as H1 H2. subst r'. rewrite (IH u t y r Lu E). cbn. congruence. }
  destruct (Ascii.eqb c "\").
  - destruct s as [|e s]; [discriminate|]. cbn [String.length append] in *. destruct (Ascii.eqb e "u").
    + destruct s as [|h1 [|h2 [|h3 [|h4 s]]]]; try discriminate. cbn [String.length append] in *.
      destruct (hexv h1), (hexv h2), (hexv h3), (hexv h4); try discriminate. apply B. lia.
    + destruct (unesc e); [|discriminate]. apply B. lia.
  - destruct (nat_of_ascii c <? 32); [discriminate|]. apply B. lia.
Qed.
Lemma scan_ext' s t x r : scan s = Some (x, r) -> scan (s ++ t) = Some (x, (r ++ t)%string).
Proof. apply (scan_ext (len s)). auto. Qed.
Lemma word_cons_ext a w c s t : (word (String a w) (String c s) = None -> a <> c) -> word (String a w) (String c s) = None -> word (String a w) (String c (s ++ t)) = None.
Proof. intros H N. apply H in N. cbn. destruct (Ascii.eqb_spec a c); congruence. Qed.

(** The word that decides between the constants is found by its first letter *)
Lemma word_letter a w c s r : word (String a w) (String c s) = Some r -> a = c.
Proof. cbn. destruct (Ascii.eqb_spec a c); [auto|discriminate]. Qed.
Lemma word_other a w c s : a <> c -> word (String a w) (String c s) = None.
Proof. intros H. cbn. destruct (Ascii.eqb_spec a c); congruence. Qed.
Lemma number_word c t s r : number (String c t) = Some (s, r) -> c <> "n"%char /\ c <> "t"%char /\ c <> "f"%char.
Proof. intros H. destruct (number_head _ _ _ H) as (c' & u & [= <- <-] & G). apply num_start in G. tauto. Qed.
Lemma number_none_ext c s t : c <> "-"%char -> number (String c s) = None -> number (String c (s ++ t)) = None.
Proof.
  intros N. unfold number. cbn [minus_part]. rewrite (neq_eqb _ _ N). cbn [int_part].
  destruct (Ascii.eqb c "0"); [destruct (frac_part s) as [? q]; destruct (exp_part q); discriminate|].
  destruct (is_dig c) eqn:D; [|reflexivity]. destruct (digs (String c s)) as [i s2]. destruct (frac_part s2) as [? q]. destruct (exp_part q). discriminate.
Qed.
Lemma constant_ext s t d r : constant s = Some (d, r) -> stop r -> r <> "" -> constant (s ++ t) = Some (d, (r ++ t)%string).
Proof.
  destruct s as [|c s]; [discriminate|]. intros H T N. unfold JsonText.constant in *.
  destruct (word "null" (String c s)) as [u|] eqn:W1.
  { injection H as <- <-. rewrite (word_ext _ _ t _ W1). reflexivity. }
  destruct (word "true" (String c s)) as [u|] eqn:W2.
  { injection H as <- <-. pose proof (word_letter _ _ _ _ _ W2). subst c. rewrite (word_ext _ _ t _ W2). reflexivity. }
  destruct (word "false" (String c s)) as [u|] eqn:W3.
  { injection H as <- <-. pose proof (word_letter _ _ _ _ _ W3). subst c. rewrite (word_ext _ _ t _ W3). reflexivity. }
  destruct (number (String c s)) as [[w u]|] eqn:E.
  { injection H as <- <-. destruct (number_word _ _ _ _ E) as (A & B & C).
    rewrite (number_ext _ t _ _ E N T). cbn [append]. rewrite !word_other by congruence. reflexivity. }
  destruct (word "NaN" (String c s)) as [u|] eqn:W4.
  { injection H as <- <-. pose proof (word_letter _ _ _ _ _ W4). subst c. rewrite (word_ext _ _ t _ W4). reflexivity. }
  destruct (word "Infinity" (String c s)) as [u|] eqn:W5.
  { injection H as <- <-. pose proof (word_letter _ _ _ _ _ W5). subst c. rewrite (word_ext _ _ t _ W5). reflexivity. }
  destruct (word "-Infinity" (String c s)) as [u|] eqn:W6; [|discriminate].
  injection H as <- <-. pose proof (word_letter _ _ _ _ _ W6). subst c. rewrite (word_ext _ _ t _ W6).
  destruct s as [|c s]; [discriminate|]. change (word "Infinity" (String c s) = Some u) in W6. pose proof (word_letter _ _ _ _ _ W6). subst c. reflexivity.
Qed.

(** A value that was read is read also when more text follows: always for strings, lists and mappings, and for the
    other values if the text behind them cannot belong to a number *)
Definition closed (d : doc) : Prop := match d with DStr _ | DList _ | DMap _ => True | _ => False end.
Lemma extend f : forall t,
  (forall s d r, value f s = Ok (d, r) -> closed d \/ (stop r /\ r <> "") -> value f (s ++ t) = Ok (d, (r ++ t)%string)) /\
  (forall s d r, members f s = Ok (d, r) -> members f (s ++ t) = Ok (d, (r ++ t)%string)) /\
  (forall s d r, elements f s = Ok (d, r) -> elements f (s ++ t) = Ok (d, (r ++ t)%string)).
Proof.
  induction f as [|f IH]; intros t; [repeat split; discriminate|]. destruct (IH t) as (IV & IM & IE). clear IH.
  assert (SK : forall u c r, word (String c "") (skip u) = Some r -> skip (u ++ t) = String c (r ++ t)).
  { intros u c r H. apply word1_head in H. rewrite skip_ext by (rewrite H; discriminate). rewrite H. reflexivity. }
  assert (W1 : forall c r, word (String c "") (String c r) = Some r) by (intros; cbn; rewrite Ascii.eqb_refl; reflexivity).
  assert (NE : forall c u, skip u = String c (match skip u with String _ x => x | _ => "" end) -> skip u <> "") by (intros c u ->; discriminate).
  split; [|split]; intros s d r; rewrite ?value_S, ?members_S, ?elements_S.
  - destruct s as [|c s]; [discriminate|]. cbn [append]. destruct (Ascii.eqb c quote).
    { destruct (scan s) as [[x u]|] eqn:E; [|discriminate]. intros [= <- <-] _. rewrite (scan_ext' _ t _ _ E). reflexivity. }
    destruct (Ascii.eqb c "{").
    { destruct (word "}" (skip s)) as [u|] eqn:E.
      - intros [= <- <-] _. rewrite (SK _ _ _ E), W1. reflexivity.
      - intros H _. apply bind_ok in H. destruct H as ([m u] & H & H'). injection H' as <- <-.
        assert (N : skip s <> "") by (intros Z; rewrite Z in H; destruct f; discriminate).
        rewrite skip_ext, word1_none by auto. rewrite (IM _ _ _ H). reflexivity. }
    destruct (Ascii.eqb c "[").
    { destruct (word "]" (skip s)) as [u|] eqn:E.
      - intros [= <- <-] _. rewrite (SK _ _ _ E), W1. reflexivity.
      - intros H _. apply bind_ok in H. destruct H as ([m u] & H & H'). injection H' as <- <-.
        assert (N : skip s <> "") by (intros Z; rewrite Z in H; destruct f as [|[|f]]; discriminate).
        rewrite skip_ext, word1_none by auto. rewrite (IE _ _ _ H). reflexivity. }
    destruct (constant (String c s)) as [[x u]|] eqn:E; [|discriminate]. intros [= <- <-] [C|[T N]].
    + exfalso. unfold JsonText.constant in E.
      repeat match type of E with
      | match word ?w ?q with _ => _ end = _ => destruct (word w q); [injection E as <- _; exact C|]
      | match number ?q with _ => _ end = _ => destruct (number q) as [[? ?]|]; [injection E as <- _; exact C|]
      end. discriminate.
    + change (String c (s ++ t)) with (String c s ++ t)%string. rewrite (constant_ext _ t _ _ E T N). reflexivity.
  - destruct (word (String quote "") s) as [u|] eqn:E1; [|discriminate]. destruct (scan u) as [[k r0]|] eqn:E2; [|discriminate].
    destruct (word ":" (skip r0)) as [r1|] eqn:E3; [|discriminate]. intros H.
    apply bind_ok in H. destruct H as ([v r2] & H & H2).
    rewrite (word_ext _ _ t _ E1), (scan_ext' _ t _ _ E2), (SK _ _ _ E3), W1.
    assert (N : skip r1 <> "") by (intros Z; rewrite Z in H; destruct f; discriminate).
    rewrite (skip_ext r1 t N).
    destruct (word "}" (skip r2)) as [r3|] eqn:E4.
    + injection H2 as <- <-. rewrite (IV _ _ _ H).
      * cbn [bind]. rewrite (SK _ _ _ E4), W1. reflexivity.
      * right. apply word1_head in E4. destruct (skip_stop _ _ _ E4 eq_refl). auto.
    + destruct (word "," (skip r2)) as [r3|] eqn:E5; [|discriminate].
      apply bind_ok in H2. destruct H2 as ([l r4] & H2 & H3). injection H3 as <- <-. rewrite (IV _ _ _ H).
      * cbn [bind]. rewrite (SK _ _ _ E5), W1. change (word "}" (String "," (r3 ++ t))) with (@None string). cbv iota.
        assert (N3 : skip r3 <> "") by (intros Z; rewrite Z in H2; destruct f; discriminate).
        rewrite (skip_ext r3 t N3), (IM _ _ _ H2). reflexivity.
      * right. apply word1_head in E5. destruct (skip_stop _ _ _ E5 eq_refl). auto.
  - intros H. apply bind_ok in H. destruct H as ([v r2] & H & H2).
    destruct (word "]" (skip r2)) as [r3|] eqn:E4.
    + injection H2 as <- <-. rewrite (IV _ _ _ H).
      * cbn [bind]. rewrite (SK _ _ _ E4), W1. reflexivity.
      * right. apply word1_head in E4. destruct (skip_stop _ _ _ E4 eq_refl). auto.
    + destruct (word "," (skip r2)) as [r3|] eqn:E5; [|discriminate].
      apply bind_ok in H2. destruct H2 as ([l r4] & H2 & H3). injection H3 as <- <-. rewrite (IV _ _ _ H).
      * cbn [bind]. rewrite (SK _ _ _ E5), W1. change (word "]" (String "," (r3 ++ t))) with (@None string). cbv iota.
        assert (N3 : skip r3 <> "") by (intros Z; rewrite Z in H2; destruct f as [|[|f]]; discriminate).
        rewrite (skip_ext r3 t N3), (IE _ _ _ H2). reflexivity.
      * right. apply word1_head in E5. destruct (skip_stop _ _ _ E5 eq_refl). auto.
Qed.
Lemma val_extend s t d r : val s = Ok (d, r) -> closed d -> val (s ++ t) = Ok (d, (r ++ t)%string).
Proof.
  intros H C. unfold JsonFacts.val in H. rewrite <- (val_at num_value wide (2 * len (s ++ t) + 1) (s ++ t)) by lia.
  apply (proj1 (extend _ t)); [|auto]. rewrite (val_at num_value wide _ s) by (rewrite len_app; lia). exact H.
Qed.

(** Only JSONDecodeError *)
Lemma loads_err s e : json_loads num_value wide s = Err e -> e = JSONDecodeError.
Proof.
  assert (G : forall f, (forall s e, value f s = Err e -> e = JSONDecodeError) /\ (forall s e, members f s = Err e -> e = JSONDecodeError) /\
    (forall s e, elements f s = Err e -> e = JSONDecodeError)).
  { induction f as [|f (IV & IM & IE)]; [repeat split; cbn; congruence|].
    split; [|split]; intros u x; rewrite ?value_S, ?members_S, ?elements_S.
    - destruct u as [|c u]; [congruence|]. destruct (Ascii.eqb c quote); [destruct (scan u) as [[? ?]|]; congruence|].
      destruct (Ascii.eqb c "{"). { destruct (word _ _); [congruence|]. destruct (members f (skip u)) as [[? ?]|y] eqn:E; cbn [bind]; [congruence|]. apply IM in E. congruence. }
      destruct (Ascii.eqb c "["). { destruct (word _ _); [congruence|]. destruct (elements f (skip u)) as [[? ?]|y] eqn:E; cbn [bind]; [congruence|]. apply IE in E. congruence. }
      destruct (constant _); congruence.
    - destruct (word _ u) as [v|]; [|congruence]. destruct (scan v) as [[k r]|]; [|congruence]. destruct (word ":" (skip r)) as [q|]; [|congruence].
      destruct (value f (skip q)) as [[? r2]|y] eqn:E; cbn [bind]; [|apply IV in E; congruence]. destruct (word _ _); [congruence|].
      destruct (word "," (skip r2)) as [r3|]; [|congruence]. destruct (members f (skip r3)) as [[? ?]|y] eqn:E2; cbn [bind]; [congruence|]. apply IM in E2. congruence.
    - destruct (value f u) as [[? r2]|y] eqn:E; cbn [bind]; [|apply IV in E; congruence]. destruct (word _ _); [congruence|].
      destruct (word "," (skip r2)) as [r3|]; [|congruence]. destruct (elements f (skip r3)) as [[? ?]|y] eqn:E2; cbn [bind]; [congruence|]. apply IE in E2. congruence. }
  unfold json_loads. destruct (value _ (skip s)) as [[d r]|x] eqn:E; cbn [bind].
  - destruct (skip r); congruence.
  - apply (proj1 (G _)) in E. congruence.
Qed.

(** ** Texts that are no JSON *)
Fixpoint has (c : ascii) (s : string) : bool := match s with EmptyString => false | String x t => Ascii.eqb x c || has c t end.
Lemma has_app c a b : has c (a ++ b) = has c a || has c b.
Proof. induction a as [|x a IH]; [reflexivity|]. cbn. rewrite IH, orb_assoc. reflexivity. Qed.
Lemma has_skip c s : is_ws c = false -> has c (skip s) = has c s.
Proof.
  intros W. induction s as [|x s IH]; [reflexivity|]. cbn [skip]. destruct (is_ws x) eqn:E; [|reflexivity].
  rewrite IH. cbn. destruct (Ascii.eqb_spec x c); [congruence|reflexivity].
Qed.
Lemma word_eq w s r : word w s = Some r -> s = (w ++ r)%string.
Proof.
  revert s. induction w as [|a w IH]; intros s; [intros [= <-]; reflexivity|]. destruct s as [|b s]; [discriminate|]. cbn.
  destruct (Ascii.eqb_spec a b); [|discriminate]. intros H. apply IH in H. congruence.
Qed.
Definition letter (c : ascii) : bool :=
  let n := nat_of_ascii c in ((65 <=? n) && (n <=? 90)) || ((97 <=? n) && (n <=? 122)) || (n =? 95).
Lemma letter_facts c : letter c = true -> is_ws c = false /\ c <> quote /\ c <> "{"%char /\ c <> "["%char /\ c <> "-"%char /\ is_dig c = false.
Proof. destruct c as [[] [] [] [] [] [] [] []]; cbn; try discriminate; intros _; repeat split; discriminate. Qed.
Lemma key_not_json c s : letter c = true -> has ":" s = true -> json_loads num_value wide (String c s) = bad.
Proof.
  intros L H. destruct (letter_facts c L) as (W & A & B & C & M & D). rewrite loads_eq. cbn [skip]. rewrite W.
  rewrite val_eq, (neq_eqb _ _ A), (neq_eqb _ _ B), (neq_eqb _ _ C).
  assert (K : forall d r, constant (String c s) = Some (d, r) -> has ":" r = true).
  { intros d r E.
    assert (Z : forall w u, has ":" w = false -> word w (String c s) = Some u -> has ":" u = true).
    { intros w u Nw Hu. apply word_eq in Hu. assert (X : has ":" (w ++ u) = true) by (rewrite <- Hu; cbn; rewrite H; apply orb_true_r).
      rewrite has_app, Nw in X. exact X. }
    unfold JsonText.constant in E.
    assert (N : number (String c s) = None).
    { unfold number. cbn [minus_part]. rewrite (neq_eqb _ _ M). cbn [int_part]. rewrite D. destruct (Ascii.eqb_spec c "0"); [subst; discriminate|reflexivity]. }
    rewrite N in E.
    repeat match type of E with
    | match word ?w ?q with _ => _ end = _ => let Q := fresh in destruct (word w q) as [u|] eqn:Q; [injection E as _ <-; refine (Z _ _ _ Q); reflexivity|clear Q]
    end. discriminate. }
  destruct (constant (String c s)) as [[d r]|]; [|reflexivity]. cbn [bind]. specialize (K d r eq_refl).
  rewrite <- (has_skip ":" r eq_refl) in K. destruct (skip r); [discriminate|reflexivity].
Qed.

(** ** What is written *)
Variable num_text : R -> string.
Variable indent : option nat.
Notation json_doc := (json_doc num_value num_text).
Notation pr := (pr num_text indent).
Notation dumps := (json_dumps num_text indent).

(** A text cut off is not read *)
Lemma cut_off d p q : json_doc d -> closed d -> q <> "" -> dumps d = (p ++ q)%string -> json_loads num_value wide p = bad.
Proof.
  intros J C N E. destruct (json_loads num_value wide p) as [d'|e] eqn:L; [|f_equal; apply (loads_err p); exact L].
  exfalso. rewrite loads_eq in L. apply bind_ok in L. destruct L as ([x r] & V & L).
  destruct (skip r) eqn:R; [|discriminate].
  pose proof (pr_back num_value wide num_text indent d 0 "" J I) as B. fold (dumps d) in B.
  pose proof (pr_starts num_value num_text indent 0 d "" J) as S. fold (dumps d) in S.
  assert (P : p <> "") by (intros ->; discriminate V).
  assert (Q : skip p = p). { destruct S as (c & t & S & W & _). rewrite E in S. destruct p as [|c' p]; [congruence|]. injection S as -> _. cbn [skip]. rewrite W. reflexivity. }
  rewrite Q in V.
  assert (Cx : closed x).
  { destruct p as [|c p]; [congruence|]. rewrite val_eq in V. rewrite E in B. cbn [append] in B. rewrite val_eq in B.
    destruct (Ascii.eqb c quote); [destruct (scan p) as [[? ?]|]; [injection V as <- _; exact I|discriminate]|].
    destruct (Ascii.eqb c "{"). { destruct (word "}" (skip p)); [injection V as <- _; exact I|]. apply bind_ok in V. destruct V as ([? ?] & _ & V). injection V as <- _. exact I. }
    destruct (Ascii.eqb c "["). { destruct (word "]" (skip p)); [injection V as <- _; exact I|]. apply bind_ok in V. destruct V as ([? ?] & _ & V). injection V as <- _. exact I. }
    exfalso. destruct (constant (String c (p ++ q))) as [[y u]|] eqn:K; [|discriminate]. injection B as -> _.
    unfold JsonText.constant in K.
    repeat match type of K with
    | match word ?w ?z with _ => _ end = _ => destruct (word w z); [injection K as <- _; exact C|]
    | match number ?z with _ => _ end = _ => destruct (number z) as [[? ?]|]; [injection K as <- _; exact C|]
    end. discriminate. }
  pose proof (val_extend p q x r V Cx) as V2. rewrite <- E in V2.
  assert (Z : (r ++ q)%string = "") by congruence. apply app_nil_inv in Z. tauto.
Qed.

(** Only the printable characters of ASCII and line feeds *)
Definition plain_char (c : ascii) : bool := let n := nat_of_ascii c in ((32 <=? n) && (n <=? 126)) || (n =? 10).
Fixpoint plain_text (s : string) : bool := match s with EmptyString => true | String c t => plain_char c && plain_text t end.
Lemma plain_app a b : plain_text (a ++ b) = plain_text a && plain_text b.
Proof. induction a as [|c a IH]; [reflexivity|]. cbn [append plain_text]. rewrite IH, andb_assoc. reflexivity. Qed.
Lemma plain_esc c t : plain_text (esc c t) = plain_text t.
Proof. destruct c as [[] [] [] [] [] [] [] []]; reflexivity. Qed.
Lemma plain_chars s t : plain_text (chars s t) = plain_text t.
Proof. induction s as [|c s IH]; [reflexivity|]. cbn [chars]. rewrite plain_esc. exact IH. Qed.
Lemma plain_quoted s t : plain_text (quoted s t) = plain_text t.
Proof. unfold quoted. change (plain_text (String quote ?x)) with (plain_text x). rewrite plain_chars. reflexivity. Qed.
Lemma plain_spaces n t : plain_text (spaces n t) = plain_text t.
Proof. induction n as [|n IH]; [reflexivity|]. exact IH. Qed.
Lemma plain_gap level t : plain_text (gap indent level t) = plain_text t.
Proof. unfold gap. destruct indent; [|reflexivity]. apply (plain_spaces _ t). Qed.
Lemma plain_comma level t : plain_text (comma indent level t) = plain_text t.
Proof. unfold comma. destruct indent; [|reflexivity]. apply (plain_spaces _ t). Qed.
Lemma plain_digs s : plain_text (fst (digs s)) = true.
Proof.
  induction s as [|c s IH]; [reflexivity|]. cbn [digs]. destruct (is_dig c) eqn:D; [|reflexivity]. destruct (digs s) as [a b]. cbn [fst plain_text] in *. rewrite IH, andb_true_r.
  destruct c as [[] [] [] [] [] [] [] []]; try discriminate D; reflexivity.
Qed.
Lemma plain_number s w r : number s = Some (w, r) -> plain_text w = true.
Proof.
  unfold number. destruct (minus_part s) as [m s1] eqn:M. destruct (int_part s1) as [[i s2]|] eqn:I; [|discriminate].
  destruct (frac_part s2) as [f s3] eqn:F. destruct (exp_part s3) as [e s4] eqn:E. intros [= <- _]. rewrite !plain_app.
  assert (Pm : plain_text m = true). { destruct s as [|c s]; cbn in M; [injection M as <- _; reflexivity|]. destruct (Ascii.eqb c "-"); injection M as <- _; reflexivity. }
  assert (Pi : plain_text i = true).
  { destruct s1 as [|c u]; cbn [int_part] in I; [discriminate|]. destruct (Ascii.eqb c "0"); [injection I as <- _; reflexivity|].
    destruct (is_dig c); [|discriminate]. assert (Q : digs (String c u) = (i, s2)) by congruence. pose proof (plain_digs (String c u)) as X. rewrite Q in X. exact X. }
  assert (Pf : plain_text f = true).
  { destruct s2 as [|c u]; cbn [frac_part] in F; [injection F as <- _; reflexivity|]. destruct (Ascii.eqb_spec c "."); [subst c|injection F as <- _; reflexivity].
    pose proof (plain_digs u) as X. destruct (digs u) as [[|a b] z]; injection F as <- _; [reflexivity|exact X]. }
  assert (Pe : plain_text e = true).
  { destruct s3 as [|c u]; cbn [exp_part] in E; [injection E as <- _; reflexivity|]. destruct (Ascii.eqb c "e" || Ascii.eqb c "E") eqn:Q; [|injection E as <- _; reflexivity].
    destruct (sign_part u) as [g v] eqn:G. pose proof (plain_digs v) as X. destruct (digs v) as [[|a b] z]; injection E as <- _; [reflexivity|].
    cbn [plain_text]. rewrite plain_app. cbn [fst] in X. rewrite X, andb_true_r.
    assert (Pg : plain_text g = true).
    { destruct u as [|c' u]; cbn [sign_part] in G; [injection G as <- _; reflexivity|]. destruct (Ascii.eqb_spec c' "-"); [subst c'; injection G as <- _; reflexivity|].
      destruct (Ascii.eqb_spec c' "+"); [subst c'|]; injection G as <- _; reflexivity. }
    rewrite Pg, andb_true_r. apply orb_true_iff in Q. destruct Q as [Q|Q]; apply Ascii.eqb_eq in Q; subst c; reflexivity. }
  rewrite Pm, Pi, Pf, Pe. reflexivity.
Qed.
Lemma plain_pr d : forall level t, json_doc d -> plain_text (pr level d t) = plain_text t.
Proof.
  induction d as [| b | x | s | l IH | m IH] using doc_rec'; intros level t J.
  - reflexivity.
  - destruct b; reflexivity.
  - cbn [JsonText.pr]. rewrite plain_app. destruct J as [J _]. rewrite (plain_number _ _ _ J). reflexivity.
  - apply plain_quoted.
  - destruct l as [|x r]; [reflexivity|]. apply json_list in J. rewrite pr_list. change (plain_text (String "[" ?u)) with (plain_text u). rewrite plain_gap.
    revert x IH J. induction r as [|y r IHr]; intros x IH J; inversion IH; subst; inversion J; subst; cbn [elems]; rewrite H1 by auto.
    + rewrite plain_gap. reflexivity.
    + rewrite plain_comma. apply IHr; auto.
  - destruct m as [|[k x] r]; [reflexivity|]. apply json_map in J. destruct J as [_ J]. rewrite pr_map. change (plain_text (String "{" ?u)) with (plain_text u). rewrite plain_gap.
    revert k x IH J. induction r as [|[k' y] r IHr]; intros k x IH J; inversion IH; subst; inversion J; subst; cbn [entries snd] in *; rewrite plain_quoted.
    + change (plain_text (String ":" (String " " ?u))) with (plain_text u). rewrite H1 by auto. rewrite plain_gap. reflexivity.
    + change (plain_text (String ":" (String " " ?u))) with (plain_text u). rewrite H1 by auto. rewrite plain_comma. apply IHr; auto.
Qed.

(** White space around the text *)
Lemma skip_all_app a b : skip a = "" -> skip (a ++ b) = skip b.
Proof. induction a as [|c a IH]; [reflexivity|]. cbn [skip append]. destruct (is_ws c); [exact IH|discriminate]. Qed.
Lemma around a b d : json_doc d -> skip a = "" -> skip b = "" -> json_loads num_value wide (a ++ dumps d ++ b) = Ok d.
Proof.
  intros J A B. rewrite loads_eq, (skip_all_app a _ A).
  assert (E : (dumps d ++ b)%string = pr 0 d b).
  { assert (G : forall d level t u, (pr level d t ++ u)%string = pr level d (t ++ u)); [|apply G].
    clear d J. assert (Ge : forall c t u, (esc c t ++ u)%string = esc c (t ++ u)) by (intros c t u; destruct c as [[] [] [] [] [] [] [] []]; reflexivity).
    assert (Gc : forall s t u, (chars s t ++ u)%string = chars s (t ++ u)) by (induction s as [|c s IH]; intros t u; [reflexivity|]; cbn [chars]; rewrite Ge, IH; reflexivity).
    assert (Gq : forall s t u, (quoted s t ++ u)%string = quoted s (t ++ u)) by (intros s t u; unfold quoted; cbn [append]; rewrite Gc; reflexivity).
    assert (Gs : forall n t u, (spaces n t ++ u)%string = spaces n (t ++ u)) by (induction n as [|n IH]; intros t u; [reflexivity|]; cbn [spaces append]; rewrite IH; reflexivity).
    assert (Gg : forall n t u, (gap indent n t ++ u)%string = gap indent n (t ++ u)) by (intros n t u; unfold gap; destruct indent; [cbn [append]; rewrite Gs|]; reflexivity).
    assert (Gk : forall n t u, (comma indent n t ++ u)%string = comma indent n (t ++ u)) by (intros n t u; unfold comma; destruct indent; cbn [append]; [rewrite Gs|]; reflexivity).
    induction d as [| v | x | s | l IH | m IH] using doc_rec'; intros level t u.
    - reflexivity.
    - destruct v; reflexivity.
    - apply app_assoc_s.
    - apply Gq.
    - destruct l as [|x r]; [reflexivity|]. rewrite !pr_list. cbn [append]. rewrite Gg. do 2 f_equal.
      revert x IH. induction r as [|y r IHr]; intros x IH; inversion IH; subst; cbn [elems]; rewrite H1.
      + rewrite Gg. reflexivity.
      + rewrite Gk. do 2 f_equal. apply IHr; auto.
    - destruct m as [|[k x] r]; [reflexivity|]. rewrite !pr_map. cbn [append]. rewrite Gg. do 2 f_equal.
      revert k x IH. induction r as [|[k' y] r IHr]; intros k x IH; inversion IH; subst; cbn [entries snd] in *; rewrite Gq; cbn [append]; rewrite H1.
      + rewrite Gg. reflexivity.
      + rewrite Gk. do 5 f_equal. apply IHr; auto. }
  rewrite E, (starts_skip _ (pr_starts num_value num_text indent 0 d b J)), (pr_back num_value wide num_text indent d 0 b J).
  - cbn [bind]. rewrite B. reflexivity.
  - destruct b as [|c b]; [exact I|]. cbn [skip] in B. destruct (is_ws c) eqn:W; [|discriminate].
    destruct c as [[] [] [] [] [] [] [] []]; try discriminate W; reflexivity.
Qed.
End More.
