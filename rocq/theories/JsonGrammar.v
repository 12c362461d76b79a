(** The grammar of JSON (RFC 8259, with NaN and Infinity as in Python) as a relation between texts and documents, and
    the reader of JsonText.v accepting exactly these texts. *)
From Coq Require Import String Ascii List Bool Arith Lia Reals.
From Verif Require Import PyBase PyDict Wc JsonText JsonFacts JsonMore JsonSpec.
Import ListNotations.
Open Scope string_scope.
Open Scope list_scope.
Open Scope nat_scope.

Definition white (s : string) : Prop := Forall (fun c => In (nat_of_ascii c) [32; 9; 10; 13]) (list_ascii_of_string s).
(** A hexadecimal digit and its value *)
Definition hex (c : ascii) (n : nat) : Prop :=
  nth_error (list_ascii_of_string "0123456789abcdef") n = Some c \/ nth_error (list_ascii_of_string "0123456789ABCDEF") n = Some c.
(** The escapes of one character and their codes *)
Definition escapes : list (ascii * nat) :=
  [(quote, 34); ("\", 92); ("/", 47); ("b", 8); ("f", 12); ("n", 10); ("r", 13); ("t", 9)]%char.

Section Grammar.
Variable num_value : string -> R.
Variable wide : nat -> string.
(** The inside of a string and what it stands for *)
Inductive jchars : string -> string -> Prop :=
| Jnil : jchars "" ""
| Jplain c s x : c <> quote -> c <> "\"%char -> 32 <= nat_of_ascii c -> jchars s x -> jchars (String c s) (String c x)
| Jesc e n s x : In (e, n) escapes -> jchars s x -> jchars (String "\" (String e s)) (String (ascii_of_nat n) x)
| Jhex h1 h2 h3 h4 a b c d s x : hex h1 a -> hex h2 b -> hex h3 c -> hex h4 d -> jchars s x ->
    jchars (String "\" (String "u" (String h1 (String h2 (String h3 (String h4 s)))))) (char wide (16 * (16 * (16 * a + b) + c) + d) x).
Inductive jvalue : string -> doc -> Prop :=
| Jnull : jvalue "null" DNull
| Jtrue : jvalue "true" (DBool true)
| Jfalse : jvalue "false" (DBool false)
| Jnum w : json_number w -> jvalue w (DNum (num_value w))
| Jspecial w : In w ["NaN"; "Infinity"; "-Infinity"] -> jvalue w (DNum (num_value w))
| Jstr s x : jchars s x -> jvalue (String quote (s ++ String quote "")) (DStr x)
| Jempty_list a : white a -> jvalue (String "[" (a ++ "]")) (DList [])
| Jlist a w l : white a -> jelements w l -> jvalue (String "[" (a ++ w)) (DList l)
| Jempty_map a : white a -> jvalue (String "{" (a ++ "}")) (DMap [])
| Jmap a w m : white a -> jmembers w m -> jvalue (String "{" (a ++ w)) (DMap (dict_of m))
(** The elements up to the closing bracket *)
with jelements : string -> list doc -> Prop :=
| Jlast w d a : jvalue w d -> white a -> jelements (w ++ a ++ "]") [d]
| Jmore w d a b u l : jvalue w d -> white a -> white b -> jelements u l -> jelements (w ++ a ++ String "," (b ++ u)) (d :: l)
with jmembers : string -> list (string * doc) -> Prop :=
| Jlast_member s k a b w d c : jchars s k -> white a -> white b -> jvalue w d -> white c ->
    jmembers (String quote (s ++ String quote (a ++ String ":" (b ++ w ++ c ++ "}")))) [(k, d)]
| Jmore_members s k a b w d c e u m : jchars s k -> white a -> white b -> jvalue w d -> white c -> white e -> jmembers u m ->
    jmembers (String quote (s ++ String quote (a ++ String ":" (b ++ w ++ c ++ String "," (e ++ u))))) ((k, d) :: m).
Scheme jvalue_mind := Induction for jvalue Sort Prop
with jelements_mind := Induction for jelements Sort Prop
with jmembers_mind := Induction for jmembers Sort Prop.
Combined Scheme json_mind from jvalue_mind, jelements_mind, jmembers_mind.

Notation val := (val num_value wide).
Notation mems := (mems num_value wide).
Notation els := (els num_value wide).
Notation scan := (scan wide).
Notation len := String.length.

(** ** White space *)
Lemma ws_in c : In (nat_of_ascii c) [32; 9; 10; 13] <-> is_ws c = true.
Proof.
  destruct c as [[] [] [] [] [] [] [] []]; cbn; split; intros H; try reflexivity; try discriminate; try tauto;
    repeat (destruct H as [H|H]; [discriminate|]); destruct H.
Qed.
Lemma white_skip a t : white a -> skip (a ++ t) = skip t.
Proof.
  unfold white. induction a as [|c a IH]; [reflexivity|]. cbn [list_ascii_of_string append skip]. intros H. inversion H as [|? ? C A]; subst.
  apply ws_in in C. rewrite C. apply IH, A.
Qed.
Lemma skip_white s : exists a, white a /\ s = (a ++ skip s)%string.
Proof.
  induction s as [|c s (a & A & E)]; [exists ""; split; [constructor|reflexivity]|]. cbn [skip]. destruct (is_ws c) eqn:W.
  - exists (String c a). split; [constructor; [apply ws_in, W|exact A]|]. cbn. congruence.
  - exists "". split; [constructor|reflexivity].
Qed.

(** ** Strings *)
Lemma hexv_hex c n : hexv c = Some n -> hex c n.
Proof.
  unfold hex. destruct c as [[] [] [] [] [] [] [] []]; cbn; try discriminate; intros [= <-]; cbn; auto.
Qed.
Lemma hex_hexv c n : hex c n -> hexv c = Some n.
Proof.
  unfold hex. do 16 (destruct n as [|n]; [cbn; intros [[= <-]|[= <-]]; reflexivity|]). destruct n; cbn; intros [H|H]; discriminate.
Qed.
Lemma unesc_in e x : unesc e = Some x <-> exists n, In (e, n) escapes /\ x = ascii_of_nat n.
Proof.
  split.
  - destruct e as [[] [] [] [] [] [] [] []]; cbn; try discriminate; intros [= <-]; eexists; (split; [cbn; tauto|reflexivity]).
  - intros (n & H & ->). cbn in H. repeat (destruct H as [[= <- <-]|H]; [reflexivity|]). destruct H.
Qed.
Lemma esc_not_u e n : In (e, n) escapes -> Ascii.eqb e "u" = false.
Proof. cbn. intros H. repeat (destruct H as [[= <- <-]|H]; [reflexivity|]). destruct H. Qed.
Lemma scan_jchars s x t : jchars s x -> scan (s ++ String quote t) = Some (x, t).
Proof.
  induction 1 as [|c s x Q B C H IH|e n s x E H IH|h1 h2 h3 h4 a b c d s x H1 H2 H3 H4 H IH]; cbn [append JsonText.scan].
  - rewrite Ascii.eqb_refl. reflexivity.
  - rewrite (neq_eqb _ _ Q), (neq_eqb _ _ B), IH. destruct (Nat.ltb_spec (nat_of_ascii c) 32); [lia|reflexivity].
  - change (Ascii.eqb "\" quote) with false. change (Ascii.eqb "\" "\") with true. cbv iota. rewrite (esc_not_u e n E).
    rewrite (proj2 (unesc_in e (ascii_of_nat n))) by eauto. rewrite IH. reflexivity.
  - change (Ascii.eqb "\" quote) with false. change (Ascii.eqb "\" "\") with true. change (Ascii.eqb "u" "u") with true. cbv iota.
    rewrite (hex_hexv _ _ H1), (hex_hexv _ _ H2), (hex_hexv _ _ H3), (hex_hexv _ _ H4), IH. reflexivity.
Qed.
Lemma jchars_scan n : forall s x r, len s <= n -> scan s = Some (x, r) -> exists w, s = (w ++ String quote r)%string /\ jchars w x.
Proof.
  induction n as [|n IH]; intros [|c s] x r L; cbn [String.length] in L; try lia; try discriminate.
  cbn [JsonText.scan]. destruct (Ascii.eqb_spec c quote) as [->|Q]; [intros [= <- <-]; exists ""; split; [reflexivity|constructor]|].
  destruct (Ascii.eqb_spec c "\") as [->|B].
  - destruct s as [|e s]; [discriminate|]. cbn [String.length] in *. destruct (Ascii.eqb_spec e "u") as [->|U].
    + destruct s as [|h1 [|h2 [|h3 [|h4 s]]]]; try discriminate. cbn [String.length] in *.
      destruct (hexv h1) as [a|] eqn:H1; [|discriminate]. destruct (hexv h2) as [b|] eqn:H2; [|discriminate].
      destruct (hexv h3) as [c|] eqn:H3; [|discriminate]. destruct (hexv h4) as [d|] eqn:H4; [|discriminate].
      destruct (scan s) as [[y r']|] eqn:E; [|discriminate]. cbn [before]. intros [= <- <-].
      destruct (IH s y r') as (w & -> & W); [lia|exact E|]. eexists. split; [|apply Jhex; eauto using hexv_hex]. reflexivity.
    + destruct (unesc e) as [z|] eqn:Z; [|discriminate]. destruct (scan s) as [[y r']|] eqn:E; [|discriminate]. cbn [before]. intros [= <- <-].
      destruct (IH s y r') as (w & -> & W); [lia|exact E|]. apply unesc_in in Z. destruct Z as (m & Z & ->). eexists. split; [|eapply Jesc; eauto]. reflexivity.
  - destruct (Nat.ltb_spec (nat_of_ascii c) 32); [discriminate|]. destruct (scan s) as [[y r']|] eqn:E; [|discriminate]. cbn [before]. intros [= <- <-].
    destruct (IH s y r') as (w & -> & W); [lia|exact E|]. exists (String c w). split; [reflexivity|]. constructor; auto.
Qed.

(** ** Every text of the grammar is read *)
Lemma jvalue_starts w d : jvalue w d -> starts w.
Proof.
  intros H. destruct H; try (eexists; eexists; split; [reflexivity|]; repeat split; discriminate).
  - apply json_number_read in H. destruct (number_head _ _ _ H) as (c & u & -> & G). apply num_start in G. exists c, u. tauto.
  - destruct H as [<-|[<-|[<-|[]]]]; eexists; eexists; (split; [reflexivity|]; repeat split; discriminate).
Qed.
Lemma starts_app s t : starts s -> starts (s ++ t).
Proof. intros (c & u & -> & H). exists c, (u ++ t)%string. auto. Qed.
Lemma jelements_starts w l : jelements w l -> starts w.
Proof. intros H. destruct H; apply starts_app; eapply jvalue_starts; eassumption. Qed.
Lemma jmembers_head w m : jmembers w m -> exists u, w = String quote u.
Proof. intros H. destruct H; eauto. Qed.
Lemma white_stop a c t : white a -> goes_on c = false -> stop (a ++ String c t).
Proof.
  destruct a as [|x a]; [auto|]. intros H _. inversion H as [|? ? C _]; subst. apply ws_in in C.
  destruct x as [[] [] [] [] [] [] [] []]; try discriminate C; reflexivity.
Qed.
Lemma complete :
  (forall w d, jvalue w d -> forall t, stop t -> val (w ++ t) = Ok (d, t)) /\
  (forall w l, jelements w l -> forall t, els (w ++ t) = Ok (l, t)) /\
  (forall w m, jmembers w m -> forall t, mems (w ++ t) = Ok (m, t)).
Proof.
  apply json_mind.
  - reflexivity.
  - reflexivity.
  - reflexivity.
  - intros w H t T. apply json_number_read in H.
    pose proof (pr_back num_value wide (fun _ => w) None (DNum (num_value w)) 0 t (conj H eq_refl) T) as B. exact B.
  - intros w H t T. destruct H as [<-|[<-|[<-|[]]]]; reflexivity.
  - intros s x H t T. cbn [append]. rewrite val_eq, Ascii.eqb_refl, app_assoc_s. cbn [append]. rewrite (scan_jchars _ _ _ H). reflexivity.
  - intros a A t T. cbn [append]. rewrite val_eq, app_assoc_s, (white_skip a _ A). reflexivity.
  - intros a w l A H IH t T. cbn [append]. rewrite val_eq, app_assoc_s, (white_skip a _ A).
    pose proof (starts_app w t (jelements_starts _ _ H)) as S. rewrite (starts_skip _ S), (proj1 (starts_word _ S)), IH. reflexivity.
  - intros a A t T. cbn [append]. rewrite val_eq, app_assoc_s, (white_skip a _ A). reflexivity.
  - intros a w m A H IH t T. cbn [append]. rewrite val_eq, app_assoc_s, (white_skip a _ A).
    specialize (IH t). destruct (jmembers_head _ _ H) as (u & ->). cbn [append] in *.
    change (skip (String quote (u ++ t))) with (String quote (u ++ t)). change (word "}" (String quote (u ++ t))) with (@None string). rewrite IH. reflexivity.
  - intros w d a H IH A t. rewrite els_eq, !app_assoc_s, IH by (apply white_stop; auto). cbn [bind append]. rewrite (white_skip a _ A). reflexivity.
  - intros w d a b u l H IH A B HU IU t. rewrite els_eq, !app_assoc_s. cbn [append]. rewrite app_assoc_s, IH by (apply white_stop; auto). cbn [bind].
    rewrite (white_skip a _ A). cbn [skip]. change (is_ws ",") with false. cbn [word Ascii.eqb Bool.eqb].
    rewrite (white_skip b _ B), (starts_skip _ (starts_app u t (jelements_starts _ _ HU))), IU. reflexivity.
  - intros s k a b w d c S A B H IH C t. cbn [append]. rewrite mems_eq. cbn [word]. rewrite Ascii.eqb_refl, !app_assoc_s. cbn [append]. rewrite (scan_jchars _ _ _ S).
    rewrite !app_assoc_s, (white_skip a _ A). cbn [append skip]. change (is_ws ":") with false. cbn [word]. rewrite Ascii.eqb_refl.
    rewrite !app_assoc_s, (white_skip b _ B), (starts_skip _ (starts_app w _ (jvalue_starts _ _ H))), IH by (apply white_stop; auto). cbn [bind append].
    rewrite (white_skip c _ C). reflexivity.
  - intros s k a b w d c e u m S A B H IH C E HU IU t. cbn [append]. rewrite mems_eq. cbn [word]. rewrite Ascii.eqb_refl, !app_assoc_s. cbn [append]. rewrite (scan_jchars _ _ _ S).
    rewrite !app_assoc_s, (white_skip a _ A). cbn [append skip]. change (is_ws ":") with false. cbn [word]. rewrite Ascii.eqb_refl.
    rewrite !app_assoc_s, (white_skip b _ B), (starts_skip _ (starts_app w _ (jvalue_starts _ _ H))). cbn [append]. rewrite IH by (apply white_stop; auto). cbn [bind].
    rewrite (white_skip c _ C). cbn [skip]. change (is_ws ",") with false. cbn [word Ascii.eqb Bool.eqb].
    rewrite app_assoc_s, (white_skip e _ E). specialize (IU t). destruct (jmembers_head _ _ HU) as (v & ->). cbn [append] in *.
    change (skip (String quote (v ++ t))) with (String quote (v ++ t)). rewrite IU. reflexivity.
Qed.

(** ** Only texts of the grammar are read *)
Lemma sound f :
  (forall s d r, value num_value wide f s = Ok (d, r) -> exists w, s = (w ++ r)%string /\ jvalue w d) /\
  (forall s m r, members num_value wide f s = Ok (m, r) -> exists w, s = (w ++ r)%string /\ jmembers w m) /\
  (forall s l r, elements num_value wide f s = Ok (l, r) -> exists w, s = (w ++ r)%string /\ jelements w l).
Proof.
  induction f as [|f (IV & IM & IE)]; [repeat split; discriminate|]. split; [|split]; intros s d r; rewrite ?value_S, ?members_S, ?elements_S.
  - destruct s as [|c s]; [discriminate|]. destruct (skip_white s) as (a & A & Ea).
    destruct (Ascii.eqb_spec c quote) as [->|Q].
    { destruct (scan s) as [[x u]|] eqn:E; [|discriminate]. intros [= <- <-]. destruct (jchars_scan (len s) s x u (le_n _) E) as (w & -> & W).
      exists (String quote (w ++ String quote "")). split; [cbn; rewrite app_assoc_s; reflexivity|constructor; exact W]. }
    destruct (Ascii.eqb_spec c "{") as [->|B].
    { destruct (word "}" (skip s)) as [u|] eqn:E.
      - intros [= <- <-]. apply word1_head in E. rewrite E in Ea. exists (String "{" (a ++ "}")). split; [cbn; rewrite app_assoc_s; cbn; congruence|constructor; exact A].
      - intros H. apply bind_ok in H. destruct H as ([m u] & H & [= <- <-]). apply IM in H. destruct H as (w & Ew & W). rewrite Ew in Ea.
        exists (String "{" (a ++ w)). split; [cbn; rewrite app_assoc_s; congruence|constructor; assumption]. }
    destruct (Ascii.eqb_spec c "[") as [->|C].
    { destruct (word "]" (skip s)) as [u|] eqn:E.
      - intros [= <- <-]. apply word1_head in E. rewrite E in Ea. exists (String "[" (a ++ "]")). split; [cbn; rewrite app_assoc_s; cbn; congruence|constructor; exact A].
      - intros H. apply bind_ok in H. destruct H as ([m u] & H & [= <- <-]). apply IE in H. destruct H as (w & Ew & W). rewrite Ew in Ea.
        exists (String "[" (a ++ w)). split; [cbn; rewrite app_assoc_s; congruence|constructor; assumption]. }
    unfold constant. intros H. set (v := String c s) in *. clearbody v.
    destruct (word "null" v) eqn:W1; [injection H as <- <-; apply word_eq in W1; eexists; split; [exact W1|constructor]|].
    destruct (word "true" v) eqn:W2; [injection H as <- <-; apply word_eq in W2; eexists; split; [exact W2|constructor]|].
    destruct (word "false" v) eqn:W3; [injection H as <- <-; apply word_eq in W3; eexists; split; [exact W3|constructor]|].
    destruct (number v) as [[w u]|] eqn:N.
    { injection H as <- <-. pose proof (number_grammar _ _ _ N) as G. apply number_eq in N. destruct N as [N _]. exists w. split; [exact N|constructor; exact G]. }
    destruct (word "NaN" v) eqn:W4; [injection H as <- <-; apply word_eq in W4; exists "NaN"; split; [exact W4|apply Jspecial; cbn; auto]|].
    destruct (word "Infinity" v) eqn:W5; [injection H as <- <-; apply word_eq in W5; exists "Infinity"; split; [exact W5|apply Jspecial; cbn; auto]|].
    destruct (word "-Infinity" v) eqn:W6; [injection H as <- <-; apply word_eq in W6; exists "-Infinity"; split; [exact W6|apply Jspecial; cbn; auto]|].
    discriminate.
  - destruct (word (String quote "") s) as [u|] eqn:E1; [|discriminate]. apply word1_head in E1. subst s.
    destruct (scan u) as [[k r0]|] eqn:E2; [|discriminate]. destruct (jchars_scan (len u) u k r0 (le_n _) E2) as (x & -> & X).
    destruct (word ":" (skip r0)) as [r1|] eqn:E3; [|discriminate]. apply word1_head in E3. destruct (skip_white r0) as (a & A & Ea). rewrite E3 in Ea.
    intros H. apply bind_ok in H. destruct H as ([v r2] & H & H2). apply IV in H. destruct H as (w & Ew & W).
    destruct (skip_white r1) as (b & B & Eb). rewrite Ew in Eb. destruct (skip_white r2) as (c & C & Ec).
    destruct (word "}" (skip r2)) as [r3|] eqn:E4.
    + injection H2 as <- <-. apply word1_head in E4. rewrite E4 in Ec.
      eexists. split; [|apply (Jlast_member x k a b w v c); assumption]. subst r0 r1 r2. cbn [append]. repeat (rewrite ?app_assoc_s; cbn [append]). reflexivity.
    + destruct (word "," (skip r2)) as [r3|] eqn:E5; [|discriminate]. apply word1_head in E5. rewrite E5 in Ec.
      apply bind_ok in H2. destruct H2 as ([l r4] & H2 & [= <- <-]). apply IM in H2. destruct H2 as (z & Ez & Z). destruct (skip_white r3) as (e & E & Ee). rewrite Ez in Ee.
      eexists. split; [|apply (Jmore_members x k a b w v c e z l); assumption]. subst r0 r1 r2 r3. cbn [append]. repeat (rewrite ?app_assoc_s; cbn [append]). reflexivity.
  - intros H. apply bind_ok in H. destruct H as ([v r2] & H & H2). apply IV in H. destruct H as (w & Ew & W). destruct (skip_white r2) as (c & C & Ec).
    destruct (word "]" (skip r2)) as [r3|] eqn:E4.
    + injection H2 as <- <-. apply word1_head in E4. rewrite E4 in Ec.
      eexists. split; [|apply (Jlast w v c); assumption]. subst s r2. repeat (rewrite ?app_assoc_s; cbn [append]). reflexivity.
    + destruct (word "," (skip r2)) as [r3|] eqn:E5; [|discriminate]. apply word1_head in E5. rewrite E5 in Ec.
      apply bind_ok in H2. destruct H2 as ([l r4] & H2 & [= <- <-]). apply IE in H2. destruct H2 as (z & Ez & Z). destruct (skip_white r3) as (e & E & Ee). rewrite Ez in Ee.
      eexists. split; [|apply (Jmore w v c e z l); assumption]. subst s r2 r3. repeat (rewrite ?app_assoc_s; cbn [append]). reflexivity.
Qed.
Lemma grammar s d : json_loads num_value wide s = Ok d <-> exists a w b, s = (a ++ w ++ b)%string /\ white a /\ white b /\ jvalue w d.
Proof.
  rewrite loads_eq. split.
  - intros H. apply bind_ok in H. destruct H as ([x r] & H & H2). destruct (skip r) eqn:R; [|discriminate]. injection H2 as ->.
    apply (proj1 (sound _)) in H. destruct H as (w & Ew & W). destruct (skip_white s) as (a & A & Ea). destruct (skip_white r) as (b & B & Eb).
    rewrite R, app_nil_s in Eb. subst b. exists a, w, r. rewrite <- Ew. auto.
  - intros (a & w & b & -> & A & B & W). rewrite (white_skip a _ A), (starts_skip _ (starts_app w b (jvalue_starts _ _ W))), (proj1 complete w d W).
    + cbn [bind]. pose proof (white_skip b "" B) as E. rewrite app_nil_s in E. rewrite E. reflexivity.
    + destruct b as [|c b]; [exact I|]. inversion B as [|? ? C _]; subst. apply ws_in in C. destruct c as [[] [] [] [] [] [] [] []]; try discriminate C; reflexivity.
Qed.
End Grammar.
