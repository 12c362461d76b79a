(** Facts about Args.v that hold for every command line. *)
From Coq Require Import String Ascii List Bool Arith ZArith Reals Lia.
From Verif Require Import PyBase PyDict Dump Cli Args.
Import ListNotations.
Open Scope string_scope.
Open Scope list_scope.
Open Scope nat_scope.

Lemma span_app {A} (f : A -> bool) l a b : span f l = (a, b) -> l = a ++ b /\ Forall (fun x => f x = true) a.
Proof.
  revert a b. induction l as [|x t IH]; cbn [span]; intros a b H.
  - injection H as <- <-. auto.
  - destruct (f x) eqn:E.
    + destruct (span f t) as [a' b'] eqn:S. injection H as <- <-. destruct (IH _ _ eq_refl) as [-> F]. auto.
    + injection H as <- <-. auto.
Qed.
Lemma take_app p l a r : take p l = Some (a, r) -> l = a ++ r.
Proof.
  unfold take. destruct (span is_dash l) as [d q] eqn:S. apply span_app in S. destruct S as [-> _].
  destruct q as [|[w [| |o]] q'].
  - destruct p as [a0|]; [|discriminate]. destruct (many a0); [|discriminate]. intros [= <- <-]. reflexivity.
  - destruct p as [a0|].
    + destruct (span is_dash q') as [d' q''] eqn:S. apply span_app in S. destruct S as [-> _]. intros [= <- <-].
      rewrite <- app_assoc. reflexivity.
    + intros [= <- <-]. rewrite app_nil_r. reflexivity.
  - destruct p as [a0|]; [|discriminate]. destruct (many a0); [|discriminate]. intros [= <- <-]. reflexivity.
  - destruct p as [a0|]; [|discriminate]. destruct (many a0); [|discriminate]. intros [= <- <-]. reflexivity.
Qed.
Lemma consume_app ps : forall l x r ps', consume ps l = (x, r, ps') ->
  (exists a, l = a ++ r /\ forall y, In y x -> In (fst y) ps /\ incl (snd y) (map fst a)) /\ incl ps' ps.
Proof.
  induction ps as [|p q IH]; intros l x r ps'; cbn [consume].
  - intros [= <- <- <-]. split; [|intros ? []]. exists []. split; auto. intros ? [].
  - destruct (take p l) as [[a b]|] eqn:T.
    + apply take_app in T. destruct (consume q b) as [[x' y'] z'] eqn:C. intros [= <- <- <-].
      destruct (IH _ _ _ _ C) as [(a' & -> & H) I]. subst l. split.
      * exists (a ++ a'). rewrite app_assoc. split; auto. intros y [<-|Y].
        { cbn [fst snd]. split; [left; auto|]. rewrite map_app. apply incl_appl, incl_refl. }
        { destruct (H y Y) as [H1 H2]. split; [right; auto|]. rewrite map_app. apply incl_appr; auto. }
      * intros z Z. right. apply I; auto.
    + intros [= <- <- <-]. split; [|apply incl_refl]. exists []. split; auto. intros ? [].
Qed.

Section Facts.
Variable stdin : string.
Variable creatable : string -> bool.
Variable float_of_str : string -> option R.
Notation convert := (convert stdin creatable float_of_str).
Notation pos_value := (pos_value stdin creatable float_of_str).
Notation opt_value := (opt_value stdin creatable float_of_str).
Notation take_pos := (take_pos stdin creatable float_of_str).
Notation take_all := (take_all stdin creatable float_of_str).
Notation take_opt := (take_opt stdin creatable float_of_str).
Notation loop := (loop stdin creatable float_of_str).
Notation parse_known := (parse_known stdin creatable float_of_str).
Notation parse_args := (parse_args stdin creatable float_of_str).
Notation run_sub := (run_sub stdin creatable float_of_str).

(** ** What argparse can do to the files and the screen *)
Definition touched (N : string -> Prop) (s s' : st) : Prop :=
  forall q, dget (files s') q = dget (files s) q \/ (dget (files s') q = Some "" /\ creatable q = true /\ N q).
Definition ends {A} (r : out A) (s s' : st) : Prop :=
  match r with
  | Ret _ => seen s' = seen s
  | Stop n => (n = 0%Z /\ seen s' = seen s ++ [Help]) \/ (n = 2%Z /\ seen s' = seen s ++ [Usage])
  | Raise e => e = IndexError /\ seen s' = seen s
  end.
Definition hoare {A} (N : string -> Prop) (Pre : st -> Prop) (m : P A) (Post : A -> st -> Prop) : Prop :=
  forall s, Pre s -> touched N s (snd (m s)) /\ ends (fst (m s)) s (snd (m s)) /\ (forall a, fst (m s) = Ret a -> Post a (snd (m s))).
Lemma touched_refl N s : touched N s s. Proof. intros q. auto. Qed.
Lemma touched_trans N a b c : touched N a b -> touched N b c -> touched N a c.
Proof. intros H G q. destruct (G q) as [E|E]; [|auto]. rewrite E. apply H. Qed.
Lemma touched_say N s e : touched N s (snd (say e s)). Proof. intros q. auto. Qed.
Lemma hoare_ret A N (Pre : st -> Prop) (a : A) (Post : A -> st -> Prop) : (forall s, Pre s -> Post a s) -> hoare N Pre (ret a) Post.
Proof. intros H s R. split; [apply touched_refl|]. split; [reflexivity|]. intros b [= <-]. apply H; auto. Qed.
Lemma hoare_fail A N (Pre : st -> Prop) (Post : A -> st -> Prop) : hoare N Pre (@fail A) Post.
Proof. intros s R. split; [intros q; left; reflexivity|]. split; [right; auto|]. discriminate. Qed.
Lemma hoare_help A N (Pre : st -> Prop) (Post : A -> st -> Prop) : hoare N Pre (@help A) Post.
Proof. intros s R. split; [intros q; left; reflexivity|]. split; [left; auto|]. discriminate. Qed.
Lemma hoare_bind A B N (Pre : st -> Prop) (m : P A) (Mid : A -> st -> Prop) (k : A -> P B) (Post : B -> st -> Prop) :
  hoare N Pre m Mid -> (forall a, hoare N (Mid a) (k a) Post) -> hoare N Pre (pbind m k) Post.
Proof.
  intros H K s R. unfold pbind. destruct (H s R) as (T & E & M). destruct (m s) as [[a|n|e] s']; cbn [fst snd] in *.
  - specialize (K a s' (M a eq_refl)). destruct K as (T' & E' & M'). split; [eapply touched_trans; eauto|].
    split; auto. cbn [ends] in E. destruct (fst (k a s')); cbn [ends] in *; rewrite E in E'; auto.
  - split; auto. split; auto. discriminate.
  - split; auto. split; auto. discriminate.
Qed.
Lemma hoare_weaken A N (Pre : st -> Prop) (m : P A) (Post : A -> st -> Prop) (Pre' : st -> Prop) (Post' : A -> st -> Prop) : hoare N Pre m Post ->
  (forall s, Pre' s -> Pre s) -> (forall a s, Post a s -> Post' a s) -> hoare N Pre' m Post'.
Proof. intros H I J s R. destruct (H s (I s R)) as (T & E & M). auto. Qed.

(** Values that refer to files: inputs exist, outputs have just been emptied. *)
Definition sound (N : string -> Prop) (s : st) (v : value) : Prop :=
  match v with
  | VIn (SFile q) => dmem (files s) q = true
  | VIn (SStdin t) => t = stdin
  | VOut (DFile q) => dget (files s) q = Some "" /\ N q
  | _ => True
  end.
Definition sound_in (N : string -> Prop) (d : dict string value) (s : st) : Prop := forall k v, In (k, v) d -> sound N s v.
Lemma touched_sound N s s' v : touched N s s' -> sound N s v -> sound N s' v.
Proof.
  intros T. destruct v as [| |x|[t|q]|[|q|]|x]; cbn [sound]; auto; unfold dmem; destruct (T q) as [-> |(-> & _)]; auto; intros []; auto.
Qed.
Lemma touched_sound_in N s s' d : touched N s s' -> sound_in N d s -> sound_in N d s'.
Proof. intros T H k v I. eapply touched_sound; eauto. Qed.
Lemma In_dset (d : dict string value) k v k' v' : In (k', v') (dset d k v) -> v' = v \/ In (k', v') d.
Proof.
  induction d as [|[a b] t IH]; cbn [dset].
  - intros [[= <- <-]|[]]. auto.
  - destruct (keqb k a); intros [I|I].
    + injection I as <- <-. auto.
    + right. right. auto.
    + right. left. auto.
    + destruct (IH I); auto. right. right. auto.
Qed.
Lemma sound_dset N d k v s : sound_in N d s -> sound N s v -> sound_in N (dset d k v) s.
Proof. intros H V k' v' I. destruct (In_dset _ _ _ _ _ I) as [->|I']; eauto. Qed.

Lemma convert_hoare (N : string -> Prop) d c v : (c = KOut -> N v) ->
  hoare N (sound_in N d) (convert c v) (fun x s => sound N s x /\ sound_in N d s).
Proof.
  intros H. destruct c; cbn [Args.convert].
  - apply hoare_ret. cbn. auto.
  - unfold open_in. destruct (String.eqb v "-"); [apply hoare_ret; cbn; auto|].
    intros s R. destruct (dmem (files s) v) eqn:E; [|exact (hoare_fail value N (sound_in N d) (fun x s => sound N s x /\ sound_in N d s) s R)].
    cbn [fst snd]. split; [apply touched_refl|]. split; [reflexivity|]. intros a [= <-]. cbn [sound]. auto.
  - unfold open_out. destruct (String.eqb v "-"); [apply hoare_ret; cbn; auto|].
    intros s R. destruct (creatable v) eqn:E; [|exact (hoare_fail value N (sound_in N d) (fun x s => sound N s x /\ sound_in N d s) s R)].
    cbn [fst snd]. assert (touched N s (truncate (DFile v) s)) as T.
    { intros q. cbn [truncate files]. rewrite dget_dset. destruct (keqb v q) eqn:K; auto.
      apply keqb_eq in K. subst q. right. auto. }
    split; auto. split; [reflexivity|]. intros a [= <-]. cbn [sound truncate files]. rewrite dget_dset, keqb_refl.
    split; auto. eapply touched_sound_in; eauto.
  - destruct (float_of_str v); [apply hoare_ret; cbn; auto|apply hoare_fail].
  - destruct (existsb _ l); [apply hoare_ret; cbn; auto|apply hoare_fail].
Qed.
Lemma strip_incl l : incl (strip l) l.
Proof.
  induction l as [|s t IH]; cbn [strip]; [apply incl_refl|]. destruct (String.eqb s "--"); [apply incl_tl, incl_refl|].
  intros x [<-|I]; [left; auto|right; auto].
Qed.
(** A string default is not the name of an output; other defaults are sound. *)
Definition safe (a : arg) : Prop :=
  match default a with
  | VStr _ => type a <> KOut
  | VIn (SFile _) | VOut (DFile _) => False
  | VIn (SStdin t) => t = stdin
  | _ => True
  end.
Lemma safe_sound N a s : safe a -> sound N s (default a).
Proof. unfold safe, sound. destruct (default a) as [| |x|[t|q]|[|q|]|x]; tauto. Qed.
Lemma pos_value_hoare (N : string -> Prop) d a l : safe a -> (forall v, In v l -> N v) ->
  hoare N (sound_in N d) (pos_value a l) (fun x s => sound N s x /\ sound_in N d s).
Proof.
  intros S H. unfold Args.pos_value.
  assert (forall r, hoare N (sound_in N d) r (fun x s => sound N s x /\ sound_in N d s) -> hoare N (sound_in N d) r (fun x s => sound N s x /\ sound_in N d s)) as _ by auto.
  assert (hoare N (sound_in N d) (if many a then match default a with VStr v => convert (type a) v | v => ret v end else ret VEmpty)
    (fun x s => sound N s x /\ sound_in N d s)) as D.
  { destruct (many a); [|apply hoare_ret; cbn; auto].
    assert (forall v, v = default a -> hoare N (sound_in N d) (ret v) (fun x s => sound N s x /\ sound_in N d s)) as G.
    { intros v ->. apply hoare_ret. intros s R. split; auto. apply safe_sound; auto. }
    unfold safe in S. destruct (default a) as [| |x|f|o|x] eqn:E; auto. apply convert_hoare. intros K. contradiction. }
  pose proof (strip_incl l) as I. destruct (strip l) as [|v [|w t]]; auto.
  apply convert_hoare. intros _. apply H, I. left; auto.
Qed.
Lemma opt_value_hoare (N : string -> Prop) d a l : (forall v, In v l -> N v) ->
  hoare N (sound_in N d) (opt_value a l) (fun x s => sound N s x /\ sound_in N d s).
Proof.
  intros H. unfold Args.opt_value. pose proof (strip_incl l) as I.
  destruct (strip l) as [|v [|w t]]; try (apply hoare_ret; intros s R; destruct (many a); cbn; auto).
  apply convert_hoare. intros _. apply H, I. left; auto.
Qed.

(** ** The loop *)
Definition tok_named (N : string -> Prop) (t : token) : Prop :=
  N (fst t) /\ match snd t with CO (OOpt _ (Some e)) => N e | _ => True end.
Definition sound_got (N : string -> Prop) (g : got) (s : st) : Prop := sound_in N (space g) s.
Section Engine.
Variable p : parser.
Variable sub : list string -> got -> P got.
Variable N : string -> Prop.
Hypothesis Hsub : forall l g, (forall v, In v l -> N v) -> hoare N (sound_got N g) (sub l g) (sound_got N).
Lemma take_pos_hoare x g : (forall a, fst x = PArg a -> safe a) -> (forall v, In v (snd x) -> N v) ->
  hoare N (sound_got N g) (take_pos sub x g) (sound_got N).
Proof.
  intros S H. unfold Args.take_pos. destruct (fst x) as [a|] eqn:E; [|apply Hsub; auto].
  eapply hoare_bind; [apply (pos_value_hoare N (space g)); auto|]. intros v. apply hoare_ret.
  intros s [V D]. unfold sound_got. cbn [put_value space]. apply sound_dset; auto.
Qed.
Lemma take_all_hoare l : (forall x, In x l -> (forall a, fst x = PArg a -> safe a) /\ (forall v, In v (snd x) -> N v)) ->
  forall g, hoare N (sound_got N g) (take_all sub l g) (sound_got N).
Proof.
  induction l as [|x t IH]; intros H g; cbn [Args.take_all].
  - apply hoare_ret. auto.
  - eapply hoare_bind; [apply take_pos_hoare; apply H; left; auto|]. intros g'. apply IH. intros y Y. apply H. right; auto.
Qed.
Lemma cluster_hoare A (Pre : st -> Prop) (Post : A -> st -> Prop) e : hoare N Pre (@cluster A e) Post.
Proof.
  induction e as [|c t IH]; cbn [cluster].
  - intros s R. split; [apply touched_refl|]. split; [split; reflexivity|]. discriminate.
  - destruct (Ascii.eqb c "h"); [|apply hoare_fail]. destruct (String.eqb t ""); [apply hoare_help|apply IH].
Qed.
Lemma take_opt_hoare w o l g : N w -> match o with OOpt _ (Some e) => N e | _ => True end -> Forall (tok_named N) l ->
  hoare N (sound_got N g) (take_opt w o l g)
    (fun x s => sound_got N (snd x) s /\ Forall (tok_named N) (fst x) /\ (length (fst x) <= length l)).
Proof.
  intros W E F. assert (forall (a : arg) (q : list token) v s, Forall (tok_named N) q -> length q <= length l ->
    sound N s v /\ sound_in N (space g) s -> sound_got N (put_value a v g) s /\ Forall (tok_named N) q /\ length q <= length l) as D.
  { intros a q v s Q L [V G]. split; [|auto]. unfold sound_got. cbn [put_value space]. apply sound_dset; auto. }
  unfold Args.take_opt. destruct o as [|[] [e|]|a [e|]]; try apply hoare_help; try apply hoare_fail; try apply cluster_hoare.
  - apply hoare_ret. intros s R. auto.
  - eapply hoare_bind; [apply (opt_value_hoare N (space g)); intros v [<-|[]]; exact E|]. intros v. apply hoare_ret. intros s R. cbn [fst snd]. eauto.
  - assert (hoare N (sound_got N g) (if many a then do* x <- opt_value a []; ret (l, put_value a x g) else fail)
      (fun x s => sound_got N (snd x) s /\ Forall (tok_named N) (fst x) /\ (length (fst x) <= length l))) as G.
    { destruct (many a); [|apply hoare_fail]. eapply hoare_bind; [apply (opt_value_hoare N (space g)); intros v []|].
      intros v. apply hoare_ret. intros s R. cbn [fst snd]. eauto. }
    destruct l as [|[v []] t]; auto. inversion F as [|? ? F1 F2]; subst.
    eapply hoare_bind; [apply (opt_value_hoare N (space g)); intros u [<-|[]]; exact (proj1 F1)|].
    intros x. apply hoare_ret. intros s R. cbn [fst snd]. apply D; auto. cbn [length]. lia.
Qed.
Lemma named_in l v : Forall (tok_named N) l -> In v (map fst l) -> N v.
Proof. intros F I. apply in_map_iff in I. destruct I as (t & <- & I). rewrite Forall_forall in F. exact (proj1 (F t I)). Qed.
Lemma loop_hoare n : forall l ps g, length l < n -> Forall (tok_named N) l -> (forall a, In (PArg a) ps -> safe a) ->
  hoare N (sound_got N g) (loop sub n l ps g) (fun x s => sound_got N (snd x) s).
Proof.
  induction n as [|n IH]; intros l ps g L F S; [lia|]. cbn [Args.loop].
  assert (forall x r ps', consume ps l = (x, r, ps') ->
    hoare N (sound_got N g) (take_all sub x g) (sound_got N) /\ Forall (tok_named N) r /\ (forall a, In (PArg a) ps' -> safe a)) as C.
  { intros x r ps' C. apply consume_app in C. destruct C as [(a & -> & H) I]. apply Forall_app in F. destruct F as [F1 F2].
    split; [|split; auto]. apply take_all_hoare. intros y Y. destruct (H y Y) as [H1 H2]. split.
    - intros b E. apply S. rewrite <- E. auto.
    - intros v V. eapply named_in; [exact F1|]. apply H2; auto. }
  assert (forall (a b : list token), span (fun t => negb (is_opt t)) l = (a, b) -> a <> [] -> existsb is_opt l = true ->
    hoare N (sound_got N g) (loop sub n b ps (add_extra (map fst a) g)) (fun x s => sound_got N (snd x) s)) as X.
  { intros a b E NE _. apply span_app in E. destruct E as [-> _]. apply Forall_app in F. destruct F as [F1 F2].
    rewrite app_length in L. eapply hoare_weaken; [apply IH; auto|auto|auto].
    destruct a; [congruence|cbn in L; lia]. }
  destruct (existsb is_opt l) eqn:E.
  - assert (hoare N (sound_got N g) (let '(x, r, ps') := consume ps l in
               if length r <? length l then do* g' <- take_all sub x g; loop sub n r ps' g'
               else let '(a, b) := span (fun t => negb (is_opt t)) l in loop sub n b ps (add_extra (map fst a) g))
             (fun x s => sound_got N (snd x) s) \/ exists w o t, l = (w, CO o) :: t) as G.
    { destruct l as [|[w c] t]; [discriminate|]. destruct c as [| |o]; [left|left|right; eauto].
      all: destruct (consume ps _) as [[x r] ps'] eqn:Q; destruct (C _ _ _ eq_refl) as (H1 & H2 & H3).
      all: destruct (length r <? length _) eqn:B; [apply Nat.ltb_lt in B; eapply hoare_bind; [exact H1|]; intros g'; apply IH; auto; lia|].
      all: destruct (span _ _) as [a b] eqn:W; apply (X a b); auto.
      all: cbn [span is_opt snd negb] in W; destruct (span _ t) as [a' b']; injection W as <- <-; discriminate. }
    destruct G as [G|(w & o & t & ->)].
    + destruct l as [|[w [| |o]] t]; auto. inversion F as [|? ? F1 F2]; subst. destruct F1 as [F1 F3]. cbn [fst snd] in *.
      eapply hoare_bind; [apply take_opt_hoare; auto|]. intros [q g']. cbn [fst snd]. cbn [length] in L.
      intros s (R1 & R2 & R3). apply IH; auto. lia.
    + inversion F as [|? ? F1 F2]; subst. destruct F1 as [F1 F3]. cbn [fst snd] in *.
      eapply hoare_bind; [apply take_opt_hoare; auto|]. intros [q g']. cbn [fst snd]. cbn [length] in L.
      intros s (R1 & R2 & R3). apply IH; auto. lia.
  - destruct (consume ps l) as [[x r] ps'] eqn:Q. destruct (C _ _ _ eq_refl) as (H1 & H2 & H3).
    eapply hoare_bind; [exact H1|]. intros g'. apply hoare_ret. auto.
Qed.
End Engine.

(** ** Classification *)
Lemma cut_app s a b : cut s = Some (a, b) -> s = (a ++ "=" ++ b)%string.
Proof.
  revert a. induction s as [|c t IH]; intros a; cbn [cut]; [discriminate|].
  destruct (Ascii.eqb_spec c "=").
  - subst c. intros [= <- <-]. reflexivity.
  - destruct (cut t) as [[a' b']|]; [|discriminate]. intros [= <- <-]. cbn. f_equal. apply IH. reflexivity.
Qed.
(** A word of the command line, or what follows the first "=" in one. *)
Definition named (l : list string) (v : string) : Prop := In v l \/ exists a, In (a ++ "=" ++ v)%string l.
Lemma lookup_explicit p s e a e' : lookup p s e = Some (OOpt a e') -> e' = e.
Proof. unfold lookup. destruct (String.eqb s "-h"); [discriminate|]. destruct (String.eqb s "--help"); [discriminate|].
  destruct (dget (flags p) s); [|discriminate]. intros [= _ <-]. reflexivity. Qed.
Lemma abbreviations_explicit p s a e : In (OOpt a (Some e)) (abbreviations p s) -> exists q, cut s = Some (q, e).
Proof.
  unfold abbreviations. destruct (String.prefix "--" s).
  - destruct (cut s) as [[q b]|] eqn:C; intros I; apply in_app_iff in I; destruct I as [I|I].
    + destruct (String.prefix q "--help"); [destruct I as [I|[]]; discriminate|destruct I].
    + apply in_map_iff in I. destruct I as (fa & [= _ <-] & _). eauto.
    + destruct (String.prefix s "--help"); [destruct I as [I|[]]; discriminate|destruct I].
    + apply in_map_iff in I. destruct I as (fa & I & _). discriminate.
  - assert (match s with String "-" (String "h" t) => [OHelp false (Some t)] | _ => [] end = [] \/
            exists t, match s with String "-" (String "h" t) => [OHelp false (Some t)] | _ => [] end = [OHelp false (Some t)]) as [-> |(t & ->)].
    { destruct s as [|c [|c2 t]]; auto.
      - destruct c as [[] [] [] [] [] [] [] []]; auto.
      - destruct c as [[] [] [] [] [] [] [] []]; auto. destruct c2 as [[] [] [] [] [] [] [] []]; eauto. }
    + intros [].
    + intros [I|[]]. discriminate.
Qed.
Lemma classify_spec p w s : (exists c, classify p w s = (Ret c, s) /\
    match c with CO (OOpt _ (Some e)) => exists q, w = (q ++ "=" ++ e)%string | _ => True end) \/ classify p w s = fail s.
Proof.
  unfold classify. destruct w as [|c t]; [left; exists CA; auto|].
  destruct (Ascii.eqb c "-"); cbn [negb]; [|left; exists CA; auto].
  set (w := String c t). destruct (lookup p w None) as [o|] eqn:L1.
  { left. exists (CO o). split; auto. destruct o as [| |a [e|]]; auto. apply lookup_explicit in L1. discriminate. }
  destruct (String.eqb t ""); [left; exists CA; auto|].
  assert ((exists c, match abbreviations p w with _ :: _ :: _ => fail | [o] => ret (CO o)
      | [] => if negative_number w || has_space w then ret CA else ret (CO OUnknown) end s = (Ret c, s) /\
    match c with CO (OOpt _ (Some e)) => exists q, w = (q ++ "=" ++ e)%string | _ => True end) \/
    match abbreviations p w with _ :: _ :: _ => fail | [o] => ret (CO o)
      | [] => if negative_number w || has_space w then ret CA else ret (CO OUnknown) end s = fail s) as G.
  { pose proof (abbreviations_explicit p w) as X. destruct (abbreviations p w) as [|o [|o2 l]]; auto.
    - left. destruct (negative_number w || has_space w); [exists CA|exists (CO OUnknown)]; auto.
    - left. exists (CO o). split; auto. destruct o as [| |a [e|]]; auto.
      destruct (X a e (or_introl eq_refl)) as (q & Q). exists q. apply cut_app; auto. }
  destruct (cut w) as [[a b]|] eqn:C; auto. destruct (lookup p a (Some b)) as [o|] eqn:L2; auto.
  left. exists (CO o). split; auto. destruct o as [| |x [e|]]; auto. apply lookup_explicit in L2. injection L2 as <-.
  exists a. apply cut_app; auto.
Qed.
Lemma tokens_spec p l s : (exists t, tokens p l s = (Ret t, s) /\ map fst t = l /\ Forall (tok_named (named l)) t) \/ tokens p l s = fail s.
Proof.
  assert (forall l l', incl l l' -> forall v, named l v -> named l' v) as Mono.
  { intros a b I v [H|(q & H)]; [left|right; exists q]; apply I; auto. }
  revert s. induction l as [|w t IH]; intros s; cbn [tokens]; [left; exists []; auto|].
  destruct (String.eqb w "--") eqn:E.
  - left. eexists. split; [reflexivity|]. split.
    + cbn. rewrite map_map. cbn. rewrite map_id. reflexivity.
    + constructor; [split; cbn; auto; left; left; auto|]. apply Forall_forall. intros x I. apply in_map_iff in I.
      destruct I as (u & <- & I). split; cbn; auto. left. right. auto.
  - unfold pbind. destruct (classify_spec p w s) as [(c & -> & H)| ->]; [|right; reflexivity].
    destruct (IH s) as [(r & -> & M & F)| ->]; [|right; reflexivity]. left. eexists. split; [reflexivity|].
    split; [cbn; congruence|]. constructor.
    + split; cbn [fst snd]; [left; left; auto|]. destruct c as [| |[| |a [e|]]]; auto. destruct H as (q & ->).
      right. exists q. left. reflexivity.
    + eapply Forall_impl; [|exact F]. intros x [X Y]. split; [eapply Mono; [|exact X]; apply incl_tl, incl_refl|].
      destruct (snd x) as [| |[| |a [e|]]]; auto. eapply Mono; [|exact Y]. apply incl_tl, incl_refl.
Qed.
(** ** Every command line *)
Definition safe_parser (p : parser) : Prop :=
  (forall a, In (PArg a) (pos p) -> safe a) /\ (forall fa, In fa (flags p) -> safe (snd fa)).
Lemma defaults_sound N p s : safe_parser p -> sound_in N (defaults p) s.
Proof.
  intros [H G] k v I. unfold defaults in I. apply in_app_iff in I. destruct I as [I|I].
  - apply in_flat_map in I. destruct I as ([a|] & Ia & I); cbn in I; [|destruct I]. destruct I as [I|[]].
    injection I as <- <-. apply safe_sound, H; auto.
  - apply in_map_iff in I. destruct I as (fa & [= <- <-] & I). apply safe_sound, G; auto.
Qed.
Lemma parse_known_hoare p sub l (N : string -> Prop) : safe_parser p -> (forall v, named l v -> N v) ->
  (forall l' g, (forall v, In v l' -> N v) -> hoare N (sound_got N g) (sub l' g) (sound_got N)) ->
  hoare N (fun _ => True) (parse_known p sub l) (sound_got N).
Proof.
  intros S I Hs s _. destruct (tokens_spec p l s) as [(t & T & M & F)|T].
  - assert (hoare N (fun _ => True) (do* x <- loop sub (Datatypes.S (length t)) t (pos p) (Got (defaults p) None []);
      if existsb required (fst x) then fail else ret (snd x)) (sound_got N)) as H.
    { eapply hoare_bind.
      - eapply hoare_weaken; [apply (loop_hoare sub N Hs)| |]; [lia| |apply S| |].
        + eapply Forall_impl; [|exact F]. intros x [X Y]. split; auto. destruct (snd x) as [| |[| |a [e|]]]; auto.
        + intros s' _. apply defaults_sound; auto.
        + intros a s' R. exact R.
      - intros x. destruct (existsb required (fst x)); [apply hoare_fail|]. apply hoare_ret. auto. }
    assert (parse_known p sub l s = (do* x <- loop sub (Datatypes.S (length t)) t (pos p) (Got (defaults p) None []);
      if existsb required (fst x) then fail else ret (snd x)) s) as ->.
    { unfold Args.parse_known. unfold pbind at 1. rewrite T. reflexivity. }
    apply H. auto.
  - assert (parse_known p sub l s = fail s) as ->.
    { unfold Args.parse_known. unfold pbind at 1. rewrite T. reflexivity. }
    split; [apply touched_say|]. split; [right; auto|]. discriminate.
Qed.
Lemma sub_safe c q : sub_parser stdin c = Some q -> safe_parser q.
Proof.
  unfold sub_parser. repeat (destruct (String.eqb c _)); try discriminate; intros [= <-]; split; cbn [pos flags].
  all: intros a I; repeat (destruct I as [I|I]; [try (injection I as <-); try subst a; cbn; auto; discriminate|]); destruct I.
Qed.
Lemma In_dupdate (d e : dict string value) k v : In (k, v) (dupdate d e) -> In v (map snd d) \/ In v (map snd e).
Proof.
  revert d. induction e as [|[a b] t IH]; intros d I.
  - left. apply in_map_iff. exists (k, v). auto.
  - change (In (k, v) (dupdate (dset d a b) t)) in I. destruct (IH _ I) as [J|J].
    + apply in_map_iff in J. destruct J as ([k' v'] & J & K). cbn in J. subst v'. destruct (In_dset _ _ _ _ _ K) as [->|K'].
      * right. left. reflexivity.
      * left. apply in_map_iff. exists (k', v). auto.
    + right. right. auto.
Qed.
Lemma named_closed l a v : named l (a ++ "=" ++ v) -> named l v.
Proof.
  intros [H|(b & H)]; right; eauto. exists (b ++ "=" ++ a)%string.
  assert (forall x y z : string, ((x ++ y) ++ z)%string = (x ++ y ++ z)%string) as Q.
  { induction x as [|c x IH]; intros y z; cbn; f_equal; auto. }
  rewrite !Q. exact H.
Qed.
Lemma run_sub_hoare (N : string -> Prop) l g : (forall v, named l v -> N v) -> hoare N (sound_got N g) (run_sub l g) (sound_got N).
Proof.
  intros H. destruct l as [|c t]; cbn [Args.run_sub]; [apply hoare_ret; auto|].
  destruct (sub_parser stdin c) as [q|] eqn:E; [|apply hoare_fail].
  intros s R. apply (hoare_bind _ _ N (fun s' => sound_got N g s' /\ touched N s s') _ (fun h s' => sound_got N h s' /\ sound_got N g s')).
  - intros s0 [R0 T0]. destruct (parse_known_hoare q no_sub t N (sub_safe _ _ E)) with (s := s0) as (A & B & D); auto.
    + intros v [V|(a & V)]; apply H; [left|right; exists a]; right; auto.
    + intros l' g' _. apply hoare_ret. auto.
    + split; auto. split; auto. intros a Ha. split; auto. eapply touched_sound_in; eauto.
  - intros h. apply hoare_ret. intros s' [A B]. unfold sound_got in *. cbn [space]. intros k v I.
    apply In_dupdate in I. destruct I as [I|I]; apply in_map_iff in I; destruct I as ([k' v'] & I & J); cbn in I; subst v'; eauto.
  - split; auto. apply touched_refl.
Qed.
Lemma run_sub_named l l' g : (forall v, In v l' -> named l v) -> hoare (named l) (sound_got (named l) g) (run_sub l' g) (sound_got (named l)).
Proof. intros H. apply run_sub_hoare. intros v [V|(a & V)]; auto. apply (named_closed l a). auto. Qed.
Lemma parse_args_hoare p sub l : safe_parser p ->
  (forall l' g, (forall v, In v l' -> named l v) -> hoare (named l) (sound_got (named l) g) (sub l' g) (sound_got (named l))) ->
  hoare (named l) (fun _ => True) (parse_args p sub l) (fun g s => sound_got (named l) g s /\ extra g = []).
Proof.
  intros S H. unfold Args.parse_args. eapply hoare_bind; [apply parse_known_hoare; auto|].
  intros g. destruct (extra g) eqn:E; [apply hoare_ret; auto|apply hoare_fail].
Qed.
End Facts.
