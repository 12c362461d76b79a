(** Facts on the JSON texts of JsonText.v: the fuel of the reader is never used up; reading back what was written. *)
From Coq Require Import String Ascii List Bool Arith Lia Reals.
From Verif Require Import PyBase PyDict Wc JsonText.
Import ListNotations.
Open Scope string_scope.
Open Scope list_scope.
Open Scope nat_scope.

Section Facts.
Variable num_value : string -> R.
Variable wide : nat -> string.
Notation value := (value num_value wide).
Notation members := (members num_value wide).
Notation elements := (elements num_value wide).
Notation scan := (scan wide).
Notation constant := (constant num_value).
Notation bad := (Err JSONDecodeError).
Notation len := String.length.

Lemma scan_lt s x r : scan s = Some (x, r) -> len r < len s.
Proof. intros H. exact (scan_len wide (len s) s x r (le_n _) H). Qed.
Ltac ws := repeat match goal with
  | H : context [len (skip ?x)] |- _ => lazymatch goal with _ : len (skip x) <= len x |- _ => fail | _ => pose proof (skip_len x) end
  | |- context [len (skip ?x)] => lazymatch goal with _ : len (skip x) <= len x |- _ => fail | _ => pose proof (skip_len x) end
  end.
Ltac lens := repeat match goal with
  | H : word _ _ = Some _ |- _ => apply word_len in H; cbn [String.length] in H
  | H : scan _ = Some _ |- _ => apply scan_lt in H
  | H : constant _ = Some _ |- _ => apply constant_len in H
  end; cbn [String.length] in *; ws; try lia.

(** One step of the readers *)
Lemma value_S f s : value (S f) s =
  match s with
  | EmptyString => bad
  | String c t =>
      if Ascii.eqb c quote then match scan t with Some (x, r) => Ok (DStr x, r) | None => bad end
      else if Ascii.eqb c "{" then
        match word "}" (skip t) with Some r => Ok (DMap [], r) | None => let! (m, r) := members f (skip t) in Ok (DMap (dict_of m), r) end
      else if Ascii.eqb c "[" then
        match word "]" (skip t) with Some r => Ok (DList [], r) | None => let! (l, r) := elements f (skip t) in Ok (DList l, r) end
      else match constant s with Some x => Ok x | None => bad end
  end.
Proof. reflexivity. Qed.
Lemma members_S f s : members (S f) s =
  match word (String quote "") s with None => bad | Some t =>
  match scan t with None => bad | Some (k, r) =>
  match word ":" (skip r) with None => bad | Some r1 =>
    let! (v, r2) := value f (skip r1) in
    match word "}" (skip r2) with
    | Some r3 => Ok ([(k, v)], r3)
    | None => match word "," (skip r2) with Some r3 => let! (l, r4) := members f (skip r3) in Ok ((k, v) :: l, r4) | None => bad end
    end
  end end end.
Proof. reflexivity. Qed.
Lemma elements_S f s : elements (S f) s =
  let! (v, r) := value f s in
  match word "]" (skip r) with
  | Some r1 => Ok ([v], r1)
  | None => match word "," (skip r) with Some r1 => let! (l, r2) := elements f (skip r1) in Ok (v :: l, r2) | None => bad end
  end.
Proof. reflexivity. Qed.

(** Reading uses up a part of the text *)
Lemma consume f :
  (forall s d r, value f s = Ok (d, r) -> len r < len s) /\
  (forall s d r, members f s = Ok (d, r) -> len r < len s) /\
  (forall s d r, elements f s = Ok (d, r) -> len r < len s).
Proof.
  induction f as [|f (IV & IM & IE)]; [repeat split; discriminate|]. repeat split; intros s d r; rewrite ?value_S, ?members_S, ?elements_S.
  - destruct s as [|c t]; [discriminate|]. destruct (Ascii.eqb c quote).
    { destruct (scan t) as [[x r']|] eqn:E; [|discriminate]. intros [= _ <-]. lens. }
    destruct (Ascii.eqb c "{").
    { destruct (word "}" (skip t)) as [r'|] eqn:E; [intros [= _ <-]; lens|].
      intros H. apply bind_ok in H. destruct H as ([m r'] & H & [= _ <-]). apply IM in H. lens. }
    destruct (Ascii.eqb c "[").
    { destruct (word "]" (skip t)) as [r'|] eqn:E; [intros [= _ <-]; lens|].
      intros H. apply bind_ok in H. destruct H as ([m r'] & H & [= _ <-]). apply IE in H. lens. }
    destruct (constant (String c t)) as [[x r']|] eqn:E; [|discriminate]. intros [= _ <-]. lens.
  - destruct (word _ s) as [t|] eqn:E1; [|discriminate]. destruct (scan t) as [[k r0]|] eqn:E2; [|discriminate].
    destruct (word ":" (skip r0)) as [r1|] eqn:E3; [|discriminate].
    intros H. apply bind_ok in H. destruct H as ([v r2] & H & H2). apply IV in H.
    destruct (word "}" (skip r2)) as [r3|] eqn:E4; [injection H2 as _ <-; lens|].
    destruct (word "," (skip r2)) as [r3|] eqn:E5; [|discriminate].
    apply bind_ok in H2. destruct H2 as ([l r4] & H2 & [= _ <-]). apply IM in H2. lens.
  - intros H. apply bind_ok in H. destruct H as ([v r2] & H & H2). apply IV in H.
    destruct (word "]" (skip r2)) as [r3|] eqn:E4; [injection H2 as _ <-; lens|].
    destruct (word "," (skip r2)) as [r3|] eqn:E5; [|discriminate].
    apply bind_ok in H2. destruct H2 as ([l r4] & H2 & [= _ <-]). apply IE in H2. lens.
Qed.

(** The result does not depend on the fuel *)
Lemma value_fuel f : forall f',
  (forall s, 2 * len s + 1 <= f -> 2 * len s + 1 <= f' -> value f s = value f' s) /\
  (forall s, 2 * len s + 2 <= f -> 2 * len s + 2 <= f' -> members f s = members f' s) /\
  (forall s, 2 * len s + 2 <= f -> 2 * len s + 2 <= f' -> elements f s = elements f' s).
Proof.
  induction f as [|f IH]; intros f'; [repeat split; intros; lia|].
  destruct f' as [|f']; [repeat split; intros; lia|]. destruct (IH f') as (IV & IM & IE). destruct (consume f') as (CV & CM & CE).
  repeat split; intros s L L'; rewrite ?value_S, ?members_S, ?elements_S.
  - destruct s as [|c t]; [reflexivity|]. cbn [String.length] in *. pose proof (skip_len t).
    rewrite IM, IE by lia. reflexivity.
  - destruct (word _ s) as [t|] eqn:E1; [|reflexivity]. destruct (scan t) as [[k r0]|] eqn:E2; [|reflexivity].
    destruct (word ":" (skip r0)) as [r1|] eqn:E3; [|reflexivity].
    assert (X : len (skip r1) < len s) by (lens).
    rewrite IV by lia. destruct (value f' (skip r1)) as [[v r2]|] eqn:E; [|reflexivity]. cbn [bind]. apply CV in E.
    destruct (word "}" (skip r2)); [reflexivity|]. destruct (word "," (skip r2)) as [r3|] eqn:E5; [|reflexivity].
    rewrite IM; [reflexivity|lens|lens].
  - rewrite IV by lia. destruct (value f' s) as [[v r2]|] eqn:E; [|reflexivity]. cbn [bind]. apply CV in E.
    destruct (word "]" (skip r2)); [reflexivity|]. destruct (word "," (skip r2)) as [r3|] eqn:E5; [|reflexivity].
    rewrite IE; [reflexivity|lens|lens].
Qed.

(** ** Reading without fuel *)
Definition val (s : string) := value (2 * len s + 1) s.
Definition mems (s : string) := members (2 * len s + 2) s.
Definition els (s : string) := elements (2 * len s + 2) s.
Lemma val_at f s : 2 * len s + 1 <= f -> value f s = val s.
Proof. intros H. apply (proj1 (value_fuel f (2 * len s + 1))); auto. Qed.
Lemma mems_at f s : 2 * len s + 2 <= f -> members f s = mems s.
Proof. intros H. apply (proj1 (proj2 (value_fuel f (2 * len s + 2)))); auto. Qed.
Lemma els_at f s : 2 * len s + 2 <= f -> elements f s = els s.
Proof. intros H. apply (proj2 (proj2 (value_fuel f (2 * len s + 2)))); auto. Qed.
Lemma val_lt s d r : val s = Ok (d, r) -> len r < len s.
Proof. apply (proj1 (consume _)). Qed.
Lemma val_eq c t : val (String c t) =
  if Ascii.eqb c quote then match scan t with Some (x, r) => Ok (DStr x, r) | None => bad end
  else if Ascii.eqb c "{" then
    match word "}" (skip t) with Some r => Ok (DMap [], r) | None => let! (m, r) := mems (skip t) in Ok (DMap (dict_of m), r) end
  else if Ascii.eqb c "[" then
    match word "]" (skip t) with Some r => Ok (DList [], r) | None => let! (l, r) := els (skip t) in Ok (DList l, r) end
  else match constant (String c t) with Some x => Ok x | None => bad end.
Proof.
  unfold val. replace (2 * len (String c t) + 1) with (S (2 * len (String c t))) by lia. rewrite value_S.
  pose proof (skip_len t). rewrite mems_at, els_at by (cbn [String.length]; lia). reflexivity.
Qed.
Lemma mems_eq s : mems s =
  match word (String quote "") s with None => bad | Some t =>
  match scan t with None => bad | Some (k, r) =>
  match word ":" (skip r) with None => bad | Some r1 =>
    let! (v, r2) := val (skip r1) in
    match word "}" (skip r2) with
    | Some r3 => Ok ([(k, v)], r3)
    | None => match word "," (skip r2) with Some r3 => let! (l, r4) := mems (skip r3) in Ok ((k, v) :: l, r4) | None => bad end
    end
  end end end.
Proof.
  unfold mems at 1. replace (2 * len s + 2) with (S (2 * len s + 1)) by lia. rewrite members_S.
  destruct (word _ s) as [t|] eqn:E1; [|reflexivity]. destruct (scan t) as [[k r0]|] eqn:E2; [|reflexivity].
  destruct (word ":" (skip r0)) as [r1|] eqn:E3; [|reflexivity].
  assert (X : len (skip r1) < len s) by lens.
  rewrite val_at by lia. destruct (val (skip r1)) as [[v r2]|] eqn:E; [|reflexivity]. cbn [bind]. apply val_lt in E.
  destruct (word "}" (skip r2)); [reflexivity|]. destruct (word "," (skip r2)) as [r3|] eqn:E5; [|reflexivity].
  rewrite mems_at; [reflexivity|lens].
Qed.
Lemma els_eq s : els s =
  let! (v, r) := val s in
  match word "]" (skip r) with
  | Some r1 => Ok ([v], r1)
  | None => match word "," (skip r) with Some r1 => let! (l, r2) := els (skip r1) in Ok (v :: l, r2) | None => bad end
  end.
Proof.
  unfold els at 1. replace (2 * len s + 2) with (S (2 * len s + 1)) by lia. rewrite elements_S.
  rewrite val_at by lia. destruct (val s) as [[v r2]|] eqn:E; [|reflexivity]. cbn [bind]. apply val_lt in E.
  destruct (word "]" (skip r2)); [reflexivity|]. destruct (word "," (skip r2)) as [r3|] eqn:E5; [|reflexivity].
  rewrite els_at; [reflexivity|lens].
Qed.
Lemma loads_eq s : json_loads num_value wide s = let! (d, r) := val (skip s) in match skip r with EmptyString => Ok d | _ => bad end.
Proof. unfold json_loads. rewrite val_at by lia. reflexivity. Qed.

(** ** Numbers in front of a text *)
Definition goes_on (c : ascii) : bool := is_dig c || Ascii.eqb c "." || Ascii.eqb c "e" || Ascii.eqb c "E" || Ascii.eqb c "+" || Ascii.eqb c "-".
Definition stop (t : string) : Prop := match t with EmptyString => True | String c _ => goes_on c = false end.
Lemma stop_facts c : goes_on c = false ->
  is_dig c = false /\ Ascii.eqb c "." = false /\ Ascii.eqb c "e" = false /\ Ascii.eqb c "E" = false /\ Ascii.eqb c "+" = false /\ Ascii.eqb c "-" = false.
Proof. unfold goes_on. rewrite !orb_false_iff. tauto. Qed.
Lemma digs_stop s t : stop t -> digs (s ++ t) = (fst (digs s), (snd (digs s) ++ t)%string).
Proof.
  intros T. induction s as [|c s IH].
  - destruct t as [|c t]; [reflexivity|]. cbn in T. apply stop_facts in T. cbn. rewrite (proj1 T). reflexivity.
  - cbn [append digs]. destruct (is_dig c); [|reflexivity]. rewrite IH. destruct (digs s). reflexivity.
Qed.
Lemma minus_stop s t : stop t -> minus_part (s ++ t) = (fst (minus_part s), (snd (minus_part s) ++ t)%string).
Proof.
  intros T. destruct s as [|c s].
  - destruct t as [|c t]; [reflexivity|]. apply stop_facts in T. cbn. rewrite (proj2 (proj2 (proj2 (proj2 (proj2 T))))). reflexivity.
  - cbn. destruct (Ascii.eqb c "-"); reflexivity.
Qed.
Lemma sign_stop s t : stop t -> sign_part (s ++ t) = (fst (sign_part s), (snd (sign_part s) ++ t)%string).
Proof.
  intros T. destruct s as [|c s].
  - destruct t as [|c t]; [reflexivity|]. apply stop_facts in T. destruct T as (_ & _ & _ & _ & P & M). cbn [append sign_part]. rewrite P, M. reflexivity.
  - cbn [append sign_part]. destruct (_ || _); reflexivity.
Qed.
Lemma int_stop s t i r : stop t -> int_part s = Some (i, r) -> int_part (s ++ t) = Some (i, (r ++ t)%string).
Proof.
  intros T. destruct s as [|c s]; [discriminate|]. cbn [append int_part]. destruct (Ascii.eqb c "0"); [intros [= <- <-]; reflexivity|].
  destruct (is_dig c); [|discriminate]. intros H. change (String c (s ++ t)) with (String c s ++ t)%string. rewrite digs_stop by auto.
  assert (E : digs (String c s) = (i, r)) by congruence. rewrite E. reflexivity.
Qed.
Lemma frac_stop s t : stop t -> frac_part (s ++ t) = (fst (frac_part s), (snd (frac_part s) ++ t)%string).
Proof.
  intros T. destruct s as [|c s].
  - destruct t as [|c t]; [reflexivity|]. apply stop_facts in T. destruct T as (_ & D & _). cbn [append frac_part]. rewrite D. reflexivity.
  - cbn [append frac_part]. destruct (Ascii.eqb c "."); [|reflexivity]. rewrite digs_stop by auto. destruct (digs s) as [[|x y] z]; reflexivity.
Qed.
Lemma exp_stop s t : stop t -> exp_part (s ++ t) = (fst (exp_part s), (snd (exp_part s) ++ t)%string).
Proof.
  intros T. destruct s as [|c s].
  - destruct t as [|c t]; [reflexivity|]. apply stop_facts in T. destruct T as (_ & _ & e & E & _). cbn [append exp_part]. rewrite e, E. reflexivity.
  - cbn [append exp_part]. destruct (_ || _); [|reflexivity]. rewrite sign_stop by auto. destruct (sign_part s) as [g u]. cbn [fst snd].
    rewrite digs_stop by auto. destruct (digs u) as [[|x y] z]; reflexivity.
Qed.
Lemma number_stop s t w r : stop t -> number s = Some (w, r) -> number (s ++ t) = Some (w, (r ++ t)%string).
Proof.
  intros T. unfold number. rewrite minus_stop by auto. destruct (minus_part s) as [m s1]. cbn [fst snd].
  destruct (int_part s1) as [[i s2]|] eqn:I; [|discriminate]. rewrite (int_stop s1 t i s2 T I).
  rewrite frac_stop by auto. destruct (frac_part s2) as [f s3]. cbn [fst snd].
  rewrite exp_stop by auto. destruct (exp_part s3) as [e s4]. cbn [fst snd]. intros [= <- <-]. reflexivity.
Qed.
(** What a number starts with *)
Lemma number_head s w r : number s = Some (w, r) -> exists c t, s = String c t /\ (c = "-"%char \/ is_dig c = true).
Proof.
  unfold number. destruct s as [|c t]; [discriminate|]. cbn [minus_part]. destruct (Ascii.eqb_spec c "-"); [eauto|].
  cbn [int_part]. destruct (Ascii.eqb_spec c "0"); [subst; intros _; exists "0"%char, t; auto|].
  destruct (is_dig c) eqn:D; [eauto|discriminate].
Qed.

(** ** Reading back what was written *)
Variable num_text : R -> string.
Variable indent : option nat.
(** The text of the number is a JSON number that is read as the number itself *)
Definition num_ok (x : R) : Prop := number (num_text x) = Some (num_text x, "") /\ num_value (num_text x) = x.
(** Every mapping has distinct keys (as a dict has) and every number is read back *)
Fixpoint json_doc (d : doc) : Prop :=
  match d with
  | DNull | DBool _ | DStr _ => True
  | DNum x => num_ok x
  | DList l => (fix go l := match l with [] => True | x :: r => json_doc x /\ go r end) l
  | DMap m => NoDup (map fst m) /\ (fix go m := match m with [] => True | (_, x) :: r => json_doc x /\ go r end) m
  end.
Lemma json_list l : json_doc (DList l) <-> Forall json_doc l.
Proof.
  cbn. induction l as [|x r IH]; [split; auto|]. rewrite IH. split; [intros [? ?]; auto|]. intros H. inversion H; auto.
Qed.
Lemma json_map m : json_doc (DMap m) <-> NoDup (map fst m) /\ Forall (fun kv => json_doc (snd kv)) m.
Proof.
  cbn. apply and_iff_compat_l. induction m as [|[k x] r IH]; [split; auto|]. rewrite IH. split; [intros [? ?]; auto|]. intros H. inversion H; auto.
Qed.
Notation pr := (pr num_text indent).
Notation gap := (gap indent).
Notation comma := (comma indent).
Fixpoint elems (level : nat) (l : list doc) (t : string) : string :=
  match l with
  | [] => EmptyString
  | x :: r => pr (S level) x (match r with [] => gap level (String "]" t) | _ => comma (S level) (elems level r t) end)
  end.
Fixpoint entries (level : nat) (m : list (string * doc)) (t : string) : string :=
  match m with
  | [] => EmptyString
  | (k, x) :: r => quoted k (String ":" (String " " (pr (S level) x (match r with [] => gap level (String "}" t) | _ => comma (S level) (entries level r t) end))))
  end.
Lemma pr_list level x r t : pr level (DList (x :: r)) t = String "[" (gap (S level) (elems level (x :: r) t)).
Proof.
  cbn [JsonText.pr]. do 2 f_equal. revert x. induction r as [|y r IH]; intros x; [reflexivity|]. cbn [elems]. do 2 f_equal. apply (IH y).
Qed.
Lemma pr_map level kx r t : pr level (DMap (kx :: r)) t = String "{" (gap (S level) (entries level (kx :: r) t)).
Proof.
  cbn [JsonText.pr]. do 2 f_equal. revert kx. induction r as [|y r IH]; intros [k x]; [reflexivity|]. cbn [entries]. do 5 f_equal. apply (IH y).
Qed.
(** A written value starts with none of the white space and closing characters *)
Definition starts (s : string) : Prop := exists c t, s = String c t /\ is_ws c = false /\ c <> "]"%char /\ c <> "}"%char.
Lemma dig_start c : is_dig c = true -> is_ws c = false /\ c <> "]"%char /\ c <> "}"%char /\ c <> quote /\ c <> "{"%char /\ c <> "["%char /\ c <> "n"%char /\ c <> "t"%char /\ c <> "f"%char.
Proof. destruct c as [[] [] [] [] [] [] [] []]; cbn; try discriminate; intros _; repeat split; discriminate. Qed.
Lemma num_start c : c = "-"%char \/ is_dig c = true -> is_ws c = false /\ c <> "]"%char /\ c <> "}"%char /\ c <> quote /\ c <> "{"%char /\ c <> "["%char /\ c <> "n"%char /\ c <> "t"%char /\ c <> "f"%char.
Proof. intros [->|H]; [repeat split; discriminate|]. apply dig_start; auto. Qed.
Lemma pr_starts level d t : json_doc d -> starts (pr level d t).
Proof.
  destruct d as [|[]|x|s|[|y l]|[|[k y] m]]; intros H;
    try (eexists; eexists; split; [reflexivity|]; repeat split; discriminate).
  destruct H as [H _]. destruct (number_head _ _ _ H) as (c & u & E & G). apply num_start in G. destruct G as (? & ? & ? & _).
  exists c, (u ++ t)%string. cbn [JsonText.pr]. rewrite E. auto.
Qed.
Lemma starts_skip s : starts s -> skip s = s.
Proof. intros (c & t & -> & H & _). cbn [skip]. rewrite H. reflexivity. Qed.
Lemma starts_word s : starts s -> word "]" s = None /\ word "}" s = None.
Proof.
  intros (c & t & -> & _ & A & B). cbn [word]. split.
  - destruct (Ascii.eqb_spec "]" c); congruence.
  - destruct (Ascii.eqb_spec "}" c); congruence.
Qed.
Lemma quoted_word k t : word (String quote "") (quoted k t) = Some (chars k (String quote t)).
Proof. reflexivity. Qed.
Lemma skip_comma level t : exists u, comma level t = String "," u /\ skip u = skip t.
Proof. unfold JsonText.comma. destruct indent; eexists; split; try reflexivity. apply (skip_spaces _ t). Qed.
Lemma stop_gap level c t : goes_on c = false -> stop (gap level (String c t)).
Proof. intros H. unfold JsonText.gap. destruct indent; [reflexivity|exact H]. Qed.
Lemma stop_comma level t : stop (comma level t).
Proof. unfold JsonText.comma. destruct indent; reflexivity. Qed.

Definition reads_back (d : doc) : Prop := forall level t, json_doc d -> stop t -> val (pr level d t) = Ok (d, t).
Lemma elems_back level t l : Forall reads_back l -> Forall json_doc l -> l <> [] -> els (elems level l t) = Ok (l, t).
Proof.
  intros B J N. induction l as [|x r IH]; [congruence|]. inversion B as [|? ? Bx Br]; subst. inversion J as [|? ? Jx Jr]; subst.
  rewrite els_eq. cbn [elems]. destruct r as [|y r].
  - rewrite Bx; [|exact Jx|apply stop_gap; reflexivity]. cbn [bind]. rewrite skip_gap. reflexivity.
  - rewrite Bx; [|exact Jx|apply stop_comma]. cbn [bind].
    destruct (skip_comma (S level) (elems level (y :: r) t)) as (u & -> & E).
    cbn [skip is_ws]. change (is_ws ",") with false. cbn [word Ascii.eqb Bool.eqb]. 
    rewrite E, (starts_skip (elems level (y :: r) t)).
    + rewrite IH; [reflexivity|assumption|assumption|discriminate].
    + cbn [elems]. apply pr_starts. inversion Jr; auto.
Qed.
Lemma entries_back level t m : Forall (fun kv => reads_back (snd kv)) m -> Forall (fun kv => json_doc (snd kv)) m -> m <> [] -> mems (entries level m t) = Ok (m, t).
Proof.
  intros B J N. induction m as [|[k x] r IH]; [congruence|]. inversion B as [|? ? Bx Br]; subst. inversion J as [|? ? Jx Jr]; subst. cbn [snd] in *.
  rewrite mems_eq. cbn [entries]. rewrite quoted_word, scan_chars.
  match goal with |- context [skip (String ":" ?u)] => change (skip (String ":" u)) with (String ":" u) end. cbn [word]. rewrite Ascii.eqb_refl.
  match goal with |- context [skip (String " " ?u)] => change (skip (String " " u)) with (skip u) end.
  rewrite (starts_skip _ (pr_starts _ _ _ Jx)).
  destruct r as [|[k' y] r].
  - rewrite Bx; [|exact Jx|apply stop_gap; reflexivity]. cbn [bind]. rewrite skip_gap. reflexivity.
  - rewrite Bx; [|exact Jx|apply stop_comma]. cbn [bind].
    destruct (skip_comma (S level) (entries level ((k', y) :: r) t)) as (u & -> & E).
    cbn [skip]. change (is_ws ",") with false. cbn [word Ascii.eqb Bool.eqb].
    rewrite E. change (skip (entries level ((k', y) :: r) t)) with (entries level ((k', y) :: r) t).
    rewrite IH; [reflexivity|assumption|assumption|discriminate].
Qed.
Lemma neq_eqb (a b : ascii) : a <> b -> Ascii.eqb a b = false.
Proof. intros H. destruct (Ascii.eqb_spec a b); congruence. Qed.
Lemma pr_back d : reads_back d.
Proof.
  induction d as [| b | x | s | l IH | m IH] using doc_rec'; intros level t J T.
  - reflexivity.
  - destruct b; reflexivity.
  - destruct J as [N V]. pose proof (number_stop _ _ _ _ T N) as N'. destruct (number_head _ _ _ N) as (c & u & E & G).
    apply num_start in G. destruct G as (_ & _ & _ & G1 & G2 & G3 & G4 & G5 & G6). cbn [JsonText.pr].
    set (w := num_text x) in *. clearbody w. subst w. cbn [append] in *.
    rewrite val_eq, (neq_eqb _ _ G1), (neq_eqb _ _ G2), (neq_eqb _ _ G3). unfold JsonText.constant.
    cbn [word]. rewrite (neq_eqb "n" c), (neq_eqb "t" c), (neq_eqb "f" c) by congruence. rewrite N', V. reflexivity.
  - cbn [JsonText.pr]. unfold quoted. rewrite val_eq, Ascii.eqb_refl, scan_chars. reflexivity.
  - destruct l as [|x r]; [reflexivity|]. apply json_list in J. rewrite pr_list, val_eq.
    change (Ascii.eqb "[" quote) with false. change (Ascii.eqb "[" "{") with false. change (Ascii.eqb "[" "[") with true. cbv iota.
    assert (S : starts (elems level (x :: r) t)) by (cbn [elems]; apply pr_starts; inversion J; auto).
    rewrite skip_gap, (starts_skip _ S), (proj1 (starts_word _ S)), elems_back; [reflexivity|assumption|assumption|discriminate].
  - destruct m as [|[k x] r]; [reflexivity|]. apply json_map in J. destruct J as [D J]. rewrite pr_map, val_eq.
    change (Ascii.eqb "{" quote) with false. change (Ascii.eqb "{" "{") with true. cbv iota.
    rewrite skip_gap. change (skip (entries level ((k, x) :: r) t)) with (entries level ((k, x) :: r) t).
    change (word "}" (entries level ((k, x) :: r) t)) with (@None string). cbv iota.
    rewrite entries_back; [|assumption|assumption|discriminate]. cbn [bind]. rewrite dict_of_wf by exact D. reflexivity.
Qed.

Lemma loads_dumps d : json_doc d -> json_loads num_value wide (json_dumps num_text indent d) = Ok d.
Proof.
  intros J. rewrite loads_eq. unfold json_dumps. rewrite (starts_skip _ (pr_starts 0 d "" J)), (pr_back d 0 "" J I). reflexivity.
Qed.
End Facts.
