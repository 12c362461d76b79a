(** The texts of JSON files: json.dumps and json.loads of the Python standard library as called in classes.py 28-52
    and 164-191 (encoder.py, decoder.py, scanner.py of the json package; compared with CPython 3.11).
    Simplified: a character is one of the code points below 256 (others are opaque, no pairing of surrogates); ints and
    floats are real numbers, NaN and Infinity too; no limit on the depth of nesting or the number of digits. *)
From Coq Require Import String Ascii List Bool Arith Lia Reals.
From Verif Require Import PyBase PyDict Wc.
Import ListNotations.
Open Scope string_scope.
Open Scope list_scope.
Open Scope nat_scope.

(** Induction over documents *)
Section DocInd.
Variable P : doc -> Prop.
Hypothesis Pnull : P DNull.
Hypothesis Pbool : forall b, P (DBool b).
Hypothesis Pnum : forall x, P (DNum x).
Hypothesis Pstr : forall s, P (DStr s).
Hypothesis Plist : forall l, Forall P l -> P (DList l).
Hypothesis Pmap : forall m, Forall (fun kv => P (snd kv)) m -> P (DMap m).
Fixpoint doc_rec' (d : doc) : P d :=
  match d with
  | DNull => Pnull | DBool b => Pbool b | DNum x => Pnum x | DStr s => Pstr s
  | DList l => Plist l ((fix go l : Forall P l := match l with [] => Forall_nil _ | x :: t => Forall_cons x (doc_rec' x) (go t) end) l)
  | DMap m => Pmap m ((fix go m : Forall (fun kv => P (snd kv)) m :=
      match m with [] => Forall_nil _ | kv :: t => Forall_cons kv (doc_rec' (snd kv)) (go t) end) m)
  end.
End DocInd.

(** * Printing, in front of a text [t] *)
(** ** Strings: py_encode_basestring_ascii *)
Definition quote : ascii := """".
Definition hexd (n : nat) : ascii := ascii_of_nat (if n <? 10 then 48 + n else 87 + n).
Definition esc (c : ascii) (t : string) : string :=
  let n := nat_of_ascii c in
  if Ascii.eqb c quote then String "\" (String quote t)
  else if Ascii.eqb c "\" then String "\" (String "\" t)
  else if n =? 8 then String "\" (String "b" t)
  else if n =? 9 then String "\" (String "t" t)
  else if n =? 10 then String "\" (String "n" t)
  else if n =? 12 then String "\" (String "f" t)
  else if n =? 13 then String "\" (String "r" t)
  else if (32 <=? n) && (n <=? 126) then String c t
  else String "\" (String "u" (String "0" (String "0" (String (hexd (n / 16)) (String (hexd (n mod 16)) t))))).
Fixpoint chars (s t : string) : string := match s with EmptyString => t | String c s' => esc c (chars s' t) end.
Definition quoted (s t : string) : string := String quote (chars s (String quote t)).

Definition newline : ascii := ascii_of_nat 10.
Fixpoint spaces (n : nat) (t : string) : string := match n with O => t | S n => String " " (spaces n t) end.

Section Json.
(** repr of an int or float *)
Variable num_text : R -> string.
(** _make_iterencode; [indent]: None is the default of json, 2 that of WCxf.dump *)
Variable indent : option nat.
(** What stands before the first item and after the last one, and between two items *)
Definition gap (level : nat) (t : string) : string := match indent with Some n => String newline (spaces (n * level) t) | None => t end.
Definition comma (level : nat) (t : string) : string :=
  String "," (match indent with Some n => String newline (spaces (n * level) t) | None => String " " t end).
Fixpoint pr (level : nat) (d : doc) (t : string) {struct d} : string :=
  match d with
  | DNull => "null" ++ t
  | DBool true => "true" ++ t
  | DBool false => "false" ++ t
  | DNum x => num_text x ++ t
  | DStr s => quoted s t
  | DList [] => "[]" ++ t
  | DList l =>
      String "[" (gap (S level) ((fix go (l : list doc) : string :=
        match l with
        | [] => EmptyString
        | x :: r => pr (S level) x (match r with [] => gap level (String "]" t) | _ => comma (S level) (go r) end)
        end) l))
  | DMap [] => "{}" ++ t
  | DMap m =>
      String "{" (gap (S level) ((fix go (m : list (string * doc)) : string :=
        match m with
        | [] => EmptyString
        | (k, x) :: r => quoted k (String ":" (String " " (pr (S level) x (match r with [] => gap level (String "}" t) | _ => comma (S level) (go r) end))))
        end) m))
  end%string.
Definition json_dumps (d : doc) : string := pr 0 d "".
End Json.

(** * Reading *)
(** ** Strings: py_scanstring in strict mode, behind the opening quote *)
Definition hexv (c : ascii) : option nat :=
  let n := nat_of_ascii c in
  if (48 <=? n) && (n <=? 57) then Some (n - 48)
  else if (97 <=? n) && (n <=? 102) then Some (n - 87)
  else if (65 <=? n) && (n <=? 70) then Some (n - 55) else None.
(** The escapes of one character: BACKSLASH *)
Definition unesc (c : ascii) : option ascii :=
  if Ascii.eqb c quote then Some quote else if Ascii.eqb c "\" then Some "\"%char else if Ascii.eqb c "/" then Some "/"%char
  else if Ascii.eqb c "b" then Some (ascii_of_nat 8) else if Ascii.eqb c "f" then Some (ascii_of_nat 12)
  else if Ascii.eqb c "n" then Some (ascii_of_nat 10) else if Ascii.eqb c "r" then Some (ascii_of_nat 13)
  else if Ascii.eqb c "t" then Some (ascii_of_nat 9) else None.
(** [\s] of decoder.py: WHITESPACE *)
Definition is_ws (c : ascii) : bool := Ascii.eqb c " " || Ascii.eqb c (ascii_of_nat 9) || Ascii.eqb c newline || Ascii.eqb c (ascii_of_nat 13).
Fixpoint skip (s : string) : string := match s with String c t => if is_ws c then skip t else s | EmptyString => s end.
Definition is_dig (c : ascii) : bool := let n := nat_of_ascii c in (48 <=? n) && (n <=? 57).
(** The digits in front and the rest *)
Fixpoint digs (s : string) : string * string :=
  match s with
  | String c t => if is_dig c then let (a, b) := digs t in (String c a, b) else (EmptyString, s)
  | EmptyString => (EmptyString, s)
  end.
(** The parts of NUMBER_RE: (-?(?:0|[1-9]\d* ))(\.\d+)?([eE][-+]?\d+)? *)
Definition int_part (s : string) : option (string * string) :=
  match s with
  | String c t => if Ascii.eqb c "0" then Some ("0", t) else if is_dig c then Some (digs s) else None
  | EmptyString => None
  end.
Definition frac_part (s : string) : string * string :=
  match s with
  | String c t => if Ascii.eqb c "." then match digs t with (EmptyString, _) => (EmptyString, s) | (a, b) => (String c a, b) end else (EmptyString, s)
  | EmptyString => (EmptyString, s)
  end.
Definition sign_part (s : string) : string * string :=
  match s with
  | String c t => if Ascii.eqb c "-" || Ascii.eqb c "+" then (String c "", t) else (EmptyString, s)
  | EmptyString => (EmptyString, s)
  end.
Definition exp_part (s : string) : string * string :=
  match s with
  | String c t =>
      if Ascii.eqb c "e" || Ascii.eqb c "E" then
        let (g, u) := sign_part t in match digs u with (EmptyString, _) => (EmptyString, s) | (a, b) => (String c (g ++ a), b) end
      else (EmptyString, s)
  | EmptyString => (EmptyString, s)
  end.
Definition minus_part (s : string) : string * string :=
  match s with String c t => if Ascii.eqb c "-" then ("-", t) else (EmptyString, s) | EmptyString => (EmptyString, s) end.
Definition number (s : string) : option (string * string) :=
  let (m, s1) := minus_part s in
  match int_part s1 with
  | None => None
  | Some (i, s2) => let (f, s3) := frac_part s2 in let (e, s4) := exp_part s3 in Some (m ++ i ++ f ++ e, s4)
  end%string.
(** A word in front *)
Fixpoint word (w s : string) : option string :=
  match w, s with
  | EmptyString, _ => Some s
  | String a w', String b s' => if Ascii.eqb a b then word w' s' else None
  | _, _ => None
  end.

Section Loads.
(** int() and float() of the text of a number, and of NaN, Infinity, -Infinity *)
Variable num_value : string -> R.
(** The text of a character above 255 (also: half of a surrogate pair) *)
Variable wide : nat -> string.
Definition char (n : nat) (r : string) : string := if n <? 256 then String (ascii_of_nat n) r else (wide n ++ r)%string.
Definition before {B} (f : string -> string) (r : option (string * B)) : option (string * B) :=
  match r with Some (x, t) => Some (f x, t) | None => None end.
Fixpoint scan (s : string) : option (string * string) :=
  match s with
  | EmptyString => None
  | String c t =>
      if Ascii.eqb c quote then Some (EmptyString, t)
      else if Ascii.eqb c "\" then
        match t with
        | EmptyString => None
        | String e t1 =>
            if Ascii.eqb e "u" then
              match t1 with
              | String h1 (String h2 (String h3 (String h4 t2))) =>
                  match hexv h1, hexv h2, hexv h3, hexv h4 with
                  | Some a, Some b, Some c, Some d => before (char (16 * (16 * (16 * a + b) + c) + d)) (scan t2)
                  | _, _, _, _ => None
                  end
              | _ => None
              end
            else match unesc e with Some x => before (String x) (scan t1) | None => None end
        end
      else if nat_of_ascii c <? 32 then None
      else before (String c) (scan t)
  end.
(** The constants: scan_once *)
Definition constant (s : string) : option (doc * string) :=
  match word "null" s with Some r => Some (DNull, r) | None =>
  match word "true" s with Some r => Some (DBool true, r) | None =>
  match word "false" s with Some r => Some (DBool false, r) | None =>
  match number s with Some (x, r) => Some (DNum (num_value x), r) | None =>
  match word "NaN" s with Some r => Some (DNum (num_value "NaN"), r) | None =>
  match word "Infinity" s with Some r => Some (DNum (num_value "Infinity"), r) | None =>
  match word "-Infinity" s with Some r => Some (DNum (num_value "-Infinity"), r) | None => None
  end end end end end end end.
Notation bad := (Err JSONDecodeError).
(** scan_once, JSONObject, JSONArray; [fuel] is large enough ([value_fuel] below) *)
Fixpoint value (fuel : nat) (s : string) {struct fuel} : res (doc * string) :=
  match fuel with
  | O => bad
  | S fuel =>
      match s with
      | EmptyString => bad
      | String c t =>
          if Ascii.eqb c quote then match scan t with Some (x, r) => Ok (DStr x, r) | None => bad end
          else if Ascii.eqb c "{" then
            match word "}" (skip t) with
            | Some r => Ok (DMap [], r)
            | None => let! (m, r) := members fuel (skip t) in Ok (DMap (dict_of m), r)
            end
          else if Ascii.eqb c "[" then
            match word "]" (skip t) with
            | Some r => Ok (DList [], r)
            | None => let! (l, r) := elements fuel (skip t) in Ok (DList l, r)
            end
          else match constant s with Some x => Ok x | None => bad end
      end
  end
with members (fuel : nat) (s : string) {struct fuel} : res (list (string * doc) * string) :=
  match fuel with
  | O => bad
  | S fuel =>
      match word (String quote "") s with
      | None => bad
      | Some t =>
          match scan t with
          | None => bad
          | Some (k, r) =>
              match word ":" (skip r) with
              | None => bad
              | Some r1 =>
                  let! (v, r2) := value fuel (skip r1) in
                  match word "}" (skip r2) with
                  | Some r3 => Ok ([(k, v)], r3)
                  | None => match word "," (skip r2) with
                            | Some r3 => let! (l, r4) := members fuel (skip r3) in Ok ((k, v) :: l, r4)
                            | None => bad
                            end
                  end
              end
          end
      end
  end
with elements (fuel : nat) (s : string) {struct fuel} : res (list doc * string) :=
  match fuel with
  | O => bad
  | S fuel =>
      let! (v, r) := value fuel s in
      match word "]" (skip r) with
      | Some r1 => Ok ([v], r1)
      | None => match word "," (skip r) with
                | Some r1 => let! (l, r2) := elements fuel (skip r1) in Ok (v :: l, r2)
                | None => bad
                end
      end
  end.
(** JSONDecoder.decode *)
Definition json_loads (s : string) : res doc :=
  let u := skip s in
  let! (d, r) := value (2 * String.length u + 2) u in
  match skip r with EmptyString => Ok d | _ => bad end.

(** * Facts *)
Lemma scan_esc c t : scan (esc c t) = before (String c) (scan t).
Proof. destruct c as [[] [] [] [] [] [] [] []]; reflexivity. Qed.
Lemma scan_chars s t : scan (chars s (String quote t)) = Some (s, t).
Proof. induction s as [|c s IH]; [reflexivity|]. cbn [chars]. rewrite scan_esc, IH. reflexivity. Qed.
Lemma app_assoc_s a b c : ((a ++ b) ++ c = a ++ (b ++ c))%string.
Proof. induction a as [|x a IH]; [reflexivity|]. cbn. rewrite IH. reflexivity. Qed.
Lemma app_nil_s a : (a ++ "")%string = a.
Proof. induction a as [|x a IH]; [reflexivity|]. cbn. rewrite IH. reflexivity. Qed.
Lemma len_app a b : String.length (a ++ b) = String.length a + String.length b.
Proof. induction a as [|x a IH]; cbn; lia. Qed.

(** ** White space *)
Lemma skip_skip s : skip (skip s) = skip s.
Proof. induction s as [|c s IH]; [reflexivity|]. cbn [skip]. destruct (is_ws c) eqn:E; [exact IH|]. cbn [skip]. rewrite E. reflexivity. Qed.
Lemma skip_spaces n t : skip (spaces n t) = skip t.
Proof. induction n as [|n IH]; [reflexivity|]. exact IH. Qed.
Lemma skip_gap ind k t : skip (gap ind k t) = skip t.
Proof. unfold gap. destruct ind; [|reflexivity]. apply (skip_spaces _ t). Qed.
Lemma skip_len s : String.length (skip s) <= String.length s.
Proof. induction s as [|c s IH]; cbn [skip]; auto. destruct (is_ws c); cbn [String.length] in *; lia. Qed.
Lemma word_len w s r : word w s = Some r -> String.length s = String.length w + String.length r.
Proof.
  revert s. induction w as [|a w IH]; intros s; cbn.
  - intros [= <-]. reflexivity.
  - destruct s as [|b s]; [discriminate|]. destruct (Ascii.eqb a b); [|discriminate]. intros H. apply IH in H. cbn. lia.
Qed.
Lemma word_app w t : word w (w ++ t) = Some t.
Proof. induction w as [|a w IH]; [reflexivity|]. cbn. rewrite Ascii.eqb_refl. exact IH. Qed.

Lemma before_Some {B} f (r : option (string * B)) x t : before f r = Some (x, t) -> exists y, r = Some (y, t).
Proof. destruct r as [[y u]|]; [|discriminate]. cbn. intros [= _ <-]. eauto. Qed.
Lemma scan_len n : forall s x r, String.length s <= n -> scan s = Some (x, r) -> String.length r < String.length s.
Proof.
  induction n as [|n IH]; intros [|c t] x r L; cbn [String.length] in L; try lia; try discriminate.
  cbn [scan String.length]. destruct (Ascii.eqb c quote); [intros [= _ <-]; lia|].
  destruct (Ascii.eqb c "\").
  - destruct t as [|e t1]; [discriminate|]. cbn [String.length] in *. destruct (Ascii.eqb e "u").
    + destruct t1 as [|h1 [|h2 [|h3 [|h4 t2]]]]; try discriminate. cbn [String.length] in *.
      destruct (hexv h1), (hexv h2), (hexv h3), (hexv h4); try discriminate.
      intros H. apply before_Some in H. destruct H as [y H]. apply IH in H; lia.
    + destruct (unesc e); [|discriminate]. intros H. apply before_Some in H. destruct H as [y H]. apply IH in H; lia.
  - destruct (nat_of_ascii c <? 32); [discriminate|]. intros H. apply before_Some in H. destruct H as [y H]. apply IH in H; lia.
Qed.
Lemma digs_app s : (fst (digs s) ++ snd (digs s))%string = s.
Proof. induction s as [|c t IH]; [reflexivity|]. cbn [digs]. destruct (is_dig c); [|reflexivity]. destruct (digs t) as [a b]. cbn in *. rewrite IH. reflexivity. Qed.
Lemma digs_eq s a b : digs s = (a, b) -> s = (a ++ b)%string.
Proof. intros H. pose proof (digs_app s) as E. rewrite H in E. auto. Qed.
Lemma minus_eq s a b : minus_part s = (a, b) -> s = (a ++ b)%string.
Proof. destruct s as [|c t]; cbn; [intros [= <- <-]; reflexivity|]. destruct (Ascii.eqb_spec c "-"); intros [= <- <-]; subst; reflexivity. Qed.
Lemma sign_eq s a b : sign_part s = (a, b) -> s = (a ++ b)%string.
Proof. destruct s as [|c t]; cbn [sign_part]; [intros [= <- <-]; reflexivity|]. destruct (_ || _); intros [= <- <-]; reflexivity. Qed.
Lemma int_eq s a b : int_part s = Some (a, b) -> s = (a ++ b)%string /\ a <> "".
Proof.
  destruct s as [|c t]; cbn [int_part]; [discriminate|]. destruct (Ascii.eqb_spec c "0").
  - intros [= <- <-]. subst. split; [reflexivity|discriminate].
  - destruct (is_dig c) eqn:D; [|discriminate]. intros H. assert (E : digs (String c t) = (a, b)) by congruence. split; [apply digs_eq; exact E|].
    cbn [digs] in E. rewrite D in E. destruct (digs t). injection E as <- _. discriminate.
Qed.
Lemma frac_eq s a b : frac_part s = (a, b) -> s = (a ++ b)%string.
Proof.
  destruct s as [|c t]; cbn [frac_part]; [intros [= <- <-]; reflexivity|]. destruct (Ascii.eqb c "."); [|intros [= <- <-]; reflexivity].
  destruct (digs t) as [[|x y] z] eqn:D; intros [= <- <-]; [reflexivity|]. apply digs_eq in D. subst t. reflexivity.
Qed.
Lemma exp_eq s a b : exp_part s = (a, b) -> s = (a ++ b)%string.
Proof.
  destruct s as [|c t]; cbn [exp_part]; [intros [= <- <-]; reflexivity|]. destruct (_ || _); [|intros [= <- <-]; reflexivity].
  destruct (sign_part t) as [g u] eqn:G. destruct (digs u) as [[|x y] z] eqn:D; intros [= <- <-]; [reflexivity|].
  apply digs_eq in D. apply sign_eq in G. subst. cbn. rewrite app_assoc_s. reflexivity.
Qed.
(** A number is read from the front of the text and is not empty *)
Lemma number_eq s w r : number s = Some (w, r) -> s = (w ++ r)%string /\ w <> "".
Proof.
  unfold number. destruct (minus_part s) as [m s1] eqn:M. destruct (int_part s1) as [[i s2]|] eqn:I; [|discriminate].
  destruct (frac_part s2) as [f s3] eqn:F. destruct (exp_part s3) as [e s4] eqn:E. intros [= <- <-].
  apply minus_eq in M. apply int_eq in I. apply frac_eq in F. apply exp_eq in E. destruct I as [I N]. subst.
  rewrite !app_assoc_s. split; [reflexivity|]. destruct m; [|discriminate]. destruct i; [congruence|discriminate].
Qed.
Lemma constant_len s d r : constant s = Some (d, r) -> String.length r < String.length s.
Proof.
  unfold constant. intros H.
  repeat match type of H with
  | match word ?w s with _ => _ end = _ => let E := fresh in destruct (word w s) eqn:E;
      [injection H as _ <-; apply word_len in E; cbn in E; lia|clear E]
  | match number s with _ => _ end = _ => let E := fresh in destruct (number s) as [[w r']|] eqn:E;
      [injection H as _ <-; apply number_eq in E; destruct E as [-> E]; rewrite len_app; destruct w; [congruence|cbn; lia]|clear E]
  end; discriminate.
Qed.
End Loads.
