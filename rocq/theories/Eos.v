(** Model of converters/eos.py. *)
From Coq Require Import String Ascii List Bool Arith Reals Lia.
From Verif Require Import PyBase PyDict Cplx Wc Tex.
Import ListNotations.
Open Scope string_scope.
Open Scope list_scope.
Open Scope nat_scope.

(** ** The two string operations used *)
Fixpoint sdrop (n : nat) (s : string) : string :=
  match n, s with 0, _ => s | S m, String _ t => sdrop m t | _, EmptyString => EmptyString end.
(** The longest prefix without '}', and the rest. *)
Fixpoint until_brace (s : string) : string * string :=
  match s with
  | EmptyString => (EmptyString, EmptyString)
  | String a t => if Ascii.eqb a "}" then (EmptyString, s)
                  else let (x, y) := until_brace t in (String a x, y)
  end.
(** The regular expression [w\{([^\}]+)\}] at the start of [s]: group and rest. *)
Definition group (w s : string) : option (string * string) :=
  if starts (w ++ "{") s then
    match until_brace (sdrop (String.length w + 1) s) with
    | (String a x, String _ rest) => Some (String a x, rest)
    | _ => None
    end
  else None.
(** [re.sub(r'w\{([^\}]+)\}', r'\1', s)] *)
Fixpoint resub_f (fuel : nat) (w s : string) : string :=
  match fuel, s with
  | S n, String a t => match group w s with
                       | Some (x, rest) => (x ++ resub_f n w rest)%string
                       | None => String a (resub_f n w t)
                       end
  | _, _ => s
  end.
Definition resub (w s : string) : string := resub_f (String.length s) w s.
(** [s.replace(old, new)] for a non-empty [old] *)
Fixpoint replace_f (fuel : nat) (old new s : string) : string :=
  match fuel, s with
  | S n, String a t => if starts old s then (new ++ replace_f n old new (sdrop (String.length old) s))%string
                       else String a (replace_f n old new t)
  | _, _ => s
  end.
Definition replace (s old new : string) : string := replace_f (String.length s) old new s.

Definition getd (d : dict string C) (k : string) : C := match dget d k with Some z => z | None => C0 end.
(** The three-way lookup of lines 32-38 and 41-47; [p] is .real or .imag. *)
Definition np_branch (p : C -> R) (k2 : string) (d : dict string C) : res R :=
  match dget d k2 with
  | Some z => Ok (p z)
  | None =>
      let ke := replace k2 "lnu" "enue" in
      let km := replace k2 "lnu" "munumu" in
      if dmem d ke || dmem d km then
        if Ceq_dec (getd d ke) (getd d km) then Ok (p (getd d ke)) else Err ValueError
      else Ok 0%R
  end.
(** get_eos_np, eos.py 25-48, for the dictionary [wc.dict] *)
Definition eos_np (sm_key : string) (d : dict string C) : res R :=
  match dget d sm_key with
  | Some z => Ok (Re z)
  | None =>
      if contains "Re{" sm_key then np_branch Re (resub "Re" sm_key) d
      else if contains "Im{" sm_key then np_branch Im (resub "Im" sm_key) d
      else Ok 0%R
  end.
Section EosWc.
Variable float_of_str : string -> option R.
(** With the WC instance: reading wc.dict may fail.  Reading it again gives the
    same dictionary (C10), so the instance is not threaded through. *)
Definition get_eos_np (sm_key : string) (o : wc) : res R :=
  let! d := fst (wc_dict float_of_str o) in eos_np sm_key d.
(** [v['central']] and adding a number to it *)
Definition central (v : doc) : res doc :=
  match v with DMap m => dlookup m "central" | _ => Err TypeError end.
Definition plus (sm : doc) (x : R) : res R :=
  match sm with
  | DNum y => Ok (y + x)%R
  | DBool b => Ok ((if b then 1 else 0) + x)%R
  | _ => Err TypeError
  end.
(** wcxf2eos, eos.py 51-62.  Each value is the dictionary of central, min, max. *)
Definition eos_entry (v : R) : dict string R := [("central", v); ("min", v); ("max", v)].
Definition wcxf2eos (o : wc) (sm : dict string doc) : res (dict string (dict string R)) :=
  mapM (fun kv : string * doc =>
          let! c := central (snd kv) in
          let! np := get_eos_np (fst kv) o in
          let! x := plus c np in Ok (fst kv, eos_entry x)) sm.
End EosWc.

Definition truthy (v : doc) : bool :=
  match v with
  | DNull => false | DBool b => b
  | DNum x => if Req_EM_T x 0 then false else true
  | DStr s => negb (String.eqb s "") | DList l => negb (match l with [] => true | _ => false end)
  | DMap m => negb (match m with [] => true | _ => false end)
  end.
Definition is_str (s : string) (v : doc) : bool := match v with DStr t => String.eqb s t | _ => false end.
(** The test of line 19 on the metadata. *)
Definition relevant (meta : doc) : res bool :=
  match meta with
  | DMap m => match dget m "wcxf-relevant" with Some v => Ok (truthy v) | None => Ok false end
  | DStr s => if contains "wcxf-relevant" s then Err TypeError else Ok false
  | DList l => if existsb (is_str "wcxf-relevant") l then Err TypeError else Ok false
  | _ => Err TypeError
  end.
(** get_sm_wcs, eos.py 10-22, for the parsed contents of the *.yaml files in the
    order of glob. *)
Definition sm_step (all : dict string doc) (f : doc) : res (dict string doc) :=
  match f with
  | DMap wcs =>
      let! r := relevant (match dget wcs "@metadata@" with Some m => m | None => DMap [] end) in
      Ok (if r then dupdate all (ddel wcs "@metadata@") else all)
  | _ => Err AttributeError
  end.
Fixpoint sm_fold (all : dict string doc) (fs : list doc) : res (dict string doc) :=
  match fs with [] => Ok all | f :: t => let! a := sm_step all f in sm_fold a t end.
Definition get_sm_wcs (fs : list doc) : res (dict string doc) := sm_fold [] fs.

(** * Facts on the strings *)
Fixpoint has (c : ascii) (s : string) : bool :=
  match s with EmptyString => false | String a t => Ascii.eqb a c || has c t end.
Lemma has_app c a b : has c (a ++ b)%string = has c a || has c b.
Proof. induction a; simpl; auto. rewrite IHa. apply orb_assoc. Qed.
Lemma starts_app w s : starts w (w ++ s)%string = true.
Proof. induction w; simpl; auto. rewrite Ascii.eqb_refl. auto. Qed.
Lemma sdrop_app w s : sdrop (String.length w) (w ++ s)%string = s.
Proof. induction w; simpl; auto. Qed.
Lemma length_app a b : String.length (a ++ b)%string = String.length a + String.length b.
Proof. induction a; simpl; auto. Qed.
Lemma until_brace_app b post : has "}" b = false -> until_brace (b ++ String "}" post)%string = (b, String "}" post).
Proof.
  induction b as [|a b IH]; simpl; auto. rewrite orb_false_iff. intros [-> H]. rewrite IH; auto.
Qed.
Lemma starts_has w s c : starts w s = true -> has c w = true -> has c s = true.
Proof.
  revert s; induction w as [|a w IH]; intros [|b s]; simpl; try discriminate.
  rewrite andb_true_iff, !orb_true_iff. intros [E S]. apply Ascii.eqb_eq in E. subst. intros [H|H]; auto.
Qed.
Lemma contains_has w s c : contains w s = true -> has c w = true -> has c s = true.
Proof.
  induction s as [|a s IH]; simpl; rewrite orb_true_iff; intros [H|H] W.
  - exact (starts_has w "" c H W).
  - discriminate.
  - exact (starts_has w (String a s) c H W).
  - rewrite IH; auto. apply orb_true_r.
Qed.
Lemma has_app_r c a b : has c b = true -> has c (a ++ b)%string = true.
Proof. rewrite has_app. intros ->. apply orb_true_r. Qed.
Lemma group_none w s : has "{" s = false -> group w s = None.
Proof.
  intros H. unfold group. destruct (starts (w ++ "{") s) eqn:E; auto.
  apply starts_has with (c := "{"%char) in E; [congruence|]. apply has_app_r. reflexivity.
Qed.
Lemma resub_none n w s : has "{" s = false -> resub_f n w s = s.
Proof.
  revert s; induction n as [|n IH]; intros [|a t] H; cbn [resub_f]; auto.
  rewrite group_none by auto. simpl in H. apply orb_false_iff in H as [_ H]. rewrite IH; auto.
Qed.
(** A prefix w{ cannot start before the first brace. *)
Lemma starts_brace w a pre rest : has "{" w = false -> has "{" (String a pre) = false ->
  starts (w ++ "{") (String a pre ++ "{" ++ rest)%string = true -> w = String a pre.
Proof.
  revert a pre. induction w as [|x w IH]; intros a pre Hw Hp; cbn [has starts append] in *.
  - apply orb_false_iff in Hp as [A _]. rewrite Ascii.eqb_sym, A. discriminate.
  - apply orb_false_iff in Hw as [X W]. apply orb_false_iff in Hp as [A P]. rewrite andb_true_iff. intros [E S].
    apply Ascii.eqb_eq in E. subst x. destruct pre as [|b pre].
    + destruct w as [|y w]; auto. simpl in S. apply andb_true_iff in S as [S _]. apply Ascii.eqb_eq in S.
      subst. simpl in W. discriminate.
    + f_equal. apply IH; auto.
Qed.

(** A name with a single group w{body}. *)
Definition braced (w pre body post : string) : string := (pre ++ w ++ "{" ++ body ++ "}" ++ post)%string.
Definition plain_parts (pre body post : string) : Prop :=
  has "{" pre = false /\ has "{" body = false /\ has "}" body = false /\ has "{" post = false /\ body <> "".

Lemma group_at w body post : has "}" body = false -> body <> "" -> group w (w ++ "{" ++ body ++ "}" ++ post)%string = Some (body, post).
Proof.
  intros B N. unfold group.
  assert ((w ++ "{" ++ body ++ "}" ++ post = (w ++ "{") ++ (body ++ String "}" post))%string) as -> by (rewrite app_str_assoc; reflexivity).
  rewrite starts_app.
  assert (String.length w + 1 = String.length (w ++ "{")) as -> by (rewrite length_app; reflexivity).
  rewrite sdrop_app, until_brace_app by auto. destruct body; [congruence|reflexivity].
Qed.
Lemma suffix_eq (a b c : string) : (a ++ c = b ++ c)%string -> a = b.
Proof.
  revert b; induction a as [|x a IH]; destruct b as [|y b]; simpl; auto; intros H.
  - apply (f_equal String.length) in H. simpl in H. rewrite length_app in H. lia.
  - apply (f_equal String.length) in H. simpl in H. rewrite length_app in H. lia.
  - injection H as -> H. f_equal; auto.
Qed.
Lemma resub_f_braced w pre body post : has "{" w = false -> w <> "" -> plain_parts pre body post ->
  forall n, String.length pre < n -> resub_f n w (braced w pre body post) = (pre ++ body ++ post)%string.
Proof.
  intros W Wn (P & B & B2 & Q & N). induction pre as [|a pre IH]; intros n L.
  - destruct n as [|n]; [lia|]. unfold braced. destruct w as [|x w]; [congruence|].
    cbn [append resub_f].
    change (String x (w ++ String "{" (body ++ String "}" post)))%string with (String x w ++ "{" ++ body ++ "}" ++ post)%string.
    rewrite group_at by auto. rewrite resub_none; auto.
  - destruct n as [|n]; [lia|]. unfold braced. cbn [append resub_f].
    destruct (group w (String a (pre ++ w ++ String "{" (body ++ String "}" post)))) as [[x r]|] eqn:G.
    + exfalso. unfold group in G. destruct (starts (w ++ "{") _) eqn:S; [|discriminate].
      assert (has "{" (String a (pre ++ w)) = false) as H.
      { simpl in *. apply orb_false_iff in P as [-> P]. rewrite has_app, P, W. reflexivity. }
      assert ((String a (pre ++ w ++ String "{" (body ++ String "}" post)) = String a (pre ++ w) ++ "{" ++ (body ++ String "}" post))%string) as R.
      { simpl. rewrite app_str_assoc. reflexivity. }
      rewrite R in S. apply (starts_brace w a (pre ++ w) _ W H) in S.
      apply (f_equal String.length) in S. simpl in S. rewrite length_app in S. lia.
    + simpl. f_equal. apply IH; [|simpl in L; lia].
      simpl in P. apply orb_false_iff in P as [_ P]. auto.
Qed.
Lemma resub_braced w pre body post : has "{" w = false -> w <> "" -> plain_parts pre body post ->
  resub w (braced w pre body post) = (pre ++ body ++ post)%string.
Proof.
  intros W Wn H. apply resub_f_braced; auto. unfold braced. rewrite !length_app. simpl. lia.
Qed.
Lemma contains_app w a b : contains w (a ++ w ++ b)%string = true.
Proof.
  induction a as [|x a IH]; simpl.
  - destruct w as [|y w]; [destruct b; reflexivity|]. simpl. rewrite Ascii.eqb_refl, starts_app. reflexivity.
  - rewrite IH. apply orb_true_r.
Qed.
Lemma contains_braced w pre body post : contains (w ++ "{") (braced w pre body post) = true.
Proof.
  unfold braced.
  assert ((pre ++ w ++ "{" ++ body ++ "}" ++ post = pre ++ (w ++ "{") ++ body ++ "}" ++ post)%string) as -> by (rewrite (app_str_assoc w); reflexivity).
  apply contains_app.
Qed.
(** An Im name contains no "Re{". *)
Lemma contains_skip a s w : contains w (String a s) = starts w (String a s) || contains w s.
Proof. reflexivity. Qed.
Lemma no_re_in_im pre body post : plain_parts pre body post -> contains "Re{" (braced "Im" pre body post) = false.
Proof.
  intros (P & B & _ & Q & _). unfold braced. destruct (contains "Re{" _) eqn:E; auto. exfalso. revert E.
  assert (has "{" (body ++ "}" ++ post) = false) as T by (rewrite has_app, B; simpl; auto).
  assert (contains "Re{" (body ++ "}" ++ post) = false) as T2.
  { destruct (contains "Re{" (body ++ "}" ++ post)) eqn:E; auto. apply contains_has with (c := "{"%char) in E; auto. congruence. }
  induction pre as [|a pre IH].
  - cbn [append]. rewrite !contains_skip. 
    change (String "}" post) with ("}" ++ post)%string. rewrite T2. cbn. discriminate.
  - cbn [append]. rewrite contains_skip, orb_true_iff. simpl in P. apply orb_false_iff in P as [A P]. intros [H|H].
    + cbn [starts] in H. rewrite !andb_true_iff in H. destruct H as [_ H].
      destruct pre as [|b pre]; [cbn in H; discriminate|].
      cbn [append starts] in H. rewrite !andb_true_iff in H. destruct H as [_ H].
      destruct pre as [|c pre]; [cbn in H; discriminate|].
      cbn [append starts] in H. simpl in P. rewrite !orb_false_iff in P. destruct P as (_ & P & _).
      rewrite Ascii.eqb_sym, P in H. discriminate.
    + apply IH; auto.
Qed.

(** * The New Physics term *)
Lemma np_direct k d z : dget d k = Some z -> eos_np k d = Ok (Re z).
Proof. intros H. unfold eos_np. rewrite H. reflexivity. Qed.
Lemma np_re pre body post d : plain_parts pre body post -> dget d (braced "Re" pre body post) = None ->
  eos_np (braced "Re" pre body post) d = np_branch Re (pre ++ body ++ post)%string d.
Proof.
  intros H E. unfold eos_np. rewrite E. pose proof (contains_braced "Re" pre body post) as G. simpl append in G.
  change ("Re" ++ "{")%string with "Re{" in G. rewrite G, resub_braced; auto. discriminate.
Qed.
Lemma np_im pre body post d : plain_parts pre body post -> dget d (braced "Im" pre body post) = None ->
  eos_np (braced "Im" pre body post) d = np_branch Im (pre ++ body ++ post)%string d.
Proof.
  intros H E. unfold eos_np. rewrite E, no_re_in_im by auto. pose proof (contains_braced "Im" pre body post) as G. simpl append in G.
  change ("Im" ++ "{")%string with "Im{" in G. rewrite G, resub_braced; auto. discriminate.
Qed.
Lemma np_plain k d : dget d k = None -> has "{" k = false -> eos_np k d = Ok 0%R.
Proof.
  intros E H. unfold eos_np. rewrite E. destruct (contains "Re{" k) eqn:A.
  { apply contains_has with (c := "{"%char) in A; auto. congruence. }
  destruct (contains "Im{" k) eqn:B; auto. apply contains_has with (c := "{"%char) in B; auto. congruence.
Qed.
(** [s.replace] for a name with one occurrence *)
Lemma replace_f_once old new pre post : old <> "" ->
  (forall a b c, pre = (a ++ String b c)%string -> starts old (String b c ++ old ++ post)%string = false) ->
  contains old post = false ->
  forall n, String.length pre + String.length post < n -> replace_f n old new (pre ++ old ++ post)%string = (pre ++ new ++ post)%string.
Proof.
  intros O P Q. induction pre as [|a pre IH]; intros n L.
  - destruct n as [|n]; [lia|]. cbn [append]. destruct old as [|x old]; [congruence|].
    cbn [append replace_f]. change (String x (old ++ post)) with (String x old ++ post)%string.
    rewrite starts_app, sdrop_app. f_equal.
    assert (forall m s, contains (String x old) s = false -> replace_f m (String x old) new s = s) as Z.
    { induction m as [|m IHm]; intros [|y t]; cbn [replace_f]; auto. rewrite contains_skip, orb_false_iff. intros [-> H]. rewrite IHm; auto. }
    apply Z; auto.
  - destruct n as [|n]; [lia|]. cbn [append replace_f].
    pose proof (P "" a pre eq_refl) as S. cbn [append] in S. rewrite S. f_equal. apply IH; [|simpl in L; lia].
    intros a0 b c E. apply (P (String a a0) b c). simpl. congruence.
Qed.

(** ** wcxf2eos *)
Lemma Forall2_get {A B} (R : string * A -> string * B -> Prop) :
  (forall x y, R x y -> fst x = fst y) -> forall (l : dict string A) (r : dict string B), Forall2 R l r -> forall k,
  match dget l k, dget r k with Some v, Some w => R (k, v) (k, w) | None, None => True | _, _ => False end.
Proof.
  intros K l r F. induction F as [|[k v] [k' w] l r H F IH]; intros q; simpl; auto.
  pose proof (K _ _ H) as E0. simpl in E0. subst k'. destruct (keqb q k) eqn:E1.
  - apply keqb_eq in E1. subst. auto.
  - apply IH.
Qed.
Section Eos2.
Variable fs : string -> option R.
Lemma wcxf2eos_ok o sm out : wcxf2eos fs o sm = Ok out ->
  dkeys out = dkeys sm /\
  Forall2 (fun kv ke => fst ke = fst kv /\ exists c np x, central (snd kv) = Ok c /\ get_eos_np fs (fst kv) o = Ok np /\
     plus c np = Ok x /\ snd ke = eos_entry x) sm out.
Proof.
  unfold wcxf2eos. intros H. apply mapM_ok_iff in H.
  assert (Forall2 (fun kv (ke : string * dict string R) => fst ke = fst kv /\ exists c np x, central (snd kv) = Ok c /\ get_eos_np fs (fst kv) o = Ok np /\
     plus c np = Ok x /\ snd ke = eos_entry x) sm out) as G.
  { induction H as [|kv ke l r E F IH]; constructor; auto. clear IH F.
    destruct (central (snd kv)) as [c|] eqn:E1; simpl in E; [|discriminate].
    destruct (get_eos_np fs (fst kv) o) as [np|] eqn:E2; simpl in E; [|discriminate].
    destruct (plus c np) as [x|] eqn:E3; simpl in E; [|discriminate].
    injection E as <-. simpl. split; auto. exists c, np, x. auto. }
  split; auto. clear H. induction G as [|x y l r [E _] F IH]; simpl; auto. unfold dkeys in *. simpl. congruence.
Qed.
Lemma wcxf2eos_value o sm out k m y np : wcxf2eos fs o sm = Ok out ->
  dget sm k = Some (DMap m) -> dget m "central" = Some (DNum y) -> get_eos_np fs k o = Ok np ->
  exists e, dget out k = Some e /\ forall q, In q ["central"; "min"; "max"] -> dget e q = Some (y + np)%R.
Proof.
  intros H K M N. destruct (wcxf2eos_ok o sm out H) as [_ G]. clear H.
  induction G as [|[k1 v1] [k2 e2] l r (E & c & np' & x & C1' & N' & P & Q) F IH]; simpl in K; [discriminate|].
  simpl in E. subst k2. simpl. destruct (keqb k k1) eqn:B.
  - apply keqb_eq in B. subst k1. injection K as ->. simpl in C1', N', Q. unfold dlookup in C1'. rewrite M in C1'.
    injection C1' as <-. rewrite N in N'. injection N' as <-. simpl in P. injection P as <-. exists e2. split; auto.
    subst e2. intros q [<-|[<-|[<-|[]]]]; reflexivity.
  - apply IH; auto.
Qed.
End Eos2.

(** ** get_sm_wcs *)
Definition is_relevant (f : doc) : Prop :=
  exists wcs m v, f = DMap wcs /\ dget wcs "@metadata@" = Some (DMap m) /\ dget m "wcxf-relevant" = Some v /\ truthy v = true.
Definition file_get (f : doc) (k : string) : option doc := match f with DMap wcs => dget wcs k | _ => None end.
Definition file_ok (f : doc) : Prop := match f with DMap wcs => wf wcs | _ => False end.

Lemma sm_step_relevant all f : is_relevant f -> exists wcs, f = DMap wcs /\ sm_step all f = Ok (dupdate all (ddel wcs "@metadata@")).
Proof.
  intros (wcs & m & v & -> & A & B & D). exists wcs. split; auto. unfold sm_step. rewrite A. simpl. rewrite B. simpl. rewrite D. reflexivity.
Qed.
Lemma sm_step_other all f r : ~ is_relevant f -> sm_step all f = Ok r -> r = all.
Proof.
  intros N. unfold sm_step. destruct f as [| | | | |wcs]; try discriminate.
  destruct (dget wcs "@metadata@") as [m|] eqn:E; simpl.
  - destruct m as [| | |s|l|m]; simpl; try discriminate.
    + destruct (contains _ s); simpl; congruence.
    + destruct (existsb _ l); simpl; congruence.
    + destruct (dget m "wcxf-relevant") as [v|] eqn:E2; simpl; [|congruence].
      destruct (truthy v) eqn:T; [|congruence]. intros _. exfalso. apply N. exists wcs, m, v. auto.
  - congruence.
Qed.

(** The value of a name is that of the last relevant file defining it. *)
Definition defines (f : doc) (k : string) : Prop := is_relevant f /\ file_get f k <> None.
Definition last_defines (fs : list doc) (k : string) (v : doc) : Prop :=
  exists pre f post, fs = pre ++ f :: post /\ is_relevant f /\ file_get f k = Some v /\
    forall f', In f' post -> ~ defines f' k.
Lemma relevant_dec f : is_relevant f \/ ~ is_relevant f.
Proof.
  destruct f as [| | | | |wcs]; try (right; intros (? & ? & ? & E & _); discriminate).
  destruct (dget wcs "@metadata@") as [[| | | | |m]|] eqn:E;
    try (right; intros (? & ? & ? & Q & E2 & _); injection Q as <-; congruence).
  destruct (dget m "wcxf-relevant") as [v|] eqn:E2.
  - destruct (truthy v) eqn:T.
    + left. eexists _, m, v. eauto.
    + right; intros (a & b & c & Q & E3 & E4 & E5); injection Q as <-. rewrite E in E3. injection E3 as <-. congruence.
  - right; intros (a & b & c & Q & E3 & E4 & E5); injection Q as <-. rewrite E in E3. injection E3 as <-. congruence.
Qed.
Lemma sm_fold_spec fs all r k v : Forall (fun f => match f with DMap m => wf m | _ => True end) fs ->
  k <> "@metadata@" -> sm_fold all fs = Ok r ->
  (dget r k = Some v <-> last_defines fs k v \/ (forall f, In f fs -> ~ defines f k) /\ dget all k = Some v).
Proof.
  intros W K. revert all. induction fs as [|f t IH]; intros all E; simpl in E.
  - injection E as <-. split; [auto|]. intros [(pre & f & post & H & _)|[_ H]]; auto. destruct pre; discriminate.
  - inversion W as [|? ? Wf Wt]; subst. destruct (sm_step all f) as [a|] eqn:S; [|discriminate]. simpl in E.
    rewrite (IH Wt a E). clear IH.
    assert (last_defines (f :: t) k v <-> last_defines t k v \/
      (is_relevant f /\ file_get f k = Some v /\ forall f', In f' t -> ~ defines f' k)) as L.
    { split.
      - intros (pre & g & post & H & A & B & D). destruct pre as [|h pre]; simpl in H; injection H as <- H.
        + subst. auto.
        + left. exists pre, g, post. auto.
      - intros [(pre & g & post & -> & A)|(A & B & D)].
        + exists (f :: pre), g, post. auto.
        + exists [], f, t. auto. }
    rewrite L. destruct (relevant_dec f) as [R|R].
    + destruct (sm_step_relevant all f R) as (wcs & -> & S2). rewrite S in S2. injection S2 as ->.
      rewrite dget_dupdate, dget_last_wf by (apply wf_ddel; auto). rewrite dget_ddel by auto. cbn [file_get].
      assert (keqb "@metadata@" k = false) as Q.
      { destruct (keqb "@metadata@" k) eqn:Q; auto. apply keqb_eq in Q. congruence. }
      assert (keqb k "@metadata@" = false) as Q2.
      { destruct (keqb k "@metadata@") eqn:Q2; auto. apply keqb_eq in Q2. congruence. }
      rewrite ?Q, ?Q2. destruct (dget wcs k) as [w|] eqn:G.
      * split.
        -- intros [H|[H1 H2]]; auto.
        -- intros [[H|(A & B & D)]|[A B]]; auto.
           exfalso. apply (A (DMap wcs)); [left; auto|]. split; auto. simpl. congruence.
      * split.
        -- intros [H|[H1 H2]]; auto. right. split; auto. intros g [<-|I]; auto. intros [_ H]. simpl in H. congruence.
        -- intros [[H|(A & B & D)]|[A B]]; auto; [discriminate|]. right. split; auto. intros g I. apply A. right; auto.
    + rewrite (sm_step_other all f a R S). split.
      * intros [H|[H1 H2]]; auto. right. split; auto. intros g [<-|I]; auto. intros [H _]. auto.
      * intros [[H|(A & B & D)]|[A B]]; auto; [tauto|]. right. split; auto. intros g I. apply A. right; auto.
Qed.
Lemma get_sm_wcs_spec fs r k v : Forall (fun f => match f with DMap m => wf m | _ => True end) fs ->
  k <> "@metadata@" -> get_sm_wcs fs = Ok r -> (dget r k = Some v <-> last_defines fs k v).
Proof.
  intros W K E. rewrite (sm_fold_spec fs [] r k v W K E). simpl. split; [|auto]. intros [H|[_ H]]; auto. discriminate.
Qed.
Lemma get_sm_wcs_meta fs r : Forall (fun f => match f with DMap m => wf m | _ => True end) fs ->
  get_sm_wcs fs = Ok r -> ~ In "@metadata@" (dkeys r).
Proof.
  intros W. unfold get_sm_wcs. assert (~ In "@metadata@" (dkeys (@nil (string * doc)))) as N by (simpl; tauto).
  revert N. generalize (@nil (string * doc)). induction W as [|f t Wf Wt IH]; intros all N E; simpl in E.
  - injection E as <-. auto.
  - destruct (sm_step all f) as [a|] eqn:S; [|discriminate]. simpl in E. apply (IH a); auto.
    destruct (relevant_dec f) as [R|R].
    + destruct (sm_step_relevant all f R) as (wcs & -> & S2). rewrite S in S2. injection S2 as ->.
      rewrite In_dkeys_dupdate. intros [H|H]; auto. change (map fst (ddel wcs "@metadata@")) with (dkeys (ddel wcs "@metadata@")) in H.
      rewrite dkeys_ddel in H by auto. apply filter_In in H as [_ H]. vm_compute in H. discriminate.
    + rewrite (sm_step_other all f a R S). auto.
Qed.
