(** Model of _testtex (classes.py 55-104). *)
From Coq Require Import String Ascii List Bool Arith ZArith Lia.
From Verif Require Import PyBase.
Import ListNotations.
Open Scope string_scope.
Open Scope list_scope.
Open Scope nat_scope.

Definition nl : string := String (ascii_of_nat 10) EmptyString.
(** [doc = _preamble + s + _enddoc], classes.py 59-65 *)
Definition preamble : string :=
  "\documentclass{article}" ++ nl ++ "    \usepackage{amsmath,amssymb}" ++ nl ++ "    \begin{document}" ++ nl ++ "    ".
Definition enddoc : string := nl ++ "    \end{document}".
Definition tex_doc (s : string) : string := (preamble ++ s ++ enddoc)%string.

(** What the call of the latex executable does: not found; or return code and
    the contents of textest.log if there is one.  Simplified: creating the
    directory and writing the .tex file always succeed; the log is decodable and
    its line ends are already translated to '\n'. *)
Inductive texrun := NotFound | Ran (rc : Z) (log : option string).

(** [f.readlines()] *)
Fixpoint readlines (s : string) : list string :=
  match s with
  | EmptyString => []
  | String a t =>
      if Ascii.eqb a (ascii_of_nat 10) then nl :: readlines t
      else match readlines t with
           | [] => [String a EmptyString]
           | h :: r => String a h :: r
           end
  end.
(** [x in l] for strings *)
Fixpoint starts (p s : string) : bool :=
  match p, s with
  | EmptyString, _ => true
  | String a p', String b s' => Ascii.eqb a b && starts p' s'
  | _, _ => false
  end.
Fixpoint contains (p s : string) : bool :=
  starts p s || match s with EmptyString => false | String _ t => contains p t end.
(** White space of [str.strip] among the ASCII characters. *)
Definition is_space (a : ascii) : bool :=
  let n := nat_of_ascii a in
  ((9 <=? n) && (n <=? 13)) || ((28 <=? n) && (n <=? 32)).
(** [l.strip() != ''] *)
Fixpoint nonblank (s : string) : bool :=
  match s with EmptyString => false | String a t => negb (is_space a) || nonblank t end.
Definition is_error (l : string) : bool :=
  contains "Undefined control sequence" l || contains "Emergency stop" l.
(** classes.py 87-91: index of the first error line *)
Fixpoint find_error (i : nat) (l : list string) : option nat :=
  match l with
  | [] => None
  | x :: t => if is_error x then Some i else find_error (S i) t
  end.
(** classes.py 93-101.  [None]: the loop is still running after [fuel] steps. *)
Fixpoint log_loop (fuel : nat) (logl : list string) (i : nat) (l : string) (acc : string) : option string :=
  match fuel with
  | 0 => None
  | S n => if nonblank l then
             let acc' := (acc ++ nth i logl "")%string in
             match nth_error logl (S i) with
             | Some l' => log_loop n logl (S i) l' acc'
             | None => Some acc'          (* IndexError: break *)
             end
           else Some acc
  end.
Definition extract_log (logl : list string) : option string :=
  match find_error 0 logl with
  | None => Some ""
  | Some i => log_loop (S (length logl)) logl i (nth i logl "") ""
  end.

Record texres := TexRes { success : bool; log : option string }.
(** classes.py 55-104; [run] stands for the latex call on a document.  Result and
    whether the temporary directory still exists. *)
Definition testtex (run : string -> texrun) (s : string) (delete : bool) : res texres * bool :=
  match run (tex_doc s) with
  | NotFound => (Ok (TexRes true None), true)
  | Ran rc lg =>
      match lg with
      | None => (Err UnboundLocalError, true)     (* logl was never assigned *)
      | Some text =>
          match extract_log (readlines text) with
          | Some g => (Ok (TexRes (Z.eqb rc 0) (Some g)), negb delete)
          | None => (Err (UserError "diverges"), true)
          end
      end
  end.

(** ** Specification *)
Fixpoint take_while {A} (p : A -> bool) (l : list A) : list A :=
  match l with [] => [] | x :: t => if p x then x :: take_while p t else [] end.
Fixpoint drop_until {A} (p : A -> bool) (l : list A) : list A :=
  match l with [] => [] | x :: t => if p x then l else drop_until p t end.
Definition concat_lines (l : list string) : string := fold_right append "" l.
Definition first_error_block (l : list string) : list string := take_while nonblank (drop_until is_error l).

Lemma app_str_assoc (a b c : string) : ((a ++ b) ++ c = a ++ (b ++ c))%string.
Proof. induction a; simpl; congruence. Qed.
Lemma app_str_nil (a : string) : (a ++ "" = a)%string.
Proof. induction a; simpl; congruence. Qed.
Lemma readlines_concat s : concat_lines (readlines s) = s.
Proof.
  induction s as [|a t IH]; simpl; auto. destruct (Ascii.eqb a (ascii_of_nat 10)) eqn:E.
  - apply Ascii.eqb_eq in E. subst. simpl. rewrite IH. reflexivity.
  - destruct (readlines t) as [|h r]; simpl in *; rewrite IH; reflexivity.
Qed.
(** Lines contain no line end except at their end. *)
Lemma find_error_spec l : forall i,
  match find_error i l with
  | None => drop_until is_error l = []
  | Some j => i <= j /\ j - i < length l /\ drop_until is_error l = skipn (j - i) l /\ is_error (nth (j - i) l "") = true
  end.
Proof.
  induction l as [|x t IH]; intros i; simpl; auto. destruct (is_error x) eqn:E.
  - rewrite Nat.sub_diag. simpl. split; [lia|]. split; [lia|]. auto.
  - specialize (IH (S i)). destruct (find_error (S i) t) as [j|]; auto.
    destruct IH as (A & B & D & F). assert (j - i = S (j - S i)) as -> by lia. simpl.
    split; [lia|]. split; [lia|]. auto.
Qed.
Lemma skipn_nth (l : list string) i x : nth_error l i = Some x -> skipn i l = x :: skipn (S i) l.
Proof.
  revert i; induction l as [|y t IH]; intros [|i]; simpl; try discriminate.
  - intros E; injection E as ->; reflexivity.
  - intros E. rewrite (IH i E). destruct t; reflexivity.
Qed.
Lemma log_loop_spec fuel logl i x acc : nth_error logl i = Some x -> length logl < fuel + i ->
  log_loop fuel logl i x acc = Some (acc ++ concat_lines (take_while nonblank (skipn i logl)))%string.
Proof.
  revert i x acc. induction fuel as [|n IH]; intros i x acc E L.
  - assert (i < length logl) by (apply nth_error_Some; congruence). lia.
  - cbn [log_loop]. rewrite (skipn_nth _ _ _ E). cbn [take_while].
    destruct (nonblank x).
    + rewrite (nth_error_nth _ _ _ E). destruct (nth_error logl (S i)) as [y|] eqn:E2.
      * rewrite (IH (S i) y) by (auto; lia). rewrite app_str_assoc. reflexivity.
      * apply nth_error_None in E2. rewrite (skipn_all2 _ E2). simpl. rewrite app_str_nil. reflexivity.
    + simpl. rewrite app_str_nil. reflexivity.
Qed.
Lemma extract_log_spec l : extract_log l = Some (concat_lines (first_error_block l)).
Proof.
  unfold extract_log, first_error_block. pose proof (find_error_spec l 0) as H.
  destruct (find_error 0 l) as [j|].
  - rewrite Nat.sub_0_r in H. destruct H as (_ & L & -> & _).
    destruct (nth_error l j) as [x|] eqn:E; [|apply nth_error_None in E; lia].
    rewrite (nth_error_nth _ _ "" E). apply log_loop_spec; auto. lia.
  - rewrite H. reflexivity.
Qed.
(** More steps do not change the result: the loop stops by itself. *)
Lemma log_loop_terminates logl i x fuel : nth_error logl i = Some x -> length logl < fuel + i ->
  log_loop fuel logl i x "" <> None.
Proof. intros E L. rewrite log_loop_spec by auto. discriminate. Qed.

Lemma starts_nonblank p s : nonblank p = true -> starts p s = true -> nonblank s = true.
Proof.
  revert s; induction p as [|a p IH]; intros [|b s]; simpl; try discriminate.
  rewrite andb_true_iff, !orb_true_iff. intros H [E S]. apply Ascii.eqb_eq in E. subst.
  destruct H; auto.
Qed.
Lemma contains_nonblank p s : nonblank p = true -> contains p s = true -> nonblank s = true.
Proof.
  intros N. induction s as [|a t IH]; simpl; rewrite orb_true_iff; intros [H|H].
  - exact (starts_nonblank p "" N H).
  - discriminate.
  - exact (starts_nonblank p (String a t) N H).
  - rewrite IH; auto. apply orb_true_r.
Qed.
Lemma error_nonblank l : is_error l = true -> nonblank l = true.
Proof. unfold is_error. rewrite orb_true_iff. intros [H|H]; revert H; apply contains_nonblank; reflexivity. Qed.
Lemma drop_until_head A (p : A -> bool) l x t : drop_until p l = x :: t -> p x = true.
Proof. induction l as [|y u IH]; simpl; [discriminate|]. destruct (p y) eqn:E; auto. intros H; injection H as <- _; auto. Qed.
Lemma drop_until_nil A (p : A -> bool) l : drop_until p l = [] <-> forallb (fun x => negb (p x)) l = true.
Proof.
  induction l as [|y u IH]; simpl; [tauto|]. destruct (p y) eqn:E; simpl; [|exact IH]. split; discriminate.
Qed.
(** The block is empty only if there is no error line, otherwise it starts with it. *)
Lemma block_empty l : first_error_block l = [] <-> forallb (fun x => negb (is_error x)) l = true.
Proof.
  rewrite <- drop_until_nil. unfold first_error_block. destruct (drop_until is_error l) as [|x t] eqn:E.
  - simpl; tauto.
  - simpl. rewrite (error_nonblank x) by (eapply drop_until_head; eauto). split; discriminate.
Qed.
Lemma block_is_sublist l : exists pre post, l = pre ++ first_error_block l ++ post /\
  forallb (fun x => negb (is_error x)) pre = true /\
  (first_error_block l <> [] -> match post with [] => True | x :: _ => nonblank x = false end) /\
  forallb nonblank (first_error_block l) = true.
Proof.
  unfold first_error_block.
  assert (forall l : list string, exists pre, l = pre ++ drop_until is_error l /\ forallb (fun x => negb (is_error x)) pre = true) as A.
  { induction l0 as [|x t (pre & E & F)]; [exists []; auto|]. simpl. destruct (is_error x) eqn:Q.
    - exists []. auto.
    - exists (x :: pre). simpl. rewrite Q, <- E. auto. }
  assert (forall l : list string, exists post, l = take_while nonblank l ++ post /\
     match post with [] => True | x :: _ => nonblank x = false end /\ forallb nonblank (take_while nonblank l) = true) as B.
  { induction l0 as [|x t (post & E & F & G)]; [exists []; auto|]. simpl. destruct (nonblank x) eqn:Q.
    - exists post. simpl. rewrite Q, <- E. auto.
    - exists (x :: t). auto. }
  destruct (A l) as (pre & E & F). destruct (B (drop_until is_error l)) as (post & E2 & F2 & G2).
  exists pre, post. split; [|auto]. rewrite <- E2. exact E.
Qed.

(** ** Results *)
Lemma testtex_success run s del r : fst (testtex run s del) = Ok r ->
  (success r = true <-> run (tex_doc s) = NotFound \/ exists lg, run (tex_doc s) = Ran 0 lg).
Proof.
  unfold testtex. destruct (run (tex_doc s)) as [|rc [text|]]; simpl.
  - intros H; injection H as <-. simpl. split; auto.
  - rewrite extract_log_spec. simpl. intros H; injection H as <-. simpl. rewrite Z.eqb_eq. split.
    + intros ->. right. eauto.
    + intros [H|(lg & H)]; congruence.
  - discriminate.
Qed.
Lemma testtex_log run s del rc text : run (tex_doc s) = Ran rc (Some text) ->
  testtex run s del =
  (Ok (TexRes (Z.eqb rc 0) (Some (concat_lines (first_error_block (readlines text))))), negb del).
Proof. intros H. unfold testtex. rewrite H, extract_log_spec. reflexivity. Qed.
Lemma testtex_no_log run s del rc : run (tex_doc s) = Ran rc None -> testtex run s del = (Err UnboundLocalError, true).
Proof. intros H. unfold testtex. rewrite H. reflexivity. Qed.
Lemma testtex_not_found run s del : run (tex_doc s) = NotFound -> testtex run s del = (Ok (TexRes true None), true).
Proof. intros H. unfold testtex. rewrite H. reflexivity. Qed.
Lemma tex_doc_inj s s' : tex_doc s = tex_doc s' -> s = s'.
Proof.
  unfold tex_doc. assert (forall p a b : string, (p ++ a = p ++ b)%string -> a = b) as I.
  { induction p as [|x p IH]; simpl; auto. intros a b H. injection H as H. auto. }
  intros H. apply I in H.
  assert (forall a b e : string, (a ++ e = b ++ e)%string -> a = b) as J.
  { assert (forall a b : string, String.length (a ++ b) = String.length a + String.length b) as L
      by (induction a; simpl; auto).
    intros a b e. revert b. induction a as [|x a IH]; destruct b as [|y b]; simpl; auto.
    - intros Q. apply (f_equal String.length) in Q. simpl in Q. rewrite L in Q. lia.
    - intros Q. apply (f_equal String.length) in Q. simpl in Q. rewrite L in Q. lia.
    - intros Q. injection Q as -> Q. f_equal; auto. }
  exact (J _ _ _ H).
Qed.
