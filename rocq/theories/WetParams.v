(** get_parameters, translators/wet.py 990-1009, with the dictionaries it reads and
    writes in a heap and with the caches of util/qcd.py; and the parameters the
    translators of Wet.v see. *)
From Coq Require Import String List Bool Arith ZArith Reals Lra Lia.
From Verif Require Import PyBase PyDict Cplx Wc Params Qcd Wet.
Import ListNotations.
Open Scope string_scope.
Open Scope list_scope.
Open Scope nat_scope.

Definition pdict := dict string num.
(** Dictionaries live in cells; a reference to a dictionary is the number of its cell. *)
Record store := Store { cells : list pdict; qcd : caches }.
Definition cell (s : store) (l : nat) : pdict := nth l (cells s) [].
Fixpoint upd (c : list pdict) (l : nat) (d : pdict) : list pdict :=
  match c, l with
  | [], _ => []
  | _ :: r, 0 => d :: r
  | x :: r, S l => x :: upd r l d
  end.
Definition assign (s : store) (l : nat) (d : pdict) : store := Store (upd (cells s) l d) (qcd s).
(** A new dictionary *)
Definition alloc (s : store) (d : pdict) : nat * store := (length (cells s), Store (cells s ++ [d]) (qcd s)).

(** parameters.py 1-18; all numbers there are floats. *)
Definition defaults : pdict := map (fun kv => (fst kv, flt (snd kv))) default_parameters.
Definition DEFAULT : nat := 0.

Section Rundec.
Variable AlphasExact : fval -> fval -> fval -> fval -> fval.
Variable AlL2AlH AlH2AlL : fval -> fval -> thr -> fval -> fval.
Variable mMS2mMS : fval -> fval -> fval -> fval -> fval.
Variable mH2mL mL2mH : fval -> fval -> fval -> thr -> fval -> fval.
Notation eval := (eval AlphasExact AlL2AlH AlH2AlL mMS2mMS mH2mL mL2mH).
Notation call_cached := (call_cached AlphasExact AlL2AlH AlH2AlL mMS2mMS mH2mL mL2mH).
Notation all_sound := (all_sound AlphasExact AlL2AlH AlH2AlL mMS2mMS mH2mL mL2mH).

Definition sub (d : pdict) (k : string) : res num := match dget d k with Some v => Ok v | None => Err KeyError end.
(** [q[k] = f(...)] where [f(...)] is a call of util/qcd.py *)
Definition put_call (s : store) (q : nat) (k : string) (c : call) : res unit * store :=
  match call_cached (qcd s) c with
  | (Ok v, cs) => (Ok tt, let s := Store (cells s) cs in assign s q (dset (cell s q) k v))
  | (Err e, cs) => (Err e, Store (cells s) cs)
  end.
(** The loop 1004-1008 *)
Fixpoint put_all (s : store) (p q : nat) (ks : list string) : res unit * store :=
  match ks with
  | [] => (Ok tt, s)
  | k :: r => match sub (cell s p) k with
              | Ok v => put_all (assign s q (dset (cell s q) k v)) p q r
              | Err e => (Err e, s)
              end
  end.
Definition get_parameters_st (s : store) (scale f : num) (input : option nat) : res nat * store :=
  let (p, s) := alloc s (cell s DEFAULT) in
  let s := match input with None => s | Some u => assign s p (dupdate (cell s p) (cell s u)) end in
  let (q, s) := alloc s [] in
  match (let! m := sub (cell s p) "m_b" in let! a := sub (cell s p) "alpha_s" in Ok (m, a)) with
  | Err e => (Err e, s)
  | Ok (m, a) =>
  match put_call s q "m_b" (CMb m scale f (AsPos a)) with
  | (Err e, s) => (Err e, s)
  | (Ok _, s) =>
  match (let! m := sub (cell s p) "m_s" in let! a := sub (cell s p) "alpha_s" in Ok (m, a)) with
  | Err e => (Err e, s)
  | Ok (m, a) =>
  match put_call s q "m_s" (CMs m scale f (AsPos a)) with
  | (Err e, s) => (Err e, s)
  | (Ok _, s) =>
  match sub (cell s p) "alpha_s" with
  | Err e => (Err e, s)
  | Ok a =>
  match put_call s q "alpha_s" (CAlpha scale f (AsPos a)) with
  | (Err e, s) => (Err e, s)
  | (Ok _, s) =>
  match put_all s p q copied with
  | (Err e, s) => (Err e, s)
  | (Ok _, s) => (Ok q, s)
  end end end end end end end.

(** What else may happen between two calls: new dictionaries, writes to dictionaries
    other than the defaults, calls of util/qcd.py. *)
Inductive event :=
| Get (scale f : num) (input : option nat)
| New (d : pdict)
| Write (l : nat) (d : pdict)
| Qcd (c : call).
Definition step (s : store) (e : event) : store :=
  match e with
  | Get scale f input => snd (get_parameters_st s scale f input)
  | New d => snd (alloc s d)
  | Write l d => assign s l d
  | Qcd c => Store (cells s) (snd (call_cached (qcd s) c))
  end.
Definition fair (e : event) : Prop := match e with Write l _ => l <> DEFAULT | _ => True end.
Definition start : store := Store [defaults] no_caches.
Definition run (h : list event) : store := fold_left step h start.

Lemma mapM_cons {A B} (g : A -> res B) a l : mapM g (a :: l) = let! b := g a in let! r := mapM g l in Ok (b :: r).
Proof. reflexivity. Qed.
(** ** Heap *)
Lemma upd_length c l d : length (upd c l d) = length c.
Proof. revert l; induction c; intros [|l]; simpl; auto. Qed.
Lemma cell_upd c l d k : l < length c -> nth k (upd c l d) [] = if Nat.eqb k l then d else nth k c [].
Proof.
  revert l k. induction c as [|x r IH]; simpl; [lia|]. intros [|l] [|k] L; simpl; auto.
  apply IH. lia.
Qed.
Lemma cell_upd_ne c l d k : k <> l -> nth k (upd c l d) [] = nth k c [].
Proof. revert l k. induction c as [|x r IH]; simpl; auto. intros [|l] [|k] N; simpl; auto. lia. Qed.

(** A step of a call: old cells stay. *)
Definition grows (n : nat) (s s' : store) : Prop :=
  length (cells s) <= length (cells s') /\ (forall l, l < n -> cell s' l = cell s l).
Lemma grows_refl n s : grows n s s.
Proof. split; auto. Qed.
Lemma grows_trans n s s' s'' : grows n s s' -> grows n s' s'' -> grows n s s''.
Proof. intros [A B] [C D]. split; [lia|]. intros l L. rewrite D, B; auto. Qed.
Lemma put_call_grows s q k c : grows q s (snd (put_call s q k c)).
Proof.
  unfold put_call. destruct (call_cached (qcd s) c) as [[v|e] cs]; cbn; [|split; auto].
  unfold grows, assign, cell; cbn. rewrite upd_length. split; auto. intros l L. rewrite cell_upd_ne by lia. reflexivity.
Qed.
Lemma put_all_grows s p q ks : grows q s (snd (put_all s p q ks)).
Proof.
  revert s. induction ks as [|k r IH]; intros s; [apply grows_refl|]. cbn. destruct (sub (cell s p) k); [|apply grows_refl].
  eapply grows_trans; [|apply IH]. unfold grows, assign, cell; cbn. rewrite upd_length. split; auto. intros l L. rewrite cell_upd_ne by lia. reflexivity.
Qed.
Lemma put_call_caches s q k c : all_sound (qcd s) -> all_sound (qcd (snd (put_call s q k c))).
Proof.
  intros S. unfold put_call. pose proof (call_refines AlphasExact AlL2AlH AlH2AlL mMS2mMS mH2mL mL2mH false (qcd s) c S ltac:(discriminate)) as [A _].
  destruct (call_cached (qcd s) c) as [[v|e] cs]; exact A.
Qed.
Lemma put_all_caches s p q ks : qcd (snd (put_all s p q ks)) = qcd s.
Proof. revert s. induction ks as [|k r IH]; intros s; auto. cbn. destruct (sub (cell s p) k); auto. rewrite IH. reflexivity. Qed.

(** ** What is computed *)
Definition merged (d : pdict) (u : option pdict) : pdict := match u with None => d | Some u => dupdate d u end.
(** The value of get_parameters as a function of the contents of the dictionaries. *)
Definition spec (u : option pdict) (scale f : num) : res pdict :=
  let p := merged defaults u in
  let! m := sub p "m_b" in let! a := sub p "alpha_s" in
  let! mb := eval (CMb m scale f (AsPos a)) in
  let! m := sub p "m_s" in
  let! ms := eval (CMs m scale f (AsPos a)) in
  let! als := eval (CAlpha scale f (AsPos a)) in
  let! r := mapM (fun k => let! v := sub p k in Ok (k, v)) copied in
  Ok (("m_b", mb) :: ("m_s", ms) :: ("alpha_s", als) :: r).
(** Same names with numerically equal values. *)
Definition same_dict (d e : pdict) : Prop := Forall2 (fun a b => fst a = fst b /\ val (snd a) = val (snd b)) d e.

Lemma call_agree s c : all_sound s -> typed c -> agree (fst (call_cached s c)) (eval c).
Proof.
  intros S T. destruct (call_refines AlphasExact AlL2AlH AlH2AlL mMS2mMS mH2mL mL2mH true s c S (fun _ => T)) as [_ M].
  pose proof (eval_typed_agree AlphasExact AlL2AlH AlH2AlL mMS2mMS mH2mL mL2mH (retype c) c (retype_same c) (retype_typed c) T) as G.
  unfold agree in *. destruct (fst (call_cached s c)), (eval (retype c)), (eval c); try tauto; try congruence. rewrite M; auto.
Qed.
Lemma sub_merged u k : In k (dkeys defaults) -> exists v, sub (merged defaults u) k = Ok v.
Proof.
  intros I. apply key_dget in I. destruct I as (v & E). unfold sub, merged. destruct u as [u|].
  - rewrite dget_dupdate. destruct (dget_last u k); eauto. rewrite E. eauto.
  - rewrite E. eauto.
Qed.
Lemma defaults_keys : dkeys defaults = dkeys default_parameters.
Proof. reflexivity. Qed.

Lemma dset_fresh {V} (d : dict string V) k v : ~ In k (dkeys d) -> dset d k v = d ++ [(k, v)].
Proof.
  induction d as [|[k' v'] r IH]; simpl; auto. intros N. destruct (keqb k k') eqn:E.
  - apply keqb_eq in E. subst. tauto.
  - rewrite IH by tauto. reflexivity.
Qed.
Lemma put_all_spec p q d ks : p <> q -> (forall k, In k ks -> exists v, sub d k = Ok v) -> NoDup ks ->
  forall s acc, q < length (cells s) -> cell s p = d -> cell s q = acc -> (forall k, In k ks -> ~ In k (dkeys acc)) ->
  exists r, mapM (fun k => let! v := sub d k in Ok (k, v)) ks = Ok r /\
            fst (put_all s p q ks) = Ok tt /\ cell (snd (put_all s p q ks)) q = acc ++ r.
Proof.
  intros NE. induction ks as [|k ks IH]; intros D N s acc L P Q F.
  - exists []. cbn. rewrite app_nil_r. auto.
  - inversion N; subst. destruct (D k (or_introl eq_refl)) as (v & E). cbn [put_all]. rewrite E.
    destruct (IH (fun k' I => D k' (or_intror I)) H2 (assign s q (dset (cell s q) k v)) (cell s q ++ [(k, v)])) as (r & A & B & C).
    + unfold assign; cbn. rewrite upd_length. exact L.
    + unfold assign, cell; cbn. apply cell_upd_ne. exact NE.
    + unfold assign, cell; cbn. rewrite cell_upd, Nat.eqb_refl by exact L. apply dset_fresh. apply F. left. reflexivity.
    + intros k' I J. unfold dkeys in J. rewrite map_app in J. apply in_app_or in J. destruct J as [J|[<-|[]]]; [exact (F k' (or_intror I) J)|contradiction].
    + rewrite mapM_cons, E; cbn [bind]; rewrite A. cbn [bind]. exists ((k, v) :: r). rewrite B, C, <- app_assoc. auto.
Qed.
(** One of the three running parameters *)
Lemma put_call_spec s q k c : all_sound (qcd s) -> typed c -> q < length (cells s) -> ~ In k (dkeys (cell s q)) ->
  match eval c with
  | Err e => fst (put_call s q k c) = Err e
  | Ok v => fst (put_call s q k c) = Ok tt /\ exists w, val w = val v /\ cell (snd (put_call s q k c)) q = cell s q ++ [(k, w)]
  end.
Proof.
  intros S T L N. pose proof (call_agree (qcd s) c S T) as G. unfold put_call. destruct (call_cached (qcd s) c) as [[w|e] cs]; cbn [fst] in G.
  - destruct (eval c) as [v|]; simpl in G; [|tauto]. split; auto. exists w. split; auto. unfold assign, cell; cbn. rewrite cell_upd, Nat.eqb_refl by exact L.
    apply dset_fresh. exact N.
  - destruct (eval c) as [v|]; simpl in G; [tauto|]. subst. reflexivity.
Qed.

Definition agree_store (s : store) (x : res nat * store) (r : res pdict) : Prop :=
  match fst x, r with
  | Ok l, Ok d => length (cells s) <= l /\ l < length (cells (snd x)) /\ same_dict (cell (snd x) l) d
  | Err e, Err e' => e = e'
  | _, _ => False
  end.
(** The user's m_b is an int or a float (default_parameters' is). *)
Definition typed_mass (u : option pdict) : Prop := forall v, sub (merged defaults u) "m_b" = Ok v -> is_real v = true.
Lemma same_app d e d' e' : same_dict d e -> same_dict d' e' -> same_dict (d ++ d') (e ++ e').
Proof. apply Forall2_app. Qed.
Lemma same_refl d : same_dict d d.
Proof. unfold same_dict. induction d; constructor; auto. Qed.

(** Nothing that existed before a call changes, whether it succeeds or not. *)
Lemma put_call_len s q k c : length (cells (snd (put_call s q k c))) = length (cells s).
Proof.
  unfold put_call. destruct (call_cached (qcd s) c) as [[v|e] cs]; cbn; auto. rewrite upd_length. reflexivity.
Qed.
Lemma put_all_len s p q ks : length (cells (snd (put_all s p q ks))) = length (cells s).
Proof.
  revert s. induction ks as [|k r IH]; intros s; auto. cbn. destruct (sub (cell s p) k); auto. rewrite IH. cbn. rewrite upd_length. reflexivity.
Qed.
Section Call.
Variable s0 : store.
Variable input : option nat.
Let p := length (cells s0).
Let q := S p.
Definition s1 : store := let s := snd (alloc s0 (cell s0 DEFAULT)) in
  match input with None => s | Some u => assign s p (dupdate (cell s p) (cell s u)) end.
Definition s2 : store := snd (alloc s1 []).
Lemma s1_len : length (cells s1) = S p.
Proof. unfold s1. destruct input; cbn; rewrite ?upd_length, app_length; cbn; unfold p; lia. Qed.
Lemma s2_len : length (cells s2) = S q.
Proof. unfold s2. cbn. rewrite app_length, s1_len. cbn. unfold q. lia. Qed.
Lemma s1_old l : l < p -> cell s1 l = cell s0 l.
Proof.
  intros L. unfold s1, cell. destruct input; cbn; [rewrite cell_upd_ne by lia|]; apply app_nth1; exact L.
Qed.
Lemma s2_old l : l < p -> cell s2 l = cell s0 l.
Proof. intros L. rewrite <- s1_old by exact L. unfold s2, cell. cbn. apply app_nth1. rewrite s1_len. lia. Qed.
Lemma s2_q : cell s2 q = [].
Proof. unfold s2, cell. cbn. rewrite app_nth2; rewrite s1_len; unfold q; [|lia]. rewrite Nat.sub_diag. reflexivity. Qed.
Lemma s2_p : (forall u, input = Some u -> u < p) -> cell s2 p = merged (cell s0 DEFAULT) (option_map (cell s0) input).
Proof.
  intros V. transitivity (cell s1 p).
  { unfold s2, cell. cbn. apply app_nth1. rewrite s1_len. lia. }
  assert (forall d, nth p (cells s0 ++ [d]) [] = d) as A by (intros d; rewrite app_nth2; unfold p; [|lia]; rewrite Nat.sub_diag; reflexivity).
  unfold s1. destruct input as [u|]; unfold cell; cbn.
  - rewrite cell_upd by (rewrite app_length; cbn; unfold p; lia). rewrite Nat.eqb_refl, A, app_nth1 by (apply V; reflexivity). reflexivity.
  - apply A.
Qed.
Lemma s2_qcd : qcd s2 = qcd s0.
Proof. unfold s2, s1. destruct input; reflexivity. Qed.
Lemma st_eq scale f : get_parameters_st s0 scale f input =
  match (let! m := sub (cell s2 p) "m_b" in let! a := sub (cell s2 p) "alpha_s" in Ok (m, a)) with
  | Err e => (Err e, s2)
  | Ok (m, a) =>
  match put_call s2 q "m_b" (CMb m scale f (AsPos a)) with
  | (Err e, s) => (Err e, s)
  | (Ok _, s) =>
  match (let! m := sub (cell s p) "m_s" in let! a := sub (cell s p) "alpha_s" in Ok (m, a)) with
  | Err e => (Err e, s)
  | Ok (m, a) =>
  match put_call s q "m_s" (CMs m scale f (AsPos a)) with
  | (Err e, s) => (Err e, s)
  | (Ok _, s) =>
  match sub (cell s p) "alpha_s" with
  | Err e => (Err e, s)
  | Ok a =>
  match put_call s q "alpha_s" (CAlpha scale f (AsPos a)) with
  | (Err e, s) => (Err e, s)
  | (Ok _, s) =>
  match put_all s p q copied with
  | (Err e, s) => (Err e, s)
  | (Ok _, s) => (Ok q, s)
  end end end end end end end.
Proof.
  unfold get_parameters_st. unfold alloc at 1. cbv zeta beta iota.
  change (Store (cells s0 ++ [cell s0 DEFAULT]) (qcd s0)) with (snd (alloc s0 (cell s0 DEFAULT))). fold p.
  change (match input with None => snd (alloc s0 (cell s0 DEFAULT)) | Some u => assign (snd (alloc s0 (cell s0 DEFAULT))) p (dupdate (cell (snd (alloc s0 (cell s0 DEFAULT))) p) (cell (snd (alloc s0 (cell s0 DEFAULT))) u)) end) with s1.
  unfold alloc at 1. rewrite s1_len. fold q. change (Store (cells s1 ++ [[]]) (qcd s1)) with s2. reflexivity.
Qed.
Lemma st_frame scale f : grows p s0 (snd (get_parameters_st s0 scale f input)) /\
  (all_sound (qcd s0) -> all_sound (qcd (snd (get_parameters_st s0 scale f input)))).
Proof.
  assert (grows p s0 s2) as G0 by (split; [rewrite s2_len; unfold q, p; lia|apply s2_old]).
  assert (forall s s', grows q s s' -> grows p s s') as W by (intros s s' [A B]; split; auto; intros l L; apply B; unfold q; lia).
  rewrite st_eq. destruct (let! m := sub (cell s2 p) "m_b" in let! a := sub (cell s2 p) "alpha_s" in Ok (m, a)) as [[m a]|e]; [|rewrite <- s2_qcd; auto].
  pose proof (put_call_grows s2 q "m_b" (CMb m scale f (AsPos a))) as G1. pose proof (put_call_caches s2 q "m_b" (CMb m scale f (AsPos a))) as C1.
  rewrite s2_qcd in C1. destruct (put_call s2 q "m_b" (CMb m scale f (AsPos a))) as [[[]|e] s3]; cbn [snd] in *; pose proof (grows_trans _ _ _ _ G0 (W _ _ G1)) as H1; [|auto].
  destruct (let! m := sub (cell s3 p) "m_s" in let! a := sub (cell s3 p) "alpha_s" in Ok (m, a)) as [[m' a']|e]; [|auto].
  pose proof (put_call_grows s3 q "m_s" (CMs m' scale f (AsPos a'))) as G2. pose proof (put_call_caches s3 q "m_s" (CMs m' scale f (AsPos a'))) as C2.
  destruct (put_call s3 q "m_s" (CMs m' scale f (AsPos a'))) as [[[]|e] s4]; cbn [snd] in *; pose proof (grows_trans _ _ _ _ H1 (W _ _ G2)) as H2; [|auto].
  destruct (sub (cell s4 p) "alpha_s") as [a''|e]; [|auto].
  pose proof (put_call_grows s4 q "alpha_s" (CAlpha scale f (AsPos a''))) as G3. pose proof (put_call_caches s4 q "alpha_s" (CAlpha scale f (AsPos a''))) as C3.
  destruct (put_call s4 q "alpha_s" (CAlpha scale f (AsPos a''))) as [[[]|e] s5]; cbn [snd] in *; pose proof (grows_trans _ _ _ _ H2 (W _ _ G3)) as H3; [|auto].
  pose proof (put_all_grows s5 p q copied) as G4. pose proof (put_all_caches s5 p q copied) as C4.
  destruct (put_all s5 p q copied) as [[[]|e] s6]; cbn [snd] in *; pose proof (grows_trans _ _ _ _ H3 (W _ _ G4)) as H4; rewrite C4; auto.
Qed.
Lemma st_spec scale f : cell s0 DEFAULT = defaults -> all_sound (qcd s0) -> (forall u, input = Some u -> u < p) ->
  is_real scale = true -> is_int f = true -> typed_mass (option_map (cell s0) input) ->
  agree_store s0 (get_parameters_st s0 scale f input) (spec (option_map (cell s0) input) scale f).
Proof.
  intros D0 S V RS IF TM. set (u := option_map (cell s0) input) in *.
  assert (cell s2 p = merged defaults u) as P by (rewrite <- D0; apply s2_p; exact V).
  assert (p < q) as PQ by (unfold q; lia).
  destruct (sub_merged u "m_b") as (m & M); [vm_compute; tauto|]. destruct (sub_merged u "alpha_s") as (a & A); [vm_compute; tauto|].
  destruct (sub_merged u "m_s") as (m' & M'); [vm_compute; tauto|].
  rewrite st_eq. unfold spec. rewrite P, M, A, M'. cbn [bind].
  assert (typed (CMb m scale f (AsPos a))) as T1 by (repeat split; auto).
  assert (typed (CMs m' scale f (AsPos a))) as T2 by (repeat split; auto).
  assert (typed (CAlpha scale f (AsPos a))) as T3 by (repeat split; auto).
  (* m_b *)
  pose proof (put_call_spec s2 q "m_b" (CMb m scale f (AsPos a))) as X. rewrite s2_qcd, s2_len, s2_q in X. specialize (X S T1 ltac:(lia) ltac:(simpl; tauto)).
  pose proof (put_call_grows s2 q "m_b" (CMb m scale f (AsPos a))) as [_ G]. specialize (G p PQ). rewrite P in G.
  pose proof (put_call_caches s2 q "m_b" (CMb m scale f (AsPos a))) as C. rewrite s2_qcd in C. specialize (C S).
  pose proof (put_call_len s2 q "m_b" (CMb m scale f (AsPos a))) as L. rewrite s2_len in L.
  destruct (eval (CMb m scale f (AsPos a))) as [mb|e]; destruct (put_call s2 q "m_b" (CMb m scale f (AsPos a))) as [[[]|e'] s3]; cbn [fst snd] in *;
    try (destruct X as (X & ?); discriminate X); try discriminate X; [|injection X as ->; reflexivity].
  destruct X as (_ & wb & Vb & Qb). cbn [app] in Qb. rewrite G, M', A. cbn [bind].
  (* m_s *)
  pose proof (put_call_spec s3 q "m_s" (CMs m' scale f (AsPos a))) as X. rewrite Qb, L in X.
  specialize (X C T2 ltac:(lia)). assert (~ In "m_s" (dkeys [("m_b", wb)])) as N by (simpl; intuition discriminate). specialize (X N). clear N.
  pose proof (put_call_grows s3 q "m_s" (CMs m' scale f (AsPos a))) as [_ G']. specialize (G' p PQ). rewrite G in G'. clear G.
  pose proof (put_call_caches s3 q "m_s" (CMs m' scale f (AsPos a)) C) as C'. clear C.
  pose proof (put_call_len s3 q "m_s" (CMs m' scale f (AsPos a))) as L'. rewrite L in L'. clear L.
  destruct (eval (CMs m' scale f (AsPos a))) as [ms|e]; destruct (put_call s3 q "m_s" (CMs m' scale f (AsPos a))) as [[[]|e'] s4]; cbn [fst snd] in *;
    try (destruct X as (X & ?); discriminate X); try discriminate X; [|injection X as ->; reflexivity].
  destruct X as (_ & ws & Vs & Qs). cbn [app] in Qs. rewrite G', A. cbn [bind].
  (* alpha_s *)
  pose proof (put_call_spec s4 q "alpha_s" (CAlpha scale f (AsPos a))) as X. rewrite Qs, L' in X.
  specialize (X C' T3 ltac:(lia)). assert (~ In "alpha_s" (dkeys [("m_b", wb); ("m_s", ws)])) as N by (simpl; intuition discriminate). specialize (X N). clear N.
  pose proof (put_call_grows s4 q "alpha_s" (CAlpha scale f (AsPos a))) as [_ G]. specialize (G p PQ). rewrite G' in G. clear G'.
  pose proof (put_call_len s4 q "alpha_s" (CAlpha scale f (AsPos a))) as L. rewrite L' in L. clear L'.
  destruct (eval (CAlpha scale f (AsPos a))) as [als|e]; destruct (put_call s4 q "alpha_s" (CAlpha scale f (AsPos a))) as [[[]|e'] s5]; cbn [fst snd] in *;
    try (destruct X as (X & ?); discriminate X); try discriminate X; [|injection X as ->; reflexivity].
  destruct X as (_ & wa & Va & Qa). cbn [app] in Qa.
  (* the rest *)
  destruct (put_all_spec p q (merged defaults u) copied) with (s := s5) (acc := [("m_b", wb); ("m_s", ws); ("alpha_s", wa)]) as (r & R1 & R2 & R3); auto; try lia.
  { intros k I. apply sub_merged. unfold copied in I. simpl in I. rewrite defaults_keys. clear -I. simpl. tauto. }
  { unfold copied. repeat constructor; simpl; intuition discriminate. }
  { intros k I J. unfold copied in I. simpl in I, J. intuition (subst; discriminate). }
  rewrite R1. cbn [bind]. pose proof (put_all_len s5 p q copied) as L6. destruct (put_all s5 p q copied) as [[[]|] s6]; cbn [fst snd] in *; [|discriminate].
  unfold agree_store. cbn [fst snd]. split; [unfold q, p; lia|]. split; [lia|]. rewrite R3. cbn [app].
  repeat constructor; auto. apply same_refl.
Qed.
End Call.

(** ** Histories *)
Definition valid (s : store) (input : option nat) : Prop := forall u, input = Some u -> u < length (cells s).
Lemma run_inv h : Forall fair h -> cell (run h) DEFAULT = defaults /\ 0 < length (cells (run h)) /\ all_sound (qcd (run h)).
Proof.
  unfold run. assert (cell start DEFAULT = defaults /\ 0 < length (cells start) /\ all_sound (qcd start)) as Z.
  { split; [reflexivity|]. split; [cbn; lia|]. repeat split; intros k v []. }
  revert Z. generalize start. induction h as [|e h IH]; cbn [fold_left]; auto. intros s (A & B & C) F. inversion F as [|? ? FE FH]; subst. apply IH; auto.
  destruct e as [scale f input|d|l d|c]; cbn [step].
  - destruct (st_frame s input scale f) as ([G1 G2] & G3). split; [rewrite G2; auto|]. split; [lia|auto].
  - unfold alloc; cbn. split; [unfold cell; cbn; rewrite app_nth1; auto|]. rewrite app_length. cbn. split; [lia|auto].
  - split; [unfold cell, assign; cbn; rewrite cell_upd_ne; auto|]. cbn. rewrite upd_length. auto.
  - split; auto. split; auto. exact (proj1 (call_refines AlphasExact AlL2AlH AlH2AlL mMS2mMS mH2mL mL2mH false (qcd s) c C ltac:(discriminate))).
Qed.
Theorem st_pure h scale f input : Forall fair h -> valid (run h) input -> is_real scale = true -> is_int f = true ->
  typed_mass (option_map (cell (run h)) input) ->
  agree_store (run h) (get_parameters_st (run h) scale f input) (spec (option_map (cell (run h)) input) scale f).
Proof. intros F V R I T. destruct (run_inv h F) as (A & B & C). apply st_spec; auto. Qed.
Theorem st_unchanged s scale f input l : l < length (cells s) -> cell (snd (get_parameters_st s scale f input)) l = cell s l.
Proof. intros L. destruct (st_frame s input scale f) as ([_ G] & _). apply G. exact L. Qed.

(** ** The contents *)
Definition names14 : list string := ["m_b"; "m_s"; "alpha_s"; "m_W"; "m_Z"; "GF"; "alpha_e"; "Vus"; "Vub"; "Vcb"; "gamma"; "m_e"; "m_mu"; "m_tau"].
(** The user's value if there is one, otherwise the default. *)
Definition chosen (u : option pdict) (k : string) : option num :=
  match u with None => dget defaults k | Some d => match dget d k with Some v => Some v | None => dget defaults k end end.
Lemma dget_last_wf (u : pdict) k : wf u -> dget_last u k = dget u k.
Proof.
  intros W. rewrite <- (dict_of_wf u W) at 2. unfold dict_of. rewrite dget_dupdate. cbn. destruct (dget_last u k); auto.
Qed.
Lemma sub_chosen u k : (forall d, u = Some d -> wf d) -> sub (merged defaults u) k = match chosen u k with Some v => Ok v | None => Err KeyError end.
Proof.
  intros W. unfold sub, merged, chosen. destruct u as [d|]; auto. rewrite dget_dupdate, dget_last_wf by auto. destruct (dget d k); auto.
Qed.
Lemma mapM_subs p ks r : mapM (fun k => let! v := sub p k in Ok (k, v)) ks = Ok r -> map fst r = ks /\ forall k v, In (k, v) r -> sub p k = Ok v.
Proof.
  revert r. induction ks as [|k ks IH]; intros r E.
  - cbn in E. injection E as <-. simpl. tauto.
  - rewrite mapM_cons in E. destruct (sub p k) as [v|] eqn:S; cbn in E; [|discriminate]. destruct (mapM _ ks) as [r'|] eqn:Q; cbn in E; [|discriminate]. injection E as <-.
    destruct (IH r' eq_refl) as [A B]. split; [simpl; rewrite A; reflexivity|]. intros k' v' [I|I]; [congruence|auto].
Qed.
Lemma spec_ok u scale f d : (forall x, u = Some x -> wf x) -> spec u scale f = Ok d -> dkeys d = names14 /\
  (forall k, In k copied -> dget d k = chosen u k) /\
  exists m a s mb ms als, chosen u "m_b" = Some m /\ chosen u "alpha_s" = Some a /\ chosen u "m_s" = Some s /\
    eval (CMb m scale f (AsPos a)) = Ok mb /\ eval (CMs s scale f (AsPos a)) = Ok ms /\ eval (CAlpha scale f (AsPos a)) = Ok als /\
    dget d "m_b" = Some mb /\ dget d "m_s" = Some ms /\ dget d "alpha_s" = Some als.
Proof.
  intros W. unfold spec. rewrite !sub_chosen by exact W.
  destruct (chosen u "m_b") as [m|]; cbn [bind]; [|discriminate]. destruct (chosen u "alpha_s") as [a|]; cbn [bind]; [|discriminate].
  destruct (eval (CMb m scale f (AsPos a))) as [mb|] eqn:E1; cbn [bind]; [|discriminate].
  destruct (chosen u "m_s") as [s|]; cbn [bind]; [|discriminate].
  destruct (eval (CMs s scale f (AsPos a))) as [ms|] eqn:E2; cbn [bind]; [|discriminate].
  destruct (eval (CAlpha scale f (AsPos a))) as [als|] eqn:E3; cbn [bind]; [|discriminate].
  destruct (mapM _ copied) as [r|] eqn:E; cbn [bind]; [|discriminate]. intros H. injection H as <-.
  apply mapM_subs in E. destruct E as [K G].
  assert (dkeys (("m_b", mb) :: ("m_s", ms) :: ("alpha_s", als) :: r) = names14) as KK by (unfold dkeys; cbn [map fst]; rewrite K; reflexivity).
  assert (wf (("m_b", mb) :: ("m_s", ms) :: ("alpha_s", als) :: r)) as WF.
  { unfold wf. rewrite KK. unfold names14. repeat constructor; simpl; intuition discriminate. }
  split; [exact KK|]. split.
  - intros k I. assert (In k (map fst r)) as J by (rewrite K; exact I). apply in_map_iff in J. destruct J as ([k' v] & Q & J). cbn [fst] in Q. subst k'.
    rewrite (In_dget _ k v WF); [|simpl; auto]. specialize (G k v J). rewrite sub_chosen in G by exact W. destruct (chosen u k); congruence.
  - exists m, a, s, mb, ms, als. do 6 (split; [first [reflexivity|assumption]|]). split; [apply In_dget; simpl; auto|]. split; apply In_dget; simpl; auto.
Qed.
(** Only the fourteen names of the user's dictionary matter. *)
Lemma spec_ext u u' scale f : (forall x, u = Some x -> wf x) -> (forall x, u' = Some x -> wf x) ->
  (forall k, In k names14 -> chosen u k = chosen u' k) -> spec u scale f = spec u' scale f.
Proof.
  intros W W' E. assert (forall k, In k names14 -> sub (merged defaults u) k = sub (merged defaults u') k) as Q
    by (intros k I; rewrite !sub_chosen by auto; rewrite E; auto).
  unfold spec. rewrite !Q by (simpl; auto 20).
  destruct (sub (merged defaults u') "m_b"); cbn [bind]; auto. destruct (sub (merged defaults u') "alpha_s"); cbn [bind]; auto.
  destruct (eval _); cbn [bind]; auto. destruct (sub (merged defaults u') "m_s"); cbn [bind]; auto.
  destruct (eval _); cbn [bind]; auto. destruct (eval _); cbn [bind]; auto.
  rewrite (mapM_ext _ _ (fun k => let! v := sub (merged defaults u) k in Ok (k, v)) (fun k => let! v := sub (merged defaults u') k in Ok (k, v))); auto.
  intros k I. rewrite Q; auto. unfold names14. unfold copied in I. simpl in I |- *. tauto.
Qed.
(** The only error is the ValueError of util/qcd.py. *)
Lemma spec_errors u scale f : (exists d, spec u scale f = Ok d) \/ spec u scale f = Err ValueError.
Proof.
  unfold spec. destruct (sub_merged u "m_b") as (m & ->); [vm_compute; tauto|]. destruct (sub_merged u "alpha_s") as (a & ->); [vm_compute; tauto|].
  destruct (sub_merged u "m_s") as (m' & ->); [vm_compute; tauto|]. cbn [bind].
  destruct (eval_errors AlphasExact AlL2AlH AlH2AlL mMS2mMS mH2mL mL2mH (CMb m scale f (AsPos a))) as [(x & ->)| ->]; cbn [bind]; auto.
  destruct (eval_errors AlphasExact AlL2AlH AlH2AlL mMS2mMS mH2mL mL2mH (CMs m' scale f (AsPos a))) as [(y & ->)| ->]; cbn [bind]; auto.
  destruct (eval_errors AlphasExact AlL2AlH AlH2AlL mMS2mMS mH2mL mL2mH (CAlpha scale f (AsPos a))) as [(z & ->)| ->]; cbn [bind]; auto.
  assert (forall ks, (forall k, In k ks -> In k (dkeys defaults)) -> exists r, mapM (fun k => let! v := sub (merged defaults u) k in Ok (k, v)) ks = Ok r) as G.
  { induction ks as [|k ks IH]; intros I; [exists []; reflexivity|]. rewrite mapM_cons. destruct (sub_merged u k (I k (or_introl eq_refl))) as (v & ->).
    destruct IH as (r & ->); [intros; apply I; right; auto|]. cbn [bind]. eauto. }
  destruct (G copied) as (r & ->); [|cbn [bind]; eauto].
  intros k I. rewrite defaults_keys. unfold copied in I. simpl in I |- *. tauto.
Qed.
Lemma spec_total u scale f : (forall x, u = Some x -> wf x) -> scale_ok scale = true -> is_int f = true -> In (val f) [Fin 3; Fin 4; Fin 5] ->
  (forall m, chosen u "m_b" = Some m -> scale_ok m = true) -> exists d, spec u scale f = Ok d.
Proof.
  intros W S I F M. destruct (spec_errors u scale f) as [H|H]; auto. exfalso. revert H.
  unfold spec. destruct (sub_merged u "m_b") as (m & E); [vm_compute; tauto|]. rewrite E. destruct (sub_merged u "alpha_s") as (a & ->); [vm_compute; tauto|].
  destruct (sub_merged u "m_s") as (m' & ->); [vm_compute; tauto|]. cbn [bind].
  rewrite sub_chosen in E by exact W. assert (scale_ok m = true) as SM by (destruct (chosen u "m_b"); [apply M; congruence|discriminate]).
  assert (exists z, In z [3; 4; 5]%Z /\ val f = Fin (IZR z)) as (z & Z & VZ).
  { destruct F as [F|[F|[F|[]]]]; [exists 3%Z|exists 4%Z|exists 5%Z]; simpl; auto. }
  destruct (eval_good AlphasExact AlL2AlH AlH2AlL mMS2mMS mH2mL mL2mH (CMb m scale f (AsPos a))) as (x & ->); auto.
  { split; auto. exists z. split; auto. simpl in Z |- *. tauto. }
  destruct (eval_good AlphasExact AlL2AlH AlH2AlL mMS2mMS mH2mL mL2mH (CMs m' scale f (AsPos a))) as (y & ->); auto.
  { split; auto. exists z. split; auto. }
  destruct (eval_good AlphasExact AlL2AlH AlH2AlL mMS2mMS mH2mL mL2mH (CAlpha scale f (AsPos a))) as (w & ->); auto.
  { split; auto. exists z. split; auto. simpl in Z |- *. tauto. }
  cbn [bind]. assert (forall ks, (forall k, In k ks -> In k (dkeys defaults)) -> exists r, mapM (fun k => let! v := sub (merged defaults u) k in Ok (k, v)) ks = Ok r) as G.
  { induction ks as [|k ks IH]; intros J; [exists []; reflexivity|]. rewrite mapM_cons. destruct (sub_merged u k (J k (or_introl eq_refl))) as (v & ->).
    destruct IH as (r & ->); [intros; apply J; right; auto|]. cbn [bind]. eauto. }
  destruct (G copied) as (r & ->); [|cbn [bind]; discriminate].
  intros k J. rewrite defaults_keys. unfold copied in J. simpl in J |- *. tauto.
Qed.

(** ** The parameters of Wet.v.  There all numbers are finite: the three functions of
    util/qcd.py with f = 5, where an infinite or undefined result is an error. *)
Definition fin (r : res num) : res R :=
  match r with Ok x => match val x with Fin r => Ok r | _ => Err (UserError "not finite") end | Err e => Err e end.
Definition q_mb (m scale a : R) : res R := fin (eval (CMb (flt m) (flt scale) (int 5) (AsPos (flt a)))).
Definition q_ms (m scale a : R) : res R := fin (eval (CMs (flt m) (flt scale) (int 5) (AsPos (flt a)))).
Definition q_as (scale a : R) : res R := fin (eval (CAlpha (flt scale) (int 5) (AsPos (flt a)))).
Definition lift (p : params) : pdict := map (fun kv => (fst kv, flt (snd kv))) p.
Lemma dget_lift p k : dget (lift p) k = option_map flt (dget p k).
Proof. induction p as [|[k' v] r IH]; simpl; auto. destruct (keqb k k'); auto. Qed.
Lemma dget_last_lift p k : dget_last (lift p) k = option_map flt (dget_last p k).
Proof. induction p as [|[k' v] r IH]; simpl; auto. rewrite IH. destruct (dget_last r k); simpl; auto. destruct (keqb k k'); auto. Qed.
Lemma sub_lift input k : In k (dkeys default_parameters) -> sub (merged defaults (option_map lift input)) k = Ok (flt (param (merge_params input) k)).
Proof.
  intros I. destruct (merge_params_defined input k I) as (x & E). unfold param. rewrite E. rewrite merge_params_get in E.
  unfold sub, merged. destruct input as [u|]; cbn [option_map].
  - rewrite dget_dupdate, dget_last_lift. destruct (dget_last u k) as [y|]; cbn [option_map].
    + injection E as ->. reflexivity.
    + fold (lift default_parameters). change defaults with (lift default_parameters). rewrite dget_lift, E. reflexivity.
  - change defaults with (lift default_parameters). rewrite dget_lift, E. reflexivity.
Qed.
(** Both models agree. *)
Theorem wet_parameters scale input p : get_parameters q_mb q_ms q_as scale input = Ok p ->
  exists d, spec (option_map lift input) (flt scale) (int 5) = Ok d /\ same_dict d (lift p).
Proof.
  unfold get_parameters, q_mb, q_ms, q_as, spec. rewrite !sub_lift by (simpl; auto 20). cbn [bind].
  destruct (eval (CMb _ _ _ _)) as [mb|]; cbn [fin bind]; [|discriminate]. destruct (val mb) eqn:V1; cbn [bind]; try discriminate.
  destruct (eval (CMs _ _ _ _)) as [ms|]; cbn [fin bind]; [|discriminate]. destruct (val ms) eqn:V2; cbn [bind]; try discriminate.
  destruct (eval (CAlpha _ _ _)) as [als|]; cbn [fin bind]; [|discriminate]. destruct (val als) eqn:V3; cbn [bind]; try discriminate.
  intros H. injection H as <-.
  assert (forall ks, (forall k, In k ks -> In k (dkeys default_parameters)) ->
    mapM (fun k => let! v := sub (merged defaults (option_map lift input)) k in Ok (k, v)) ks = Ok (lift (map (fun k => (k, param (merge_params input) k)) ks))) as G.
  { induction ks as [|k ks IH]; intros I; [reflexivity|]. rewrite mapM_cons. rewrite sub_lift by (apply I; left; reflexivity). cbn [bind].
    rewrite IH by (intros; apply I; right; auto). reflexivity. }
  rewrite G by (intros k I; unfold copied in I; simpl in I |- *; tauto). cbn [bind]. eexists. split; [reflexivity|].
  cbn [lift map app fst snd]. repeat constructor; auto.
Qed.
Theorem wet_bad_scale scale input : (scale <= 0)%R -> scale <> param (merge_params input) "m_b" -> get_parameters q_mb q_ms q_as scale input = Err ValueError.
Proof.
  intros L N. unfold get_parameters, q_mb. rewrite (eval_bad_scale AlphasExact AlL2AlH AlH2AlL mMS2mMS mH2mL mL2mH (CMb _ _ _ _)); [reflexivity| |].
  - cbn. unfold Req_b. destruct (Req_EM_T scale (param (merge_params input) "m_b")); [contradiction|]. intros [X _]. discriminate.
  - unfold scale_ok. cbn. unfold Rle_b. destruct (Rle_dec scale 0); [reflexivity|contradiction].
Qed.

(** ** Statements about histories *)
Lemma typed_chosen u : (forall d, u = Some d -> wf d) -> (forall v, chosen u "m_b" = Some v -> is_real v = true) -> typed_mass u.
Proof. intros W H v E. rewrite sub_chosen in E by exact W. destruct (chosen u "m_b"); [apply H; congruence|discriminate]. Qed.
Lemma wf_cells s input : (forall u, input = Some u -> wf (cell s u)) -> forall d, option_map (cell s) input = Some d -> wf d.
Proof. intros W d E. destruct input as [u|]; [|discriminate]. injection E as <-. auto. Qed.
Lemma same_keys d e : same_dict d e -> dkeys d = dkeys e.
Proof. unfold dkeys. induction 1 as [|a b d e [A B] T IH]; simpl; congruence. Qed.
Lemma same_get d e k : same_dict d e -> option_map val (dget d k) = option_map val (dget e k).
Proof.
  induction 1 as [|[a x] [b y] d e [A B] T IH]; cbn [dget fst snd] in *; auto. subst b. destruct (keqb k a); [cbn; congruence|exact IH].
Qed.
Lemma same_trans d e g : same_dict d e -> same_dict e g -> same_dict d g.
Proof.
  intros A. revert g. induction A as [|a b d e [X Y] T IH]; intros g B; inversion B as [|? c ? g' [X' Y'] T']; subst; constructor.
  - split; congruence.
  - apply IH. exact T'.
Qed.
Lemma same_sym d e : same_dict d e -> same_dict e d.
Proof. induction 1 as [|a b d e [X Y] T IH]; constructor; auto. Qed.
Section Statements.
Variables (h : list event) (scale f : num) (input : option nat).
Hypothesis F : Forall fair h.
Hypothesis V : valid (run h) input.
Hypothesis RS : is_real scale = true.
Hypothesis IF_ : is_int f = true.
Hypothesis W : forall u, input = Some u -> wf (cell (run h) u).
Let u := option_map (cell (run h)) input.
Hypothesis M : forall v, chosen u "m_b" = Some v -> is_real v = true.
Lemma st_here : agree_store (run h) (get_parameters_st (run h) scale f input) (spec u scale f).
Proof. apply st_pure; auto. apply typed_chosen; auto. apply wf_cells. exact W. Qed.
Lemma result_st l s' : get_parameters_st (run h) scale f input = (Ok l, s') ->
  length (cells (run h)) <= l /\ dkeys (cell s' l) = names14 /\
  (forall k, In k copied -> option_map val (dget (cell s' l) k) = option_map val (chosen u k)) /\
  exists m a s mb ms als, chosen u "m_b" = Some m /\ chosen u "alpha_s" = Some a /\ chosen u "m_s" = Some s /\
    eval (CMb m scale f (AsPos a)) = Ok mb /\ eval (CMs s scale f (AsPos a)) = Ok ms /\ eval (CAlpha scale f (AsPos a)) = Ok als /\
    option_map val (dget (cell s' l) "m_b") = Some (val mb) /\ option_map val (dget (cell s' l) "m_s") = Some (val ms) /\
    option_map val (dget (cell s' l) "alpha_s") = Some (val als).
Proof.
  intros E. pose proof st_here as H. rewrite E in H. unfold agree_store in H. cbn [fst snd] in H. destruct (spec u scale f) as [d|e] eqn:Q; [|destruct H].
  destruct H as (L & _ & S). destruct (spec_ok u scale f d (wf_cells _ _ W) Q) as (K & C & m & a & s & mb & ms & als & X1 & X2 & X3 & X4 & X5 & X6 & X7 & X8 & X9).
  split; auto. split; [rewrite (same_keys _ _ S); exact K|]. split.
  - intros k I. rewrite (same_get _ _ k S), C by exact I. reflexivity.
  - exists m, a, s, mb, ms, als. do 6 (split; [assumption|]). rewrite !(same_get _ _ _ S), X7, X8, X9. auto.
Qed.
Lemma errors_st : (exists l, fst (get_parameters_st (run h) scale f input) = Ok l) \/ fst (get_parameters_st (run h) scale f input) = Err ValueError.
Proof.
  pose proof st_here as H. unfold agree_store in H. destruct (fst (get_parameters_st (run h) scale f input)) as [l|e]; [eauto|].
  destruct (spec_errors u scale f) as [(d & E)|E]; rewrite E in H; [destruct H|subst; auto].
Qed.
End Statements.
Lemma total_st h scale f input : Forall fair h -> valid (run h) input -> scale_ok scale = true -> is_int f = true -> In (val f) [Fin 3; Fin 4; Fin 5] ->
  (forall u, input = Some u -> wf (cell (run h) u)) ->
  (forall v, chosen (option_map (cell (run h)) input) "m_b" = Some v -> scale_ok v = true) ->
  exists l, fst (get_parameters_st (run h) scale f input) = Ok l.
Proof.
  intros F V S I N W M. assert (forall x, scale_ok x = true -> is_real x = true) as SR by (intros x; unfold scale_ok; destruct (is_real x); auto).
  pose proof (st_here h scale f input F V (SR _ S) I W (fun v E => SR _ (M v E))) as H. unfold agree_store in H.
  destruct (spec_total (option_map (cell (run h)) input) scale f (wf_cells _ _ W) S I N M) as (d & E). rewrite E in H.
  destruct (fst (get_parameters_st (run h) scale f input)) as [l|e]; [eauto|destruct H].
Qed.
Lemma ignored_st h h' scale f input input' l s l' s' : Forall fair h -> Forall fair h' -> valid (run h) input -> valid (run h') input' ->
  is_real scale = true -> is_int f = true ->
  (forall u, input = Some u -> wf (cell (run h) u)) -> (forall u, input' = Some u -> wf (cell (run h') u)) ->
  (forall k, In k names14 -> chosen (option_map (cell (run h)) input) k = chosen (option_map (cell (run h')) input') k) ->
  (forall v, chosen (option_map (cell (run h)) input) "m_b" = Some v -> is_real v = true) ->
  get_parameters_st (run h) scale f input = (Ok l, s) -> get_parameters_st (run h') scale f input' = (Ok l', s') -> same_dict (cell s l) (cell s' l').
Proof.
  intros F F' V V' RS I W W' C M E E'. pose proof (st_here h scale f input F V RS I W M) as A.
  assert (forall v, chosen (option_map (cell (run h')) input') "m_b" = Some v -> is_real v = true) as M' by (intros v Q; apply M; rewrite C; [exact Q|left; reflexivity]).
  pose proof (st_here h' scale f input' F' V' RS I W' M') as B. rewrite E in A. rewrite E' in B. unfold agree_store in A, B. cbn [fst snd] in A, B.
  rewrite (spec_ext _ _ scale f (wf_cells _ _ W) (wf_cells _ _ W') C) in A. destruct (spec (option_map (cell (run h')) input') scale f) as [d|]; [|destruct A].
  destruct A as (_ & _ & A). destruct B as (_ & _ & B). exact (same_trans _ _ _ A (same_sym _ _ B)).
Qed.
Lemma run_app h h' : run (h ++ h') = fold_left step h' (run h).
Proof. apply fold_left_app. Qed.
Lemma translators_st scale input p : get_parameters q_mb q_ms q_as scale input = Ok p ->
  forall h u, Forall fair h -> input = option_map (fun _ => u) input ->
  exists l, fst (get_parameters_st (run (h ++ [New (lift u)])) (flt scale) (int 5) (option_map (fun _ => length (cells (run h))) input)) = Ok l /\
  same_dict (cell (snd (get_parameters_st (run (h ++ [New (lift u)])) (flt scale) (int 5) (option_map (fun _ => length (cells (run h))) input))) l) (lift p).
Proof.
  intros E h u F IU. destruct (wet_parameters scale input p E) as (d & S & D). rewrite run_app. cbn [fold_left step].
  assert (option_map (cell (snd (alloc (run h) (lift u)))) (option_map (fun _ => length (cells (run h))) input) = option_map lift input) as Q.
  { rewrite IU. destruct input as [x|]; [|reflexivity]. cbn [option_map]. injection IU as ->. f_equal. unfold cell, alloc; cbn. rewrite app_nth2, Nat.sub_diag by lia. reflexivity. }
  pose proof (st_pure (h ++ [New (lift u)]) (flt scale) (int 5) (option_map (fun _ => length (cells (run h))) input)) as A.
  rewrite run_app in A. cbn [fold_left step] in A. rewrite Q, S in A. unfold agree_store in A.
  destruct (fst (get_parameters_st (snd (alloc (run h) (lift u))) (flt scale) (int 5) (option_map (fun _ => length (cells (run h))) input))) as [l|e].
  - exists l. split; auto. destruct A as (_ & _ & A); auto.
    + apply Forall_app. split; auto. repeat constructor.
    + intros x X. destruct input; [|discriminate]. injection X as <-. cbn. rewrite app_length. cbn. lia.
    + intros v X. rewrite sub_lift in X by (simpl; auto 20). injection X as <-. reflexivity.
    + exact (same_trans _ _ _ A D).
  - destruct A; auto.
    + apply Forall_app. split; auto. repeat constructor.
    + intros x X. destruct input; [|discriminate]. injection X as <-. cbn. rewrite app_length. cbn. lia.
    + intros v X. rewrite sub_lift in X by (simpl; auto 20). injection X as <-. reflexivity.
Qed.
End Rundec.
