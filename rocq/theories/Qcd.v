(** Model of wcxf/util/qcd.py: domain checks, dispatch on the number of flavours
    and the four lru_caches.  The numerical work is done by the external package
    rundec, whose five methods are Section variables: total functions of the
    numerical values of their arguments (loop = 3 is constant and left out). *)
From Coq Require Import String List Bool Arith ZArith Reals Lra Lia.
From Verif Require Import PyBase.
Import ListNotations.
Open Scope list_scope.
Open Scope nat_scope.

(** A Python number: its value, and its class as far as the code looks at it.
    [KOther]: a number that is neither int nor float (numpy integer, Fraction, ...). *)
Inductive fval := Fin (r : R) | PInf | NInf | NaN.
Inductive kind := KInt | KFloat | KOther.
Record num := Num { kd : kind; val : fval }.

Definition Req_b (a b : R) : bool := if Req_EM_T a b then true else false.
Definition Rle_b (a b : R) : bool := if Rle_dec a b then true else false.
(** [==] and [<=] on values *)
Definition feq (a b : fval) : bool :=
  match a, b with
  | Fin x, Fin y => Req_b x y
  | PInf, PInf | NInf, NInf => true
  | _, _ => false
  end.
Definition fle (a b : fval) : bool :=
  match a, b with
  | NaN, _ | _, NaN => false
  | NInf, _ | _, PInf => true
  | Fin x, Fin y => Rle_b x y
  | _, _ => false
  end.
Definition int (z : Z) : num := Num KInt (Fin (IZR z)).
Definition flt (r : R) : num := Num KFloat (Fin r).
Definition is_int (f : num) : bool := match kd f with KInt => true | _ => false end.
Definition is_real (s : num) : bool := match kd s with KOther => false | _ => true end.
Definition is_f (f : num) (z : Z) : bool := feq (val f) (Fin (IZR z)).

(** qcd.py 13 *)
Definition MZ : num := flt 91.1876.
Lemma val_MZ : val MZ = Fin 91.1876.
Proof. reflexivity. Qed.
#[local] Opaque MZ.
(** qcd.py 5-10 *)
Definition sane (scale f : num) : res unit :=
  if negb (is_real scale) || fle (val scale) (Fin 0) then Err ValueError
  else if negb (is_int f) && (fle (Fin 3) (val f) && fle (val f) (Fin 6)) then Err ValueError
  else Ok tt.

(** crd.nfMmu *)
Record thr := Thr { Mth : R; muth : R; nf : Z }.
Definition thr_t := Thr 170 170 6.
Definition thr_b := Thr 4.8 4.8 5.
Definition thr_c := Thr 1.3 1.3 4.

(** How the optional argument alphasMZ is passed; lru_cache keeps the three apart. *)
Inductive asarg := AsDefault | AsPos (a : num) | AsKw (a : num).
Definition as_val (a : asarg) : num :=
  match a with AsDefault => flt 0.1185 | AsPos x | AsKw x => x end.

(** Calls of the public functions.  Simplified: the other arguments are passed by
    position. *)
Inductive call :=
| CAlpha (scale f : num) (a : asarg)
| CMb (mbmb scale f : num) (a : asarg)
| CMc (mcmc scale f : num) (a : asarg)
| CMs (ms2 scale f : num) (a : asarg).

Section Rundec.
Variable AlphasExact : fval -> fval -> fval -> fval -> fval.
Variable AlL2AlH AlH2AlL : fval -> fval -> thr -> fval -> fval.
Variable mMS2mMS : fval -> fval -> fval -> fval -> fval.
Variable mH2mL mL2mH : fval -> fval -> fval -> thr -> fval -> fval.

Definition out (v : fval) : res num := Ok (Num KFloat v).

(** ** The functions without their caches *)
(** qcd.py 17-48 *)
Definition alpha_s (scale f : num) (a : asarg) : res num :=
  let aMZ := as_val a in
  if feq (val scale) (val MZ) && is_f f 5 then Ok aMZ else
  let! _ := sane scale f in
  if is_f f 5 then out (AlphasExact (val aMZ) (val MZ) (val scale) (val f))
  else if is_f f 6 then out (AlL2AlH (val aMZ) (val MZ) thr_t (val scale))
  else if is_f f 4 then out (AlH2AlL (val aMZ) (val MZ) thr_b (val scale))
  else if is_f f 3 then
    let asmc := AlH2AlL (val aMZ) (val MZ) thr_b (Fin 1.3) in
    out (AlH2AlL asmc (Fin 1.3) thr_c (val scale))
  else Err ValueError.

(** The mass functions, with the function they call for alpha_s and its state. *)
Section WithAlpha.
Context {S : Type}.
Variable alpha : S -> num -> num -> asarg -> res num * S.
Definition ret {A} (r : res A) (s : S) : res A * S := (r, s).
Definition sbind {A B} (m : res A * S) (k : A -> S -> res B * S) : res B * S :=
  match m with (Ok x, s) => k x s | (Err e, s) => (Err e, s) end.
(** qcd.py 52-86 *)
Definition m_b (s : S) (mbmb scale f : num) (a : asarg) : res num * S :=
  let kw := AsKw (as_val a) in
  if feq (val scale) (val mbmb) && is_f f 5 then ret (Ok mbmb) s else
  sbind (ret (sane scale f) s) (fun _ s =>
  sbind (alpha s mbmb (int 5) kw) (fun alphas_mb s =>
  if is_f f 5 then
    sbind (alpha s scale f kw) (fun alphas_scale s =>
    ret (out (mMS2mMS (val mbmb) (val alphas_mb) (val alphas_scale) (val f))) s)
  else if is_f f 4 then ret (out (mH2mL (val mbmb) (val alphas_mb) (val mbmb) thr_b (val scale))) s
  else if is_f f 3 then
    let mbmc := mH2mL (val mbmb) (val alphas_mb) (val mbmb) thr_b (Fin 1.3) in
    sbind (alpha s (flt 1.3) (int 4) kw) (fun alphas_mc s =>
    ret (out (mH2mL mbmc (val alphas_mc) (Fin 1.3) thr_c (val scale))) s)
  else if is_f f 6 then ret (out (mL2mH (val mbmb) (val alphas_mb) (val mbmb) thr_t (val scale))) s
  else ret (Err ValueError) s)).
(** qcd.py 90-113 *)
Definition m_c (s : S) (mcmc scale f : num) (a : asarg) : res num * S :=
  let kw := AsKw (as_val a) in
  if feq (val scale) (val mcmc) then ret (Ok mcmc) s else
  sbind (ret (sane scale f) s) (fun _ s =>
  sbind (alpha s mcmc (int 4) kw) (fun alphas_mc s =>
  if is_f f 4 then
    sbind (alpha s scale f kw) (fun alphas_scale s =>
    ret (out (mMS2mMS (val mcmc) (val alphas_mc) (val alphas_scale) (val f))) s)
  else if is_f f 3 then ret (out (mH2mL (val mcmc) (val alphas_mc) (val mcmc) thr_c (val scale))) s
  else if is_f f 5 then ret (out (mL2mH (val mcmc) (val alphas_mc) (val mcmc) thr_b (val scale))) s
  else ret (Err ValueError) s)).
(** qcd.py 117-146 *)
Definition m_s (s : S) (ms2 scale f : num) (a : asarg) : res num * S :=
  let kw := AsKw (as_val a) in
  if feq (val scale) (Fin 2) && is_f f 3 then ret (Ok ms2) s else
  sbind (ret (sane scale f) s) (fun _ s =>
  sbind (alpha s (int 2) (int 3) kw) (fun alphas_2 s =>
  if is_f f 3 then
    sbind (alpha s scale f kw) (fun alphas_scale s =>
    ret (out (mMS2mMS (val ms2) (val alphas_2) (val alphas_scale) (val f))) s)
  else if is_f f 4 then ret (out (mL2mH (val ms2) (val alphas_2) (Fin 2) thr_c (val scale))) s
  else if is_f f 5 then
    let msmc := mL2mH (val ms2) (val alphas_2) (Fin 2) thr_c (Fin 1.3) in
    sbind (alpha s (flt 1.3) (int 4) kw) (fun alphas_mc s =>
    ret (out (mL2mH msmc (val alphas_mc) (Fin 1.3) thr_b (val scale))) s)
  else ret (Err ValueError) s)).
End WithAlpha.

Definition alpha_pure (_ : unit) scale f a := (alpha_s scale f a, tt).
(** A call evaluated without any cache. *)
Definition eval (c : call) : res num :=
  match c with
  | CAlpha sc f a => alpha_s sc f a
  | CMb m sc f a => fst (m_b alpha_pure tt m sc f a)
  | CMc m sc f a => fst (m_c alpha_pure tt m sc f a)
  | CMs m sc f a => fst (m_s alpha_pure tt m sc f a)
  end.

(** ** The caches: functools.lru_cache(32), typed=False.  Keys compare by Python
    equality of the arguments.  Simplified: a NaN argument never hits (CPython
    also compares identities first, which can only return the value again). *)
Definition as_eq (a b : asarg) : bool :=
  match a, b with
  | AsDefault, AsDefault => true
  | AsPos x, AsPos y | AsKw x, AsKw y => feq (val x) (val y)
  | _, _ => false
  end.
Definition key := (list num * asarg)%type.
Fixpoint nums_eq (a b : list num) : bool :=
  match a, b with
  | [], [] => true
  | x :: s, y :: t => feq (val x) (val y) && nums_eq s t
  | _, _ => false
  end.
Definition key_eq (a b : key) : bool := nums_eq (fst a) (fst b) && as_eq (snd a) (snd b).
(** Most recently used first. *)
Definition cache := list (key * num).
Definition maxsize := 32.
Fixpoint lookup (c : cache) (k : key) : option (num * cache) :=
  match c with
  | [] => None
  | (k', v) :: t => if key_eq k' k then Some (v, (k', v) :: t)
                    else match lookup t k with
                         | Some (w, (h :: r)) => Some (w, h :: (k', v) :: r)
                         | Some (w, []) => Some (w, [(k', v)])
                         | None => None
                         end
  end.
Definition insert (c : cache) (k : key) (v : num) : cache := firstn maxsize ((k, v) :: c).
Record caches := Caches { c_alpha : cache; c_mb : cache; c_mc : cache; c_ms : cache }.
Definition no_caches := Caches [] [] [] [].

(** The wrapper: a hit moves the entry to the front; a miss calls the function
    and stores its result; an exception is not stored. *)
Definition cached (get : caches -> cache) (put : caches -> cache -> caches) (s : caches) (k : key)
    (body : caches -> res num * caches) : res num * caches :=
  match lookup (get s) k with
  | Some (v, c') => (Ok v, put s c')
  | None => match body s with
            | (Ok v, s') => (Ok v, put s' (insert (get s') k v))
            | (Err e, s') => (Err e, s')
            end
  end.
Definition put_alpha s c := Caches c (c_mb s) (c_mc s) (c_ms s).
Definition put_mb s c := Caches (c_alpha s) c (c_mc s) (c_ms s).
Definition put_mc s c := Caches (c_alpha s) (c_mb s) c (c_ms s).
Definition put_ms s c := Caches (c_alpha s) (c_mb s) (c_mc s) c.
Definition alpha_cached (s : caches) (scale f : num) (a : asarg) : res num * caches :=
  cached c_alpha put_alpha s ([scale; f], a) (fun s => (alpha_s scale f a, s)).
Definition call_cached (s : caches) (c : call) : res num * caches :=
  match c with
  | CAlpha sc f a => alpha_cached s sc f a
  | CMb m sc f a => cached c_mb put_mb s ([m; sc; f], a) (fun s => m_b alpha_cached s m sc f a)
  | CMc m sc f a => cached c_mc put_mc s ([m; sc; f], a) (fun s => m_c alpha_cached s m sc f a)
  | CMs m sc f a => cached c_ms put_ms s ([m; sc; f], a) (fun s => m_s alpha_cached s m sc f a)
  end.
Definition after (h : list call) : caches := fold_left (fun s c => snd (call_cached s c)) h no_caches.

(** * Domain *)
Definition c_scale (c : call) := match c with CAlpha s _ _ | CMb _ s _ _ | CMc _ s _ _ | CMs _ s _ _ => s end.
Definition c_f (c : call) := match c with CAlpha _ f _ | CMb _ _ f _ | CMc _ _ f _ | CMs _ _ f _ => f end.
(** The numbers of flavours each function implements. *)
Definition implements (c : call) : list Z :=
  match c with CAlpha _ _ _ | CMb _ _ _ _ => [3; 4; 5; 6]%Z | CMc _ _ _ _ | CMs _ _ _ _ => [3; 4; 5]%Z end.
(** Where a function returns its input unchanged. *)
Definition at_input (c : call) : Prop :=
  match c with
  | CAlpha s f _ => feq (val s) (val MZ) = true /\ is_f f 5 = true
  | CMb m s f _ => feq (val s) (val m) = true /\ is_f f 5 = true
  | CMc m s f _ => feq (val s) (val m) = true
  | CMs m s f _ => feq (val s) (Fin 2) = true /\ is_f f 3 = true
  end.
Definition input (c : call) : num :=
  match c with CAlpha _ _ a => as_val a | CMb m _ _ _ | CMc m _ _ _ | CMs m _ _ _ => m end.
(** A scale the functions accept: an int or float that is not <= 0 (so NaN and
    infinity pass). *)
Definition scale_ok (s : num) : bool := is_real s && negb (fle (val s) (Fin 0)).
(** The scale of the mass, at which alpha_s is evaluated first. *)
Definition start_ok (c : call) : bool :=
  match c with CMb m _ _ _ | CMc m _ _ _ => scale_ok m | _ => true end.
Definition f_ok (c : call) : Prop := is_int (c_f c) = true /\ exists z, In z (implements c) /\ val (c_f c) = Fin (IZR z).

Lemma is_f_iff f z : is_f f z = true <-> val f = Fin (IZR z).
Proof.
  unfold is_f, feq, Req_b. destruct (val f); try (split; discriminate).
  destruct (Req_EM_T r (IZR z)); split; intros H; try congruence; try discriminate.
Qed.
Lemma is_f_excl f y z : is_f f y = true -> y <> z -> is_f f z = false.
Proof.
  intros A N. destruct (is_f f z) eqn:B; auto. apply is_f_iff in A. apply is_f_iff in B.
  rewrite A in B. injection B as B. apply eq_IZR in B. contradiction.
Qed.
Lemma fle_fin a b : fle (Fin a) (Fin b) = true <-> (a <= b)%R.
Proof. simpl. unfold Rle_b. destruct (Rle_dec a b); split; auto; discriminate. Qed.
(** A number of flavours that is not an int but equal to 3..6 is rejected. *)
Lemma sane_float s f z : is_int f = false -> is_f f z = true -> (3 <= z <= 6)%Z -> sane s f = Err ValueError.
Proof.
  intros A B [L H]. unfold sane. destruct (negb (is_real s) || fle (val s) (Fin 0)); auto.
  apply is_f_iff in B. rewrite A, B.
  assert (fle (Fin 3) (Fin (IZR z)) = true) as -> by (apply fle_fin; apply IZR_le in L; exact L).
  assert (fle (Fin (IZR z)) (Fin 6) = true) as -> by (apply fle_fin; apply IZR_le in H; exact H).
  reflexivity.
Qed.
Lemma sane_scale s f : scale_ok s = false -> sane s f = Err ValueError.
Proof.
  unfold scale_ok, sane. destruct (is_real s); simpl; auto. destruct (fle (val s) (Fin 0)); simpl; auto. discriminate.
Qed.
Lemma sane_int s f : scale_ok s = true -> is_int f = true -> sane s f = Ok tt.
Proof.
  unfold scale_ok, sane. rewrite andb_true_iff, negb_true_iff. intros [-> ->] ->. reflexivity.
Qed.
Lemma sane_cases s f : sane s f = Ok tt \/ sane s f = Err ValueError.
Proof. unfold sane. destruct (_ || _); auto. destruct (_ && _); auto. Qed.

Lemma alpha_ok s f a : scale_ok s = true -> is_int f = true -> In (val f) (map (fun z => Fin (IZR z)) [3;4;5;6]%Z) ->
  exists r, alpha_s s f a = Ok r.
Proof.
  intros S I F. unfold alpha_s. destruct (feq (val s) (val MZ) && is_f f 5); eauto.
  rewrite sane_int by auto. simpl.
  simpl in F. destruct F as [F|[F|[F|[F|[]]]]]; symmetry in F; apply is_f_iff in F; rewrite ?F.
  - rewrite (is_f_excl f 3 5), (is_f_excl f 3 6), (is_f_excl f 3 4) by (auto; lia). unfold out. eauto.
  - rewrite (is_f_excl f 4 5), (is_f_excl f 4 6) by (auto; lia). unfold out. eauto.
  - unfold out. eauto.
  - rewrite (is_f_excl f 6 5) by (auto; lia). unfold out. eauto.
Qed.
Lemma alpha_err s f a : (exists r, alpha_s s f a = Ok r) \/ alpha_s s f a = Err ValueError.
Proof.
  unfold alpha_s. destruct (_ && _); eauto. destruct (sane_cases s f) as [-> | ->]; simpl; auto.
  unfold out. destruct (is_f f 5); eauto. destruct (is_f f 6); eauto. destruct (is_f f 4); eauto.
  destruct (is_f f 3); eauto.
Qed.
Lemma alpha_int_in z : In z [3;4;5;6]%Z -> In (val (int z)) (map (fun z => Fin (IZR z)) [3;4;5;6]%Z).
Proof. intros H. apply (in_map (fun z => Fin (IZR z)) _ _ H). Qed.
Lemma alpha_int_bad s z a : scale_ok s = false -> (feq (val s) (val MZ) && is_f (int z) 5 = false) ->
  alpha_s s (int z) a = Err ValueError.
Proof. intros A B. unfold alpha_s. rewrite B, sane_scale by auto. reflexivity. Qed.

Lemma MZ_ok s : is_real s = true -> feq (val s) (val MZ) = true -> scale_ok s = true.
Proof.
  unfold scale_ok. rewrite val_MZ. destruct (val s) eqn:E; simpl; try discriminate. unfold Req_b. destruct (Req_EM_T r 91.1876); [|discriminate].
  intros -> _. subst. assert (Rle_b 91.1876 0 = false) as ->; auto. unfold Rle_b. destruct (Rle_dec 91.1876 0); auto. lra.
Qed.
Lemma eval_errors c : (exists r, eval c = Ok r) \/ eval c = Err ValueError.
Proof.
  destruct c as [s f a|m s f a|m s f a|m s f a]; simpl; [apply alpha_err| | |];
    unfold m_b, m_c, m_s, sbind, ret, alpha_pure, out;
    repeat match goal with
      | |- context [if ?b then _ else _] => destruct b; simpl; eauto
      | |- context [sane ?x ?y] => destruct (sane_cases x y) as [-> | ->]; simpl; eauto
      | |- context [alpha_s ?x ?y ?z] => destruct (alpha_err x y z) as [[? ->] | ->]; simpl; eauto
      end.
Qed.
Lemma eval_at_input c : at_input c -> eval c = Ok (input c).
Proof.
  destruct c as [s f a|m s f a|m s f a|m s f a]; simpl.
  - intros [A B]. unfold alpha_s. rewrite A, B. reflexivity.
  - intros [A B]. unfold m_b. rewrite A, B. reflexivity.
  - intros A. unfold m_c. rewrite A. reflexivity.
  - intros [A B]. unfold m_s. rewrite A, B. reflexivity.
Qed.
Definition at_input_b (c : call) : bool :=
  match c with
  | CAlpha s f _ => feq (val s) (val MZ) && is_f f 5
  | CMb m s f _ => feq (val s) (val m) && is_f f 5
  | CMc m s f _ => feq (val s) (val m)
  | CMs m s f _ => feq (val s) (Fin 2) && is_f f 3
  end.
Lemma at_input_iff c : at_input_b c = true <-> at_input c.
Proof. destruct c; simpl; rewrite ?andb_true_iff; tauto. Qed.
(** Away from the starting point, a bad scale or number of flavours is an error. *)
Lemma eval_bad_scale c : ~ at_input c -> scale_ok (c_scale c) = false -> eval c = Err ValueError.
Proof.
  rewrite <- at_input_iff. intros N B. apply not_true_is_false in N.
  destruct c as [s f a|m s f a|m s f a|m s f a]; simpl in *; unfold alpha_s, m_b, m_c, m_s; rewrite N, sane_scale by auto; reflexivity.
Qed.
Lemma eval_bad_f c : ~ at_input c -> ~ f_ok c -> eval c = Err ValueError.
Proof.
  rewrite <- at_input_iff. intros N B. apply not_true_is_false in N.
  assert (forall f z, c_f c = f -> is_int f = true -> is_f f z = true -> In z (implements c) -> False) as G.
  { intros f z E I F Z. apply B. split; [congruence|]. exists z. split; auto. rewrite E. apply is_f_iff; auto. }
  assert (forall s f, c_f c = f -> sane s f = Ok tt -> forall z, In z (implements c) -> is_f f z = false) as F.
  { intros s f E A z Z. destruct (is_f f z) eqn:Q; auto. exfalso. destruct (is_int f) eqn:I; [eapply G; eauto|].
    rewrite (sane_float s f z) in A; auto; try discriminate. destruct c; simpl in Z; lia. }
  destruct c as [s f a|m s f a|m s f a|m s f a]; simpl in *; unfold alpha_s, m_b, m_c, m_s; rewrite N;
    unfold sbind, ret, alpha_pure; destruct (sane_cases s f) as [E | E]; rewrite E; simpl; auto;
    pose proof (F s f eq_refl E) as H; clear F G.
  - rewrite (H 5%Z), (H 6%Z), (H 4%Z), (H 3%Z) by (simpl; tauto). reflexivity.
  - destruct (alpha_err m (int 5) (AsKw (as_val a))) as [[? ->] | ->]; auto.
    rewrite (H 5%Z), (H 6%Z), (H 4%Z), (H 3%Z) by (simpl; tauto). reflexivity.
  - destruct (alpha_err m (int 4) (AsKw (as_val a))) as [[? ->] | ->]; auto.
    rewrite (H 5%Z), (H 4%Z), (H 3%Z) by (simpl; tauto). reflexivity.
  - destruct (alpha_err (int 2) (int 3) (AsKw (as_val a))) as [[? ->] | ->]; auto.
    rewrite (H 5%Z), (H 4%Z), (H 3%Z) by (simpl; tauto). reflexivity.
Qed.
Lemma two_ok : scale_ok (int 2) = true.
Proof. unfold scale_ok. simpl. unfold Rle_b. destruct (Rle_dec 2 0); auto. lra. Qed.
Lemma c13_ok : scale_ok (flt 1.3) = true.
Proof. unfold scale_ok. simpl. unfold Rle_b. destruct (Rle_dec 1.3 0); auto. lra. Qed.
(** Everything else is a number. *)
Lemma eval_good c : scale_ok (c_scale c) = true -> start_ok c = true -> f_ok c -> exists r, eval c = Ok r.
Proof.
  intros S T (I & z & Z & V).
  assert (forall s f a, scale_ok s = true -> is_int f = true -> val f = Fin (IZR z) -> exists r, alpha_s s f a = Ok r) as A.
  { intros s f a Hs Hi Hv. apply alpha_ok; auto. rewrite Hv. apply alpha_int_in. destruct c; simpl in Z |- *; tauto. }
  assert (forall s y a, scale_ok s = true -> In y [3;4;5;6]%Z -> exists r, alpha_s s (int y) a = Ok r) as Y.
  { intros s y a Hs Hy. apply alpha_ok; auto. apply alpha_int_in; auto. }
  assert (forall y, is_f (c_f c) y = Z.eqb z y) as F.
  { intros y. destruct (Z.eqb_spec z y) as [->|N]; [apply is_f_iff; auto|]. apply is_f_excl with z; auto. apply is_f_iff; auto. }
  destruct c as [s f a|m s f a|m s f a|m s f a]; simpl in *; [apply A; auto| | |];
    unfold m_b, m_c, m_s, sbind, ret, alpha_pure; rewrite ?F; rewrite sane_int by auto.
  - destruct (feq (val s) (val m) && (z =? 5)%Z); simpl; [eauto|].
    destruct (Y m 5%Z (AsKw (as_val a)) T ltac:(simpl; tauto)) as [x ->].
    destruct (A s f (AsKw (as_val a)) S I V) as [y ->]. 
    destruct (Y (flt 1.3) 4%Z (AsKw (as_val a)) c13_ok ltac:(simpl; tauto)) as [w ->].
    destruct Z as [<-|[<-|[<-|[<-|[]]]]]; simpl; unfold out; eauto.
  - destruct (feq (val s) (val m)); simpl; [eauto|].
    destruct (Y m 4%Z (AsKw (as_val a)) T ltac:(simpl; tauto)) as [x ->].
    destruct (A s f (AsKw (as_val a)) S I V) as [y ->]. 
    destruct Z as [<-|[<-|[<-|[]]]]; simpl; unfold out; eauto.
  - destruct (feq (val s) (Fin 2) && (z =? 3)%Z); simpl; [eauto|].
    destruct (Y (int 2) 3%Z (AsKw (as_val a)) two_ok ltac:(simpl; tauto)) as [x ->].
    destruct (A s f (AsKw (as_val a)) S I V) as [y ->]. 
    destruct (Y (flt 1.3) 4%Z (AsKw (as_val a)) c13_ok ltac:(simpl; tauto)) as [w ->].
    destruct Z as [<-|[<-|[<-|[]]]]; simpl; unfold out; eauto.
Qed.

(** * Caching *)
Lemma feq_val x y : feq x y = true -> x = y.
Proof. destruct x, y; simpl; try discriminate; auto. unfold Req_b. destruct (Req_EM_T r r0); [congruence|discriminate]. Qed.

(** The same function and the same numerical arguments. *)
Definition same_as (a b : asarg) : Prop := val (as_val a) = val (as_val b).
Definition same_call (c d : call) : Prop :=
  match c, d with
  | CAlpha s f a, CAlpha s' f' a' => val s = val s' /\ val f = val f' /\ same_as a a'
  | CMb m s f a, CMb m' s' f' a' | CMc m s f a, CMc m' s' f' a' | CMs m s f a, CMs m' s' f' a' =>
      val m = val m' /\ val s = val s' /\ val f = val f' /\ same_as a a'
  | _, _ => False
  end.
(** int number of flavours, int or float scales *)
Definition typed (c : call) : Prop :=
  is_int (c_f c) = true /\ is_real (c_scale c) = true /\
  match c with CMb m _ _ _ | CMc m _ _ _ => is_real m = true | _ => True end.
Definition agree (r r' : res num) : Prop :=
  match r, r' with Ok x, Ok y => val x = val y | Err e, Err e' => e = e' | _, _ => False end.

Lemma sane_same s f s' f' : val s = val s' -> val f = val f' -> is_int f' = true -> is_real s' = true ->
  sane s f = Ok tt -> sane s' f' = Ok tt.
Proof.
  unfold sane. intros -> -> -> ->. simpl. destruct (negb (is_real s) || fle (val s') (Fin 0)) eqn:E; [discriminate|].
  apply orb_false_iff in E as [_ ->]. reflexivity.
Qed.
Lemma is_f_same f f' z : val f = val f' -> is_f f z = is_f f' z.
Proof. unfold is_f. intros ->. reflexivity. Qed.

Lemma alpha_same s f a s' f' a' r : val s = val s' -> val f = val f' -> same_as a a' ->
  is_int f' = true -> is_real s' = true -> alpha_s s f a = Ok r ->
  exists r', alpha_s s' f' a' = Ok r' /\ val r = val r'.
Proof.
  intros S F A I T. unfold alpha_s. rewrite S, (is_f_same f f' 5 F), (is_f_same f f' 6 F), (is_f_same f f' 4 F), (is_f_same f f' 3 F), F, A.
  destruct (feq (val s') (val MZ) && is_f f' 5).
  - intros H; injection H as <-. eauto.
  - destruct (sane_cases s f) as [E|E]; rewrite E; simpl; [|discriminate].
    rewrite (sane_same s f s' f') by auto. simpl. unfold out.
    destruct (is_f f' 5); [intros H; injection H as <-; eauto|].
    destruct (is_f f' 6); [intros H; injection H as <-; eauto|].
    destruct (is_f f' 4); [intros H; injection H as <-; eauto|].
    destruct (is_f f' 3); [intros H; injection H as <-; eauto|]. discriminate.
Qed.

(** Any two calls of the same function with equal arguments, the first of which
    succeeded, agree if the second is well typed. *)
Lemma eval_same c d r : same_call c d -> typed d -> eval c = Ok r -> exists r', eval d = Ok r' /\ val r = val r'.
Proof.
  destruct c as [s f a|m s f a|m s f a|m s f a], d as [s' f' a'|m' s' f' a'|m' s' f' a'|m' s' f' a'];
    simpl same_call; try tauto; unfold typed; cbn [c_f c_scale eval].
  - intros (A & B & D) (I & T & _). apply alpha_same; auto.
  - intros (M & A & B & D) (I & T & U). unfold m_b, sbind, ret, alpha_pure, out.
    rewrite M, A, !(is_f_same f f' _ B). destruct (_ && _); [cbn; intros H; injection H as <-; eauto|].
    destruct (sane_cases s f) as [E|E]; rewrite E; [|discriminate]. rewrite (sane_same s f s' f') by auto.
    destruct (alpha_s m (int 5) (AsKw (as_val a))) as [x|] eqn:E1; [|discriminate].
    destruct (alpha_same m (int 5) _ m' (int 5) (AsKw (as_val a')) x M eq_refl D eq_refl U E1) as (x' & -> & ->).
    destruct (is_f f' 5).
    { destruct (alpha_s s f (AsKw (as_val a))) as [y|] eqn:E2; [|discriminate].
      destruct (alpha_same s f _ s' f' (AsKw (as_val a')) y A B D I T E2) as (y' & -> & ->).
      cbn. rewrite B. intros H; injection H as <-. eauto. }
    destruct (is_f f' 4); [cbn; intros H; injection H as <-; eauto|].
    destruct (is_f f' 3).
    { destruct (alpha_s (flt 1.3) (int 4) (AsKw (as_val a))) as [y|] eqn:E2; [|discriminate].
      destruct (alpha_same _ _ _ (flt 1.3) (int 4) (AsKw (as_val a')) y eq_refl eq_refl D eq_refl eq_refl E2) as (y' & -> & ->).
      cbn. intros H; injection H as <-. eauto. }
    destruct (is_f f' 6); cbn; [intros H; injection H as <-; eauto|]. discriminate.
  - intros (M & A & B & D) (I & T & U). unfold m_c, sbind, ret, alpha_pure, out.
    rewrite M, A, !(is_f_same f f' _ B). destruct (feq _ _); [cbn; intros H; injection H as <-; eauto|].
    destruct (sane_cases s f) as [E|E]; rewrite E; [|discriminate]. rewrite (sane_same s f s' f') by auto.
    destruct (alpha_s m (int 4) (AsKw (as_val a))) as [x|] eqn:E1; [|discriminate].
    destruct (alpha_same m (int 4) _ m' (int 4) (AsKw (as_val a')) x M eq_refl D eq_refl U E1) as (x' & -> & ->).
    destruct (is_f f' 4).
    { destruct (alpha_s s f (AsKw (as_val a))) as [y|] eqn:E2; [|discriminate].
      destruct (alpha_same s f _ s' f' (AsKw (as_val a')) y A B D I T E2) as (y' & -> & ->).
      cbn. rewrite B. intros H; injection H as <-. eauto. }
    destruct (is_f f' 3); [cbn; intros H; injection H as <-; eauto|].
    destruct (is_f f' 5); cbn; [intros H; injection H as <-; eauto|]. discriminate.
  - intros (M & A & B & D) (I & T & U). unfold m_s, sbind, ret, alpha_pure, out.
    rewrite A, !(is_f_same f f' _ B). destruct (_ && _); [cbn; intros H; injection H as <-; eauto|].
    destruct (sane_cases s f) as [E|E]; rewrite E; [|discriminate]. rewrite (sane_same s f s' f') by auto.
    destruct (alpha_s (int 2) (int 3) (AsKw (as_val a))) as [x|] eqn:E1; [|discriminate].
    destruct (alpha_same (int 2) (int 3) _ (int 2) (int 3) (AsKw (as_val a')) x eq_refl eq_refl D eq_refl eq_refl E1) as (x' & -> & ->).
    rewrite M. destruct (is_f f' 3).
    { destruct (alpha_s s f (AsKw (as_val a))) as [y|] eqn:E2; [|discriminate].
      destruct (alpha_same s f _ s' f' (AsKw (as_val a')) y A B D I T E2) as (y' & -> & ->).
      cbn. rewrite B. intros H; injection H as <-. eauto. }
    destruct (is_f f' 4); [cbn; intros H; injection H as <-; eauto|].
    destruct (is_f f' 5).
    { destruct (alpha_s (flt 1.3) (int 4) (AsKw (as_val a))) as [y|] eqn:E2; [|discriminate].
      destruct (alpha_same _ _ _ (flt 1.3) (int 4) (AsKw (as_val a')) y eq_refl eq_refl D eq_refl eq_refl E2) as (y' & -> & ->).
      cbn. intros H; injection H as <-. eauto. }
    discriminate.
Qed.

(** What an entry of a cache is worth: some well-typed call with these argument
    values has that value. *)
Definition call_key (c : call) : key :=
  match c with CAlpha s f a => ([s; f], a) | CMb m s f a | CMc m s f a | CMs m s f a => ([m; s; f], a) end.
Definition which (c : call) : nat :=
  match c with CAlpha _ _ _ => 0 | CMb _ _ _ _ => 1 | CMc _ _ _ _ => 2 | CMs _ _ _ _ => 3 end.
Definition same_key (a b : key) : Prop := map val (fst a) = map val (fst b) /\ same_as (snd a) (snd b).
Definition sound (n : nat) (c : cache) : Prop :=
  forall k v, In (k, v) c -> exists d r, which d = n /\ same_key (call_key d) k /\ typed d /\ eval d = Ok r /\ val r = val v.
Definition all_sound (s : caches) : Prop :=
  sound 0 (c_alpha s) /\ sound 1 (c_mb s) /\ sound 2 (c_mc s) /\ sound 3 (c_ms s).

Lemma lookup_In c k v c' : lookup c k = Some (v, c') ->
  (exists k', key_eq k' k = true /\ In (k', v) c) /\ (forall e, In e c' <-> In e c) /\ length c' = length c.
Proof.
  revert v c'. induction c as [|[k1 v1] t IH]; simpl; [discriminate|]. intros v c'.
  destruct (key_eq k1 k) eqn:E.
  - intros H; injection H as <- <-. split; [eauto|]. split; [simpl; tauto|]. auto.
  - destruct (lookup t k) as [[w [|h r]]|] eqn:L; try discriminate; intros H; injection H as <- <-;
      destruct (IH _ _ eq_refl) as ((k' & A & B) & C & D).
    + simpl in D. destruct t; [destruct B|discriminate].
    + split; [eauto|]. split.
      * intros e. specialize (C e). simpl in *. rewrite <- C. tauto.
      * simpl in *; lia.
Qed.
Lemma nums_eq_vals a b : nums_eq a b = true -> map val a = map val b.
Proof.
  revert b; induction a as [|x s IH]; intros [|y t]; simpl; try discriminate; auto.
  rewrite andb_true_iff. intros [A B]. rewrite (feq_val _ _ A), (IH _ B). reflexivity.
Qed.
Lemma as_eq_same a b : as_eq a b = true -> same_as a b.
Proof. unfold same_as. destruct a, b; simpl; try discriminate; auto; apply feq_val. Qed.
Lemma key_eq_same a b : key_eq a b = true -> same_key a b.
Proof.
  unfold key_eq. rewrite andb_true_iff. intros [A B]. split; [apply nums_eq_vals | apply as_eq_same]; auto.
Qed.
Lemma same_key_trans a b c : same_key a b -> same_key b c -> same_key a c.
Proof. unfold same_key, same_as. intros [-> ->] [-> ->]. auto. Qed.
Lemma key_same c d : which c = which d -> same_key (call_key c) (call_key d) -> same_call c d.
Proof.
  intros W [A B]. destruct c, d; simpl in *; try discriminate; injection A; intros; auto.
Qed.
Lemma lookup_sound n c k v c' : sound n c -> lookup c k = Some (v, c') ->
  sound n c' /\ exists d r, which d = n /\ same_key (call_key d) k /\ typed d /\ eval d = Ok r /\ val r = val v.
Proof.
  intros S L. apply lookup_In in L as ((k' & A & B) & C & _). split.
  - intros k2 v2 H. apply S. apply C. auto.
  - destruct (S _ _ B) as (d & r & W & K & T & E & V). exists d, r. split; auto. split; auto.
    eapply same_key_trans; eauto. apply key_eq_same; auto.
Qed.
Lemma insert_sound n c k v d r : sound n c -> which d = n -> same_key (call_key d) k -> typed d -> eval d = Ok r -> val r = val v ->
  sound n (insert c k v).
Proof.
  intros S W K T E V k2 v2 H. unfold insert in H.
  assert (forall (A : Type) m (l : list A) x, In x (firstn m l) -> In x l) as F.
  { intros A m l x Hx. rewrite <- (firstn_skipn m l). apply in_or_app; auto. }
  apply F in H. destruct H as [H|H]; [|auto]. injection H as <- <-. eauto 10.
Qed.

(** The same call with a float scale and an int number of flavours. *)
Definition tf (x : num) := Num KFloat (val x).
Definition ti (x : num) := Num KInt (val x).
Definition retype (c : call) : call :=
  match c with
  | CAlpha s f a => CAlpha (tf s) (ti f) a
  | CMb m s f a => CMb (tf m) (tf s) (ti f) a
  | CMc m s f a => CMc (tf m) (tf s) (ti f) a
  | CMs m s f a => CMs (tf m) (tf s) (ti f) a
  end.
Lemma retype_typed c : typed (retype c).
Proof. destruct c; repeat split. Qed.
Lemma retype_same c : same_call (retype c) c.
Proof. destruct c; simpl; unfold same_as; auto. Qed.
Lemma same_call_sym c d : same_call c d -> same_call d c.
Proof. destruct c, d; simpl; unfold same_as; intuition. Qed.
Lemma retype_key c : same_key (call_key (retype c)) (call_key c).
Proof. destruct c; repeat split. Qed.
Lemma retype_which c : which (retype c) = which c.
Proof. destruct c; reflexivity. Qed.

(** [x] has run with caches, [y] without; with [strict] they agree, otherwise a
    success of [x] is a success of [y]. *)
Definition keeps (s0 s : caches) : Prop := c_mb s = c_mb s0 /\ c_mc s = c_mc s0 /\ c_ms s = c_ms s0.
Definition refines (strict : bool) (s0 : caches) (x : res num * caches) (y : res num) : Prop :=
  all_sound (snd x) /\ keeps s0 (snd x) /\
  match fst x, y with
  | Ok a, Ok b => val a = val b
  | Err e, Err e' => strict = true -> e = e'
  | Err _, Ok _ => strict = false
  | Ok _, Err _ => False
  end.
Lemma keeps_refl s : keeps s s.
Proof. repeat split. Qed.
Lemma eval_typed_agree c d : same_call c d -> typed c -> typed d -> agree (eval c) (eval d).
Proof.
  intros S T U. destruct (eval c) as [r|e] eqn:E.
  - destruct (eval_same c d r S U E) as (r' & -> & V). exact V.
  - destruct (eval d) as [r|e'] eqn:E'.
    + destruct (eval_same d c r (same_call_sym _ _ S) T E') as (r' & H & _). congruence.
    + simpl. destruct (eval_errors c) as [[r H]|H], (eval_errors d) as [[r2 H2]|H2]; congruence.
Qed.
Lemma agree_refl r : agree r r.
Proof. destruct r; simpl; auto. Qed.

Lemma refines_alpha strict s0 s sc f a sc' f' a' : all_sound s -> keeps s0 s ->
  typed (CAlpha sc' f' a') -> same_call (CAlpha sc f a) (CAlpha sc' f' a') ->
  (strict = true -> typed (CAlpha sc f a)) ->
  refines strict s0 (alpha_cached s sc f a) (alpha_s sc' f' a').
Proof.
  intros (A & B & C & D) K T' S T. unfold alpha_cached, cached.
  destruct (lookup (c_alpha s) ([sc; f], a)) as [[v c']|] eqn:L.
  - destruct (lookup_sound _ _ _ _ _ A L) as (A' & d & r & W & Q & Td & E & V). unfold refines. cbn [fst snd].
    split; [unfold all_sound; cbn; auto|]. split; [exact K|].
    destruct (eval_same d (CAlpha sc' f' a') r) as (r' & E' & V'); auto.
    { pose proof (key_same d (CAlpha sc f a) W Q) as Z. destruct d; simpl in Z, S |- *; try tauto.
      unfold same_as in *. intuition congruence. }
    cbn [eval] in E'. rewrite E'. congruence.
  - cbn. destruct (alpha_s sc f a) as [v|e] eqn:E; cbn.
    + destruct (eval_same (CAlpha sc f a) (CAlpha sc' f' a') v S T' E) as (r' & E' & V').
      cbn [eval] in E'. split; [|split; [exact K|]]; cbn.
      * split; [|auto].
        destruct (eval_same (CAlpha sc f a) (retype (CAlpha sc f a)) v
                    (same_call_sym _ _ (retype_same _)) (retype_typed _) E) as (w & Ew & Vw).
        apply (insert_sound 0 _ _ _ (retype (CAlpha sc f a)) w); auto.
        { apply (retype_key (CAlpha sc f a)). } { apply retype_typed. }
      * rewrite E'. exact V'.
    + split; [unfold all_sound; auto|]. split; [exact K|]. cbn.
      destruct strict.
      * pose proof (eval_typed_agree (CAlpha sc f a) (CAlpha sc' f' a') S (T eq_refl) T') as G. cbn [eval] in G.
        rewrite E in G. destruct (alpha_s sc' f' a'); simpl in G; [tauto|auto].
      * destruct (alpha_s sc' f' a'); auto. discriminate.
Qed.
Lemma refines_ret strict s0 s r r' : all_sound s -> keeps s0 s -> agree r r' -> refines strict s0 (ret r s) (fst (ret r' tt)).
Proof. intros S F A. split; [|split]; auto. unfold agree in A. simpl. destruct r, r'; auto; tauto. Qed.
Lemma refines_err s0 s y : all_sound s -> keeps s0 s -> refines false s0 (ret (Err ValueError) s) y.
Proof. intros S K. split; [|split]; auto. simpl. destruct y; auto. discriminate. Qed.
Lemma refines_bind strict s0 (x : res num * caches) (y : res num) (k : num -> caches -> res num * caches) (k' : num -> unit -> res num * unit) :
  refines strict s0 x y ->
  (forall a b s, val a = val b -> all_sound s -> keeps s0 s -> refines strict s0 (k a s) (fst (k' b tt))) ->
  refines strict s0 (sbind x k) (fst (sbind (y, tt) k')).
Proof.
  intros (S & F & M) H. unfold sbind. destruct x as [[a|e] s]; cbn [fst snd] in *; destruct y as [b|e']; try tauto.
  - apply H; auto.
  - unfold refines. cbn. split; auto. split; auto. subst strict. destruct (fst (k' b tt)); auto. discriminate.
  - unfold refines. cbn. auto.
Qed.
(** The check of the arguments. *)
Lemma refines_sane strict s0 s sc f (k : unit -> caches -> res num * caches) (k' : unit -> unit -> res num * unit) :
  all_sound s -> keeps s0 s -> (strict = true -> is_real sc = true /\ is_int f = true) ->
  (sane sc f = Ok tt -> refines strict s0 (k tt s) (fst (k' tt tt))) ->
  refines strict s0 (sbind (ret (sane sc f) s) k) (fst (sbind (ret (sane (tf sc) (ti f)) tt) k')).
Proof.
  intros S K T H. destruct (sane_cases sc f) as [E|E].
  - rewrite E, (sane_same sc f (tf sc) (ti f)) by auto. cbn. auto.
  - rewrite E. cbn. destruct strict.
    + destruct (T eq_refl) as [A B]. destruct (sane_cases (tf sc) (ti f)) as [E'|E']; rewrite E'; cbn.
      * rewrite (sane_same (tf sc) (ti f) sc f) in E by auto. discriminate.
      * apply refines_ret with (r := Err ValueError) (r' := Err ValueError); auto. apply agree_refl.
    + apply refines_err; auto.
Qed.
Lemma sane_real s f : sane s f = Ok tt -> is_real s = true.
Proof. unfold sane. destruct (is_real s); auto. discriminate. Qed.
Lemma sane_isint s f z : sane s f = Ok tt -> (3 <= z <= 6)%Z -> is_f f z = true -> is_int f = true.
Proof. intros E Z F. destruct (is_int f) eqn:I; auto. rewrite (sane_float s f z) in E; auto. discriminate. Qed.
Lemma is_f_ti f z : is_f (ti f) z = is_f f z.
Proof. reflexivity. Qed.

Ltac galpha := apply refines_alpha; [assumption|assumption|repeat split; auto|repeat split; auto|].
Lemma m_b_refines strict s m sc f a : all_sound s -> (strict = true -> typed (CMb m sc f a)) ->
  refines strict s (m_b alpha_cached s m sc f a) (fst (m_b alpha_pure tt (tf m) (tf sc) (ti f) a)).
Proof.
  intros S T. pose proof (keeps_refl s) as K0. unfold m_b. rewrite !is_f_ti. cbn [tf val].
  destruct (_ && _); [apply refines_ret; auto; reflexivity|].
  apply refines_sane; auto. { intros H. destruct (T H) as (A & B & D). auto. }
  intros E. apply refines_bind; [galpha|].
  { intros H. destruct (T H) as (A & B & D). repeat split; auto. }
  intros x x' s1 X S1 F1. cbn beta. rewrite X.
  destruct (is_f f 5) eqn:F5.
  { apply refines_bind; [galpha|].
    - intros _. split; [eapply sane_isint; eauto; lia|]. split; [eapply sane_real; eauto|exact I].
    - intros y y' s2 Y S2 F2. rewrite Y. apply refines_ret; auto. apply agree_refl. }
  destruct (is_f f 4); [apply refines_ret; auto; apply agree_refl|].
  destruct (is_f f 3).
  { apply refines_bind; [galpha; repeat split|].
    intros y y' s2 Y S2 F2. rewrite Y. apply refines_ret; auto. apply agree_refl. }
  destruct (is_f f 6); apply refines_ret; auto; apply agree_refl.
Qed.
Lemma m_c_refines strict s m sc f a : all_sound s -> (strict = true -> typed (CMc m sc f a)) ->
  refines strict s (m_c alpha_cached s m sc f a) (fst (m_c alpha_pure tt (tf m) (tf sc) (ti f) a)).
Proof.
  intros S T. pose proof (keeps_refl s) as K0. unfold m_c. rewrite !is_f_ti. cbn [tf val].
  destruct (feq _ _); [apply refines_ret; auto; reflexivity|].
  apply refines_sane; auto. { intros H. destruct (T H) as (A & B & D). auto. }
  intros E. apply refines_bind; [galpha|].
  { intros H. destruct (T H) as (A & B & D). repeat split; auto. }
  intros x x' s1 X S1 F1. cbn beta. rewrite X.
  destruct (is_f f 4) eqn:F5.
  { apply refines_bind; [galpha|].
    - intros _. split; [eapply sane_isint; eauto; lia|]. split; [eapply sane_real; eauto|exact I].
    - intros y y' s2 Y S2 F2. rewrite Y. apply refines_ret; auto. apply agree_refl. }
  destruct (is_f f 3); [apply refines_ret; auto; apply agree_refl|].
  destruct (is_f f 5); apply refines_ret; auto; apply agree_refl.
Qed.
Lemma m_s_refines strict s m sc f a : all_sound s -> (strict = true -> typed (CMs m sc f a)) ->
  refines strict s (m_s alpha_cached s m sc f a) (fst (m_s alpha_pure tt (tf m) (tf sc) (ti f) a)).
Proof.
  intros S T. pose proof (keeps_refl s) as K0. unfold m_s. rewrite !is_f_ti. cbn [tf val].
  destruct (_ && _); [apply refines_ret; auto; reflexivity|].
  apply refines_sane; auto. { intros H. destruct (T H) as (A & B & D). auto. }
  intros E. apply refines_bind; [galpha|].
  { intros H. repeat split; auto. }
  intros x x' s1 X S1 F1. cbn beta. rewrite X.
  destruct (is_f f 3) eqn:F5.
  { apply refines_bind; [galpha|].
    - intros _. split; [eapply sane_isint; eauto; lia|]. split; [eapply sane_real; eauto|exact I].
    - intros y y' s2 Y S2 F2. rewrite Y. apply refines_ret; auto. apply agree_refl. }
  destruct (is_f f 4); [apply refines_ret; auto; apply agree_refl|].
  destruct (is_f f 5).
  { apply refines_bind; [galpha; repeat split|].
    intros y y' s2 Y S2 F2. rewrite Y. apply refines_ret; auto. apply agree_refl. }
  apply refines_ret; auto; apply agree_refl.
Qed.

(** A wrapper around a body that refines the uncached function. *)
Lemma cached_refines strict (get : caches -> cache) (put : caches -> cache -> caches) n c s body :
  all_sound s -> which c = n -> (forall s, all_sound s -> sound n (get s)) ->
  (forall s x, all_sound s -> sound n x -> all_sound (put s x)) ->
  (strict = true -> typed c) ->
  refines strict s (body s) (eval (retype c)) ->
  let x := cached get put s (call_key c) body in
  all_sound (snd x) /\
  match fst x, eval (retype c) with
  | Ok a, Ok b => val a = val b
  | Err e, Err e' => strict = true -> e = e'
  | Err _, Ok _ => strict = false
  | Ok _, Err _ => False
  end.
Proof.
  intros S W G P T R. unfold cached. destruct (lookup (get s) (call_key c)) as [[v c']|] eqn:L.
  - destruct (lookup_sound _ _ _ _ _ (G s S) L) as (A & d & r & Wd & Q & Td & E & V). cbn. split; [apply P; auto|].
    destruct (eval_same d (retype c) r) as (r' & -> & V'); auto.
    + apply key_same; [rewrite retype_which; congruence|].
      destruct (retype_key c) as [K1 K2]. destruct Q as [Q1 Q2]. unfold same_key, same_as in *. split; congruence.
    + apply retype_typed.
    + congruence.
  - destruct R as (A & K & M). destruct (body s) as [[v|e] s']; cbn in *.
    + destruct (eval (retype c)) as [w|] eqn:E; [|tauto]. split; auto. apply P; auto.
      apply (insert_sound n _ _ _ (retype c) w); auto.
      * rewrite retype_which; auto.
      * apply retype_key.
      * apply retype_typed.
    + auto.
Qed.
Lemma call_refines strict s c : all_sound s -> (strict = true -> typed c) ->
  all_sound (snd (call_cached s c)) /\
  match fst (call_cached s c), eval (retype c) with
  | Ok a, Ok b => val a = val b
  | Err e, Err e' => strict = true -> e = e'
  | Err _, Ok _ => strict = false
  | Ok _, Err _ => False
  end.
Proof.
  intros S T. destruct c as [sc f a|m sc f a|m sc f a|m sc f a].
  - destruct (refines_alpha strict s s sc f a (tf sc) (ti f) a S (keeps_refl s)) as (A & B & C); auto.
    + repeat split.
    + repeat split.
  - apply (cached_refines strict c_mb put_mb 1 (CMb m sc f a) s); auto.
    + intros s' (A & B & C & D); auto.
    + intros s' x (A & B & C & D) X. repeat split; auto.
    + apply m_b_refines; auto.
  - apply (cached_refines strict c_mc put_mc 2 (CMc m sc f a) s); auto.
    + intros s' (A & B & C & D); auto.
    + intros s' x (A & B & C & D) X. repeat split; auto.
    + apply m_c_refines; auto.
  - apply (cached_refines strict c_ms put_ms 3 (CMs m sc f a) s); auto.
    + intros s' (A & B & C & D); auto.
    + intros s' x (A & B & C & D) X. repeat split; auto.
    + apply m_s_refines; auto.
Qed.
Lemma after_sound h : all_sound (after h).
Proof.
  unfold after. assert (all_sound no_caches) as Z by (repeat split; intros k v []).
  revert Z. generalize no_caches. induction h as [|c h IH]; simpl; auto. intros s S. apply IH.
  apply (call_refines false s c S). discriminate.
Qed.
(** Whatever was called before, a well-typed call returns what it would return
    without caches; any call that returns a number returns that of the same
    call with a float scale and an int number of flavours. *)
Lemma cache_transparent h c : typed c -> agree (fst (call_cached (after h) c)) (eval c).
Proof.
  intros T. destruct (call_refines true (after h) c (after_sound h) (fun _ => T)) as [_ M].
  pose proof (eval_typed_agree (retype c) c (retype_same c) (retype_typed c) T) as G.
  destruct (fst (call_cached (after h) c)), (eval (retype c)), (eval c); simpl in *; try tauto; try congruence;
    try discriminate; rewrite M; auto.
Qed.
Lemma cache_value h c v : fst (call_cached (after h) c) = Ok v ->
  exists w, eval (retype c) = Ok w /\ val v = val w.
Proof.
  intros E. destruct (call_refines false (after h) c (after_sound h)) as [_ M]; [discriminate|].
  rewrite E in M. destruct (eval (retype c)); [eauto|tauto].
Qed.
(** The caches never grow beyond their size. *)
Definition small (s : caches) : Prop :=
  length (c_alpha s) <= maxsize /\ length (c_mb s) <= maxsize /\ length (c_mc s) <= maxsize /\ length (c_ms s) <= maxsize.
Lemma insert_small c k v : length (insert c k v) <= maxsize.
Proof. unfold insert. apply firstn_le_length. Qed.
#[local] Opaque maxsize insert.
Lemma cached_small get put s k body :
  small s -> (small (snd (body s))) -> (forall s x, small s -> length x <= maxsize -> small (put s x)) ->
  (forall s, small s -> length (get s) <= maxsize) -> small (snd (cached get put s k body)).
Proof.
  intros S B P G. unfold cached. destruct (lookup (get s) k) as [[v c']|] eqn:L.
  - cbn. apply P; auto. apply lookup_In in L as (_ & _ & ->). auto.
  - destruct (body s) as [[v|e] s']; cbn in *; auto. apply P; auto. apply insert_small.
Qed.
Lemma alpha_small s sc f a : small s -> small (snd (alpha_cached s sc f a)).
Proof.
  intros S. apply cached_small; auto.
  - intros s' x (A & B & C & D) X. repeat split; auto.
  - intros s' (A & B & C & D); auto.
Qed.
Lemma sbind_small A B (m : res A * caches) (k : A -> caches -> res B * caches) :
  small (snd m) -> (forall a s, small s -> small (snd (k a s))) -> small (snd (sbind m k)).
Proof. intros M K. unfold sbind. destruct m as [[a|e] s]; cbn in *; auto. Qed.
Ltac bodies := repeat first
  [ assumption
  | apply alpha_small
  | match goal with |- small (snd (if ?b then _ else _)) => destruct b end
  | apply sbind_small; [|intros ? ? ?]
  | unfold ret; cbn [snd] ].
Lemma call_small s c : small s -> small (snd (call_cached s c)).
Proof.
  intros S. destruct c; [apply alpha_small; auto| | |]; apply cached_small; auto;
    try (intros s' x (A & B & C & D) X; repeat split; auto; fail); try (intros s' (A & B & C & D); auto; fail).
  - unfold m_b. bodies.
  - unfold m_c. bodies.
  - unfold m_s. bodies.
Qed.
Lemma after_small h : small (after h).
Proof.
  unfold after. assert (small no_caches) as Z by (repeat split; cbn; lia).
  revert Z. generalize no_caches. induction h as [|c h IH]; simpl; auto. intros s S. apply IH, call_small; auto.
Qed.
(** A call repeated at once is answered from the cache: with the very same object. *)
Lemma feq_refl_fin x : x <> NaN -> feq x x = true.
Proof. destruct x; simpl; auto; try congruence. intros _. unfold Req_b. destruct (Req_EM_T r r); congruence. Qed.
End Rundec.
