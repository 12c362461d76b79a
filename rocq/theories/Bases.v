(** Model of EFT and Basis objects (classes.py 193-276) and of [WC.validate]
    (classes.py 354-366): objects on a heap, the [sectors] attribute of a basis
    being a reference to a shared, mutable mapping. *)
From Coq Require Import String List Bool Arith Lia.
From Verif Require Import PyBase PyDict.
Import ListNotations.
Open Scope string_scope.
Open Scope list_scope.
Open Scope nat_scope.

(** The metadata of one coefficient in a basis file ([tex], [real]). *)
Record entry := Entry { e_tex : option string; e_real : bool }.
(** A sector: a mapping name -> entry (entry [None] = YAML/JSON null), or
    itself null. *)
Definition sector := option (dict string (option entry)).
Definition sectors := dict string sector.

(** A Basis object.  [bo_sectors = None] and [bo_cache = None]: attribute not
    set, because the constructor raised before line 225 resp. 231.
    Simplified: extra keyword arguments other than [parent] do not occur here
    (they only become further attributes, see Dump.v). *)
Record bobj := BObj {
  bo_eft : string;
  bo_basis : string;
  bo_sectors : option nat;
  bo_cache : option (option (list string)) }.

(** Registries are the per-class views of Registry.v: [None] = attribute
    [instances] missing. An EFT object is represented by its sector names. *)
Record world := World {
  w_efts : option (dict string (list string));
  w_bases : option (dict (string * string) nat);
  w_objs : list bobj;
  w_secs : list sectors }.
Definition winit : world := World None None [] [].

Definition reg_or_empty {A B} (r : option (dict A B)) : dict A B :=
  match r with Some d => d | None => [] end.
Definition lookup_reg {A B} `{Key A} (r : option (dict A B)) (k : A) : res B :=
  match r with None => Err AttributeError | Some d => dlookup d k end.

(** EFT.__init__, classes.py 195-201 *)
Definition new_eft (w : world) (e : string) (secs : list string) : world :=
  World (Some (dset (reg_or_empty (w_efts w)) e secs)) (w_bases w) (w_objs w) (w_secs w).

Fixpoint list_set {A} (l : list A) (n : nat) (a : A) : list A :=
  match l, n with
  | [], _ => []
  | _ :: t, O => a :: t
  | x :: t, S m => x :: list_set t m a
  end.

(** The [sectors] attribute of object [id]: AttributeError if not set. *)
Definition obj_sectors_ref (w : world) (id : nat) : res nat :=
  match nth_error (w_objs w) id with
  | Some o => match bo_sectors o with Some r => Ok r | None => Err AttributeError end
  | None => Err AttributeError
  end.
Definition sectors_of (w : world) (id : nat) : option sectors :=
  match obj_sectors_ref w id with
  | Ok r => nth_error (w_secs w) r
  | Err _ => None
  end.

(** Basis.__init__, classes.py 215-231.  Line 220 registers the new object
    (with no [sectors] attribute yet), then the parent is looked up. *)
Definition new_basis (w : world) (e b : string) (parent : option string) (secs : sectors)
  : res nat * world :=
  let id := length (w_objs w) in
  let bare := BObj e b None None in
  let w1 := World (w_efts w) (Some (dset (reg_or_empty (w_bases w)) (e, b) id))
                  (w_objs w ++ [bare]) (w_secs w) in
  match parent with
  | Some p =>
      match (let! pid := lookup_reg (w_bases w1) (e, p) in obj_sectors_ref w1 pid) with
      | Ok r =>
          let merged := match nth_error (w_secs w1) r with
                        | Some s => dupdate s secs | None => secs end in
          (Ok id, World (w_efts w1) (w_bases w1)
                        (list_set (w_objs w1) id (BObj e b (Some r) (Some None)))
                        (list_set (w_secs w1) r merged))
      | Err _ => (Err ValueError, w1)
      end
  | None =>
      (Ok id, World (w_efts w1) (w_bases w1)
                    (list_set (w_objs w1) id (BObj e b (Some (length (w_secs w1))) (Some None)))
                    (w_secs w1 ++ [secs]))
  end.

(** [del Basis[e, b]], [Basis.clear_all()], [del EFT[e]] *)
Definition del_basis (w : world) (e b : string) : res unit * world :=
  match w_bases w with
  | None => (Err AttributeError, w)
  | Some d => if dmem d (e, b)
              then (Ok tt, World (w_efts w) (Some (ddel d (e, b))) (w_objs w) (w_secs w))
              else (Err KeyError, w)
  end.
Definition clear_bases (w : world) : world :=
  World (w_efts w) (Some []) (w_objs w) (w_secs w).
Definition del_eft (w : world) (e : string) : res unit * world :=
  match w_efts w with
  | None => (Err AttributeError, w)
  | Some d => if dmem d e
              then (Ok tt, World (Some (ddel d e)) (w_bases w) (w_objs w) (w_secs w))
              else (Err KeyError, w)
  end.

(** [[wc for sector, wcs in sectors.items() for wc in wcs]], classes.py 250;
    iterating over a null sector raises TypeError. *)
Fixpoint names_of (s : sectors) : res (list string) :=
  match s with
  | [] => Ok []
  | (_, None) :: _ => Err TypeError
  | (_, Some d) :: t => let! r := names_of t in Ok (dkeys d ++ r)
  end.
(** Basis.all_wcs, classes.py 246-251 *)
Definition all_wcs (w : world) (id : nat) : res (list string) * world :=
  match nth_error (w_objs w) id with
  | None => (Err AttributeError, w)
  | Some o =>
      match bo_cache o with
      | None => (Err AttributeError, w)
      | Some (Some l) => (Ok l, w)
      | Some None =>
          match sectors_of w id with
          | None => (Err AttributeError, w)
          | Some s =>
              match names_of s with
              | Err x => (Err x, w)
              | Ok l => (Ok l, World (w_efts w) (w_bases w)
                           (list_set (w_objs w) id
                              (BObj (bo_eft o) (bo_basis o) (bo_sectors o) (Some (Some l))))
                           (w_secs w))
              end
          end
      end
  end.

(** The list [all_keys] of classes.py 262: [s.items()] of a null sector raises
    AttributeError. *)
Fixpoint all_keys (s : sectors) : res (list string) :=
  match s with
  | [] => Ok []
  | (_, None) :: _ => Err AttributeError
  | (_, Some d) :: t => let! r := all_keys t in Ok (dkeys d ++ r)
  end.
(** [len(l) != len(set(l))], classes.py 263 *)
Fixpoint nub (l : list string) : list string :=
  match l with
  | [] => []
  | a :: t => if mem a t then nub t else a :: nub t
  end.
Definition has_dupes (l : list string) : bool := negb (Nat.eqb (length l) (length (nub l))).

(** The TeX strings, classes.py 270-273: [d.get('tex', '')] for entries that
    are not null. *)
Definition entry_tex (e : option entry) : list string :=
  match e with
  | None => []
  | Some x => [match e_tex x with Some t => t | None => "" end]
  end.
Fixpoint tex_strings (s : sectors) : list string :=
  match s with
  | [] => []
  | (_, None) :: t => tex_strings t
  | (_, Some d) :: t => flat_map (fun kv => entry_tex (snd kv)) d ++ tex_strings t
  end.
Definition alltex (s : sectors) : string :=
  ("$" ++ String.concat "$, $" (tex_strings s) ++ "$")%string.

(** Basis.validate, classes.py 253-279.  [tex] is the outcome of [_testtex]
    on a string (Tex.v): its 'success' entry or an exception. *)
Definition basis_validate (tex : string -> res bool) (w : world) (id : nat) : res unit :=
  match nth_error (w_objs w) id with
  | None => Err AttributeError
  | Some o =>
      match lookup_reg (w_efts w) (bo_eft o) with
      | Err _ => Err ValueError
      | Ok known =>
          match sectors_of w id with
          | None => Err AttributeError
          | Some s =>
              if negb (forallb (fun k => mem k known) (dkeys s)) then Err ValueError else
              let! l := all_keys s in
              if has_dupes l then Err ValueError else
              let! ok := tex (alltex s) in
              if ok then Ok tt else Err ValueError
          end
      end
  end.

(** WC.validate, classes.py 354-366, for a WC object with the given EFT, basis
    and value keys.  It may fill the cache of the basis. *)
Definition wc_validate (w : world) (e b : string) (keys : list string) : res unit * world :=
  match lookup_reg (w_efts w) e with
  | Err _ => (Err ValueError, w)
  | Ok _ =>
      match lookup_reg (w_bases w) (e, b) with
      | Err _ => (Err ValueError, w)
      | Ok id =>
          let (r, w') := all_wcs w id in
          (let! l := r in
           if forallb (fun k => mem k l) keys then Ok tt else Err AssertionError, w')
      end
  end.

(** User-level operations. *)
Inductive wop :=
| NewEFT (e : string) (secs : list string)
| NewBasis (e b : string) (parent : option string) (secs : sectors)
| DelBasis (e b : string)
| ClearBases
| DelEFT (e : string)
| ReadAll (id : nat)
| Validate (e b : string) (keys : list string).
Definition wstep (w : world) (o : wop) : world :=
  match o with
  | NewEFT e s => new_eft w e s
  | NewBasis e b p s => snd (new_basis w e b p s)
  | DelBasis e b => snd (del_basis w e b)
  | ClearBases => clear_bases w
  | DelEFT e => snd (del_eft w e)
  | ReadAll id => snd (all_wcs w id)
  | Validate e b k => snd (wc_validate w e b k)
  end.
Definition wrun (h : list wop) : world := fold_left wstep h winit.

(** ** Abstract specification without a heap.
    Every basis object belongs to the family of the root basis it descends
    from; a family has a log of the sector mappings loaded into it. *)
Record aworld := AWorld {
  a_bases : option (dict (string * string) nat);
  a_root : list (option nat);        (* per object: its root, None = broken *)
  a_log : nat -> list sectors }.
Definition ainit : aworld := AWorld None [] (fun _ => []).
Definition log_add (f : nat -> list sectors) (r : nat) (s : sectors) : nat -> list sectors :=
  fun r' => if Nat.eqb r r' then f r' ++ [s] else f r'.
Definition anew (a : aworld) (e b : string) (parent : option string) (s : sectors) : aworld :=
  let id := length (a_root a) in
  let reg := Some (dset (reg_or_empty (a_bases a)) (e, b) id) in
  match parent with
  | None => AWorld reg (a_root a ++ [Some id]) (log_add (a_log a) id s)
  | Some p =>
      if keqb p b then AWorld reg (a_root a ++ [None]) (a_log a) else
      match lookup_reg (a_bases a) (e, p) with
      | Ok pid =>
          match nth_error (a_root a) pid with
          | Some (Some r) => AWorld reg (a_root a ++ [Some r]) (log_add (a_log a) r s)
          | _ => AWorld reg (a_root a ++ [None]) (a_log a)
          end
      | Err _ => AWorld reg (a_root a ++ [None]) (a_log a)
      end
  end.
Definition astep (a : aworld) (o : wop) : aworld :=
  match o with
  | NewBasis e b p s => anew a e b p s
  | DelBasis e b => AWorld (option_map (fun d => ddel d (e, b)) (a_bases a)) (a_root a) (a_log a)
  | ClearBases => AWorld (Some []) (a_root a) (a_log a)
  | _ => a
  end.
Definition arun (h : list wop) : aworld := fold_left astep h ainit.
(** Later loads of a family override earlier ones, sector by sector. *)
Definition merge_log (l : list sectors) : sectors :=
  match l with [] => [] | s :: t => fold_left dupdate t s end.

(** ** Refinement proof *)
Lemma nth_list_set A (l : list A) n m a :
  nth_error (list_set l n a) m =
    if Nat.eqb n m then (if m <? length l then Some a else None) else nth_error l m.
Proof.
  revert n m; induction l as [|x t IH]; intros n m; simpl.
  - destruct (Nat.eqb n m); destruct m; reflexivity.
  - destruct n, m; simpl; auto. rewrite IH.
    change (S m <? S (length t)) with (m <? length t). reflexivity.
Qed.
Lemma length_list_set A (l : list A) n a : length (list_set l n a) = length l.
Proof. revert n; induction l as [|x t IH]; intros [|n]; simpl; auto. Qed.
Lemma nth_snoc A (l : list A) a n :
  nth_error (l ++ [a]) n = if Nat.eqb n (length l) then Some a else nth_error l n.
Proof.
  destruct (Nat.eqb n (length l)) eqn:E.
  - apply Nat.eqb_eq in E; subst. rewrite nth_error_app2 by lia.
    rewrite Nat.sub_diag; reflexivity.
  - apply Nat.eqb_neq in E. destruct (lt_dec n (length l)).
    + apply nth_error_app1; auto.
    + rewrite nth_error_app2 by lia. destruct (n - length l) as [|m] eqn:D; [lia|].
      simpl. destruct m; simpl; symmetry; apply nth_error_None; lia.
Qed.

(** [ref_of] maps roots to heap references. *)
Record ainv (w : world) (a : aworld) (ref_of : nat -> nat) : Prop := {
  ai_reg : w_bases w = a_bases a;
  ai_len : length (w_objs w) = length (a_root a);
  ai_obj : forall id o, nth_error (w_objs w) id = Some o ->
     match nth_error (a_root a) id with
     | Some (Some r) => bo_sectors o = Some (ref_of r) /\ bo_cache o <> None
     | _ => bo_sectors o = None /\ bo_cache o = None
     end;
  ai_root : forall id r, nth_error (a_root a) id = Some (Some r) ->
     nth_error (a_root a) r = Some (Some r);
  ai_sec : forall r, nth_error (a_root a) r = Some (Some r) ->
     nth_error (w_secs w) (ref_of r) = Some (merge_log (a_log a r)) /\ a_log a r <> [];
  ai_inj : forall r r', nth_error (a_root a) r = Some (Some r) ->
     nth_error (a_root a) r' = Some (Some r') -> ref_of r = ref_of r' -> r = r';
  ai_nolog : forall r, length (a_root a) <= r -> a_log a r = [] }.

Lemma ainv_init : ainv winit ainit (fun n => n).
Proof.
  constructor; simpl; auto; intros [|?]; intros; discriminate.
Qed.

Lemma ddel_absent K V `{Key K} (d : dict K V) k : dmem d k = false -> ddel d k = d.
Proof.
  unfold dmem. induction d as [|[k' v] t IH]; simpl; auto.
  destruct (keqb k k'); try discriminate. intros E; rewrite IH; auto.
Qed.

Lemma ainv_cache w a f id : ainv w a f -> ainv (snd (all_wcs w id)) a f.
Proof.
  intros V. unfold all_wcs.
  destruct (nth_error (w_objs w) id) as [o|] eqn:Eo; auto.
  destruct (bo_cache o) as [[l|]|] eqn:Ec; auto.
  destruct (sectors_of w id) as [s|]; auto.
  destruct (names_of s) as [l|x]; auto. simpl.
  destruct V as [R L O RT S J NL]. constructor; simpl; auto.
  - rewrite length_list_set; auto.
  - intros i o'. rewrite nth_list_set. destruct (Nat.eqb id i) eqn:E.
    + apply Nat.eqb_eq in E; subst. destruct (i <? length (w_objs w)); try discriminate.
      intros [= <-]. simpl. specialize (O _ _ Eo).
      destruct (nth_error (a_root a) i) as [[r|]|]; intuition congruence.
    + apply O.
Qed.
Lemma ainv_wc_validate w a f e b k : ainv w a f -> ainv (snd (wc_validate w e b k)) a f.
Proof.
  intros V. unfold wc_validate.
  destruct (lookup_reg (w_efts w) e); auto.
  destruct (lookup_reg (w_bases w) (e, b)) as [id|]; auto.
  pose proof (ainv_cache w a f id V) as G. destruct (all_wcs w id); auto.
Qed.

Lemma obj_ref_spec w a f id : ainv w a f -> id < length (w_objs w) ->
  obj_sectors_ref w id = match nth_error (a_root a) id with
                         | Some (Some r) => Ok (f r) | _ => Err AttributeError end.
Proof.
  intros V L. unfold obj_sectors_ref.
  destruct (nth_error (w_objs w) id) as [o|] eqn:E.
  - pose proof (ai_obj _ _ _ V _ _ E) as G.
    destruct (nth_error (a_root a) id) as [[r|]|]; destruct G as [-> _]; reflexivity.
  - apply nth_error_None in E; lia.
Qed.

Lemma merge_log_snoc l s : l <> [] -> merge_log (l ++ [s]) = dupdate (merge_log l) s.
Proof.
  destruct l as [|x t]; [congruence|]. intros _. simpl. rewrite fold_left_app. reflexivity.
Qed.

Lemma nth_new A (l : list A) x id : id < length l -> nth_error (l ++ [x]) id = nth_error l id.
Proof. intros; apply nth_error_app1; auto. Qed.

(** The parent lookup of the constructor, in abstract terms: [Some r] = the
    root whose family the new basis joins. *)
Definition parent_root (a : aworld) (e b p : string) : option nat :=
  if keqb p b then None else
  match lookup_reg (a_bases a) (e, p) with
  | Ok pid => match nth_error (a_root a) pid with Some (Some r) => Some r | _ => None end
  | Err _ => None
  end.
Lemma anew_child a e b p s :
  anew a e b (Some p) s =
  let reg := Some (dset (reg_or_empty (a_bases a)) (e, b) (length (a_root a))) in
  match parent_root a e b p with
  | Some r => AWorld reg (a_root a ++ [Some r]) (log_add (a_log a) r s)
  | None => AWorld reg (a_root a ++ [None]) (a_log a)
  end.
Proof.
  unfold anew, parent_root. destruct (keqb p b); auto.
  destruct (lookup_reg (a_bases a) (e, p)) as [pid|]; auto.
  destruct (nth_error (a_root a) pid) as [[r|]|]; auto.
Qed.

Lemma parent_lookup w a f e b p s : ainv w a f ->
  let w1 := World (w_efts w) (Some (dset (reg_or_empty (w_bases w)) (e, b) (length (w_objs w))))
                  (w_objs w ++ [BObj e b None None]) s in
  (forall r, parent_root a e b p = Some r -> nth_error (a_root a) r = Some (Some r)) /\
  match parent_root a e b p with
  | Some r => (let! pid := lookup_reg (w_bases w1) (e, p) in obj_sectors_ref w1 pid) = Ok (f r)
  | None => exists x, (let! pid := lookup_reg (w_bases w1) (e, p) in obj_sectors_ref w1 pid) = Err x
  end.
Proof.
  intros V w1. split.
  - unfold parent_root. intros r. destruct (keqb p b); try discriminate.
    destruct (lookup_reg (a_bases a) (e, p)) as [pid|]; try discriminate.
    destruct (nth_error (a_root a) pid) as [[r'|]|] eqn:E; try discriminate.
    intros [= <-]. eapply ai_root; eauto.
  - unfold parent_root. unfold w1 at 1 3; cbn [w_bases lookup_reg]. unfold dlookup. rewrite dget_dset.
    destruct (keqb (e, b) (e, p)) eqn:E.
    + apply keqb_eq in E. injection E as ->. rewrite keqb_refl. simpl.
      unfold obj_sectors_ref, w1; simpl. rewrite nth_snoc, Nat.eqb_refl. simpl. eauto.
    + assert (keqb p b = false) as ->.
      { apply keqb_neq. intros ->. rewrite keqb_refl in E; discriminate. }
      rewrite (ai_reg _ _ _ V) in *.
      destruct (dget (reg_or_empty (a_bases a)) (e, p)) as [pid|] eqn:G; simpl.
      * assert (lookup_reg (a_bases a) (e, p) = Ok pid) as ->.
        { unfold lookup_reg, dlookup. destruct (a_bases a); simpl in *; [rewrite G; auto|discriminate]. }
        unfold obj_sectors_ref, w1; simpl. rewrite !nth_snoc.
        destruct (Nat.eqb pid (length (w_objs w))) eqn:Ei.
        -- apply Nat.eqb_eq in Ei; subst pid. simpl.
           rewrite (ai_len _ _ _ V).
           assert (nth_error (a_root a) (length (a_root a)) = None) as ->
             by (apply nth_error_None; lia). eauto.
        -- destruct (nth_error (w_objs w) pid) as [o|] eqn:Eo.
           ++ pose proof (ai_obj _ _ _ V _ _ Eo) as O.
              destruct (nth_error (a_root a) pid) as [[r|]|]; destruct O as [-> _]; eauto.
           ++ apply nth_error_None in Eo. rewrite (ai_len _ _ _ V) in Eo.
              apply nth_error_None in Eo. rewrite Eo. eauto.
      * assert (exists x, lookup_reg (a_bases a) (e, p) = Err x) as [x ->].
        { unfold lookup_reg, dlookup. destruct (a_bases a); simpl in *; [rewrite G|]; eauto. }
        eauto.
Qed.

Lemma new_basis_spec w a f e b parent s : ainv w a f ->
  let (r, w') := new_basis w e b parent s in
  (exists f', ainv w' (anew a e b parent s) f') /\
  r = match parent with
      | None => Ok (length (w_objs w))
      | Some p => match parent_root a e b p with
                  | Some _ => Ok (length (w_objs w)) | None => Err ValueError end
      end.
Proof.
  intros V. pose proof V as V0. destruct V as [R L O RT S J NL].
  unfold new_basis.
  destruct parent as [p|].
  - rewrite anew_child.
    destruct (parent_lookup w a f e b p (w_secs w) V0) as [PR PL].
    destruct (parent_root a e b p) as [r|] eqn:Epr.
    + rewrite PL. split; auto. exists f. specialize (PR r eq_refl).
      destruct (S r PR) as [Sr Lr].
      assert (r < length (a_root a)) as Hr by (apply nth_error_Some; congruence).
      constructor; simpl.
      * rewrite R, L; reflexivity.
      * rewrite length_list_set, !app_length. simpl; lia.
      * intros id o. rewrite nth_list_set, !nth_snoc, app_length, <- L. simpl.
        rewrite (Nat.eqb_sym (length (w_objs w))).
        destruct (Nat.eqb id (length (w_objs w))) eqn:E.
        -- apply Nat.eqb_eq in E; subst.
           assert (length (w_objs w) <? length (w_objs w) + 1 = true) as -> by (apply Nat.ltb_lt; lia).
           intros [= <-]. simpl. split; [reflexivity|discriminate].
        -- apply O.
      * intros id r'. rewrite !nth_snoc. destruct (Nat.eqb id (length (a_root a))) eqn:E.
        -- intros [= <-]. destruct (Nat.eqb r (length (a_root a))); auto.
        -- intros E'. apply RT in E'. assert (r' < length (a_root a)) by (apply nth_error_Some; congruence).
           destruct (Nat.eqb r' (length (a_root a))) eqn:E2; auto.
           apply Nat.eqb_eq in E2; lia.
      * intros r'. rewrite nth_snoc. unfold log_add.
        destruct (Nat.eqb r' (length (a_root a))) eqn:E.
        -- apply Nat.eqb_eq in E; subst. intros [= ->]. lia.
        -- intros E'. destruct (S r' E') as [S' L']. rewrite nth_list_set.
           destruct (Nat.eqb r r') eqn:Er.
           ++ apply Nat.eqb_eq in Er; subst r'. rewrite Nat.eqb_refl.
              assert (f r < length (w_secs w)) as Hl by (apply nth_error_Some; congruence).
              apply Nat.ltb_lt in Hl. rewrite Hl, Sr, merge_log_snoc by auto.
              split; auto. destruct (a_log a r); discriminate.
           ++ destruct (Nat.eqb (f r) (f r')) eqn:Ef; auto.
              apply Nat.eqb_eq in Ef. apply J in Ef; auto. subst. rewrite Nat.eqb_refl in Er; discriminate.
      * intros r1 r2. rewrite !nth_snoc.
        destruct (Nat.eqb r1 (length (a_root a))) eqn:E1.
        { apply Nat.eqb_eq in E1; subst. intros [= ->]; lia. }
        destruct (Nat.eqb r2 (length (a_root a))) eqn:E2.
        { apply Nat.eqb_eq in E2; subst. intros _ [= ->]; lia. }
        apply J.
      * intros r'. rewrite app_length; simpl; intros Hl. unfold log_add.
        assert (Nat.eqb r r' = false) as -> by (apply Nat.eqb_neq; lia). apply NL; lia.
    + destruct PL as [x PL]. rewrite PL.
      split; auto; exists f; constructor; simpl.
      all: try (rewrite R, L; reflexivity).
      all: try (rewrite !app_length; simpl; lia).
      all: try (intros id o; rewrite !nth_snoc, <- L;
        destruct (Nat.eqb id (length (w_objs w))) eqn:E; [intros [= <-]; simpl; auto | apply O]).
      all: try (intros id r'; rewrite !nth_snoc; destruct (Nat.eqb id (length (a_root a))) eqn:E;
        [discriminate|]; intros E'; apply RT in E';
        assert (r' < length (a_root a)) by (apply nth_error_Some; congruence);
        destruct (Nat.eqb r' (length (a_root a))) eqn:E2; auto; apply Nat.eqb_eq in E2; lia).
      all: try (intros r'; rewrite nth_snoc; destruct (Nat.eqb r' (length (a_root a))) eqn:E;
        [discriminate | apply S]).
      all: try (intros r1 r2; rewrite !nth_snoc;
        destruct (Nat.eqb r1 (length (a_root a))) eqn:E1; [discriminate|];
        destruct (Nat.eqb r2 (length (a_root a))) eqn:E2; [discriminate|]; apply J).
      all: intros r'; rewrite app_length; simpl; intros Hl; apply NL; lia.
  - split; auto. simpl.
    set (n := length (a_root a)).
    exists (fun r => if Nat.eqb r n then length (w_secs w) else f r).
    assert (forall r, nth_error (a_root a) r = Some (Some r) -> f r < length (w_secs w)) as Hf.
    { intros r E. apply nth_error_Some. destruct (S r E) as [-> _]. discriminate. }
    assert (forall id r, nth_error (a_root a) id = Some (Some r) -> r < n) as Hrt.
    { intros id r E. apply RT in E. apply nth_error_Some. congruence. }
    constructor; simpl.
    + rewrite R, L; reflexivity.
    + rewrite length_list_set, !app_length. simpl; lia.
    + intros id o. rewrite nth_list_set, !nth_snoc, app_length. fold n. rewrite L. fold n. simpl.
      rewrite (Nat.eqb_sym n id).
      destruct (Nat.eqb id n) eqn:E.
      * apply Nat.eqb_eq in E; subst id.
        assert (n <? n + 1 = true) as -> by (apply Nat.ltb_lt; lia).
        intros [= <-]. simpl. rewrite Nat.eqb_refl. split; [reflexivity|discriminate].
      * intros Eo. specialize (O _ _ Eo).
        destruct (nth_error (a_root a) id) as [[r|]|] eqn:Er; auto.
        apply Hrt in Er. assert (Nat.eqb r n = false) as -> by (apply Nat.eqb_neq; lia). auto.
    + intros id r. rewrite !nth_snoc. fold n. destruct (Nat.eqb id n) eqn:E.
      * intros [= <-]. rewrite Nat.eqb_refl; auto.
      * intros E'. pose proof (Hrt _ _ E') as Hl. apply RT in E'.
        assert (Nat.eqb r n = false) as -> by (apply Nat.eqb_neq; lia). auto.
    + intros r. rewrite nth_snoc. fold n. unfold log_add. rewrite (Nat.eqb_sym n r).
      destruct (Nat.eqb r n) eqn:E.
      * intros _. rewrite nth_snoc, Nat.eqb_refl. apply Nat.eqb_eq in E; subst r.
        rewrite (NL n) by (unfold n; lia). simpl. split; [reflexivity|discriminate].
      * intros E'. destruct (S r E') as [S1 S2]. split; auto.
        rewrite nth_error_app1; auto.
    + intros r1 r2. rewrite !nth_snoc. fold n.
      destruct (Nat.eqb r1 n) eqn:E1; destruct (Nat.eqb r2 n) eqn:E2.
      * apply Nat.eqb_eq in E1, E2; congruence.
      * intros _ H2 Q. apply Hf in H2; lia.
      * intros H1 _ Q. apply Hf in H1; lia.
      * apply J.
    + intros r. rewrite app_length; simpl. fold n. intros Hl. unfold log_add.
      assert (Nat.eqb n r = false) as -> by (apply Nat.eqb_neq; lia). apply NL; unfold n in *; lia.
Qed.

Lemma ainv_step w a f o : ainv w a f -> exists f', ainv (wstep w o) (astep a o) f'.
Proof.
  intros V. destruct o as [e s|e b p s|e b| |e|id|e b k]; simpl.
  - exists f. destruct V; constructor; auto.
  - pose proof (new_basis_spec w a f e b p s V) as G. destruct (new_basis w e b p s).
    apply G.
  - exists f. unfold del_basis. pose proof V as V0. destruct V as [R L O RT S J NL].
    destruct (w_bases w) as [d|] eqn:E; simpl.
    + destruct (dmem d (e, b)) eqn:Ed; simpl; constructor; simpl; auto.
      * rewrite <- R; reflexivity.
      * rewrite <- R; simpl. rewrite ddel_absent; auto.
    + constructor; simpl; auto. rewrite E, <- R; reflexivity.
  - exists f. destruct V; constructor; auto.
  - exists f. unfold del_eft. destruct (w_efts w) as [d|]; auto.
    destruct (dmem d e); auto. destruct V; constructor; auto.
  - exists f. apply ainv_cache; auto.
  - exists f. apply ainv_wc_validate; auto.
Qed.
Lemma wrun_snoc h o : wrun (h ++ [o]) = wstep (wrun h) o.
Proof. unfold wrun; rewrite fold_left_app; reflexivity. Qed.
Lemma arun_snoc h o : arun (h ++ [o]) = astep (arun h) o.
Proof. unfold arun; rewrite fold_left_app; reflexivity. Qed.
Lemma ainv_run h : exists f, ainv (wrun h) (arun h) f.
Proof.
  induction h as [|o h IH] using rev_ind.
  - eexists; apply ainv_init.
  - destruct IH as [f V]. rewrite wrun_snoc, arun_snoc. eapply ainv_step; eauto.
Qed.

Lemma sectors_abs w a f id : ainv w a f ->
  sectors_of w id = match nth_error (a_root a) id with
                    | Some (Some r) => Some (merge_log (a_log a r)) | _ => None end.
Proof.
  intros V. unfold sectors_of.
  destruct (lt_dec id (length (w_objs w))) as [Hl|Hl].
  - rewrite (obj_ref_spec _ _ _ _ V Hl).
    destruct (nth_error (a_root a) id) as [[r|]|] eqn:E; auto.
    apply (ai_sec _ _ _ V). eapply ai_root; eauto.
  - unfold obj_sectors_ref. assert (nth_error (w_objs w) id = None) as -> by (apply nth_error_None; lia).
    rewrite (ai_len _ _ _ V) in Hl.
    assert (nth_error (a_root a) id = None) as -> by (apply nth_error_None; lia). reflexivity.
Qed.
Lemma refinement h id :
  sectors_of (wrun h) id =
    match nth_error (a_root (arun h)) id with
    | Some (Some r) => Some (merge_log (a_log (arun h) r)) | _ => None end /\
  w_bases (wrun h) = a_bases (arun h) /\ length (w_objs (wrun h)) = length (a_root (arun h)).
Proof.
  destruct (ainv_run h) as [f V]. split; [|split].
  - eapply sectors_abs; eauto.
  - apply (ai_reg _ _ _ V).
  - apply (ai_len _ _ _ V).
Qed.
