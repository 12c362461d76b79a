(** Validating a basis file does not depend on the order of the sectors in the library: proofs for P_ImportSession.v. *)
From Coq Require Import String Ascii List Bool Arith ZArith Reals Lia Permutation FunctionalExtensionality.
From Verif Require Import PyBase PyDict Cplx Wc Dump DumpInit Cli Tool LoadBasis LoadBasisThm.
From Verif Require Import Bases BasesFacts.
From Verif Require Import Import.
Import ListNotations.
Open Scope string_scope.
Open Scope list_scope.
Open Scope nat_scope.

Definition eqd (d d' : dict string doc) : Prop := wf d /\ wf d' /\ forall k, dget d k = dget d' k.
Lemma eqd_perm d d' : eqd d d' -> Permutation d d'.
Proof.
  intros (W & W' & D). apply NoDup_Permutation.
  - eapply NoDup_map_inv; exact W.
  - eapply NoDup_map_inv; exact W'.
  - intros [k v]. rewrite <- !dget_iff by auto. rewrite D. tauto.
Qed.
Lemma eqd_dset d d' k v : eqd d d' -> eqd (dset d k v) (dset d' k v).
Proof. intros (W & W' & D). split; [apply wf_dset, W|]. split; [apply wf_dset, W'|]. intros x. rewrite !dget_dset, D. reflexivity. Qed.
Lemma eqd_dupdate d d' l : eqd d d' -> eqd (dupdate d l) (dupdate d' l).
Proof. intros (W & W' & D). split; [apply wf_dupdate, W|]. split; [apply wf_dupdate, W'|]. intros x. rewrite !dget_dupdate, D. reflexivity. Qed.

Definition both {A} (R : A -> A -> Prop) (a b : res A) : Prop := match a, b with Ok x, Ok y => R x y | Err x, Err y => x = y | _, _ => False end.
Definition equ (a b : umap) : Prop := eqd (fst a) (fst b) /\ snd a = snd b.
Lemma update_seq_eq l : forall u u', equ u u' -> both equ (update_seq u l) (update_seq u' l).
Proof.
  induction l as [|x l IH]; intros u u' E; [exact E|]. cbn [update_seq]. destruct (pair_of x) as [[a b]|]; cbn [bind]; [|reflexivity]. cbn [fst snd].
  destruct (negb (hashable a)); [reflexivity|]. apply IH. destruct E as [E1 E2]. destruct a; split; cbn [fst snd]; auto using eqd_dset.
Qed.
Lemma update_doc_eq d d' s : eqd d d' -> both equ (update_doc d s) (update_doc d' s).
Proof.
  intros E. destruct s as [| | |x|l|m]; cbn [update_doc]; try reflexivity.
  - destruct x; [split; [exact E|reflexivity]|reflexivity].
  - apply update_seq_eq. split; [exact E|reflexivity].
  - split; [apply eqd_dupdate, E|reflexivity].
Qed.
(** The loops of the validation, as functions of the set of sectors *)
Definition is_map (d : doc) : bool := match d with DMap _ => true | _ => false end.
Definition map_of (d : doc) : dict string doc := match d with DMap m => m | _ => [] end.
Lemma doc_keys_all s : doc_keys s = if forallb (fun kc => is_map (snd kc)) s then Ok (flat_map (fun kc => dkeys (map_of (snd kc))) s) else Err AttributeError.
Proof.
  induction s as [|[k c] s IH]; [reflexivity|]. cbn [doc_keys forallb flat_map snd]. rewrite IH. destruct c; try reflexivity. cbn [items bind is_map map_of andb].
  destruct (forallb _ s); reflexivity.
Qed.
Definition entry_fine (v : doc) : bool := match v with DNull | DMap _ => true | _ => false end.
Definition entry_tex (v : doc) : list doc := match v with DMap x => [match dget x "tex" with Some y => y | None => DStr "" end] | _ => [] end.
Lemma entry_texs_all d : entry_texs d = if forallb (fun kv => entry_fine (snd kv)) d then Ok (flat_map (fun kv => entry_tex (snd kv)) d) else Err AttributeError.
Proof.
  induction d as [|[k v] d IH]; [reflexivity|]. cbn [entry_texs forallb flat_map snd]. rewrite IH. destruct v; try reflexivity.
  cbn [items bind entry_fine entry_tex andb app]. destruct (forallb _ d); reflexivity.
Qed.
Definition sector_fine (c : doc) : bool := is_map c && forallb (fun kv => entry_fine (snd kv)) (map_of c).
Lemma doc_texs_all s : doc_texs s = if forallb (fun kc => sector_fine (snd kc)) s
  then Ok (flat_map (fun kc => flat_map (fun kv => entry_tex (snd kv)) (map_of (snd kc))) s) else Err AttributeError.
Proof.
  induction s as [|[k c] s IH]; [reflexivity|]. cbn [doc_texs forallb flat_map snd]. rewrite IH. destruct c as [| | | | |d]; try reflexivity. cbn [items bind map_of]. change (sector_fine (DMap d)) with (forallb (fun kv => entry_fine (snd kv)) d).
  rewrite entry_texs_all. destruct (forallb (fun kv => entry_fine (snd kv)) d); cbn [bind andb]; [|reflexivity]. destruct (forallb _ s); reflexivity.
Qed.
Definition is_text (d : doc) : bool := match d with DStr _ => true | _ => false end.
Definition text_of (d : doc) : string := match d with DStr s => s | _ => "" end.
Lemma strs_all l : strs l = if forallb is_text l then Ok (map text_of l) else Err TypeError.
Proof.
  induction l as [|x l IH]; [reflexivity|]. cbn [strs forallb map]. rewrite IH. destruct x; try reflexivity. cbn [is_text text_of andb]. destruct (forallb is_text l); reflexivity.
Qed.
Lemma forallb_perm {A} (f : A -> bool) l l' : Permutation l l' -> forallb f l = forallb f l'.
Proof. induction 1 as [|x l l' _ IH|x y l|l l1 l2 _ IH1 _ IH2]; cbn [forallb]; [reflexivity|rewrite IH; reflexivity|destruct (f x), (f y); reflexivity|congruence]. Qed.
Lemma dupes_perm l l' : Permutation l l' -> has_dupes l = has_dupes l'.
Proof.
  intros P. destruct (has_dupes l) eqn:E; symmetry.
  - destruct (has_dupes l') eqn:E'; [reflexivity|]. apply has_dupes_iff in E'. apply (Permutation_NoDup (Permutation_sym P)), has_dupes_iff in E'. congruence.
  - apply has_dupes_iff. apply (Permutation_NoDup P), has_dupes_iff, E.
Qed.

Section Two.
Variables json_loads yaml_load : string -> res doc.
Variable tex : string -> res bool.
Definition any_order_tex : Prop := forall l l', Permutation l l' -> tex ("$" ++ String.concat "$, $" l ++ "$")%string = tex ("$" ++ String.concat "$, $" l' ++ "$")%string.
Variables w w' : world.
Hypothesis T : any_order_tex.
Hypothesis E : forall e, lookup_reg (w_efts w) e = lookup_reg (w_efts w') e.
Hypothesis B : forall e b, match basis_get w e b, basis_get w' e b with
  | Ok i, Ok j => exists S S', sectors_of w i = Some S /\ sectors_of w' j = Some S' /\ wf S /\ wf S' /\ forall k, dget S k = dget S' k
  | Err x, Err y => x = y
  | _, _ => False
  end.
Lemma validate_perm e s s' o h : Permutation s s' -> doc_validate w tex (Loaded e (DMap s) o h) = doc_validate w' tex (Loaded e (DMap s') o h).
Proof.
  intros P. unfold doc_validate. cbn [l_hidden l_eft l_sectors l_other items bind]. destruct h; [reflexivity|]. destruct e as [| | |e| |]; try reflexivity.
  rewrite E. destruct (lookup_reg (w_efts w') e) as [known|]; [|reflexivity].
  rewrite (forallb_perm _ (dkeys s) (dkeys s') (Permutation_map fst P)). destruct (_ || o); [reflexivity|].
  rewrite !doc_keys_all, (forallb_perm _ s s' P). destruct (forallb (fun kc => is_map (snd kc)) s'); cbn [bind]; [|reflexivity].
  rewrite (dupes_perm _ _ (Permutation_flat_map _ P)). destruct (has_dupes _); [reflexivity|].
  rewrite !doc_texs_all, (forallb_perm _ s s' P). destruct (forallb (fun kc => sector_fine (snd kc)) s'); cbn [bind]; [|reflexivity].
  pose proof (Permutation_flat_map (fun kc : string * doc => flat_map (fun kv => entry_tex (snd kv)) (map_of (snd kc))) P) as Q.
  rewrite !strs_all, (forallb_perm is_text _ _ Q). destruct (forallb is_text _); cbn [bind]; [|reflexivity].
  rewrite (T _ _ (Permutation_map text_of Q)). reflexivity.
Qed.
Lemma validate_same l : doc_validate w tex l = doc_validate w' tex l.
Proof.
  destruct l as [e s o h]. destruct s as [| | | | |m]; [..|apply validate_perm, Permutation_refl]; unfold doc_validate; cbn [l_hidden l_eft l_sectors l_other items bind]; destruct h; try reflexivity; destruct e as [| | |e| |]; try reflexivity; rewrite E; reflexivity.
Qed.
Lemma sectors_doc_eq S S' : wf S -> wf S' -> (forall k, dget S k = dget S' k) -> eqd (sectors_doc S) (sectors_doc S').
Proof.
  intros W W' D. assert (forall X : sectors, dkeys (sectors_doc X) = dkeys X) as K by (intros X; unfold sectors_doc, dkeys; rewrite map_map; reflexivity).
  assert (forall (X : sectors) k, dget (sectors_doc X) k = option_map sector_doc (dget X k)) as G.
  { intros X k. induction X as [|[a b] X IH]; [reflexivity|]. cbn [sectors_doc map dget fst snd]. destruct (keqb k a); [reflexivity|exact IH]. }
  split; [unfold wf; rewrite K; exact W|]. split; [unfold wf; rewrite K; exact W'|]. intros k. rewrite !G, D. reflexivity.
Qed.
Lemma basis_check_same t : basis_check json_loads yaml_load w tex t = basis_check json_loads yaml_load w' tex t.
Proof.
  unfold basis_check, basis_load. destruct (load_text string json_loads yaml_load t) as [d|]; cbn [bind]; [|reflexivity]. destruct d as [| | | | |m]; try reflexivity.
  destruct (dmem m "self"); [reflexivity|]. destruct (need m "eft") as [e|]; cbn [bind]; [|reflexivity]. destruct (need m "basis") as [b|]; cbn [bind]; [|reflexivity].
  destruct (need m "sectors") as [s|]; cbn [bind]; [|reflexivity]. destruct (negb (hashable e && hashable b)); [reflexivity|].
  destruct (setattrs KBasis [] (kwargs_of KBasis m)) as [z|]; cbn [bind]; [|reflexivity]. destruct (dget m "parent") as [p|]; [|cbn [bind]; apply validate_same].
  destruct (negb (hashable p)); [reflexivity|].
  assert (match parent_of w e b p, parent_of w' e b p with Some q, Some q' => eqd q q' | None, None => True | _, _ => False end) as Q.
  { unfold parent_of. destruct e as [| | |e'| |]; try exact I. destruct p as [| | |p'| |]; try exact I. destruct (match b with DStr b' => String.eqb b' p' | _ => false end); [exact I|].
    specialize (B e' p'). unfold basis_get in B. destruct (lookup_reg (w_bases w) (e', p')) as [i|], (lookup_reg (w_bases w') (e', p')) as [j|]; try contradiction; [|exact I].
    destruct B as (S & S' & -> & -> & W & W' & D). apply sectors_doc_eq; assumption. }
  destruct (parent_of w e b p) as [q|], (parent_of w' e b p) as [q'|]; try contradiction; [|reflexivity].
  pose proof (update_doc_eq q q' s Q) as U. destruct (update_doc q s) as [[u o]|x], (update_doc q' s) as [[u' o']|x']; cbn [both] in U; try contradiction; cbn [bind fst snd].
  - destruct U as [U1 U2]. cbn [fst snd] in *. subst o'. apply validate_perm, eqd_perm, U1.
  - congruence.
Qed.
Hypothesis V : forall e b k, fst (wc_validate w e b k) = fst (wc_validate w' e b k).
Lemma tool_validate_same a : Tool.tool_validate w a = Tool.tool_validate w' a.
Proof.
  unfold Tool.tool_validate. destruct (hidden a "validate"); [reflexivity|]. destruct (unhashable a "eft"); [reflexivity|]. destruct (dget a "eft") as [[| | |e| |]|]; try reflexivity.
  rewrite E. destruct (negb _); [reflexivity|]. destruct (unhashable a "basis"); [reflexivity|]. destruct (dget a "basis") as [[| | |b| |]|]; try reflexivity.
  pose proof (B e b) as X. unfold basis_get in X.
  assert (is_ok (lookup_reg (w_bases w) (e, b)) = is_ok (lookup_reg (w_bases w') (e, b))) as ->.
  { destruct (lookup_reg (w_bases w) (e, b)), (lookup_reg (w_bases w') (e, b)); try contradiction; reflexivity. }
  destruct (negb _); [reflexivity|]. destruct (dget a "values") as [[| | | | |v]|]; try reflexivity. apply V.
Qed.
Variable float_of_str : string -> option R.
Variables json_dumps yaml_dump : doc -> string.
Variable treg_ : treg.
Variable mreg_ : mreg.
Variable odd : attrs -> list string -> res wc.
Lemma tool_same : LoadBasisThm.tool json_loads yaml_load w tex float_of_str json_dumps yaml_dump treg_ mreg_ odd = LoadBasisThm.tool json_loads yaml_load w' tex float_of_str json_dumps yaml_dump treg_ mreg_ odd.
Proof.
  apply functional_extensionality. intros p. apply functional_extensionality. intros s. destruct p as [n| |c]; try reflexivity.
  destruct c as [fmt f o|b f o fmt|e b f o fmt|type f]; try reflexivity. destruct (String.eqb_spec type "basis") as [->|N].
  - rewrite !tool_basis, basis_check_same. reflexivity.
  - apply String.eqb_neq in N. unfold LoadBasisThm.tool, Tool.tool, wcxf_main. cbn [run_cmd]. unfold Cli.validate. rewrite N.
    assert (Tool.tool_validate w = Tool.tool_validate w') as -> by (apply functional_extensionality, tool_validate_same). reflexivity.
Qed.
End Two.
(** Imported sectors have no key twice. *)
Lemma import_wf efts mains children e b i S : distinct_names (mains ++ children) -> layout mains children -> plain_files (mains ++ children) ->
  let w := wrun (hist efts (mains ++ children)) in basis_get w e b = Ok i -> sectors_of w i = Some S -> wf S.
Proof.
  intros N L W w G Se.
  destruct (in_dec (fun x y : string * string => match bool_dec (keqb x y) true with left E => left (proj1 (keqb_eq x y) E) | right E => right (fun Q => E (proj2 (keqb_eq x y) Q)) end) (e, b) (map fname (mains ++ children))) as [I|I].
  - apply in_map_iff in I. destruct I as (f & Ef & I). unfold fname in Ef. injection Ef as <- <-.
    destruct (find_base _ _ f L I) as (g & Ig & Bg & _ & _). destruct (Import.loaded efts _ f g N (layout_ordered _ _ L) W I Ig Bg) as (id & S' & G' & ES & WS & _).
    fold w in G', ES. rewrite G in G'. injection G' as <-. rewrite Se in ES. injection ES as ->. exact WS.
  - unfold w in G. rewrite (not_loaded efts _ e b N (layout_ordered _ _ L)) in G; [discriminate|]. intros f If Q. apply I. rewrite <- Q. apply in_map, If.
Qed.
