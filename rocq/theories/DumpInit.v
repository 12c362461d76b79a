(** When the constructors of EFT, Basis and WC accept a document, and what the object then holds. *)
From Coq Require Import String Ascii List Bool Arith Reals.
From Verif Require Import PyBase PyDict Cplx Wc Dump.
Import ListNotations.
Open Scope string_scope.
Open Scope list_scope.

Lemma sneq (a b : string) : a <> b -> keqb a b = false.
Proof. intros N. apply keqb_neq. exact N. Qed.
Section Init.
Variable float_of_str : string -> option R.
Notation construct := (construct float_of_str).
Notation to_float := (to_float float_of_str).

Lemma need_ok m k : dmem m k = true -> exists v, dget m k = Some v /\ need m k = Ok v.
Proof. unfold dmem, need. destruct (dget m k); [eauto|discriminate]. Qed.
Lemma need_err m k : dmem m k = false -> need m k = Err TypeError.
Proof. unfold dmem, need. destruct (dget m k); [discriminate|auto]. Qed.
Lemma missing ps c m k : In k (required c) -> dmem m k = false -> construct ps c m = Err TypeError.
Proof.
  intros I M. unfold Dump.construct. destruct (dmem m "self"); auto. pose proof (need_err m k M) as E.
  assert (forall k', (exists v, need m k' = Ok v) \/ need m k' = Err TypeError) as D.
  { intros k'. unfold need. destruct (dget m k'); eauto. }
  destruct (D "eft") as [[? H1]|H1]; destruct (D "basis") as [[? H2]|H2]; destruct (D "scale") as [[? H3]|H3];
  destruct (D "sectors") as [[? H4]|H4]; destruct (D "values") as [[? H5]|H5];
  destruct c; simpl in I; rewrite ?H1, ?H2, ?H3, ?H4, ?H5; simpl; auto;
  exfalso; repeat (destruct I as [<-|I]; [congruence|]); exact I.
Qed.
Lemma self_err ps c m : dmem m "self" = true -> construct ps c m = Err TypeError.
Proof. intros H. unfold Dump.construct. rewrite H. reflexivity. Qed.
Lemma setattrs_bad c : forall kw d k, In k (dkeys kw) -> In k (properties c) -> setattrs c d kw = Err AttributeError.
Proof.
  induction kw as [|[k' v] t IH]; simpl; intros d k I P; [tauto|].
  destruct (mem k' (properties c)) eqn:M; auto. destruct I as [->|I].
  - apply (proj1 (mem_notIn _ k (properties c))) in M. tauto.
  - eapply IH; eauto.
Qed.
Lemma kwargs_In c m k : In k (dkeys m) -> ~ In k (required c) -> In k (dkeys (kwargs_of c m)).
Proof.
  intros I N. unfold dkeys, kwargs_of in *. apply in_map_iff in I. destruct I as ([k' v] & <- & I). simpl in *.
  apply in_map_iff. exists (k', v). split; auto. apply filter_In. split; auto. simpl.
  apply negb_true_iff. apply (proj2 (mem_notIn _ k' (required c))). exact N.
Qed.
Lemma prop_notreq c k : In k (properties c) -> ~ In k (required c).
Proof. destruct c; simpl; intuition (subst; discriminate). Qed.
Lemma dget_last_some (m : attrs) k v : wf m -> dget m k = Some v -> dget_last m k = Some v.
Proof. intros W E. rewrite dget_last_wf by auto. exact E. Qed.

(** Everything required is there, nothing is called "self". *)
Definition complete (c : wclass) (m : attrs) : Prop := dmem m "self" = false /\ forall k, In k (required c) -> dmem m k = true.
Lemma readonly ps c m k : complete c m -> dmem m k = true -> In k (properties c) ->
  (c = KWC -> exists s x, dget m "scale" = Some s /\ to_float s = Ok x) ->
  construct ps c m = Err AttributeError.
Proof.
  intros [S C] M P W. assert (In k (dkeys (kwargs_of c m))) as I.
  { apply kwargs_In; [apply dmem_In; auto|apply prop_notreq; auto]. }
  unfold Dump.construct. rewrite S. destruct c; simpl in C.
  - destruct (need_ok m "eft") as (e & _ & ->); [auto 10|]. destruct (need_ok m "sectors") as (s & _ & ->); [auto 10|]. simpl.
    eapply setattrs_bad; eauto.
  - destruct (need_ok m "eft") as (e & _ & ->); [auto 10|]. destruct (need_ok m "basis") as (b & _ & ->); [auto 10|].
    destruct (need_ok m "sectors") as (s & _ & ->); [auto 10|]. simpl. erewrite setattrs_bad by eauto. reflexivity.
  - destruct (W eq_refl) as (s & x & Es & Ex). destruct (need_ok m "eft") as (e & _ & ->); [auto 10|]. destruct (need_ok m "basis") as (b & _ & ->); [auto 10|].
    destruct (need_ok m "scale") as (s' & Es' & ->); [auto 10|]. destruct (need_ok m "values") as (v & _ & ->); [auto 10|]. cbn [bind].
    assert (s' = s) as -> by congruence. rewrite Ex. simpl. eapply setattrs_bad; eauto.
Qed.
Lemma bad_scale ps m s x : complete KWC m -> dget m "scale" = Some s -> to_float s = Err x -> construct ps KWC m = Err x.
Proof.
  intros [S C] E F. unfold Dump.construct. rewrite S. simpl in C.
  destruct (need_ok m "eft") as (e & _ & ->); [auto 10|]. destruct (need_ok m "basis") as (b & _ & ->); [auto 10|].
  destruct (need_ok m "scale") as (s' & Es' & ->); [auto 10|]. destruct (need_ok m "values") as (v & _ & ->); [auto 10|]. cbn [bind].
  assert (s' = s) as -> by congruence. rewrite F. reflexivity.
Qed.
(** The attributes of the new object other than the private ones. *)
Definition placeholder : list string := ["_name"; "_all_wcs"; "_dict"].
Definition own_attrs (m d : attrs) (special : string) : Prop :=
  forall k, k <> special -> ~ In k placeholder -> dget d k = dget m k.
Lemma dget_kw c m k : wf m -> ~ In k (required c) -> dget (kwargs_of c m) k = dget m k.
Proof.
  intros W N. unfold kwargs_of. rewrite dget_filter by auto. simpl.
  rewrite (proj2 (mem_notIn _ k (required c)) N). simpl. destruct (dget m k); reflexivity.
Qed.
Lemma dget_kw_req c m k : wf m -> In k (required c) -> dget (kwargs_of c m) k = None.
Proof.
  intros W N. unfold kwargs_of. rewrite dget_filter by auto. simpl.
  rewrite (proj2 (mem_In _ k (required c)) N). simpl. destruct (dget m k); reflexivity.
Qed.
Lemma set_base c m base k : wf m -> (forall k', dmem m k' = true -> ~ In k' (properties c)) ->
  dget (dupdate base (kwargs_of c m)) k =
  if mem k (required c) then dget base k else match dget m k with Some v => Some v | None => dget base k end.
Proof.
  intros W P. rewrite dget_dupdate, dget_last_wf by (apply kwargs_wf; auto).
  destruct (mem k (required c)) eqn:M.
  - rewrite dget_kw_req; auto. apply (proj1 (mem_In _ k (required c))); auto.
  - rewrite dget_kw; auto. apply (proj1 (mem_notIn _ k (required c))); auto.
Qed.
Lemma setattrs_good c m base : (forall k', dmem m k' = true -> ~ In k' (properties c)) ->
  setattrs c base (kwargs_of c m) = Ok (dupdate base (kwargs_of c m)).
Proof.
  intros P. apply setattrs_ok_conv. intros k I. apply (proj2 (mem_notIn _ k (properties c))). apply P.
  apply dmem_In. apply (kwargs_keys_incl float_of_str c). exact I.
Qed.
Ltac name_cases k := repeat match goal with
  | |- context [keqb ?a k] => destruct (keqb a k) eqn:?E; [apply keqb_eq in E; subst k|]
  end.
Lemma eft_ok ps m : wf m -> complete KEFT m -> (forall k, dmem m k = true -> ~ In k (properties KEFT)) ->
  exists d, construct ps KEFT m = Ok d /\ forall k, ~ In k placeholder -> dget d k = dget m k.
Proof.
  intros W [S C] P. unfold Dump.construct. rewrite S. simpl in C.
  destruct (need_ok m "eft") as (e & Ee & ->); [auto 10|]. destruct (need_ok m "sectors") as (s & Es & ->); [auto 10|]. cbn [bind].
  rewrite setattrs_good by auto. eexists. split; [reflexivity|]. intros k N. rewrite set_base by auto.
  destruct (mem k (required KEFT)) eqn:M.
  - apply (proj1 (mem_In _ k (required KEFT))) in M. simpl in M. destruct M as [<-|[<-|[]]]; rewrite ?Ee, ?Es; reflexivity.
  - apply (proj1 (mem_notIn _ k (required KEFT))) in M. simpl in M. destruct (dget m k); auto. simpl in N.
    cbn [dget]. rewrite !(sneq k _) by intuition congruence. reflexivity.
Qed.
Lemma wc_ok ps m s x : wf m -> complete KWC m -> (forall k, dmem m k = true -> ~ In k (properties KWC)) ->
  dget m "scale" = Some s -> to_float s = Ok x ->
  exists d, construct ps KWC m = Ok d /\ dget d "scale" = Some (DNum x) /\
            forall k, k <> "scale" -> ~ In k placeholder -> dget d k = dget m k.
Proof.
  intros W [S C] P Es Ex. unfold Dump.construct. rewrite S. simpl in C.
  destruct (need_ok m "eft") as (e & Ee & ->); [auto 10|]. destruct (need_ok m "basis") as (b & Eb & ->); [auto 10|].
  destruct (need_ok m "scale") as (s' & Es' & ->); [auto 10|]. destruct (need_ok m "values") as (v & Ev & ->); [auto 10|]. cbn [bind].
  assert (s' = s) as -> by congruence. rewrite Ex. cbn [bind]. rewrite setattrs_good by auto.
  eexists. split; [reflexivity|]. split; [rewrite set_base by auto; reflexivity|].
  intros k Ks N. rewrite set_base by auto. destruct (mem k (required KWC)) eqn:M.
  - apply (proj1 (mem_In _ k (required KWC))) in M. simpl in M.
    destruct M as [<-|[<-|[<-|[<-|[]]]]]; rewrite ?Ee, ?Eb, ?Ev; try reflexivity. congruence.
  - apply (proj1 (mem_notIn _ k (required KWC))) in M. simpl in M. destruct (dget m k); auto. simpl in N.
    cbn [dget]. rewrite !(sneq k _) by intuition congruence. reflexivity.
Qed.
(** Basis: the extra attributes are set before the parent is looked up, so the parent is the
    document's own entry. *)
Lemma basis_eq ps m e b s : wf m -> complete KBasis m -> (forall k, dmem m k = true -> ~ In k (properties KBasis)) ->
  dget m "eft" = Some e -> dget m "basis" = Some b -> dget m "sectors" = Some s ->
  let base := dupdate [("eft", e); ("basis", b); ("_name", DNull)] (kwargs_of KBasis m) in
  construct ps KBasis m =
  (let! s' := match dget m "parent" with
              | None => Ok s
              | Some p => match ps e p, s with
                          | Some q, DMap sm => Ok (DMap (dupdate q sm))
                          | Some _, _ => Err TypeError
                          | None, _ => Err ValueError end end in
   Ok (dset (dset base "sectors" s') "_all_wcs" DNull)).
Proof.
  intros W [S C] P Ee Eb Es base. unfold Dump.construct. rewrite S. unfold need. rewrite Ee, Eb, Es. cbn [bind].
  rewrite setattrs_good by auto. cbn [bind]. fold base.
  assert (dget base "parent" = dget m "parent") as ->.
  { unfold base. rewrite set_base by auto. simpl mem. destruct (dget m "parent"); reflexivity. }
  reflexivity.
Qed.
Lemma basis_attrs m e b s' : wf m -> (forall k, dmem m k = true -> ~ In k (properties KBasis)) ->
  dget m "eft" = Some e -> dget m "basis" = Some b -> 
  let d := dset (dset (dupdate [("eft", e); ("basis", b); ("_name", DNull)] (kwargs_of KBasis m)) "sectors" s') "_all_wcs" DNull in
  dget d "sectors" = Some s' /\ forall k, k <> "sectors" -> ~ In k placeholder -> dget d k = dget m k.
Proof.
  intros W P Ee Eb d. unfold d. split.
  - rewrite dget_dset. replace (keqb "_all_wcs" "sectors") with false by reflexivity. rewrite dget_dset, keqb_refl. reflexivity.
  - intros k Ks N. simpl in N. rewrite dget_dset, (sneq "_all_wcs" k) by intuition congruence.
    rewrite dget_dset, (sneq "sectors" k) by congruence. rewrite set_base by auto.
    destruct (mem k (required KBasis)) eqn:M.
    + apply (proj1 (mem_In _ k (required KBasis))) in M. simpl in M.
      destruct M as [<-|[<-|[<-|[]]]]; rewrite ?Ee, ?Eb; try reflexivity. congruence.
    + apply (proj1 (mem_notIn _ k (required KBasis))) in M. simpl in M. destruct (dget m k); auto.
      cbn [dget]. rewrite !(sneq k _) by intuition congruence. reflexivity.
Qed.
Lemma basis_ok ps m s : wf m -> complete KBasis m -> (forall k, dmem m k = true -> ~ In k (properties KBasis)) ->
  dget m "sectors" = Some s -> dget m "parent" = None ->
  exists d, construct ps KBasis m = Ok d /\ forall k, ~ In k placeholder -> dget d k = dget m k.
Proof.
  intros W C P Es Ep. pose proof C as [S Q]. simpl in Q.
  destruct (need_ok m "eft") as (e & Ee & _); [auto 10|]. destruct (need_ok m "basis") as (b & Eb & _); [auto 10|].
  rewrite (basis_eq ps m e b s) by auto. rewrite Ep. cbn [bind]. eexists. split; [reflexivity|].
  pose proof (basis_attrs m e b s W P Ee Eb) as [A B]. intros k N. destruct (string_dec k "sectors") as [->|Ks].
  - rewrite A, Es. reflexivity.
  - apply B; auto.
Qed.
Lemma basis_child ps m e s p : wf m -> complete KBasis m -> (forall k, dmem m k = true -> ~ In k (properties KBasis)) ->
  dget m "eft" = Some e -> dget m "sectors" = Some (DMap s) -> dget m "parent" = Some p ->
  (ps e p = None -> construct ps KBasis m = Err ValueError) /\
  (forall q, ps e p = Some q -> exists d, construct ps KBasis m = Ok d /\ dget d "sectors" = Some (DMap (dupdate q s)) /\
     forall k, k <> "sectors" -> ~ In k placeholder -> dget d k = dget m k).
Proof.
  intros W C P Ee Es Ep. pose proof C as [S Q]. simpl in Q. destruct (need_ok m "basis") as (b & Eb & _); [auto 10|].
  rewrite (basis_eq ps m e b (DMap s)) by auto. rewrite Ep. split.
  - intros ->. reflexivity.
  - intros q ->. cbn [bind]. eexists. split; [reflexivity|].
    exact (basis_attrs m e b (DMap (dupdate q s)) W P Ee Eb).
Qed.
End Init.
