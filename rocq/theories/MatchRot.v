(** rotate_down: what it does to each operator. *)
From Coq Require Import String List Bool Arith Reals Lra.
From Verif Require Import PyBase PyDict Cplx Tensor Smeft SmeftSpec SmeftWarsaw MatchOps MatchTab Match MatchSpec MatchFacts.
Import ListNotations.
Open Scope string_scope.
Open Scope list_scope.
Open Scope nat_scope.

Section Forms.
Local Open Scope C_scope.
Lemma slot_all U x : rd_all U x = on_slot 0 (mconj U) (on_slot 1 U (on_slot 2 (mconj U) (on_slot 3 U x))).
Proof.
  apply ten_ext; intros a b c d. unfold rd_all, on_slot. apply S3_ext; intros i. rewrite S3_mul_l. apply S3_ext; intros j.
  rewrite S3_mul_l, S3_mul_l. apply S3_ext; intros k. rewrite !S3_mul_l. apply S3_ext; intros l. ring.
Qed.
Lemma slot_kl U x : rd_kl U x = on_slot 2 (mconj U) (on_slot 3 U x).
Proof. apply ten_ext; intros a b c d. unfold rd_kl, on_slot. apply S3_ext; intros i. rewrite S3_mul_l. apply S3_ext; intros j. ring. Qed.
Lemma slot_ij U x : rd_ij U x = on_slot 0 (mconj U) (on_slot 1 U x).
Proof. apply ten_ext; intros a b c d. unfold rd_ij, on_slot. apply S3_ext; intros i. rewrite S3_mul_l. apply S3_ext; intros j. ring. Qed.
Lemma slot_ik U x : rd_ik U x = on_slot 0 (mconj U) (on_slot 2 (mconj U) x).
Proof. apply ten_ext; intros a b c d. unfold rd_ik, on_slot. apply S3_ext; intros i. rewrite S3_mul_l. apply S3_ext; intros j. ring. Qed.
Lemma slot_j U x : rd_j U x = on_slot 1 U x. Proof. reflexivity. Qed.
Lemma slot_k U x : rd_k U x = on_slot 2 (mconj U) x. Proof. reflexivity. Qed.
Lemma slot_l U x : rd_l U x = on_slot 3 U x. Proof. reflexivity. Qed.
(** Changes of different fields commute, two changes of one field compose. *)
Lemma slot_comm n m a b x : n <> m -> n < 4 -> m < 4 -> on_slot n a (on_slot m b x) = on_slot m b (on_slot n a x).
Proof.
  intros N A B. apply ten_ext; intros p r s u.
  destruct n as [|[|[|[|]]]], m as [|[|[|[|]]]]; try congruence; try (exfalso; Lia.lia); unfold on_slot, S3; ring.
Qed.
Lemma slot_comp n a b x : on_slot n a (on_slot n b x) = on_slot n (mmul b a) x.
Proof. apply ten_ext; intros p r s u. destruct n as [|[|[|]]]; unfold on_slot, mmul, S3; ring. Qed.
Lemma slot_eye n x : on_slot n meye x = x.
Proof.
  apply ten_ext; intros p r s u. destruct n as [|[|[|]]]; unfold on_slot, meye;
    [apply (S3_delta_l (fun i => x i r s u))|apply (S3_delta_l (fun i => x p i s u))|apply (S3_delta_l (fun i => x p r i u))|
     apply (S3_delta_l (fun i => x p r s i))].
Qed.
End Forms.
Lemma undo V : unitary V -> mmul V (mdag V) = meye /\ mmul (mconj V) (mconj (mdag V)) = meye.
Proof.
  intros H. pose proof (unitary_right V H) as E. split; auto. rewrite <- mconj_mul, E. apply mconj_eye.
Qed.
Ltac undo_tac V H := let A := fresh in let B := fresh in destruct (undo V H) as [A B]; rewrite ?slot_all, ?slot_kl, ?slot_ij, ?slot_ik, ?slot_j, ?slot_k, ?slot_l.
Lemma undo_form f V x : In f [rd_all; rd_kl; rd_ij; rd_ik; rd_j; rd_k; rd_l] -> unitary V -> f (mdag V) (f V x) = x.
Proof.
  intros I H. destruct (undo V H) as [A B]. cbn [In] in I.
  repeat (destruct I as [<-|I]); [..|contradiction];
    rewrite ?slot_all, ?slot_kl, ?slot_ij, ?slot_ik, ?slot_j, ?slot_k, ?slot_l.
  - rewrite (slot_comm 3 0), (slot_comm 3 1), (slot_comm 3 2), slot_comp, A, slot_eye by (discriminate || Lia.lia).
    rewrite (slot_comm 2 0), (slot_comm 2 1), slot_comp, B, slot_eye by (discriminate || Lia.lia).
    rewrite (slot_comm 1 0), !slot_comp, A, B, !slot_eye by (discriminate || Lia.lia). reflexivity.
  - rewrite (slot_comm 3 2), !slot_comp, A, B, !slot_eye by (discriminate || Lia.lia). reflexivity.
  - rewrite (slot_comm 1 0), !slot_comp, A, B, !slot_eye by (discriminate || Lia.lia). reflexivity.
  - rewrite (slot_comm 2 0), !slot_comp, !B, !slot_eye by (discriminate || Lia.lia). reflexivity.
  - rewrite slot_comp, A, slot_eye. reflexivity.
  - rewrite slot_comp, B, slot_eye. reflexivity.
  - rewrite slot_comp, A, slot_eye. reflexivity.
Qed.

(** ** The loops *)
Definition rank4 (c : arrays) (k : string) : Prop := exists x, dget c k = Some (A4 x).
Lemma rotate_from_ok V c_in tab : forall c, (forall k, In k (map fst tab) -> rank4 c_in k) ->
  exists c', rotate_from V c_in c tab = Ok c'.
Proof.
  induction tab as [|[k f] t IH]; intros c H; simpl; [eauto|].
  destruct (H k) as (x & D); [simpl; auto|]. unfold dlookup. rewrite D. simpl. apply IH. intros; apply H; simpl; auto.
Qed.
Lemma rotate_from_get V c_in tab : NoDup (map fst tab) -> forall c c', rotate_from V c_in c tab = Ok c' ->
  (forall k f, In (k, f) tab -> exists x, dget c_in k = Some (A4 x) /\ dget c' k = Some (A4 (f V x))) /\
  (forall k, ~ In k (map fst tab) -> dget c' k = dget c k).
Proof.
  induction tab as [|[k f] t IH]; intros N c c' E; simpl in E.
  - inversion E; subst. split; [intros ? ? []|auto].
  - inversion N as [|a l NI N']; subst. unfold dlookup in E. destruct (dget c_in k) as [[|m|x]|] eqn:D; try discriminate.
    simpl in E. destruct (IH N' _ _ E) as [A B]. split.
    + intros k' f' [I|I]; [injection I as <- <-|apply A; auto]. exists x. split; auto. rewrite B by exact NI. apply dget_dset_eq.
    + intros k' M. simpl in M. rewrite B by tauto. apply dget_dset_neq. intros ->. tauto.
Qed.
Lemma rotate_from_keys V c_in tab : forall c c', (forall k, In k (map fst tab) -> In k (dkeys c)) ->
  rotate_from V c_in c tab = Ok c' -> dkeys c' = dkeys c.
Proof.
  induction tab as [|[k f] t IH]; intros c c' H E; simpl in E; [congruence|].
  destruct (dlookup c_in k) as [[|m|x]|]; try discriminate. simpl in E.
  assert (dkeys (dset c k (A4 (f V x))) = dkeys c) as K by (rewrite dkeys_dset; destruct (dmem c k) eqn:M; auto; exfalso; unfold dmem in M; destruct (dget c k) eqn:G; [discriminate|]; apply dget_None in G; apply G, H; simpl; auto).
  rewrite <- K. apply IH; auto. intros k' I. rewrite K. apply H. simpl; auto.
Qed.
Lemma rd_keys_NoDup : NoDup (map fst rd_tab).
Proof. vm_compute. repeat constructor; simpl; intuition discriminate. Qed.
Definition rd_names : list string := map fst rd_tab.
Lemma rotate_down_ok V c : (forall k, In k rd_names -> rank4 c k) -> exists c', rotate_down V c = Ok c'.
Proof. apply rotate_from_ok. Qed.
Lemma rotate_down_get V c c' : rotate_down V c = Ok c' ->
  (forall k f, In (k, f) rd_tab -> exists x, dget c k = Some (A4 x) /\ dget c' k = Some (A4 (f V x))) /\
  (forall k, ~ In k rd_names -> dget c' k = dget c k).
Proof. apply rotate_from_get, rd_keys_NoDup. Qed.
Lemma rotate_down_keys V c c' : rotate_down V c = Ok c' -> dkeys c' = dkeys c.
Proof.
  intros E. apply (rotate_from_keys V c rd_tab c c'); auto. intros k I. apply in_map_iff in I. destruct I as ([k0 f] & <- & I).
  destruct (proj1 (rotate_down_get V c c' E) k0 f I) as (x & D & _). exact (dget_Some_key _ _ _ D).
Qed.
Lemma rd_forms k f : In (k, f) rd_tab -> In f [rd_all; rd_kl; rd_ij; rd_ik; rd_j; rd_k; rd_l].
Proof.
  unfold rd_tab. rewrite !in_app_iff, !in_map_iff. intros H.
  repeat (destruct H as [(? & E & _)|H]); try destruct H as (? & E & _); injection E as _ <-; simpl; tauto.
Qed.
Lemma in_names k : In k rd_names -> exists f, In (k, f) rd_tab.
Proof. intros I. apply in_map_iff in I. destruct I as ([a f] & <- & I). eauto. Qed.
Lemma rotate_undo V c c1 : unitary V -> wf c -> rotate_down V c = Ok c1 -> rotate_down (mdag V) c1 = Ok c.
Proof.
  intros U W E. pose proof (rotate_down_get _ _ _ E) as [A B]. pose proof (rotate_down_keys _ _ _ E) as K.
  destruct (rotate_down_ok (mdag V) c1) as (c2 & E2).
  { intros k I. destruct (in_names k I) as (f & F). destruct (A k f F) as (x & _ & D). eexists; eauto. }
  rewrite E2. f_equal. pose proof (rotate_down_get _ _ _ E2) as [A2' B2]. pose proof (rotate_down_keys _ _ _ E2) as K2.
  apply dict_ext; [unfold wf; rewrite K2, K; exact W|congruence|].
  intros k _. destruct (in_dec string_dec k rd_names) as [I|N].
  - destruct (in_names k I) as (f & F). destruct (A k f F) as (x & D & D1). destruct (A2' k f F) as (y & D1' & D2).
    rewrite D2, D. assert (y = f V x) as -> by congruence. rewrite (undo_form f); auto. apply (rd_forms k); auto.
  - rewrite B2, B by auto. reflexivity.
Qed.

(** ** Compared with the field content *)
Definition unrotated : list string := ["dgamma"; "dG"; "S8ddRR"; "SuddLL"; "SduuLL"; "SduuLR"; "SdudRL"].
Lemma forms_spec V x : forall k f, In (k, f) rd_tab -> exists s, dget jms_slots k = Some s /\ f V x = new_downs4 V 0 s x.
Proof.
  intros k f I. unfold rd_tab in I. cbn [map app In] in I.
  repeat (destruct I as [I|I]; [injection I as <- <-; eexists; split; [reflexivity|];
    cbn [new_downs4 vec sca flip]; rewrite ?slot_all, ?slot_kl, ?slot_ij, ?slot_ik, ?slot_j, ?slot_k, ?slot_l; reflexivity|]).
  contradiction.
Qed.
Lemma no_left_down V s : left_down s = false -> forall n x, new_downs4 V n s x = x.
Proof.
  induction s as [|[[f b] c] t IH]; intros H n x; simpl in *; auto.
  apply orb_false_iff in H. destruct H as [H1 H2]. destruct f; auto. destruct c; auto. discriminate.
Qed.
Lemma no_left_down2 V s : left_down s = false -> forall n x, new_downs2 V n s x = x.
Proof.
  induction s as [|[[f b] c] t IH]; intros H n x; simpl in *; auto.
  apply orb_false_iff in H. destruct H as [H1 H2]. destruct f; auto. destruct c; auto. discriminate.
Qed.
Lemma left_downs_listed : forallb (fun kv : string * list slot => negb (left_down (snd kv)) || mem (fst kv) (rd_names ++ unrotated)) jms_slots = true.
Proof. vm_compute. reflexivity. Qed.
Lemma rotate_down_spec V c c' op s v : rotate_down V c = Ok c' -> dget jms_slots op = Some s -> dget c op = Some v -> ~ In op unrotated ->
  dget c' op = Some (new_downs V s v).
Proof.
  intros E S D N. destruct (rotate_down_get _ _ _ E) as [A B]. destruct (in_dec string_dec op rd_names) as [I|M].
  - destruct (in_names op I) as (f & F). destruct (A op f F) as (x & Dx & D'). rewrite D'.
    destruct (forms_spec V x op f F) as (s' & S' & ->). assert (s' = s) as -> by congruence.
    assert (v = A4 x) as -> by congruence. reflexivity.
  - rewrite B, D by auto. pose proof left_downs_listed as H. rewrite forallb_forall in H. apply dget_In in S. specialize (H _ S).
    apply orb_true_iff in H. cbn [fst snd] in H. destruct H as [H|H].
    + apply negb_true_iff in H. destruct v; simpl; rewrite ?no_left_down, ?no_left_down2 by auto; reflexivity.
    + apply mem_In in H. apply in_app_iff in H. tauto.
Qed.
Lemma rotate_down_rest V c c' op : rotate_down V c = Ok c' -> ~ In op rd_names -> dget c' op = dget c op.
Proof. intros E. apply (rotate_down_get _ _ _ E). Qed.
