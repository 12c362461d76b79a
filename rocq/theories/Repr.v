(** Model of [repr] of bases and coefficient files, classes.py 278-279 and 375-377. *)
From Coq Require Import String Ascii List Bool Arith Reals Lia.
From Verif Require Import PyBase PyDict Cplx Bases Wc Markdown.
Import ListNotations.
Open Scope string_scope.
Open Scope list_scope.
Open Scope nat_scope.
Local Notation "a +++ b" := (String.append a b) (at level 60, right associativity).

Definition quote : ascii := "'"%char.
(** Basis.__repr__, classes.py 278-279; [{{...}}] in a format is the text [{...}].  Both attributes are set first in the constructor
    (218-219), so it does not fail for objects whose construction failed later. *)
Definition basis_repr (w : world) (id : nat) : option string :=
  match nth_error (w_objs w) id with
  | Some o => Some ("wcxf.Basis('" +++ bo_eft o +++ "', '" +++ bo_basis o +++ "', {...})")
  | None => None
  end.
(** WC.__repr__, classes.py 375-377.  [show_scale]: ['{}'.format] of a float. *)
Definition wc_repr (show_scale : R -> string) (o : wc) : string :=
  "wcxf.WC(eft='" +++ wc_eft o +++ "', basis='" +++ wc_basis o +++ "', scale='" +++ show_scale (wc_scale o) +++ "', values={...})".

(** ** Texts *)
Lemma app_inj_l (a b c : string) : a +++ b = a +++ c -> b = c.
Proof. induction a as [|x a IH]; cbn; intros H; [exact H|]. injection H. exact IH. Qed.
Lemma app_inj_r (a b c : string) : a +++ c = b +++ c -> a = b.
Proof.
  revert b. induction a as [|x a IH]; intros [|y b] H; cbn in H; [reflexivity| | |].
  - exfalso. assert (String.length c = String.length (String y (b +++ c))) as L by (rewrite <- H; reflexivity). cbn in L. rewrite app_length in L. lia.
  - exfalso. assert (String.length (String x (a +++ c)) = String.length c) as L by (rewrite H; reflexivity). cbn in L. rewrite app_length in L. lia.
  - injection H as -> H. f_equal. apply IH, H.
Qed.
(** The part before the first, respectively after the last [c]. *)
Lemma first_inj c a a' b b' : lacks c a = true -> lacks c a' = true -> a +++ String c b = a' +++ String c b' -> a = a' /\ b = b'.
Proof.
  intros L L' H. assert (a = a') as -> by (rewrite <- (upto_app c a b L), <- (upto_app c a' b' L'), H; reflexivity). split; [reflexivity|]. apply app_inj_l in H. injection H. auto.
Qed.
Lemma last_inj c a a' b b' : lacks c b = true -> lacks c b' = true -> a +++ String c b = a' +++ String c b' -> a = a' /\ b = b'.
Proof.
  intros L L'. revert a'. induction a as [|x a IH]; intros [|y a'] H; cbn in H.
  - injection H. auto.
  - exfalso. injection H as _ H. subst b. rewrite lacks_app in L. apply andb_true_iff in L. destruct L as [_ L]. cbn in L. rewrite Ascii.eqb_refl in L. discriminate.
  - exfalso. injection H as _ H. subst b'. rewrite lacks_app in L'. apply andb_true_iff in L'. destruct L' as [_ L']. cbn in L'. rewrite Ascii.eqb_refl in L'. discriminate.
  - injection H as -> H. destruct (IH a' H) as [-> ->]. auto.
Qed.

(** ** Names of objects *)
Definition called (w : world) (id : nat) (e b : string) : Prop := exists o, nth_error (w_objs w) id = Some o /\ bo_eft o = e /\ bo_basis o = b.
Lemma called_fun w id e b e' b' : called w id e b -> called w id e' b' -> e = e' /\ b = b'.
Proof. intros (o & E & <- & <-) (o' & E' & <- & <-). rewrite E in E'. injection E' as <-. auto. Qed.
Lemma called_set w id e b ef ba x s r : called w id e b ->
  (forall o, nth_error (w_objs w) x = Some o -> bo_eft r = bo_eft o /\ bo_basis r = bo_basis o) -> called (World ef ba (list_set (w_objs w) x r) s) id e b.
Proof.
  intros (o & E & <- & <-) H. unfold called. cbn [w_objs]. rewrite nth_list_set. destruct (Nat.eqb x id) eqn:Q; [|exists o; auto]. apply Nat.eqb_eq in Q. subst x.
  assert (id < length (w_objs w)) as Li by (apply nth_error_Some; congruence). apply Nat.ltb_lt in Li. rewrite Li. exists r. destruct (H o E). auto.
Qed.
Lemma called_read w x id e b : called w id e b -> called (snd (all_wcs w x)) id e b.
Proof.
  intros C. unfold all_wcs. destruct (nth_error (w_objs w) x) as [o|] eqn:E; [|exact C]. destruct (bo_cache o) as [[l|]|]; try exact C. destruct (sectors_of w x) as [s|]; [|exact C]. destruct (names_of s) as [l|]; [|exact C]. cbn [snd].
  apply called_set; [exact C|]. intros o' E'. rewrite E in E'. injection E' as <-. auto.
Qed.
Lemma nth_old {A} (l r : list A) n x : nth_error l n = Some x -> nth_error (l ++ r) n = Some x.
Proof. intros H. rewrite nth_error_app1; [exact H|]. apply nth_error_Some. congruence. Qed.
Lemma new_objs w e b p s : exists r, w_objs (snd (new_basis w e b p s)) = w_objs w ++ [r] /\ bo_eft r = e /\ bo_basis r = b.
Proof.
  assert (forall (l : list bobj) x y, list_set (l ++ [x]) (length l) y = l ++ [y]) as LS by (induction l as [|z l IH]; intros x y; cbn; [reflexivity|rewrite IH; reflexivity]).
  unfold new_basis. destruct p as [p|].
  - destruct (let! pid := _ in _) as [r|]; cbn [snd w_objs]; [rewrite LS|]; eexists; (split; [reflexivity|split; reflexivity]).
  - cbn [snd w_objs]. rewrite LS. eexists. split; [reflexivity|split; reflexivity].
Qed.
Lemma new_reg w e b p s : w_bases (snd (new_basis w e b p s)) = Some (dset (reg_or_empty (w_bases w)) (e, b) (length (w_objs w))).
Proof. unfold new_basis. destruct p as [p|]; [destruct (let! pid := _ in _) as [r|]|]; reflexivity. Qed.
Lemma validate_world w e b k : snd (wc_validate w e b k) = w \/ exists id, snd (wc_validate w e b k) = snd (all_wcs w id).
Proof.
  unfold wc_validate. destruct (lookup_reg (w_efts w) e); [|left; reflexivity]. destruct (lookup_reg (w_bases w) (e, b)) as [id|]; [|left; reflexivity]. right. exists id. destruct (all_wcs w id). reflexivity.
Qed.
Lemma called_step w o id e b : called w id e b -> called (wstep w o) id e b.
Proof.
  intros C. destruct o as [e' s|e' b' p s|e' b'| |e'|x|e' b' k]; cbn [wstep].
  - exact C.
  - destruct (new_objs w e' b' p s) as (r & E & _). destruct C as (o & G & Q). exists o. rewrite E. split; [apply nth_old, G|exact Q].
  - unfold del_basis. destruct (w_bases w) as [d|]; [|exact C]. destruct (dmem d (e', b')); exact C.
  - exact C.
  - unfold del_eft. destruct (w_efts w) as [d|]; [|exact C]. destruct (dmem d e'); exact C.
  - apply called_read, C.
  - destruct (validate_world w e' b' k) as [->|[x ->]]; [exact C|apply called_read, C].
Qed.
Lemma called_run h' : forall h id e b, called (wrun h) id e b -> called (wrun (h ++ h')) id e b.
Proof. induction h' as [|o h' IH]; intros h id e b C; [rewrite app_nil_r; exact C|]. change (o :: h') with ([o] ++ h'). rewrite List.app_assoc. apply IH. rewrite wrun_snoc. apply called_step, C. Qed.
(** Registered objects have the name under which they are registered. *)
Lemma read_reg w x : w_bases (snd (all_wcs w x)) = w_bases w.
Proof. unfold all_wcs. destruct (nth_error (w_objs w) x) as [o|]; auto. destruct (bo_cache o) as [[l|]|]; auto. destruct (sectors_of w x) as [s|]; auto. destruct (names_of s); auto. Qed.
Definition reg_ok (w : world) : Prop := forall e b id, In ((e, b), id) (reg_or_empty (w_bases w)) -> called w id e b.
Lemma reg_same w w' : w_bases w' = w_bases w -> (forall id e b, called w id e b -> called w' id e b) -> reg_ok w -> reg_ok w'.
Proof. intros E C R e b id. rewrite E. intros G. apply C, R, G. Qed.
Lemma del_in {V} (d : dict (string * string) V) k x : In x (ddel d k) -> In x d.
Proof. induction d as [|[a v] d IH]; cbn; [auto|]. destruct (keqb k a); cbn; [auto|]. intros [H|H]; auto. Qed.
Lemma set_in {V} (d : dict (string * string) V) k v x : In x (dset d k v) -> x = (k, v) \/ In x d.
Proof. induction d as [|[a w] d IH]; cbn; [intros [H|[]]; auto|]. destruct (keqb k a) eqn:Q; cbn; [apply keqb_eq in Q; subst a|]; intros [H|H]; auto. destruct (IH H); auto. Qed.
Lemma reg_step w o : reg_ok w -> reg_ok (wstep w o).
Proof.
  intros R. destruct o as [e' s|e' b' p s|e' b'| |e'|x|e' b' k].
  - exact R.
  - intros e b id G. cbn [wstep] in *. rewrite new_reg in G. cbn [reg_or_empty] in G. destruct (set_in _ _ _ _ G) as [Q|Q].
    + injection Q as -> -> ->. destruct (new_objs w e' b' p s) as (r & E & N). exists r. rewrite E, nth_error_app2, Nat.sub_diag by lia. split; [reflexivity|exact N].
    + apply (called_step w (NewBasis e' b' p s)), R, Q.
  - intros e b id G. apply (called_step w (DelBasis e' b')), R. cbn [wstep] in G. unfold del_basis in G. destruct (w_bases w) as [d|] eqn:Ew; [|cbn [snd] in G; rewrite Ew in G; exact G]. destruct (dmem d (e', b')); [|cbn [snd] in G; rewrite Ew in G; exact G].
    apply (del_in d (e', b')). exact G.
  - intros e b id [].
  - apply (reg_same w); [|intros id e b; apply (called_step w (DelEFT e'))|exact R]. cbn [wstep]. unfold del_eft. destruct (w_efts w) as [d|]; [|reflexivity]. destruct (dmem d e'); reflexivity.
  - apply (reg_same w); [apply read_reg|intros id e b; apply called_read|exact R].
  - apply (reg_same w); [|intros id e b; apply (called_step w (Validate e' b' k))|exact R]. cbn [wstep]. destruct (validate_world w e' b' k) as [->|[x ->]]; [reflexivity|apply read_reg].
Qed.
Lemma reg_run h : reg_ok (wrun h).
Proof. induction h as [|o h IH] using rev_ind; [intros e b id []|]. rewrite wrun_snoc. apply reg_step, IH. Qed.
