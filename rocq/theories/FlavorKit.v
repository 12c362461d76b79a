(** FlavorKit <-> JMS, translators/wet.py 1224-1283. *)
From Coq Require Import String Ascii List Bool Arith Reals Lra.
From Verif Require Import PyBase PyDict Cplx Tensor Wc Params Smeft SmeftNames Wet WetNf FkTab.
Import ListNotations.
Open Scope string_scope.
Open Scope list_scope.
Open Scope nat_scope.
#[local] Opaque Ceq_dec.

(** [s[::-1]] *)
Fixpoint rev_str (s : string) : string := match s with "" => "" | String a t => (rev_str t ++ String a "")%string end.
(** [{v: k for k, v in d.items()}] *)
Definition revert (d : dict string string) : dict string string := dict_of (map (fun kv => (snd kv, fst kv)) d).
Section FK.
Variable p : params.
(** [ind[i]] *)
Definition at_ (s : string) (i : nat) : res ascii := match String.get i s with Some a => Ok a | None => Err IndexError end.
(** The three [if ind[i] == ...]; [m] is the value of the local variable m so far: it survives from
    one turn of the loop to the next. *)
Definition mass (m : option R) (c : ascii) : option R :=
  if Ascii.eqb c "1" then Some (param p "m_e") else if Ascii.eqb c "2" then Some (param p "m_mu")
  else if Ascii.eqb c "3" then Some (param p "m_tau") else m.
Definition bound (m : option R) : res R := match m with Some r => Ok r | None => Err UnboundLocalError end.
(** [sqrt(4* pi * p['alpha_e'])] *)
Definition charge_e : res R :=
  if Rlt_dec (4 * PI * param p "alpha_e") 0 then Err ValueError else Ok (sqrt (4 * PI * param p "alpha_e")).
Definition fdiv (a b : R) : res R := if Req_EM_T b 0 then Err ZeroDivisionError else Ok (a / b)%R.

(** The body of the loop of FlavorKit_to_JMS, 1229-1250: the new m, the key and the value set. *)
Definition fk_one (m : option R) (k : string) (v : C) : res (option R * (string * C)) :=
  match dget fk_jms k with
  | Some t => Ok (m, (t, v))
  | None =>
  match dget fk_jms_conj k with
  | Some t => Ok (m, (t, Cconj v))
  | None =>
  if String.eqb k "AVLL_2231" then Ok (m, ("VeeLL_1223", v))
  else if String.eqb k "AVRR_2231" then Ok (m, ("VeeRR_1223", v))
  else if String.eqb (substring 0 4 k) "K2R_" then
    let ind := rev_str (substring 4 (String.length k - 4) k) in
    let! e := charge_e in
    let! c := at_ ind 1 in
    let m' := mass m c in
    let! r := bound m' in
    Ok (m', (("egamma_" ++ ind)%string, Cmul (RtoC (1 / 2 * e * r)) v))
  else Err ValueError
  end end.
Fixpoint fk_run (m : option R) (acc : dict string C) (l : list (string * C)) : res (dict string C) :=
  match l with
  | [] => Ok acc
  | (k, v) :: r => let! x := fk_one m k v in fk_run (fst x) (dset acc (fst (snd x)) (snd (snd x))) r
  end.
(** The body of the loop of JMS_to_FlavorKit, 1260-1282; nothing is set for [None]. *)
Definition jms_one (m : option R) (k : string) (v : C) : res (option R * option (string * C)) :=
  match dget (revert fk_jms) k with
  | Some t => Ok (m, Some (t, v))
  | None =>
  match dget (revert fk_jms_conj) k with
  | Some t => Ok (m, Some (t, Cconj v))
  | None =>
  if String.eqb k "VeeLL_1223" then Ok (m, Some ("AVLL_2231", v))
  else if String.eqb k "VeeRR_1223" then Ok (m, Some ("AVRR_2231", v))
  else if String.eqb (hd "" (split_us k)) "egamma" then
    let! part := match split_us k with _ :: q :: _ => Ok q | _ => Err IndexError end in
    let ind := rev_str part in
    let! a := at_ ind 0 in
    let! b := at_ ind 1 in
    if Ascii.eqb a b then Ok (m, None)
    else
      let! e := charge_e in
      let m' := mass m a in
      let! r := bound m' in
      let! x := fdiv 2 e in
      let! y := fdiv x r in
      Ok (m', Some (("K2R_" ++ ind)%string, Cmul (RtoC y) v))
  else Ok (m, None)
  end end.
Fixpoint jms_run (m : option R) (acc : dict string C) (l : list (string * C)) : res (dict string C) :=
  match l with
  | [] => Ok acc
  | (k, v) :: r => let! x := jms_one m k v in
                   jms_run (fst x) (match snd x with Some (k', v') => dset acc k' v' | None => acc end) r
  end.
End FK.
Section Params.
Variable qcd_mb qcd_ms : R -> R -> R -> res R.
Variable qcd_as : R -> R -> res R.
(** FlavorKit_to_JMS, 1224-1250 *)
Definition FlavorKit_to_JMS (c : dict string C) (scale : R) (input : option params) : res (dict string C) :=
  let! p := get_parameters qcd_mb qcd_ms qcd_as scale input in fk_run p None [] c.
(** JMS_to_FlavorKit, 1253-1283 *)
Definition JMS_to_FlavorKit (c : dict string C) (scale : R) (input : option params) : res (dict string C) :=
  let! p := get_parameters qcd_mb qcd_ms qcd_as scale input in jms_run p None [] c.
End Params.

(** ** The tables *)
Definition keys_fk : list string := dkeys fk_jms ++ dkeys fk_jms_conj.
Definition vals_fk : list string := map snd fk_jms ++ map snd fk_jms_conj.
Definition off : list (fl * fl) := [(F1, F2); (F1, F3); (F2, F1); (F2, F3); (F3, F1); (F3, F2)].
Definition k2r (ij : fl * fl) : string := cname "K2R" [fst ij; snd ij].
Definition ega (ij : fl * fl) : string := cname "egamma" [snd ij; fst ij].
Fixpoint nodups (l : list string) : bool := match l with [] => true | x :: t => negb (existsb (String.eqb x) t) && nodups t end.
Lemma nodups_ok l : nodups l = true -> NoDup l.
Proof.
  induction l as [|x t IH]; simpl; intros H; constructor; apply andb_true_iff in H; destruct H as [A B]; auto.
  intros I. apply negb_true_iff in A. assert (existsb (String.eqb x) t = true) as E; [|congruence].
  apply existsb_exists. exists x. split; auto. apply String.eqb_refl.
Qed.
Definition tables_ok : bool :=
  nodups (keys_fk ++ ["AVLL_2231"; "AVRR_2231"] ++ map k2r off) &&
  nodups (vals_fk ++ ["VeeLL_1223"; "VeeRR_1223"]) &&
  forallb (fun v => negb (String.eqb (hd "" (split_us v)) "egamma")) (vals_fk ++ ["VeeLL_1223"; "VeeRR_1223"]).
Lemma tables : tables_ok = true.
Proof. vm_cast_no_check (eq_refl true). Qed.
#[local] Opaque fk_jms fk_jms_conj.
Lemma tables_gen (ks vs : list string) : nodups ks && nodups vs && forallb (fun v => negb (String.eqb (hd "" (split_us v)) "egamma")) vs = true ->
  NoDup ks /\ NoDup vs /\ (forall v, In v vs -> hd "" (split_us v) <> "egamma").
Proof.
  intros T. apply andb_true_iff in T. destruct T as [T C]. apply andb_true_iff in T. destruct T as [A B].
  split; [apply nodups_ok; exact A|]. split; [apply nodups_ok; exact B|]. intros v I E. rewrite forallb_forall in C. specialize (C v I).
  rewrite E in C. discriminate.
Qed.
Lemma tables3 : NoDup (keys_fk ++ ["AVLL_2231"; "AVRR_2231"] ++ map k2r off) /\ NoDup (vals_fk ++ ["VeeLL_1223"; "VeeRR_1223"]) /\
  (forall v, In v (vals_fk ++ ["VeeLL_1223"; "VeeRR_1223"]) -> hd "" (split_us v) <> "egamma").
Proof. exact (tables_gen _ _ tables). Qed.

Lemma nodup_app_l {A} (l m : list A) : NoDup (l ++ m) -> NoDup l.
Proof. induction l; simpl; intros H; constructor; inversion H; subst; auto. intros I. apply H2. apply in_or_app. auto. Qed.
Lemma nodup_app_r {A} (l m : list A) : NoDup (l ++ m) -> NoDup m.
Proof. induction l; simpl; auto. intros H. inversion H; auto. Qed.
Lemma nodup_app_d {A} (l m : list A) x : NoDup (l ++ m) -> In x l -> In x m -> False.
Proof. induction l; simpl; [tauto|]. intros H I J. inversion H; subst. destruct I as [->|I]; auto. apply H2. apply in_or_app. auto. Qed.

Lemma revert_get d : NoDup (map snd d) -> forall k v, dget d k = Some v -> dget (revert d) v = Some k.
Proof.
  intros N k v E. unfold revert. assert (map fst (map (fun kv : string * string => (snd kv, fst kv)) d) = map snd d) as Q by (rewrite map_map; reflexivity).
  rewrite dict_of_wf by (rewrite Q; exact N). apply In_dget; [unfold wf, dkeys; rewrite Q; exact N|].
  apply dget_In in E. apply in_map_iff. exists (k, v). auto.
Qed.
Lemma revert_key d : NoDup (map snd d) -> forall v, In v (dkeys (revert d)) <-> In v (map snd d).
Proof.
  intros N v. unfold revert. assert (map fst (map (fun kv : string * string => (snd kv, fst kv)) d) = map snd d) as Q by (rewrite map_map; reflexivity).
  rewrite dict_of_wf by (rewrite Q; exact N). unfold dkeys. rewrite Q. reflexivity.
Qed.
Lemma revert_back d : wf d -> NoDup (map snd d) -> forall k v, dget (revert d) v = Some k -> dget d k = Some v.
Proof.
  intros W N k v E. unfold revert in E. assert (map fst (map (fun kv : string * string => (snd kv, fst kv)) d) = map snd d) as Q by (rewrite map_map; reflexivity).
  rewrite dict_of_wf in E by (rewrite Q; exact N). apply dget_In in E. apply in_map_iff in E. destruct E as ([a b] & E & I). cbn [fst snd] in E.
  injection E as <- <-. apply In_dget; auto.
Qed.
#[local] Opaque revert.
Lemma keys_wf : wf fk_jms /\ wf fk_jms_conj /\ (forall k, In k (dkeys fk_jms) -> In k (dkeys fk_jms_conj) -> False).
Proof.
  destruct tables3 as (A & _). unfold keys_fk in A. apply nodup_app_l in A. split; [apply (nodup_app_l _ _ A)|].
  split; [apply (nodup_app_r _ _ A)|]. intros k I J. exact (nodup_app_d _ _ k A I J).
Qed.
Lemma vals_wf : NoDup (map snd fk_jms) /\ NoDup (map snd fk_jms_conj) /\ (forall k, In k (map snd fk_jms) -> In k (map snd fk_jms_conj) -> False).
Proof.
  destruct tables3 as (_ & A & _). unfold vals_fk in A. apply nodup_app_l in A. split; [apply (nodup_app_l _ _ A)|].
  split; [apply (nodup_app_r _ _ A)|]. intros k I J. exact (nodup_app_d _ _ k A I J).
Qed.

(** The names that FlavorKit and JMS have in common. *)
Inductive common : string -> string -> Prop :=
| Plain k t : dget fk_jms k = Some t -> common k t
| Conj k t : dget fk_jms_conj k = Some t -> common k t
| AVLL : common "AVLL_2231" "VeeLL_1223"
| AVRR : common "AVRR_2231" "VeeRR_1223"
| K2R ij : In ij off -> common (k2r ij) (ega ij).
Definition usable_fk (p : params) : Prop :=
  (0 < param p "alpha_e" /\ param p "m_e" <> 0 /\ param p "m_mu" <> 0 /\ param p "m_tau" <> 0)%R.
Definition lepton_mass (p : params) (i : fl) : R := param p (match i with F1 => "m_e" | F2 => "m_mu" | F3 => "m_tau" end).
(** How the numbers are related. *)
Inductive same_number (p : params) : string -> C -> C -> Prop :=
| NPlain k t v : dget fk_jms k = Some t -> same_number p k v v
| NConj k t v : dget fk_jms_conj k = Some t -> same_number p k v (Cconj v)
| NA k v : In k ["AVLL_2231"; "AVRR_2231"] -> same_number p k v v
| NK ij v : In ij off -> same_number p (k2r ij) v (Cmul (RtoC (1 / 2 * sqrt (4 * PI * param p "alpha_e") * lepton_mass p (fst ij))) v).

Section Round.
Variable p : params.
Hypothesis U : usable_fk p.
Lemma e_pos : charge_e p = Ok (sqrt (4 * PI * param p "alpha_e")) /\ (0 < sqrt (4 * PI * param p "alpha_e"))%R.
Proof.
  destruct U as (A & _). pose proof PI_RGT_0 as P. assert (0 < 4 * PI * param p "alpha_e")%R as Q by (apply Rmult_lt_0_compat; lra).
  split; [|apply sqrt_lt_R0; exact Q]. unfold charge_e. destruct (Rlt_dec (4 * PI * param p "alpha_e") 0); [lra|reflexivity].
Qed.
Lemma in_vals k t : dget fk_jms k = Some t -> In t (map snd fk_jms).
Proof. intros E. apply dget_In in E. apply (in_map snd) in E. exact E. Qed.
Lemma in_vals_c k t : dget fk_jms_conj k = Some t -> In t (map snd fk_jms_conj).
Proof. intros E. apply dget_In in E. apply (in_map snd) in E. exact E. Qed.
Lemma not_key k : In k (["AVLL_2231"; "AVRR_2231"] ++ map k2r off) -> dget fk_jms k = None /\ dget fk_jms_conj k = None.
Proof.
  intros I. destruct tables3 as (A & _). split; apply dget_None; intros J.
  - exact (nodup_app_d _ _ k A (in_or_app _ _ k (or_introl J)) I).
  - exact (nodup_app_d _ _ k A (in_or_app _ _ k (or_intror J)) I).
Qed.
Lemma not_val t : In t ["VeeLL_1223"; "VeeRR_1223"] \/ hd "" (split_us t) = "egamma" -> dget (revert fk_jms) t = None /\ dget (revert fk_jms_conj) t = None.
Proof.
  intros I. destruct tables3 as (_ & A & E). destruct vals_wf as (V1 & V2 & _).
  assert (~ In t vals_fk) as N.
  { intros J. destruct I as [I|I]; [exact (nodup_app_d _ _ t A J I)|]. exact (E t (in_or_app _ _ t (or_introl J)) I). }
  unfold vals_fk in N. split; apply dget_None; intros J.
  - apply N. apply in_or_app. left. exact (proj1 (revert_key _ V1 t) J).
  - apply N. apply in_or_app. right. exact (proj1 (revert_key _ V2 t) J).
Qed.
Lemma k2r_parts ij : In ij off -> substring 0 4 (k2r ij) = "K2R_" /\
  rev_str (substring 4 (String.length (k2r ij) - 4) (k2r ij)) = digits [snd ij; fst ij] /\ split_us (ega ij) = ["egamma"; digits [snd ij; fst ij]].
Proof. intros I. destruct I as [<-|[<-|[<-|[<-|[<-|[<-|[]]]]]]]; repeat split. Qed.
(** One coefficient there and back. *)
Lemma fk_one_ok k t : common k t -> forall m v, exists m' w, fk_one p m k v = Ok (m', (t, w)) /\ same_number p k v w /\
  forall n, exists n', jms_one p n t w = Ok (n', Some (k, v)).
Proof.
  destruct keys_wf as (W1 & W2 & KD). destruct vals_wf as (V1 & V2 & VD).
  intros H m v. destruct H as [k t E|k t E| | |ij I].
  - exists m, v. unfold fk_one. rewrite E. split; auto. split; [apply (NPlain p k t); auto|]. intros n. exists n. unfold jms_one.
    rewrite (revert_get _ V1 _ _ E). reflexivity.
  - exists m, (Cconj v). unfold fk_one.
    assert (dget fk_jms k = None) as -> by (apply dget_None; intros I; apply (KD k I); apply (dget_Some_key _ _ _ E)).
    rewrite E. split; auto. split; [apply (NConj p k t); auto|]. intros n. exists n. unfold jms_one.
    assert (dget (revert fk_jms) t = None) as ->.
    { apply dget_None. intros I. exact (VD t (proj1 (revert_key _ V1 t) I) (in_vals_c _ _ E)). }
    rewrite (revert_get _ V2 _ _ E). rewrite Cconj_conj. reflexivity.
  - exists m, v. unfold fk_one, jms_one. destruct (not_key "AVLL_2231") as [-> ->]; [simpl; auto|].
    destruct (not_val "VeeLL_1223") as [-> ->]; [left; simpl; auto|]. split; [reflexivity|]. split; [apply NA; simpl; auto|]. intros n; exists n; reflexivity.
  - exists m, v. unfold fk_one, jms_one. destruct (not_key "AVRR_2231") as [-> ->]; [simpl; auto|].
    destruct (not_val "VeeRR_1223") as [-> ->]; [left; simpl; auto|]. split; [reflexivity|]. split; [apply NA; simpl; auto|]. intros n; exists n; reflexivity.
  - destruct (k2r_parts ij I) as (P1 & P2 & P3). destruct e_pos as [E1 E2].
    assert (forall m, mass p m (match fst ij with F1 => "1" | F2 => "2" | F3 => "3" end)%char = Some (lepton_mass p (fst ij))) as M
      by (intros; destruct (fst ij); reflexivity).
    assert (at_ (digits [snd ij; fst ij]) 1 = Ok (match fst ij with F1 => "1" | F2 => "2" | F3 => "3" end)%char) as A1
      by (destruct ij as [[] []]; reflexivity).
    assert (rev_str (digits [snd ij; fst ij]) = digits [fst ij; snd ij]) as RV by (destruct ij as [[] []]; reflexivity).
    assert (at_ (digits [fst ij; snd ij]) 0 = Ok (match fst ij with F1 => "1" | F2 => "2" | F3 => "3" end)%char) as A2
      by (destruct ij as [[] []]; reflexivity).
    assert (at_ (digits [fst ij; snd ij]) 1 = Ok (match snd ij with F1 => "1" | F2 => "2" | F3 => "3" end)%char) as A3
      by (destruct ij as [[] []]; reflexivity).
    assert (Ascii.eqb (match fst ij with F1 => "1" | F2 => "2" | F3 => "3" end)%char (match snd ij with F1 => "1" | F2 => "2" | F3 => "3" end)%char = false) as A4.
    { destruct I as [<-|[<-|[<-|[<-|[<-|[<-|[]]]]]]]; reflexivity. }
    assert (lepton_mass p (fst ij) <> 0)%R as N by (destruct U as (_ & X & Y & Z); unfold lepton_mass; destruct (fst ij); assumption).
    exists (Some (lepton_mass p (fst ij))), (Cmul (RtoC (1 / 2 * sqrt (4 * PI * param p "alpha_e") * lepton_mass p (fst ij))) v).
    split; [|split; [apply NK; exact I|]].
    + unfold fk_one. destruct (not_key (k2r ij)) as [-> ->]; [apply in_or_app; right; apply in_map; exact I|].
      assert (String.eqb (k2r ij) "AVLL_2231" = false) as -> by (destruct ij as [[] []]; reflexivity).
      assert (String.eqb (k2r ij) "AVRR_2231" = false) as -> by (destruct ij as [[] []]; reflexivity).
      rewrite P1, P2. cbn [String.eqb Ascii.eqb Bool.eqb]. rewrite E1. cbn [bind]. rewrite A1. cbn [bind]. rewrite M. reflexivity.
    + intros n. exists (Some (lepton_mass p (fst ij))). unfold jms_one. destruct (not_val (ega ij)) as [-> ->]; [right; rewrite P3; reflexivity|].
      assert (String.eqb (ega ij) "VeeLL_1223" = false) as -> by (destruct ij as [[] []]; reflexivity).
      assert (String.eqb (ega ij) "VeeRR_1223" = false) as -> by (destruct ij as [[] []]; reflexivity).
      rewrite P3. cbn [hd String.eqb Ascii.eqb Bool.eqb bind]. rewrite RV, A2. cbn [bind]. rewrite A3. cbn [bind]. rewrite A4, E1. cbn [bind]. rewrite M. cbn [bound bind].
      unfold fdiv. destruct (Req_EM_T (sqrt (4 * PI * param p "alpha_e")) 0) as [Q|_]; [rewrite Q in E2; lra|]. cbn [bind].
      destruct (Req_EM_T (lepton_mass p (fst ij)) 0) as [Q|_]; [contradiction|]. cbn [bind].
      assert (("K2R_" ++ digits [fst ij; snd ij])%string = k2r ij) as -> by (destruct ij as [[] []]; reflexivity).
      assert (Cmul (RtoC (2 / sqrt (4 * PI * param p "alpha_e") / lepton_mass p (fst ij))) (Cmul (RtoC (1 / 2 * sqrt (4 * PI * param p "alpha_e") * lepton_mass p (fst ij))) v) = v) as ->; [|reflexivity].
      transitivity (Cmul (Cmul (RtoC (2 / sqrt (4 * PI * param p "alpha_e") / lepton_mass p (fst ij))) (RtoC (1 / 2 * sqrt (4 * PI * param p "alpha_e") * lepton_mass p (fst ij)))) v); [ring|].
      rewrite <- RtoC_mul. replace (2 / sqrt (4 * PI * param p "alpha_e") / lepton_mass p (fst ij) * (1 / 2 * sqrt (4 * PI * param p "alpha_e") * lepton_mass p (fst ij)))%R with 1%R by (field; split; lra).
      change (RtoC 1) with C1. ring.
Qed.
Lemma common_inj k k' t : common k t -> common k' t -> k = k'.
Proof.
  intros A B. destruct (fk_one_ok k t A None C0) as (m & w & _ & _ & F). destruct (F None) as (n & E).
  destruct (fk_one_ok k' t B None C0) as (m2 & w2 & _ & _ & G). destruct (G None) as (n2 & E2).
  (* the key set for [t] does not depend on the number *)
  assert (forall v v' m m' n n' a a' b b', jms_one p m t v = Ok (n, Some (a, b)) -> jms_one p m' t v' = Ok (n', Some (a', b')) -> a = a') as D.
  { clear. intros v v' m m' n n' a a' b b'. unfold jms_one. destruct (dget (revert fk_jms) t); [congruence|].
    destruct (dget (revert fk_jms_conj) t); [congruence|]. destruct (String.eqb t "VeeLL_1223"); [congruence|].
    destruct (String.eqb t "VeeRR_1223"); [congruence|]. destruct (String.eqb (hd "" (split_us t)) "egamma"); [|congruence].
    destruct (match split_us t with _ :: q :: _ => Ok q | _ => Err IndexError end) as [part|]; cbn [bind]; [|congruence].
    destruct (at_ (rev_str part) 0) as [x|]; cbn [bind]; [|congruence]. destruct (at_ (rev_str part) 1) as [y|]; cbn [bind]; [|congruence].
    destruct (Ascii.eqb x y); [congruence|]. destruct (charge_e p) as [e|]; cbn [bind]; [|congruence].
    destruct (bound (mass p m x)) as [r|]; cbn [bind]; [|congruence]. destruct (bound (mass p m' x)) as [r'|]; cbn [bind]; [|congruence].
    destruct (fdiv 2 e) as [q|]; cbn [bind]; [|congruence]. destruct (fdiv q r) as [s|]; cbn [bind]; [|congruence].
    destruct (fdiv q r') as [s'|]; cbn [bind]; [|congruence]. congruence. }
  exact (D _ _ _ _ _ _ _ _ _ _ E E2).
Qed.
Lemma common_fun k t t' : common k t -> common k t' -> t = t'.
Proof.
  intros A B. destruct (fk_one_ok k t A None C0) as (m & w & E & _). destruct (fk_one_ok k t' B None C0) as (m2 & w2 & E2 & _). congruence.
Qed.
Lemma dset_fresh (d : dict string C) k v : ~ In k (dkeys d) -> dset d k v = d ++ [(k, v)].
Proof.
  induction d as [|[k' v'] r IH]; simpl; auto. intros N. destruct (keqb k k') eqn:E.
  - apply keqb_eq in E. subst. tauto.
  - rewrite IH by tauto. reflexivity.
Qed.
(** Forall2 of a translated dictionary *)
Definition translated (c d : dict string C) : Prop :=
  Forall2 (fun kv tw => common (fst kv) (fst tw) /\ same_number p (fst kv) (snd kv) (snd tw) /\ forall n, exists n', jms_one p n (fst tw) (snd tw) = Ok (n', Some kv)) c d.
Lemma fk_run_ok c : (forall k, In k (dkeys c) -> exists t, common k t) -> wf c -> forall m acc,
  (forall k t, In k (dkeys c) -> common k t -> ~ In t (dkeys acc)) ->
  exists d, fk_run p m acc c = Ok (acc ++ d) /\ translated c d.
Proof.
  induction c as [|[k v] r IH]; intros K W m acc F.
  - exists []. simpl. rewrite app_nil_r. split; auto. constructor.
  - destruct (K k (or_introl eq_refl)) as (t & Q). destruct (fk_one_ok k t Q m v) as (m' & w & E & S & G). cbn [fk_run]. rewrite E. cbn [bind fst snd].
    inversion W as [|? ? W1 W2]; subst. rewrite dset_fresh by (apply (F k t); simpl; auto).
    destruct (IH (fun k' I => K k' (or_intror I)) W2 m' (acc ++ [(t, w)])) as (d & R & T).
    { intros k' t' I' Q' J. unfold dkeys in J. rewrite map_app in J. apply in_app_or in J. destruct J as [J|[<-|[]]].
      - exact (F k' t' (or_intror I') Q' J).
      - rewrite (common_inj _ _ _ Q Q') in W1. exact (W1 I'). }
    exists ((t, w) :: d). rewrite R, <- app_assoc. split; [reflexivity|]. constructor; auto.
Qed.
Lemma jms_run_ok c d : translated c d -> wf c -> forall m acc, (forall k, In k (dkeys c) -> ~ In k (dkeys acc)) -> jms_run p m acc d = Ok (acc ++ c).
Proof.
  induction 1 as [|[k v] [t w] c d (A & S & G) T IH]; intros W m acc F.
  - simpl. rewrite app_nil_r. reflexivity.
  - cbn [jms_run fst snd]. cbn [fst snd] in G. destruct (G m) as (n & E). rewrite E. cbn [bind fst snd]. inversion W as [|? ? W1 W2]; subst.
    rewrite dset_fresh by (apply F; simpl; auto). rewrite IH; auto; [rewrite <- app_assoc; reflexivity|].
    intros k' I J. unfold dkeys in J. rewrite map_app in J. apply in_app_or in J. destruct J as [J|[<-|[]]]; [exact (F k' (or_intror I) J)|contradiction].
Qed.
Lemma translated_keys c d : translated c d -> wf c -> wf d.
Proof.
  unfold wf. induction 1 as [|[k v] [t w] c d (A & S & G) T IH]; simpl; intros W; [constructor|]. inversion W as [|? ? W1 W2]; subst. constructor; auto.
  intros I. clear IH W G S. induction T as [|[k2 v2] [t2 w2] c d (A2 & _) T IH]; simpl in *; auto.
  destruct I as [->|I].
  - rewrite (common_inj _ _ _ A A2) in W1. apply W1. left. reflexivity.
  - apply IH; auto. inversion W2; auto.
Qed.
Theorem fk_round c : wf c -> (forall k, In k (dkeys c) -> exists t, common k t) ->
  exists d, fk_run p None [] c = Ok d /\ wf d /\ jms_run p None [] d = Ok c /\
  Forall2 (fun kv tw => common (fst kv) (fst tw) /\ same_number p (fst kv) (snd kv) (snd tw)) c d.
Proof.
  intros W K. destruct (fk_run_ok c K W None []) as (d & E & T); [intros k t _ _ []|]. exists d. split; auto.
  split; [exact (translated_keys c d T W)|]. split; [exact (jms_run_ok c d T W None [] (fun _ _ x => x))|].
  clear -T. induction T as [|kv tw c d (A & B & _) T IH]; constructor; auto.
Qed.

(** JMS to FlavorKit *)
Definition has_fk (t : string) : bool :=
  mem t vals_fk || mem t ["VeeLL_1223"; "VeeRR_1223"] || mem t (map ega off).
Lemma has_fk_common t : has_fk t = true -> exists k, common k t.
Proof.
  unfold has_fk. rewrite !orb_true_iff. intros [[H|H]|H]; apply mem_In in H.
  - destruct keys_wf as (W1 & W2 & _). apply in_app_or in H. destruct H as [H|H]; apply in_map_iff in H; destruct H as ([k v] & E & I); cbn [snd] in E; subst v; exists k.
    + apply Plain. apply In_dget; [exact W1|exact I].
    + apply Conj. apply In_dget; [exact W2|exact I].
  - destruct H as [<-|[<-|[]]]; eexists; [apply AVLL|apply AVRR].
  - apply in_map_iff in H. destruct H as (ij & <- & I). exists (k2r ij). apply K2R. exact I.
Qed.
Definition name_ok (t : string) : Prop := hd "" (split_us t) = "egamma" -> exists i j, t = cname "egamma" [i; j].
Lemma jms_none t : name_ok t -> has_fk t = false -> forall m v, jms_one p m t v = Ok (m, None).
Proof.
  intros N H m v. unfold has_fk in H. rewrite !orb_false_iff in H. destruct H as [[H1 H2] H3].
  assert (forall (l : list string), mem t l = false -> ~ In t l) as Q by (intros l M I; rewrite (proj2 (mem_In _ t l) I) in M; discriminate).
  apply Q in H1, H2, H3. destruct vals_wf as (V1 & V2 & _). unfold jms_one.
  assert (dget (revert fk_jms) t = None) as -> by (apply dget_None; intros I; apply H1; apply in_or_app; left; exact (proj1 (revert_key _ V1 t) I)).
  assert (dget (revert fk_jms_conj) t = None) as -> by (apply dget_None; intros I; apply H1; apply in_or_app; right; exact (proj1 (revert_key _ V2 t) I)).
  destruct (String.eqb t "VeeLL_1223") eqn:E1; [apply String.eqb_eq in E1; subst; simpl in H2; tauto|].
  destruct (String.eqb t "VeeRR_1223") eqn:E2; [apply String.eqb_eq in E2; subst; simpl in H2; tauto|].
  destruct (String.eqb (hd "" (split_us t)) "egamma") eqn:E3; [|reflexivity]. apply String.eqb_eq in E3. destruct (N E3) as (i & j & ->).
  assert (i = j) as ->; [|destruct j; reflexivity].
  destruct i, j; auto; exfalso; apply H3; vm_compute; auto 7.
Qed.
Lemma common_back k t : common k t -> forall m v, exists m' w, jms_one p m t v = Ok (m', Some (k, w)) /\
  (forall n, exists n', fk_one p n k w = Ok (n', (t, v))).
Proof.
  destruct keys_wf as (W1 & W2 & KD). destruct vals_wf as (V1 & V2 & VD).
  intros H m v. destruct (fk_one_ok k t H None v) as (_ & _ & _ & _ & _). 
  destruct H as [k t E|k t E| | |ij I].
  - exists m, v. unfold fk_one, jms_one. rewrite (revert_get _ V1 _ _ E), E. split; auto. intros n; exists n; auto.
  - exists m, (Cconj v). unfold fk_one, jms_one.
    assert (dget fk_jms k = None) as -> by (apply dget_None; intros I; apply (KD k I); apply (dget_Some_key _ _ _ E)).
    assert (dget (revert fk_jms) t = None) as ->.
    { apply dget_None. intros I. exact (VD t (proj1 (revert_key _ V1 t) I) (in_vals_c _ _ E)). }
    rewrite (revert_get _ V2 _ _ E), E, Cconj_conj. split; auto. intros n; exists n; auto.
  - exists m, v. unfold fk_one, jms_one. destruct (not_key "AVLL_2231") as [-> ->]; [simpl; auto|].
    destruct (not_val "VeeLL_1223") as [-> ->]; [left; simpl; auto|]. split; [reflexivity|]. intros n; exists n; reflexivity.
  - exists m, v. unfold fk_one, jms_one. destruct (not_key "AVRR_2231") as [-> ->]; [simpl; auto|].
    destruct (not_val "VeeRR_1223") as [-> ->]; [left; simpl; auto|]. split; [reflexivity|]. intros n; exists n; reflexivity.
  - set (f := (1 / 2 * sqrt (4 * PI * param p "alpha_e") * lepton_mass p (fst ij))%R).
    assert (f <> 0)%R as N.
    { unfold f. assert (lepton_mass p (fst ij) <> 0)%R as N by (destruct U as (_ & X & Y & Z); unfold lepton_mass; destruct (fst ij); assumption).
      destruct e_pos as [_ E2]. apply Rmult_integral_contrapositive_currified; auto. apply Rmult_integral_contrapositive_currified; lra. }
    destruct (fk_one_ok (k2r ij) (ega ij) (K2R ij I) None (Cmul (RtoC (/ f)) v)) as (m1 & w1 & E1 & S1 & G1).
    assert (w1 = v) as ->.
    { assert (forall x y z, same_number p x y z -> x = k2r ij -> z = Cmul (RtoC f) y) as Q.
      { intros x y z S. destruct S as [x t z E|x t z E|x z K|ij' z K]; intros K0; [subst x|subst x|subst x|].
        - destruct (not_key (k2r ij)) as [X _]; [apply in_or_app; right; apply in_map; exact I|congruence].
        - destruct (not_key (k2r ij)) as [_ X]; [apply in_or_app; right; apply in_map; exact I|congruence].
        - exfalso. destruct K as [K|[K|[]]]; destruct ij as [[] []]; discriminate.
        - assert (fst ij' = fst ij) as Q by (clear -K0; destruct ij as [[] []], ij' as [[] []]; try reflexivity; discriminate). rewrite Q. reflexivity. }
      rewrite (Q _ _ _ S1 eq_refl). transitivity (Cmul (Cmul (RtoC f) (RtoC (/ f))) v); [ring|]. rewrite <- RtoC_mul, Rinv_r by auto. change (RtoC 1) with C1. ring. }
    destruct (G1 m) as (n & E). exists n, (Cmul (RtoC (/ f)) v). split; [exact E|]. intros n0.
    destruct (fk_one_ok (k2r ij) (ega ij) (K2R ij I) n0 (Cmul (RtoC (/ f)) v)) as (m2 & w2 & E2 & S2 & G2). exists m2.
    assert (w2 = v) as <-; [|exact E2].
    destruct (G1 m) as (n3 & X). destruct (G2 None) as (n2 & Y).
    assert (w2 = Cmul (RtoC f) (Cmul (RtoC (/ f)) v)) as ->.
    { clear -E2 I U. destruct (k2r_parts ij I) as (P1 & P2 & P3). unfold fk_one in E2.
      destruct (not_key (k2r ij)) as [X1 X2]; [apply in_or_app; right; apply in_map; exact I|]. rewrite X1, X2 in E2.
      assert (String.eqb (k2r ij) "AVLL_2231" = false) as Y1 by (destruct ij as [[] []]; reflexivity).
      assert (String.eqb (k2r ij) "AVRR_2231" = false) as Y2 by (destruct ij as [[] []]; reflexivity).
      rewrite Y1, Y2, P1, P2 in E2. cbn [String.eqb Ascii.eqb Bool.eqb] in E2. destruct e_pos as [Z1 _]. rewrite Z1 in E2. cbn [bind] in E2.
      assert (at_ (digits [snd ij; fst ij]) 1 = Ok (match fst ij with F1 => "1" | F2 => "2" | F3 => "3" end)%char) as A1 by (destruct ij as [[] []]; reflexivity).
      rewrite A1 in E2. cbn [bind] in E2.
      assert (mass p n0 (match fst ij with F1 => "1" | F2 => "2" | F3 => "3" end)%char = Some (lepton_mass p (fst ij))) as M by (destruct (fst ij); reflexivity).
      rewrite M in E2. cbn [bound bind] in E2. subst f. congruence. }
    transitivity (Cmul (Cmul (RtoC f) (RtoC (/ f))) v); [ring|]. rewrite <- RtoC_mul, Rinv_r by auto. change (RtoC 1) with C1. ring.
Qed.
Lemma back_run c : wf c -> (forall t, In t (dkeys c) -> name_ok t) -> forall m acc,
  (forall k t, In t (dkeys c) -> common k t -> ~ In k (dkeys acc)) ->
  exists d, jms_run p m acc c = Ok (acc ++ d) /\
  Forall2 (fun kw tv => common (fst kw) (fst tv) /\ forall n, exists n', fk_one p n (fst kw) (snd kw) = Ok (n', tv)) d (filter (fun tv => has_fk (fst tv)) c).
Proof.
  induction c as [|[t v] r IH]; intros W N m acc F.
  - exists []. simpl. rewrite app_nil_r. split; auto.
  - inversion W as [|? ? W1 W2]; subst. cbn [jms_run filter fst]. destruct (has_fk t) eqn:H.
    + destruct (has_fk_common t H) as (k & Q). destruct (common_back k t Q m v) as (m' & w & E & G). rewrite E. cbn [bind fst snd].
      rewrite dset_fresh by (apply (F k t); simpl; auto).
      destruct (IH W2 (fun t' I => N t' (or_intror I)) m' (acc ++ [(k, w)])) as (d & R & T).
      { intros k' t' I' Q' J. unfold dkeys in J. rewrite map_app in J. apply in_app_or in J. destruct J as [J|[<-|[]]].
        - exact (F k' t' (or_intror I') Q' J).
        - rewrite (common_fun _ _ _ Q Q') in W1. exact (W1 I'). }
      exists ((k, w) :: d). rewrite R, <- app_assoc. split; [reflexivity|]. constructor; auto.
    + rewrite (jms_none t (N t (or_introl eq_refl)) H m v). cbn [bind fst snd]. apply IH; auto.
      * intros t' I. apply N. right. exact I.
      * intros k' t' I. apply F. right. exact I.
Qed.
Lemma fk_back_run d e : Forall2 (fun kw tv => common (fst kw) (fst tv) /\ forall n, exists n', fk_one p n (fst kw) (snd kw) = Ok (n', tv)) d e -> wf e -> forall m acc,
  (forall t, In t (dkeys e) -> ~ In t (dkeys acc)) -> fk_run p m acc d = Ok (acc ++ e).
Proof.
  induction 1 as [|[k w] [t v] d e (A & G) T IH]; intros W m acc F.
  - simpl. rewrite app_nil_r. reflexivity.
  - cbn [fk_run]. cbn [fst snd] in G. destruct (G m) as (n & E). rewrite E. cbn [bind fst snd]. inversion W as [|? ? W1 W2]; subst.
    rewrite dset_fresh by (apply F; simpl; auto). rewrite IH; auto; [rewrite <- app_assoc; reflexivity|].
    intros t' I J. unfold dkeys in J. rewrite map_app in J. apply in_app_or in J. destruct J as [J|[<-|[]]]; [exact (F t' (or_intror I) J)|contradiction].
Qed.
Lemma wf_filter (c : dict string C) f : wf c -> wf (filter f c).
Proof.
  unfold wf, dkeys. induction c as [|x r IH]; simpl; intros W; [constructor|]. inversion W; subst. destruct (f x); simpl; auto. constructor; auto.
  intros I. apply H1. apply in_map_iff in I. destruct I as (y & E & I). apply filter_In in I. apply in_map_iff. exists y. tauto.
Qed.
Theorem jms_round c : wf c -> (forall t, In t (dkeys c) -> name_ok t) ->
  exists d, jms_run p None [] c = Ok d /\ (forall k, In k (dkeys d) -> exists t, In t (dkeys c) /\ common k t) /\
            fk_run p None [] d = Ok (filter (fun tv => has_fk (fst tv)) c).
Proof.
  intros W N. destruct (back_run c W N None []) as (d & E & T); [intros k t _ _ []|]. exists d. split; auto. split.
  - intros k I. assert (exists t, In t (dkeys (filter (fun tv => has_fk (fst tv)) c)) /\ common k t) as (t & J & Q).
    { clear -T I. induction T as [|[k' w] [t v] d e (A & _) T IH]; [destruct I|]. destruct I as [<-|I]; [exists t; simpl; auto|].
      destruct (IH I) as (t' & J & Q). exists t'. simpl. auto. }
    exists t. split; auto. unfold dkeys in J. apply in_map_iff in J. destruct J as (y & <- & J). apply filter_In in J. apply in_map. apply J.
  - exact (fk_back_run _ _ T (wf_filter c _ W) None [] (fun _ _ x => x)).
Qed.
End Round.

(** Unknown names *)
Definition fk_name (k : string) : Prop := (exists t, common k t) \/ substring 0 4 k = "K2R_".
Lemma fk_unknown p k m v : ~ fk_name k -> fk_one p m k v = Err ValueError.
Proof.
  intros N. unfold fk_one. destruct (dget fk_jms k) eqn:E1; [elim N; left; eexists; apply Plain; eauto|].
  destruct (dget fk_jms_conj k) eqn:E2; [elim N; left; eexists; apply Conj; eauto|].
  destruct (String.eqb k "AVLL_2231") eqn:E3; [apply String.eqb_eq in E3; subst; elim N; left; eexists; apply AVLL|].
  destruct (String.eqb k "AVRR_2231") eqn:E4; [apply String.eqb_eq in E4; subst; elim N; left; eexists; apply AVRR|].
  destruct (String.eqb (substring 0 4 k) "K2R_") eqn:E5; [apply String.eqb_eq in E5; elim N; right; auto|]. reflexivity.
Qed.
Lemma fk_unknown_run p c k : usable_fk p -> In k (dkeys c) -> ~ fk_name k -> (forall k', In k' (dkeys c) -> (exists t, common k' t) \/ ~ fk_name k') ->
  forall m acc, fk_run p m acc c = Err ValueError.
Proof.
  intros U. induction c as [|[k' v] r IH]; intros I N K m acc; [destruct I|]. cbn [fk_run].
  destruct (K k' (or_introl eq_refl)) as [(t & Q)|N'].
  - destruct (fk_one_ok p U k' t Q m v) as (m' & w & E & _). rewrite E. cbn [bind fst snd]. apply IH; auto.
    + destruct I as [I|I]; auto. cbn [fst] in I. subst k'. elim N. left. eauto.
    + intros k'' I''. apply K. right. exact I''.
  - rewrite (fk_unknown p k' m v N'). reflexivity.
Qed.

(** The names of FlavorKit. *)
Definition fk_names : list string := keys_fk ++ ["AVLL_2231"; "AVRR_2231"] ++ map k2r off.
Lemma fk_names_common k : In k fk_names <-> exists t, common k t.
Proof.
  unfold fk_names. split.
  - intros I. apply in_app_or in I. destruct I as [I|I].
    + apply in_app_or in I. destruct I as [I|I]; apply key_dget in I; destruct I as (t & E); exists t; [apply Plain|apply Conj]; exact E.
    + apply in_app_or in I. destruct I as [[<-|[<-|[]]]|I]; [eexists; apply AVLL|eexists; apply AVRR|].
      apply in_map_iff in I. destruct I as (ij & <- & I). exists (ega ij). apply K2R. exact I.
  - intros (t & Q). destruct Q as [k t E|k t E| | |ij I].
    + apply in_or_app. left. apply in_or_app. left. apply (dget_Some_key _ _ _ E).
    + apply in_or_app. left. apply in_or_app. right. apply (dget_Some_key _ _ _ E).
    + apply in_or_app. right. left. reflexivity.
    + apply in_or_app. right. right. left. reflexivity.
    + apply in_or_app. right. right. right. apply in_map. exact I.
Qed.
(** Generation indices *)
Definition idx (s : string) : list ascii := list_ascii_of_string (last (split_us s) "").
(** Bilinears transposed, in either order *)
Definition swapped (l : list ascii) : list (list ascii) :=
  match l with [i; j] => [[j; i]] | [i; j; k; l] => [[j; i; l; k]; [l; k; j; i]] | _ => [] end.
Definition kept (l : list ascii) : list (list ascii) :=
  match l with [i; j; k; l] => [[i; j; k; l]; [k; l; i; j]] | _ => [] end.
Definition la_eqb (a b : list ascii) : bool := String.eqb (string_of_list_ascii a) (string_of_list_ascii b).
Lemma la_eqb_ok a b : la_eqb a b = true -> a = b.
Proof.
  unfold la_eqb. intros H. apply String.eqb_eq in H. rewrite <- (list_ascii_of_string_of_list_ascii a), <- (list_ascii_of_string_of_list_ascii b), H. reflexivity.
Qed.
#[local] Transparent fk_jms fk_jms_conj.
Lemma swapped_all : forallb (fun kt : string * string => existsb (la_eqb (idx (snd kt))) (swapped (idx (fst kt)))) fk_jms = true.
Proof. vm_cast_no_check (eq_refl true). Qed.
Lemma kept_all : forallb (fun kt : string * string => existsb (la_eqb (idx (snd kt))) (kept (idx (fst kt)))) fk_jms_conj = true.
Proof. vm_cast_no_check (eq_refl true). Qed.
#[local] Opaque fk_jms fk_jms_conj.
Lemma in_all d f : forallb (fun kt : string * string => existsb (la_eqb (idx (snd kt))) (f (idx (fst kt)))) d = true ->
  forall k t, dget d k = Some t -> In (idx t) (f (idx k)).
Proof.
  intros H k t E. apply dget_In in E. rewrite forallb_forall in H. specialize (H _ E). cbn [fst snd] in H. apply existsb_exists in H.
  destruct H as (x & I & Q). apply la_eqb_ok in Q. subst. exact I.
Qed.
Lemma idx_swapped k t : dget fk_jms k = Some t -> In (idx t) (swapped (idx k)).
Proof. exact (in_all fk_jms swapped swapped_all k t). Qed.
Lemma idx_kept k t : dget fk_jms_conj k = Some t -> In (idx t) (kept (idx k)).
Proof. exact (in_all fk_jms_conj kept kept_all k t). Qed.
(** Names K2R_... that FlavorKit does not have *)
Lemma k2r_key s : substring 0 4 s = "K2R_" -> dget fk_jms s = None -> dget fk_jms_conj s = None -> forall p m v,
  fk_one p m s v = let ind := rev_str (substring 4 (String.length s - 4) s) in
    let! e := charge_e p in let! c := at_ ind 1 in let m' := mass p m c in let! r := bound m' in
    Ok (m', (("egamma_" ++ ind)%string, Cmul (RtoC (1 / 2 * e * r)) v)).
Proof.
  intros H A B p m v. unfold fk_one. rewrite A, B.
  destruct (String.eqb s "AVLL_2231") eqn:E1; [apply String.eqb_eq in E1; subst; discriminate|].
  destruct (String.eqb s "AVRR_2231") eqn:E2; [apply String.eqb_eq in E2; subst; discriminate|].
  rewrite H. reflexivity.
Qed.
Lemma no_41 : dget fk_jms "K2R_41" = None /\ dget fk_jms_conj "K2R_41" = None /\ dget fk_jms "K2R_12" = None /\ dget fk_jms_conj "K2R_12" = None /\
  dget fk_jms "K2R_11" = None /\ dget fk_jms_conj "K2R_11" = None /\ dget (revert fk_jms) "egamma_11" = None /\ dget (revert fk_jms_conj) "egamma_11" = None.
Proof.
  assert (forall (d : dict string string) k, match dget d k with None => true | _ => false end = true -> dget d k = None) as N by (intros d k; destruct (dget d k); auto; discriminate).
  destruct (not_val "egamma_11") as [X Y]; [right; reflexivity|].
  do 6 (split; [apply N; vm_cast_no_check (eq_refl true)|]). split; assumption.
Qed.
Lemma stale_mass p x y : usable_fk p ->
  fk_run p None [] [("K2R_41", y)] = Err UnboundLocalError /\
  exists w, fk_run p None [] [("K2R_12", x); ("K2R_41", y)] = Ok [("egamma_21", w); ("egamma_14", Cmul (RtoC (1 / 2 * sqrt (4 * PI * param p "alpha_e") * param p "m_e")) y)].
Proof.
  intros U. destruct no_41 as (A & B & C & D & _). destruct (e_pos p U) as [E _]. split.
  - cbn [fk_run]. rewrite k2r_key by auto. cbv zeta. rewrite E. reflexivity.
  - eexists. cbn [fk_run]. rewrite k2r_key by auto. cbv zeta. rewrite E. cbn [bind fst snd].
    change (rev_str (substring 4 (String.length "K2R_12" - 4) "K2R_12")) with "21". change (at_ "21" 1) with (@Ok ascii "1"%char). cbn [bind].
    change (mass p None "1"%char) with (Some (param p "m_e")). cbn [bound bind fst snd].
    rewrite k2r_key by auto. cbv zeta. rewrite E. cbn [bind fst snd].
    change (rev_str (substring 4 (String.length "K2R_41" - 4) "K2R_41")) with "14". change (at_ "14" 1) with (@Ok ascii "4"%char). cbn [bind].
    change (mass p (Some (param p "m_e")) "4"%char) with (Some (param p "m_e")). cbn [bound bind fst snd]. reflexivity.
Qed.
Lemma diagonal p x : usable_fk p -> exists w, fk_run p None [] [("K2R_11", x)] = Ok [("egamma_11", w)] /\ jms_run p None [] [("egamma_11", w)] = Ok [].
Proof.
  intros U. destruct no_41 as (_ & _ & _ & _ & A & B & C & D). destruct (e_pos p U) as [E _]. eexists. split.
  - cbn [fk_run]. rewrite k2r_key by auto. cbv zeta. rewrite E. reflexivity.
  - cbn [jms_run]. unfold jms_one. rewrite C, D. reflexivity.
Qed.
Lemma fk_has : In "AVLL_2231" fk_names /\ In "K2R_12" fk_names /\ In "DSRR_2323" fk_names /\ In "BVLL_2111" fk_names.
Proof.
  assert (forall k, existsb (String.eqb k) fk_names = true -> In k fk_names) as Q.
  { intros k H. apply existsb_exists in H. destruct H as (x & I & E). apply String.eqb_eq in E. subst. exact I. }
  repeat split; apply Q; vm_cast_no_check (eq_refl true).
Qed.
Lemma fk_values p (U : usable_fk p) c d :
  Forall2 (fun kv tw => common (fst kv) (fst tw) /\ same_number p (fst kv) (snd kv) (snd tw)) c d ->
  Forall2 (fun kv tw =>
    (exists t, dget fk_jms (fst kv) = Some t /\ tw = (t, snd kv)) \/
    (exists t, dget fk_jms_conj (fst kv) = Some t /\ tw = (t, Cconj (snd kv))) \/
    (fst kv = "AVLL_2231" /\ tw = ("VeeLL_1223", snd kv)) \/ (fst kv = "AVRR_2231" /\ tw = ("VeeRR_1223", snd kv)) \/
    (exists i j, fst kv = cname "K2R" [i; j] /\
       tw = (cname "egamma" [j; i], Cmul (RtoC (1 / 2 * sqrt (4 * PI * param p "alpha_e") * lepton_mass p i)) (snd kv)))) c d.
Proof.
  intros T. induction T as [|[k v] [t w] c d (A & S) T IH]; constructor; auto. clear IH T. cbn [fst snd] in *.
  assert (forall t', common k t' -> t = t') as F by (intros t' Q; exact (common_fun p U k t t' A Q)).
  destruct S as [k t' v E|k t' v E|k v I|ij v I].
  - left. exists t'. split; auto. rewrite (F t' (Plain _ _ E)). reflexivity.
  - right. left. exists t'. split; auto. rewrite (F t' (Conj _ _ E)). reflexivity.
  - destruct I as [<-|[<-|[]]].
    + right. right. left. rewrite (F _ AVLL). auto.
    + right. right. right. left. rewrite (F _ AVRR). auto.
  - right. right. right. right. exists (fst ij), (snd ij). split; [reflexivity|]. rewrite (F _ (K2R ij I)). reflexivity.
Qed.
Lemma fk_collision p (U : usable_fk p) : forall k k' t v v' m m' n n' w w', In k fk_names -> In k' fk_names ->
  fk_one p m k v = Ok (n, (t, w)) -> fk_one p m' k' v' = Ok (n', (t, w')) -> k = k'.
Proof.
  intros k k' t v v' m m' n n' w w' I I' E E'. apply fk_names_common in I, I'. destruct I as (x & A). destruct I' as (x' & A').
  destruct (fk_one_ok p U k x A m v) as (? & ? & Q & _). destruct (fk_one_ok p U k' x' A' m' v') as (? & ? & Q' & _).
  assert (x = t) by congruence. assert (x' = t) by congruence. subst x x'. exact (common_inj p U k k' t A A').
Qed.
Lemma fk_unknown_names p (U : usable_fk p) c k : In k (dkeys c) -> ~ In k fk_names ->
  (forall k', In k' (dkeys c) -> substring 0 4 k' = "K2R_" -> In k' fk_names) -> fk_run p None [] c = Err ValueError.
Proof.
  intros I N K. apply (fk_unknown_run p c k U I).
  - intros [Q|Q]; [apply N; apply fk_names_common; exact Q|exact (N (K k I Q))].
  - intros k' I'. destruct (in_dec string_dec k' fk_names) as [Y|Y]; [left; apply fk_names_common; exact Y|]. right.
    intros [Q|Q]; [apply Y; apply fk_names_common; exact Q|exact (Y (K k' I' Q))].
Qed.
#[local] Transparent fk_jms fk_jms_conj.
Lemma has_fk_case : has_fk "egamma_21" = true /\ has_fk "egamma_22" = false /\ has_fk "VuuRR_1111" = false.
Proof. refine (conj _ (conj _ _)); [vm_cast_no_check (eq_refl true)|vm_cast_no_check (eq_refl false)|vm_cast_no_check (eq_refl false)]. Qed.
