(** Normal forms of the WET translators and the finite checks made on them. *)
From Coq Require Import String Ascii List Bool Arith ZArith QArith Qreals Reals Lra.
From Verif Require Import PyBase PyDict Cplx Tensor Wc Params Smeft SmeftNames WetExpr WetStr WetTab Wet WetJms WetNf WetSpec.
Import ListNotations.
Open Scope string_scope.
Open Scope list_scope.
Open Scope nat_scope.
#[local] Opaque Ceq_dec.

Fixpoint names_eqb (a b : list string) : bool :=
  match a, b with
  | [], [] => true
  | x :: a', y :: b' => String.eqb x y && names_eqb a' b'
  | _, _ => false
  end.
Lemma names_eqb_eq a b : names_eqb a b = true -> a = b.
Proof.
  revert b; induction a as [|x a IH]; destruct b; simpl; try discriminate; auto. rewrite andb_true_iff.
  intros [A B]. apply String.eqb_eq in A. rewrite (IH _ B), A. reflexivity.
Qed.
Fixpoint nodupb (l : list string) : bool :=
  match l with [] => true | x :: t => negb (existsb (String.eqb x) t) && nodupb t end.
Lemma nodupb_ok l : nodupb l = true -> NoDup l.
Proof.
  induction l as [|x t IH]; simpl; intros H; constructor; apply andb_true_iff in H; destruct H as [A B]; auto.
  intros I. apply negb_true_iff in A. assert (existsb (String.eqb x) t = true) as E; [|congruence].
  apply existsb_exists. exists x. split; auto. apply String.eqb_refl.
Qed.
Definition names (q : coefs) : list string := map fst q.

(** ** Normal forms of the translators *)
Definition nJB := nf amJ none JMS_to_Bern_prog.
Definition nJF := nf amJ none JMS_to_flavio_prog.
Definition nJX := nf amJ none JMS_to_FormFlavor_prog.
Definition nJE := nf amE none JMS_to_EOS_prog.
Definition bern_read : list string :=
  names (b_df2s ++ b_ccs ["1"; "5"; "1p"; "5p"; "7p"] ++
         b_leps [sb; db; ds] ++
         flat_map b_dip [sb; db]).
Definition flavio_read : list string := filter (fun k => negb (mem k (names flavio_sdnu))) (names flavio).
Definition nBF := nf am0 (reads bern_read) Bern_to_flavio_prog.
Definition nFB := nf am0 (reads flavio_read) flavio_to_Bern_prog.
Definition jdata (n : dict string lform) : bool :=
  forallb (fun kf => forallb (fun t => match fst t with DArr op x _ => jms_ix op x | DGet _ _ => false end) (snd kf)) n.
Definition gdata (l : list string) (n : dict string lform) : bool :=
  forallb (fun kf => forallb (fun t => match fst t with DGet k c => negb c && mem k l | DArr _ _ _ => false end) (snd kf)) n.
Definition jflav (q : coefs) (n : dict string lform) : bool :=
  forallb (fun kf => match dget q (fst kf) with
    | None => false
    | Some r => forallb (fun t => match fst t with
        | DArr op x _ => forallb (fun m => jms_ix op (fst m) && related r (jms_content op (fst m))) (members op x)
        | DGet _ _ => false end) (snd kf)
    end) n.
Definition gflav (i q : coefs) (n : dict string lform) : bool :=
  forallb (fun kf => match dget q (fst kf) with
    | None => false
    | Some r => forallb (fun t => match fst t with
        | DGet k _ => match dget i k with Some s => same_charge r s | None => false end
        | DArr _ _ _ => false end) (snd kf)
    end) n.
Definition chk (a : asm) (g : string -> option lform) (q : res prog) (n : dict string lform) (s : coefs) : bool :=
  nf_ok a g q && names_eqb (dkeys n) (names s) && nodupb (names s).

(** ** Parity *)
Definition swap_ops : dict string string :=
  [("VddLL", "VddRR"); ("VddRR", "VddLL"); ("V1udLL", "V1udRR"); ("V1udRR", "V1udLL"); ("V8udLL", "V8udRR"); ("V8udRR", "V8udLL")].
Definition turn_ops : dict string string :=
  [("V1ddLR", "V1ddLR"); ("V8ddLR", "V8ddLR"); ("V1udLR", "V1duLR"); ("V1duLR", "V1udLR"); ("V8udLR", "V8duLR"); ("V8duLR", "V8udLR")].
(** Exchanging left- and right-handed fields: the entry [x] of [op] becomes the entry of
    another operator, conjugated if the third component is true. *)
Definition mirror (op : string) (x : idx) : option (string * idx * bool) :=
  match x with
  | [i; j] => if mem op ["dG"; "dgamma"] then Some (op, [j; i], true) else None
  | [i; j; k; m] =>
      match dget swap_ops op with
      | Some op' => Some (op', x, false)
      | None => match dget turn_ops op with
                | Some op' => Some (op', [k; m; i; j], false)
                | None => if mem op ["S1ddRR"; "S8ddRR"; "S1udRR"; "S8udRR"] then Some (op, [j; i; m; k], true)
                          else if mem op ["V1udduLR"; "V8udduLR"; "S1udduRR"; "S8udduRR"] then Some (op, [m; k; j; i], true)
                          else None
                end
      end
  | _ => None
  end.
Definition primes (a b : string) (f : string -> string) : list (string * string) := [(f a, f b); (f b, f a)].
Definition mirror_names : list (string * string) :=
  flat_map (fun q => let f n := (n ++ d (fst q) ++ d (snd q) ++ d (fst q) ++ d (snd q))%string in
      primes "1" "1p" f ++ primes "2" "2p" f ++ primes "3" "3p" f ++ [(f "4", f "4"); (f "5", f "5")]) [sb; db; ds] ++
  flat_map (fun q => flat_map (fun uu => let f n := (n ++ d (fst q) ++ d (snd q) ++ u (fst uu) ++ u (snd uu))%string in
      flat_map (fun n => primes n (n ++ "p")%string f) ["1"; "2"; "3"; "4"; "5"; "6"; "7"; "8"; "9"; "10"])
    [(F1, F1); (F1, F2); (F2, F1); (F2, F2)]) [sb; db; ds] ++
  flat_map (fun qr => let f n := (n ++ d (fst (fst qr)) ++ d (snd (fst qr)) ++ d (fst (snd qr)) ++ d (snd (snd qr)))%string in
      flat_map (fun n => primes n (n ++ "p")%string f) ["1"; "2"; "3"; "4"; "5"; "6"; "7"; "8"; "9"; "10"])
    [(sb, (F1, F1)); (db, (F2, F2)); (ds, (F3, F3))] ++
  flat_map (fun qr => let f n := (n ++ d (fst (fst qr)) ++ d (snd (fst qr)) ++ d (fst (snd qr)) ++ d (snd (snd qr)))%string in
      flat_map (fun n => primes n (n ++ "p")%string f) ["1"; "3"; "5"; "7"; "9"])
    [(sb, (F2, F2)); (db, (F1, F1)); (db, (F3, F3)); (sb, (F3, F3)); (db, (F1, F2)); (sb, (F2, F1)); (ds, (F2, F2)); (ds, (F1, F1))] ++
  flat_map (fun q => let f n := (n ++ d (fst q) ++ d (snd q))%string in primes "7gamma" "7pgamma" f ++ primes "8g" "8pg" f) [sb; db; ds].
Definition mirror_d (t : datum) : datum :=
  match t with
  | DArr op x c => match mirror op x with Some (op', x', b) => DArr op' x' (xorb b c) | None => t end
  | DGet _ _ => t
  end.
Definition has_mirror (t : datum) : bool :=
  match t with DArr op x _ => match mirror op x with Some (op', x', _) => jms_ix op x && jms_ix op' x' | None => false end | DGet _ _ => false end.
Definition lmap (h : datum -> datum) (f : lform) : lform := map (fun t => (h (fst t), snd t)) f.
Fixpoint idx_leb (a b : idx) : bool :=
  match a, b with
  | i :: a', j :: b' => if fl_eqb i j then idx_leb a' b' else match i, j with F1, _ | F2, F3 => true | _, _ => false end
  | _, _ => true
  end.
Definition canon (t : datum) : datum :=
  match t with
  | DArr op x c => if mem op cur_ops && negb (idx_leb x (cur_ix x)) then DArr op (cur_ix x) c else t
  | DGet _ _ => t
  end.
Definition getf (n : dict string lform) (k : string) : lform := match dget n k with Some f => f | None => [] end.
Definition pchk (n : dict string lform) (ab : string * string) : bool :=
  forallb (fun t => has_mirror (fst t) && jms_ix (match canon (mirror_d (fst t)) with DArr op _ _ => op | DGet k _ => k end)
                                            (match canon (mirror_d (fst t)) with DArr _ x _ => x | DGet _ _ => [] end)) (getf n (fst ab)) &&
  forallb (fun t => match fst t with DArr op x _ => jms_ix op x && jms_ix op (cur_ix x) || jms_ix op x && negb (mem op cur_ops) | DGet _ _ => false end) (getf n (snd ab)) &&
  leqb amJ (lmap canon (lmap mirror_d (getf n (fst ab)))) (lmap canon (getf n (snd ab))).

(** ** The checks *)
Definition compose (a : asm) (n2 n1 : dict string lform) : dict string lform :=
  map (fun kf => (fst kf, lsubst a (dget n1) (snd kf))) n2.
Definition times16 (k : string) : lform := [(DGet k false, (16%Q, mone))].
(** 7 and 7p of the semileptonic coefficients *)
Definition tensors : list (string * string) :=
  flat_map (fun ll => flat_map (fun q => let s := (d (fst q) ++ d (snd q) ++ l (fst ll) ++ l (snd ll))%string in
    [(("7" ++ s)%string, ("9" ++ s)%string); (("7p" ++ s)%string, ("9p" ++ s)%string)]) [sb; db]) families.
Definition restored (n : dict string lform) (ks : list string) : bool := forallb (fun k => leqb am0 (getf n k) (var k)) ks.
Definition bern_kept : list string := filter (fun k => negb (mem k (map fst tensors))) (names bern_of_flavio).
Definition eos_same : list (string * string) :=
  flat_map (fun i => let e n := ("b->s" ++ l i ++ l i ++ "::" ++ n)%string in let f n := (n ++ "_bs" ++ l i ++ l i)%string in
     [(e "c9", f "C9"); (e "c9'", f "C9p"); (e "c10", f "C10"); (e "c10'", f "C10p")] ++
     map (fun n => (("b->u" ++ l i ++ "nu" ++ l i ++ "::c" ++ n)%string, ("C" ++ n ++ "_bu" ++ l i ++ "nu" ++ l i)%string)) ["VL"; "VR"; "SR"; "SL"; "T"]) [F1; F2].
Definition eos_mb : list (string * string) :=
  flat_map (fun i => let e n := ("b->s" ++ l i ++ l i ++ "::" ++ n)%string in let f n := (n ++ "_bs" ++ l i ++ l i)%string in
     [(e "cS", f "CS"); (e "cS'", f "CSp"); (e "cP", f "CP"); (e "cP'", f "CPp")]) [F1; F2].
Definition mb1 : coef := (1%Q, ([APar "m_b"], [])).

Lemma chk_JB : chk amJ none JMS_to_Bern_prog nJB bern && jdata nJB && jflav bern nJB && forallb (pchk nJB) mirror_names = true.
Proof. vm_cast_no_check (eq_refl true). Qed.
Lemma chk_JF : chk amJ none JMS_to_flavio_prog nJF flavio && jdata nJF && jflav flavio nJF &&
  deqb amJ nJF (compose amJ nBF nJB) = true.
Proof. vm_cast_no_check (eq_refl true). Qed.
Lemma chk_JX : chk amJ none JMS_to_FormFlavor_prog nJX formflavor && jdata nJX &&
  jflav formflavor (filter (fun kf => negb (mem (fst kf) (names ff_nu))) nJX) = true.
Proof. vm_cast_no_check (eq_refl true). Qed.
Lemma chk_JE : chk amE none JMS_to_EOS_prog nJE eos && jdata nJE && jflav eos nJE &&
  forallb (fun ab => leqb amE (getf nJE (fst ab)) (getf nJF (snd ab))) eos_same &&
  forallb (fun ab => leqb amE (getf nJE (fst ab)) (lscale amE mb1 (getf nJF (snd ab)))) eos_mb = true.
Proof. vm_cast_no_check (eq_refl true). Qed.
Lemma chk_BF : chk am0 (reads bern_read) Bern_to_flavio_prog nBF flavio && gdata bern_read nBF && gflav bern flavio nBF &&
  restored (compose am0 nBF nFB) flavio_read && forallb (fun k => leqb am0 (getf (compose am0 nBF nFB) k) []) (names flavio_sdnu) = true.
Proof. vm_cast_no_check (eq_refl true). Qed.
Lemma chk_FB : chk am0 (reads flavio_read) flavio_to_Bern_prog nFB bern_of_flavio && gdata flavio_read nFB && gflav flavio bern_of_flavio nFB &&
  restored (compose am0 nFB nBF) bern_kept &&
  forallb (fun ab => leqb am0 (getf (compose am0 nFB nBF) (fst ab)) (times16 (snd ab))) tensors = true.
Proof. vm_cast_no_check (eq_refl true). Qed.

