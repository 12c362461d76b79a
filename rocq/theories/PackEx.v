(** Listings of the bases for the examples of P_Package: all coefficients of a sector with the quarks of the theory. *)
From Coq Require Import String List Bool Reals.
From Verif Require Import PyBase PyDict Cplx Tensor Smeft SmeftNames SmeftReg WetExpr Wet WetJms WetNf WetSpec WetChk WetThm WetAux WetList PackWet.
Import ListNotations.
Open Scope string_scope.
Open Scope list_scope.
#[local] Opaque nf nf_ok deqb leqb mirror_names.
#[local] Opaque nJB nJF nJX nJE nBF nFB bern_read flavio_read bern flavio eos formflavor J0.
Definition jms_free (hs : list flavour) : list string :=
  flat_map (fun t => map (cname (fst t)) (filter (fun x => without hs (jms_content (fst t) x)) (all_ix (snd t)))) jms_fields.
Definition coefs_free (hs : list flavour) (q : coefs) : list string := names (filter (fun kr => without hs (snd kr)) q).
Lemma fields_plain : forallb (fun t => no_us (fst t) && negb (match snd t with [] => true | _ => false end)) jms_fields = true.
Proof. vm_cast_no_check (eq_refl true). Qed.
Lemma jms_free_ok hs : lists_without hs J0 (jms_free hs).
Proof.
  intros op x H _. pose proof fields_plain as P. rewrite forallb_forall in P. unfold jms_ix in H.
  destruct (dget jms_fields op) as [fs|] eqn:F; [|discriminate]. apply dget_In in F. pose proof (P _ F) as Q. cbn [fst snd] in Q.
  apply andb_true_iff in Q. destruct Q as [N Q].
  assert (forall t y, In t jms_fields -> In y (all_ix (snd t)) -> y <> []) as Ne.
  { intros [o gs] y I Iy. specialize (P _ I). cbn [fst snd] in *. apply andb_true_iff in P. destruct P as [_ P].
    destruct gs as [|g gs]; [discriminate|]. cbn [all_ix] in Iy. apply in_flat_map in Iy. destruct Iy as (i & _ & Iy). apply in_map_iff in Iy.
    destruct Iy as (z & <- & _). discriminate. }
  split.
  - intros I. unfold jms_free in I. apply in_flat_map in I. destruct I as ([o gs] & It & I). apply in_map_iff in I. destruct I as (y & E & I).
    cbn [fst snd] in *. apply filter_In in I. destruct I as [Iy Wy].
    pose proof (P _ It) as Q'. cbn [fst snd] in Q'. apply andb_true_iff in Q'. destruct Q' as [N' _].
    apply cname_inj in E; auto; [|exact (Ne _ _ It Iy)|exact (Ne _ x F (all_ix_fits _ _ H))]. destruct E as [<- <-]. exact Wy.
  - intros Wx. unfold jms_free. apply in_flat_map. exists (op, fs). split; auto. cbn [fst snd]. apply in_map, filter_In. split; auto. apply all_ix_fits; auto.
Qed.
Lemma coefs_free_ok hs q : NoDup (names q) -> names_without hs q (coefs_free hs q).
Proof.
  intros N k r I. unfold coefs_free, names. split.
  - intros J. apply in_map_iff in J. destruct J as ([k' r'] & E & J). cbn [fst] in E. subst k'. apply filter_In in J. destruct J as [J Wr]. cbn [snd] in Wr.
    assert (r' = r) as <-; auto. pose proof (In_dget _ _ _ N I). pose proof (In_dget _ _ _ N J). congruence.
  - intros Wr. apply in_map_iff. exists (k, r). split; auto. apply filter_In. auto.
Qed.
(** [heavy] of the theory, all of the SMEFT *)
Definition lists0 (eft basis : string) : list string :=
  if String.eqb eft "SMEFT" then kept_names else
  if String.eqb eft "WET" then (if String.eqb basis "JMS" then J0 else if String.eqb basis "Bern" then names bern else names flavio)
  else if String.eqb basis "JMS" then jms_free (heavy eft) else if String.eqb basis "Bern" then coefs_free (heavy eft) bern else coefs_free (heavy eft) flavio.
