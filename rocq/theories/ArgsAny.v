(** Every command line of the three console scripts, and typed commands on coefficient files. *)
From Coq Require Import String Ascii List Bool Arith ZArith Reals Lia.
From Verif Require Import PyBase PyDict Dump Cli Args ArgsFacts ArgsForms ArgsThm.
Import ListNotations.
Open Scope string_scope.
Open Scope list_scope.
Open Scope nat_scope.

(** Standing for [sound] at the place of a command. *)
Definition in_ready (stdin : string) (f : source) (s : st) : Prop :=
  match f with SFile q => dmem (files s) q = true | SStdin t => t = stdin end.
Definition out_ready (l : list string) (o : dest) (s : st) : Prop :=
  match o with DFile q => dget (files s) q = Some "" /\ named l q | _ => True end.
(** The end of a run that did not get past the command line. *)
Definition stopped (r : Z * st) (s : st) : Prop :=
  r = (0%Z, snd (say Help s)) \/ r = (2%Z, snd (say Usage s)) \/ r = (1%Z, snd (say (Trace IndexError) s)).

Section Any.
Variable stdin : string.
Variable creatable : string -> bool.
Variable float_of_str : string -> option R.
Notation parse_args := (parse_args stdin creatable float_of_str).

Lemma st_eq (s s' : st) : files s = files s' -> seen s = seen s' -> s = s'.
Proof. destruct s, s'; cbn. congruence. Qed.
Lemma parse_cases p sub l s : safe_parser stdin p ->
  (forall l' g, (forall v, In v l' -> named l v) -> hoare creatable (named l) (sound_got stdin (named l) g) (sub l' g) (sound_got stdin (named l))) ->
  exists s', touched creatable (named l) s s' /\ seen s' = seen s /\
    (parse_args p sub l s = (Stop 0%Z, snd (say Help s')) \/ parse_args p sub l s = (Stop 2%Z, snd (say Usage s')) \/
     parse_args p sub l s = (Raise IndexError, s') \/
     exists g, parse_args p sub l s = (Ret g, s') /\ sound_got stdin (named l) g s').
Proof.
  intros S H. destruct (parse_args_hoare stdin creatable float_of_str p sub l S H s I) as (T & E & Po).
  destruct (parse_args p sub l s) as [[g|n|e] s'] eqn:P; cbn [fst snd] in *; cbn [ends] in E.
  - exists s'. split; auto. split; auto. right. right. right. exists g. split; auto. apply Po; auto.
  - exists (St (files s') (seen s)). split; [exact T|]. split; [reflexivity|]. destruct E as [[-> E]|[-> E]]; [left|right; left];
      (f_equal; apply st_eq; cbn; auto).
  - destruct E as [-> E]. exists s'. split; auto.
Qed.
Lemma sound_input N d k f s : sound_in stdin N d s -> in_at d k = Some f -> in_ready stdin f s.
Proof.
  unfold in_at. intros H. destruct (dget d k) as [v|] eqn:E; [|discriminate]. apply dget_In in E. specialize (H _ _ E).
  destruct v as [| | |y| |]; try discriminate. intros [= <-]. destruct y; exact H.
Qed.
Lemma sound_output l d k o s : sound_in stdin (named l) d s -> out_at d k = Some o -> out_ready l o s.
Proof.
  unfold out_at. intros H. destruct (dget d k) as [v|] eqn:E; [|discriminate]. apply dget_In in E. specialize (H _ _ E).
  destruct v as [| | | |y|]; try discriminate; intros [= <-]; [exact I|]. destruct y; auto.
Qed.
Lemma to_cmd_ready l c d x s : sound_in stdin (named l) d s -> to_cmd c d = Some x -> in_ready stdin (cmd_in x) s /\ out_ready l (cmd_out x) s.
Proof.
  intros H. unfold to_cmd. destruct (in_at d "FILE") as [f|] eqn:F; [|discriminate]. pose proof (sound_input _ _ _ _ _ H F) as IF.
  assert (forall o, out_at d "output" = Some o -> out_ready l o s) as IO by (intros o; apply sound_output; auto).
  destruct (String.eqb c "convert"); [|destruct (String.eqb c "translate"); [|destruct (String.eqb c "match")]].
  - destruct (str_at d "FORMAT"); [|discriminate]. destruct (out_at d "output"); [|discriminate]. intros [= <-]. cbn. auto.
  - destruct (str_at d "BASIS"); [|discriminate]. destruct (out_at d "output"); [|discriminate]. destruct (str_at d "format"); [|discriminate].
    intros [= <-]. cbn. auto.
  - destruct (str_at d "EFT"); [|discriminate]. destruct (str_at d "BASIS"); [|discriminate]. destruct (out_at d "output"); [|discriminate].
    destruct (str_at d "format"); [|discriminate]. intros [= <-]. cbn. auto.
  - destruct (str_at d "TYPE"); [|discriminate]. intros [= <-]. cbn. auto.
Qed.
Lemma main_safe : safe_parser stdin main_parser.
Proof. split; cbn; [intros a [I|[]]; discriminate|intros a []]. Qed.
Lemma no_sub_named l l' g : (forall v, In v l' -> named l v) -> hoare creatable (named l) (sound_got stdin (named l) g) (no_sub l' g) (sound_got stdin (named l)).
Proof. intros _. apply hoare_ret. auto. Qed.

Theorem wcxf_any main empty_list l s : exists s', touched creatable (named l) s s' /\ seen s' = seen s /\
  let r := wcxf_argv stdin creatable float_of_str main empty_list l s in
  stopped r s' \/ r = main PNone s' \/ r = empty_list l s' \/
  exists c, r = main (PCmd c) s' /\ in_ready stdin (cmd_in c) s' /\ out_ready l (cmd_out c) s'.
Proof.
  destruct (parse_cases main_parser (run_sub stdin creatable float_of_str) l s main_safe
    (fun l' g => run_sub_named stdin creatable float_of_str l l' g)) as (s' & T & E & C).
  exists s'. split; auto. split; auto. unfold wcxf_argv, stopped. destruct C as [->|[->|[->|(g & -> & G)]]]; auto.
  destruct (sub_ g) as [c|]; auto. destruct (to_cmd c (space g)) as [x|] eqn:X; auto.
  right. right. right. exists x. split; auto. apply (to_cmd_ready l c (space g)); auto.
Qed.
Lemma eos_safe : safe_parser stdin (eos_parser stdin).
Proof.
  split; cbn; intros a I; repeat (destruct I as [I|I]; [try (injection I as <-); try subst a; cbn; auto; discriminate|]); destruct I.
Qed.
Lemma sim_safe : safe_parser stdin smeftsim_parser.
Proof.
  split; cbn; intros a I; repeat (destruct I as [I|I]; [try (injection I as <-); try subst a; cbn; auto; discriminate|]); destruct I.
Qed.
Theorem eos_any main empty_list l s : exists s', touched creatable (named l) s s' /\ seen s' = seen s /\
  let r := eos_argv stdin creatable float_of_str main empty_list l s in
  stopped r s' \/ r = empty_list l s' \/
  exists f x o h, r = main f x o h s' /\ in_ready stdin f s' /\ out_ready l o s'.
Proof.
  destruct (parse_cases (eos_parser stdin) no_sub l s eos_safe (fun l' g => no_sub_named l l' g)) as (s' & T & E & C).
  exists s'. split; auto. split; auto. unfold eos_argv, stopped. destruct C as [->|[->|[->|(g & -> & G)]]]; auto.
  destruct (in_at (space g) "FILE") as [f|] eqn:F; auto. destruct (str_at (space g) "eosprefix") as [x|]; auto.
  destruct (out_at (space g) "output") as [o|] eqn:O; auto. pose proof (sound_input _ _ _ _ _ G F). pose proof (sound_output _ _ _ _ _ G O).
  destruct (dget (space g) "eoshome") as [[| |h| | |]|]; auto; right; right; eexists f, x, o, _; eauto.
Qed.


Theorem sim_any main no_value l s : exists s', touched creatable (named l) s s' /\ seen s' = seen s /\
  let r := smeftsim_argv stdin creatable float_of_str main no_value l s in
  stopped r s' \/ r = no_value l s' \/
  exists m i x f o, r = main m i x f o s' /\ in_ready stdin f s'.
Proof.
  destruct (parse_cases smeftsim_parser no_sub l s sim_safe (fun l' g => no_sub_named l l' g)) as (s' & T & E & C).
  exists s'. split; auto. split; auto. unfold smeftsim_argv, stopped. destruct C as [->|[->|[->|(g & -> & G)]]]; auto.
  destruct (in_at (space g) "FILE") as [f|] eqn:F; auto. destruct (str_at (space g) "output") as [o|]; auto.
  destruct (str_at (space g) "input_scheme") as [i|]; auto. destruct (str_at (space g) "model_set") as [m|]; auto. pose proof (sound_input _ _ _ _ _ G F).
  destruct (dget (space g) "cutoff_scale") as [[| | | | |x]|]; auto; right; right; eexists m, i, x, f, o; eauto.
Qed.

(** Files that are not named on the command line stay as they are, whatever the commands do
    as long as these only write to their output. *)
Theorem wcxf_frame main empty_list l s q :
  (forall a t, (forall c, a = PCmd c -> cmd_out c <> DFile q) -> dget (files (snd (main a t))) q = dget (files t) q) ->
  (forall t, dget (files (snd (empty_list l t))) q = dget (files t) q) -> ~ named l q ->
  dget (files (snd (wcxf_argv stdin creatable float_of_str main empty_list l s))) q = dget (files s) q.
Proof.
  intros M EL N. destruct (wcxf_any main empty_list l s) as (s' & T & _ & C). cbv zeta in C.
  assert (dget (files s') q = dget (files s) q) as <- by (destruct (T q) as [|(_ & _ & K)]; [auto|contradiction]).
  destruct C as [[->|[->| ->]]|[->|[->|(c & -> & _ & O)]]]; auto.
  - apply M. discriminate.
  - apply M. intros c' [= <-] E. rewrite E in O. destruct O as [_ O]. contradiction.
Qed.
(** On an output that is already empty, opening it again changes nothing. *)
Lemma ready_truncate l o s : out_ready l o s -> truncate o s = s.
Proof.
  destruct o as [|q|]; auto. intros [E _]. destruct s as [d z]. cbn in *. f_equal. clear - E. revert E.
  induction d as [|[k v] d IH]; cbn; [discriminate|]. destruct (keqb q k) eqn:K; [intros [= ->]; reflexivity|].
  intros E. rewrite IH by exact E. reflexivity.
Qed.
End Any.
