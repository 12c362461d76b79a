(** Field content of the JMS operators with chiralities: what a user of the basis knows
    (arXiv:1709.04486, Tables 10-20).  Independent of the matching code. *)
From Coq Require Import String List Bool Reals.
From Verif Require Import PyBase PyDict Cplx Tensor Smeft.
Import ListNotations.
Open Scope string_scope.
Open Scope list_scope.

Inductive fermion := Nu | El | Up | Dn.
Inductive chirality := LH | RH.
Definition flip (x : chirality) : chirality := match x with LH => RH | RH => LH end.
(** A field of an operator: fermion, whether it is barred, chirality. *)
Definition slot := (fermion * bool * chirality)%type.
(** (f̄ γ f)(f̄ γ f), (f̄ f)(f̄ f) or (f̄ σ f)(f̄ σ f), f̄ σ F f, (f f)(f f) *)
Definition vec (x y : chirality) (a b c d : fermion) : list slot := [(a, true, x); (b, false, x); (c, true, y); (d, false, y)].
Definition sca (x y : chirality) (a b c d : fermion) : list slot :=
  [(a, true, flip x); (b, false, x); (c, true, flip y); (d, false, y)].
Definition dip (a : fermion) : list slot := [(a, true, LH); (a, false, RH)].
Definition bnv (x y : chirality) (a b c d : fermion) : list slot := [(a, false, x); (b, false, x); (c, false, y); (d, false, y)].
Definition jms_slots : list (string * list slot) :=
  [("egamma", dip El); ("ugamma", dip Up); ("dgamma", dip Dn); ("uG", dip Up); ("dG", dip Dn);
   ("VnunuLL", vec LH LH Nu Nu Nu Nu); ("VeeLL", vec LH LH El El El El); ("VnueLL", vec LH LH Nu Nu El El);
   ("VnuuLL", vec LH LH Nu Nu Up Up); ("VnudLL", vec LH LH Nu Nu Dn Dn); ("VeuLL", vec LH LH El El Up Up); ("VedLL", vec LH LH El El Dn Dn);
   ("VnueduLL", vec LH LH Nu El Dn Up);
   ("VuuLL", vec LH LH Up Up Up Up); ("VddLL", vec LH LH Dn Dn Dn Dn); ("V1udLL", vec LH LH Up Up Dn Dn); ("V8udLL", vec LH LH Up Up Dn Dn);
   ("VeeRR", vec RH RH El El El El); ("VeuRR", vec RH RH El El Up Up); ("VedRR", vec RH RH El El Dn Dn);
   ("VuuRR", vec RH RH Up Up Up Up); ("VddRR", vec RH RH Dn Dn Dn Dn); ("V1udRR", vec RH RH Up Up Dn Dn); ("V8udRR", vec RH RH Up Up Dn Dn);
   ("VnueLR", vec LH RH Nu Nu El El); ("VeeLR", vec LH RH El El El El); ("VnuuLR", vec LH RH Nu Nu Up Up); ("VnudLR", vec LH RH Nu Nu Dn Dn);
   ("VeuLR", vec LH RH El El Up Up); ("VedLR", vec LH RH El El Dn Dn); ("VueLR", vec LH RH Up Up El El); ("VdeLR", vec LH RH Dn Dn El El);
   ("VnueduLR", vec LH RH Nu El Dn Up);
   ("V1uuLR", vec LH RH Up Up Up Up); ("V8uuLR", vec LH RH Up Up Up Up); ("V1udLR", vec LH RH Up Up Dn Dn); ("V8udLR", vec LH RH Up Up Dn Dn);
   ("V1duLR", vec LH RH Dn Dn Up Up); ("V8duLR", vec LH RH Dn Dn Up Up); ("V1ddLR", vec LH RH Dn Dn Dn Dn); ("V8ddLR", vec LH RH Dn Dn Dn Dn);
   ("V1udduLR", vec LH RH Up Dn Dn Up); ("V8udduLR", vec LH RH Up Dn Dn Up);
   ("SeuRL", sca RH LH El El Up Up); ("SedRL", sca RH LH El El Dn Dn); ("SnueduRL", sca RH LH Nu El Dn Up);
   ("SeeRR", sca RH RH El El El El); ("SeuRR", sca RH RH El El Up Up); ("TeuRR", sca RH RH El El Up Up);
   ("SedRR", sca RH RH El El Dn Dn); ("TedRR", sca RH RH El El Dn Dn); ("SnueduRR", sca RH RH Nu El Dn Up); ("TnueduRR", sca RH RH Nu El Dn Up);
   ("S1uuRR", sca RH RH Up Up Up Up); ("S8uuRR", sca RH RH Up Up Up Up); ("S1udRR", sca RH RH Up Up Dn Dn); ("S8udRR", sca RH RH Up Up Dn Dn);
   ("S1ddRR", sca RH RH Dn Dn Dn Dn); ("S8ddRR", sca RH RH Dn Dn Dn Dn); ("S1udduRR", sca RH RH Up Dn Dn Up); ("S8udduRR", sca RH RH Up Dn Dn Up);
   ("SuddLL", bnv LH LH Up Dn Dn Nu); ("SduuLL", bnv LH LH Dn Up Up El); ("SduuLR", bnv LH RH Dn Up Up El);
   ("SduuRL", bnv RH LH Dn Up Up El); ("SdudRL", bnv RH LH Dn Up Dn Nu); ("SduuRR", bnv RH RH Dn Up Up El)].

(** Change of basis of one field: [m] acts on index number [n]. *)
Definition on_slot (n : nat) (m : mat) (x : ten) : ten :=
  match n with
  | 0 => fun a b c d => S3 (fun i => Cmul (m i a) (x i b c d))
  | 1 => fun a b c d => S3 (fun i => Cmul (m i b) (x a i c d))
  | 2 => fun a b c d => S3 (fun i => Cmul (m i c) (x a b i d))
  | _ => fun a b c d => S3 (fun i => Cmul (m i d) (x a b c i))
  end.
Definition on_slot2 (n : nat) (m : mat) (x : mat) : mat :=
  match n with
  | 0 => fun a b => S3 (fun i => Cmul (m i a) (x i b))
  | _ => fun a b => S3 (fun i => Cmul (m i b) (x a i))
  end.
(** If every left-handed down quark is replaced, d_L = V d'_L: V at unbarred fields, its
    conjugate at barred ones. *)
Fixpoint new_downs4 (V : mat) (n : nat) (s : list slot) (x : ten) : ten :=
  match s with
  | [] => x
  | (Dn, b, LH) :: t => on_slot n (if b then mconj V else V) (new_downs4 V (S n) t x)
  | _ :: t => new_downs4 V (S n) t x
  end.
Fixpoint new_downs2 (V : mat) (n : nat) (s : list slot) (x : mat) : mat :=
  match s with
  | [] => x
  | (Dn, b, LH) :: t => on_slot2 n (if b then mconj V else V) (new_downs2 V (S n) t x)
  | _ :: t => new_downs2 V (S n) t x
  end.
Definition new_downs (V : mat) (s : list slot) (v : arr) : arr :=
  match v with A0 _ => v | A2 m => A2 (new_downs2 V 0 s m) | A4 t => A4 (new_downs4 V 0 s t) end.
Definition left_down (s : list slot) : bool :=
  existsb (fun x : slot => match x with (Dn, _, LH) => true | _ => false end) s.
