(** match_all (matchers/smeft.py), rotate_down (translators/wet.py) and the matchers of
    matchers/__init__.py. *)
From Coq Require Import String List Bool Reals.
From Verif Require Import PyBase PyDict Cplx Tensor SmeftSyntax SmeftTab Wc Params Smeft MatchOps MatchTab.
Import ListNotations.
Open Scope string_scope.
Open Scope list_scope.

(** [0*v] *)
Definition azero (v : arr) : arr :=
  match v with A0 _ => A0 C0 | A2 _ => A2 mzero | A4 _ => A4 tzero end.
(** [f(C_SMEFT, p) - f(C_SMEFT_0, p)]: both have the same shape. *)
Definition asub (v w : arr) : arr :=
  match v, w with
  | A0 a, A0 b => A0 (Csub a b)
  | A2 a, A2 b => A2 (msub a b)
  | A4 a, A4 b => A4 (tsub a b)
  | _, _ => v
  end.
(** match_all_array, matchers/smeft.py 207-211.  The order of the checks is that of the first
    conditions that need them: nu, egamma, VnunuLL.  The entry 'vT' that match_all adds to the
    dictionary is never read and left out. *)
Definition match_all_array (A : arrays) (p : params) : res arrays :=
  let Z := dmap azero A in
  let! k := weak A p (vT A p) in
  let! k0 := weak Z p (vT Z p) in
  let! k := with_gz A k in
  if Req_EM_T (param p "m_Z") 0 then Err ZeroDivisionError else
  let! k0 := with_gz Z k0 in
  Ok (map (fun kf => (fst kf, asub (snd kf k p A) (snd kf k0 p Z))) match_tab).

(** add_missing, smeftutil.py 572-577.  Simplified: a missing number is added as np.zeros(1),
    which behaves like a number in the formulas; see [out_entries] for what remains of the
    difference.  The order in which missing names are added plays no role. *)
Definition add_missing (c : arrays) : arrays :=
  fold_left (fun c k => if dmem c k then c else dset c k (match dget C_keys_shape k with Some s => zeros s | None => A0 C0 end)) WC_keys c.

(** ** rotate_down, translators/wet.py 942-987 *)
Section Rotate.
Local Open Scope C_scope.
(** einsum 'ia,jb,kc,ld,ijkl->abcd' (U.conj(), U, U.conj(), U) *)
Definition rd_all (U : mat) (x : ten) : ten := fun a b c d =>
  S3 (fun i => S3 (fun j => S3 (fun k => S3 (fun l => mconj U i a * U j b * mconj U k c * U l d * x i j k l)))).
(** 'kc,ld,ijkl->ijcd' (U.conj(), U) *)
Definition rd_kl (U : mat) (x : ten) : ten := fun i j c d =>
  S3 (fun k => S3 (fun l => mconj U k c * U l d * x i j k l)).
(** 'ia,jb,ijkl->abkl' (U.conj(), U) *)
Definition rd_ij (U : mat) (x : ten) : ten := fun a b k l =>
  S3 (fun i => S3 (fun j => mconj U i a * U j b * x i j k l)).
(** 'ia,kc,ijkl->ajcl' (U.conj(), U.conj()) *)
Definition rd_ik (U : mat) (x : ten) : ten := fun a j c l =>
  S3 (fun i => S3 (fun k => mconj U i a * mconj U k c * x i j k l)).
(** 'jb,ijkl->ibkl' (U) *)
Definition rd_j (U : mat) (x : ten) : ten := fun i b k l => S3 (fun j => U j b * x i j k l).
(** 'kc,ijkl->ijcl' (U.conj()) *)
Definition rd_k (U : mat) (x : ten) : ten := fun i j c l => S3 (fun k => mconj U k c * x i j k l).
(** 'ld,ijkl->ijkd' (U) *)
Definition rd_l (U : mat) (x : ten) : ten := fun i j k d => S3 (fun l => U l d * x i j k l).
End Rotate.
Definition rd_tab : list (string * (mat -> ten -> ten)) :=
  map (fun k => (k, rd_all)) ["VddLL"] ++
  map (fun k => (k, rd_kl)) ["V1udLL"; "V8udLL"; "VedLL"; "VnudLL"] ++
  map (fun k => (k, rd_ij)) ["V1ddLR"; "V1duLR"; "V8ddLR"; "V8duLR"; "VdeLR"] ++
  map (fun k => (k, rd_ik)) ["S1ddRR"] ++
  map (fun k => (k, rd_j)) ["V1udduLR"; "V8udduLR"] ++
  map (fun k => (k, rd_k)) ["VnueduLL"; "SedRR"; "TedRR"; "SnueduRR"; "TnueduRR"; "S1udRR"; "S8udRR"; "S1udduRR"; "S8udduRR"] ++
  map (fun k => (k, rd_l)) ["SedRL"].
(** The loops, one name at a time; einsum rejects another number of axes with ValueError. *)
Fixpoint rotate_from (V : mat) (c_in c : arrays) (tab : list (string * (mat -> ten -> ten))) : res arrays :=
  match tab with
  | [] => Ok c
  | (k, f) :: t =>
      let! v := dlookup c_in k in
      match v with A4 x => rotate_from V c_in (dset c k (A4 (f V x))) t | _ => Err ValueError end
  end.
Definition rotate_down (V : mat) (c : arrays) : res arrays := rotate_from V c c rd_tab.

(** ** match_all *)
(** arrays2wcxf, translators/smeft.py 10-24, on the matched arrays: G and Gtilde, if they were
    filled in by add_missing, have shape (1,) and are named G_1, Gtilde_1. *)
Definition out_entries (filled : string -> bool) (kv : string * arr) : list (string * C) :=
  match snd kv with
  | A0 z => if filled (fst kv) then [(cname (fst kv) [F1], z)] else entries (fst kv) (snd kv)
  | _ => entries (fst kv) (snd kv)
  end.
Definition out_names (filled : string -> bool) (c : arrays) : dict string C := dict_of (flat_map (out_entries filled) c).

Section Match.
(** ckmutil.ckm.ckm_tree, not part of /repo *)
Variable ckm_tree : R -> R -> R -> R -> mat.
(** matchers/smeft.py 219-224: the arrays read from the input *)
Definition read_smeft (d : dict string C) : res arrays :=
  let! c := wcxf2arrays d in symmetrize c.
(** matchers/smeft.py 215-227: the arrays before they are written *)
Definition matched (p : params) (c : arrays) : res arrays :=
  let! w := match_all_array (add_missing c) p in rotate_down (ckm_of ckm_tree p) w.
(** match_all, matchers/smeft.py 213-234; [J] is [Basis['WET', 'JMS'].all_wcs].  The order of
    the result is that of a Python set; here that of the arrays. *)
Definition match_all (J : list string) (d : dict string C) (input : option params) : res (dict string C) :=
  let p := merge_params input in
  let! c := read_smeft d in
  let! w := matched p c in
  Ok (key_filter J (out_names (fun k => negb (dmem c k)) w)).
End Match.
