(** SMEFT coefficient arrays: wcxf/util/smeftutil.py (symmetrize, flavor_rotation)
    and wcxf/translators/smeft.py. *)
From Coq Require Import String Ascii List Bool Arith Reals Lia.
From Verif Require Import PyBase PyDict Cplx Tensor SmeftSyntax SmeftTab SmeftSymm Wc Params.
Import ListNotations.
Open Scope string_scope.
Open Scope list_scope.

(** A number or a numpy array of shape (3, 3) or (3, 3, 3, 3). *)
Inductive arr := A0 (z : C) | A2 (m : mat) | A4 (t : ten).
Definition arrays := dict string arr.

(** ** symmetrize, smeftutil.py 550-571.  Simplified: an array whose rank is not
    that of the operator is rejected with IndexError. *)
Definition symm_arr (k : string) (v : arr) : option (res arr) :=
  if mem k symm_keys_0 then
    Some (Ok (match v with
              | A0 z => A0 (RtoC (Re z))
              | A2 m => A2 (fun i j => RtoC (Re (m i j)))
              | A4 t => A4 (fun i j k l => RtoC (Re (t i j k l)))
              end))
  else if mem k (symm_keys_1 ++ symm_keys_3) then Some (Ok v)
  else if mem k symm_keys_2 then Some (match v with A2 m => Ok (A2 (symmetrize_2 m)) | _ => Err IndexError end)
  else if mem k symm_keys_4 then Some (match v with A4 t => Ok (A4 (symmetrize_4 t)) | _ => Err IndexError end)
  else if mem k symm_keys_5 then Some (match v with A4 t => Ok (A4 (symmetrize_5 t)) | _ => Err IndexError end)
  else if mem k symm_keys_6 then Some (match v with A4 t => Ok (A4 (symmetrize_6 t)) | _ => Err IndexError end)
  else if mem k symm_keys_7 then Some (match v with A4 t => Ok (A4 (symmetrize_7 t)) | _ => Err IndexError end)
  else if mem k symm_keys_8 then Some (match v with A4 t => Ok (A4 (symmetrize_8 t)) | _ => Err IndexError end)
  else if mem k symm_keys_9 then Some (match v with A2 m => Ok (A2 (symmetrize_9 m)) | _ => Err IndexError end)
  else None.
Fixpoint symmetrize_from (acc : arrays) (c : arrays) : res arrays :=
  match c with
  | [] => Ok acc
  | (k, v) :: t => match symm_arr k v with
                   | None => symmetrize_from acc t
                   | Some r => let! a := r in symmetrize_from (dset acc k a) t
                   end
  end.
Definition symmetrize (c : arrays) : res arrays := symmetrize_from [] c.

(** ** flavor_rotation, smeftutil.py 580-675 *)
Record umats := UMats { u_q : mat; u_u : mat; u_d : mat; u_l : mat; u_e : mat }.
Definition umat (u : umats) (x : fld * bool) : mat :=
  let m := match fst x with Qf => u_q u | Uf => u_u u | Df => u_d u | Lf => u_l u | Ef => u_e u end in
  if snd x then mconj m else m.
Open Scope C_scope.
(** [np.einsum('jb,ld,ia,kc,ijkl->abcd', B, D, A, X, t)] *)
Definition einsum4 (B D A X : mat) (t : ten) : ten := fun a b c d =>
  S3 (fun i => S3 (fun j => S3 (fun k => S3 (fun l => B j b * D l d * A i a * X k c * t i j k l)))).
Close Scope C_scope.
(** [L.T @ m @ R], where L is already conjugated if the source says so.
    Simplified: arrays of the wrong rank are rejected with ValueError. *)
Definition rotate (u : umats) (r : rot) (v : arr) : res arr :=
  match r, v with
  | RNone, _ => Ok v
  | R2 l x, A2 m => Ok (A2 (mmul (mmul (mT (umat u l)) m) (umat u x)))
  | R4 b d a x, A4 t => Ok (A4 (einsum4 (umat u b) (umat u d) (umat u a) (umat u x) t))
  | _, _ => Err ValueError
  end.
Fixpoint flavor_rotation_from (u : umats) (acc : arrays) (tab : list (string * rot)) (c : arrays) : res arrays :=
  match tab with
  | [] => Ok acc
  | (k, r) :: t => match dget c k with
                   | None => flavor_rotation_from u acc t c
                   | Some v => let! a := rotate u r v in flavor_rotation_from u (dset acc k a) t c
                   end
  end.
Definition flavor_rotation (c : arrays) (u : umats) : res arrays := flavor_rotation_from u [] rot_tab c.

(** ** Names *)
(** [s.split('_')] *)
Fixpoint split_us (s : string) : list string :=
  match s with
  | EmptyString => [EmptyString]
  | String a t => if Ascii.eqb a "_"%char then EmptyString :: split_us t
                  else match split_us t with
                       | h :: r => String a h :: r
                       | [] => [String a EmptyString]
                       end
  end.
Definition name_part (k : string) : string := hd "" (split_us k).
Definition index_part (k : string) : string := last (split_us k) "".
(** [int(c)] of one character.  Simplified: ASCII digits only. *)
Definition int_char (a : ascii) : res nat :=
  let n := nat_of_ascii a in
  if (48 <=? n)%nat && (n <=? 57)%nat then Ok (n - 48)%nat else Err ValueError.
(** Position [n - 1] on an axis of length 3; Python reads -1 as the last one. *)
Definition axis_pos (n : nat) : res fl :=
  match n with 0 => Ok F3 | 1 => Ok F1 | 2 => Ok F2 | 3 => Ok F3 | _ => Err IndexError end.
Fixpoint chars (s : string) : list ascii :=
  match s with EmptyString => [] | String a t => a :: chars t end.
(** [tuple(int(i) - 1 for i in ind)] used as an index into an array of rank [n]:
    ValueError from int first, then IndexError. *)
Definition parse_index (n : nat) (s : string) : res (list fl) :=
  let! ds := mapM int_char (chars s) in
  if (n <? length ds)%nat then Err IndexError else mapM axis_pos ds.
Fixpoint is_prefix (p x : idx) : bool :=
  match p, x with
  | [], _ => true
  | a :: p', b :: x' => fl_eqb a b && is_prefix p' x'
  | _, _ => false
  end.
(** [a[prefix] = z]: assigns the whole sub-array *)
Definition aset (v : arr) (pre : idx) (z : C) : arr :=
  match v with
  | A0 _ => A0 z
  | A2 m => A2 (fun i j => if is_prefix pre [i; j] then z else m i j)
  | A4 t => A4 (fun i j k l => if is_prefix pre [i; j; k; l] then z else t i j k l)
  end.
Definition rank (s : shape) : nat := match s with Sh0 => 1 | Sh2 => 2 | Sh4 => 4 end.
Definition zeros (s : shape) : arr :=
  match s with Sh0 => A0 C0 | Sh2 => A2 (fun _ _ => C0) | Sh4 => A4 (fun _ _ _ _ => C0) end.
(** wcxf2arrays, translators/smeft.py 27-44 *)
Definition w2a_step (c : arrays) (k : string) (v : C) : res arrays :=
  let name := name_part k in
  let! s := dlookup C_keys_shape name in
  match s with
  | Sh0 => Ok (dset c k (A0 v))
  | _ => let! pre := parse_index (rank s) (index_part k) in
         let cur := match dget c name with Some a => a | None => zeros s end in
         Ok (dset c name (aset cur pre v))
  end.
Fixpoint wcxf2arrays_from (c : arrays) (d : dict string C) : res arrays :=
  match d with
  | [] => Ok c
  | (k, v) :: t => let! c' := w2a_step c k v in wcxf2arrays_from c' t
  end.
Definition wcxf2arrays (d : dict string C) : res arrays := wcxf2arrays_from [] d.

(** [str(j + 1)] of the indices, joined *)
Definition dig (i : fl) : ascii := match i with F1 => "1" | F2 => "2" | F3 => "3" end%char.
Fixpoint digits (x : idx) : string := match x with [] => EmptyString | i :: t => String (dig i) (digits t) end.
Definition cname (op : string) (x : idx) : string := (op ++ "_" ++ digits x)%string.
(** entries in row-major order *)
Definition entries (op : string) (v : arr) : list (string * C) :=
  match v with
  | A0 z => [(op, z)]
  | A2 m => map (fun x => (cname op x, of_mat m x)) idx2
  | A4 t => map (fun x => (cname op x, of_ten t x)) idx4
  end.
(** arrays2wcxf, translators/smeft.py 10-24 *)
Definition arrays2wcxf (c : arrays) : dict string C :=
  dict_of (flat_map (fun kv => entries (fst kv) (snd kv)) c).

(** smeft_fromarray, translators/smeft.py 63-69 *)
Definition smeft_fromarray (op : string) (m : mat) : dict string C :=
  dict_of (map (fun x => (cname op x, of_mat m x)) idx2).
(** smeft_toarray, translators/smeft.py 47-60; only used for (3, 3) operators. *)
Fixpoint toarray_fill (op : string) (d : dict string C) (a : arr) : res arr :=
  match d with
  | [] => Ok a
  | (k, v) :: t =>
      if negb (String.eqb (name_part k) op) then toarray_fill op t a
      else let! pre := parse_index 2 (index_part k) in toarray_fill op t (aset a pre v)
  end.
Definition smeft_toarray (op : string) (d : dict string C) : res mat :=
  let! s := dlookup C_keys_shape op in
  let! a := toarray_fill op d (zeros s) in
  let! c := symmetrize [(op, a)] in
  let! v := dlookup c op in
  match v with A2 m => Ok m | _ => Err IndexError end.

Section Translators.
(** ckmutil.ckm.ckm_tree and ckmutil.diag.msvd()[1] (not part of /repo). *)
Variable ckm_tree : R -> R -> R -> R -> mat.
Variable msvd_values : mat -> fl -> C.
Definition ckm_of (p : params) : mat :=
  ckm_tree (param p "Vus") (param p "Vub") (param p "Vcb") (param p "gamma").
(** translators/smeft.py 111-120 with Uq as argument *)
Definition rotate_q (uq : mat) (d : dict string C) : res (dict string C) :=
  let! c := wcxf2arrays d in
  let! c := symmetrize c in
  let! c := flavor_rotation c (UMats uq meye meye meye meye) in
  Ok (arrays2wcxf c).
(** warsaw_to_warsaw_up, translators/smeft.py 103-123; [keys] is
    [Basis['SMEFT', 'Warsaw up'].all_wcs]. *)
Definition warsaw_to_warsaw_up (keys : list string) (p : option params) (d : dict string C) : res (dict string C) :=
  let! c := rotate_q (mdag (ckm_of (merge_params p))) d in Ok (key_filter keys c).
(** warsaw_up_to_warsaw, translators/smeft.py 126-146 *)
Definition warsaw_up_to_warsaw (keys : list string) (p : option params) (d : dict string C) : res (dict string C) :=
  let! c := rotate_q (ckm_of (merge_params p)) d in Ok (key_filter keys c).
(** warsaw_to_warsawmass, translators/smeft.py 72-100 *)
Definition rotate_up (v : mat) (d : dict string C) (acc : dict string C) (op : string) : res (dict string C) :=
  let! a := smeft_toarray op d in
  Ok (dupdate acc (smeft_fromarray op (mmul v a))).
Definition warsaw_to_warsawmass (p : option params) (d : dict string C) : res (dict string C) :=
  let v := ckm_of (merge_params p) in
  let! o := rotate_up v d d "uphi" in
  let! o := rotate_up v d o "uG" in
  let! o := rotate_up v d o "uW" in
  let! o := rotate_up v d o "uB" in
  let! a := smeft_toarray "llphiphi" d in
  let s := msvd_values a in
  Ok (dupdate o (smeft_fromarray "llphiphi" (fun i j => if fl_eqb i j then s i else C0))).
End Translators.
