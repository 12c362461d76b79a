(** Loading EFT and basis files of any content and validating them: WCxf.load, EFT.__init__, Basis.__init__ and
    Basis.validate (classes.py 158-162, 136-140, 195-201, 215-231, 253-279) on documents, behind [wcxf validate]
    (cli.py 104-117).  [w0] is the state of the registries when the command starts: EFTs and bases with texts as names. *)
From Coq Require Import String Ascii List Bool Arith ZArith Reals Lia.
From Verif Require Import PyBase PyDict Cplx Wc Dump DumpInit Cli Tool.
From Verif Require Import Bases BasesFacts.
Import ListNotations.
Open Scope string_scope.
Open Scope list_scope.
Open Scope nat_scope.

(** Lists and mappings cannot be keys of a dictionary: TypeError. *)
Definition hashable (d : doc) : bool := match d with DList _ | DMap _ => false | _ => true end.

(** The sectors of an installed basis as the document they were read from. *)
Definition entry_doc (e : option entry) : doc :=
  match e with
  | None => DNull
  | Some x => DMap (match e_tex x with Some t => [("tex", DStr t)] | None => [] end ++ if e_real x then [("real", DBool true)] else [])
  end.
Definition sector_doc (s : sector) : doc :=
  match s with None => DNull | Some d => DMap (map (fun kv => (fst kv, entry_doc (snd kv))) d) end.
Definition sectors_doc (s : sectors) : dict string doc := map (fun kv => (fst kv, sector_doc (snd kv))) s.

(** ** [dict.update] with any document as argument *)
(** One element of the sequence form: a list, a text or a mapping (then its keys) of length two.
    Simplified: a text counts its bytes. *)
Definition pair_of (d : doc) : res (doc * doc) :=
  match d with
  | DList [a; b] => Ok (a, b)
  | DStr (String a (String b EmptyString)) => Ok (DStr (String a EmptyString), DStr (String b EmptyString))
  | DMap [(a, _); (b, _)] => Ok (DStr a, DStr b)
  | DList _ | DStr _ | DMap _ => Err ValueError
  | DNull | DBool _ | DNum _ => Err TypeError
  end.
(** The mapping and whether it also got a key that is not a text.  Simplified: such keys are not distinguished. *)
Definition umap : Type := dict string doc * bool.
Fixpoint update_seq (d : umap) (l : list doc) : res umap :=
  match l with
  | [] => Ok d
  | x :: t => let! p := pair_of x in
              if negb (hashable (fst p)) then Err TypeError else
              update_seq (match fst p with DStr k => (dset (fst d) k (snd p), snd d) | _ => (fst d, true) end) t
  end.
Definition update_doc (d : dict string doc) (s : doc) : res umap :=
  match s with
  | DMap m => Ok (dupdate d m, false)
  | DList l => update_seq (d, false) l
  | DStr EmptyString => Ok (d, false)
  | DStr _ => Err ValueError
  | DNull | DBool _ | DNum _ => Err TypeError
  end.

(** ** Basis.validate on documents *)
(** [s.items()], [c.values()] *)
Definition items (s : doc) : res (dict string doc) := match s with DMap d => Ok d | _ => Err AttributeError end.
(** classes.py 262 *)
Fixpoint doc_keys (s : dict string doc) : res (list string) :=
  match s with
  | [] => Ok []
  | (_, c) :: t => let! d := items c in let! r := doc_keys t in Ok (dkeys d ++ r)
  end.
(** [d.get('tex', '')] for the entries that are not null, classes.py 270-273 *)
Fixpoint entry_texs (d : dict string doc) : res (list doc) :=
  match d with
  | [] => Ok []
  | (_, DNull) :: t => entry_texs t
  | (_, v) :: t => let! x := items v in let! r := entry_texs t in
                   Ok (match dget x "tex" with Some y => y | None => DStr "" end :: r)
  end.
Fixpoint doc_texs (s : dict string doc) : res (list doc) :=
  match s with
  | [] => Ok []
  | (_, c) :: t => let! d := items c in let! a := entry_texs d in let! r := doc_texs t in Ok (a ++ r)
  end.
(** ['$, $'.join(...)]: TypeError for an element that is not a text *)
Fixpoint strs (l : list doc) : res (list string) :=
  match l with
  | [] => Ok []
  | DStr s :: t => let! r := strs t in Ok (s :: r)
  | _ => Err TypeError
  end.

Section Load.
Variables json_loads yaml_load : string -> res doc.
Variable w0 : world.
(** The outcome of [_testtex] (Tex.v) *)
Variable tex : string -> res bool.

(** EFT.load: WCxf.load, EFT.__init__ and the registration (classes.py 158-162, 195-201, 136-140). *)
Definition eft_load (t : string) : res unit :=
  let! d := load_text string json_loads yaml_load t in
  match d with
  | DMap m =>
      if dmem m "self" then Err TypeError else
      let! e := need m "eft" in let! s := need m "sectors" in
      if negb (hashable e) then Err TypeError else
      let! _ := setattrs KEFT [] (kwargs_of KEFT m) in Ok tt
  | _ => Err TypeError
  end.

(** A Basis object after its constructor: EFT name, sectors (and whether they have a key that is not a text), and
    whether the file has an entry "validate", which hides the method. *)
Record loaded := Loaded { l_eft : doc; l_sectors : doc; l_other : bool; l_hidden : bool }.
(** [Basis[self.eft, self.parent].sectors], classes.py 225: the object that is being made is already registered, under
    its own name, and has no sectors yet; only texts can be found.  [None]: AttributeError or KeyError. *)
Definition parent_of (e b p : doc) : option (dict string doc) :=
  match e, p with
  | DStr e', DStr p' =>
      if match b with DStr b' => String.eqb b' p' | _ => false end then None else
      match lookup_reg (w_bases w0) (e', p') with
      | Ok id => option_map sectors_doc (sectors_of w0 id)
      | Err _ => None
      end
  | _, _ => None
  end.
(** Basis.load: WCxf.load and Basis.__init__ (classes.py 158-162, 215-231). *)
Definition basis_load (t : string) : res loaded :=
  let! d := load_text string json_loads yaml_load t in
  match d with
  | DMap m =>
      if dmem m "self" then Err TypeError else
      let! e := need m "eft" in let! b := need m "basis" in let! s := need m "sectors" in
      if negb (hashable e && hashable b) then Err TypeError else
      let! _ := setattrs KBasis [] (kwargs_of KBasis m) in
      match dget m "parent" with
      | None => Ok (Loaded e s false (dmem m "validate"))
      | Some p =>
          if negb (hashable p) then Err TypeError else
          match parent_of e b p with
          | None => Err ValueError
          | Some q => let! u := update_doc q s in Ok (Loaded e (DMap (fst u)) (snd u) (dmem m "validate"))
          end
      end
  | _ => Err TypeError
  end.
(** Basis.validate, classes.py 253-279.  Simplified: the warning of [_testtex] on the standard error is not recorded. *)
Definition doc_validate (l : loaded) : res unit :=
  if l_hidden l then Err TypeError else
  match l_eft l with
  | DStr e =>
      match lookup_reg (w_efts w0) e with
      | Err _ => Err ValueError
      | Ok known =>
          let! s := items (l_sectors l) in
          if negb (forallb (fun k => mem k known) (dkeys s)) || l_other l then Err ValueError else
          let! n := doc_keys s in
          if has_dupes n then Err ValueError else
          let! x := doc_texs s in let! y := strs x in
          let! ok := tex ("$" ++ String.concat "$, $" y ++ "$")%string in
          if ok : bool then Ok tt else Err ValueError
      end
  | _ => Err ValueError
  end.
End Load.
