# Formal model of wcxf-python: design

## 1. Approach

The Python sources in `/repo/wcxf` are modelled function by function in Rocq 8.16.1
(`rocq/theories`). Python functions become total Gallina functions; exceptions are values
(`Err KeyError`, ...) of a result type; dictionaries are insertion-ordered association lists with
Python's update semantics; mutable objects (registry, bases that share a `sectors` mapping, caches)
live in an explicit heap/state record; every definition carries a comment with the file and lines it
models. Large hand-written tables of the source (symmetrisation tables, translation formulae,
matching conditions, SMEFTsim rows, FlavorKit maps) are transcribed mechanically by the scripts in
`tools/` (Python `ast` on the source text); the generated modules are committed.

Numbers: Wilson coefficients are exact complex numbers (pairs of standard-library reals); NaN is an
explicit absent value where the code relies on it. Rounding is modelled for the translators of WET only
(C76, C77: the same formulas over an arithmetic with relative errors); overflow, underflow, signed zero and
infinities are not modelled.

Layers:

| layer | model files | source |
|---|---|---|
| Python primitives (strings, dicts, exceptions) | `PyBase.v`, `PyDict.v` | – |
| complex numbers | `Cplx.v` | numpy/Python `complex` |
| JSON texts | `Json*.v` | `json` of the standard library, as called in `classes.py` 28-52, 164-191 |
| classes | `Registry.v`, `Known.v`, `Bases.v`, `Import.v`, `Wc.v`, `Dump.v`, `DumpInit.v`, `DumpOrder.v`, `LoadBasis.v`, `Markdown.v`, `Repr.v`, `WetN.v` | `classes.py`, `__init__.py`, `matchers/__init__.py` |
| SMEFT utilities | `Smeft*.v` | `util/smeftutil.py`, `translators/smeft.py` |
| matching | `Match*.v` | `matchers/smeft.py`, `matchers/__init__.py` |
| installed registries | `Package.v`, `Pack*.v` | `translators/__init__.py`, `matchers/__init__.py` |
| WET translators | `Wet*.v`, `FkTab.v`, `FlavorKit.v`, `Round*.v` | `translators/wet.py`, `translators/__init__.py` |
| physics used only in specifications | `Dirac.v`, `LagrBases.v`, `LagrJms.v`, `Dipole.v`, `EosOps.v`, `SmeftFields.v`, `MatchExch.v` | – (operators, gamma matrices, colour, exchange diagrams; independent of the translators) |
| QCD | `Qcd.v` | `util/qcd.py` |
| converters, CLI | `Eos.v`, `Sci.v`, `SmeftSim*.v`, `Cli.v`, `Args*.v`, `Tool.v`, `ToolConv.v`, `Session.v`, `Order*.v`, `Tex.v` | `converters/*`, `cli.py`, `classes.py` |

Theorems that state properties are collected in files `P_*.v`, which contain only small
specification definitions, the theorem statements closed by `exact`, concrete examples meeting the
hypotheses, and `Print Assumptions`.

External code enters as Section variables (so each theorem quantifies over it) or as opaque results:
`json`/`yaml` parsing and printing (`json` except in C74), the LaTeX process, `rundec`, `ckmutil` (CKM matrix, `msvd`),
`numpy.angle`, the file system. The basis listings (`wcxf/bases`) are an empty
git submodule at this commit; listings are parameters of the model and theorems say what they need
from them.

## 2. Plan per property

| id | what is modelled | how it is proved |
|---|---|---|
| C01 | registry as state machine over create/get/del/clear with the `instances` attribute possibly missing | induction over the operation list; refinement to a finite map plus an order of names |
| C02 | the comprehension properties over registries | invariant NoDup of keys + membership lemma, over all histories |
| C03 | `Basis.__init__` on an object heap with the registration before the parent lookup | direct proof of the exact post-state; `_refuted` witness |
| C04 | same heap; `sectors` is a reference shared by parent and children | invariant over load histories (families share one reference); refutation of isolation |
| C05 | `_all_wcs` cache on the heap | invariant over histories; refutation witness |
| C06 | `Basis.validate` incl. order of checks; TeX outcome as oracle | case analysis, `NoDup` ⇔ length test |
| C07 | `WC.validate` | case analysis, set difference lemma |
| C08 | `_to_number`, `_to_complex_dict`, `dict2values`, `dict` | algebra on complex numbers, map induction |
| C09 | `dump`/`load` on document trees, text layer as oracle with the round-trip law of the parsers | proof over attribute dictionaries |
| C10 | `WC.dict` cache as state machine | induction over histories |
| C11 | `translate`/`match` with arbitrary functions | case analysis, filter lemmas |
| C12 | decorators on registries | map-update laws |
| C13 | key-filter matchers | filter algebra |
| C14–C16 | generated assignment tables interpreted as sequential stores on arrays | symbolic execution of the table on a symbolic array, computed once (finite domain of index tuples), lifted to all arrays by a soundness lemma of the symbolic store |
| C17 | `symmetrize` dispatch | finite check of key classes lifted by list induction |
| C18, C19 | name formatting/parsing incl. Python indexing (negative wrap-around, partial index) | string lemmas, induction over dictionaries; witnesses |
| C20, C21 | einsum / matrix products as finite sums over {0,1,2} | sum algebra; one lemma for the 4-index action instantiated at each operator |
| C22 | composition of C15–C21 on dictionaries | representative argument + group action |
| C23 | wrappers dropping `parameters` | equality for all parameters, witness for disagreement |
| C24 | `warsaw_to_warsawmass`, `msvd` as oracle | dictionary update lemmas |
| C25–C28 | matching conditions generated from the source | SM subtraction, hermiticity calculus on tensors, `rotate_down` as index action |
| C29 | NaN-filled arrays and their completion | case analysis on the orbit of an index |
| C30–C38 | formulae of `wet.py` as expression templates evaluated in an error/NaN semantics | verified normaliser (Laurent polynomials over atoms); finite check per output, lifted by soundness |
| C39 | FlavorKit tables | injectivity by computation, induction over dictionaries |
| C40 | `get_parameters` | dictionary lemmas, frame property over call histories; `P_Ckm.v`: the parameters each translator and the matching read |
| C41, C42 | dispatch of `qcd.py` with `rundec` as oracle; LRU cache of size 32 as state | invariant: every cache entry equals the uncached result |
| C43 | `eos.py` | induction over the SM dictionary |
| C44–C46 | generated row tables | finite check of the tables by computation, semantic lemmas for Abs/Phase/raw rows |
| C47 | dispatch and exception handling of `wcxf_cli`, `eos` | case analysis; witnesses |
| C48 | `_testtex` log loop with fuel replaced by structural recursion on the log | induction over the log |
| C49–C53 | matching at tree level | exchange amplitudes derived from quantum numbers, compared with the generated formulae by a verified normaliser; derivative at zero for phiWB |
| C54–C58, C61 | Lagrangians of the bases with explicit gamma and colour matrices | amplitudes reduced to 20 spin/colour structures symbolically; finite check per flavour combination, lifted to all coefficients, spins and colours by soundness lemmas |
| C59 | running as motion on a trajectory | case analysis over the dispatch with the rundec laws as hypotheses |
| C60 | dipole vertices | as C54 with one bilinear |
| C62 | the markdown text as a string | induction over sectors; lines of a concatenation; `P_MarkdownText.v` states the whole text line by line |
| C63–C65 | the two registries after import, with `WC.translate` and `WC.match` | unfolding to the functions; dropping zeros shown not to matter; field contents of all outputs by a finite check |
| C66 | `Cli.v` with the classes behind it: loading, translating, matching, validating, dumping on texts; `yamljson.py` with the parsers as oracles | induction over command sequences; corollaries of C63, C65 |
| C67 | the loops of `wcxf/__init__.py` over lists of files; whole command-line sessions on top of them (`P_ImportSession.v`) | invariant of the abstract state of `Bases.v` over an ordered list of files; permutation lemmas |
| C68 | `eos` and `smeftsim` of `cli.py` on a file system, with the classes and converters behind them | composition of C43, C46, C47, C63, C66; permutation lemmas for the directory listing; string lemmas for the names |
| C69 | the string operations of `smeftsim_card_text` on the generated preamble and postamble, and a reader for SLHA text | the four texts are computed once; finite checks lifted to all keys |
| C70 | the format `.6e` on real numbers (decimal exponent, rounding half to even), the Python type of a coefficient, the card as texts; a reader of decimal texts as specification | logarithms and integer parts for the digits; digit-by-digit reading; real analysis for modulus and phase; step-by-step relation to the card of C44 |
| C71 | the declarations of cli.py as data and the part of argparse they use (Python 3.5/3.6) as a parser in a state monad over files and messages | Hoare-style rules for every word list (induction over the rounds of the parser, which are never used up); evaluation lemmas for the accepted forms; composition with C66 |
| C72 | EFT and Basis files as arbitrary documents: constructor, registration, `dict.update` on any value, `Basis.validate`, behind `wcxf validate` | equivalences by case analysis over documents; refinement to the typed objects of `Bases.v` (C03-C07) for well-formed files |
| C73 | the three programs from the words typed to the files written, one line after the other (`Session.v`) | induction over the lines, composing C66, C68, C71 and C72 |
| C74 | `json.dumps` and `json.loads` character by character (`JsonText.v`): escapes, indentation, the number grammar, white space, duplicate keys, JSONDecodeError | induction over documents and over the fuel of the reader, which is shown never to run out (`value_fuel`); C09 and C73 instantiated |
| C75 | files read back up to the order of the keys (`Order.v`); order independence of every installed translator and matcher (`OrderPackage.v`, `OrderInst.v`); a sorting printer (`OrderSort.v`) | each translator's result for a permuted dictionary: lookups agree for expression translators, loops over keys (FlavorKit, JMS to FlavorKit, SMEFT arrays) by induction over permutations; simulation of sessions up to `same_wc` |
| C76 | the WET formulas over any arithmetic (`Round.v`), the translators with it (`RoundWet.v`), Python's complex arithmetic over a rounding of the reals (`RoundArith.v`) | forward error analysis by induction over formulas, templates, chains and steps (`RoundErr.v`); conditions on the formulas (divisors are products) and operation counts by computation; monotonicity of the sizes in the coefficients; Smith's division by hand; for EOS the divisor m_b^2 - m_s^2 becomes a parameter with an error of its own (`RoundDip.v`, `P_RoundDip.v`); for FlavorKit induction over the loops (`RoundFk.v`, `P_RoundFk.v`) |
| C77 | as C76, with parameters, CKM elements and coefficients that carry errors of their own | the same induction with one more count for each parameter, element and coefficient in a formula, and no count for operations if the arithmetic is exact (`RoundErr.v`, `RoundWet.v`) |
| C78 | `Repr.v`: repr() of objects in the world of `Bases.v` | invariant over histories: registered objects carry the name under which they are registered, and names of objects never change; splitting texts at the first and the last apostrophe |
| C79 | `DumpOrder.v`: `Dump.v` with documents up to order (`same_doc` of `Order.v`) | constructors, setattr and the public attributes respect `same_doc`; reload with the object's own sectors (C09), then exchange document and registry; induction over rounds |

## 3. Trusted base

1. The kernel of Coq 8.16.1 (including its `vm_compute` machine) and the statements in `P_*.v`.
2. The axioms in `AXIOMS.md`, which `tools/mkaxioms.py` writes from the `Print Assumptions` output of
   every property theorem. They all come from the standard library: the two axioms of the classical reals
   (`ClassicalDedekindReals.sig_forall_dec`, `sig_not_dec`),
   `FunctionalExtensionality.functional_extensionality_dep` and `Classical_Prop.classic`. There are no others.
   No kernel check is switched off, and there is no `Admitted`, functor or module type.
3. The claim that the model is the code. It was transcribed by reading; the tables were generated from the
   source by the scripts in `tools/`, which are trusted to copy. Nothing was executed: the sandbox has none of
   the dependencies, so the model was never compared with a run of the program.
4. The specification modules listed above: they fix what an operator, an amplitude or an exchange diagram is,
   and the operators of each basis. This is the weakest part of the trusted base for C54-C58, C60 and C61, because
   these definitions are not independent of the code in every respect:
   - They were written from memory of the papers. The papers and the basis files (empty submodule) were not available.
   - Where memory left a choice, the one that agrees with `wet.py` was taken. Known cases: the colour structure
     (octet rather than crossed) of Bern's even-numbered operators; the exchange of primed and unprimed scalar and
     tensor operators in the Bern sectors sbss, dbdd, dsdd, dbds, sbsd (`flip`), which was introduced after the
     check without it failed; m_b in Bern's s -> d dipoles; the order of flavours in FormFlavor's names, which
     differs between its dipole and its semileptonic coefficients.
   - So these theorems say that one reading of the coefficient names exists under which the translator keeps all
     amplitudes (or exactly what it loses). They would not show that the reading is the published one. What constrains
     the reading is that it is uniform over flavours, spins and colours and shared by all translators of a basis.
   - The findings C55 and C58 do not depend on these choices: no operator named CSLL with a scalar structure can
     absorb the sign in C58 (the relation of CSLL to CTLL is fixed by the Fierz identity up to the sign of CTLL).
   - C61 does: c1 and c2 come back unchanged only if u and c share them. See C61 below.

Section variables (theorems hold for every value of them):

| variable | stands for | assumed |
|---|---|---|
| `ckm_tree` | `ckmutil.ckm.ckm_tree` | nothing; unitarity is a hypothesis where needed (C22, C28) |
| `msvd_values` | singular values from `ckmutil` | nothing |
| `AlphasExact`, `AlL2AlH`, ... | methods of `rundec` | nothing in C41, C42; the trajectory law in C59 |
| `qcd_mb`, `qcd_ms`, `qcd_as` | `qcd.m_b`, `m_s`, `alpha_s` inside `get_parameters` | that they return (hypothesis `okp`) |
| `json_dumps`, `yaml_dump`, `json_loads`, `yaml_load` | text layer | parsers invert printers on the documents `printable` (C09, C66); no printer can do so for all reals |
| `num_text`, `num_value`, `wide` | C74 only: `repr` and `int`/`float` of a number, characters above 255 in JSON texts | the text of each number in the document is a JSON number with that value; nothing on `wide` |
| `A`, `rnd` | C76 and C77 only: the arithmetic; rounding of a real | relative error eps < 1 of each operation, reals stay reals; relative error u <= 1/100 |
| `float_of_str` | `float(str)` | nothing |
| `with_nan` | what `WC.translate` does with a result that contains NaN | nothing |
| `lists`, `all_wcs_of` | `Basis[eft, basis].all_wcs` (basis files, not in the repository) | that the bases are loaded; completeness where stated |
| `run` | the `latex` process | nothing |
| `order` | the order in which `glob` lists files | that it is a permutation (C68) |
| `lha` | `pylha.dump` of a card of texts | nothing |
| `odd`, `odd_dict` | objects whose file has an entry named like a private attribute or method | nothing |
| `WC_load`, `wc_translate`, `isdir`, ... in `Cli.v` | library calls made by the command line | nothing |
| `stdin`, `creatable` (C71) | text on standard input; which paths can be opened for writing | nothing |
| `empty_list`, `no_value` (C71) | the rest of the run when an argument is `[]` or None instead of a string | nothing (C71_unnamed_files: does not change the file in question) |

**Limitation of the law for YAML.** Documents are lists of entries, and the law `yaml_load (yaml_dump d) = Ok d` keeps
their order. `WCxf.dump` passes a plain dict, and PyYAML writes the keys of plain dicts sorted (documented behaviour;
its sources were not available here). An object is stored as eft, basis, scale, values, which is not sorted, so PyYAML
does not satisfy the law for any coefficient file. C09 (YAML), C66, C68, C71, C73 and C74_chain assume it, for chains
in JSON format as well because one predicate `printable` serves both formats. C74_dump_load assumes nothing of YAML.
C75 repairs this for the commands: it assumes only that documents come back the same up to the order of the keys
(`same_doc`), which a sorting printer meets (`C75_sorting`), and shows that the installed translators and matchers do not
depend on the order. C79 does so for `dump` and `load` of all three classes. They stand beside the other theorems, which
are not restated.

`okp` also asks that the quantities the translators divide by are not zero. `p1_ok` shows it is satisfiable.

## 4. What is modelled and what is not

Modelled: all functions of `translators/wet.py`, `translators/smeft.py`, `translators/__init__.py`,
`matchers/smeft.py`, `matchers/__init__.py`, `wcxf/__init__.py`, `util/qcd.py`, `util/smeftutil.py`, `parameters.py`, `converters/eos.py`,
`converters/smeftsim.py`, `converters/yamljson.py`, `cli.py`, and of `classes.py` except those named below.

Not modelled:

- `classes.py`: the yaml representers. How numbers are formatted in `WC._repr_markdown_` is a variable of C62.
- File entries that shadow private methods or the cache of a WC object (`_dict`, `_to_number`): variable `odd` in `Tool.v`.
- `wcxf validate` (C72): the warning about a missing `latex` on the standard error. EFTs and bases that are registered
  before the command starts have texts as names and well-formed sectors; mappings have texts as keys.
- JSON texts (C74): written after the sources of CPython 3.11. Simplified: characters above 255 are opaque and surrogates
  are not paired; ints and floats are reals, NaN and Infinity too; keys are strings; no limit on nesting or on digits.
  As a check of the model (not part of any proof), 3321 mutated texts were read by `json_loads` and by the `json`
  module of the sandbox, with the same outcome up to the values of numbers. Other theorems still take the text layer as a variable.
- SMEFTsim cards: the layout written by pylha is the variable `lha`. The `.6e` format is modelled on exact reals (`Sci.v`). Patterns in the name of the EOS directory.
- `argparse` (C71) is modelled as in Python 3.5/3.6, as far as cli.py uses it: classification of
  words, abbreviations, `--x=y`, `-h` clusters, `--`, optional and required positionals, the
  sub-command, `FileType`, `choices`, `float`, defaults. Simplified: negative numbers with ASCII
  digits only; a path is a plain file (directories and permissions are the variable `creatable` for
  writing; every existing file can be read); the text of usage and help messages. Arguments that
  become the empty list or None where a string is needed are left to the variables `empty_list` and
  `no_value`.
- Floating point: rounding (except in C76 and C77), overflow, underflow, signed zeros, infinities. C76 treats the translators of
  WET, with relative errors; the parameters at the scale and the CKM matrix are exact there (in C77 they and the coefficients carry errors), `x**2` is a
  product, a number such as 1 / 2 in the source is rounded once, and real times complex is
  complex times complex. Elsewhere coefficients are exact complex numbers. NaN is
  an explicit absent value in the JMS arrays and in `qcd.py` only; the WET theorems take inputs that are numbers
  (`nums c`). numpy's `nan`/`inf` with a warning is modelled as ZeroDivisionError (e.g. phiWB with alpha_e = 0,
  `vT` with a vanishing Fermi constant).
- Threads, signals, file-system races, memory.

## 5. Findings

Each is a theorem named `..._refuted` unless another theorem is given.

- C01: the base class used as a registry shares its instances with all subclasses.
- C03: a basis with an unknown parent is registered before the error. C04: children change their parent.
  C05: `all_wcs` goes stale. C07: so a coefficient defined in a basis can be rejected.
- C19: index digit 0 reads as 3; a truncated index fills a slice; an index on a scalar operator is accepted and dropped.
- C23: SMEFT translators ignore user parameters.
- C26: Fierz identity not applied for VeeLL. C27: `rotate_down` leaves dgamma, dG, S8ddRR, SuddLL, SduuLL,
  SduuLR and SdudRL unrotated, so matched down dipoles are in the wrong basis.
- C29: VeeLL, VeeRR and VnunuLL entries that are not listed are not completed (NaN).
- C31: flavio to Bern drops s to d neutrinos. C32, C56: Bern to flavio drops the tensors C7 - 16 C9.
- C34, C36: formflavor CVLL_sdnn and CVRL_sdnn hold b-d entries. C36, C60: leptonic CAL_ divided by g_s instead of e.
- C39: stale mass and diagonal K2R entries in FlavorKit.
- C41, C59: `m_c` at its own scale ignores the number of flavours; a negative or NaN scale can pass. C42: with a
  float number of flavours the cache changes the outcome.
- C43: tau coefficients. C45: signs of diagonal coefficients are lost in SMEFTsim cards.
- C47: swallowed AttributeError, silent formats, dropped status. C48: directory left behind, UnboundLocalError.
- C54: no one assignment of primes serves all Bern sectors. Either 5, 7, 9 are the P_L operators in sbss, dbdd, dsdd,
  dbds, sbsd and the P_R operators elsewhere, or the translator is wrong there (`C54_uniform_refuted`). Which of the
  two cannot be decided without the basis file.
- C55: flavio drops TedRR. C58: wrong sign in the Fierz term of CSLL, CSRR.
- C62: a basis with a null coefficient entry passes `validate`, but `str()` raises TypeError.
- C65: with a CKM matrix of the user's, matching through `Warsaw up` differs from matching directly.
- C68: `wcxf2eos` accepts any basis and then writes the SM values; an output among the parameter files is emptied before
  it is read; `wcxf translate "Warsaw mass"` drops zeros, which `wcxf2smeftsim` needs.
- C69: scheme mw changes the strong coupling of model set B.
- C70: a real coefficient given as a Re/Im pair is printed as a complex number (`C70_pair_refuted`).
- C71: a rejected command line may already have emptied the file after `--output`
  (`C71_rejected_refuted`).
- C71: FILE behind an option that follows the other words is rejected (`C71_file_last_refuted`).
- C71: `wcxf translate --output BASIS FILE`, which the usage message `[--output [OUTPUT]] BASIS
  [FILE]` allows, writes to a file called BASIS (`C71_bare_output_refuted`).
- C71: `wcxf2smeftsim` without FILE reads a file called `{}` (`C71_smeftsim_braces_refuted`).
- C72: basis files of the wrong structure (null or list where a mapping belongs) end with the help text and status 0
  (`C72_sectors_refuted`, `C72_sector_refuted`, `C72_entry_refuted`); `wcxf validate eft` accepts any value as sectors
  (`C72_eft_entries_refuted`); the name of a basis may be a number or null (`C72_basis_name_refuted`).
- C67: a child file installed beside its parent changes which coefficients the parent accepts.
- C66: `-o` naming the input file empties it; entries `dict` or a list of values end with status 0; JSON is reread as
  YAML when converted to JSON.
- C74: a JSON file that names a coefficient twice is accepted, and the last value counts (`C74_duplicates`).
- C75: with FlavorKit names that the translator does not know (`K2R_41`), the order of the keys decides between success
  and UnboundLocalError, because the loop uses the mass left over from the key before (`C75_order_refuted`). So sorting
  the keys when a file is written can change what a translation does. SMEFT names with the index 0, which
  Python reads as the last one, depend on the order as well: of `ephi_13` and `ephi_10` the last one wins
  (`C75_alias_refuted`).
- C78: names with apostrophes make repr() of different bases or coefficient files equal.
- C79: the order of the fields of a file is not kept by a round trip through YAML.
- C24: Warsaw to Warsaw mass ignores unknown names and copies them (`C24_other_names`); the other two SMEFT translators
  end with KeyError there (C19).
- `_JMS_to_Fierz_III_IV_V` has entries for four up quarks that no translator asks for (`ucuu`, `cucc`). They are in the
  model, but no theorem is about them.
- C61: EOS c1, c2 are the means of the coefficients of u and c. If only charm operators exist, or if the u and c
  operators carry the CKM factors of the Standard Model, the translator returns one half of c1 and c2.

## 6. Tests of the theorems

`seeded/LOG.jsonl` records edits of the model and the theorems that failed. Edits that survived are marked
`"survived": true`, with what was tightened.
