{"id": "C01", "title": "Named-instance registry behaves as an ordered map", "statement": "After any sequence of instance creations, deletions, lookups and clear_all calls, Cls[name] returns exactly the most recently created instance of that name that has not been deleted or cleared since; otherwise it raises (KeyError, or AttributeError while nothing was ever created). Enumeration lists every live name exactly once, in order of first (re-)insertion; re-creating a live name replaces the instance without moving it.", "quantifier": "all finite histories of create/delete/lookup/clear operations over arbitrary names", "why_tests_cant": "histories are unbounded and the interesting ones interleave overwrite, delete and re-create in any order", "anchors": ["wcxf/classes.py:NamedInstanceClass", "wcxf/classes.py:NamedInstanceMetaclass"]}
{"id": "C02", "title": "known_bases / known_translators are exact", "statement": "EFT.known_bases, EFT.known_translators and Basis.known_translators list exactly the live registered bases/translators whose EFT (and source/target basis) match, once each and in registration order, after any history of registrations and deletions.", "quantifier": "all histories of registrations and deletions, all EFT and basis names", "why_tests_cant": "soundness and completeness over every registry content cannot be sampled", "anchors": ["wcxf/classes.py:EFT.known_bases", "wcxf/classes.py:EFT.known_translators", "wcxf/classes.py:Basis.known_translators"]}
{"id": "C03", "title": "Failed basis construction and the registry", "statement": "A user expects that a basis file naming an unknown parent is rejected without side effects. The constructor does raise ValueError in exactly that case, but it registers the half-built basis first: afterwards Basis[eft, basis] returns an object without sectors, and an older good basis of the same name is lost. (Finding: side-effect freedom is refuted; the exact post-state is proved.)", "quantifier": "all registries, all basis files with a parent entry", "why_tests_cant": "the state after an exception depends on the full prior registry", "anchors": ["wcxf/classes.py:Basis.__init__"]}
{"id": "C04", "title": "Child bases and their parent", "statement": "Loading a child basis gives it every sector of the parent, with the child's own sectors overriding. A user expects the parent basis to stay as it was. It does not: parent, child and all further children of that parent share one sectors mapping, so every later child changes the sectors of the parent and of all earlier children, and a sector overridden by the child replaces the parent's whole sector. (Finding: isolation refuted; the sharing is characterised exactly. The parent is unchanged iff the child adds nothing new.) Deleting a basis removes only its name: the other bases and all sectors stay, and deleting a name that is not there raises KeyError (AttributeError before the first basis) and changes nothing.", "quantifier": "all registries reachable by any sequence of basis loads, all parents and children", "why_tests_cant": "aliasing only shows after particular load orders; the load order of the library itself is glob order", "anchors": ["wcxf/classes.py:Basis.__init__", "wcxf/__init__.py"]}
{"id": "C05", "title": "all_wcs agrees with the sectors", "statement": "Basis.all_wcs lists the coefficient names of all sectors in order. Once read it is cached: every later read returns the first answer. A user expects it to agree with the current sectors; this holds until a child basis of the same family is loaded afterwards, and fails then (finding: refuted with a concrete history).", "quantifier": "all histories of basis loads and all_wcs reads", "why_tests_cant": "staleness depends on the interleaving of reads and loads", "anchors": ["wcxf/classes.py:Basis.all_wcs"]}
{"id": "C06", "title": "Basis.validate accepts exactly the well-formed bases", "statement": "Basis.validate returns normally iff the EFT is registered, every sector of the basis is a sector of the EFT, no coefficient name occurs in two sectors, and the TeX check passes; each violation raises ValueError, checked in that order; validation never changes any object.", "quantifier": "all registries and basis objects, all outcomes of the TeX run", "why_tests_cant": "an if-and-only-if over all sector layouts", "anchors": ["wcxf/classes.py:Basis.validate"]}
{"id": "C07", "title": "WC.validate accepts exactly the well-formed coefficient files", "statement": "WC.validate returns normally iff EFT and basis are registered and every key of values is a coefficient name of the basis; a missing EFT or basis raises ValueError, an unknown key raises AssertionError.", "quantifier": "all registries and WC objects", "why_tests_cant": "an if-and-only-if over all key sets", "anchors": ["wcxf/classes.py:WC.validate"]}
{"id": "C08", "title": "Coefficient values survive the number/dict representation", "statement": "Converting numbers to file values (dict2values) and reading them back (WC.dict) gives the same keys and the same complex numbers. Conversely a file value is read as a number with missing Re/Im taken as 0; writing that number again gives the normal form: a plain float iff the imaginary part vanishes. Normalising twice changes nothing.", "quantifier": "all dictionaries with complex values; all file values (plain, Re only, Im only, both, extra keys)", "why_tests_cant": "holds for all numbers and all dictionary shapes", "anchors": ["wcxf/classes.py:WC._to_number", "wcxf/classes.py:WC._to_complex_dict", "wcxf/classes.py:WC.dict2values", "wcxf/classes.py:WC.dict"]}
{"id": "C09", "title": "dump followed by load reproduces the object", "statement": "For EFT, Basis and WC objects, loading the dumped document gives an object with the same public attributes, for json and yaml and any capitalisation of the format name; private attributes are not written; any other format raises ValueError. Exactly the attributes whose name does not start with an underscore are written, in their order; an attribute with an empty name makes every dump fail with IndexError.", "quantifier": "all objects with arbitrary extra attributes; all format strings", "why_tests_cant": "extra attributes and documents are unbounded", "anchors": ["wcxf/classes.py:WCxf.dump", "wcxf/classes.py:WCxf.load", "wcxf/classes.py:_load_yaml_json"]}
{"id": "C10", "title": "wc.dict is a snapshot", "statement": "The dictionary returned by wc.dict is computed at the first access; every later access returns the same content whatever was done to wc.values in between; before the first access updates of values are seen.", "quantifier": "all histories of reads and value updates", "why_tests_cant": "depends on interleavings of reads and writes", "anchors": ["wcxf/classes.py:WC.dict"]}
{"id": "C11", "title": "translate / match output contract", "statement": "If a translator (matcher) is registered for the WC's EFT/basis and the requested target, the result is a WC with the target EFT and basis and the same scale, whose coefficients are exactly the non-zero entries of the conversion function's output, numerically unchanged; the input is not changed. If none is registered, ValueError is raised and the function is not called. Exceptions of the conversion function propagate.", "quantifier": "all registries, all conversion functions, all WC objects", "why_tests_cant": "quantifies over arbitrary registered functions", "anchors": ["wcxf/classes.py:WC.translate", "wcxf/classes.py:WC.match", "wcxf/classes.py:Translator.translate", "wcxf/classes.py:Matcher.match"]}
{"id": "C12", "title": "Decorator registration", "statement": "Decorating a function with @translator / @matcher returns the very same function and makes translate/match for exactly that triple/quadruple use it, replacing an older registration and leaving all others untouched.", "quantifier": "all registries, all names, all functions", "why_tests_cant": "frame condition over all other registrations", "anchors": ["wcxf/classes.py:translator", "wcxf/classes.py:matcher", "wcxf/classes.py:parametrized"]}
{"id": "C13", "title": "Matching across WET, WET-4, WET-3, WET-2", "statement": "The WET→WET-4→WET-3→WET-2 matchers keep exactly the coefficients listed in the target basis, with unchanged values and order; chaining them keeps exactly the coefficients listed in all bases passed; repeating one changes nothing; nothing is invented.", "quantifier": "all input dictionaries and all basis listings", "why_tests_cant": "all subsets of coefficients and all basis listings", "anchors": ["wcxf/matchers/__init__.py:wet_wet4_flavio", "wcxf/matchers/__init__.py:wet3_wet2_jms"]}
{"id": "C14", "title": "symmetrize yields tensors with the operator's index symmetry", "statement": "For every operator class the symmetrised array satisfies the symmetry of the operator: hermitian (phil1...), C_prst=C_stpr=C*_rpts (ll,qq,uu,dd), C_prst=C*_rpts (lq1,...), additionally C_prst=C_ptsr (ee), C_prst=C_rpst (qque), C_prst+C_rpst=C_sprt+C_srpt (qqql), symmetric (llphiphi), real (scalars).", "quantifier": "all complex input arrays of every operator class", "why_tests_cant": "the tables have several hundred hand-written assignments acting on 81 complex entries", "anchors": ["wcxf/util/smeftutil.py:symmetrize_2", "wcxf/util/smeftutil.py:symmetrize_4", "wcxf/util/smeftutil.py:symmetrize_5", "wcxf/util/smeftutil.py:symmetrize_6", "wcxf/util/smeftutil.py:symmetrize_7", "wcxf/util/smeftutil.py:symmetrize_8", "wcxf/util/smeftutil.py:symmetrize_9", "wcxf/util/smeftutil.py:symmetrize"]}
{"id": "C15", "title": "symmetrize changes nothing on symmetric input", "statement": "An array that already has the operator's index symmetry is returned unchanged; hence symmetrize is idempotent.", "quantifier": "all symmetric arrays of every operator class", "why_tests_cant": "universal over real/complex entries", "anchors": ["wcxf/util/smeftutil.py:symmetrize"]}
{"id": "C16", "title": "symmetrize only reads the non-redundant entries", "statement": "The result depends only on a fixed set of representative entries (and leaves these alone); redundant entries of the input are ignored. Two symmetric arrays with the same representatives are equal.", "quantifier": "all pairs of arrays agreeing on the representatives", "why_tests_cant": "relational property over pairs of inputs", "anchors": ["wcxf/util/smeftutil.py:symmetrize"]}
{"id": "C17", "title": "symmetrize on a coefficient dictionary", "statement": "symmetrize keeps exactly the Wilson coefficient keys (each coefficient belongs to exactly one symmetry class), drops Standard Model parameters and unknown names, preserves order and treats each key independently of the others.", "quantifier": "all dictionaries of arrays", "why_tests_cant": "all key subsets", "anchors": ["wcxf/util/smeftutil.py:symmetrize", "wcxf/util/smeftutil.py:C_symm_keys"]}
{"id": "C18", "title": "Arrays to WCxf names and back", "statement": "Flattening arrays to names like qq1_1213 and rebuilding arrays restores every array; flattening never produces the same name twice. Rebuilding from a dictionary and flattening keeps every given coefficient and adds only zeros of the same arrays.", "quantifier": "all dictionaries of SMEFT arrays; all coefficient dictionaries with well-formed names", "why_tests_cant": "all arrays and all subsets of names", "anchors": ["wcxf/translators/smeft.py:arrays2wcxf", "wcxf/translators/smeft.py:wcxf2arrays"]}
{"id": "C19", "title": "Ill-formed coefficient names", "statement": "wcxf2arrays rejects unknown operator names (KeyError) and indices above 3 (IndexError) or non-digits (ValueError). A user expects every ill-formed index to be rejected; an index digit 0 is silently read as 3 and a truncated index fills a whole slice, and an index on an operator without flavour is accepted but its coefficient is then dropped by the translators (findings: refuted).", "quantifier": "all names", "why_tests_cant": "the space of strings is unbounded", "anchors": ["wcxf/translators/smeft.py:wcxf2arrays"]}
{"id": "C20", "title": "Flavour rotations form a group action", "statement": "flavor_rotation with identity matrices changes nothing; rotating by U then by W equals rotating once by the products UW; rotating by unitary matrices and then by their adjoints restores every coefficient; the rotation is linear; keys other than Wilson coefficients are dropped. Each index of a coefficient is contracted with the matrix of the fermion field at that position, conjugated for a barred field, so that an operator with the rotated coefficients and fields psi' equals the one with the old coefficients and fields psi = U psi'.", "quantifier": "all matrices, all coefficient dictionaries, every operator", "why_tests_cant": "universal over 3x3 complex matrices and tensors", "anchors": ["wcxf/util/smeftutil.py:flavor_rotation"]}
{"id": "C21", "title": "Flavour rotations respect the index symmetries", "statement": "Rotating arrays that have their operator's index symmetry gives arrays with the same symmetry.", "quantifier": "all matrices, all symmetric arrays", "why_tests_cant": "universal over matrices and tensors", "anchors": ["wcxf/util/smeftutil.py:flavor_rotation", "wcxf/util/smeftutil.py:symmetrize"]}
{"id": "C22", "title": "Warsaw → Warsaw up → Warsaw restores the coefficients", "statement": "For a unitary CKM matrix, translating from Warsaw to Warsaw up and back (or up, down and up) restores every coefficient of the basis, provided both bases list a representative of each symmetry orbit; all other listed coefficients of touched operators come back as zero. The coefficients in the up basis are those of the fields q = V^dagger q', and on the way back those of q' = V q.", "quantifier": "all coefficient dictionaries over the basis, all unitary CKM matrices", "why_tests_cant": "universal over coefficients and CKM parameters", "anchors": ["wcxf/translators/smeft.py:warsaw_to_warsaw_up", "wcxf/translators/smeft.py:warsaw_up_to_warsaw"]}
{"id": "C23", "title": "User parameters in SMEFT translations", "statement": "A user passing parameters to wc.translate expects them to be used. The registered Warsaw→Warsaw mass, Warsaw→Warsaw up and Warsaw up→Warsaw translators ignore them: the result is the same for every parameters argument (finding). Consequently matching from Warsaw with given parameters and translating to Warsaw up followed by matching with the same parameters need not agree, while they always agree for default parameters.", "quantifier": "all coefficient dictionaries, all parameter dictionaries", "why_tests_cant": "non-interference over all parameter values", "anchors": ["wcxf/translators/__init__.py:warsaw_to_warsaw_up", "wcxf/matchers/__init__.py:warsaw_to_jms"]}
{"id": "C24", "title": "Warsaw → Warsaw mass changes only five operators", "statement": "Every coefficient other than uphi, uG, uW, uB and llphiphi is copied unchanged and no other name appears; the four up-type dipole/Yukawa matrices are multiplied from the left by the CKM matrix and can be recovered; llphiphi becomes diagonal.", "quantifier": "all coefficient dictionaries, all CKM matrices", "why_tests_cant": "universal over coefficients", "anchors": ["wcxf/translators/smeft.py:warsaw_to_warsawmass", "wcxf/translators/smeft.py:smeft_toarray", "wcxf/translators/smeft.py:smeft_fromarray"]}
{"id": "C25", "title": "No New Physics in, no New Physics out", "statement": "Matching SMEFT onto WET with all-zero (or no) coefficients yields no non-zero WET coefficient, for all parameter values for which the computation is defined: the SM part is subtracted exactly.", "quantifier": "all parameter values, all zero-valued inputs", "why_tests_cant": "universal over parameters", "anchors": ["wcxf/matchers/smeft.py:match_all_array", "wcxf/matchers/smeft.py:match_all"]}
{"id": "C26", "title": "Matched WET coefficients have the JMS index symmetries", "statement": "The arrays produced by matching satisfy the hermiticity and exchange symmetries that the JMS basis assumes when it lists only one member of each orbit, for every SMEFT input. Hence restricting to the basis listing loses nothing that the WET translators use. Fierz identities of four left-handed charged leptons are not applied (finding: refuted): ll_1331 contributes to VeeLL_1331 only, so a listing with VeeLL_1133 instead loses it.", "quantifier": "all symmetric SMEFT inputs, all parameters", "why_tests_cant": "universal over 3^4 tensors, products of couplings and CKM rotation", "anchors": ["wcxf/matchers/smeft.py:C", "wcxf/translators/wet.py:rotate_down"]}
{"id": "C27", "title": "Rotation to the down-quark mass basis", "statement": "A user expects rotate_down to rotate every left-handed down-quark index by the CKM matrix. It does so for the listed vector, scalar and tensor operators and undoes itself for the adjoint CKM matrix, but leaves dG, dgamma, S8ddRR and all baryon-number-violating operators with a left-handed down quark unrotated (finding: refuted), so matched chromo- and electromagnetic dipoles stay in the wrong basis.", "quantifier": "all coefficient arrays and CKM matrices", "why_tests_cant": "universal over arrays and matrices", "anchors": ["wcxf/translators/wet.py:rotate_down"]}
{"id": "C28", "title": "Matching is compatible with the Warsaw up detour", "statement": "Matching Warsaw → WET (JMS, flavio, EOS, Bern) equals translating to Warsaw up with the same parameters, matching to JMS and translating inside WET; all four matchers agree with each other through the WET translators, fail together, and do not depend on which member of an orbit the JMS basis lists.", "quantifier": "all coefficient dictionaries, parameters and scales", "why_tests_cant": "equality of composed functions on all inputs", "anchors": ["wcxf/matchers/__init__.py:warsaw_to_flavio", "wcxf/matchers/__init__.py:warsaw_to_bern"]}
{"id": "C29", "title": "Completion of JMS arrays", "statement": "When JMS coefficients are expanded to arrays, a listed coefficient is its input value (0 if absent), an unlisted element is obtained from a listed one by exchange and/or hermitian conjugation, and is NaN only if no member of its orbit is listed. Coefficients that are not listed in the basis are ignored.", "quantifier": "all input dictionaries and all basis listings", "why_tests_cant": "all subsets and listings, including partially listed orbits", "anchors": ["wcxf/translators/wet.py:_JMS_to_array", "wcxf/translators/wet.py:_symm_herm", "wcxf/translators/wet.py:_symm_current", "wcxf/translators/wet.py:_scalar2array"]}
{"id": "C30", "title": "JMS → flavio equals JMS → Bern → flavio", "statement": "Direct translation from JMS to flavio and the detour through the Bern basis give the same value for every flavio coefficient.", "quantifier": "all JMS coefficient values and all parameters for which the translation is defined", "why_tests_cant": "hundreds of linear formulae must agree for all numbers", "anchors": ["wcxf/translators/wet.py:JMS_to_flavio", "wcxf/translators/wet.py:JMS_to_Bern", "wcxf/translators/wet.py:Bern_to_flavio"]}
{"id": "C31", "title": "flavio → Bern → flavio", "statement": "Translating from flavio to Bern and back restores every flavio coefficient the Bern route supports; a user expects all of them. The s→d neutrino coefficients (CL_sd..., CR_sd...) are produced by Bern→flavio and JMS→flavio but lost by flavio→Bern (finding: refuted for these).", "quantifier": "all flavio coefficient values, all parameters for which the translation is defined", "why_tests_cant": "universal over coefficient values and parameters", "anchors": ["wcxf/translators/wet.py:flavio_to_Bern", "wcxf/translators/wet.py:Bern_to_flavio"]}
{"id": "C32", "title": "Bern → flavio → Bern", "statement": "Translating from Bern to flavio and back restores the Delta F=2, charged-current, dipole and b→s,d vector/scalar coefficients exactly; tensor semileptonic coefficients (7, 7p) are replaced by a combination without the tensor part (finding).", "quantifier": "all Bern coefficient values, all parameters for which the translation is defined", "why_tests_cant": "universal over coefficient values and parameters", "anchors": ["wcxf/translators/wet.py:Bern_to_flavio", "wcxf/translators/wet.py:flavio_to_Bern"]}
{"id": "C33", "title": "WET translators are linear", "statement": "Every WET translator (JMS→flavio/Bern/EOS/formflavor, Bern↔flavio) is additive and homogeneous under real factors in the coefficients; Bern↔flavio also under complex factors; zero input gives zero output, and absent coefficients act as zero.", "quantifier": "all coefficient dictionaries and factors", "why_tests_cant": "universal over values", "anchors": ["wcxf/translators/wet.py:JMS_to_flavio", "wcxf/translators/wet.py:JMS_to_Bern", "wcxf/translators/wet.py:JMS_to_EOS", "wcxf/translators/wet.py:JMS_to_FormFlavor"]}
{"id": "C34", "title": "WET translators conserve flavour", "statement": "An output coefficient depends only on input coefficients with the same change of each quark and lepton flavour; if those vanish, the output vanishes. Translators never mix sectors. (Finding: fails for formflavor CVLL_sdnn and CVRL_sdnn, which are filled with b-d coefficients.)", "quantifier": "all inputs, all output coefficients", "why_tests_cant": "non-interference over all coefficients", "anchors": ["wcxf/translators/wet.py:JMS_to_flavio", "wcxf/translators/wet.py:JMS_to_FormFlavor_lep"]}
{"id": "C35", "title": "WET translators always produce the same complete set of coefficients", "statement": "For given basis listings the set and order of output names does not depend on the input values or parameters, names are pairwise distinct across flavour sectors, and no translator raises a KeyError when the listing contains the names it reads.", "quantifier": "all inputs and parameters", "why_tests_cant": "universal over inputs", "anchors": ["wcxf/translators/wet.py:JMS_to_Bern", "wcxf/translators/wet.py:Bern_to_flavio"]}
{"id": "C36", "title": "Formflavor output refers to the coefficients it names", "statement": "A user expects CVLL_sdnn to be the average of the s-d neutrino coefficients and CAL_ of a lepton pair to be normalised to e as CAR_ is. The former is taken from the b-d coefficients, the latter is divided by the strong coupling (findings: refuted); all other formflavor outputs are related to the JMS entries of the named flavours.", "quantifier": "all inputs and parameters", "why_tests_cant": "universal over inputs; overwriting depends on call order", "anchors": ["wcxf/translators/wet.py:JMS_to_FormFlavor_lep", "wcxf/translators/wet.py:JMS_to_FormFlavor_chrom", "wcxf/translators/wet.py:JMS_to_FormFlavor"]}
{"id": "C37", "title": "EOS and flavio agree on common coefficients", "statement": "For the same JMS input, EOS c9, c10 (and primed) equal flavio C9, C10 for electrons and muons; cS, cP equal m_b times CS, CP; b→u charged-current coefficients agree; mb*C7 = mb*c7 + ms*c7' and likewise for C8.", "quantifier": "all JMS inputs and parameters for which both are defined", "why_tests_cant": "universal over inputs and parameters", "anchors": ["wcxf/translators/wet.py:JMS_to_EOS", "wcxf/translators/wet.py:JMS_to_flavio"]}
{"id": "C38", "title": "Parity covariance of the Bern translation", "statement": "Exchanging left and right chiralities in the JMS input exchanges primed and unprimed Bern coefficients in the Delta F=2, four-quark and dipole sectors.", "quantifier": "all JMS inputs with the index symmetries", "why_tests_cant": "universal over inputs; the source contains left/right asymmetric index patterns", "anchors": ["wcxf/translators/wet.py:_JMS_to_Fierz_III_IV_V", "wcxf/translators/wet.py:_Fierz_to_Bern_III_IV_V", "wcxf/translators/wet.py:_JMS_to_Bern_I"]}
{"id": "C39", "title": "FlavorKit ↔ JMS round trips", "statement": "Translating FlavorKit coefficients to JMS and back restores them exactly (for non-zero lepton masses and coupling), different FlavorKit coefficients never collide; a name outside FlavorKit raises ValueError; JMS coefficients without FlavorKit counterpart are dropped.", "quantifier": "all FlavorKit coefficient dictionaries, all parameters", "why_tests_cant": "universal over dictionaries; depends on global injectivity of two data tables", "anchors": ["wcxf/translators/wet.py:FlavorKit_to_JMS", "wcxf/translators/wet.py:JMS_to_FlavorKit", "wcxf/data/flavorkit_jms.json", "wcxf/data/flavorkit_jms_conj.json"]}
{"id": "C40", "title": "Parameter handling", "statement": "get_parameters overrides defaults by user values key by key, always returns the same 14 names, and never changes the shared defaults or the user's dictionary; unknown user keys have no effect. The CKM matrix in the SMEFT translators, the matching and the WET translators is computed from Vus, Vub, Vcb and gamma, in this order, with the user's value or else the default for each; no other parameter has an influence on the SMEFT translators, and only m_W, m_Z, GF and alpha_e besides on the matching. The running of m_b, m_s and alpha_s starts from the user's or default values of these, all other parameters are handed on unchanged.", "quantifier": "all user parameter dictionaries, scales and histories of calls", "why_tests_cant": "aliasing of a module-level dictionary shows only across calls", "anchors": ["wcxf/translators/wet.py:get_parameters", "wcxf/parameters.py:p", "wcxf/translators/smeft.py", "wcxf/matchers/smeft.py:match_all"]}
{"id": "C41", "title": "Running couplings and masses: domain checks", "statement": "alpha_s, m_b, m_c, m_s raise ValueError for a non-positive scale and for a number of flavours that is not an implemented integer. (Findings: the flavour test in the sanity check never rejects an integer; m_c at scale=mcmc returns for any f; a NaN scale passes.)", "quantifier": "all scales and flavour numbers of any numeric type", "why_tests_cant": "universal over numbers", "anchors": ["wcxf/util/qcd.py:_sane", "wcxf/util/qcd.py:alpha_s", "wcxf/util/qcd.py:m_b", "wcxf/util/qcd.py:m_c", "wcxf/util/qcd.py:m_s"]}
{"id": "C42", "title": "Caching is transparent", "statement": "The memoised functions return the same result after any history of calls as without cache, as long as the number of flavours is passed as an integer. With a float f the outcome depends on the call history (finding: refuted).", "quantifier": "all call histories, any interleaving of the four functions, cache size 32", "why_tests_cant": "history dependence incl. evictions", "anchors": ["wcxf/util/qcd.py:alpha_s", "wcxf/util/qcd.py:m_b"]}
{"id": "C43", "title": "EOS conversion adds New Physics to the SM values", "statement": "wcxf2eos returns exactly the SM parameters, in order, each with central=min=max=SM+NP where NP is the real or imaginary part of the coefficient the EOS name refers to and 0 if there is none; a file with non-universal e/mu charged-current coefficients is rejected whenever such a parameter is requested. The first SM entry that is no mapping or whose central value is no number raises TypeError, one without a central value KeyError.", "quantifier": "all SM dictionaries, all WC dictionaries", "why_tests_cant": "universal over names and values", "anchors": ["wcxf/converters/eos.py:wcxf2eos", "wcxf/converters/eos.py:get_eos_np", "wcxf/converters/eos.py:get_sm_wcs"]}
{"id": "C44", "title": "SMEFTsim card rows carry the coefficient they are labelled with", "statement": "In both model sets, each row's label names the operator and indices of the coefficient it is filled with, up to the index symmetry of the operator; magnitude rows are scaled by Lambda^2, phase rows are not; row numbers are consecutive; each coefficient is used once per kind.", "quantifier": "all rows of both cards, all coefficient values and cutoff scales", "why_tests_cant": "tables of 5000 hand-written rows", "anchors": ["wcxf/converters/smeftsim.py:smeftsim_card_fill"]}
{"id": "C45", "title": "SMEFTsim cards determine the coefficients", "statement": "A user expects that different coefficient sets give different cards. The rows determine every coefficient except that the sign of the flavour-diagonal phil1, phil3, phiq1, phiq3, phie, phiu, phid (and ee_3333 for set A) is lost (finding: refuted for these, proved for all others).", "quantifier": "all pairs of complete coefficient sets, all non-zero cutoff scales", "why_tests_cant": "injectivity over all pairs of inputs", "anchors": ["wcxf/converters/smeftsim.py:smeftsim_card_fill"]}
{"id": "C46", "title": "SMEFTsim cards need complete input", "statement": "smeftsim_card_fill raises KeyError iff one of the coefficients of the card is absent; with a complete input it fills every block that initialize_smeftsim_card creates and no other.", "quantifier": "all coefficient dictionaries, both model sets", "why_tests_cant": "all subsets of 1356 coefficients", "anchors": ["wcxf/converters/smeftsim.py:initialize_smeftsim_card", "wcxf/converters/smeftsim.py:smeftsim_card_fill"]}
{"id": "C47", "title": "Command line outcome", "statement": "wcxf's subcommands dispatch as documented; a user expects failures to be reported. An AttributeError raised anywhere inside a subcommand is swallowed (help is printed, exit status 0), an unknown convert format does nothing silently, and the status returned by validate is dropped, so the process exits 0 (findings: refuted). wcxf2smeftsim with another basis than Warsaw mass writes the card after the answer i or I, and stops with a traceback and no card at the end of the input.", "quantifier": "all argument vectors and subcommand outcomes", "why_tests_cant": "universal over outcomes of the subcommand", "anchors": ["wcxf/cli.py:wcxf_cli", "wcxf/cli.py:convert", "wcxf/cli.py:validate", "wcxf/cli.py:eos"]}
{"id": "C48", "title": "TeX check outcome", "statement": "_testtex reports success iff the TeX run returns 0 (or TeX is not installed); the reported log is the block of consecutive non-blank log lines starting at the first error line; the log extraction terminates on every log. The document that is compiled consists of the document class, the package line, the formula and the end line, for every formula of one line. The temporary directory is removed except when TeX is missing (finding) and a failing run without log file raises UnboundLocalError (finding).", "quantifier": "all log contents and process outcomes", "why_tests_cant": "unbounded log files, loop termination", "anchors": ["wcxf/classes.py:_testtex"]}
{"id": "C49", "title": "Tree-level matching and the CKM matrix", "statement": "For Warsaw coefficients that change neither the W and Z couplings (no phi-fermion currents, no phiWB) nor muon decay, matching onto the WET succeeds whenever the Standard Model parameters make sense and gives the linear tree-level formulae; the CKM matrix of the Warsaw to Warsaw up rotation and that of the rotation to down-quark mass eigenstates cancel for down quarks, so it acts on left-handed up quarks only and coefficients without left-handed up quarks do not depend on it.", "quantifier": "all such coefficient dictionaries, all parameters, all unitary CKM matrices, all listed coefficients", "why_tests_cant": "universal over coefficients and unitary matrices; a test compares a few numbers to a tolerance", "anchors": ["wcxf/matchers/__init__.py:warsaw_to_jms", "wcxf/matchers/smeft.py:match_all", "wcxf/translators/smeft.py:warsaw_to_warsaw_up", "wcxf/translators/wet.py:rotate_down"]}
{"id": "C50", "title": "Muon decay fixes the Fermi constant", "statement": "GF is an input measured in muon decay: New Physics in mu -> e nu nu shifts the vacuum expectation value rather than the matched coefficient of muon decay. What remains of VnueLL_2112 is of second order, the product of the electron and muon phil3 couplings times -sqrt(2)/GF'.", "quantifier": "all lepton-flavour-conserving coefficients, all parameters", "why_tests_cant": "an exact identity between rational functions of all coefficients", "anchors": ["wcxf/matchers/smeft.py:GFx", "wcxf/matchers/smeft.py:vT", "wcxf/matchers/smeft.py:match_all_array"]}
{"id": "C51", "title": "Which documents make an EFT, Basis or WC object", "statement": "Building an EFT, Basis or WC object from a document raises TypeError if a required field is missing or a field is called self, AttributeError if an extra field has the name of a read-only property (dict, all_wcs, known_bases, known_translators), ValueError if the parent basis is unknown, and the error of float() if the scale is not a number. Otherwise it succeeds and every public attribute of the object equals the field of the document, except that the scale is converted to a number and the sectors of a basis with a parent are those of the parent updated with its own.", "quantifier": "all documents, all three classes, all registered parents", "why_tests_cant": "universal over documents with arbitrary extra fields", "anchors": ["wcxf/classes.py:EFT.__init__", "wcxf/classes.py:Basis.__init__", "wcxf/classes.py:WC.__init__"]}
{"id": "C52", "title": "W and Z exchange in the matching", "statement": "Every coefficient of the matched WET point is the sum of the contact terms and of what tree-level exchange of one W or Z between the two currents of the operator gives, minus the Standard Model contribution. The exchange follows from the quantum numbers of the four fields alone: Z couplings T3 - Q sin^2 shifted by the phi-fermion operators, W couplings shifted by phil3, phiq3 and phiud, Fierz and colour factors for charged currents in neutral operators, symmetry factors for identical currents. The couplings belong to the Fermi constant that is left after removing New Physics in muon decay; without phiWB they are those of the Standard Model, and the matching succeeds exactly if both Fermi constants give a real weak angle.", "quantifier": "all coefficient dictionaries, all parameters, all CKM matrices, all listed coefficients of all operators", "why_tests_cant": "an exact identity for each of the 60 operators and all flavours in all coefficients; tests compare a few points", "anchors": ["wcxf/matchers/smeft.py:match_all_array", "wcxf/matchers/smeft.py:vT", "wcxf/matchers/smeft.py:gzb", "wcxf/matchers/smeft.py:match_all"]}
{"id": "C53", "title": "phiWB keeps the electric charge", "statement": "The inputs alpha_e and m_W fix the electric charge and the W coupling: at first order in v^2 C_phiWB the charge used in the matching does not change, the weak angle is shifted by v^2 C_phiWB / 2 and the Z coupling by the factor 1 + tan(angle) v^2 C_phiWB.", "quantifier": "all values of alpha_e, m_W and the Fermi constant for which the Standard Model weak angle is real", "why_tests_cant": "a statement about derivatives at all parameter values", "anchors": ["wcxf/matchers/smeft.py:g1b", "wcxf/matchers/smeft.py:sb", "wcxf/matchers/smeft.py:cb", "wcxf/matchers/smeft.py:eb", "wcxf/matchers/smeft.py:gzb"]}
{"id": "C54", "title": "JMS to Bern keeps all amplitudes", "statement": "Translating from the JMS to the Bern basis does not change physics: every tree-level amplitude of four fermions (any spinor components, any colours) to which an operator of the Bern basis contributes is the same computed from the JMS coefficients with the JMS operators as computed from the returned coefficients with the Bern operators (Fierz identities, colour identities, the reduction of products of three and four gamma matrices and hermitian conjugates included). In this the unprimed operators 5, 7, 9 have to be read as the left-handed ones in the sectors sbss, dbdd, dsdd, dbds and sbsd, and as the right-handed ones elsewhere; a user expects one rule for all sectors, and with it the amplitudes change (finding: refuted). The operators are written down from memory, not from the basis files.", "quantifier": "all JMS coefficient dictionaries, all listings with exactly one member of each orbit, all parameters, all external spins and colours", "why_tests_cant": "an identity of complex functions on an infinite space with about 40000 components; tests compare a few points with another program", "anchors": ["wcxf/translators/wet.py:JMS_to_Bern", "wcxf/translators/wet.py:_JMS_to_Bern_I", "wcxf/translators/wet.py:_JMS_to_Bern_II", "wcxf/translators/wet.py:_JMS_to_Fierz_III_IV_V", "wcxf/translators/wet.py:_Fierz_to_Bern_III_IV_V", "wcxf/translators/wet.py:JMS_to_Fierz_lep"]}
{"id": "C55", "title": "JMS to flavio keeps all amplitudes but those of semileptonic tensors", "statement": "The same for flavio: the amplitudes for all transitions of flavio's operators are kept, with flavio's normalisations (4 GF/sqrt2, CKM elements, alpha/4pi, m_b). A user expects this for the whole JMS Lagrangian; it holds for all of it except the operator TedRR, whose contribution is dropped without notice, as flavio's basis has no tensor operators with two charged leptons (finding).", "quantifier": "all JMS coefficient dictionaries, all listings with exactly one member of each orbit, all parameters, all external spins and colours", "why_tests_cant": "an identity on an infinite space", "anchors": ["wcxf/translators/wet.py:JMS_to_flavio", "wcxf/translators/wet.py:_BernI_to_Flavio_I", "wcxf/translators/wet.py:_BernII_to_Flavio_II", "wcxf/translators/wet.py:Fierz_to_Flavio_lep"]}
{"id": "C56", "title": "Bern to flavio and back keep amplitudes", "statement": "The direct translators agree with physics too: from Bern to flavio exactly the tensor part, (C7 - 16 C9) times the tensor operator and likewise for the primed ones, is lost from the amplitudes; from flavio to Bern all amplitudes except those of s -> d nu nu are kept.", "quantifier": "all coefficient dictionaries, all parameters, all external spins and colours", "why_tests_cant": "an identity on an infinite space", "anchors": ["wcxf/translators/wet.py:Bern_to_flavio", "wcxf/translators/wet.py:flavio_to_Bern"]}
{"id": "C57", "title": "JMS to EOS keeps semileptonic amplitudes", "statement": "The coefficients c9, c9', c10, c10', cS, cS', cP, cP', cT, cT5 of b -> s l l and those of b -> u l nu in the EOS basis give the same amplitudes as the JMS coefficients they were computed from, tensors included.", "quantifier": "all JMS coefficient dictionaries, all parameters with m_b and m_s different, all external spins and colours", "why_tests_cant": "an identity on an infinite space", "anchors": ["wcxf/translators/wet.py:JMS_to_EOS", "wcxf/translators/wet.py:Fierz_to_EOS_lep", "wcxf/translators/wet.py:_BernII_to_EOS_II"]}
{"id": "C58", "title": "JMS to FormFlavor and amplitudes", "statement": "The semileptonic FormFlavor coefficients give the same amplitudes as the JMS coefficients. A user expects the same for meson mixing. It holds if the scalar octet coefficients S8ddRR and S8uuRR vanish; otherwise CSLL and CSRR lack eight times CTLL and CTRR (wrong sign in the Fierz identity for the crossed scalar operator), and the amplitudes differ (finding).", "quantifier": "all JMS coefficient dictionaries, all listings with exactly one member of each orbit, all parameters, all external spins and colours", "why_tests_cant": "an identity on an infinite space; agreement for a few coefficients says nothing about the others", "anchors": ["wcxf/translators/wet.py:JMS_to_FormFlavor", "wcxf/translators/wet.py:_BernI_to_FormFlavor_I", "wcxf/translators/wet.py:JMS_to_FormFlavor_lep"]}
{"id": "C59", "title": "Running parameters stay on one renormalisation-group trajectory", "statement": "If the rundec methods map points of a trajectory (alpha_s and a quark mass as functions of scale and number of flavours, with thresholds at 170, 4.8 and 1.3 GeV) to points of the same trajectory, then alpha_s, m_b, m_c and m_s return the point of the trajectory at the requested scale and number of flavours that goes through their input (alpha_s(MZ) with 5 flavours, m_b(m_b) with 5, m_c(m_c) with 4, m_s(2 GeV) with 3). Exception (finding): m_c at scale = m_c returns its input for every number of flavours.", "quantifier": "all trajectories, all scales, flavour numbers and inputs", "why_tests_cant": "universal over the running functions; a test compares numbers for one trajectory", "anchors": ["wcxf/util/qcd.py:alpha_s", "wcxf/util/qcd.py:m_b", "wcxf/util/qcd.py:m_c", "wcxf/util/qcd.py:m_s"]}
{"id": "C60", "title": "The WET translators keep dipole operators", "statement": "The photon and gluon dipole coefficients returned by the translators JMS to Bern, JMS to flavio, JMS to EOS (C7, C8 with m_b P_R + m_s P_L), JMS to FormFlavor (quarks), Bern to flavio and flavio to Bern give the same vertices of two fermions and a field strength as the coefficients they were computed from. A user expects the same for the FormFlavor lepton dipoles; it fails when alpha_e and alpha_s differ, since the left-handed coefficients CAL_ are divided by the strong coupling instead of e (finding).", "quantifier": "all coefficient dictionaries, all listings with exactly one member of each orbit, all parameters for which the translator does not divide by zero, all spins, colours and field-strength components", "why_tests_cant": "an identity on an infinite space; comparing with stored numbers only shows that nothing changed", "anchors": ["wcxf/translators/wet.py:JMS_to_Bern", "wcxf/translators/wet.py:Fierz_to_Flavio_chrom", "wcxf/translators/wet.py:JMS_to_EOS", "wcxf/translators/wet.py:JMS_to_FormFlavor_chrom", "wcxf/translators/wet.py:Bern_to_flavio", "wcxf/translators/wet.py:flavio_to_Bern"]}
{"id": "C61", "title": "What the EOS coefficients c1 to c6 returned by the translator mean", "statement": "If the amplitudes s-bar b q-bar q (q = u, d, s, c, b) of the JMS coefficients are those of the EOS operators O1 to O6, where O1 and O2 may have different coefficients for u and c, the translator JMS to EOS returns c3 to c6 and the means of the u and c coefficients of O1 and O2. So if u and c share c1 and c2 the six coefficients come back and reproduce the amplitudes. A user who has only charm operators, or operators weighted with the CKM factors -V_qb V_qs*/(V_tb V_ts*) as in the Standard Model, expects c1 and c2; the translator returns one half of each (finding). If c1 differs for u and c, what is returned does not reproduce the amplitudes (finding). Every set of coefficients occurs.", "quantifier": "all coefficient dictionaries, all listings with exactly one member of each orbit, all parameters for which the translator does not divide by zero, all spins and colours", "why_tests_cant": "an identity on an infinite space; comparing with stored numbers only shows that nothing changed", "anchors": ["wcxf/translators/wet.py:JMS_to_EOS", "wcxf/translators/wet.py:_Fierz_to_EOS_V", "wcxf/translators/wet.py:_JMS_to_Fierz_III_IV_V"]}
{"id": "C62", "title": "Printing a basis or a coefficient file lists every coefficient once", "statement": "If no name contains a newline or a backtick and no TeX code contains a newline, the text of a basis (str) has one table row for each coefficient, in the order of the file, from which the name and the type (R or C) can be read; the names are those of all_wcs if that was not read before. Printing raises TypeError exactly if some coefficient has a null entry. Such a basis passes validate, so printing a validated basis can fail (finding). The text of a coefficient file has one row for each entry of its dict, with the name and the formatted value; it fails as reading dict fails, and like it fills the cache. The whole text is fixed line by line: for a basis the title with basis and EFT, the description if any, the convention for the Lagrangian, then for each sector in the order of the file its heading and, unless it is null or empty, a table with the name, the TeX code and the type of each coefficient; for a coefficient file its EFT, basis, scale and table of values. Two bases with the same description and the same text have the same EFT and name and the same sectors with the same coefficients, TeX codes and types in the same order; only a null and an empty sector, and a missing and an empty TeX code, look the same. Likewise the text of a coefficient file determines its EFT, its basis, the printed scale and the names and printed values.", "quantifier": "all basis and coefficient objects, all descriptions without lines that look like rows, all ways of formatting numbers", "why_tests_cant": "str() is called on a few well-formed bases only", "anchors": ["wcxf/classes.py:Basis.__str__", "wcxf/classes.py:Basis._markdown_tables", "wcxf/classes.py:Basis._repr_markdown_", "wcxf/classes.py:Basis.validate", "wcxf/classes.py:WC._repr_markdown_", "wcxf/classes.py:WC.__str__"]}
{"id": "C63", "title": "Which conversions the installed package offers, and that chains of them agree", "statement": "WC.translate succeeds only for the 20 combinations of EFT and bases that the package registers and WC.match only for its 12; for any other combination ValueError is raised and the object is unchanged. For the offered ones the named function is applied to the coefficients, the SMEFT translations without the user's parameters, and the new object has the requested EFT and basis, the same scale and the nonzero results. In WET, WET-4 and WET-3, translating JMS to Bern and then to flavio gives the same object as translating JMS to flavio. flavio to Bern and back restores what the translator reads and drops the rest. Bern to flavio and back restores all coefficients except the tensors. FlavorKit to flavio is FlavorKit to JMS and JMS to flavio; FlavorKit to JMS and back restores the nonzero coefficients.", "quantifier": "all WC objects, targets and parameter dictionaries for which parameters are defined and no divisor vanishes; all complete basis listings", "why_tests_cant": "the registry is tested for single conversions of a few stored files; refusal and the agreement of chains are statements about all objects", "anchors": ["wcxf/classes.py:WC.translate", "wcxf/classes.py:WC.match", "wcxf/translators/__init__.py", "wcxf/matchers/__init__.py"]}
{"id": "C64", "title": "Theories with fewer quarks: conversions never mix operators with different fields", "statement": "A flavio or Bern coefficient depends only on JMS coefficients whose operators have the same number of fields of each flavour. So if no operator with a bottom quark (WET-4), or with a bottom or charm quark (WET-3), is present before the translation to flavio or Bern, none is present afterwards. Matching WET to WET-4 or WET-4 to WET-3 and translating (JMS to flavio, JMS to Bern, Bern to flavio) gives the same object in either order, if the bases of the smaller theory list exactly the coefficients without the missing quarks.", "quantifier": "all WC objects, all parameters for which no divisor vanishes, all complete listings", "why_tests_cant": "about all coefficients at once; stored files contain a handful of nonzero ones", "anchors": ["wcxf/classes.py:WC.match", "wcxf/classes.py:WC.translate", "wcxf/matchers/__init__.py:wet_wet4_flavio", "wcxf/translators/wet.py:JMS_to_flavio", "wcxf/translators/wet.py:JMS_to_Bern", "wcxf/translators/wet.py:Bern_to_flavio"]}
{"id": "C65", "title": "Ways from the SMEFT to the WET agree, unless the user changes the CKM matrix", "statement": "Matching a Warsaw object to flavio, Bern or EOS has the same outcome, exceptions included, as matching it to JMS and translating the result with the same parameters. If the user's parameters give the default CKM matrix, matching Warsaw to JMS has the same outcome as translating to Warsaw up and matching that. If they give another CKM matrix this is false (finding): the translation uses the default matrix and the matching the user's, so a coefficient can come out with the opposite sign. Warsaw to Warsaw up and back, and the other way round, restores the coefficients of the independent components.", "quantifier": "all WC objects, parameters and complete listings; all unitary CKM matrices for the round trips", "why_tests_cant": "equality of outcomes for all inputs, exceptions included", "anchors": ["wcxf/classes.py:WC.match", "wcxf/classes.py:WC.translate", "wcxf/matchers/__init__.py:warsaw_to_jms", "wcxf/matchers/__init__.py:warsaw_to_flavio", "wcxf/matchers/__init__.py:warsaw_to_eos", "wcxf/matchers/__init__.py:warsaw_to_bern", "wcxf/translators/__init__.py:warsaw_to_warsaw_up"]}
{"id": "C66", "title": "The command line does what the methods do, also through files", "statement": "For a file whose text parses (JSON, else YAML) as a mapping with text eft and basis, a numeric scale and a mapping of values, 'wcxf translate' and 'wcxf match' write the object which WC.translate and WC.match return with default parameters, in the format asked for: the output has exactly the entries eft, basis, scale and values, is again such a file, other entries of the input are dropped, and the exit status is 0. A sequence of commands, each reading the file written by the one before, in any mixture of formats, gives the file of the corresponding chain of method calls; so the agreements C63 and C65 hold between files (JMS to Bern to flavio gives the text of JMS to flavio). If the method raises, or the format is unknown, the output is left empty and the status is 1 (0 for AttributeError). 'wcxf convert' keeps the data and is undone by the opposite conversion; 'wcxf validate wc' succeeds exactly when WC.validate does. Findings: writing to the input file destroys its contents; a file with an entry named dict, or whose values are a list, is refused with status 0 and the help text; converting JSON to JSON rereads the file as YAML and changes the data where the two parsers disagree.", "quantifier": "all file systems, texts, printers and parsers that invert each other on the documents written, registries, formats, and command sequences of any length", "why_tests_cant": "unbounded sequences of commands and arbitrary file contents and registries", "anchors": ["wcxf/cli.py:translate", "wcxf/cli.py:match", "wcxf/cli.py:convert", "wcxf/cli.py:validate", "wcxf/converters/yamljson.py:convert_json", "wcxf/converters/yamljson.py:convert_yaml", "wcxf/classes.py:_yaml_to_json", "wcxf/classes.py:_json_to_yaml", "wcxf/classes.py:WCxf.load", "wcxf/classes.py:WCxf.dump"]}
{"id": "C67", "title": "Importing the package does not depend on the order of its files", "statement": "If the EFT files have different names, the basis files have different names, files in bases/ have no parent, every file in bases/child/ that names a parent names one in bases/, and no two children of one basis define the same sector differently, then the import succeeds for every order in which the files are found, and the package then offers the same EFTs, the same bases and the same sectors in each up to their order; WC.validate gives the same answer for every coefficient file. If moreover LaTeX is missing, or treats the formulas of a basis alike in any order, every session of typed command lines of the three programs has the same statuses, messages and files. A basis and all its children then have the same sectors, each from the file loaded last. The two conditions on children are exact: the import succeeds for every order of the child files iff each named parent is in bases/, and two children that define a sector of their parent differently give two orders with different contents. The only exception is ValueError. Finding: with one child file installed, the parent basis rejects a coefficient that its own file defines and accepts one that only the child defines.", "quantifier": "all lists of EFT files, basis files and child files and all permutations of them; all coefficient files; all sessions of command lines and all files", "why_tests_cant": "a test run sees one order of one set of files; the order comes from the file system", "anchors": ["wcxf/__init__.py", "wcxf/classes.py:Basis.__init__", "wcxf/classes.py:EFT.__init__", "wcxf/classes.py:WC.validate", "wcxf/cli.py"]}
{"id": "C68", "title": "wcxf2eos and wcxf2smeftsim on files, alone and after the command line tool", "statement": "wcxf2eos on a valid coefficient file, with parameter files whose relevant entries all have a central number, ends with status 0 and writes, for every relevant parameter name, the SM value plus the new-physics part (C43) as central, min and max; a lepton non-universal coefficient ends with status 1 and an empty output. The outcome does not depend on the order in which the parameter files are found, provided that files defining the same name agree. For a WET file in JMS, 'wcxf translate EOS' followed by wcxf2eos, and for a SMEFT file 'wcxf match WET EOS' followed by wcxf2eos, give the SM values plus the real or imaginary parts of the translated coefficients, although zeros are not written. wcxf2smeftsim on a valid Warsaw mass file that has all coefficients the model set needs writes preamble, card and postamble with status 0; if one is missing it ends with status 1 and an empty card. Findings: wcxf2eos does not look at the basis, so a valid file of any other basis gives the SM values with status 0; if the output lies among the parameter files (as with --eoshome PREFIX/share/eos) it is emptied before being read and the program fails on every input; a Warsaw file in which one of the coefficients that are copied is absent or zero can be translated to Warsaw mass but then gives no card. The parameter files read are exactly PREFIX/share/eos/parameters/NAME.yaml, where NAME is not empty, does not begin with a dot and has no slash, and --eoshome HOME writes to HOME/parameters/wcxf.yaml; a slash at the end of PREFIX or HOME makes no difference.", "quantifier": "all file systems, coefficient files, parameter files, orders of the directory listing, option combinations, printers and parsers that invert each other on the documents written, parameters and complete listings", "why_tests_cant": "arbitrary directory contents and orders, arbitrary coefficients, and two programs in sequence", "anchors": ["wcxf/cli.py:eos", "wcxf/cli.py:smeftsim", "wcxf/converters/eos.py:get_sm_wcs", "wcxf/converters/eos.py:get_eos_np", "wcxf/converters/eos.py:wcxf2eos", "wcxf/converters/smeftsim.py:smeftsim_card_fill", "wcxf/converters/smeftsim.py:smeftsim_card_text"]}
{"id": "C69", "title": "The fixed text of a SMEFTsim card is well formed and the same physics in both input schemes", "statement": "smeftsim_card_text returns the texts around the card for the model sets A and B and the input schemes alpha and mw, and raises UnboundLocalError for anything else. Read as SLHA, every parameter of the text occurs once, and no block is given both by the text and by the generated card. Within a model set the two schemes set the same parameters, except that mw does not set the electromagnetic coupling; the values are the same except for the mass of the W and of its Goldstone boson and ghosts, and with one unintended exception (finding): in model set B the scheme mw changes the strong coupling from 0.1181 to 0.1185. The ghosts and Goldstone bosons have the mass and width of their gauge boson, the Yukawa masses are the pole masses, and the W mass of scheme mw is the number which the card of set A adds. The blocks of the fixed text are SMINPUTS, MASS and CKMBLOCK before the coefficients and YUKAWA and QNUMBERS (in set B also NEWCOUPaux) behind them, and every line that starts with \"block\" is one of these.", "quantifier": "all model sets, schemes and cards", "why_tests_cant": "the statement for every other set and scheme, and for every generated card beside the text", "anchors": ["wcxf/converters/smeftsim.py:smeftsim_card_text", "wcxf/converters/smeftsim.py:smeftsim_card_fill"]}
{"id": "C70", "title": "Precision of the numbers in SMEFTsim cards", "statement": "Every number printed into a SMEFTsim card is a decimal floating point text; read back it has the sign of the original, is zero exactly when the original is, differs from it by at most 5e-7 of its size, and printing it again gives the same text. Consequently every coefficient that the card determines (C45) can be read back from the parameters of the card that bear its name, as absolute value and phase or as a signed number, divided by the square of the scale read from the card, with a relative error of at most 3e-6; two inputs with the same card agree to this precision; and this holds from coefficient file to card file. Finding: a coefficient that must be real, other than those printed as absolute values, is printed as a Python complex number if the file gives it as a Re/Im pair (even with Im: 0), and this text is not a number.", "quantifier": "all real numbers, coefficients with either Python type, scales other than 0, both model sets and input schemes", "why_tests_cant": "the bound concerns all real numbers of every size and all coefficients at once", "anchors": ["wcxf/converters/smeftsim.py:smeftsim_card_fill", "wcxf/classes.py:WC._to_number", "wcxf/cli.py:smeftsim"]}
{"id": "C71", "title": "How the command lines of the three console scripts are read", "statement": "The words after wcxf are read as: command, options, positional words and possibly FILE, options. Options may be abbreviated to three characters and joined to their value with '='; the last of equal options wins; defaults are standard input, standard output and json. Correspondingly for wcxf2eos (defaults /usr, no home) and wcxf2smeftsim (defaults A, alpha, 1000 and the name of the card; only the allowed sets, schemes and numbers). For every list of words, whatever it is, the run stops with the help text and status 0, the usage message and status 2 or a traceback of an IndexError and status 1, or a command starts whose input exists and whose output file is empty and was named; until then the only effect on any file is that named files are emptied, and in the whole run files that are not named stay as they are. Words that start with '-' are values if they are negative numbers or contain a space before any '=' (and do not start with -h); another word '-x...' is never taken for a file and gives status 2. '-h', '--help' and its abbreviations give the help text and status 0, with a value joined to them status 2. An unknown command and a missing input file give status 2. Consequently a typed translate or match command gives what the method gives, in the format and file asked for, and leaves all other files alone. Findings: a rejected command line may already have emptied the output file; FILE behind an option that follows the other words is rejected; --output without value directly before the words takes the basis as its file name; wcxf2smeftsim without FILE reads a file called '{}' if there is one. Asking wcxf2eos or wcxf2smeftsim for help (-h, --help or an abbreviation) prints the help text with status 0 and opens no file; a value for --help and an unknown word that starts with a dash give the usage message and status 2.", "quantifier": "all lists of words, file systems, texts on standard input and coefficient files", "why_tests_cant": "arbitrary sequences of words, spellings and repetitions of options, and file names", "anchors": ["wcxf/cli.py:wcxf_cli", "wcxf/cli.py:eos", "wcxf/cli.py:smeftsim", "README.md"]}
{"id": "C72", "title": "Which EFT and basis files pass wcxf validate", "statement": "For every text given to 'wcxf validate basis', whatever it parses to, and every state of the registries: the run prints 'Validation successful.' exactly if the text is a mapping whose EFT is known, without entries that disturb the object, and whose sectors (its own, or those of its registered parent with its own written over them) are sectors of the EFT, are mappings of coefficients with distinct names throughout, and have formulas that are texts which LaTeX, if installed, compiles. A parsed file gives exactly one message and no change of any file: success, the help text, or a traceback of a TypeError, ValueError or UnboundLocalError with status 1. Unknown sectors, repeated coefficients, failing formulas, an unknown EFT and an unknown parent give a ValueError and status 1; an entry 'validate' gives a TypeError; with a parent, sectors that are neither a mapping nor a list of pairs give a TypeError or ValueError, depending on their form. For well-formed files the outcome is that of loading the basis and calling its validate method, and a basis that passes can be loaded and then accepts exactly the coefficient files with its names. 'wcxf validate eft' passes exactly the mappings with a hashable name and an entry sectors. Findings: a null or a list where a sector or coefficient entry should be a mapping gives the help text and status 0; an EFT file with sectors null passes; a basis named by a number passes.", "quantifier": "all file texts and documents, registry states, latex outcomes and well-formed basis files", "why_tests_cant": "arbitrary nested documents, parents and registries", "anchors": ["wcxf/cli.py:validate", "wcxf/classes.py:EFT.__init__", "wcxf/classes.py:Basis.__init__", "wcxf/classes.py:Basis.validate", "wcxf/classes.py:WCxf.load"]}
{"id": "C73", "title": "Sessions of typed command lines compute what the methods compute", "statement": "Type any number of lines 'wcxf translate BASIS FILE --output Q --format FMT' or 'wcxf match EFT BASIS FILE --output Q --format FMT', each reading the file the line before wrote. If the corresponding calls of translate and match on the object succeed one after the other, then every status is 0, nothing is printed, the last file is a coefficient file of the final object, and no file other than the output files changes. If one of the calls raises an exception (other than AttributeError), its line and all later ones end with status 1. A final line 'wcxf validate wc' then succeeds exactly as the object's validation does, a final 'wcxf2eos' writes the EOS parameter file of the final object, relative to the parameter files as they were before the session, and a final 'wcxf2smeftsim' writes the card with the model set, scheme and cutoff typed if the object has all needed coefficients, and otherwise leaves an empty file and status 1.", "quantifier": "all chains of commands and file names, formats, initial files, and installed translators and matchers", "why_tests_cant": "unbounded sessions over arbitrary file systems and registries", "anchors": ["wcxf/cli.py:wcxf_cli", "wcxf/cli.py:eos", "wcxf/cli.py:smeftsim", "setup.py:entry_points", "wcxf/classes.py:WC.translate", "wcxf/classes.py:WC.match", "wcxf/classes.py:WC.validate"]}
{"id": "C74", "title": "JSON files: what is written is what is read", "statement": "The JSON text written for an object or document is read back as the same document, for any indentation and with any white space around the text; different documents have different texts. The text has only printable ASCII characters and line feeds, whatever characters the strings contain. The texts that are read are exactly those of the JSON grammar (RFC 8259, with NaN and Infinity), with the document the grammar gives them. If the text of a mapping is cut off anywhere, reading it as JSON fails. Reading any text as JSON either gives a document or raises JSONDecodeError, in which case the YAML reader is used; a text that starts with a letter or underscore and has a colon later (a YAML block mapping) is never taken as JSON. A key given more than once is accepted without error and the last value counts. Dumping an EFT, Basis or WC object as json and loading it gives the same public attributes, with no assumption on YAML. In strings, printable ASCII characters except quote and backslash are written as they are, the others with the escapes of JSON.", "quantifier": "all documents with distinct keys whose numbers are written as JSON numbers of the same value, all indentations, all cut-off positions, all texts for the exceptions and the fallback", "why_tests_cant": "documents, strings and texts are unbounded; a cut can be at any position of any file", "anchors": ["wcxf/classes.py:_load_yaml_json", "wcxf/classes.py:_dump_json", "wcxf/classes.py:WCxf.dump", "wcxf/classes.py:WCxf.load"]}
{"id": "C75", "title": "The order of the keys in files does not matter for known coefficients", "statement": "Suppose a file written as json or yaml is read back as the same document up to the order of the keys in its mappings (PyYAML sorts keys when writing). Then translating and matching through files, one typed command after the other, still leaves a file with exactly the coefficients that the methods compute on the object; validation has the same outcome, and the EOS parameter file and the SMEFTsim card have the same numbers. The installed translators and matchers give the same coefficients (zeros dropped) whatever the order of the coefficients, and fail for one order only if they fail for all, provided names in the SMEFT are an operator with its flavour indices, names in the FlavorKit basis are among those its translator knows, and JMS dipoles of the leptons have two indices; the results have such names again. For other names in the FlavorKit basis this is false: the order can decide between a result and an UnboundLocalError.", "quantifier": "all coefficient files, orders, chains of commands, printers and readers that keep documents up to order; all parameters and scales", "why_tests_cant": "all permutations of dictionaries of any size, for every installed conversion and every chain of them", "anchors": ["wcxf/classes.py:WCxf.dump", "wcxf/classes.py:_represent_dict_order", "wcxf/classes.py:WC.translate", "wcxf/classes.py:WC.match", "wcxf/cli.py:wcxf_cli", "wcxf/translators/wet.py:FlavorKit_to_JMS", "wcxf/translators/wet.py:JMS_to_FlavorKit", "wcxf/translators/smeft.py:wcxf2arrays"]}
{"id": "C76", "title": "Rounding errors of the translators between bases of WET stay small", "statement": "With an arithmetic in which every operation has a relative error of at most eps, the translators JMS to flavio, formflavor and Bern, Bern to flavio and flavio to Bern fail exactly when they fail with exact arithmetic (with the same kind of error) and give the same names; every result differs from the exact one by at most ((1/(1-eps))^n - 1) times the sum of the absolute values of the terms of its formula, with n = 30, 8, 25, 46 and 46. Hence, for fixed parameters, the largest error is at most that factor times a constant times the largest coefficient, whatever the coefficients; zero coefficients give exact zeros; the direct translation and the detour by Bern agree, and the round trips restore the coefficients they restore with exact arithmetic, up to such an error (n = 71, 92). JMS to EOS has the same bound (n = 31) except for the four dipole coefficients of b -> s, which are divided by m_b^2 - m_s^2. With these included, the largest error is at most ((1/(1-3 kappa eps))^32 - 1) times a constant times the largest coefficient, where m_b^2 + m_s^2 <= kappa |m_b^2 - m_s^2| and 3 kappa eps < 1, if differences of reals are real. Python's complex arithmetic with a rounding of the reals of relative error u <= 1/100 is such an arithmetic with eps = 11 u; for doubles (u = 2^-53) the factor is at most 12 n u for n <= 100. FlavorKit to JMS and JMS to FlavorKit fail as with exact arithmetic and give every single coefficient right up to the fraction (1/(1-eps))^9 - 1 of itself; all but the lepton dipoles are copied without error; the round trip restores each coefficient up to n = 18, and flavio by FlavorKit and JMS has n = 39.", "quantifier": "all coefficients, parameters, scales, listings of names, and all arithmetics with relative error eps < 1", "why_tests_cant": "a bound over all floating-point inputs and all ways of rounding; tests compare a few numbers with a tolerance", "anchors": ["wcxf/translators/wet.py:JMS_to_flavio", "wcxf/translators/wet.py:JMS_to_FormFlavor", "wcxf/translators/wet.py:JMS_to_Bern", "wcxf/translators/wet.py:Bern_to_flavio", "wcxf/translators/wet.py:flavio_to_Bern", "wcxf/translators/wet.py:JMS_to_EOS", "wcxf/translators/wet.py:FlavorKit_to_JMS", "wcxf/translators/wet.py:JMS_to_FlavorKit"]}
{"id": "C77", "title": "Small changes of parameters and coefficients change the results of the WET translators little", "statement": "Change every parameter at the scale, every element of the CKM matrix and every coefficient by at most the fraction eps < 1 of its absolute value. Then JMS to flavio, formflavor and Bern, Bern to flavio and flavio to Bern fail exactly when they failed before (with the same kind of error) and give the same names; every result changes by at most ((1/(1-eps))^n - 1) times the sum of the absolute values of the terms of its formula, with n = 7, 2, 6, 11 and 11. With a rounding error of at most eps in every operation on top, the same holds with n = 37, 9, 31, 57 and 57. Hence, for parameters with which the translators work, there is a constant K such that for eps <= 1/22 no result changes by more than K times eps times the largest coefficient, whatever the coefficients and wherever the changed parameters come from (other inputs, another scale, another way of running). JMS to EOS has the same bound (n = 6) except for the four dipole coefficients of b -> s; with these included, no result changes by more than ((1/(1-3 kappa eps))^7 - 1) times a constant times the largest coefficient, where m_b^2 + m_s^2 <= kappa |m_b^2 - m_s^2| and 3 kappa eps < 1. FlavorKit to JMS and JMS to FlavorKit change each coefficient by at most (1/(1-eps))^3 - 1 of itself (n = 12 with rounding).", "quantifier": "all coefficients, parameters, scales, listings of names, changes by fractions eps < 1, and all arithmetics with relative error eps", "why_tests_cant": "a bound over all changes of all inputs at once; tests compare a few numbers at one set of parameters", "anchors": ["wcxf/translators/wet.py:JMS_to_flavio", "wcxf/translators/wet.py:JMS_to_FormFlavor", "wcxf/translators/wet.py:JMS_to_Bern", "wcxf/translators/wet.py:Bern_to_flavio", "wcxf/translators/wet.py:flavio_to_Bern", "wcxf/translators/wet.py:JMS_to_EOS", "wcxf/translators/wet.py:get_parameters", "wcxf/translators/wet.py:FlavorKit_to_JMS", "wcxf/translators/wet.py:JMS_to_FlavorKit"]}
{"id": "C78", "title": "repr() of a registered basis identifies it if EFT names contain no apostrophe", "statement": "repr() of a basis object is wcxf.Basis('eft', 'basis', {...}) from its creation on, whatever happens later, even if its construction failed. Two registered bases of EFTs without apostrophes in their names have the same repr() only if they are the same object; with apostrophes two different bases can have the same repr() (finding). repr() of two coefficient files, of EFTs without apostrophes, agree exactly if EFT, basis and scale agree, provided the texts of the two scales have no apostrophe and differ if the scales do; with apostrophes they can agree for different EFTs and bases (finding).", "quantifier": "all histories of creating, deleting, reading and validating EFTs and bases; all names; all coefficient objects and ways of formatting the scale", "why_tests_cant": "repr() is not tested; the claim is about all pairs of names and all histories", "anchors": ["wcxf/classes.py:Basis.__repr__", "wcxf/classes.py:WC.__repr__"]}
{"id": "C79", "title": "Writing and reading back keeps an object up to the order of the keys", "statement": "Suppose documents written as json or yaml are read back the same up to the order of the keys in mappings, which is all that holds for PyYAML (it sorts keys). Then dumping an EFT, basis or coefficient file and loading the text gives an object with the same public attributes up to the order of keys, after any number of rounds in any mixture of the two formats; a coefficient file keeps its EFT, basis and scale, and its coefficients as numbers. For a child basis the parent has to be registered with the child's sectors (they share the mapping). The constructors do not depend on the order of the fields of a file, and a file is rejected in all orders or in none. The order itself is not kept (finding).", "quantifier": "all three classes, all documents, formats and numbers of rounds; all printers and readers that keep documents up to order", "why_tests_cant": "all permutations of nested mappings, and any number of rounds", "anchors": ["wcxf/classes.py:WCxf.load", "wcxf/classes.py:WCxf.dump", "wcxf/classes.py:EFT.__init__", "wcxf/classes.py:Basis.__init__", "wcxf/classes.py:WC.__init__"]}
